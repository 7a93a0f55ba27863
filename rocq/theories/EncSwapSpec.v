(** Specification of the swap with an encrypted external update partition. *)
From Verif Require Import Base HeaderModel Flash CryptModel CryptSpec EncSwapModel.

(** Sane build: sectors consist of whole buffers, buffers of whole cipher blocks and fit the
    encryption cache; the swap partition starts at a block boundary outside the update
    partition. *)
Definition enc_ok (x : encfg) : Prop :=
  ext_ok (X x) /\ 0 < XFB x <= CSZ (X x) /\ 0 < SSZ (X x) /\ SSZ (X x) mod XFB x = 0 /\ XFB x mod EBS (EC (X x)) = 0 /\
  SWP (X x) mod EBS (EC (X x)) = 0 /\ (SWP (X x) + SSZ (X x) <= UPD (X x) \/ UPD (X x) + PSZ (X x) <= SWP (X x)) /\
  0 <= XHDR x.

Definition bytes2 (g : store2) : Prop := bytes (intf g) /\ bytes (extf g).

(** Byte [i] of the boot partition, of the update partition in clear, and of the external
    flash as an observer sees it. *)
Definition boot_at (x : encfg) (g : store2) (i : Z) : Z := intf g (XBOOT x + i).
Definition upd_raw (x : encfg) (g : store2) (i : Z) : Z := extf g (UPD (X x) + i).
Definition upd_at (x : encfg) (g : store2) (i : Z) : Z := Z.lxor (upd_raw x g i) (stream (EC (X x)) i).
Definition swap_raw (x : encfg) (g : store2) (i : Z) : Z := extf g (SWP (X x) + i).

(** [g] and [g'] agree outside the given sectors. *)
Definition agree_int (x : encfg) (k n : Z) (g g' : store2) : Prop :=
  forall a, ~ (XBOOT x + k * SSZ (X x) <= a < XBOOT x + (k + n) * SSZ (X x)) -> intf g' a = intf g a.
Definition agree_ext (x : encfg) (k n : Z) (g g' : store2) : Prop :=
  forall a, ~ (UPD (X x) + k * SSZ (X x) <= a < UPD (X x) + (k + n) * SSZ (X x)) ->
    ~ (SWP (X x) <= a < SWP (X x) + SSZ (X x)) -> extf g' a = extf g a.

(** [g'] differs from [g] in nothing but sector [k] of [p] (the one sector of swap): what a
    power failure while that sector is erased and written leaves. *)
Definition only (x : encfg) (p : epart) (k : Z) (g g' : store2) : Prop :=
  bytes2 g' /\
  match p with
  | EBoot => extf g' = extf g /\ forall a, ~ (XBOOT x + k * SSZ (X x) <= a < XBOOT x + (k + 1) * SSZ (X x)) -> intf g' a = intf g a
  | EUpd => intf g' = intf g /\ forall a, ~ (UPD (X x) + k * SSZ (X x) <= a < UPD (X x) + (k + 1) * SSZ (X x)) -> extf g' a = extf g a
  | ESwp => intf g' = intf g /\ forall a, ~ (SWP (X x) <= a < SWP (X x) + SSZ (X x)) -> extf g' a = extf g a
  end.

(** From [g] to [g'], the images of sizes [su] (update) and [sb] (boot) have been exchanged in
    sectors [k] to [k + n - 1], one decrypted and the other encrypted; nothing else but the
    swap partition has changed. *)
Definition swapped (x : encfg) (k n su sb : Z) (g g' : store2) : Prop :=
  bytes2 g' /\ agree_int x k n g g' /\ agree_ext x k n g g' /\
  (forall i, k * SSZ (X x) <= i < (k + n) * SSZ (X x) -> i < su + XHDR x -> boot_at x g' i = upd_at x g i) /\
  (forall i, k * SSZ (X x) <= i < (k + n) * SSZ (X x) -> i < sb + XHDR x -> upd_at x g' i = boot_at x g i).
