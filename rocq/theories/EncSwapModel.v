(** Copying sectors in builds with an encrypted external update partition (EXT_ENCRYPTED): the
    boot partition is in internal flash, the update and swap partitions in external flash.
    Source: src/update_flash.c, include/image.h.  The cipher was initialised by an earlier
    read of the update header; states and sector flags are not part of this model. *)
From Verif Require Import Base HeaderModel Flash CryptModel.

Record encfg : Type := {
  X : ext;          (* update and swap partitions; SSZ is WOLFBOOT_SECTOR_SIZE *)
  XBOOT : Z;        (* WOLFBOOT_PARTITION_BOOT_ADDRESS *)
  XFB : Z;          (* FLASHBUFFER_SIZE *)
  XHDR : Z          (* IMAGE_HEADER_SIZE *)
}.
Inductive epart := EBoot | EUpd | ESwp.
Definition ebase (x : encfg) (p : epart) : Z :=
  match p with EBoot => XBOOT x | EUpd => UPD (X x) | ESwp => SWP (X x) end.
(** Internal and external flash. *)
Record store2 : Type := mkS { intf : flash; extf : flash }.

(** include/image.h:882-889 [wb_flash_erase]. *)
Definition wb_erase (x : encfg) (p : epart) (off n : Z) (g : store2) : store2 :=
  match p with
  | EBoot => mkS (erase (intf g) (XBOOT x + off) n) (extf g)
  | _ => mkS (intf g) (erase (extf g) (ebase x p + off) n)
  end.
(** include/image.h:891-898 [wb_flash_write] of [XFB] bytes; the result is ignored by the
    caller. *)
Definition wb_write (x : encfg) (p : epart) (off : Z) (buf : list Z) (g : store2) : out store2 :=
  match p with
  | EBoot => Val (mkS (write (intf g) (XBOOT x + off) (XFB x) (fun i => nth (Z.to_nat i) buf 0)) (extf g))
  | _ => dlet (r, f) <- enc_write (X x) true (extf g) (ebase x p + off) buf (XFB x) in Val (mkS (intf g) f)
  end.

(** The cipher after [ext_flash_decrypt_read] of [len] bytes of the swap partition, from a
    block boundary (src/libwolfboot.c:1837-1866). *)
Definition after_read (e : ext) (cur : St (EC e) * Z) (f : flash) (address len : Z) : St (EC e) * Z :=
  let n := len / EBS (EC e) * EBS (EC e) in
  let st := snd (process (EC e) (fst cur) (snd cur) (ext_read f address n)) in
  if 0 <? len - n then snd (process (EC e) (fst st) (snd st) (ext_read f (address + n) (EBS (EC e)))) else st.

(** src/update_flash.c:172-191, 197-202: one buffer from [src]; swap receives the bytes as
    they are, otherwise external bytes are decrypted.  [buf] is the static buffer, which keeps
    its contents if the read fails. *)
Definition read_chunk (x : encfg) (s d : epart) (off : Z) (cur : St (EC (X x)) * Z) (buf : list Z) (g : store2)
  : out (list Z * (St (EC (X x)) * Z)) :=
  match s with
  | EBoot => Val (rdl (intf g) (XBOOT x + off) (Z.to_nat (XFB x)), cur)
  | _ =>
    match d with
    | ESwp => Val (ext_read (extf g) (ebase x s + off) (XFB x), cur)
    | _ =>
      dlet (r, b) <- dec_read (X x) true cur (extf g) (ebase x s + off) (XFB x) in
      Val (if r =? -1 then buf else b, after_read (X x) cur (extf g) (ebase x s + off) (XFB x))
    end
  end.

(** src/update_flash.c:172-195 and 198-207: the loop over the sector. *)
Fixpoint chunks (fuel : nat) (x : encfg) (s d : epart) (so do size pos : Z) (cur : St (EC (X x)) * Z) (buf : list Z) (g : store2)
  : out store2 :=
  if pos <? SSZ (X x) then
    match fuel with
    | O => NoFuel
    | S fuel' =>
      if so + pos <? size + XHDR x + XFB x then
        dlet (b, cur') <- read_chunk x s d (so + pos) cur buf g in
        dlet g' <- wb_write x d (do + pos) b g in
        chunks fuel' x s d so do size (pos + XFB x) cur' b g'
      else chunks fuel' x s d so do size (pos + XFB x) cur buf g
    end
  else Val g.

(** src/update_flash.c:136-208 [wolfBoot_copy_sector] between different partitions; [size] is
    [src->fw_size], [buf] what the buffer contains. *)
Definition copy_enc (x : encfg) (s d : epart) (size sector : Z) (buf : list Z) (g : store2) : out store2 :=
  let e := X x in
  let so := match s with ESwp => 0 | _ => sector * SSZ e end in
  let do := match d with ESwp => 0 | _ => sector * SSZ e end in
  let iv := match s with ESwp => do | _ => so end / EBS (EC e) in
  chunks (Z.to_nat (SSZ e)) x s d so do size 0 (seek (EC e) iv, 0) buf (wb_erase x d do (SSZ e) g).

(** src/update_flash.c:728-757: one sector of the swap from its first step on; [su], [sb] are
    the sizes in the headers, that of the swap partition is the sector size
    (src/image.c:1235-1242). *)
Definition swap_sector (x : encfg) (su sb sector : Z) (buf : list Z) (g : store2) : out store2 :=
  dlet g1 <- copy_enc x EUpd ESwp su sector buf g in
  dlet g2 <- copy_enc x EBoot EUpd sb sector buf g1 in
  copy_enc x ESwp EBoot (SSZ (X x)) sector buf g2.

(** src/update_flash.c:722-757: the sectors from [sector] on, [n] of them. *)
Fixpoint swap_sectors (n : nat) (x : encfg) (su sb sector : Z) (buf : list Z) (g : store2) : out store2 :=
  match n with
  | O => Val g
  | S n' => dlet g' <- swap_sector x su sb sector buf g in swap_sectors n' x su sb (sector + 1) buf g'
  end.

(** src/update_flash.c:290-323, the sector saved and restored by
    [wolfBoot_swap_and_final_erase]: it is copied to the swap partition, replaced by the key
    and the magic, and copied back.  [key] is what the sector holds meanwhile; the erasure of
    the last sector does not concern this sector. *)
Definition save_restore (x : encfg) (sb sector : Z) (key : flash) (buf : list Z) (g : store2) : out (store2 * store2) :=
  dlet g1 <- copy_enc x EBoot ESwp sb sector buf g in
  let a := XBOOT x + sector * SSZ (X x) in
  let g2 := mkS (fun i => if inr a (SSZ (X x)) i then key i else intf g1 i) (extf g1) in
  dlet g3 <- copy_enc x ESwp EBoot (SSZ (X x)) sector buf g2 in
  Val (g1, g3).
