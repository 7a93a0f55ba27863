(** The memory protection unit of ARMv7-M processors as its architecture manual describes it,
    seen by privileged code.  Nothing here is wolfBoot's. *)
From Coq Require Import ZArith Bool List.
Import ListNotations.
Open Scope Z_scope.

(** The registers: the selected region, base address and attributes of each region, control, and
    the number of regions. *)
Record unit_ := mkU { u_rnr : Z; u_rbar : Z -> Z; u_rasr : Z -> Z; u_ctrl : Z; u_regions : nat }.

Definition upd (m : Z -> Z) (i v : Z) : Z -> Z := fun j => if j =? i then v else m j.

Definition write_rnr (u : unit_) (v : Z) : unit_ := mkU v (u_rbar u) (u_rasr u) (u_ctrl u) (u_regions u).
(** With the VALID bit (4) set, the REGION field (0-3) selects the region first. *)
Definition write_rbar (u : unit_) (v : Z) : unit_ :=
  let r := if Z.testbit v 4 then v mod 16 else u_rnr u in
  mkU r (upd (u_rbar u) r v) (u_rasr u) (u_ctrl u) (u_regions u).
Definition write_rasr (u : unit_) (v : Z) : unit_ :=
  mkU (u_rnr u) (u_rbar u) (upd (u_rasr u) (u_rnr u) v) (u_ctrl u) (u_regions u).
Definition write_ctrl (u : unit_) (v : Z) : unit_ := mkU (u_rnr u) (u_rbar u) (u_rasr u) v (u_regions u).

(** Region [r] applies to address [a]: it is enabled, the bits of [a] and of the base above its
    size of 2^(SIZE+1) bytes agree, and its eighth that [a] is in is not switched off. *)
Definition log_size (rasr : Z) : Z := (rasr / 2) mod 32 + 1.
Definition applies (rbar rasr a : Z) : bool :=
  Z.testbit rasr 0 && (a / 2 ^ log_size rasr =? rbar / 2 ^ log_size rasr) &&
  negb (Z.testbit rasr (8 + (a / 2 ^ (log_size rasr - 3)) mod 8)).

(** The attributes for [a]: those of the region with the highest number. *)
Fixpoint attributes (u : unit_) (n : nat) (a : Z) : option Z :=
  match n with
  | O => None
  | S n' => let r := Z.of_nat n' in
            if applies (u_rbar u r) (u_rasr u r) a then Some (u_rasr u r) else attributes u n' a
  end.

Definition enabled (u : unit_) : bool := Z.testbit (u_ctrl u) 0.

(** Privileged reading and writing (AP field, bits 24-26). *)
Definition ap_read (rasr : Z) : bool := existsb (Z.eqb ((rasr / 2 ^ 24) mod 8)) [1; 2; 3; 5; 6; 7].
Definition ap_write (rasr : Z) : bool := existsb (Z.eqb ((rasr / 2 ^ 24) mod 8)) [1; 2; 3].

(** The memory map without the unit: code, SRAM and external RAM can be executed. *)
Definition default_exec (a : Z) : bool := (a <? 0x40000000) || ((0x60000000 <=? a) && (a <? 0xA0000000)).

(** Without PRIVDEFENA (bit 2 of the control register), an address outside all regions faults. *)
Definition can_exec (u : unit_) (a : Z) : bool :=
  if enabled u then
    match attributes u (u_regions u) a with
    | Some x => ap_read x && negb (Z.testbit x 28)
    | None => Z.testbit (u_ctrl u) 2 && default_exec a
    end
  else default_exec a.
Definition can_access (u : unit_) (a : Z) : bool :=
  if enabled u then
    match attributes u (u_regions u) a with
    | Some x => ap_read x && ap_write x
    | None => Z.testbit (u_ctrl u) 2
    end
  else true.

(** Device memory (TEX 0, C 0, B 1): accesses are neither cached nor reordered. *)
Definition is_device (u : unit_) (a : Z) : Prop :=
  exists x, attributes u (u_regions u) a = Some x /\ (x / 2 ^ 19) mod 8 = 0 /\ Z.testbit x 17 = false /\ Z.testbit x 16 = true.
(** Normal memory, cached (C 1, B 1). *)
Definition is_cached (u : unit_) (a : Z) : Prop :=
  exists x, attributes u (u_regions u) a = Some x /\ Z.testbit x 17 = true /\ Z.testbit x 16 = true.

(** After reset: off, and no region enabled. *)
Definition fresh_unit (u : unit_) : Prop := u_ctrl u = 0 /\ forall r, Z.testbit (u_rasr u r) 0 = false.

(** The smallest of 8, 16, 32 and 64 KB that has room for [n] bytes. *)
Definition rounded (n : Z) : Z := if n <=? 0x2000 then 0x2000 else if n <=? 0x4000 then 0x4000 else if n <=? 0x8000 then 0x8000 else 0x10000.

Definition within (b n a : Z) : Prop := b <= a < b + n.
