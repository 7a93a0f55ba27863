(** What the flags of a partition are, for flags that end at address [e]: the four bytes of the
    magic number, in front of them the state, in front of it the flags of two sectors per
    byte. *)
From Verif Require Import Base Flash.

(** "BOOT" in memory on a little-endian processor, and on a big-endian one. *)
Definition boot_word (be : bool) : list Z := if be then [0x54; 0x4F; 0x4F; 0x42] else [0x42; 0x4F; 0x4F; 0x54].

Definition marked (be : bool) (f : flash) (e : Z) : Prop := map f [e - 4; e - 3; e - 2; e - 1] = boot_word be.

(** The magic number can still be programmed: no bit of it has been cleared. *)
Definition markable (be : bool) (f : flash) (e : Z) : Prop :=
  forall i, (i < 4)%nat -> Z.land (f (e - 4 + Z.of_nat i)) (nth i (boot_word be) 0) = nth i (boot_word be) 0.

Definition state_at (e : Z) : Z := e - 5.

(** Sector [s] has the low half of its byte if [s] is even, the high half otherwise. *)
Definition flag_at (e s : Z) : Z := e - 6 - s / 2.
Definition sector_flag (f : flash) (e s : Z) : Z :=
  if Z.even s then f (flag_at e s) mod 16 else f (flag_at e s) / 16.

(** [v] has only bits of [old], and all bits of [new]: programming [new] over [old] was
    interrupted, or not started, or finished. *)
Definition between (old new v : Z) : Prop := Z.land old v = v /\ Z.land v new = new.
