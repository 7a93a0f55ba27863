(** Flags on flash that is erased to zero, where bits can only be set: see ExtFlagsSpec.v for
    their places. *)
From Verif Require Import Base Flash ExtFlagsSpec.

(** No bit is set that the magic number does not have. *)
Definition imarkable (f : flash) (e : Z) : Prop :=
  forall i, (i < 4)%nat -> Z.lor (f (e - 4 + Z.of_nat i)) (nth i (boot_word false) 0) = nth i (boot_word false) 0.
(** [v] has all bits of [old] and no other bits than [new]. *)
Definition ibetween (old new v : Z) : Prop := Z.lor old v = v /\ Z.lor v new = new.
