(** Specification of recovery: a boot image that does not verify is replaced by the good
    image in the update partition. *)
From Verif Require Import Base HeaderModel HeaderSpec Flash ImageModel ImageSpec TrailerModel SwapModel SwapSpec.

(** The trailer of the update partition shows no swap in progress: it is erased, or it has
    been written with no sector flag set. *)
Definition no_progress (c : cfg) (f : flash) : Prop :=
  (forall x, UPDATE c + PART c - SECT c <= x < UPDATE c + PART c -> f x = 255) \/
  ((get_partition_state c f PUPDATE = Some ST_NEW \/ get_partition_state c f PUPDATE = Some ST_UPDATING) /\
   forall s, 0 <= s < PART c / SECT c -> get_update_sector_flag c f s = Some SF_NEW).

(** A good image [Y] waits in the update partition, triggered or not. *)
Definition spare (c : cfg) (Y : img) (f : flash) : Prop :=
  bytes f /\ good c Y /\ holds f (UPDATE c) (fst Y) /\ clean c f (BOOT c) /\ clean c f (UPDATE c) /\ no_progress c f.

(** The contents of [X] do not hash to the digest in its header (bit rot, a torn write...). *)
Definition damaged (c : cfg) (X : list Z) : Prop := forall d, ~ intact c 0 (hdr_of c X) (fw_of c X) d.

(** Any number of boots, each either complete or interrupted by a power failure; the
    application does not touch flash in between. *)
Inductive boots (c : cfg) : flash -> flash -> Prop :=
| bs_none : forall f, boots c f f
| bs_cut : forall f f1 f2 u, u 0%nat <> ST_FINAL ->
    crash (tear_std c) (start c u) f f1 -> boots c f1 f2 -> boots c f f2
| bs_run : forall f f1 f2 u r, u 0%nat <> ST_FINAL ->
    run (start c u) f = Done r f1 -> boots c f1 f2 -> boots c f f2.
