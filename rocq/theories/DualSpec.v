(** Specification of boot selection by version. *)
From Verif Require Import Base HeaderModel HeaderSpec Flash ImageModel ImageSpec TrailerModel SwapModel SwapSpec DualModel.

(** The version of the image in partition [p]: 0 if there is none. *)
Definition version (c : cfg) (f : flash) (p : part) (v : Z) : Prop := version_at c f (part_addr c p) v.

(** [p] has the greatest version, and some version; on equal versions the boot partition
    wins. *)
Definition preferred (c : cfg) (f : flash) (p : part) : Prop :=
  p <> PSWAP /\ exists v w, version c f p v /\ version c f (other p) w /\ 0 < v /\ (w < v \/ (w = v /\ p = PBOOT)).

(** [p] was started and never confirmed, and there is an alternative. *)
Definition discarded (c : cfg) (f : flash) (p : part) : Prop :=
  get_partition_state c f p = Some ST_TESTING /\ exists w, version c f (other p) w /\ 0 < w.

(** The partition to boot, and the flash contents once it has been chosen. *)
Inductive candidate (c : cfg) (f : flash) : option part -> flash -> Prop :=
| ca_none : version c f PBOOT 0 -> version c f PUPDATE 0 -> candidate c f None f
| ca_keep : forall p, preferred c f p -> ~ discarded c f p -> candidate c f (Some p) f
| ca_drop : forall p, preferred c f p -> discarded c f p ->
    candidate c f (Some (other p)) (erase f (part_addr c p) (PART c)).

(** Both partitions have a version. *)
Definition two_images (c : cfg) (f : flash) : Prop :=
  exists v w, version c f PBOOT v /\ version c f PUPDATE w /\ 0 < v /\ 0 < w.

(** The state of partition [p] once its image is started: UPDATING becomes TESTING. *)
Definition started (c : cfg) (p : part) (f f' : flash) : Prop :=
  (get_partition_state c f p = Some ST_UPDATING /\ get_partition_state c f' p = Some ST_TESTING /\
   forall x, x <> state_addr c p -> f' x = f x) \/
  (get_partition_state c f p <> Some ST_UPDATING /\ f' = f).

(** What the hardware-swap loader does from contents [f1] with candidate [p]: it takes [p] if
    it is verified, otherwise erases it and takes the other one if there is one and it is
    verified; otherwise it panics ([None]). *)
Inductive hw_choice (c : cfg) (f1 : flash) (p : part) : option part -> flash -> Prop :=
| hw_first : verified c f1 (part_addr c p) -> hw_choice c f1 p (Some p) f1
| hw_second : ~ verified c f1 (part_addr c p) -> two_images c f1 ->
    verified c (erase f1 (part_addr c p) (PART c)) (part_addr c (other p)) ->
    hw_choice c f1 p (Some (other p)) (erase f1 (part_addr c p) (PART c))
| hw_no_backup : ~ verified c f1 (part_addr c p) -> ~ two_images c f1 -> hw_choice c f1 p None f1
| hw_both_bad : ~ verified c f1 (part_addr c p) -> two_images c f1 ->
    ~ verified c (erase f1 (part_addr c p) (PART c)) (part_addr c (other p)) ->
    hw_choice c f1 p None (erase f1 (part_addr c p) (PART c)).

(** A flash driver that delivers what is stored. *)
Definition faithful (rd : flash -> Z -> Z -> Z * (Z -> Z)) : Prop :=
  forall f a n, bytes f -> 0 <= n < 2 ^ 31 -> fst (rd f a n) = n /\ forall i, 0 <= i < n -> snd (rd f a n) i = f (a + i).
(** Any driver delivers bytes. *)
Definition delivers_bytes (rd : flash -> Z -> Z -> Z * (Z -> Z)) : Prop :=
  forall f a n i, bytes f -> is_byte (snd (rd f a n) i).

(** The image in partition [p] as it appears in RAM at [a] after a copy of header and
    firmware. *)
Definition copied (c : cfg) (f : flash) (p : part) (m : flash) (a : Z) : Prop :=
  bytes m /\ forall i, 0 <= i < HDR c + Z.min (word f (part_addr c p + 4)) (PART c - HDR c) -> m (a + i) = f (part_addr c p + i).

(** No copy of the image in partition [p] passes verification at [a]. *)
Definition unbootable (c : cfg) (f : flash) (p : part) (a : Z) : Prop :=
  forall m, copied c f p m a -> ~ verified c m a.
