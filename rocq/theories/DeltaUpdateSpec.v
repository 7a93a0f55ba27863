(** Specification of delta updates: what a delta image from one version to another is, and
    the life of a device that has one in its update partition. *)
From Verif Require Import Base HeaderModel HeaderSpec Flash ImageModel ImageSpec TrailerModel SwapModel SwapSpec
  DeltaModel DeltaSpec DeltaUpdateModel.

(** The first field of type [ty] in the header of [X] is the four-byte number [v]. *)
Definition num_field (c : cfg) (X : list Z) (ty v : Z) : Prop :=
  exists off d, field_at 0 (hdr_of c X) ty off d /\ length d = 4%nat /\ v = le_val d.

(** [P] is stored in [D], [off] bytes from its start. *)
Definition carries (D : list Z) (off : Z) (P : list Z) : Prop :=
  0 <= off /\ off + zlen P <= zlen D /\
  forall j, 0 <= j < zlen P -> nth (Z.to_nat (off + j)) D 0 = nth (Z.to_nat j) P 0.

(** [P] is the patch the signing tool makes from [S] to [T], for the device's sector size.
    As for the images of a full update, [T] (and the memory read after its end) does not have
    the trailer magic at the start of the sector before the trailer. *)
Definition patch_for (c : cfg) (S T P : list Z) : Prop :=
  exists i, usable i /\ d_sect i = SECT c /\ d_sa i = zlen S /\ d_sb i = zlen T /\
    holds (d_a i) 0 S /\ holds (d_b i) 0 T /\ make_patch i = Val (Some P) /\
    word (d_b i) (PART c - 2 * SECT c) <> WOLFBOOT_MAGIC_TRAIL.

(** The base hash recorded in [D], if any, is the digest recorded in [A]. *)
Definition base_hash_ok (c : cfg) (D A : list Z) : Prop :=
  no_field 0 (hdr_of c D) HDR_IMG_DELTA_BASE_HASH \/
  exists off off' d, field_at 0 (hdr_of c D) HDR_IMG_DELTA_BASE_HASH off d /\
    field_at 0 (hdr_of c A) (c_hash_tag c) off' d.

(** The type field says that the image is a delta image. *)
Definition delta_type (c : cfg) (D : list Z) : Prop :=
  exists off b0 b1, field_at 0 (hdr_of c D) HDR_IMG_TYPE off [b0; b1] /\ b0 / 16 = 13.

(** A signed delta image from [A] to [B], with the patches in both directions. *)
Record delta_of (c : cfg) (A B : img) (D : list Z) : Prop := {
  do_genuine : genuine c D (snd B);
  do_type : delta_type c D;
  do_base : num_field c D HDR_IMG_DELTA_BASE (snd A);
  do_hash : base_hash_ok c D (fst A);
  do_patch : exists P, patch_for c (fst A) (fst B) P /\ num_field c D HDR_IMG_DELTA_SIZE (zlen P) /\
    carries D (HDR c) P;
  do_inverse : exists P off, patch_for c (fst B) (fst A) P /\ num_field c D HDR_IMG_DELTA_INVERSE off /\
    num_field c D HDR_IMG_DELTA_INVERSE_SIZE (zlen P) /\ carries D off P }.

(** Any number of boots, complete or cut short by a power failure. *)
Inductive delta_boots (c : cfg) (blk : Z) : flash -> flash -> Prop :=
| db_none : forall f, delta_boots c blk f f
| db_cut : forall f f1 f2 u, u 0%nat <> ST_FINAL ->
    crash (tear_std c) (start_delta c blk u) f f1 -> delta_boots c blk f1 f2 -> delta_boots c blk f f2
| db_boot : forall f r f1 f2 u, u 0%nat <> ST_FINAL ->
    run (start_delta c blk u) f = Done r f1 -> delta_boots c blk f1 f2 -> delta_boots c blk f f2.

(** The update is complete: the image in the boot partition is on trial and the update
    partition no longer has a pending request. *)
Definition update_done (c : cfg) (f : flash) : Prop :=
  get_partition_state c f PBOOT = Some ST_TESTING /\ get_partition_state c f PUPDATE = None.

(** Any number of boots all cut short by a power failure before the update was complete. *)
Inductive delta_cuts (c : cfg) (blk : Z) (f : flash) : flash -> Prop :=
| dc_none : delta_cuts c blk f f
| dc_cut : forall f1 f2 u, delta_cuts c blk f f1 -> ~ update_done c f1 -> u 0%nat <> ST_FINAL ->
    crash (tear_std c) (start_delta c blk u) f1 f2 -> delta_cuts c blk f f2.

(** The delta image was triggered, and installed by a complete boot. *)
Definition installed_delta (c : cfg) (blk : Z) (A B : img) (D : list Z) (f : flash) : Prop :=
  exists f0 u r, triggered_update c A (D, snd B) f0 /\ run (start_delta c blk u) f0 = Done r f.
