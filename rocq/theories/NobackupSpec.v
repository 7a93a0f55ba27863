(** Specification of single-slot updates and of bootloader self-update. *)
From Verif Require Import Base HeaderModel HeaderSpec Flash ImageModel ImageSpec TrailerModel SwapModel
  SwapSpec NobackupModel.

(** Any tear at all: an interrupted erase or program of image data leaves arbitrary bytes. *)
Definition tear_free : tear := {| atomic_erase := fun _ => False; guarded := fun _ => False |}.

(** The image [B] is in the update partition and marked for installation. *)
Definition marked (c : cfg) (B : img) (f : flash) : Prop :=
  bytes f /\ holds f (UPDATE c) (fst B) /\
  get_partition_state c f PUPDATE = Some ST_UPDATING /\ get_update_sector_flag c f 0 = Some SF_NEW.

(** Any number of interrupted boots. *)
Inductive direct_cuts (c : cfg) : flash -> flash -> Prop :=
| dc_none : forall f, direct_cuts c f f
| dc_more : forall f f1 f2, crash tear_free (start_direct c) f f1 -> direct_cuts c f1 f2 -> direct_cuts c f f2.

(** The boot partition already holds a verified image that is not older than [B], in a
    build that refuses such updates. *)
Definition not_newer (c : cfg) (B : img) (f : flash) : Prop :=
  c_allow_downgrade c = false /\ verified c f (BOOT c) /\
  ~ on_trial c f /\ exists v, version_at c f (BOOT c) v /\ snd B <= v.

(** The update partition holds an authentic newer bootloader, marked for installation. *)
Definition self_due (c : cfg) (s : self) (f : flash) : Prop :=
  get_partition_state c f PUPDATE = Some ST_UPDATING /\ verified c f (UPDATE c) /\
  (exists off b0 b1, field_at (UPDATE c) (rdl f (UPDATE c) (Z.to_nat (HDR c))) HDR_IMG_TYPE off [b0; b1] /\
     b0 + 256 * b1 = c_auth c) /\
  exists v, version_at c f (UPDATE c) v /\ s_version s < v.
