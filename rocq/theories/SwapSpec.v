(** Specification of updates: what an acceptable candidate is, and the life of a device as
    seen from outside (boots, power cuts, confirmations, downloads and triggers). *)
From Verif Require Import Base HeaderModel HeaderSpec Flash ImageModel ImageSpec TrailerModel SwapModel.

(** ** Power-failure assumptions (see DESIGN.md)

    The erase of the sector that holds the update partition's flags (the last sector of
    that partition, or of the boot partition under FLAGS_HOME) completes once started, and an interrupted operation
    on the sector before a trailer does not by accident produce the trailer magic in that
    sector's first word. *)
Definition tear_std (c : cfg) : tear := {|
  atomic_erase := fun a => a < UFLAGS c <= a + SECT c;
  guarded := fun w => w = BOOT c + (PART c - 2 * SECT c) \/ w = UPDATE c + (PART c - 2 * SECT c) |}.

(** ** Verified images *)

(** The image stored at [a] (header and as much firmware as the header says, bounded by
    the partition) is intact and carries a valid signature by an allowed key. *)
Definition verified (c : cfg) (f : flash) (a : Z) : Prop :=
  word f a = WOLFBOOT_MAGIC /\ word f (a + 4) <= PART c - HDR c /\
  exists d,
    intact c a (rdl f a (Z.to_nat (HDR c))) (rdl f (a + HDR c) (Z.to_nat (word f (a + 4)))) d /\
    authentic c f a (rdl f a (Z.to_nat (HDR c))) d.

(** The version written in the header at [a]: the value of the version field, 0 if there
    is none. *)
Definition version_at (c : cfg) (f : flash) (a v : Z) : Prop :=
  let h := rdl f a (Z.to_nat (HDR c)) in
  (word f a <> WOLFBOOT_MAGIC /\ v = 0) \/
  (word f a = WOLFBOOT_MAGIC /\ no_field a h HDR_VERSION /\ v = 0) \/
  (word f a = WOLFBOOT_MAGIC /\ exists off d, field_at a h HDR_VERSION off d /\
     v = match d with [] => 0 | _ => word f (a + Z.of_nat off) end).

(** A candidate the boot routine may install when no swap is in progress. *)
Definition acceptable (c : cfg) (f : flash) (fallback : bool) : Prop :=
  verified c f (UPDATE c) /\ type_ok c (UPDATE c) (rdl f (UPDATE c) (Z.to_nat (HDR c))) TYPE_APP /\
  (fallback = true \/ c_allow_downgrade c = true \/
   exists v1 v2, version_at c f (BOOT c) v1 /\ version_at c f (UPDATE c) v2 /\ v1 < v2).

(** ** The life of a device *)

(** An image: its bytes and its version. *)
Definition img : Type := list Z * Z.
Definition good (c : cfg) (A : img) : Prop := genuine c (fst A) (snd A).

(** The frame of an image is right: its header magic and size field, and it fits.  The
    rest of its bytes may be damaged. *)
Record framed (c : cfg) (X : list Z) : Prop := {
  fr_magic : le_val (firstn 4 X) = WOLFBOOT_MAGIC;
  fr_size : le_val (sub X 4 4) = zlen X - HDR c;
  fr_len : HDR c < zlen X;
  fr_fit : zlen X <= PART c - SECT c }.

(** The word the boot routine takes for an unfinished swap. *)
Definition clean (c : cfg) (f : flash) (a : Z) : Prop := word f (a + (PART c - 2 * SECT c)) <> WOLFBOOT_MAGIC_TRAIL.

(** The running image is on trial: installed and not confirmed. *)
Definition on_trial (c : cfg) (f : flash) : Prop := get_partition_state c f PBOOT = Some ST_TESTING.

(** Not on trial, and no update is pending. *)
Definition settled (c : cfg) (f : flash) : Prop :=
  ~ on_trial c f /\
  get_partition_state c f PUPDATE <> Some ST_UPDATING /\ get_partition_state c f PUPDATE <> Some ST_FINAL.

Inductive event :=
| EBoot               (* a boot that reaches the application *)
| ECut                (* power fails while the bootloader or a trailer update is running *)
| EConfirm            (* the application confirms itself *)
| EInstall            (* the application rewrites the update partition *)
| ETrigger (B : img)  (* the application triggers an update to the genuine image [B] *)
| ETriggerBad.        (* it triggers an update to something that is not acceptable *)

(** [step c (f, on) e (f', on')]: [on] says that the application is running. *)
Inductive step (c : cfg) : flash * bool -> event -> flash * bool -> Prop :=
| s_boot : forall f on u r f', u 0%nat <> ST_FINAL ->
    run (start c u) f = Done r f' -> step c (f, on) EBoot (f', true)
| s_cut : forall f on u f', u 0%nat <> ST_FINAL ->
    crash (tear_std c) (start c u) f f' -> step c (f, on) ECut (f', false)
| s_confirm : forall f f', on_trial c f ->
    run (success c) f = Done tt f' -> step c (f, true) EConfirm (f', true)
| s_confirm_cut : forall f f', on_trial c f ->
    crash (tear_std c) (success c) f f' -> step c (f, true) ECut (f', false)
| s_confirm_again : forall f f', ~ on_trial c f ->
    get_partition_state c f PBOOT = Some ST_SUCCESS \/ get_partition_state c f PUPDATE <> Some ST_UPDATING ->
    run (success c) f = Done tt f' -> step c (f, true) EConfirm (f', true)
| s_confirm_again_cut : forall f f', get_partition_state c f PBOOT = Some ST_SUCCESS ->
    crash (tear_std c) (success c) f f' -> step c (f, true) ECut (f', false)
| s_install : forall f f', ~ on_trial c f -> settled c f' -> bytes f' ->
    (forall x, ~ (UPDATE c <= x < UPDATE c + PART c) -> f' x = f x) ->
    step c (f, true) EInstall (f', true)
| s_trigger : forall f f' B, ~ on_trial c f -> good c B -> holds f (UPDATE c) (fst B) -> clean c f (UPDATE c) ->
    run (update_trigger c (SECT c)) f = Done tt f' -> step c (f, true) (ETrigger B) (f', true)
| s_trigger_cut : forall f f' B, ~ on_trial c f -> good c B -> holds f (UPDATE c) (fst B) -> clean c f (UPDATE c) ->
    crash (tear_std c) (update_trigger c (SECT c)) f f' -> step c (f, true) ECut (f', false)
| s_trigger_bad : forall f f', ~ on_trial c f ->
    HDR c <= SECT c \/ word f (UPDATE c + 4) <= PART c - HDR c ->
    run (update_trigger c (SECT c)) f = Done tt f' -> ~ acceptable c f' false ->
    step c (f, true) ETriggerBad (f', true)
| s_trigger_bad_cut : forall f f', ~ on_trial c f ->
    HDR c <= SECT c \/ word f (UPDATE c + 4) <= PART c - HDR c ->
    crash (tear_std c) (update_trigger c (SECT c)) f f' -> ~ acceptable c f' false ->
    step c (f, true) ECut (f', false).

Inductive steps (c : cfg) : flash * bool -> list event -> flash * bool -> Prop :=
| steps_nil : forall s, steps c s [] s
| steps_cons : forall s e s1 es s2, step c s e s1 -> steps c s1 es s2 -> steps c s (e :: es) s2.

(** A device running [A], with no update pending and nothing on trial. *)
Definition initial (c : cfg) (A : img) (f : flash) : Prop :=
  bytes f /\ holds f (BOOT c) (fst A) /\ clean c f (BOOT c) /\ settled c f.

(** ** What the user expects

    [Idle A]: [A] is installed and confirmed.  [Pending A B]: [A] is running, an update to
    [B] was triggered.  [Trial A B]: [A] was just installed and is not confirmed, [B] is the
    image to fall back to. *)
Inductive device := Idle (A : img) | Pending (A B : img) | Trial (A B : img).

(** Any number of boots, each interrupted by a power failure. *)
Inductive power_cuts (c : cfg) : flash -> flash -> Prop :=
| pc_none : forall f, power_cuts c f f
| pc_more : forall f f1 f2 u, u 0%nat <> ST_FINAL ->
    crash (tear_std c) (start c u) f f1 -> power_cuts c f1 f2 -> power_cuts c f f2.

(** An image [A] is installed, [B] was written to the update partition and triggered. *)
Definition triggered_update (c : cfg) (A B : img) (f : flash) : Prop :=
  exists f0, bytes f0 /\ holds f0 (BOOT c) (fst A) /\ holds f0 (UPDATE c) (fst B) /\
    clean c f0 (BOOT c) /\ clean c f0 (UPDATE c) /\ ~ on_trial c f0 /\
    run (update_trigger c (SECT c)) f0 = Done tt f.

(** The update was then installed by a complete boot. *)
Definition installed_update (c : cfg) (A B : img) (f : flash) : Prop :=
  exists f0 u r, triggered_update c A B f0 /\ run (start c u) f0 = Done r f.

(** The image the next complete boot runs. *)
Definition next_boot (s : device) : img :=
  match s with Idle A => A | Pending _ B => B | Trial _ B => B end.

(** The image left in the update partition by the next complete boot. *)
Definition next_backup (s : device) : option img :=
  match s with Idle _ => None | Pending A _ => Some A | Trial A _ => Some A end.

Definition may_install (c : cfg) (A B : img) : Prop := c_allow_downgrade c = true \/ snd A < snd B.

(** The confirmed image [A] is running (an update may be pending, waiting for a reboot). *)
Inductive running : device -> img -> Prop :=
| r_idle : forall A, running (Idle A) A
| r_pending : forall A B, running (Pending A B) A.

Inductive expect (c : cfg) : device -> event -> device -> Prop :=
(* a complete boot *)
| x_idle : forall A, expect c (Idle A) EBoot (Idle A)
| x_update : forall A B, expect c (Pending A B) EBoot (Trial B A)
| x_fallback : forall A B, expect c (Trial A B) EBoot (Trial B A)
(* a power cut changes nothing, or happens after the operation took effect *)
| x_cut : forall s, expect c s ECut s
| x_cut_update : forall A B, expect c (Pending A B) ECut (Trial B A)
| x_cut_fallback : forall A B, expect c (Trial A B) ECut (Trial B A)
| x_cut_confirm : forall A B, expect c (Trial A B) ECut (Idle A)
| x_cut_trigger : forall s A B, running s A -> may_install c A B -> good c B -> expect c s ECut (Pending A B)
| x_cut_cancel : forall s A, running s A -> expect c s ECut (Idle A)
(* the application *)
| x_confirm : forall A B, expect c (Trial A B) EConfirm (Idle A)
| x_confirm_again : forall s A, running s A -> expect c s EConfirm s
| x_install : forall s A, running s A -> expect c s EInstall (Idle A)
| x_trigger : forall s A B, running s A -> may_install c A B -> expect c s (ETrigger B) (Pending A B)
| x_trigger_old : forall s A B, running s A -> ~ may_install c A B -> expect c s (ETrigger B) (Idle A)
| x_trigger_bad : forall s A, running s A -> expect c s ETriggerBad (Idle A).

Inductive expects (c : cfg) : device -> list event -> device -> Prop :=
| expects_nil : forall s, expects c s [] s
| expects_cons : forall s e s1 es s2, expect c s e s1 -> expects c s1 es s2 -> expects c s (e :: es) s2.
