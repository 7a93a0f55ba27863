(** C83: partition flags in external flash. *)
From Verif Require Import Base BaseLemmas HeaderModel Flash FlashLemmas ImageModel Geometry TrailerModel TrailerProofs TriggerProofs TrailerProps ExtFlagsModel ExtFlagsSpec ExtFlagsProofs.
Local Ltac Zify.zify_post_hook ::= idtac.

(** [r] is what reading the state of [p] gives, whatever was read before. *)
Definition reads_state (x : xcfg) (c : cfg) (p : part) (f : flash) (r : option Z) : Prop :=
  forall k, exists k', run (x_get_state x c p k) f = Done (r, k') f.
Definition reads_flag (x : xcfg) (c : cfg) (s : Z) (f : flash) (r : option Z) : Prop :=
  forall k, exists k', run (x_get_flag x c s k) f = Done (r, k') f.

(** The functions that read flags return what is there, on every processor, whatever the cache
    holds. *)
Theorem C83_read : forall x c f, bytes f ->
  (forall p, (marked (X_be x) f (endflags c p) -> reads_state x c p f (Some (f (state_at (endflags c p))))) /\
             (~ marked (X_be x) f (endflags c p) -> reads_state x c p f None)) /\
  (forall s, 0 <= s < 512 ->
     (marked (X_be x) f (endflags c PUPDATE) -> reads_flag x c s f (Some (sector_flag f (endflags c PUPDATE) s))) /\
     (~ marked (X_be x) f (endflags c PUPDATE) -> reads_flag x c s f None)).
Proof.
  intros x c f Hb. split; [intro p|intros s Hs]; split; intros M k.
  - destruct (get_state_run x c p k f) as [k' E]. exists k'. rewrite E, (proj2 (is_magic_marked x f (endflags c p)) M). reflexivity.
  - destruct (get_state_run x c p k f) as [k' E]. exists k'. rewrite E.
    destruct (is_magic x _) eqn:Q; [|reflexivity]. apply is_magic_marked in Q. tauto.
  - destruct (get_flag_run x c s k f Hb Hs) as [k' E]. exists k'. rewrite E, (proj2 (is_magic_marked x f (endflags c PUPDATE)) M). reflexivity.
  - destruct (get_flag_run x c s k f Hb Hs) as [k' E]. exists k'. rewrite E.
    destruct (is_magic x _) eqn:Q; [|reflexivity]. apply is_magic_marked in Q. tauto.
Qed.
Print Assumptions C83_read.

(** A little-endian processor: the state that was set is read back, if it only clears bits, and
    nothing but the state and the magic number changes. *)
Theorem C83_state : forall x c p st k f, X_be x = false -> bytes f -> is_byte st -> markable false f (endflags c p) ->
  exists k' g, run (x_set_state x c p st k) f = Done k' g /\ bytes g /\
    reads_state x c p g (Some (Z.land (f (endflags c p - 5)) st)) /\
    (forall y, ~ (endflags c p - 5 <= y < endflags c p) -> g y = f y).
Proof.
  intros x c p st k f Le Hb Hs Hm. rewrite <- Le in Hm. destruct (state_run x c p st k f Le Hb Hs Hm) as (k' & g & E & Bg & Mg & Sg & O & _).
  exists k', g. split; [exact E|]. split; [exact Bg|]. split; [|exact O].
  change (endflags c p - 5) with (state_at (endflags c p)). rewrite <- Sg. apply C83_read; assumption.
Qed.
Print Assumptions C83_state.

(** A flag that was set is read back, the flags of all other sectors and the state stay. *)
Theorem C83_flag : forall x c s v k f, X_be x = false -> bytes f -> 0 <= s < 512 -> 0 <= v < 16 -> markable false f (endflags c PUPDATE) ->
  Z.land (sector_flag f (endflags c PUPDATE) s) v = v ->
  exists k' g, run (x_set_flag x c s v k) f = Done k' g /\ bytes g /\ reads_flag x c s g (Some v) /\
    (forall s', 0 <= s' < 512 -> s' <> s -> reads_flag x c s' g (Some (sector_flag f (endflags c PUPDATE) s'))) /\
    (forall y, ~ (endflags c PUPDATE - 4 <= y < endflags c PUPDATE) -> y <> flag_at (endflags c PUPDATE) s -> g y = f y).
Proof.
  intros x c s v k f Le Hb Hs Hv Hm Hsub. rewrite <- Le in Hm. destruct (flag_run x c s v k f Le Hb Hs Hv Hm Hsub) as (k' & g & E & Bg & Mg & Sg & Oth & O).
  exists k', g. split; [exact E|]. split; [exact Bg|]. split; [rewrite <- Sg; apply C83_read; assumption|]. split; [|exact O].
  intros s' Hs' N. rewrite <- Oth by assumption. apply C83_read; assumption.
Qed.
Print Assumptions C83_flag.

(** Power failure while a state is set, even inside the programming of the four bytes: no flag
    changes, a magic number that was there stays, and setting the state again succeeds. *)
Theorem C83_state_power_failure : forall x c p st k t f g, X_be x = false -> bytes f -> is_byte st -> markable false f (endflags c p) ->
  Z.land (f (endflags c p - 5)) st = st -> crash t (x_set_state x c p st k) f g ->
  between (f (endflags c p - 5)) st (g (endflags c p - 5)) /\
  (marked false f (endflags c p) -> reads_state x c p g (Some (g (endflags c p - 5)))) /\
  (forall y, ~ (endflags c p - 5 <= y < endflags c p) -> g y = f y) /\
  (forall k', exists k'' h, run (x_set_state x c p st k') g = Done k'' h /\ reads_state x c p h (Some st)).
Proof.
  intros x c p st k t f g Le Hb Hs Hm Sub C. assert (Hm' := Hm). rewrite <- Le in Hm'.
  destruct (state_crash x c p st k t f g Le Hb Hs Hm' C) as (Bg & Mg & Bt & O & S).
  change (state_at (endflags c p)) with (endflags c p - 5) in *. rewrite Sub in Bt. split; [exact Bt|]. split; [|split; [exact O|]].
  - intro M. rewrite <- Le in M. apply C83_read; [exact Bg|]. apply marked_bytes. intros i Hi. rewrite (S M) by lia. apply (proj1 (marked_bytes x f (endflags c p)) M i Hi).
  - intro k'. rewrite Le in Mg. destruct (C83_state x c p st k' g Le Bg Hs Mg) as (k'' & h & E & _ & R & _). exists k'', h. split; [exact E|].
    rewrite (proj2 Bt) in R. exact R.
Qed.
Print Assumptions C83_state_power_failure.

(** Power failure while a sector flag is set. *)
Theorem C83_flag_power_failure : forall x c s v k t f g, X_be x = false -> bytes f -> 0 <= s < 512 -> 0 <= v < 16 -> markable false f (endflags c PUPDATE) ->
  Z.land (sector_flag f (endflags c PUPDATE) s) v = v -> crash t (x_set_flag x c s v k) f g ->
  between (sector_flag f (endflags c PUPDATE) s) v (sector_flag g (endflags c PUPDATE) s) /\
  (forall s', 0 <= s' < 512 -> s' <> s -> sector_flag g (endflags c PUPDATE) s' = sector_flag f (endflags c PUPDATE) s') /\
  (marked false f (endflags c PUPDATE) -> marked false g (endflags c PUPDATE)) /\
  (forall y, ~ (endflags c PUPDATE - 4 <= y < endflags c PUPDATE) -> y <> flag_at (endflags c PUPDATE) s -> g y = f y) /\
  (forall k', exists k'' h, run (x_set_flag x c s v k') g = Done k'' h /\ reads_flag x c s h (Some v) /\
    (forall s', 0 <= s' < 512 -> s' <> s -> reads_flag x c s' h (Some (sector_flag f (endflags c PUPDATE) s')))).
Proof.
  intros x c s v k t f g Le Hb Hs Hv Hm Sub C. assert (Hm' := Hm). rewrite <- Le in Hm'.
  destruct (flag_crash x c s v k t f g Le Hb Hs Hv Hm' Sub C) as (Bg & Mg & MM & Bt & Oth & O). rewrite Le in MM, Mg.
  split; [exact Bt|]. split; [exact Oth|]. split; [exact MM|]. split; [exact O|].
  intro k'. destruct (C83_flag x c s v k' g Le Bg Hs Hv Mg (proj2 Bt)) as (k'' & h & E & _ & R & R2 & _).
  exists k'', h. split; [exact E|]. split; [exact R|]. intros s' Hs' N. rewrite <- Oth by assumption. apply R2; assumption.
Qed.
Print Assumptions C83_flag_power_failure.

(** Triggering an update: the state is UPDATING, all sector flags are new and only the sector
    of the flags changes. *)
Theorem C83_trigger : forall x c b k f, X_be x = false -> geometry c -> flags_room c -> flags_at c b -> bytes f ->
  exists k' g, run (x_trigger x c k) f = Done k' g /\ bytes g /\ reads_state x c PUPDATE g (Some ST_UPDATING) /\
    (forall s, 0 <= s < PART c / SECT c -> reads_flag x c s g (Some SF_NEW)) /\
    (forall y, ~ (b + PART c - SECT c <= y < b + PART c) -> g y = f y).
Proof.
  intros x c b k f Le G F Hfl Hb. destruct (trigger_ext x c b k f Le G F Hfl Hb) as (k' & g & E & Bg & Mg & Sg & Fl & O).
  exists k', g. split; [exact E|]. split; [exact Bg|]. split; [rewrite <- Sg; apply C83_read; assumption|]. split; [|exact O].
  intros s Hs. rewrite <- (Fl s Hs). apply C83_read; [exact Bg| |exact Mg]. apply (sectors_room c s G F Hs).
Qed.
Print Assumptions C83_trigger.

(** ** Big-endian processors (PowerPC: nxp-p1021.config has EXT_FLASH) *)

(** The code replaces the low byte of the cached word, which is its last byte in memory there:
    the state is never written, and the magic number is destroyed instead.  This holds for every
    flash and for each of the states the code sets.  Afterwards there is no state at all: an
    update is never triggered and an image never confirmed. *)
Theorem C83_big_endian_refuted : forall x c p st k f, X_be x = true -> X_ext x p = true -> bytes f ->
  In st [ST_UPDATING; ST_FINAL; ST_TESTING; ST_SUCCESS] -> markable true f (endflags c p) -> f (endflags c p - 5) <> st ->
  exists k' g, run (x_set_state x c p st k) f = Done k' g /\ g (endflags c p - 5) = f (endflags c p - 5) /\
    ~ markable true g (endflags c p) /\ reads_state x c p g None.
Proof.
  intros x c p st k f Be Ex Hb I Hm N.
  assert (Hs : is_byte st /\ Z.land 0x4F st <> 0x4F /\ Z.land (Z.land 0x4F st) 0x4F <> 0x4F).
  { cbn [In] in I. unfold ST_UPDATING, ST_FINAL, ST_TESTING, ST_SUCCESS in I. unfold is_byte.
    destruct I as [ <- |[ <- |[ <- |[ <- |[]]]]]; (split; [lia|split; discriminate]). }
  destruct Hs as (Hs & L1 & L2). destruct (big_run x c p st k f Be Ex Hb Hs Hm N) as (k' & g & E & Bg & Sg & G2).
  assert (NM : ~ markable true g (endflags c p)).
  { intro M. specialize (M 2%nat ltac:(lia)). replace (endflags c p - 4 + Z.of_nat 2) with (endflags c p - 2) in M by lia. rewrite G2 in M. exact (L2 M). }
  exists k', g. split; [exact E|]. split; [exact Sg|]. split; [exact NM|].
  apply C83_read; [exact Bg|]. intro M. apply NM. rewrite <- Be. apply marked_markable, M.
Qed.
Print Assumptions C83_big_endian_refuted.

(** In particular the trigger has no effect, on any flash. *)
Theorem C83_big_endian_trigger_refuted : forall x c b k f, X_be x = true -> X_ext x PUPDATE = true -> geometry c -> flags_room c ->
  flags_at c b -> bytes f ->
  exists k' g, run (x_trigger x c k) f = Done k' g /\ reads_state x c PUPDATE g None.
Proof.
  intros x c b k f Be Ex G F Hfl Hb. unfold x_trigger. rewrite (flags_sector_addr c b) by (try assumption; apply fit_14; assumption). cbn [run].
  set (f1 := erase f _ _). assert (Hb1 : bytes f1) by (apply bytes_erase; assumption). pose proof (fit_14 c G F) as K14. pose proof (g_sect c G) as (_ & S).
  assert (SECT c >= 6) by (destruct F as (_ & F & _); assert (0 <= PART c / SECT c / 2);
    [repeat apply Z.div_pos; pose proof (g_part c G); lia|lia]).
  pose proof (g_disj1 c G) as D. unfold disjoint in D. pose proof (g_part c G) as (_ & P2).
  assert (Loc : (UFLAGS c = b + PART c /\ b = UPDATE c) \/ (UFLAGS c = b + PART c - 8 /\ 14 <= SECT c /\ b = BOOT c)).
  { unfold flags_at, own_flags, home_flags in *. destruct Hfl as [(E & ->)|(E & ->)]; [left; lia|right; lia]. }
  destruct (C83_big_endian_refuted x c PUPDATE ST_UPDATING k f1 Be Ex Hb1) as (k' & g & E & _ & _ & R).
  - left. reflexivity.
  - rewrite <- Be. apply markable_bytes. change (endflags c PUPDATE) with (UFLAGS c). intros i Hi. unfold f1. rewrite erase_in by lia. apply land_255, magic_mem_range.
  - change (endflags c PUPDATE) with (UFLAGS c). unfold f1. rewrite erase_in by lia. discriminate.
  - exists k', g. split; [exact E|exact R].
Qed.
Print Assumptions C83_big_endian_trigger_refuted.

(** ** Concrete cases *)
Definition ext_update (be : bool) : xcfg := {| X_be := be; X_ext := fun p => match p with PUPDATE => true | _ => false end |}.
Definition ext_erased : flash := fun _ => 255.
Definition outcome_state {A} (o : outcome A) (x : xcfg) (c : cfg) (p : part) : option Z :=
  match o with Done _ g => match run (x_get_state x c p (fun _ => 0)) g with Done (r, _) _ => r | _ => None end | _ => None end.

(** The hypotheses hold in the toy layout with an erased flash. *)
Example C83_hyps : bytes ext_erased /\ (forall be p, markable be ext_erased (endflags toy_cfg p)) /\
  sector_flag ext_erased (endflags toy_cfg PUPDATE) 5 = 15 /\ geometry toy_cfg /\ flags_room toy_cfg /\ flags_at toy_cfg (UPDATE toy_cfg).
Proof.
  split; [intro y; unfold ext_erased, is_byte; lia|]. split; [|split; [reflexivity|]].
  - intros be p i Hi. unfold ext_erased. destruct be; do 4 (destruct i as [|i]; [reflexivity|]); lia.
  - destruct C07_hyps as (A & B & C & _). auto.
Qed.
(** The same calls on the two kinds of processors. *)
Example C83_little : outcome_state (run (x_trigger (ext_update false) toy_cfg (fun _ => 7)) ext_erased) (ext_update false) toy_cfg PUPDATE = Some ST_UPDATING.
Proof. vm_compute. reflexivity. Qed.
Example C83_big : outcome_state (run (x_trigger (ext_update true) toy_cfg (fun _ => 7)) ext_erased) (ext_update true) toy_cfg PUPDATE = None.
Proof. vm_compute. reflexivity. Qed.
