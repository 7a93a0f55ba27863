(** Theorems about updating: C12 to C20. *)
From Verif Require Import Base BaseLemmas HeaderModel HeaderSpec HeaderProofs Flash FlashLemmas ImageModel
  ImageSpec ImageProofs GenuineProofs TrailerModel TrailerProofs TriggerProofs TrailerCrash SwapModel
  SwapSpec Geometry CopyProofs SwapInv SwapSteps SwapLoop SwapFinal SwapStart RefuseProofs HistoryProofs
  Sample ImageProps.
Local Ltac Zify.zify_post_hook ::= idtac.

(** ** C12 *)

(** C12: whatever the flash contains, when the boot routine hands over control, the image
    in the boot partition at that moment is verified, and control goes to its firmware. *)
Theorem C12_boots_verified : forall c u f r f', geometry c -> bytes f ->
  run (start c u) f = Done r f' -> verified c f' (BOOT c) /\ r = BOOT c + HDR c.
Proof. intros c u f r f' G Hb E. exact (start_verified c u f r f' G Hb E). Qed.
Print Assumptions C12_boots_verified.

(** ** C13 *)

Lemma boot_stage_ok : forall t c f upd, geometry c -> bytes f -> verified c f (BOOT c) ->
  wpc t (boot_stage c upd) (fun r f' => r = BOOT c + HDR c /\ f' = f) (fun f' => f' = f) f.
Proof.
  intros t c f upd G Hb V. assert (NB : PBOOT <> PSWAP) by discriminate.
  unfold boot_stage, open_and_verify. cbn [get bind wpc].
  destruct (open_image c f PBOOT) as [o im] eqn:Eo.
  assert (o = true) as ->.
  { destruct o; [reflexivity|]. exfalso. destruct V as (V1 & V2 & _).
    destruct (open_image_bad c f PBOOT im NB Eo) as (_ & _ & _ & _ & _ & [B|B]); cbn [part_addr] in B; [congruence|lia]. }
  apply wpc_bind.
  destruct (verify_both_cases c f PBOOT im G Hb NB Eo) as [(_ & im' & W & O0 & O1 & O2 & O3 & O4)|(V' & _)]; [|contradiction].
  apply W; [reflexivity|]. cbn [bind]. unfold sanity. rewrite O1, O2, O3. cbn [andb wpc]. auto.
Qed.

(** No swap is in progress. *)
Definition no_swap (c : cfg) (f : flash) : Prop :=
  clean c f (BOOT c) /\ get_partition_state c f PUPDATE <> Some ST_FINAL /\
  (get_update_sector_flag c f 0 = None \/ get_update_sector_flag c f 0 = Some SF_NEW).

(** The running image was installed and never confirmed: the boot routine will try to go
    back to what is in the update partition. *)
Definition fallback_due (c : cfg) (f : flash) : bool :=
  match get_partition_state c f PBOOT with Some s => s =? ST_TESTING | None => false end.

(** C13: if the current image is verified, no swap is in progress and the candidate in the
    update partition is not acceptable, a boot runs the current image and changes no byte of
    flash; nor does a boot cut short by a power failure. *)
Theorem C13_rejected_update : forall c u f, geometry c -> bytes f -> u 0%nat <> ST_FINAL ->
  verified c f (BOOT c) -> no_swap c f -> ~ acceptable c f (fallback_due c f) ->
  HDR c <= SECT c \/ word f (UPDATE c + 4) <= PART c - HDR c ->
  run (start c u) f = Done (BOOT c + HDR c) f /\
  forall t f', crash t (start c u) f f' -> f' = f.
Proof.
  intros c u f G Hb Hu V (Hc & Hf & Hfl) Hna HS.
  assert (K : forall t, wpc t (start c u) (fun r f' => r = BOOT c + HDR c /\ f' = f) (fun f' => f' = f) f).
  { intro t. unfold start. cbn [get bind wpc]. apply wpc_bind.
    assert (R : wpc t (swap_and_final_erase c (u 0%nat) true) (fun b f' => b = false /\ f' = f) (fun f' => f' = f) f).
    { unfold swap_and_final_erase. cbn [wpc]. cbn zeta.
      destruct (open_img c f PBOOT) as (_ & P2). rewrite P2. cbn [part_addr].
      replace (PART c - SECT c - SECT c) with (PART c - 2 * SECT c) by lia.
      destruct (Z.eqb_spec (word f (BOOT c + (PART c - 2 * SECT c))) WOLFBOOT_MAGIC_TRAIL) as [E|_]; [contradiction|].
      assert (HF : (match get_partition_state c f PUPDATE with Some s => s | None => u 0%nat end =? ST_FINAL) = false).
      { apply Z.eqb_neq. destruct (get_partition_state c f PUPDATE); congruence. }
      rewrite HF. cbn [negb andb wpc]. auto. }
    eapply wpc_post; [exact R|]. cbn beta. intros b f' _ (-> & ->).
    pose proof (fun upd => boot_stage_ok t c f upd G Hb V) as BS.
    fold (fallback_due c f).
    assert (HR : refused c (fallback_due c f) f).
    { apply refuse; auto. unfold flag_of. destruct Hfl as [ -> | -> ]; reflexivity. }
    destruct (fallback_due c f) eqn:E.
    - apply wpc_bind. apply wpc_bind. eapply wpc_post; [apply HR|].
      cbn beta. intros b f' _ (_ & ->). cbn [wpc]. auto.
    - destruct (match get_partition_state c f PUPDATE with Some s => s =? ST_UPDATING | None => false end); [|apply BS].
      apply wpc_bind. apply wpc_bind. eapply wpc_post; [apply HR|].
      cbn beta. intros b f' _ (_ & ->). cbn [wpc]. auto. }
  split.
  - destruct (wpc_run _ _ _ _ _ (K (tear_std c))) as (r & f' & E & (-> & ->) & _). exact E.
  - intros t f'. apply (wpc_crash _ _ _ _ _ (K t)).
Qed.
Print Assumptions C13_rejected_update.

(** ** C15 *)

Lemma triggered_facts : forall c A B f, geometry c -> flags_fit c -> good c A -> good c B -> may_install c A B ->
  triggered_update c A B f -> (forall on, shows c (Pending A B) on f) /\ get_partition_state c f PUPDATE = Some ST_UPDATING.
Proof.
  intros c A B f G F GA GB Hm (f0 & Hb & HA & HB & CA & CB & Ht & E).
  destruct (trigger_states c G F f0 Hb) as (T & _). destruct (T f E) as (T1 & T2).
  split; [|exact T2]. apply (triggered_pending c G F A B f0 f); auto.
Qed.

(** The indeterminate local of the first call is not used when the update trailer carries
    the magic. *)
Lemma start_u0 : forall c u s f, get_partition_state c f PUPDATE = Some s ->
  run (start c u) f = run (start c (fun i => match i with O => 0 | _ => u i end)) f.
Proof.
  intros c u s f E. unfold start. cbn [get bind run]. rewrite !run_bind.
  replace (run (swap_and_final_erase c (u 0%nat) true) f) with (run (swap_and_final_erase c 0 true) f); [reflexivity|].
  unfold swap_and_final_erase. cbn [run]. cbn zeta. rewrite E. reflexivity.
Qed.

(** C15: one uninterrupted boot after the trigger runs the new image; the two partitions
    have exchanged their images, the new image is on trial and the update trailer holds
    neither a state nor sector flags. *)
Theorem C15_update : forall c A B u f, geometry c -> flags_fit c -> good c A -> good c B ->
  may_install c A B -> triggered_update c A B f ->
  exists f', run (start c u) f = Done (BOOT c + HDR c) f' /\
    holds f' (BOOT c) (fst B) /\ holds f' (UPDATE c) (fst A) /\
    get_partition_state c f' PBOOT = Some ST_TESTING /\
    get_partition_state c f' PUPDATE = None /\
    (forall s, get_update_sector_flag c f' s = None).
Proof.
  intros c A B u f G F GA GB Hm HT.
  destruct (triggered_facts c A B f G F GA GB Hm HT) as (Sh & E).
  rewrite (start_u0 c u _ f E). set (u' := fun i : nat => match i with O => 0 | S _ => u i end).
  destruct (Sh true) as (_ & _ & _ & N & HN & HU & _).
  pose proof (start_wpc c (fst A) (fst B) (snd A) (snd B) N G F HN GA GB false u' f) as W.
  destruct (wpc_run _ _ _ _ _ (W ltac:(discriminate) (or_intror Hm) HU)) as (r & f' & Er & (-> & Fr) & _).
  exists f'. split; [exact Er|]. destruct Fr as ((_ & _ & _ & D & ((D1 & _) & _)) & Hn & _).
  apply (data_start c (fst B) (fst A) N G (sectors_sym c _ _ N HN)) in D. destruct D as (E1 & E2 & _).
  split; [exact E1|]. split; [exact E2|]. split; [exact D1|]. split; [exact Hn|].
  intro s. rewrite get_flag_nib. unfold get_partition_state in Hn. destruct (has_magic c f' PUPDATE); [discriminate|reflexivity].
Qed.
Print Assumptions C15_update.

(** ** C16 *)

Lemma shows_good : forall c s on f, shows c s on f -> good c (next_boot s).
Proof. intros c [A|A B|A B] on f H; apply H. Qed.

(** The two images, in either role. *)
Definition pair_of (A B : img) (s : device) : Prop :=
  s = Pending A B \/ s = Trial A B \/ s = Trial B A.

Lemma power_cuts_pair : forall c A B f f2, geometry c -> flags_fit c -> power_cuts c f f2 ->
  forall s, pair_of A B s -> shows c s false f -> exists s2, pair_of A B s2 /\ shows c s2 false f2.
Proof.
  intros c A B f f2 G F H. induction H as [f|f f1 f2 u Hu Hc _ IH]; intros s Hp Hs; [eauto|].
  assert (exists s1, pair_of A B s1 /\ shows c s1 false f1) as (s1 & P1 & S1); [|exact (IH s1 P1 S1)].
  destruct Hp as [ -> |Hp].
  - destruct Hs as (GA & GB & Hm & N & HN & HU & _).
    destruct (wpc_crash _ _ _ _ _ (start_wpc c (fst A) (fst B) (snd A) (snd B) N G F HN GA GB false u f Hu (or_intror Hm) HU) f1 Hc) as [U|Fr].
    + exists (Pending A B). split; [left; reflexivity|]. split; [exact GA|]. split; [exact GB|]. split; [exact Hm|].
      exists N. split; [exact HN|]. split; [exact U|discriminate].
    + exists (Trial B A). split; [right; right; reflexivity|]. apply (fresh_trial c B A N); auto. apply sectors_sym, HN.
  - assert (exists A1 B1, s = Trial A1 B1 /\ pair_of A B (Trial A1 B1) /\ pair_of A B (Trial B1 A1)) as (A1 & B1 & -> & P1 & P2).
    { destruct Hp as [ -> | -> ]; eexists _, _; (split; [reflexivity|]); split; unfold pair_of; auto. }
    destruct Hs as (GA & GB & N & HN & HU & _).
    destruct (wpc_crash _ _ _ _ _ (start_wpc c (fst A1) (fst B1) (snd A1) (snd B1) N G F HN GA GB true u f Hu (or_introl eq_refl) HU) f1 Hc) as [U|Fr].
    + exists (Trial A1 B1). split; [exact P1|]. split; [exact GA|]. split; [exact GB|].
      exists N. split; [exact HN|]. split; [exact U|discriminate].
    + exists (Trial B1 A1). split; [exact P2|]. apply (fresh_trial c B1 A1 N); auto. apply sectors_sym, HN.
Qed.

Definition one_of_two (c : cfg) (A B : img) (f : flash) : Prop :=
  (holds f (BOOT c) (fst A) /\ holds f (UPDATE c) (fst B)) \/
  (holds f (BOOT c) (fst B) /\ holds f (UPDATE c) (fst A)).

(** C16: after the trigger, let power fail any number of times, at any flash operation or
    in the middle of it; the next boot that is not interrupted runs one of the two images,
    complete, and the other one is complete in the update partition. *)
Theorem C16_power_fail_safe : forall c A B u f f1, geometry c -> flags_fit c -> good c A -> good c B ->
  may_install c A B -> triggered_update c A B f -> power_cuts c f f1 -> u 0%nat <> ST_FINAL ->
  exists f2, run (start c u) f1 = Done (BOOT c + HDR c) f2 /\ one_of_two c A B f2.
Proof.
  intros c A B u f f1 G F GA GB Hm HT HP Hu.
  destruct (triggered_facts c A B f G F GA GB Hm HT) as (Sh & _).
  destruct (power_cuts_pair c A B f f1 G F HP (Pending A B) (or_introl eq_refl) (Sh false)) as (s & P & S).
  destruct (wpc_run _ _ _ _ _ (boot_sim c G F s false f1 u Hu S)) as (r & f2 & E & (-> & H1 & H2 & _) & _).
  exists f2. split; [exact E|]. destruct P as [ -> |[ -> | -> ]]; cbn [next_boot next_backup] in *.
  - right. split; [exact H1|]. apply H2. reflexivity.
  - right. split; [exact H1|]. apply H2. reflexivity.
  - left. split; [exact H1|]. apply H2. reflexivity.
Qed.
Print Assumptions C16_power_fail_safe.

(** C16 over whole lives: after any history of boots, power cuts (in the bootloader and in
    the application's trailer updates), confirmations, downloads and triggers of good and
    of unacceptable candidates, the device is in a state the expected life cycle allows, and
    the next boot runs the image that life cycle says. *)
Theorem C16_every_history : forall c A f on es f1 on1, geometry c -> flags_fit c -> good c A -> initial c A f ->
  steps c (f, on) es (f1, on1) ->
  exists s, expects c (Idle A) es s /\ good c (next_boot s) /\
    forall u, u 0%nat <> ST_FINAL -> exists f2, run (start c u) f1 = Done (BOOT c + HDR c) f2 /\
      holds f2 (BOOT c) (fst (next_boot s)) /\
      (forall B, next_backup s = Some B -> holds f2 (UPDATE c) (fst B)).
Proof.
  intros c A f on es f1 on1 G F GA HI HS.
  destruct (steps_sim c G F _ _ _ HS (Idle A) (initial_shows c A f on GA HI)) as (s & X & Sh). cbn [fst snd] in Sh.
  exists s. split; [exact X|]. split; [exact (shows_good _ _ _ _ Sh)|]. intros u Hu.
  destruct (wpc_run _ _ _ _ _ (boot_sim c G F s on1 f1 u Hu Sh)) as (r & f2 & E & (-> & H1 & H2 & _) & _).
  exists f2. auto.
Qed.
Print Assumptions C16_every_history.

(** ** C17 *)

Lemma installed_facts : forall c A B f, geometry c -> flags_fit c -> good c A -> good c B -> may_install c A B ->
  installed_update c A B f -> exists N, sectors c (fst B) (fst A) N /\ fresh c (fst B) (fst A) N f.
Proof.
  intros c A B f G F GA GB Hm (f0 & u & r & HT & E).
  destruct (triggered_facts c A B f0 G F GA GB Hm HT) as (Sh & Es).
  rewrite (start_u0 c u _ f0 Es) in E.
  destruct (Sh true) as (_ & _ & _ & N & HN & HU & _).
  pose proof (start_wpc c (fst A) (fst B) (snd A) (snd B) N G F HN GA GB false
    (fun i : nat => match i with O => 0 | S _ => u i end) f0) as W.
  destruct (wpc_run _ _ _ _ _ (W ltac:(discriminate) (or_intror Hm) HU))
    as (r' & f' & Er & (_ & Fr) & _).
  rewrite Er in E. injection E as _ <-. exists N. split; [apply sectors_sym, HN|exact Fr].
Qed.

(** C17, not confirmed: the next boot puts the previous image back, runs it, and keeps the
    other one; with power failures in between it still runs one of the two. *)
Theorem C17_fallback : forall c A B u f, geometry c -> flags_fit c -> good c A -> good c B ->
  may_install c A B -> installed_update c A B f -> u 0%nat <> ST_FINAL ->
  (exists f', run (start c u) f = Done (BOOT c + HDR c) f' /\
     holds f' (BOOT c) (fst A) /\ holds f' (UPDATE c) (fst B)) /\
  (forall f1, power_cuts c f f1 ->
     exists f2, run (start c u) f1 = Done (BOOT c + HDR c) f2 /\ one_of_two c A B f2).
Proof.
  intros c A B u f G F GA GB Hm HI Hu.
  destruct (installed_facts c A B f G F GA GB Hm HI) as (N & HN & Fr). split.
  - pose proof (fresh_trial c B A N f true GB GA HN Fr) as Sh.
    destruct (wpc_run _ _ _ _ _ (boot_sim c G F (Trial B A) true f u Hu Sh)) as (r & f2 & E & (-> & H1 & H2 & _) & _).
    exists f2. split; [exact E|]. split; [exact H1|]. apply H2. reflexivity.
  - intros f1 HP. pose proof (fresh_trial c B A N f false GB GA HN Fr) as Sh.
    destruct (power_cuts_pair c A B f f1 G F HP (Trial B A) (or_intror (or_intror eq_refl)) Sh) as (s & P & S).
    destruct (wpc_run _ _ _ _ _ (boot_sim c G F s false f1 u Hu S)) as (r & f2 & E & (-> & H1 & H2 & _) & _).
    exists f2. split; [exact E|]. destruct P as [ -> |[ -> | -> ]]; cbn [next_boot next_backup] in *.
    + right. split; [exact H1|]. apply H2. reflexivity.
    + right. split; [exact H1|]. apply H2. reflexivity.
    + left. split; [exact H1|]. apply H2. reflexivity.
Qed.
Print Assumptions C17_fallback.

(** C17, confirmed: from then on every boot, interrupted or not, leaves flash as it is and
    runs the confirmed image. *)
Theorem C17_confirmed : forall c A B f, geometry c -> flags_fit c -> good c A -> good c B ->
  may_install c A B -> installed_update c A B f ->
  exists f1, run (success c) f = Done tt f1 /\ holds f1 (BOOT c) (fst B) /\ holds f1 (UPDATE c) (fst A) /\
    get_partition_state c f1 PBOOT = Some ST_SUCCESS /\
    forall u, u 0%nat <> ST_FINAL -> run (start c u) f1 = Done (BOOT c + HDR c) f1 /\
      forall f2, crash (tear_std c) (start c u) f1 f2 -> f2 = f1.
Proof.
  intros c A B f G F GA GB Hm HI.
  destruct (installed_facts c A B f G F GA GB Hm HI) as (N & HN & Fr).
  pose proof Fr as ((Mb & _ & _ & D & ((Ht & _) & _)) & _).
  assert (Hmg : has_magic c f PBOOT = true).
  { unfold get_partition_state in Ht. destruct (has_magic c f PBOOT); [reflexivity|discriminate]. }
  destruct (success_run c f Mb (has_magic_magicable c f PBOOT Mb Hmg)) as (f1 & E1 & B1 & S1 & O1).
  assert (I1 : idle c B f1).
  { apply (trial_idle c G F B A N f f1); auto. unfold on_trial. rewrite S1. discriminate. }
  exists f1. split; [exact E1|]. split; [apply I1|]. split.
  - apply (data_start c (fst B) (fst A) N G HN) in D. destruct D as (_ & D2 & _).
    pose proof (gn_fit _ _ _ GA). intros i Hi. rewrite O1 by (geo G; lia). apply D2, Hi.
  - split; [exact S1|]. intros u Hu. pose proof (idle_wpc c G B f1 u Hu I1) as W. split.
    + destruct (wpc_run _ _ _ _ _ W) as (r & f2 & E & (-> & ->) & _). exact E.
    + apply (wpc_crash _ _ _ _ _ W).
Qed.
Print Assumptions C17_confirmed.

(** ** C14: versions over histories *)

Definition all_at_least (v : Z) (s : device) : Prop :=
  match s with Idle A => v <= snd A | Pending A B | Trial A B => v <= snd A /\ v <= snd B end.

Lemma floor_step : forall c v s e s', c_allow_downgrade c = false -> expect c s e s' -> all_at_least v s -> all_at_least v s'.
Proof.
  intros c v s e s' Hd X H. inversion X; subst; cbn [all_at_least] in *; try tauto; try lia;
    match goal with R : running _ _ |- _ => inversion R; subst; cbn [all_at_least] in * end; try lia;
    match goal with M : may_install _ _ _ |- _ => destruct M as [M|M]; [congruence|lia] | _ => idtac end.
Qed.

(** C14 over whole lives: without ALLOW_DOWNGRADE, from the moment an image is installed
    and confirmed, no later boot runs a lower version, whatever updates are downloaded and
    triggered, confirmed or not, and wherever power fails. *)
Theorem C14_never_below_confirmed : forall c A f on es f1 on1, geometry c -> flags_fit c ->
  c_allow_downgrade c = false -> good c A -> initial c A f -> steps c (f, on) es (f1, on1) ->
  forall u, u 0%nat <> ST_FINAL -> exists f2 B, run (start c u) f1 = Done (BOOT c + HDR c) f2 /\
    good c B /\ holds f2 (BOOT c) (fst B) /\ snd A <= snd B.
Proof.
  intros c A f on es f1 on1 G F Hd GA HI HS u Hu.
  destruct (C16_every_history c A f on es f1 on1 G F GA HI HS) as (s & X & GB & K).
  destruct (K u Hu) as (f2 & E & H1 & _). exists f2, (next_boot s). split; [exact E|]. split; [exact GB|]. split; [exact H1|].
  assert (all_at_least (snd A) s) as L.
  { assert (all_at_least (snd A) (Idle A)) as L0 by (cbn; lia). revert L0. clear -X Hd.
    induction X as [s|s e s1 es s2 X _ IH]; intro L; [exact L|]. apply IH. eapply floor_step; eassumption. }
  destruct s; cbn [all_at_least next_boot] in *; lia.
Qed.
Print Assumptions C14_never_below_confirmed.

(** ** Concrete cases meeting the hypotheses *)

Definition demo_A : img := (demo_old, 3).
Definition demo_B : img := (demo_new, 5).

Lemma demo_fits : flags_fit demo.
Proof. split; [reflexivity|]. split; [discriminate|]. split; [discriminate|left; reflexivity]. Qed.

Example C15_hyps : geometry demo /\ flags_fit demo /\ good demo demo_A /\ good demo demo_B /\
  may_install demo demo_A demo_B /\ exists f, triggered_update demo demo_A demo_B f.
Proof.
  split; [exact demo_geometry|]. split; [exact demo_fits|]. split; [exact demo_old_genuine|].
  split; [exact demo_new_genuine|]. split; [right; reflexivity|].
  destruct (trigger_run demo (SECT demo) demo_flash demo_geometry demo_fits demo_flash_bytes (or_introl eq_refl))
    as (f & E & _).
  exists f, demo_flash. split; [exact demo_flash_bytes|].
  split; [apply store_holds|]. split; [apply C09_hyps|].
  split; [vm_compute; discriminate|]. split; [vm_compute; discriminate|]. split; [vm_compute; discriminate|exact E].
Qed.

Example initial_hyps : initial demo demo_A demo_flash.
Proof.
  split; [exact demo_flash_bytes|]. split; [apply store_holds|]. split; [vm_compute; discriminate|].
  split; [vm_compute; discriminate|split; vm_compute; discriminate].
Qed.

(** A history of the demo device: trigger, boot, unconfirmed reboot (fallback), reboot, confirmation, boot. *)
Example history_hyps : exists f, steps demo (demo_flash, true) [ETrigger demo_B; EBoot; EBoot; EBoot; EConfirm; EBoot] (f, true).
Proof.
  destruct C15_hyps as (G & F & GA & GB & Hm & _).
  destruct (trigger_run demo (SECT demo) demo_flash G F demo_flash_bytes (or_introl eq_refl)) as (f1 & E1 & _).
  set (u := fun _ : nat => 0). assert (Hu : u 0%nat <> ST_FINAL) by discriminate.
  assert (HT : triggered_update demo demo_A demo_B f1).
  { exists demo_flash. split; [exact demo_flash_bytes|]. split; [apply store_holds|]. split; [apply C09_hyps|].
    split; [vm_compute; discriminate|]. split; [vm_compute; discriminate|]. split; [vm_compute; discriminate|exact E1]. }
  destruct (triggered_facts _ _ _ _ G F GA GB Hm HT) as (S1 & _).
  destruct (wpc_run _ _ _ _ _ (boot_sim demo G F _ true f1 u Hu (S1 true))) as (r2 & f2 & E2 & (_ & _ & _ & s2 & X2 & S2) & _).
  inversion X2; subst.
  destruct (wpc_run _ _ _ _ _ (boot_sim demo G F _ true f2 u Hu S2)) as (r3 & f3 & E3 & (_ & _ & _ & s3 & X3 & S3) & _).
  inversion X3; subst.
  destruct (wpc_run _ _ _ _ _ (boot_sim demo G F _ true f3 u Hu S3)) as (r4 & f4 & E4 & (_ & _ & _ & s4 & X4 & S4) & _).
  inversion X4; subst.
  destruct S4 as (_ & _ & N & HN & _ & K). specialize (K eq_refl).
  pose proof K as ((Mb & _ & _ & _ & ((Ht & _) & _)) & _).
  assert (Hmg : has_magic demo f4 PBOOT = true).
  { unfold get_partition_state in Ht. destruct (has_magic demo f4 PBOOT); [reflexivity|discriminate]. }
  destruct (success_run demo f4 Mb (has_magic_magicable demo f4 PBOOT Mb Hmg)) as (f5 & E5 & B5 & S5 & O5).
  assert (I5 : idle demo demo_B f5).
  { apply (trial_idle demo G F demo_B demo_A N f4 f5); auto. unfold on_trial. rewrite S5. discriminate. }
  destruct (wpc_run _ _ _ _ _ (idle_wpc demo G demo_B f5 u Hu I5)) as (r6 & f6 & E6 & _ & _).
  exists f6.
  eapply steps_cons; [apply s_trigger; [vm_compute; discriminate|exact GB|apply C09_hyps|vm_compute; discriminate|exact E1]|].
  eapply steps_cons; [eapply s_boot; [exact Hu|exact E2]|].
  eapply steps_cons; [eapply s_boot; [exact Hu|exact E3]|].
  eapply steps_cons; [eapply s_boot; [exact Hu|exact E4]|].
  eapply steps_cons; [apply s_confirm; [exact Ht|exact E5]|].
  eapply steps_cons; [eapply s_boot; [exact Hu|exact E6]|]. constructor.
Qed.

(** C13: the demo device whose update partition holds an altered image. *)
Definition bad_flash : flash := fun x => if x =? 2048 + 263 then 1 else demo_flash x.
Example C13_hyps : bytes bad_flash /\ verified demo bad_flash (BOOT demo) /\ no_swap demo bad_flash /\
  ~ acceptable demo bad_flash (fallback_due demo bad_flash).
Proof.
  assert (Hb : bytes bad_flash).
  { intro x. unfold bad_flash. destruct (_ =? _); [unfold is_byte; lia|apply demo_flash_bytes]. }
  split; [exact Hb|]. split; [|split].
  - destruct (open_image demo bad_flash PBOOT) as [o im] eqn:Eo.
    assert (o = true) as -> by (vm_compute in Eo; congruence).
    destruct (verify_both_cases demo bad_flash PBOOT im demo_geometry Hb ltac:(discriminate) Eo) as [(V & _)|(_ & im' & _ & W)].
    + exact V.
    + exfalso. specialize (W (tear_std demo) (fun r _ => fst r = false) (fun _ => True) I eq_refl).
      destruct (wpc_run _ _ _ _ _ W) as (r & f' & E & K & _).
      assert (E2 : match run (open_and_verify demo PBOOT) bad_flash with Done (b, _) _ => b | _ => false end = true)
        by (vm_compute; reflexivity).
      unfold open_and_verify in E2. cbn [get bind run] in E2. rewrite Eo, E in E2. destruct r. cbn in K. congruence.
  - split; [vm_compute; discriminate|]. split; [vm_compute; discriminate|]. left. reflexivity.
  - intros (V & _). destruct (open_image demo bad_flash PUPDATE) as [o im] eqn:Eo.
    assert (o = true) as -> by (vm_compute in Eo; congruence).
    destruct (verify_both_cases demo bad_flash PUPDATE im demo_geometry Hb ltac:(discriminate) Eo) as [(_ & im' & W & _)|(V' & _)];
      [|exact (V' V)].
    specialize (W (tear_std demo) (fun r _ => fst r = true) (fun _ => True) I eq_refl).
    destruct (wpc_run _ _ _ _ _ W) as (r & f' & E & K & _).
    assert (E2 : match run (open_and_verify demo PUPDATE) bad_flash with Done (b, _) _ => b | _ => true end = false)
      by (vm_compute; reflexivity).
    unfold open_and_verify in E2. cbn [get bind run] in E2. rewrite Eo, E in E2. destruct r. cbn in K. congruence.
Qed.

Example C12_hyps : match run (start demo (fun _ => 0)) demo_flash with Done r _ => r =? 1024 + 64 | _ => false end = true.
Proof. vm_compute. reflexivity. Qed.
