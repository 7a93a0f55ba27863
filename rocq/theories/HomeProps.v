(** Theorems about updates with FLAGS_HOME, where the flags of the update partition share the
    last sector of the boot partition: C80 and C81. *)
From Verif Require Import Base BaseLemmas HeaderModel HeaderSpec HeaderProofs Flash FlashLemmas ImageModel
  ImageSpec ImageProofs GenuineProofs TrailerModel TrailerProofs TriggerProofs TrailerCrash SwapModel
  SwapSpec Geometry CopyProofs SwapInv SwapSteps SwapLoop SwapFinal SwapStart RefuseProofs HistoryProofs
  Sample ImageProps TrailerProps SwapProps SwapLimits EmergencySpec EmergencyProofs EmergencyProps HomeProofs.
Local Ltac Zify.zify_post_hook ::= idtac.

Lemma may_false : forall c A B, good c A -> may_install c A B -> may_replace c (fst A) (snd B) false.
Proof. intros c A B GA [H|H]; [right; left; exact H|right; right]. exists (snd A). auto. Qed.

(** The two images, in either role, at any point of an update. *)
Definition pair_home (c : cfg) (A B : img) (N : Z) (f : flash) : Prop :=
  in_update c (fst A) (fst B) N Triggered f \/ in_update c (fst A) (fst B) N Fallback f \/
  in_update c (fst B) (fst A) N Fallback f.

Lemma pair_home_boot : forall c A B N u f, geometry c -> flags_room c -> home_flags c -> good c A -> good c B ->
  sectors c (fst A) (fst B) N -> short c (fst A) -> short c (fst B) -> may_install c A B -> u 0%nat <> ST_FINAL ->
  pair_home c A B N f ->
  wpc (tear_std c) (start c u) (fun r f' => r = BOOT c + HDR c /\ one_of_two c A B f') (pair_home c A B N) f.
Proof.
  intros c A B N u f G F H GA GB HN SA SB Hm Hu Hp.
  pose proof (sectors_sym c _ _ N HN) as HN'.
  assert (FH : forall X Y f', sectors c X Y N -> fresh c X Y N f' -> holds f' (BOOT c) X /\ holds f' (UPDATE c) Y).
  { intros X Y f' K ((_ & _ & _ & MD & _) & _). apply (data_start c X Y N G K) in MD. destruct MD as (D1 & D2 & _). auto. }
  assert (FI : forall X Y f', fresh c X Y N f' -> in_update c X Y N Fallback f').
  { intros X Y f' (M & _). left. eauto. }
  assert (K : forall d, d = Fallback \/ d = Triggered /\ may_replace c (fst A) (snd B) false ->
    in_update c (fst A) (fst B) N d f -> (forall f', in_update c (fst A) (fst B) N d f' -> pair_home c A B N f') ->
    wpc (tear_std c) (start c u) (fun r f' => r = BOOT c + HDR c /\ one_of_two c A B f') (pair_home c A B N) f).
  { intros d Hd Hf HJ.
    eapply wpc_conseq; [apply (home_start_wpc c (fst A) (fst B) (snd A) (snd B) N G F H HN GA GB SB d u f); auto| |]; cbn beta.
    - intros r f' (-> & [Fr|(Qu & ->)]); (split; [reflexivity|]); right; [apply FH; auto|].
      destruct Qu as (_ & Q1 & Q2 & _). auto.
    - intros f' [J|Fr]; [apply HJ, J|]. right; right. apply FI, Fr. }
  destruct Hp as [Hp|[Hp|Hp]].
  - apply (K Triggered); auto; [right; split; [reflexivity|apply may_false; assumption]|]. intros. left. assumption.
  - apply (K Fallback); auto. intros. right; left. assumption.
  - eapply wpc_conseq; [apply (home_start_wpc c (fst B) (fst A) (snd B) (snd A) N G F H HN' GB GA SA Fallback u f); auto| |]; cbn beta.
    + intros r f' (-> & [Fr|(Qu & ->)]); (split; [reflexivity|]); left; [apply FH; auto|].
      destruct Qu as (_ & Q1 & Q2 & _). auto.
    + intros f' [J|Fr]; [right; right; exact J|]. right; left. apply FI, Fr.
Qed.

Lemma pair_home_cuts : forall c A B N f f1, geometry c -> flags_room c -> home_flags c -> good c A -> good c B ->
  sectors c (fst A) (fst B) N -> short c (fst A) -> short c (fst B) -> may_install c A B ->
  power_cuts c f f1 -> pair_home c A B N f -> pair_home c A B N f1.
Proof.
  intros c A B N f f1 G F H GA GB HN SA SB Hm HP. induction HP as [f|f f1 f2 u Hu Hc _ IH]; intro Hp; [exact Hp|].
  apply IH. eapply wpc_crash; [|exact Hc]. apply pair_home_boot; auto.
Qed.

(** ** C80 *)

(** One uninterrupted boot after the trigger: as with the default layout (C15). *)
Theorem C80_update : forall c A B u f, geometry c -> flags_room c -> home_flags c -> good c A -> good c B ->
  zlen (fst B) <= PART c - 2 * SECT c -> may_install c A B -> triggered_update c A B f ->
  exists f', run (start c u) f = Done (BOOT c + HDR c) f' /\
    holds f' (BOOT c) (fst B) /\ holds f' (UPDATE c) (fst A) /\
    get_partition_state c f' PBOOT = Some ST_TESTING /\
    get_partition_state c f' PUPDATE = None /\
    (forall s, get_update_sector_flag c f' s = None).
Proof.
  intros c A B u f G F H GA GB SB Hm HT.
  destruct (sectors_exist c (fst A) (fst B) (snd A) (snd B) G GA GB) as (N & HN).
  pose proof (home_triggered c A B N f G F H GA GB HN HT) as M.
  pose proof M as (_ & _ & _ & _ & ((_ & E) & _)).
  rewrite (start_u0 c u _ f E). set (u' := fun i : nat => match i with O => 0 | S _ => u i end).
  pose proof (home_start_wpc c (fst A) (fst B) (snd A) (snd B) N G F H HN GA GB SB Triggered u' f ltac:(discriminate)
    (or_intror (conj eq_refl (may_false c A B GA Hm))) (or_introl (ex_intro _ 0 (ex_intro _ New M)))) as W.
  destruct (wpc_run _ _ _ _ _ W) as (r & f' & Er & (-> & Hf) & _).
  exists f'. split; [exact Er|].
  destruct Hf as [((_ & _ & _ & D & ((D1 & _) & _)) & Hn & _)|((_ & _ & _ & _ & Qn & _) & _)]; [|congruence].
  apply (data_start c (fst B) (fst A) N G (sectors_sym c _ _ N HN)) in D. destruct D as (E1 & E2 & _).
  split; [exact E1|]. split; [exact E2|]. split; [exact D1|]. split; [exact Hn|].
  intro s. rewrite get_flag_nib. unfold get_partition_state in Hn. destruct (has_magic c f' PUPDATE); [discriminate|reflexivity].
Qed.
Print Assumptions C80_update.

(** Any number of power failures: as with the default layout (C16), as long as neither image
    reaches the sector before the trailer. *)
Theorem C80_power_fail_safe : forall c A B u f f1, geometry c -> flags_room c -> home_flags c -> good c A -> good c B ->
  zlen (fst A) <= PART c - 2 * SECT c -> zlen (fst B) <= PART c - 2 * SECT c ->
  may_install c A B -> triggered_update c A B f -> power_cuts c f f1 -> u 0%nat <> ST_FINAL ->
  exists f2, run (start c u) f1 = Done (BOOT c + HDR c) f2 /\ one_of_two c A B f2.
Proof.
  intros c A B u f f1 G F H GA GB SA SB Hm HT HP Hu.
  destruct (sectors_exist c (fst A) (fst B) (snd A) (snd B) G GA GB) as (N & HN).
  pose proof (home_triggered c A B N f G F H GA GB HN HT) as M.
  assert (P1 : pair_home c A B N f1).
  { apply (pair_home_cuts c A B N f f1); auto. left. left. eauto. }
  destruct (wpc_run _ _ _ _ _ (pair_home_boot c A B N u f1 G F H GA GB HN SA SB Hm Hu P1)) as (r & f2 & E & (-> & K) & _).
  exists f2. auto.
Qed.
Print Assumptions C80_power_fail_safe.

(** Installed without power failure and not confirmed: the next boot puts the previous image
    back, as with the default layout (C17). *)
Theorem C80_fallback : forall c A B u f, geometry c -> flags_room c -> home_flags c -> good c A -> good c B ->
  zlen (fst A) <= PART c - 2 * SECT c -> zlen (fst B) <= PART c - 2 * SECT c ->
  may_install c A B -> installed_update c A B f -> u 0%nat <> ST_FINAL ->
  exists f', run (start c u) f = Done (BOOT c + HDR c) f' /\
    holds f' (BOOT c) (fst A) /\ holds f' (UPDATE c) (fst B) /\ get_partition_state c f' PBOOT = Some ST_TESTING.
Proof.
  intros c A B u f G F H GA GB SA SB Hm (f0 & u0 & r0 & HT & E0) Hu.
  destruct (sectors_exist c (fst A) (fst B) (snd A) (snd B) G GA GB) as (N & HN).
  pose proof (home_triggered c A B N f0 G F H GA GB HN HT) as M.
  pose proof M as (_ & _ & _ & _ & ((_ & E) & _)).
  rewrite (start_u0 c u0 _ f0 E) in E0. set (u' := fun i : nat => match i with O => 0 | S _ => u0 i end) in E0.
  pose proof (home_start_wpc c (fst A) (fst B) (snd A) (snd B) N G F H HN GA GB SB Triggered u' f0 ltac:(discriminate)
    (or_intror (conj eq_refl (may_false c A B GA Hm))) (or_introl (ex_intro _ 0 (ex_intro _ New M)))) as W.
  destruct (wpc_run _ _ _ _ _ W) as (r & f' & Er & (_ & Hf) & _).
  rewrite Er in E0. injection E0 as _ ->.
  destruct Hf as [(Mf & _)|((_ & _ & _ & _ & Qn & _) & _)]; [|congruence].
  pose proof (sectors_sym c _ _ N HN) as HN'.
  pose proof (home_start_wpc c (fst B) (fst A) (snd B) (snd A) N G F H HN' GB GA SA Fallback u f Hu
    (or_introl eq_refl) (or_introl (ex_intro _ 0 (ex_intro _ New Mf)))) as W2.
  destruct (wpc_run _ _ _ _ _ W2) as (r2 & f2 & E2 & (-> & K2) & _). exists f2. split; [exact E2|].
  pose proof Mf as (_ & _ & _ & _ & ((T & _) & _)).
  destruct K2 as [((_ & _ & _ & D & ((D1 & _) & _)) & _ & _)|((_ & _ & _ & _ & _ & Qn) & _)]; [|contradiction].
  apply (data_start c (fst A) (fst B) N G HN) in D. destruct D as (E3 & E4 & _). auto.
Qed.
Print Assumptions C80_fallback.

(** *** A concrete case *)

Definition hdemo : cfg := at_home demo.
Definition home_image (v : Z) (k : nat) (n : nat) : list Z := demo_image v (map (fun i => Z.of_nat (i * 11 mod 241)) (seq k n)).
Definition home_A_bytes : list Z := Eval vm_compute in home_image 3 2 150.
Definition home_A : img := (home_A_bytes, 3).
Definition home_B_bytes : list Z := Eval vm_compute in home_image 5 9 170.
Definition home_B : img := (home_B_bytes, 5).
(** Two images that reach the sector before the trailer. *)
Definition long_A_bytes : list Z := Eval vm_compute in home_image 3 4 210.
Definition long_A : img := (long_A_bytes, 3).
Definition long_B_bytes : list Z := Eval vm_compute in home_image 5 7 230.
Definition long_B : img := (long_B_bytes, 5).

Lemma hdemo_geometry : geometry hdemo.
Proof. constructor; unfold disjoint; cbn; try lia; auto; try (left; lia); try (right; split; reflexivity || lia); split; reflexivity || lia. Qed.
Lemma hdemo_room : flags_room hdemo.
Proof. split; [|split; [|right]]; vm_compute; discriminate. Qed.
Lemma hdemo_home : home_flags hdemo.
Proof. reflexivity. Qed.
Lemma hdemo_same : forall X v, genuine demo X v -> genuine hdemo X v.
Proof. intros X v []. constructor; assumption. Qed.
Lemma home_A_good : good hdemo home_A.
Proof. apply hdemo_same. unfold home_A, home_A_bytes. cbn [fst snd]. demo_genuine. Qed.
Lemma home_B_good : good hdemo home_B.
Proof. apply hdemo_same. unfold home_B, home_B_bytes. cbn [fst snd]. demo_genuine. Qed.
Lemma long_A_good : good hdemo long_A.
Proof. apply hdemo_same. unfold long_A, long_A_bytes. cbn [fst snd]. demo_genuine. Qed.
Lemma long_B_good : good hdemo long_B.
Proof. apply hdemo_same. unfold long_B, long_B_bytes. cbn [fst snd]. demo_genuine. Qed.

Definition pair_flash (A B : img) : flash := Sample.store 1024 (fst A) (Sample.store 2048 (fst B) SwapLimits.blank).
Definition hready (A B : img) : flash := end_flash (run (update_trigger hdemo (SECT hdemo)) (pair_flash A B)) SwapLimits.blank.

Lemma hready_triggered : forall A B, good hdemo A -> good hdemo B ->
  word (pair_flash A B) 1280 <> WOLFBOOT_MAGIC_TRAIL -> word (pair_flash A B) 2304 <> WOLFBOOT_MAGIC_TRAIL ->
  triggered_update hdemo A B (hready A B).
Proof.
  intros A B GA GB W1 W2. pose proof (gn_bytes _ _ _ GA) as BA. pose proof (gn_bytes _ _ _ GB) as BB.
  pose proof (gn_fit _ _ _ GA) as LA. pose proof (gn_fit _ _ _ GB) as LB. cbn in LA, LB.
  assert (Hb : bytes (pair_flash A B)) by (apply store_bytes; [exact BA|]; apply store_bytes; [exact BB|exact blank_bytes]).
  exists (pair_flash A B). split; [exact Hb|]. split; [apply store_holds|].
  split; [apply store_other; [left; cbn [UPDATE hdemo at_home demo]; lia|apply store_holds]|].
  split; [exact W1|]. split; [exact W2|]. split.
  - intro E. assert (K : has_magic hdemo (pair_flash A B) PBOOT = false).
    { unfold has_magic. apply Z.eqb_neq. apply word_erased. intros i Hi.
      change (magic_addr hdemo PBOOT) with 1532. unfold pair_flash, Sample.store.
      rewrite (proj2 (inr_false 1024 _ _)) by lia. rewrite (proj2 (inr_false 2048 _ _)) by lia. reflexivity. }
    unfold on_trial, get_partition_state in E. rewrite K in E. discriminate E.
  - destruct (trigger_room_run hdemo (BOOT hdemo) (SECT hdemo) (pair_flash A B) hdemo_geometry hdemo_room
      (or_intror (conj hdemo_home eq_refl)) Hb (or_introl eq_refl)) as (f' & E & _).
    unfold hready. rewrite E. reflexivity.
Qed.

Example C80_hyps : geometry hdemo /\ flags_room hdemo /\ home_flags hdemo /\ good hdemo home_A /\ good hdemo home_B /\
  zlen (fst home_A) <= PART hdemo - 2 * SECT hdemo /\ zlen (fst home_B) <= PART hdemo - 2 * SECT hdemo /\
  may_install hdemo home_A home_B /\ triggered_update hdemo home_A home_B (hready home_A home_B).
Proof.
  split; [exact hdemo_geometry|]. split; [exact hdemo_room|]. split; [exact hdemo_home|].
  split; [exact home_A_good|]. split; [exact home_B_good|].
  split; [vm_compute; discriminate|]. split; [vm_compute; discriminate|]. split; [right; reflexivity|].
  apply hready_triggered; [exact home_A_good|exact home_B_good|vm_compute; discriminate|vm_compute; discriminate].
Qed.

(** Flash before the [m]-th erase or write of a boot. *)
Fixpoint stopped {A} (m : nat) (p : prog A) (f : flash) : option flash :=
  match p with
  | Rd r => stopped m (r f) f
  | Er a n k => match m with O => Some f | S m' => stopped m' k (erase f a n) end
  | Wr a n d k => match m with O => Some f | S m' => stopped m' k (write f a n d) end
  | _ => None
  end.
Definition stop_at (m : nat) (f : flash) : flash := match stopped m (start hdemo u_zero) f with Some g => g | None => f end.
Lemma stopped_crash : forall {A} (t : tear) (p : prog A) m f g, stopped m p f = Some g -> crash t p f g.
Proof.
  intros A t p. induction p as [a0|r IH|a0 n0 p IH|a0 n0 d p IH| |]; intros m f g; cbn [stopped crash]; intro E; try discriminate.
  - eapply IH, E.
  - destruct m as [|m]; [injection E as <-; left; reflexivity|]. right; right. eapply IH, E.
  - destruct m as [|m]; [injection E as <-; left; reflexivity|]. right; right. eapply IH, E.
Qed.
Lemma stop_crash : forall m f, match stopped m (start hdemo u_zero) f with Some _ => true | None => false end = true ->
  crash (tear_std hdemo) (start hdemo u_zero) f (stop_at m f).
Proof.
  intros m f H. unfold stop_at. destruct (stopped m (start hdemo u_zero) f) as [g|] eqn:E; [|discriminate H].
  eapply stopped_crash, E.
Qed.

Lemma crash_start_bytes : forall c A B N u f f1, geometry c -> flags_room c -> home_flags c -> good c A -> good c B ->
  sectors c (fst A) (fst B) N -> short c (fst B) -> may_install c A B -> u 0%nat <> ST_FINAL ->
  triggered_update c A B f -> crash (tear_std c) (start c u) f f1 ->
  in_update c (fst A) (fst B) N Triggered f1 \/ fresh c (fst B) (fst A) N f1.
Proof.
  intros c A B N u f f1 G F H GA GB HN SB Hm Hu HT Hc.
  pose proof (home_triggered c A B N f G F H GA GB HN HT) as M.
  exact (wpc_crash _ _ _ _ _ (home_start_wpc c (fst A) (fst B) (snd A) (snd B) N G F H HN GA GB SB Triggered u f Hu
    (or_intror (conj eq_refl (may_false c A B GA Hm))) (or_introl (ex_intro _ 0 (ex_intro _ New M)))) f1 Hc).
Qed.

(** ** C81 *)

(** Power fails once, between the erase of the boot partition's last sector and the mark that
    puts the new image on trial.  That erase also removed the mark saying that the final
    phase has started: the new image runs from then on without ever having been confirmed,
    and no boot falls back to the previous one. *)
Theorem C81_trial_lost_refuted : exists c A B u f f1, geometry c /\ flags_room c /\ home_flags c /\ good c A /\ good c B /\
  zlen (fst A) <= PART c - 2 * SECT c /\ zlen (fst B) <= PART c - 2 * SECT c /\ may_install c A B /\
  triggered_update c A B f /\ u 0%nat <> ST_FINAL /\ crash (tear_std c) (start c u) f f1 /\
  holds f1 (BOOT c) (fst B) /\ ~ on_trial c f1 /\
  forall u', u' 0%nat <> ST_FINAL -> run (start c u') f1 = Done (BOOT c + HDR c) f1.
Proof.
  destruct C80_hyps as (G & F & H & GA & GB & SA & SB & Hm & HT).
  exists hdemo, home_A, home_B, u_zero, (hready home_A home_B), (stop_at 42 (hready home_A home_B)).
  split; [exact G|]. split; [exact F|]. split; [exact H|]. split; [exact GA|]. split; [exact GB|].
  split; [exact SA|]. split; [exact SB|]. split; [exact Hm|]. split; [exact HT|]. split; [discriminate|].
  assert (Hc : crash (tear_std hdemo) (start hdemo u_zero) (hready home_A home_B) (stop_at 42 (hready home_A home_B)))
    by (apply stop_crash; vm_compute; reflexivity).
  split; [exact Hc|].
  destruct (sectors_exist hdemo (fst home_A) (fst home_B) (snd home_A) (snd home_B) G GA GB) as (N & HN).
  set (f1 := stop_at 42 (hready home_A home_B)) in *.
  assert (NU : get_partition_state hdemo f1 PUPDATE = None) by (vm_compute; reflexivity).
  assert (NB : get_partition_state hdemo f1 PBOOT = None) by (vm_compute; reflexivity).
  assert (Q : quiet hdemo (fst home_B) (fst home_A) f1).
  { destruct (crash_start_bytes hdemo home_A home_B N u_zero _ f1 G F H GA GB HN SB Hm ltac:(discriminate) HT Hc)
      as [[(k & ph & (_ & _ & _ & _ & ((_ & K) & _)))|[((_ & K & _) & _)|Q]]|((_ & _ & _ & _ & ((K & _) & _)) & _)];
      [congruence|congruence|exact Q|congruence]. }
  split; [apply Q|]. split; [unfold on_trial; congruence|]. intros u' Hu'.
  destruct (wpc_run _ _ _ _ _ (quiet_start_wpc hdemo (fst home_A) (fst home_B) (snd home_B) u' f1 G GB Hu' Q)) as (r & f2 & E & (-> & ->) & _).
  exact E.
Qed.
Print Assumptions C81_trial_lost_refuted.

(** With an image that reaches the sector before the trailer, the bytes it has there are, in
    the same window, only in the swap area, which nothing refers to any more.  One power
    failure loses the update: the next boot goes back to the previous image and the damaged
    new one is in the update partition. *)
Theorem C81_update_lost_refuted : exists c A B u f f1 f2, geometry c /\ flags_room c /\ home_flags c /\ good c A /\ good c B /\
  may_install c A B /\ triggered_update c A B f /\ u 0%nat <> ST_FINAL /\ crash (tear_std c) (start c u) f f1 /\
  run (start c u) f1 = Done (BOOT c + HDR c) f2 /\ holds f2 (BOOT c) (fst A) /\ ~ holds f2 (UPDATE c) (fst B).
Proof.
  set (f1 := stop_at 58 (hready long_A long_B)).
  exists hdemo, long_A, long_B, u_zero, (hready long_A long_B), f1, (end_flash (run (start hdemo u_zero) f1) f1).
  split; [exact hdemo_geometry|]. split; [exact hdemo_room|]. split; [exact hdemo_home|].
  split; [exact long_A_good|]. split; [exact long_B_good|]. split; [right; reflexivity|].
  split; [apply hready_triggered; [exact long_A_good|exact long_B_good|vm_compute; discriminate|vm_compute; discriminate]|].
  split; [discriminate|]. split; [apply stop_crash; vm_compute; reflexivity|].
  assert (D : is_done (run (start hdemo u_zero) f1) = true) by (vm_compute; reflexivity).
  destruct (done_end _ f1 D) as (r & E).
  assert (Er : match run (start hdemo u_zero) f1 with Done r _ => r | _ => 0 end = BOOT hdemo + HDR hdemo) by (vm_compute; reflexivity).
  rewrite E in Er. subst r. split; [exact E|].
  split; [apply holds_by_rdl; vm_compute; reflexivity|].
  intro K. specialize (K 260 ltac:(vm_compute; split; [discriminate|reflexivity])). vm_compute in K. discriminate K.
Qed.
Print Assumptions C81_update_lost_refuted.

Definition hdies (u1 u2 : nat -> Z) (f : flash) : bool :=
  match run (start hdemo (with_u0 u1)) f with
  | Panicked f2 => is_panic (run (start hdemo (with_u0 u2)) f2) && (ops (start hdemo (with_u0 u2)) f2 =? 0)%nat
  | _ => false
  end.
Lemma hdies_dead : forall f, (forall u1 u2, hdies u1 u2 f = true) -> dead hdemo f.
Proof.
  intros f H u Hu. rewrite start_u_final by exact Hu. fold (with_u0 u).
  pose proof (H u) as K. unfold hdies in K.
  destruct (run (start hdemo (with_u0 u)) f) as [a f2|f2|]; try (specialize (K u_zero); discriminate).
  exists f2. split; [reflexivity|]. intros u2 Hu2. rewrite start_u_final by exact Hu2. fold (with_u0 u2).
  specialize (K u2). apply andb_prop in K. destruct K as (K1 & K2). apply ops_0; [apply Nat.eqb_eq, K2|exact K1].
Qed.

(** Two power failures, the second one in the recovery after the first, leave no image to
    boot. *)
Theorem C81_two_cuts_refuted : exists c A B f f1, geometry c /\ flags_room c /\ home_flags c /\ good c A /\ good c B /\
  may_install c A B /\ triggered_update c A B f /\ power_cuts c f f1 /\ dead c f1.
Proof.
  exists hdemo, long_A, long_B, (hready long_A long_B), (stop_at 58 (stop_at 58 (hready long_A long_B))).
  split; [exact hdemo_geometry|]. split; [exact hdemo_room|]. split; [exact hdemo_home|].
  split; [exact long_A_good|]. split; [exact long_B_good|]. split; [right; reflexivity|].
  split; [apply hready_triggered; [exact long_A_good|exact long_B_good|vm_compute; discriminate|vm_compute; discriminate]|].
  split.
  - apply (pc_more hdemo _ (stop_at 58 (hready long_A long_B)) _ u_zero); [discriminate|apply stop_crash; vm_compute; reflexivity|].
    apply (pc_more hdemo _ (stop_at 58 (stop_at 58 (hready long_A long_B))) _ u_zero); [discriminate|apply stop_crash; vm_compute; reflexivity|].
    apply pc_none.
  - apply hdies_dead. intros u1 u2. vm_compute. reflexivity.
Qed.
Print Assumptions C81_two_cuts_refuted.
