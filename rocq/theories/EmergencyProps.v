(** Theorems about recovery from a boot image that does not verify: C78 and C79. *)
From Verif Require Import Base BaseLemmas HeaderModel HeaderSpec HeaderProofs Flash FlashLemmas ImageModel
  ImageSpec ImageProofs GenuineProofs TrailerModel TrailerProofs TriggerProofs TrailerCrash SwapModel
  SwapSpec Geometry CopyProofs SwapInv SwapSteps SwapLoop SwapFinal SwapStart RefuseProofs HistoryProofs
  Sample ImageProps SwapProps SwapLimits EmergencySpec EmergencyProofs.
Local Ltac Zify.zify_post_hook ::= idtac.

(** ** C78 *)

Lemma fresh_facts : forall c Y X N f, geometry c -> sectors c X Y N -> fresh c Y X N f ->
  bytes f /\ holds f (BOOT c) Y /\ holds f (UPDATE c) X /\ clean c f (BOOT c) /\
  get_partition_state c f PBOOT = Some ST_TESTING /\ get_partition_state c f PUPDATE = None /\
  (forall s, get_update_sector_flag c f s = None).
Proof.
  intros c Y X N f G HN ((Mb & _ & _ & D & ((D1 & _) & _)) & Hn & _).
  apply (data_start c Y X N G (sectors_sym c X Y N HN)) in D. destruct D as (E1 & E2 & (E3 & _)).
  split; [exact Mb|]. split; [exact E1|]. split; [exact E2|]. split; [exact E3|]. split; [exact D1|]. split; [exact Hn|].
  intro s. rewrite get_flag_nib. unfold get_partition_state in Hn. destruct (has_magic c f PUPDATE); [discriminate|reflexivity].
Qed.

(** C78: if the image in the boot partition does not verify (whatever is there), and a good
    image waits in the update partition, of whatever version, triggered or not, one
    uninterrupted boot installs that image and runs it, on trial. *)
Theorem C78_recovers : forall c Y u f, geometry c -> flags_fit c -> spare c Y f -> u 0%nat <> ST_FINAL ->
  ~ verified c f (BOOT c) ->
  word f (BOOT c) <> WOLFBOOT_MAGIC \/ word f (BOOT c + 4) <= PART c - SECT c - HDR c ->
  exists f', run (start c u) f = Done (BOOT c + HDR c) f' /\ holds f' (BOOT c) (fst Y) /\
    get_partition_state c f' PBOOT = Some ST_TESTING /\ get_partition_state c f' PUPDATE = None /\
    (forall s, get_update_sector_flag c f' s = None).
Proof.
  intros c Y u f G F Sp Hu V H. pose proof Sp as (Hb & GY & _).
  pose proof (gn_len _ _ _ GY) as LY. pose proof (gn_fit _ _ _ GY) as FY.
  assert (exists X b N, sectors c X (fst Y) N /\ opens c X b /\ b + HDR c <= N * SECT c /\ holds f (BOOT c) X)
    as (X & b & N & HN & OX & Hb' & HX).
  { assert (headless c f \/ word f (BOOT c) = WOLFBOOT_MAGIC /\ word f (BOOT c + 4) <> 0 /\
      word f (BOOT c + 4) <= PART c - SECT c - HDR c) as [HL|(E1 & E2 & E3)].
    { unfold headless. destruct (Z.eq_dec (word f (BOOT c)) WOLFBOOT_MAGIC); [|auto].
      destruct (Z.eq_dec (word f (BOOT c + 4)) 0); [auto|]. right. destruct H; [contradiction|auto]. }
    - set (X := rdl f (BOOT c) 8). assert (LX : zlen X = 8) by reflexivity.
      destruct (sectors_one c X (fst Y) (snd Y) G GY) as (N & HN); [geo G; lia|].
      exists X, 0, N. split; [exact HN|]. split; [apply headless_opens; assumption|].
      split; [destruct HN as (_ & ? & _); lia|]. apply holds_by_rdl. reflexivity.
    - pose proof (word_range f (BOOT c + 4) Hb) as WR.
      set (X := rdl f (BOOT c) (Z.to_nat (HDR c + word f (BOOT c + 4)))).
      assert (LX : zlen X = HDR c + word f (BOOT c + 4)).
      { unfold X, zlen. rewrite length_rdl. geo G. lia. }
      assert (HX : holds f (BOOT c) X) by (apply holds_by_rdl; unfold X; rewrite length_rdl; reflexivity).
      assert (FX : framed c X).
      { geo G. constructor; [| |lia|lia].
        - rewrite <- E1, word_rdl. f_equal. pose proof (holds_sub f _ X 0 4 HX ltac:(unfold zlen in LX; lia)) as K.
          change (Z.of_nat 0) with 0 in K. rewrite Z.add_0_r in K. rewrite K. reflexivity.
        - replace (zlen X - HDR c) with (word f (BOOT c + 4)) by lia. rewrite word_rdl. f_equal.
          pose proof (holds_sub f _ X 4 4 HX ltac:(unfold zlen in LX; lia)) as K. symmetry. exact K. }
      destruct (sectors_one c X (fst Y) (snd Y) G GY) as (N & HN); [geo G; lia|].
      exists X, (zlen X - HDR c), N. split; [exact HN|].
      split; [apply framed_opens; auto; [apply hs, G|geo G; lia]|]. split; [destruct HN; lia|exact HX]. }
  pose proof (spare_mid c X Y N f G F HN Sp HX) as M.
  destruct (wpc_run _ _ _ _ _ (rescue_wpc c X (fst Y) b (snd Y) N G F HN OX Hb' GY (mode_at c f) u 0 New f
    (mode_not_triggered c f) Hu M ltac:(congruence))) as (r & f' & E & ((-> & _) & K) & _).
  specialize (K V). destruct (fresh_facts c (fst Y) X N f' G HN K) as (_ & F1 & _ & _ & F4 & F5 & F6).
  exists f'. auto 10.
Qed.
Print Assumptions C78_recovers.

(** *** With power failures *)

(** Somewhere in a recovery, or done with it. *)
Definition rescue_inv (c : cfg) (X : list Z) (Y : img) (N : Z) (d : mode) (f : flash) : Prop :=
  updating c X (fst Y) N d f \/ fresh c (fst Y) X N f.

Section Safe.
  Variables (c : cfg) (X : list Z) (Y : img) (N : Z) (d : mode).
  Hypothesis G : geometry c.
  Hypothesis F : flags_fit c.
  Hypothesis HN : sectors c X (fst Y) N.
  Hypothesis FX : framed c X.
  Hypothesis DX : damaged c X.
  Hypothesis GY : good c Y.
  Hypothesis Hd : d <> Triggered.

  (** On trial with a damaged backup: nothing changes any more. *)
  Lemma fresh_stays : forall u f, u 0%nat <> ST_FINAL -> fresh c (fst Y) X N f ->
    run (start c u) f = Done (BOOT c + HDR c) f /\ forall f', crash (tear_std c) (start c u) f f' -> f' = f.
  Proof.
    intros u f Hu Fr. destruct (fresh_facts c (fst Y) X N f G HN Fr) as (Hb & HB & HU & Cl & S1 & S2 & Fl).
    destruct (damaged_unverified c f PUPDATE X G Hb ltac:(discriminate) FX DX HU) as (V & W). cbn [part_addr] in *.
    destruct (C13_rejected_update c u f G Hb Hu) as (R1 & R2).
    - apply (holds_verified c f PBOOT (fst Y) (snd Y)); auto. discriminate.
    - split; [exact Cl|]. split; [rewrite S2; discriminate|]. left. apply Fl.
    - intros (K & _). exact (V K).
    - right. rewrite W. pose proof (fr_fit c X FX). geo G. lia.
    - split; [exact R1|]. apply R2.
  Qed.

  Lemma rescue_step : forall u f, u 0%nat <> ST_FINAL -> rescue_inv c X Y N d f ->
    wpc (tear_std c) (start c u) (fun r f' => r = BOOT c + HDR c /\ (holds f' (BOOT c) (fst Y) \/ f' = f) /\
      rescue_inv c X Y N d f') (rescue_inv c X Y N d) f.
  Proof.
    intros u f Hu I.
    assert (OX : opens c X (zlen X - HDR c)) by (apply framed_opens; auto; [apply hs, G|geo G; lia]).
    assert (Hb' : zlen X - HDR c + HDR c <= N * SECT c) by (destruct HN; lia).
    pose proof (fr_len c X FX) as LX.
    destruct I as [[(k & ph & M)|FI]|Fr].
    - eapply wpc_post; [apply (rescue_wpc c X (fst Y) (zlen X - HDR c) (snd Y) N G F HN OX Hb' GY d u k ph f Hd Hu M); lia|].
      cbn beta. intros r f' _ ((-> & [Fr|(-> & _)]) & _).
      + split; [reflexivity|]. split; [left; apply (fresh_facts c _ _ _ _ G HN Fr)|right; exact Fr].
      + split; [reflexivity|]. split; [right; reflexivity|]. left. left. eauto.
    - eapply wpc_post; [apply (rescue_final_wpc c X (fst Y) (snd Y) N G F HN GY d u f Hu FI)|].
      cbn beta. intros r f' _ (-> & Fr). split; [reflexivity|].
      split; [left; apply (fresh_facts c _ _ _ _ G HN Fr)|right; exact Fr].
    - destruct (fresh_stays u f Hu Fr) as (R1 & R2).
      apply (wpc_intro _ _ _ _ f (BOOT c + HDR c) f); [exact R1| |].
      + split; [reflexivity|]. split; [right; reflexivity|right; exact Fr].
      + intros f' Hc. rewrite (R2 f' Hc). right. exact Fr.
  Qed.

  Lemma rescue_boots : forall f f1, boots c f f1 -> rescue_inv c X Y N d f -> rescue_inv c X Y N d f1.
  Proof.
    intros f f1 B. induction B as [f|f f1 f2 u Hu Hc _ IH|f f1 f2 u r Hu Er _ IH]; intro I; [exact I| |].
    - apply IH. exact (wpc_crash _ _ _ _ _ (rescue_step u f Hu I) f1 Hc).
    - apply IH. destruct (wpc_run _ _ _ _ _ (rescue_step u f Hu I)) as (r' & f' & E & (_ & _ & K) & _).
      rewrite E in Er. injection Er as _ <-. exact K.
  Qed.
End Safe.

(** C78 with power failures: the contents of the boot image are damaged, the first eight
    bytes of its header are not.  Let power fail any number of times, at any flash operation
    or in the middle of it, with complete boots in between: every boot that is not
    interrupted runs a verified image.  It is the good one, unless flash already held a
    verified image when that boot began, which it then leaves alone. *)
Theorem C78_power_fail_safe : forall c X Y f f1 u, geometry c -> flags_fit c -> spare c Y f ->
  holds f (BOOT c) X -> framed c X -> damaged c X -> boots c f f1 -> u 0%nat <> ST_FINAL ->
  exists f2, run (start c u) f1 = Done (BOOT c + HDR c) f2 /\ verified c f2 (BOOT c) /\
    (holds f2 (BOOT c) (fst Y) \/ f2 = f1).
Proof.
  intros c X Y f f1 u G F Sp HX FX DX B Hu. pose proof Sp as (Hb & GY & _).
  destruct (sectors_one c X (fst Y) (snd Y) G GY (fr_fit c X FX)) as (N & HN).
  pose proof (mode_not_triggered c f) as Hd.
  assert (I : rescue_inv c X Y N (mode_at c f) f) by (left; left; exists 0, New; apply spare_mid; auto).
  pose proof (rescue_boots c X Y N _ G F HN FX DX GY Hd f f1 B I) as I1.
  destruct (wpc_run _ _ _ _ _ (rescue_step c X Y N _ G F HN FX DX GY Hd u f1 Hu I1)) as (r & f2 & E & (-> & K & _) & _).
  exists f2. split; [exact E|]. split; [|exact K].
  assert (B1 : bytes f1) by (destruct I1 as [[(k & ph & M)|M]|(M & _)]; apply M).
  apply (C12_boots_verified c u f1 _ f2 G B1 E).
Qed.
Print Assumptions C78_power_fail_safe.

(** ** C79 *)

(** C79: the damaged image never comes back: after the recovery, even if the recovered image
    is not confirmed, no boot, complete or not, changes a byte of flash, and every complete
    boot runs it. *)
Theorem C79_not_undone : forall c X Y u r f f1 f2, geometry c -> flags_fit c -> spare c Y f ->
  holds f (BOOT c) X -> framed c X -> damaged c X -> u 0%nat <> ST_FINAL ->
  run (start c u) f = Done r f1 -> boots c f1 f2 ->
  f2 = f1 /\ holds f1 (BOOT c) (fst Y) /\ on_trial c f1 /\
  forall u2, u2 0%nat <> ST_FINAL -> run (start c u2) f2 = Done (BOOT c + HDR c) f2.
Proof.
  intros c X Y u r f f1 f2 G F Sp HX FX DX Hu E B. pose proof Sp as (Hb & GY & _).
  destruct (sectors_one c X (fst Y) (snd Y) G GY (fr_fit c X FX)) as (N & HN).
  assert (Fr : fresh c (fst Y) X N f1).
  { assert (OX : opens c X (zlen X - HDR c)) by (apply framed_opens; auto; [apply hs, G|geo G; lia]).
    assert (Hb' : zlen X - HDR c + HDR c <= N * SECT c) by (destruct HN; lia).
    destruct (damaged_unverified c f PBOOT X G Hb ltac:(discriminate) FX DX HX) as (V & _). cbn [part_addr] in V.
    destruct (wpc_run _ _ _ _ _ (rescue_wpc c X (fst Y) _ (snd Y) N G F HN OX Hb' GY (mode_at c f) u 0 New f
      (mode_not_triggered c f) Hu (spare_mid c X Y N f G F HN Sp HX) ltac:(congruence))) as (r' & f' & E' & ((_ & _) & K) & _).
    rewrite E in E'. injection E' as _ <-. apply K, V. }
  assert (f2 = f1) as ->.
  { clear E. induction B as [f0|f0 f1 f2 v Hv Hc B IH|f0 f1 f2 v r' Hv Er B IH]; [reflexivity| |].
    - pose proof (proj2 (fresh_stays c X Y N G F HN FX DX GY v f0 Hv Fr) f1 Hc) as E1. rewrite E1 in *. apply IH, Fr.
    - pose proof (proj1 (fresh_stays c X Y N G F HN FX DX GY v f0 Hv Fr)) as E1. rewrite E1 in Er.
      injection Er as _ <-. apply IH, Fr. }
  destruct (fresh_facts c (fst Y) X N f1 G HN Fr) as (_ & F1 & _ & _ & F4 & _).
  split; [reflexivity|]. split; [exact F1|]. split; [exact F4|].
  intros u2 Hu2. apply (fresh_stays c X Y N G F HN FX DX GY u2 f1 Hu2 Fr).
Qed.
Print Assumptions C79_not_undone.

(** ** Concrete cases *)

(** Version 5 with one damaged byte of firmware in the boot partition, version 3 in the
    update partition. *)
Definition rotten : list Z := Eval vm_compute in firstn 70 demo_new ++ [0] ++ skipn 71 demo_new.
Definition rotten_flash : flash := store 1024 rotten (store 2048 demo_old blank).

Lemma rotten_framed : framed demo rotten.
Proof. constructor; vm_compute; reflexivity || discriminate. Qed.
Lemma rotten_damaged : damaged demo rotten.
Proof.
  intros d (off & Fd & _ & E).
  assert (B : all_bytes (hdr_of demo rotten)) by (apply check_bytes_ok; vm_compute; reflexivity).
  destruct (field_find 0 (hdr_of demo rotten) HDR_SHA256 off d B ltac:(vm_compute; reflexivity) Fd) as (E1 & E2).
  assert (K : find_header 0 (hdr_of demo rotten) HDR_SHA256 = Val (Some (28%nat, 4%nat))) by (vm_compute; reflexivity).
  rewrite K in E1. assert (off = 28%nat) as -> by congruence. assert (length d = 4%nat) as L by congruence.
  rewrite L in E2. rewrite <- E2 in E. vm_compute in E. discriminate E.
Qed.

Lemma rotten_spare : spare demo demo_A rotten_flash.
Proof.
  split. { apply store_bytes; [apply check_bytes_ok; vm_compute; reflexivity|].
    apply store_bytes; [apply check_bytes_ok; vm_compute; reflexivity|exact blank_bytes]. }
  split; [exact demo_old_genuine|].
  split; [apply store_other; [left; vm_compute; discriminate|apply store_holds]|].
  split; [vm_compute; discriminate|]. split; [vm_compute; discriminate|]. left.
  intros x Hx. cbn [UPDATE PART SECT demo] in Hx. unfold rotten_flash, store.
  rewrite (proj2 (inr_false 1024 _ x)) by (cbn; lia). rewrite (proj2 (inr_false 2048 _ x)) by (cbn; lia). reflexivity.
Qed.

Example C78_hyps : spare demo demo_A rotten_flash /\ holds rotten_flash (BOOT demo) rotten /\ framed demo rotten /\
  damaged demo rotten /\ ~ verified demo rotten_flash (BOOT demo) /\
  word rotten_flash (BOOT demo + 4) <= PART demo - SECT demo - HDR demo.
Proof.
  assert (H : holds rotten_flash (BOOT demo) rotten) by apply store_holds.
  split; [exact rotten_spare|]. split; [exact H|]. split; [exact rotten_framed|]. split; [exact rotten_damaged|].
  split; [|vm_compute; discriminate].
  apply (damaged_unverified demo rotten_flash PBOOT rotten demo_geometry); [apply rotten_spare|discriminate|exact rotten_framed|exact rotten_damaged|exact H].
Qed.

(** ** What does not hold *)

(** The protection against power failures needs the header: if the first word of the boot
    partition is wrong (an erased or torn first sector), a power failure after the first
    sector of the update partition was overwritten leaves a device on which every boot
    fails, although all of the good image is still in flash. *)
Definition torn_head : list Z := Eval vm_compute in 0 :: tl demo_old.
Definition headless_flash : flash := store 1024 torn_head (store 2048 demo_new blank).
Definition cut_flash : flash := match before 12 (start demo u_zero) headless_flash with Some (g, _) => g | None => blank end.

Theorem C78_no_header_power_cut_refuted : exists c Y u f f1, geometry c /\ flags_fit c /\ spare c Y f /\
  word f (BOOT c) <> WOLFBOOT_MAGIC /\ u 0%nat <> ST_FINAL /\ crash (tear_std c) (start c u) f f1 /\ dead c f1.
Proof.
  exists demo, demo_B, u_zero, headless_flash, cut_flash.
  split; [exact demo_geometry|]. split; [exact demo_fits|]. split.
  { split. { apply store_bytes; [apply check_bytes_ok; vm_compute; reflexivity|].
      apply store_bytes; [apply check_bytes_ok; vm_compute; reflexivity|exact blank_bytes]. }
    split; [exact demo_new_genuine|].
    split; [apply store_other; [left; vm_compute; discriminate|apply store_holds]|].
    split; [vm_compute; discriminate|]. split; [vm_compute; discriminate|]. left.
    intros x Hx. cbn [UPDATE PART SECT demo] in Hx. unfold headless_flash, store.
    rewrite (proj2 (inr_false 1024 _ x)) by (cbn; lia). rewrite (proj2 (inr_false 2048 _ x)) by (cbn; lia). reflexivity. }
  split; [vm_compute; discriminate|]. split; [discriminate|]. split.
  - unfold cut_flash. destruct (before 12 (start demo u_zero) headless_flash) as [[g [a n]]|] eqn:E.
    + exact (proj1 (before_crash (tear_std demo) (start demo u_zero) 12 headless_flash g a n E)).
    + exfalso. assert (K : match before 12 (start demo u_zero) headless_flash with Some _ => true | None => false end = true)
        by (vm_compute; reflexivity). rewrite E in K. discriminate K.
  - apply dies_dead. intros u1 u2. vm_compute. reflexivity.
Qed.
Print Assumptions C78_no_header_power_cut_refuted.

(** A recovery ignores versions, also without ALLOW_DOWNGRADE: damaging one byte of the
    running image (here of version 5) brings back the older version (here 3) that the last
    update left in the update partition, with no update triggered. *)
Theorem C79_no_downgrade_refuted : exists c A B X u f f1, geometry c /\ flags_fit c /\ c_allow_downgrade c = false /\
  good c A /\ good c B /\ snd B < snd A /\ length X = length (fst A) /\
  (exists i, forall j, j <> i -> nth j X 0 = nth j (fst A) 0) /\
  spare c B f /\ holds f (BOOT c) X /\ ~ on_trial c f /\ get_partition_state c f PUPDATE <> Some ST_UPDATING /\
  run (start c u) f = Done (BOOT c + HDR c) f1 /\ holds f1 (BOOT c) (fst B).
Proof.
  destruct C78_hyps as (H1 & H2 & H3 & H4 & H5 & H6).
  destruct (C78_recovers demo demo_A u_zero rotten_flash demo_geometry demo_fits H1 ltac:(discriminate) H5 (or_intror H6))
    as (f1 & E & K & _).
  exists demo, demo_B, demo_A, rotten, u_zero, rotten_flash, f1.
  split; [exact demo_geometry|]. split; [exact demo_fits|]. split; [reflexivity|]. split; [exact demo_new_genuine|].
  split; [exact demo_old_genuine|]. split; [reflexivity|]. split; [vm_compute; reflexivity|].
  split. { exists 70%nat. intros j Hj. cbn [demo_B fst].
    destruct (Nat.lt_ge_cases j 264) as [L|L].
    - assert (D : forallb (fun j => (j =? 70)%nat || (nth j rotten 0 =? nth j demo_new 0)) (seq 0 264) = true) by (vm_compute; reflexivity).
      rewrite forallb_forall in D. specialize (D j ltac:(apply in_seq; lia)).
      destruct (Nat.eqb_spec j 70); [contradiction|]. cbn [orb] in D. apply Z.eqb_eq, D.
    - rewrite !nth_overflow; [reflexivity| |]; (etransitivity; [|exact L]); vm_compute; repeat constructor. }
  split; [exact H1|]. split; [exact H2|]. split; [vm_compute; discriminate|]. split; [vm_compute; discriminate|].
  split; [exact E|exact K].
Qed.
Print Assumptions C79_no_downgrade_refuted.
