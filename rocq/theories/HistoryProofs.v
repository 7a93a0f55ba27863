(** Every history of the device follows the expected life cycle. *)
From Verif Require Import Base BaseLemmas HeaderModel HeaderSpec HeaderProofs Flash FlashLemmas ImageModel
  ImageSpec ImageProofs GenuineProofs TrailerModel TrailerProofs TriggerProofs TrailerCrash SwapModel
  SwapSpec Geometry CopyProofs SwapInv SwapSteps SwapLoop SwapFinal SwapStart RefuseProofs.
Local Ltac Zify.zify_post_hook ::= idtac.

Lemma sectors_exist : forall c X Y vX vY, geometry c -> genuine c X vX -> genuine c Y vY -> exists N, sectors c X Y N.
Proof.
  intros c X Y vX vY G GX GY. pose proof (gn_fit _ _ _ GX). pose proof (gn_fit _ _ _ GY).
  pose proof (gn_len _ _ _ GX). pose proof (gn_len _ _ _ GY).
  destruct (g_sect c G) as (_ & S). destruct (g_part c G) as (P & P2). destruct (g_hdr c G) as (H12 & _).
  set (m := Z.max (zlen X) (zlen Y)). exists ((m - 1) / SECT c + 1).
  pose proof (Z.div_mod (PART c) (SECT c) ltac:(lia)) as D. rewrite P in D.
  pose proof (Z.div_mod (m - 1) (SECT c) ltac:(lia)) as D2.
  pose proof (Z.mod_pos_bound (m - 1) (SECT c) ltac:(lia)) as D3.
  set (q := PART c / SECT c) in *. set (r := (m - 1) mod SECT c) in *. set (k := (m - 1) / SECT c) in *.
  assert (Hm : m <= PART c - SECT c) by (unfold m; lia). assert (0 < m) by (unfold m; lia).
  assert (k < q - 1) by (apply (Z.mul_lt_mono_pos_r (SECT c)); lia).
  assert ((k + 1) * SECT c <= (q - 1) * SECT c) by (apply Z.mul_le_mono_nonneg_r; lia).
  assert (0 <= k) by (apply Z.div_pos; lia).
  assert (zlen X <= m /\ zlen Y <= m /\ (zlen X = m \/ zlen Y = m)) as (L1 & L2 & L3) by (unfold m; lia).
  clearbody m q r k. split; [lia|]. split; [lia|]. split; [lia|]. split; [|lia].
  replace (k + 1 - 1) with k by lia. lia.
Qed.

Section History.
  Variable c : cfg.
  Hypothesis G : geometry c.
  Hypothesis F : flags_fit c.
  Let t := tear_std c.

  (** How flash represents the expected state. *)
  Definition idle (A : img) (f : flash) : Prop :=
    good c A /\ bytes f /\ holds f (BOOT c) (fst A) /\ clean c f (BOOT c) /\ ~ on_trial c f /\
    get_partition_state c f PUPDATE <> Some ST_FINAL /\
    (get_partition_state c f PUPDATE = Some ST_UPDATING -> refused c false f).

  Definition shows (s : device) (on : bool) (f : flash) : Prop :=
    match s with
    | Idle A => idle A f
    | Pending A B => good c A /\ good c B /\ may_install c A B /\ exists N, sectors c (fst A) (fst B) N /\
        updating c (fst A) (fst B) N Triggered f /\ (on = true -> mid c (fst A) (fst B) N Triggered 0 New f)
    | Trial A B => good c A /\ good c B /\ exists N, sectors c (fst A) (fst B) N /\
        updating c (fst A) (fst B) N Fallback f /\ (on = true -> fresh c (fst A) (fst B) N f)
    end.

  (** *** Booting *)

  Lemma idle_wpc : forall A f u, u 0%nat <> ST_FINAL -> idle A f ->
    wpc t (start c u) (fun r f' => r = BOOT c + HDR c /\ f' = f) (fun f' => f' = f) f.
  Proof.
    intros A f u Hu (GA & Hb & Hh & Hc & Ht & Hf & Hr). unfold start. cbn [get bind wpc].
    apply wpc_bind.
    assert (R : wpc t (swap_and_final_erase c (u 0%nat) true) (fun b f' => b = false /\ f' = f) (fun f' => f' = f) f).
    { unfold swap_and_final_erase. cbn [wpc]. cbn zeta.
      destruct (open_img c f PBOOT) as (_ & P2). rewrite P2. cbn [part_addr].
      replace (PART c - SECT c - SECT c) with (PART c - 2 * SECT c) by lia.
      destruct (Z.eqb_spec (word f (BOOT c + (PART c - 2 * SECT c))) WOLFBOOT_MAGIC_TRAIL) as [E|_]; [contradiction|].
      assert (HF : (match get_partition_state c f PUPDATE with Some s => s | None => u 0%nat end =? ST_FINAL) = false).
      { apply Z.eqb_neq. destruct (get_partition_state c f PUPDATE); congruence. }
      rewrite HF. cbn [negb andb wpc]. auto. }
    eapply wpc_post; [exact R|]. cbn beta. intros b f' _ (-> & ->).
    assert (BS : forall upd, wpc t (boot_stage c upd) (fun r f' => r = BOOT c + HDR c /\ f' = f) (fun f' => f' = f) f).
    { intro upd. apply (boot_stage_wpc t c f (fst A) (snd A)); auto. }
    destruct (get_partition_state c f PBOOT) as [s|] eqn:Es.
    - destruct (Z.eqb_spec s ST_TESTING) as [->|_]; [exfalso; apply Ht; exact Es|].
      destruct (get_partition_state c f PUPDATE) as [s2|] eqn:Es2; [|apply BS].
      destruct (Z.eqb_spec s2 ST_UPDATING) as [->|_]; [|apply BS].
      apply wpc_bind. apply wpc_bind. eapply wpc_post; [apply (Hr eq_refl)|].
      cbn beta. intros b f' _ (_ & ->). cbn [wpc]. auto.
    - destruct (get_partition_state c f PUPDATE) as [s2|] eqn:Es2; [|apply BS].
      destruct (Z.eqb_spec s2 ST_UPDATING) as [->|_]; [|apply BS].
      apply wpc_bind. apply wpc_bind. eapply wpc_post; [apply (Hr eq_refl)|].
      cbn beta. intros b f' _ (_ & ->). cbn [wpc]. auto.
  Qed.

  Lemma fresh_trial : forall A B N f on, good c A -> good c B -> sectors c (fst A) (fst B) N ->
    fresh c (fst A) (fst B) N f -> shows (Trial A B) on f.
  Proof.
    intros A B N f on GA GB HN Fr. split; [exact GA|]. split; [exact GB|]. exists N. split; [exact HN|].
    split; [left; eexists _, _; apply Fr|auto].
  Qed.

  Lemma boot_sim : forall s on f u, u 0%nat <> ST_FINAL -> shows s on f ->
    wpc t (start c u)
      (fun r f' => r = BOOT c + HDR c /\ holds f' (BOOT c) (fst (next_boot s)) /\
                   (forall A, next_backup s = Some A -> holds f' (UPDATE c) (fst A)) /\
                   exists s', expect c s EBoot s' /\ shows s' true f')
      (fun f' => exists s', expect c s ECut s' /\ shows s' false f') f.
  Proof.
    intros s on f u Hu Hs. destruct s as [A|A B|A B].
    - eapply wpc_conseq; [apply (idle_wpc A); auto| |].
      + cbn beta. intros r f' (-> & ->). split; [reflexivity|]. split; [apply Hs|]. split; [discriminate|]. exists (Idle A). split; [constructor|exact Hs].
      + cbn beta. intros f' -> . exists (Idle A). split; [constructor|exact Hs].
    - destruct Hs as (GA & GB & Hm & N & HN & HU & _).
      eapply wpc_conseq; [apply (start_wpc c (fst A) (fst B) (snd A) (snd B) N G F HN GA GB false u f Hu); auto| |].
      + cbn beta. intros r f' (-> & Fr). split; [reflexivity|]. pose proof Fr as ((_ & _ & _ & D & _) & _).
        apply (data_start c (fst B) (fst A) N G (sectors_sym c _ _ N HN)) in D. destruct D as (D1 & D2 & _).
        split; [exact D1|]. split; [|].
        * cbn [next_backup]. intros A' EA. injection EA as <-. exact D2.
        * exists (Trial B A). split; [constructor|]. apply (fresh_trial B A N); auto. apply sectors_sym, HN.
      + cbn beta. intros f' [U|Fr].
        * exists (Pending A B). split; [constructor|]. split; [exact GA|]. split; [exact GB|]. split; [exact Hm|].
          exists N. split; [exact HN|]. split; [exact U|discriminate].
        * exists (Trial B A). split; [constructor|]. apply (fresh_trial B A N); auto. apply sectors_sym, HN.
    - destruct Hs as (GA & GB & N & HN & HU & _).
      eapply wpc_conseq; [apply (start_wpc c (fst A) (fst B) (snd A) (snd B) N G F HN GA GB true u f Hu); auto| |].
      + cbn beta. intros r f' (-> & Fr). split; [reflexivity|]. pose proof Fr as ((_ & _ & _ & D & _) & _).
        apply (data_start c (fst B) (fst A) N G (sectors_sym c _ _ N HN)) in D. destruct D as (D1 & D2 & _).
        split; [exact D1|]. split; [|].
        * cbn [next_backup]. intros A' EA. injection EA as <-. exact D2.
        * exists (Trial B A). split; [constructor|]. apply (fresh_trial B A N); auto. apply sectors_sym, HN.
      + cbn beta. intros f' [U|Fr].
        * exists (Trial A B). split; [constructor|]. split; [exact GA|]. split; [exact GB|].
          exists N. split; [exact HN|]. split; [exact U|discriminate].
        * exists (Trial B A). split; [constructor|]. apply (fresh_trial B A N); auto. apply sectors_sym, HN.
  Qed.

  (** *** Confirming *)

  Lemma trial_idle : forall A B N f f', good c A -> good c B -> sectors c (fst A) (fst B) N ->
    fresh c (fst A) (fst B) N f -> bytes f' ->
    (forall x, ~ (BOOT c + PART c - 5 <= x < BOOT c + PART c) -> f' x = f x) ->
    ~ on_trial c f' -> idle A f'.
  Proof.
    intros A B N f f' GA GB HN ((Mb & _ & _ & D & _) & Hnone & _) Hb H Ht.
    apply (data_start c (fst A) (fst B) N G HN) in D. destruct D as (D1 & _ & (N1 & _)).
    pose proof (gn_fit _ _ _ GA) as LA.
    assert (HU : get_partition_state c f' PUPDATE = None).
    { rewrite <- Hnone. apply (same_state c f f' PUPDATE). intros x Hx. apply H.
      cbn [endflags part_addr] in Hx. geo G. lia. }
    split; [exact GA|]. split; [exact Hb|]. split; [intros i Hi; rewrite H by (geo G; lia); apply D1, Hi|].
    split; [|split; [exact Ht|rewrite HU; split; discriminate]].
    unfold clean. rewrite (word_ext f' f _ (BOOT c + (PART c - 2 * SECT c))); auto. intros i Hi. apply H. geo G. lia.
  Qed.

  Lemma byte_10_0 : forall x, is_byte x -> btw (Z.land ST_TESTING ST_SUCCESS) ST_TESTING x -> x = ST_TESTING \/ x = ST_SUCCESS.
  Proof.
    intros x Hx Hb. change (Z.land ST_TESTING ST_SUCCESS) with ST_SUCCESS in Hb.
    destruct (btw_byte ST_SUCCESS ST_TESTING x) as [E|E]; auto.
    intros b Hbb. apply (byte_check (fun b => negb ((Z.land b ST_SUCCESS =? ST_SUCCESS) && (Z.land b ST_TESTING =? b)) || (b =? ST_SUCCESS) || (b =? ST_TESTING))); auto.
  Qed.

  Lemma confirm_sim : forall s f, shows s true f -> on_trial c f ->
    (forall f', run (success c) f = Done tt f' -> exists s', expect c s EConfirm s' /\ shows s' true f') /\
    (forall f', crash t (success c) f f' -> exists s', expect c s ECut s' /\ shows s' false f').
  Proof.
    intros s f Hs Ht. destruct s as [A|A B|A B].
    - exfalso. destruct Hs as (_ & _ & _ & _ & K & _). exact (K Ht).
    - exfalso. destruct Hs as (_ & _ & _ & N & _ & _ & K). destruct (K eq_refl) as (_ & _ & _ & _ & ((D & _) & _)).
      exact (D Ht).
    - destruct Hs as (GA & GB & N & HN & _ & K). specialize (K eq_refl).
      pose proof K as ((Mb & _ & Mp & MD & MT') & Hnone & _).
      assert (Hmg : has_magic c f PBOOT = true /\ f (state_addr c PBOOT) = ST_TESTING).
      { unfold on_trial, get_partition_state in Ht. destruct (has_magic c f PBOOT); [|discriminate].
        injection Ht as ->. auto. }
      destruct Hmg as (Hmg & Hst). pose proof (has_magic_magicable c f PBOOT Mb Hmg) as Hmb.
      split.
      + intros f' E. destruct (success_run c f Mb Hmb) as (f1 & E1 & B1 & S1 & O1). rewrite E in E1. injection E1 as <-.
        exists (Idle A). split; [constructor|]. apply (trial_idle A B N f); auto.
        unfold on_trial. rewrite S1. discriminate.
      + intros f' Hc.
        destruct (crash_set_state t c PBOOT ST_SUCCESS f f' Mb ltac:(unfold is_byte, ST_SUCCESS; lia) Hmb Hc) as (B1 & _ & M1 & O1 & W1).
        rewrite Hst in W1. specialize (M1 Hmg).
        rewrite state_addr_eq, magic_addr_eq in O1. cbn [endflags part_addr] in O1.
        assert (O2 : forall x, ~ (BOOT c + PART c - 5 <= x < BOOT c + PART c) -> f' x = f x) by (intros; apply O1; lia).
        destruct (byte_10_0 _ (B1 _) W1) as [E|E].
        * exists (Trial A B). split; [constructor|]. split; [exact GA|]. split; [exact GB|]. exists N. split; [exact HN|].
          split; [|discriminate]. left. exists 0, New. split; [exact B1|]. split; [destruct HN as (_ & _ & _ & _ & ?); lia|].
          split; [congruence|]. destruct (len_bounds c _ _ N HN) as (LA & LB). split.
          -- apply (data_stable c (fst A) (fst B) 0 New f f' G); auto; [|lia]. intros x Hx1 Hx2. apply O2. geo G. lia.
          -- destruct MT' as (T1 & T2 & T3 & T4 & T5).
             assert (UT : forall x, UPDATE c + PART c - SECT c <= x < UPDATE c + PART c -> f' x = f x)
               by (intros x Hx; apply O2; geo G; lia).
             destruct (same_state c f f' PUPDATE) as (U1 & U2 & U3 & U4); [cbn [endflags]; intros; apply UT; geo G; lia|].
             assert (NI : forall s, 0 <= s < PART c / SECT c -> nib c f' s = nib c f s).
             { intros s Hs. destruct (sectors_div c s G F Hs) as (_ & Ha). unfold nib. rewrite UT by lia. reflexivity. }
             assert (0 < PART c / SECT c) by (apply sect_idx; auto; geo G; lia).
             split; [|split; [|split; [|split]]].
             ++ cbn [drv] in *. rewrite U3. split; [|apply T1]. unfold get_partition_state. rewrite M1, E. reflexivity.
             ++ rewrite U1. tauto.
             ++ intros s Hs. lia.
             ++ intros s Hs. rewrite NI by lia. apply T4, Hs.
             ++ rewrite NI by lia. exact T5.
        * exists (Idle A). split; [constructor|]. apply (trial_idle A B N f); auto.
          unfold on_trial, get_partition_state. rewrite M1, E. discriminate.
  Qed.

  (** *** A running, confirmed image *)

  Lemma running_facts : forall s f, shows s true f -> ~ on_trial c f -> exists A, running s A /\ good c A /\
    bytes f /\ holds f (BOOT c) (fst A) /\ clean c f (BOOT c).
  Proof.
    intros s f Hs Ht. destruct s as [A|A B|A B].
    - destruct Hs as (GA & Hb & Hh & Hc & _). exists A. split; [constructor|auto].
    - destruct Hs as (GA & GB & _ & N & HN & _ & K). destruct (K eq_refl) as (Mb & _ & _ & D & _).
      apply (data_start c (fst A) (fst B) N G HN) in D. destruct D as (D1 & _ & (N1 & _)).
      exists A. split; [constructor|]. auto.
    - exfalso. destruct Hs as (_ & _ & N & _ & _ & K). destruct (K eq_refl) as ((_ & _ & _ & _ & ((D & _) & _)) & _).
      exact (Ht D).
  Qed.

  (** Nothing changed outside the update partition. *)
  Lemma boot_kept : forall A f f', good c A -> holds f (BOOT c) (fst A) -> clean c f (BOOT c) -> ~ on_trial c f ->
    (forall x, ~ (UPDATE c <= x < UPDATE c + PART c) -> f' x = f x) ->
    holds f' (BOOT c) (fst A) /\ clean c f' (BOOT c) /\ ~ on_trial c f'.
  Proof.
    intros A f f' GA Hh Hc Ht H. pose proof (gn_fit _ _ _ GA). split; [|split].
    - intros i Hi. rewrite H by (geo G; lia). apply Hh, Hi.
    - unfold clean. rewrite (word_ext f' f _ (BOOT c + (PART c - 2 * SECT c))); auto. intros i Hi. apply H. geo G. lia.
    - unfold on_trial in *.
      rewrite (proj1 (proj2 (same_state c f f' PBOOT
        ltac:(intros x Hx; apply H; cbn [endflags part_addr] in Hx; geo G; lia)))). exact Ht.
  Qed.

  (** *** Confirming again *)

  Lemma again_run : forall f f', bytes f -> run (success c) f = Done tt f' ->
    bytes f' /\ (forall x, ~ (BOOT c + PART c - 5 <= x < BOOT c + PART c) -> f' x = f x) /\ ~ on_trial c f'.
  Proof.
    intros f f' Hb E. unfold success, set_partition_state in E. rewrite run_bind in E. cbn [get bind run] in E.
    assert (exists f1, run (if has_magic c f PBOOT then Ret tt else set_partition_magic c PBOOT) f = Done tt f1 /\
      bytes f1 /\ forall x, ~ (BOOT c + PART c - 4 <= x < BOOT c + PART c) -> f1 x = f x) as (f1 & E1 & B1 & O1).
    { destruct (has_magic c f PBOOT); [exists f; auto|]. unfold set_partition_magic. cbn [run]. eexists. split; [reflexivity|].
      split; [apply bytes_write; [exact Hb|] |].
      - intros i Hi. apply magic_byte_range.
      - intros x Hx. apply write_out. fold (magic_addr c PBOOT). rewrite magic_addr_eq. cbn [endflags part_addr]. lia. }
    rewrite E1 in E. cbn [run] in E.
    destruct (Z.eqb_spec (f1 (state_addr c PBOOT)) ST_SUCCESS) as [S1|S1]; cbn [run] in E.
    - injection E as <-. split; [exact B1|]. split; [intros; apply O1; lia|].
      unfold on_trial, get_partition_state. destruct (has_magic c f1 PBOOT); [|discriminate]. rewrite S1. discriminate.
    - unfold set_trailer_at in E. cbn [run] in E. injection E as <-. fold (state_addr c PBOOT). split; [|split].
      + apply bytes_write; [exact B1|]. intros i Hi. unfold is_byte, ST_SUCCESS; lia.
      + intros x Hx. rewrite write_out by (rewrite state_addr_eq; cbn [endflags part_addr]; lia). apply O1. lia.
      + unfold on_trial, get_partition_state. set (f2 := write _ _ _ _). destruct (has_magic c f2 PBOOT); [|discriminate].
        unfold f2. rewrite write_in by lia. rewrite Z.land_0_r. discriminate.
  Qed.

  Lemma off_shows : forall s on f, shows s on f -> shows s false f.
  Proof.
    intros [A|A B|A B] on f Hs; [exact Hs| |].
    - destruct Hs as (g1 & g2 & g3 & N & g4 & g5 & _). split; [exact g1|]. split; [exact g2|]. split; [exact g3|].
      exists N. split; [exact g4|]. split; [exact g5|discriminate].
    - destruct Hs as (g1 & g2 & N & g4 & g5 & _). split; [exact g1|]. split; [exact g2|].
      exists N. split; [exact g4|]. split; [exact g5|discriminate].
  Qed.

  Lemma again_none : forall f, get_partition_state c f PBOOT = Some ST_SUCCESS ->
    run (success c) f = Done tt f /\ forall f', crash t (success c) f f' -> f' = f.
  Proof.
    intros f Ht. unfold get_partition_state in Ht. destruct (has_magic c f PBOOT) eqn:Em; [|discriminate].
    injection Ht as Ht. unfold success, set_partition_state. split.
    - rewrite run_bind. cbn [get bind run]. rewrite Em. cbn [run]. rewrite Ht, Z.eqb_refl. reflexivity.
    - intros f' Hc. cbn [get bind crash] in Hc. rewrite Em in Hc. cbn [bind crash] in Hc.
      rewrite Ht, Z.eqb_refl in Hc. cbn [crash] in Hc. tauto.
  Qed.

  Lemma again_sim : forall s f, shows s true f ->
    (forall f', ~ on_trial c f ->
       get_partition_state c f PBOOT = Some ST_SUCCESS \/ get_partition_state c f PUPDATE <> Some ST_UPDATING ->
       run (success c) f = Done tt f' -> exists s', expect c s EConfirm s' /\ shows s' true f') /\
    (forall f', get_partition_state c f PBOOT = Some ST_SUCCESS -> crash t (success c) f f' ->
       exists s', expect c s ECut s' /\ shows s' false f').
  Proof.
    intros s f Hs. split.
    - intros f' Ht Hp E. destruct (running_facts s f Hs Ht) as (A & HA & GA & Hb & Hh & Hc).
      exists s. split; [apply (x_confirm_again c s A), HA|].
      destruct Hp as [Hp|Hp].
      { destruct (again_none f Hp) as (E1 & _). rewrite E in E1. injection E1 as ->. exact Hs. }
      destruct (again_run f f' Hb E) as (B1 & O1 & T1).
      destruct s as [A'|A' B'|A' B']; [| |inversion HA].
      + inversion HA; subst. destruct Hs as (_ & _ & _ & _ & _ & Hf & Hr).
        pose proof (gn_fit _ _ _ GA) as LA.
        assert (HU : get_partition_state c f' PUPDATE = get_partition_state c f PUPDATE).
        { apply (same_state c f f' PUPDATE). intros x Hx. apply O1.
          cbn [endflags part_addr] in Hx. geo G. lia. }
        split; [exact GA|]. split; [exact B1|]. split; [intros i Hi; rewrite O1 by (geo G; lia); apply Hh, Hi|].
        split; [|split; [exact T1|rewrite HU; split; [exact Hf|intro E2; exfalso; exact (Hp E2)]]].
        unfold clean. rewrite (word_ext f' f _ (BOOT c + (PART c - 2 * SECT c))); auto. intros i Hi. apply O1. geo G. lia.
      + exfalso. destruct Hs as (_ & _ & _ & N & _ & _ & K). destruct (K eq_refl) as (_ & _ & _ & _ & ((_ & D) & _)).
        exact (Hp D).
    - intros f' Ht Hc. rewrite (proj2 (again_none f Ht) f' Hc). exists s. split; [constructor|]. eapply off_shows, Hs.
  Qed.

  (** *** Triggering *)

  (** The update trailer is erased up to the state byte and the magic. *)
  Definition triggered (f f' : flash) : Prop :=
    bytes f' /\ (forall x, ~ (UPDATE c + PART c - SECT c <= x < UPDATE c + PART c) -> f' x = f x) /\
    (forall x, UPDATE c + PART c - SECT c <= x < UPDATE c + PART c - 5 -> f' x = 255) /\
    (get_partition_state c f' PUPDATE <> Some ST_FINAL).

  Lemma triggered_nib : forall f f' s, triggered f f' -> 0 <= s < PART c / SECT c -> nib c f' s = SF_NEW.
  Proof.
    intros f f' s (_ & _ & H & _) Hs. destruct (sectors_div c s G F Hs) as (_ & Ha). unfold nib.
    rewrite H by lia. destruct (flag_low s); reflexivity.
  Qed.

  Lemma triggered_flag : forall f f', triggered f f' -> flag_of c f' 0 = SF_NEW.
  Proof.
    intros f f' T. unfold flag_of. rewrite get_flag_nib. destruct (has_magic c f' PUPDATE); [|reflexivity].
    apply (triggered_nib f); auto. split; [lia|]. apply sect_idx; auto; geo G; lia.
  Qed.

  Lemma trigger_states : forall f, bytes f ->
    (forall f', run (update_trigger c (SECT c)) f = Done tt f' ->
       triggered f f' /\ get_partition_state c f' PUPDATE = Some ST_UPDATING) /\
    (forall f', crash t (update_trigger c (SECT c)) f f' -> f' = f \/ triggered f f').
  Proof.
    intros f Hb. unfold update_trigger. rewrite last_sector_addr by (exact G || exact F). cbn [run crash].
    set (a := UPDATE c + PART c - SECT c). set (f1 := erase f a (SECT c)).
    assert (B1 : bytes f1) by (apply bytes_erase, Hb).
    assert (E1 : forall x, a <= x < a + SECT c -> f1 x = 255) by (intros; apply erase_in; assumption).
    assert (O1 : forall x, ~ (a <= x < a + SECT c) -> f1 x = f x) by (intros; apply erase_out; assumption).
    assert (S5 : 8 <= SECT c) by (geo G; lia). pose proof (fit_own c F) as Ow.
    assert (M1 : magicable c f1 PUPDATE).
    { apply erased_magicable. intros i Hi. rewrite magic_addr_eq. apply E1. unfold a. cbn [endflags part_addr]. lia. }
    assert (St : f1 (state_addr c PUPDATE) = 255).
    { rewrite state_addr_eq. apply E1. unfold a. cbn [endflags part_addr]. lia. }
    assert (TR : forall f', bytes f' -> (forall x, ~ (state_addr c PUPDATE <= x < magic_addr c PUPDATE + 4) -> f' x = f1 x) ->
      get_partition_state c f' PUPDATE <> Some ST_FINAL -> triggered f f').
    { intros f' B' O' S'. rewrite state_addr_eq, magic_addr_eq in O'. cbn [endflags part_addr] in O'.
      split; [exact B'|]. split; [|split; [|exact S']].
      - intros x Hx. rewrite O' by lia. apply O1. unfold a. lia.
      - intros x Hx. rewrite O' by lia. apply E1. unfold a. lia. }
    destruct (run_set_state c f1 PUPDATE ST_UPDATING B1 ltac:(unfold is_byte, ST_UPDATING; lia) M1) as (f2 & R2 & B2 & S2 & O2).
    rewrite St in S2. change (Z.land 255 ST_UPDATING) with ST_UPDATING in S2. split.
    - intros f' E. rewrite R2 in E. injection E as <-. split; [|exact S2]. apply TR; auto. rewrite S2. discriminate.
    - intros f' [->|[(Ha & _)|Hc]]; [left; reflexivity|exfalso; apply Ha; unfold a; cbn; lia|]. right.
      destruct (crash_set_state t c PUPDATE ST_UPDATING f1 f' B1 ltac:(unfold is_byte, ST_UPDATING; lia) M1 Hc) as (B3 & _ & _ & O3 & (W1 & _)).
      apply TR; auto. rewrite St in W1. change (Z.land 255 ST_UPDATING) with ST_UPDATING in W1.
      unfold get_partition_state. destruct (has_magic c f' PUPDATE); [|discriminate]. intro E. injection E as E.
      rewrite E in W1. discriminate W1.
  Qed.

  Lemma triggered_idle : forall A f f', good c A -> bytes f -> holds f (BOOT c) (fst A) -> clean c f (BOOT c) ->
    ~ on_trial c f -> triggered f f' ->
    (get_partition_state c f' PUPDATE = Some ST_UPDATING -> ~ acceptable c f' false /\
       (HDR c <= SECT c \/ word f' (UPDATE c + 4) <= PART c - HDR c)) -> idle A f'.
  Proof.
    intros A f f' GA Hb Hh Hc Ht T Hna. pose proof T as (B' & O' & _ & S').
    destruct (boot_kept A f f' GA Hh Hc Ht) as (K1 & K2 & K3).
    { intros x Hx. apply O'. geo G. lia. }
    split; [exact GA|]. split; [exact B'|]. split; [exact K1|]. split; [exact K2|]. split; [exact K3|].
    split; [exact S'|]. intro E. destruct (Hna E) as (N1 & N2).
    apply refuse; auto. apply (triggered_flag f), T.
  Qed.

  Lemma triggered_pending : forall A B f f', good c A -> good c B -> may_install c A B ->
    bytes f -> holds f (BOOT c) (fst A) -> holds f (UPDATE c) (fst B) -> clean c f (BOOT c) -> clean c f (UPDATE c) ->
    ~ on_trial c f -> triggered f f' -> get_partition_state c f' PUPDATE = Some ST_UPDATING ->
    forall on, shows (Pending A B) on f'.
  Proof.
    intros A B f f' GA GB Hm Hb HA HB CA CB Ht T Es on. pose proof T as (B' & O' & _ & _).
    destruct (boot_kept A f f' GA HA CA Ht) as (K1 & K2 & K3).
    { intros x Hx. apply O'. geo G. lia. }
    destruct (sectors_exist c (fst A) (fst B) (snd A) (snd B) G GA GB) as (N & HN).
    pose proof (gn_fit _ _ _ GB) as LB.
    assert (M : mid c (fst A) (fst B) N Triggered 0 New f').
    { split; [exact B'|]. split; [destruct HN as (_ & _ & _ & _ & ?); lia|]. split; [congruence|]. split.
      - apply (data_start c (fst A) (fst B) N G HN). split; [exact K1|]. split.
        + intros i Hi. rewrite O' by (geo G; lia). apply HB, Hi.
        + split; [exact K2|]. rewrite (word_ext f' f _ (UPDATE c + (PART c - 2 * SECT c))); auto. intros i Hi. apply O'. geo G. lia.
      - assert (H0 : 0 < PART c / SECT c) by (apply sect_idx; auto; geo G; lia).
        split; [split; [exact K3|exact Es]|]. split.
        + left. unfold get_partition_state in Es. destruct (has_magic c f' PUPDATE); [reflexivity|discriminate].
        + split; [intros s Hs; lia|]. split; [intros s Hs; apply (triggered_nib f f' s T); lia|].
          apply (triggered_nib f f' 0 T). lia. }
    split; [exact GA|]. split; [exact GB|]. split; [exact Hm|]. exists N. split; [exact HN|].
    split; [left; eauto|auto].
  Qed.

  Lemma stored_version_at : forall p A f, p <> PSWAP -> bytes f -> good c A -> holds f (part_addr c p) (fst A) ->
    version_at c f (part_addr c p) (snd A).
  Proof.
    intros p A f Hp Hb GA Hh. destruct (version_val c f p Hb (hs c G)) as (v & E & V).
    rewrite (stored_version c f p (fst A) (snd A)) in E; auto; [| |apply even_part; auto].
    - injection E as <-. exact V.
    - apply hs, G.
  Qed.

  Lemma old_unacceptable : forall A B f, good c A -> good c B -> ~ may_install c A B -> bytes f ->
    holds f (BOOT c) (fst A) -> holds f (UPDATE c) (fst B) -> ~ acceptable c f false.
  Proof.
    intros A B f GA GB Hm Hb HA HB (_ & _ & [E|[E|(v1 & v2 & V1 & V2 & L)]]); [discriminate| |].
    - apply Hm. left. exact E.
    - apply Hm. right.
      rewrite (version_det c f (BOOT c) (snd A) v1 Hb (hs c G)); auto;
        [|apply (stored_version_at PBOOT); auto; discriminate].
      rewrite (version_det c f (UPDATE c) (snd B) v2 Hb (hs c G)); auto.
      apply (stored_version_at PUPDATE); auto; discriminate.
  Qed.

  Lemma may_dec : forall A B, may_install c A B \/ ~ may_install c A B.
  Proof.
    intros A B. unfold may_install. destruct (c_allow_downgrade c); [left; auto|].
    destruct (Z.lt_decidable (snd A) (snd B)); [left; auto|right]. intros [E|E]; [discriminate|auto].
  Qed.

  Lemma trigger_case : forall A B f f' s, running s A -> good c A -> good c B ->
    bytes f -> holds f (BOOT c) (fst A) -> holds f (UPDATE c) (fst B) -> clean c f (BOOT c) -> clean c f (UPDATE c) ->
    ~ on_trial c f -> triggered f f' ->
    (get_partition_state c f' PUPDATE = Some ST_UPDATING /\
       exists s', expect c s (ETrigger B) s' /\ expect c s ECut s' /\ forall on, shows s' on f') \/
    (get_partition_state c f' PUPDATE <> Some ST_UPDATING /\ idle A f').
  Proof.
    intros A B f f' s Hr GA GB Hb HA HB CA CB Ht T. pose proof T as (B' & O' & _ & S').
    assert (HB' : holds f' (UPDATE c) (fst B)).
    { pose proof (gn_fit _ _ _ GB). intros i Hi. rewrite O' by (geo G; lia). apply HB, Hi. }
    assert (D : {get_partition_state c f' PUPDATE = Some ST_UPDATING} + {get_partition_state c f' PUPDATE <> Some ST_UPDATING}).
    { destruct (get_partition_state c f' PUPDATE) as [x|]; [|right; discriminate].
      destruct (Z.eq_dec x ST_UPDATING) as [->|Hne]; [left; reflexivity|right; congruence]. }
    destruct D as [E|E].
    - left. split; [exact E|]. destruct (may_dec A B) as [Hm|Hm].
      + exists (Pending A B). split; [apply x_trigger; auto|]. split; [apply x_cut_trigger; auto|].
        apply (triggered_pending A B f f'); auto.
      + exists (Idle A). split; [apply x_trigger_old; auto|]. split; [apply x_cut_cancel; auto|].
        intro on. apply (triggered_idle A f f'); auto. intros _. split.
        * destruct (boot_kept A f f' GA HA CA Ht) as (K1 & _). { intros x Hx. apply O'. geo G. lia. }
          apply (old_unacceptable A B); auto.
        * right. pose proof (stored_size c f' PUPDATE (fst B) (snd B) (hs c G) GB HB') as Sz. cbn [part_addr] in Sz.
          rewrite Sz. pose proof (gn_fit _ _ _ GB). geo G. lia.
    - right. split; [exact E|]. apply (triggered_idle A f f'); auto. congruence.
  Qed.

  (** *** All steps *)

  Ltac nm :=
    try match goal with H : ?u 0%nat <> ST_FINAL |- _ => rename H into Hu end;
    try match goal with H : run _ _ = _ |- _ => rename H into HR end;
    try match goal with H : crash _ _ _ _ |- _ => rename H into HC end;
    try match goal with H : on_trial c _ |- _ => rename H into HT end;
    try match goal with H : ~ on_trial c _ |- _ => rename H into HT end;
    try match goal with H : settled c _ |- _ => rename H into HST end;
    try match goal with H : HDR c <= SECT c \/ _ |- _ => rename H into HH end;
    try match goal with H : forall x, ~ (UPDATE c <= x < _) -> _ |- _ => rename H into HO end.

  Lemma step_sim : forall s f on e f' on', shows s on f -> step c (f, on) e (f', on') ->
    exists s', expect c s e s' /\ shows s' on' f'.
  Proof.
    intros s f on e f' on' Hs St. inversion St; subst; clear St; nm;
      try (destruct (running_facts s f Hs HT) as (A & HA & GA & Hb & Hh & Hc)).
    - destruct (wpc_run _ _ _ _ _ (boot_sim s on f u Hu Hs)) as (r1 & f1 & E & (_ & _ & _ & K) & _).
      rewrite E in HR. injection HR as <- <-. exact K.
    - exact (wpc_crash _ _ _ _ _ (boot_sim s on f u Hu Hs) f' HC).
    - destruct (confirm_sim s f Hs HT) as (K & _). auto.
    - destruct (confirm_sim s f Hs HT) as (_ & K). auto.
    - destruct (again_sim s f Hs) as (K & _). auto.
    - destruct (again_sim s f Hs) as (_ & K). auto.
    - destruct HST as (S1 & S2 & S3).
      exists (Idle A). split; [apply x_install, HA|].
      destruct (boot_kept A f f' GA Hh Hc HT HO) as (K1 & K2 & K3).
      split; [exact GA|]. split; [assumption|]. split; [exact K1|]. split; [exact K2|]. split; [exact K3|].
      split; [exact S3|]. intro E. exfalso. exact (S2 E).
    - destruct (trigger_states f Hb) as (T & _). destruct (T f' HR) as (T1 & T2).
      destruct (trigger_case A B f f' s) as [(_ & s' & X1 & _ & X2)|(X & _)]; auto.
      + exists s'. auto.
      + congruence.
    - destruct (trigger_states f Hb) as (_ & T). destruct (T f' HC) as [ -> |T1].
      + exists s. split; [constructor|]. eapply off_shows, Hs.
      + destruct (trigger_case A B f f' s) as [(_ & s' & _ & X1 & X2)|(_ & X)]; auto.
        * exists s'. auto.
        * exists (Idle A). split; [apply x_cut_cancel, HA|exact X].
    - destruct (trigger_states f Hb) as (T & _). destruct (T f' HR) as (T1 & T2).
      exists (Idle A). split; [apply x_trigger_bad, HA|]. apply (triggered_idle A f f'); auto. intros _.
      split; [assumption|]. destruct HH as [HH|HH]; [left; exact HH|right].
      rewrite (word_ext f' f _ (UPDATE c + 4)); auto. intros i Hi. apply T1. geo G. lia.
    - destruct (trigger_states f Hb) as (_ & T). destruct (T f' HC) as [ -> |T1].
      + exists s. split; [constructor|]. eapply off_shows, Hs.
      + exists (Idle A). split; [apply x_cut_cancel, HA|]. apply (triggered_idle A f f'); auto. intros _.
        split; [assumption|]. destruct HH as [HH|HH]; [left; exact HH|right].
        rewrite (word_ext f' f _ (UPDATE c + 4)); auto. intros i Hi. apply T1. geo G. lia.
  Qed.

  Lemma steps_sim : forall st es st', steps c st es st' -> forall s, shows s (snd st) (fst st) ->
    exists s', expects c s es s' /\ shows s' (snd st') (fst st').
  Proof.
    intros st es st' H. induction H as [st|st e st1 es st2 S _ IH]; intros s Hs.
    - exists s. split; [constructor|exact Hs].
    - destruct st as [f on], st1 as [f1 on1]. destruct (step_sim s f on e f1 on1 Hs S) as (s1 & E1 & K1).
      destruct (IH s1 K1) as (s2 & E2 & K2). exists s2. split; [econstructor; eauto|exact K2].
  Qed.

  Lemma initial_shows : forall A f on, good c A -> initial c A f -> shows (Idle A) on f.
  Proof.
    intros A f on GA (Hb & Hh & Hc & (S1 & S2 & S3)). split; [exact GA|].
    split; [exact Hb|]. split; [exact Hh|]. split; [exact Hc|]. split; [exact S1|]. split; [exact S3|].
    intro E. exfalso. exact (S2 E).
  Qed.
End History.
