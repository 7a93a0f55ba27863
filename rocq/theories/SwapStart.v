(** The boot routine from any point of an update. *)
From Verif Require Import Base BaseLemmas HeaderModel Flash FlashLemmas ImageModel ImageSpec ImageProofs
  GenuineProofs TrailerModel TrailerProofs TriggerProofs TrailerCrash SwapModel SwapSpec Geometry CopyProofs
  SwapInv SwapSteps SwapLoop SwapFinal.
Local Ltac Zify.zify_post_hook ::= idtac.

Lemma even_part : forall c p, geometry c -> p <> PSWAP -> Z.odd (part_addr c p) = false.
Proof. intros c p G Hp. destruct (g_even c G). destruct p; cbn [part_addr]; congruence. Qed.

Lemma verify_both_wpc : forall t c f p X v (Q : bool * image -> flash -> Prop) (C : flash -> Prop),
  geometry c -> bytes f -> p <> PSWAP -> genuine c X v -> holds f (part_addr c p) X -> C f ->
  (forall d, Q (true, stored_image c p X true true (Some d)) f) ->
  wpc t (verify_both c (stored_image c p X false false None)) Q C f.
Proof.
  intros t c f p X v Q C G Hb Hp GX Hold HC HQ.
  assert (Hh : hdr_small c) by (apply hs; exact G).
  assert (Ho : Z.odd (part_addr c p) = false) by (apply even_part; assumption).
  assert (Hs : 0 <= SECT c) by (geo G; lia).
  pose proof (g_blk c G) as Hk.
  destruct (stored_integrity c f p X v) as (d & S & E); auto.
  unfold verify_both, integrity. cbn [pure bind wpc]. rewrite E. cbn [bind wpc].
  unfold authenticity. cbn [pure bind wpc].
  rewrite (stored_authenticity c f p X v); auto. cbn [bind wpc]. auto.
Qed.

Lemma boot_stage_wpc : forall t c f X v upd (C : flash -> Prop), geometry c -> bytes f -> genuine c X v ->
  holds f (BOOT c) X -> C f ->
  wpc t (boot_stage c upd) (fun r f' => r = BOOT c + HDR c /\ f' = f) C f.
Proof.
  intros t c f X v upd C G Hb GX Hold HC. unfold boot_stage, open_and_verify. cbn [get bind wpc].
  rewrite (stored_open c f PBOOT X v); auto; [|apply hs, G|discriminate|geo G; lia].
  cbn [bind]. apply wpc_bind.
  apply (verify_both_wpc t c f PBOOT X v); auto; [discriminate|].
  intro d. cbn. auto.
Qed.

Lemma get_version_val : forall c f p, bytes f -> hdr_small c -> exists v, get_image_version c f p = Val v.
Proof.
  intros c f p Hb Hh. unfold get_image_version. cbn zeta. destruct (negb _); [eauto|].
  destruct (get_header_val c f (part_addr c p) HDR_VERSION Hb Hh) as (r & E & _). rewrite E.
  destruct r as [[o n]|]; cbn [obind]; [destruct (n =? 0)%nat|]; eauto.
Qed.

Section Update.
  Variables (c : cfg) (X Y : list Z) (bX vY N : Z).
  Hypothesis G : geometry c.
  Hypothesis F : flags_room c.
  Hypothesis HN : sectors c X Y N.
  Hypothesis OX : opens c X bX.
  Hypothesis HbX : bX + HDR c <= N * SECT c.
  Hypothesis GY : genuine c Y vY.

  Let t := tear_std c.
  Let FY : framed c Y := genuine_framed c Y vY GY.

  (** The version of [Y] does not stand in the way. *)
  Definition may_replace (fb : bool) : Prop :=
    fb = true \/ c_allow_downgrade c = true \/ exists vX, genuine c X vX /\ vX < vY.

  Lemma checks_any_wpc : forall fb f (C : flash -> Prop) ty, bytes f -> holds f (BOOT c) X -> holds f (UPDATE c) Y -> C f ->
    get_image_type c f PUPDATE = Val ty ->
    wpc t (update_checks c fb (stored_image c PUPDATE Y false false None) ty)
      (fun b f' => (may_replace fb -> b = true) /\ f' = f) C f.
  Proof.
    intros fb f C ty Hb H1 H2 HC Ety.
    assert (Hh : hdr_small c) by (apply hs; exact G).
    assert (Hs : 0 <= SECT c) by (geo G; lia).
    assert (NU : PUPDATE <> PSWAP) by discriminate. assert (NB : PBOOT <> PSWAP) by discriminate.
    pose proof (even_part c PUPDATE G NU) as O1. pose proof (even_part c PBOOT G NB) as O2.
    pose proof (g_blk c G) as Hk.
    destruct (stored_type c f PUPDATE Y vY) as (ty' & Ety' & T1 & T2); auto.
    rewrite Ety in Ety'. injection Ety' as <-.
    unfold update_checks. rewrite T1, T2, !Z.eqb_refl. cbn [negb orb stored_image i_size i_hdr_ok].
    pose proof (gn_fit c Y vY GY). destruct (Z.gtb_spec (zlen Y - HDR c) (PART c - SECT c - 1)); [geo G; lia|].
    apply wpc_bind. apply (verify_both_wpc t c f PUPDATE Y vY); auto.
    intro dg. cbn [negb]. unfold sanity, stored_image. cbn [i_hdr_ok i_sha_ok i_sig_ok andb negb].
    destruct (get_version_val c f PBOOT Hb Hh) as (v0 & Ev0).
    cbn [pure bind wpc]. rewrite Ev0. cbn [bind wpc pure].
    rewrite (stored_version c f PUPDATE Y vY) by auto. cbn [wpc]. split; [exact HC|]. split; [|reflexivity].
    intros [ -> |[ -> |(vX & GX & Hv)]]; rewrite ?orb_true_r, ?orb_true_l; auto.
    assert (v0 = vX) as -> by (rewrite (stored_version c f PBOOT X vX) in Ev0 by auto; congruence).
    apply Z.ltb_lt in Hv. rewrite Hv. apply orb_true_r.
  Qed.

  (** For any way the final phase may go ([D] is what it leaves). *)
  Lemma update_with_wpc : forall d fb u k ph f (C D : flash -> Prop),
    (forall k' ph' f', mid c X Y N d k' ph' f' -> C f') ->
    (forall f2, mid c X Y N d N New f2 -> wpc t (swap_and_final_erase c u false) (fun _ f' => D f') C f2) ->
    (forall f', D f' -> C f') ->
    mid c X Y N d k ph f -> (k = 0 -> ph <> New -> 0 < bX) ->
    wpc t (update c u fb) (fun b f' => (b = true /\ D f') \/ (b = false /\ ~ may_replace fb /\ f' = f)) C f.
  Proof.
    intros d fb u k ph f C D HC1 HF HC2 M HbX0.
    pose proof M as (Mb & Mk & Mp & MD & _).
    assert (Hh : hdr_small c) by (apply hs; exact G).
    assert (Hs : 8 <= SECT c) by (geo G; lia).
    assert (HCf : C f) by (eapply HC1; eauto).
    unfold update. cbn [wpc]. cbn zeta.
    destruct (open_img c f PBOOT) as (P1 & P2). destruct (open_img c f PUPDATE) as (P3 & P4).
    change (snd (open_image c f PSWAP)) with (swap_img c).
    assert (Z1 : 0 <= i_size (snd (open_image c f PBOOT))) by (apply open_size_ge; auto; geo G; lia).
    assert (Z2 : 0 <= i_size (snd (open_image c f PUPDATE))) by (apply open_size_ge; auto; geo G; lia).
    pose proof (op_cover c X bX OX) as LX. pose proof (op_pos c X bX OX) as PX. pose proof (HY0 c Y FY) as LY.
    assert (SB : k = 0 -> ph <> Bak -> i_size (snd (open_image c f PBOOT)) = bX).
    { intros -> Hp. apply (op_size c X bX OX); [discriminate|]. cbn [part_addr].
      destruct MD as (_ & _ & _ & _ & _ & MD). intros i Hi Hx.
      destruct ph; [| |congruence]; destruct MD as (MD & _); apply MD; lia. }
    assert (SU : k = 0 -> ph = New -> i_size (snd (open_image c f PUPDATE)) = zlen Y - HDR c).
    { intros -> -> . apply (open_size c f PUPDATE Y); auto; [discriminate|lia|]. cbn [part_addr].
      destruct MD as (_ & _ & _ & _ & _ & (_ & MD)). intros i Hi Hx. apply MD; lia. }
    assert (SX : k = 0 -> ph = Bak -> i_size (snd (open_image c f PUPDATE)) = bX).
    { intros -> -> . apply (op_size c X bX OX); [discriminate|]. cbn [part_addr].
      destruct MD as (_ & _ & _ & _ & _ & (MD & _)). intros i Hi Hx. apply MD; lia. }
    assert (SY : 1 <= k -> i_size (snd (open_image c f PBOOT)) = zlen Y - HDR c).
    { intros K1. apply (open_size c f PBOOT Y); auto; [discriminate|lia|]. cbn [part_addr].
      destruct MD as (MD & _). intros i Hi Hx. apply MD; [|exact Hx].
      assert (1 * SECT c <= k * SECT c) by (apply Z.mul_le_mono_nonneg_r; lia). lia. }
    assert (HT : HDR c < get_total_size c (snd (open_image c f PBOOT)) (snd (open_image c f PUPDATE))).
    { unfold get_total_size.
      destruct (Z.gtb_spec (i_size (snd (open_image c f PUPDATE)) + HDR c) (i_size (snd (open_image c f PBOOT)) + HDR c)) as [HL|HL];
        [geo G; lia|].
      destruct (Z.eq_dec k 0) as [K0|K0]; [|specialize (SY ltac:(lia)); lia].
      destruct ph; [specialize (SU K0 eq_refl); lia|specialize (SB K0 ltac:(discriminate)); specialize (HbX0 K0 ltac:(discriminate)); lia|].
      specialize (SX K0 eq_refl). specialize (HbX0 K0 ltac:(discriminate)). lia. }
    set (boot := snd (open_image c f PBOOT)) in *. set (upd := snd (open_image c f PUPDATE)) in *.
    destruct (Z.leb_spec (get_total_size c boot upd) (HDR c)); [lia|].
    destruct (get_type_val c f PUPDATE Mb Hh) as (ty & Ety).
    cbn [pure bind wpc]. rewrite Ety. cbn [bind get wpc].
    change (match get_update_sector_flag c f 0 with Some fl => fl | None => SF_NEW end) with (flag_of c f 0).
    (* the checks *)
    assert (Chk : wpc t (if flag_of c f 0 =? SF_NEW then update_checks c fb upd ty else Ret true)
       (fun b f' => (may_replace fb -> b = true) /\ f' = f) C f).
    { destruct (Z.eq_dec k 0) as [K0|K0].
      - subst k. rewrite (mid_flag c X Y N d 0 ph f M). destruct ph; cbn [ph_flag].
        + change (SF_NEW =? SF_NEW) with true.
          apply (data_start c X Y N G HN) in MD. destruct MD as (D1 & D2 & _).
          assert (Eu : upd = stored_image c PUPDATE Y false false None).
          { unfold upd. rewrite (stored_open c f PUPDATE Y vY); auto; [discriminate|lia]. }
          cbn iota. rewrite Eu. apply checks_any_wpc; auto.
        + cbn. auto.
        + cbn. auto.
      - destruct (mid_flag_done c X Y N d k ph f 0 M ltac:(lia)) as (Q1 & _).
        apply Z.eqb_neq in Q1. rewrite Q1. cbn. auto. }
    apply wpc_bind. eapply wpc_post; [exact Chk|]. cbn beta. clear Chk.
    intros b f' _ (Hb & ->).
    destruct b; cbn [negb wpc]; [|split; [exact HCf|right; split; [reflexivity|split; [intro K; specialize (Hb K); discriminate|reflexivity]]]].
    apply wpc_bind.
    eapply wpc_post; [apply (loop_wpc c X Y bX N G F HN OX HbX FY d (sector_fuel c) boot upd _ 0 k ph f)|].
    - intros f' (k' & ph' & Hf'). eapply HC1, Hf'.
    - split; assumption.
    - split; assumption.
    - exact M.
    - lia.
    - unfold sector_fuel. destruct (N_bound c X Y N G HN). lia.
    - lia.
    - intros _. split; [geo G; lia|]. intro K0. split; auto.
    - cbn beta. intros s f1 _ (-> & M1). apply wpc_bind.
      eapply wpc_post; [apply (erase_rest_wpc c X Y N G F HN d (sector_fuel c) boot upd N f1)|].
      + intros f' (k' & ph' & Hf'). eapply HC1, Hf'.
      + split; assumption.
      + split; assumption.
      + lia.
      + unfold sector_fuel. destruct (N_bound c X Y N G HN). lia.
      + exact M1.
      + cbn beta. intros [] f2 _ M2. apply wpc_bind.
        eapply wpc_post; [apply HF, M2|]. cbn beta. intros _ f3 _ M3. cbn [wpc]. auto.
  Qed.

End Update.

Section Start.
  Variables (c : cfg) (X Y : list Z) (bX vY N : Z).
  Hypothesis G : geometry c.
  Hypothesis F : flags_fit c.
  Hypothesis HN : sectors c X Y N.
  Hypothesis OX : opens c X bX.
  Hypothesis HbX : bX + HDR c <= N * SECT c.
  Hypothesis GY : genuine c Y vY.

  Let t := tear_std c.
  Let FY : framed c Y := genuine_framed c Y vY GY.

  (** Somewhere in an update of [X] by [Y]. *)
  Definition updating (d : mode) (f : flash) : Prop :=
    (exists k ph, mid c X Y N d k ph f) \/ final c X Y f.

  Lemma update_wpc : forall d fb u k ph f (C : flash -> Prop),
    (forall f', updating d f' -> C f') -> (forall f', fresh c Y X N f' -> C f') ->
    mid c X Y N d k ph f -> (k = 0 -> ph <> New -> 0 < bX) ->
    wpc t (update c u fb) (fun b f' => (b = true /\ fresh c Y X N f') \/ (b = false /\ ~ may_replace c X vY fb /\ f' = f)) C f.
  Proof.
    intros d fb u k ph f C HC1 HC2 M HbX0. apply (update_with_wpc c X Y bX vY N G F HN OX HbX GY d fb u k ph f C); auto.
    - intros k' ph' f' Hf'. apply HC1. left. eauto.
    - intros f2 M2. apply (final_erase_wpc c X Y N G F HN FY d u f2 C); auto.
      + intros f' Hf'. apply HC1. right. exact Hf'.
      + intros f' Hf'. apply HC1. left. eauto.
  Qed.

  Lemma fresh_boot : forall upd f (C : flash -> Prop), fresh c Y X N f -> C f ->
    wpc t (boot_stage c upd) (fun r f' => r = BOOT c + HDR c /\ fresh c Y X N f') C f.
  Proof.
    intros upd f C M HC. pose proof M as ((Mb & _ & _ & MD & _) & _).
    apply (data_start c Y X N G (sectors_sym c X Y N HN)) in MD. destruct MD as (D1 & _).
    eapply wpc_post; [apply (boot_stage_wpc t c f Y vY); auto|]. cbn beta. intros r f2 _ (-> & ->). auto.
  Qed.

  (** The boot routine started anywhere in the update completes it and boots [Y]; a power
      failure leaves a state somewhere in the update, or the update complete. *)
  Lemma start_framed_wpc : forall d u f, 0 < bX -> u 0%nat <> ST_FINAL ->
    d = Fallback \/ d = Triggered /\ may_replace c X vY false -> updating d f ->
    wpc t (start c u) (fun r f' => r = BOOT c + HDR c /\ fresh c Y X N f')
      (fun f' => updating d f' \/ fresh c Y X N f') f.
  Proof.
    intros d u f PX Hu Hok U. unfold start. cbn [get bind wpc].
    assert (BS : forall upd f', fresh c Y X N f' ->
       wpc t (boot_stage c upd) (fun r f' => r = BOOT c + HDR c /\ fresh c Y X N f')
         (fun f' => updating d f' \/ fresh c Y X N f') f') by (intros; apply fresh_boot; auto).
    destruct U as [(k & ph & M)|FI].
    - apply wpc_bind. eapply wpc_post; [eapply (resume_mid_wpc c X Y N d k ph); eauto; left; left; eauto|].
      cbn beta. intros b f' _ (-> & ->).
      assert (UP : forall fb upd, may_replace c X vY fb -> wpc t ((update c (u 1%nat) fb ;; Ret tt) ;; boot_stage c upd)
        (fun r f' => r = BOOT c + HDR c /\ fresh c Y X N f')
        (fun f' => updating d f' \/ fresh c Y X N f') f).
      { intros fb upd Hm. apply wpc_bind. apply wpc_bind. eapply wpc_post; [eapply (update_wpc d fb); eauto|].
        cbn beta. intros b f1 _ [(_ & M1)|(_ & K & _)]; [|contradiction].
        cbn [wpc]. split; [right; exact M1|]. apply BS, M1. }
      pose proof M as (_ & _ & _ & _ & (Td & _)). destruct Hok as [ -> |( -> & Hm)]; cbn [drv] in Td.
      + destruct Td as (Td & _). rewrite Td, Z.eqb_refl. apply UP. left. reflexivity.
      + destruct Td as (Td & Td2). rewrite Td2, Z.eqb_refl.
        destruct (get_partition_state c f PBOOT) as [s|]; [|apply UP, Hm].
        destruct (Z.eqb_spec s ST_TESTING) as [->|_]; [congruence|apply UP, Hm].
    - apply wpc_bind. eapply wpc_post; [apply (resume_final_wpc c X Y N G F HN FY (u 0%nat) f _); auto|].
      + intros f' Hf'. left. right. exact Hf'.
      + cbn beta. intros b f1 _ (-> & M1). cbn [bind]. apply BS, M1.
  Qed.
End Start.

Lemma may_replace_old : forall c X Y vX vY (d : bool), genuine c X vX -> genuine c Y vY ->
  d = true \/ c_allow_downgrade c = true \/ vX < vY -> may_replace c X vY d.
Proof. intros c X Y vX vY d GX GY [H|[H|H]]; [left|right; left|right; right]; eauto. Qed.

Lemma checks_wpc : forall c X Y vX vY, geometry c -> genuine c X vX -> genuine c Y vY ->
  forall d f (C : flash -> Prop) ty, bytes f -> holds f (BOOT c) X -> holds f (UPDATE c) Y -> C f ->
  d = true \/ c_allow_downgrade c = true \/ vX < vY -> get_image_type c f PUPDATE = Val ty ->
  wpc (tear_std c) (update_checks c d (stored_image c PUPDATE Y false false None) ty)
    (fun b f' => b = true /\ f' = f) C f.
Proof.
  intros c X Y vX vY G GX GY d f C ty Hb H1 H2 HC Hok Ety.
  eapply wpc_post; [apply (checks_any_wpc c X Y vY G GY d f C ty); auto|].
  cbn beta. intros b f' _ (H & ->). split; [|reflexivity]. apply H. eapply may_replace_old; eauto.
Qed.

Lemma start_wpc : forall c X Y vX vY N, geometry c -> flags_fit c -> sectors c X Y N ->
  genuine c X vX -> genuine c Y vY -> forall (d : bool) u f, u 0%nat <> ST_FINAL ->
  d = true \/ c_allow_downgrade c = true \/ vX < vY -> updating c X Y N (if d then Fallback else Triggered) f ->
  wpc (tear_std c) (start c u) (fun r f' => r = BOOT c + HDR c /\ fresh c Y X N f')
    (fun f' => updating c X Y N (if d then Fallback else Triggered) f' \/ fresh c Y X N f') f.
Proof.
  intros c X Y vX vY N G F HN GX GY d u f Hu Hok U.
  pose proof (genuine_framed c X vX GX) as FX. pose proof (fr_len c X FX).
  apply (start_framed_wpc c X Y (zlen X - HDR c) vY N G F HN); auto; [apply framed_opens; auto; [apply hs, G|geo G; lia]|destruct HN; lia|lia|].
  destruct d; [left; reflexivity|right]. split; [reflexivity|]. eapply may_replace_old; eauto.
Qed.
