(** The update with the flags of the update partition in the boot partition's last sector
    (FLAGS_HOME), from any point of it and with all crash points. *)
From Verif Require Import Base BaseLemmas HeaderModel Flash FlashLemmas ImageModel ImageSpec ImageProofs
  GenuineProofs TrailerModel TrailerProofs TriggerProofs TrailerCrash SwapModel SwapSpec Geometry CopyProofs
  SwapInv SwapSteps SwapLoop SwapFinal SwapStart.
Local Ltac Zify.zify_post_hook ::= idtac.

(** The image leaves the sector before the trailer free. *)
Definition short (c : cfg) (X : list Z) : Prop := zlen X <= PART c - 2 * SECT c.

(** [A] installed, [B] in the update partition, no update pending and nothing on trial. *)
Definition quiet (c : cfg) (A B : list Z) (f : flash) : Prop :=
  bytes f /\ holds f (BOOT c) A /\ holds f (UPDATE c) B /\ np c f /\
  get_partition_state c f PUPDATE = None /\ get_partition_state c f PBOOT <> Some ST_TESTING.

Section Tail.
  Variables (c : cfg) (X Y : list Z) (N : Z).
  Hypothesis G : geometry c.
  Hypothesis F : flags_room c.
  Hypothesis H : home_flags c.
  Hypothesis HN : sectors c X Y N.
  Hypothesis GY : framed c Y.
  Hypothesis SY : short c Y.

  Let t := tear_std c.

  Lemma home_14 : 14 <= SECT c.
  Proof.
    destruct (fit_14 c G F) as [E|E]; [exact E|]. exfalso. exact (own_home c G E H).
  Qed.
  Local Ltac gz := pose proof home_14; unfold home_flags in H; geo G; zl.

  (** The part of the boot partition's last sector in front of its own flags is erased. *)
  Definition bare (f : flash) : Prop :=
    bytes f /\ holds f (BOOT c) Y /\ holds f (UPDATE c) X /\ np c f /\
    (forall x, BOOT c + PART c - SECT c <= x < BOOT c + PART c - 8 -> f x = 255).

  Lemma bare_magic : forall f, bare f -> has_magic c f PUPDATE = false.
  Proof.
    intros f (_ & _ & _ & _ & Hin). unfold has_magic. apply Z.eqb_neq. apply word_erased. intros i Hi.
    rewrite magic_addr_eq. apply Hin. cbn [endflags part_addr]. gz.
  Qed.

  Lemma bare_quiet : forall f, bare f -> get_partition_state c f PBOOT <> Some ST_TESTING -> quiet c Y X f.
  Proof.
    intros f Hf Hs. pose proof (bare_magic f Hf) as Hm. destruct Hf as (B & HB & HU & Hn & _).
    repeat (split; [assumption|]). split; [|exact Hs]. unfold get_partition_state. rewrite Hm. reflexivity.
  Qed.

  Lemma bare_fresh : forall f, bare f -> get_partition_state c f PBOOT = Some ST_TESTING -> fresh c Y X N f.
  Proof.
    intros f Hf HS. pose proof (bare_magic f Hf) as Hnm. destruct Hf as (Hb & HB & HU & (N1 & N2) & Hin).
    assert (HNp : 0 < N) by apply HN.
    assert (HSt : f (state_addr c PUPDATE) = 255).
    { rewrite state_addr_eq. apply Hin. cbn [endflags part_addr]. gz. }
    split; [|split; [unfold get_partition_state; rewrite Hnm; reflexivity|exact HSt]].
    split; [exact Hb|]. split; [lia|]. split; [congruence|]. split.
    - apply (data_start c Y X N G (sectors_sym c X Y N HN)). split; [exact HB|]. split; [exact HU|]. split; assumption.
    - assert (Hnib : forall s, 0 <= s < PART c / SECT c -> nib c f s = SF_NEW).
      { intros s Hs. destruct (sectors_room c s G F Hs) as (_ & [Ha|Ha]); unfold nib.
        - exfalso. exact (own_home c G (proj1 Ha) H).
        - rewrite Hin by gz. destruct (flag_low s); reflexivity. }
      assert (H0 : 0 < PART c / SECT c) by (apply sect_idx; auto; gz).
      split; [|split; [|split; [|split]]].
      + cbn [drv]. rewrite HSt. split; [exact HS|]. split; [reflexivity|discriminate].
      + right. split; [reflexivity|]. split; [reflexivity|]. apply erased_magicable. intros i Hi.
        rewrite magic_addr_eq. apply Hin. cbn [endflags part_addr]. gz.
      + intros s Hs. lia.
      + intros s Hs. apply Hnib. lia.
      + apply Hnib. lia.
  Qed.

  (** A change in the part of the boot partition after the image, or in the update trailer. *)
  Lemma bare_frame : forall f f' a n, bare f -> frame f f' a n ->
    (BOOT c + (PART c - 2 * SECT c) <= a /\ a + n <= BOOT c + (PART c - SECT c) \/
     BOOT c + PART c - 8 <= a /\ a + n <= BOOT c + PART c \/
     UPDATE c + (PART c - SECT c) <= a /\ a + n <= UPDATE c + PART c) ->
    word f' (BOOT c + (PART c - 2 * SECT c)) <> MT -> bare f'.
  Proof.
    intros f f' a n (Hb & HB & HU & (N1 & N2) & Hin) (Hb' & Hf) Ha Hw.
    destruct (len_bounds c X Y N HN) as (LX & LY). unfold short in SY.
    split; [exact Hb'|]. split; [intros i Hi; rewrite Hf by gz; apply HB, Hi|].
    split; [intros i Hi; rewrite Hf by gz; apply HU, Hi|]. split.
    - split; [exact Hw|]. rewrite (word_ext f' f _ (UPDATE c + (PART c - 2 * SECT c))); auto. intros i Hi. apply Hf. gz.
    - intros x Hx. rewrite Hf by gz. apply Hin, Hx.
  Qed.

  Lemma tail_home : forall C : flash -> Prop,
    (forall f', final c X Y f' -> holds f' (BOOT c) Y -> C f') -> (forall f', quiet c Y X f' -> C f') ->
    (forall f', fresh c Y X N f' -> C f') -> tail_to c X Y C (fresh c Y X N).
  Proof.
    intros C HC1 HC2 HC3 boot update f (HB1 & HB2) (HU1 & HU2) Hsz0 Hsz FI HBY. unfold tail. rewrite HB2, HU2. cbn [wpc].
    pose proof FI as (Fb & _ & _ & FU & (Fn1 & Fn2) & _). unfold short in SY.
    destruct (len_bounds c X Y N HN) as (LX & LY).
    assert (P2 : 0 < PART c - 2 * SECT c).
    { pose proof (HY0 c Y GY). gz. }
    specialize (Hsz P2).
    assert (HC : forall f', bare f' -> C f').
    { intros f' Hb. destruct (get_partition_state c f' PBOOT) as [s|] eqn:E.
      - destruct (Z.eq_dec s ST_TESTING) as [->|Hne]; [apply HC3, bare_fresh; assumption|].
        apply HC2, bare_quiet; [exact Hb|congruence].
      - apply HC2, bare_quiet; [exact Hb|congruence]. }
    set (A := BOOT c + (PART c - SECT c)).
    split; [apply HC1; assumption|].
    split; [intros f' (T & _); exfalso; apply T; cbn [atomic_erase tear_std t]; unfold A; gz|].
    set (f1 := erase f A (SECT c)).
    assert (Fr1 : frame f f1 A (SECT c)) by apply frame_erase, Fb.
    assert (E1 : forall x, A <= x < A + SECT c -> f1 x = 255) by (intros; apply erase_in; assumption).
    assert (B1 : bare f1).
    { split; [apply Fr1|]. split; [intros i Hi; rewrite (proj2 Fr1) by (unfold A; gz); apply HBY, Hi|].
      split; [intros i Hi; rewrite (proj2 Fr1) by (unfold A; gz); apply FU, Hi|]. split.
      - split.
        + rewrite (word_ext f1 f _ (BOOT c + (PART c - 2 * SECT c))); auto. intros i Hi. apply Fr1. unfold A. gz.
        + rewrite (word_ext f1 f _ (UPDATE c + (PART c - 2 * SECT c))); auto. intros i Hi. apply Fr1. unfold A. gz.
      - intros x Hx. apply E1. unfold A. gz. }
    (* second step: the sector before the trailer is only erased *)
    destruct (Z.ltb_spec (PART c - SECT c - SECT c) (i_size boot + HDR c)) as [HL|HL]; [zl|].
    replace (PART c - SECT c - SECT c) with (PART c - 2 * SECT c) by zl. cbn [bind wpc].
    set (B := BOOT c + (PART c - 2 * SECT c)).
    assert (Her : word (erase f1 B (SECT c)) B <> MT).
    { apply word_erased. intros i Hi. apply erase_in. gz. }
    split; [apply HC, B1|]. split.
    { intros f2 T. apply HC. apply (bare_frame f1 f2 B (SECT c)); [exact B1|eapply frame_torn_erase; exact T|unfold B; gz|].
      destruct B1 as (_ & _ & _ & (K & _) & _). destruct T as (_ & _ & _ & T). intro E. destruct (T B) as [E'|E']; auto.
      left. reflexivity. }
    set (f2 := erase f1 B (SECT c)).
    assert (Fr2 : frame f1 f2 B (SECT c)) by apply frame_erase, B1.
    assert (B2 : bare f2) by (apply (bare_frame f1 f2 B (SECT c)); auto; unfold B; gz).
    assert (E2 : forall x, A <= x < A + SECT c -> f2 x = 255).
    { intros x Hx. rewrite (proj2 Fr2); [apply E1, Hx|unfold A, B in *; gz]. }
    apply wpc_bind.
    assert (Hm : magicable c f2 PBOOT).
    { apply erased_magicable. intros i Hi. rewrite magic_addr_eq. apply E2. unfold A. cbn [endflags part_addr]. gz. }
    assert (Hst : f2 (state_addr c PBOOT) = 255).
    { rewrite state_addr_eq. apply E2. unfold A. cbn [endflags part_addr]. gz. }
    assert (FS : forall f3, bytes f3 -> (forall x, ~ (state_addr c PBOOT <= x < magic_addr c PBOOT + 4) -> f3 x = f2 x) -> bare f3).
    { intros f3 Hb3 H3. rewrite magic_addr_eq, state_addr_eq in H3. cbn [endflags part_addr] in H3.
      apply (bare_frame f2 f3 (BOOT c + PART c - 8) 8); auto; [split; [exact Hb3|intros x Hx; apply H3; gz]|gz|].
      rewrite (word_ext f3 f2 _ (BOOT c + (PART c - 2 * SECT c))); [exact Her|]. intros i Hi. apply H3. gz. }
    destruct (run_set_state c f2 PBOOT ST_TESTING (proj1 B2) ltac:(unfold is_byte, ST_TESTING; lia) Hm) as (f3 & R3 & Fb3 & S3 & O3).
    apply (wpc_intro t _ _ _ f2 tt f3); [exact R3| |].
    - pose proof (FS f3 Fb3 O3) as B3. rewrite Hst in S3. change (Z.land 255 ST_TESTING) with ST_TESTING in S3.
      cbn [wpc]. split; [apply HC, B3|].
      assert (B4 : forall f4, frame f3 f4 (UPDATE c + (PART c - SECT c)) (SECT c) -> bare f4).
      { intros f4 Hf4. apply (bare_frame f3 f4 (UPDATE c + (PART c - SECT c)) (SECT c)); auto; [gz|].
        destruct B3 as (_ & _ & _ & (K & _) & _).
        rewrite (word_ext f4 f3 _ (BOOT c + (PART c - 2 * SECT c))); [exact K|]. intros i Hi. apply Hf4. gz. }
      split; [intros f4 T; apply HC, B4; eapply frame_torn_erase; exact T|].
      set (f4 := erase f3 _ _). assert (Fr4 : frame f3 f4 (UPDATE c + (PART c - SECT c)) (SECT c)) by apply frame_erase, B3.
      pose proof (B4 f4 Fr4) as Bf. split; [apply HC, Bf|]. split; [reflexivity|]. apply bare_fresh; [exact Bf|].
      rewrite <- S3. apply (same_state c f3 f4 PBOOT). intros x Hx. apply Fr4. cbn [endflags part_addr] in Hx. gz.
    - intros f4 Hc. apply HC.
      destruct (crash_set_state t c PBOOT ST_TESTING f2 f4 (proj1 B2) ltac:(unfold is_byte, ST_TESTING; lia) Hm Hc) as (B4 & _ & _ & O4 & _).
      apply FS; assumption.
  Qed.

  (** The final phase started again. *)
  Lemma resume_home_wpc : forall u f (C : flash -> Prop),
    (forall f', final c X Y f' -> holds f' (BOOT c) Y -> C f') -> (forall f', quiet c Y X f' -> C f') ->
    (forall f', fresh c Y X N f' -> C f') -> final c X Y f -> holds f (BOOT c) Y ->
    wpc t (swap_and_final_erase c u true) (fun b f' => b = true /\ fresh c Y X N f') C f.
  Proof.
    intros u f C HC1 HC2 HC3 FI HB. unfold swap_and_final_erase. cbn [wpc]. cbn zeta.
    pose proof FI as (Fb & Fs & Fr & _). rewrite Fs, Z.eqb_refl. cbn [negb]. rewrite andb_false_r. cbn [bind].
    destruct (open_img c f PBOOT) as (P1 & P2). destruct (open_img c f PUPDATE) as (P3 & P4).
    apply (tail_home C HC1 HC2 HC3 (snd (open_image c f PBOOT)) (snd (open_image c f PUPDATE)) f); auto.
    - split; assumption.
    - split; assumption.
    - apply open_size_ge; auto; gz.
    - intro HP. apply (open_size c f PBOOT Y); auto; [discriminate|apply hs, G|gz|].
      intros i Hi Hy. apply Fr; [|exact Hy]. split; [lia|].
      destruct (sect_le c 0 G ltac:(lia)) as [E|E]; gz.
  Qed.
End Tail.

Lemma quiet_start_wpc : forall c X Y vY u f, geometry c -> genuine c Y vY -> u 0%nat <> ST_FINAL -> quiet c Y X f ->
  wpc (tear_std c) (start c u) (fun r f' => r = BOOT c + HDR c /\ f' = f) (fun f' => f' = f) f.
Proof.
  intros c X Y vY u f G GY Hu (Qb & QB & QU & (Q1 & _) & Q3 & Q4). unfold start. cbn [get bind wpc].
  assert (W : wpc (tear_std c) (swap_and_final_erase c (u 0%nat) true) (fun b f' => b = false /\ f' = f) (fun f' => f' = f) f).
  { unfold swap_and_final_erase. cbn [wpc]. cbn zeta.
    destruct (open_img c f PBOOT) as (_ & P2). rewrite P2. cbn [part_addr].
    replace (PART c - SECT c - SECT c) with (PART c - 2 * SECT c) by zl.
    destruct (Z.eqb_spec (word f (BOOT c + (PART c - 2 * SECT c))) WOLFBOOT_MAGIC_TRAIL) as [E|_]; [contradiction|].
    rewrite Q3. apply Z.eqb_neq in Hu. rewrite Hu. cbn [negb andb wpc]. auto. }
  apply wpc_bind. eapply wpc_post; [exact W|]. cbn beta. intros b f' _ (-> & ->). rewrite Q3.
  replace (match get_partition_state c f PBOOT with Some s => s =? ST_TESTING | None => false end) with false.
  2:{ destruct (get_partition_state c f PBOOT) as [s|]; [|reflexivity].
      symmetry. apply Z.eqb_neq. congruence. }
  cbn [bind]. apply (boot_stage_wpc _ c f Y vY); auto.
Qed.

Section Boot.
  Variables (c : cfg) (X Y : list Z) (vX vY N : Z).
  Hypothesis G : geometry c.
  Hypothesis F : flags_room c.
  Hypothesis H : home_flags c.
  Hypothesis HN : sectors c X Y N.
  Hypothesis GX : genuine c X vX.
  Hypothesis GY : genuine c Y vY.
  Hypothesis SY : short c Y.

  Let t := tear_std c.
  Let FY : framed c Y := genuine_framed c Y vY GY.

  (** Somewhere in an update of [X] by [Y], or after it with no trial. *)
  Definition in_update (d : mode) (f : flash) : Prop :=
    (exists k ph, mid c X Y N d k ph f) \/ (final c X Y f /\ holds f (BOOT c) Y) \/ quiet c Y X f.

  Lemma home_boot : forall upd f (C : flash -> Prop), fresh c Y X N f -> C f ->
    wpc t (boot_stage c upd) (fun r f' => r = BOOT c + HDR c /\ fresh c Y X N f') C f.
  Proof.
    intros upd f C M HC. pose proof M as ((Mb & _ & _ & MD & _) & _).
    apply (data_start c Y X N G (sectors_sym c X Y N HN)) in MD. destruct MD as (D1 & _).
    eapply wpc_post; [apply (boot_stage_wpc t c f Y vY); auto|]. cbn beta. intros r f2 _ (-> & ->). auto.
  Qed.

  Lemma home_start_wpc : forall d u f, u 0%nat <> ST_FINAL ->
    d = Fallback \/ d = Triggered /\ may_replace c X vY false -> in_update d f ->
    wpc t (start c u) (fun r f' => r = BOOT c + HDR c /\ (fresh c Y X N f' \/ quiet c Y X f /\ f' = f))
      (fun f' => in_update d f' \/ fresh c Y X N f') f.
  Proof.
    intros d u f Hu Hok U. unfold start. cbn [get bind wpc].
    pose proof (genuine_framed c X vX GX) as FX. pose proof (fr_len c X FX) as LX.
    set (C := fun f' => in_update d f' \/ fresh c Y X N f').
    set (Q := fun (r : Z) f' => r = BOOT c + HDR c /\ (fresh c Y X N f' \/ quiet c Y X f /\ f' = f)).
    assert (C1 : forall f', final c X Y f' -> holds f' (BOOT c) Y -> C f') by (intros; left; right; left; auto).
    assert (C2 : forall f', quiet c Y X f' -> C f') by (intros; left; right; right; auto).
    assert (C3 : forall f', fresh c Y X N f' -> C f') by (intros; right; auto).
    assert (C4 : forall k ph f', mid c X Y N d k ph f' -> C f') by (intros; left; left; eauto).
    assert (BS : forall upd f', fresh c Y X N f' -> wpc t (boot_stage c upd) Q C f').
    { intros upd f' M. eapply wpc_post; [apply home_boot; auto|]. cbn beta. intros r f2 _ (-> & Hf). split; auto. }
    destruct U as [(k & ph & M)|[(FI & HB)|Qu]].
    - apply wpc_bind. eapply wpc_post; [eapply (resume_mid_wpc c X Y N d k ph); eauto|].
      cbn beta. intros b f' _ (-> & ->).
      assert (UP : forall fb upd, may_replace c X vY fb -> wpc t ((update c (u 1%nat) fb ;; Ret tt) ;; boot_stage c upd) Q C f).
      { intros fb upd Hm. apply wpc_bind. apply wpc_bind.
        eapply wpc_post; [eapply (update_with_wpc c X Y (zlen X - HDR c) vY N G F HN) with (d := d) (C := C) (D := fresh c Y X N); eauto|].
        - apply framed_opens; auto; [apply hs, G|geo G; lia].
        - destruct HN; lia.
        - intros f2 M2. apply (final_erase_with_wpc c X Y N G F HN FY d _ f2 C); auto; [|apply (C4 N New)].
          apply (tail_home c X Y N G F H HN FY SY); auto.
        - lia.
        - cbn beta. intros b f1 _ [(_ & M1)|(_ & K & _)]; [|contradiction].
          cbn [wpc]. split; [right; exact M1|]. apply BS, M1. }
      pose proof M as (_ & _ & _ & _ & (Td & _)). destruct Hok as [ -> |( -> & Hm)]; cbn [drv] in Td.
      + destruct Td as (Td & _). rewrite Td, Z.eqb_refl. apply UP. left. reflexivity.
      + destruct Td as (Td & Td2). rewrite Td2, Z.eqb_refl.
        destruct (get_partition_state c f PBOOT) as [s|]; [|apply UP, Hm].
        destruct (Z.eqb_spec s ST_TESTING) as [->|_]; [congruence|apply UP, Hm].
    - apply wpc_bind. eapply wpc_post; [apply (resume_home_wpc c X Y N G F H HN FY SY (u 0%nat) f C); auto|].
      cbn beta. intros b f1 _ (-> & M1). cbn [bind]. apply BS, M1.
    - eapply wpc_conseq; [apply (quiet_start_wpc c X Y vY u f); auto| |]; cbn beta.
      + intros r f' (-> & ->). split; auto.
      + intros f' -> . auto.
  Qed.
End Boot.

(** The state after the trigger. *)
Lemma home_triggered : forall c A B N f, geometry c -> flags_room c -> home_flags c -> good c A -> good c B ->
  sectors c (fst A) (fst B) N -> triggered_update c A B f -> mid c (fst A) (fst B) N Triggered 0 New f.
Proof.
  intros c A B N f G F H GA GB HN (f0 & Hb & HA & HB & CA & CB & _ & E).
  destruct (trigger_room_run c (BOOT c) (SECT c) f0 G F (or_intror (conj H eq_refl)) Hb (or_introl eq_refl))
    as (f' & E' & Hb' & Hs & Hfl & Hfr & Ht).
  assert (f' = f) as -> by congruence. specialize (Ht H eq_refl).
  assert (Hm : has_magic c f PUPDATE = true).
  { unfold get_partition_state in Hs. destruct (has_magic c f PUPDATE); [reflexivity|discriminate]. }
  pose proof (gn_fit _ _ _ GA) as LA. pose proof (gn_fit _ _ _ GB) as LB.
  split; [exact Hb'|]. split; [destruct HN as (_ & _ & _ & _ & ?); lia|]. split; [congruence|]. split.
  - apply (data_start c (fst A) (fst B) N G HN). geo G.
    split; [intros i Hi; rewrite Hfr by lia; apply HA, Hi|].
    split; [intros i Hi; rewrite Hfr by lia; apply HB, Hi|].
    split; [rewrite (word_ext f f0 _ (BOOT c + (PART c - 2 * SECT c)))|
            rewrite (word_ext f f0 _ (UPDATE c + (PART c - 2 * SECT c)))]; auto; intros i Hi; apply Hfr; lia.
  - assert (H0 : 0 < PART c / SECT c) by (apply sect_idx; auto; geo G; lia).
    assert (Hn : forall s, 0 <= s < PART c / SECT c -> nib c f s = SF_NEW).
    { intros s Hs'. specialize (Hfl s Hs'). rewrite get_flag_nib, Hm in Hfl. congruence. }
    split; [split; [congruence|exact Hs]|]. split; [left; exact Hm|].
    split; [intros s Hs'; lia|]. split; [intros s Hs'; apply Hn; lia|apply Hn; lia].
Qed.
