(** Proofs about single-slot updates and self-update. *)
From Verif Require Import Base BaseLemmas HeaderModel HeaderSpec HeaderProofs Flash FlashLemmas ImageModel
  ImageSpec ImageProofs GenuineProofs TrailerModel TrailerProofs TrailerCrash SwapModel
  SwapSpec Geometry CopyProofs SwapInv SwapSteps SwapLoop SwapStart RefuseProofs NobackupModel NobackupSpec.
Local Ltac Zify.zify_post_hook ::= idtac.

Section Direct.
  Variable c : cfg.
  Hypothesis G : geometry c.
  Hypothesis Own : own_flags c.
  Variable B : img.
  Hypothesis GB : good c B.
  Notation n := (zlen (fst B)).
  Variable f0 : flash.
  Hypothesis Hb : bytes f0.

  (** Everything outside the boot partition is as in [f0]. *)
  Definition same_out (f : flash) : Prop := frame f0 f (BOOT c) (PART c).

  (** The first [m] bytes of the boot partition: copied, or erased beyond the image. *)
  Definition done_to (f : flash) (m : Z) : Prop := forall i, 0 <= i < m ->
    f (BOOT c + i) = f0 (UPDATE c + i) \/ (n <= i /\ f (BOOT c + i) = 255).

  Lemma upd_same : forall f i, same_out f -> 0 <= i < PART c -> f (UPDATE c + i) = f0 (UPDATE c + i).
  Proof. intros f i (_ & H) Hi. apply H. geo G. zl. Qed.

  Lemma direct_copy_wpc : forall upd boot total (Q : Z -> flash -> Prop),
    i_part upd = PUPDATE -> i_hdr upd = UPDATE c -> i_size upd = n - HDR c ->
    i_part boot = PBOOT -> i_hdr boot = BOOT c -> total <= PART c ->
    (forall k f, 0 <= k -> k * SECT c <= PART c -> total <= k * SECT c -> same_out f -> done_to f (k * SECT c) -> Q k f) ->
    forall fuel k f, 0 <= k -> k * SECT c <= PART c -> PART c - k * SECT c <= Z.of_nat fuel ->
    same_out f -> done_to f (k * SECT c) ->
    wpc tear_free (direct_copy fuel c upd boot total k) Q same_out f.
  Proof.
    intros upd boot total Q U1 U2 U3 B1 B2 Ht HQ. destruct (g_sect c G) as (S1 & S2). destruct (g_part c G) as (P1 & P2).
    induction fuel as [|fuel IH]; intros k f Hk Hkp Hfu Hf Hd; cbn [direct_copy].
    - destruct (Z.ltb_spec (k * SECT c) total) as [L|L]; [zl|]. cbn [wpc]. split; [exact Hf|]. apply HQ; auto.
    - destruct (Z.ltb_spec (k * SECT c) total) as [L|L]; [|cbn [wpc]; split; [exact Hf|]; apply HQ; auto].
      assert (Hnext : k * SECT c + SECT c <= PART c).
      { assert (k < PART c / SECT c) by (apply (sect_idx c k G); zl).
        pose proof (Z.div_mod (PART c) (SECT c) ltac:(zl)) as D. rewrite P1 in D. nia. }
      apply wpc_bind.
      eapply (copy_sector_wpc tear_free c upd boot k f _ _ (UPDATE c + k * SECT c) (BOOT c + k * SECT c) (k * SECT c) (k * SECT c));
        [exact G|exact (proj1 Hf)|rewrite U1; reflexivity|rewrite B1; reflexivity|rewrite U2; reflexivity|rewrite B2; reflexivity|
         |intros []|intros []| |].
      + unfold disjoint. geo G. zl.
      + intros f' F _. eapply frame_trans; [exact Hf|]. eapply frame_weak; [exact F|zl|zl].
      + intros f' F _ E.
        assert (Hf' : same_out f') by (eapply frame_trans; [exact Hf|]; eapply frame_weak; [exact F|zl|zl]).
        apply IH; [zl|zl|zl|exact Hf'|].
        intros i Hi. destruct (Z.ltb_spec i (k * SECT c)) as [Hl|Hl].
        * rewrite (proj2 F) by zl. apply Hd. zl.
        * replace (BOOT c + i) with (BOOT c + k * SECT c + (i - k * SECT c)) by zl.
          rewrite E by zl. unfold copied. rewrite U3.
          replace (UPDATE c + k * SECT c + (i - k * SECT c)) with (UPDATE c + i) by zl.
          destruct (Z.ltb_spec (k * SECT c + (i - k * SECT c - (i - k * SECT c) mod FB c)) (n - HDR c + HDR c + FB c)) as [H|H].
          -- left. apply upd_same; [exact Hf|zl].
          -- right. split; [|reflexivity]. pose proof (g_fb c G).
             pose proof (Z.mod_pos_bound (i - k * SECT c) (FB c) ltac:(zl)). zl.
  Qed.

  Lemma direct_erase_wpc : forall boot (Q : unit -> flash -> Prop), i_hdr boot = BOOT c ->
    (forall f, same_out f -> done_to f (PART c) -> Q tt f) ->
    forall fuel k f, 0 <= k -> k * SECT c <= PART c -> n <= k * SECT c -> PART c - k * SECT c <= Z.of_nat fuel ->
    same_out f -> done_to f (k * SECT c) ->
    wpc tear_free (direct_erase fuel c boot k) Q same_out f.
  Proof.
    intros boot Q B2 HQ. destruct (g_sect c G) as (S1 & S2). destruct (g_part c G) as (P1 & P2).
    induction fuel as [|fuel IH]; intros k f Hk Hkp Hn Hfu Hf Hd; cbn [direct_erase].
    - destruct (Z.ltb_spec (k * SECT c) (PART c)) as [L|L]; [zl|]. cbn [wpc]. split; [exact Hf|].
      apply HQ; [exact Hf|]. replace (PART c) with (k * SECT c) by zl. exact Hd.
    - destruct (Z.ltb_spec (k * SECT c) (PART c)) as [L|L].
      2:{ cbn [wpc]. split; [exact Hf|]. apply HQ; [exact Hf|]. replace (PART c) with (k * SECT c) by zl. exact Hd. }
      assert (Hnext : k * SECT c + SECT c <= PART c).
      { assert (k < PART c / SECT c) by (apply (sect_idx c k G); zl).
        pose proof (Z.div_mod (PART c) (SECT c) ltac:(zl)) as D. rewrite P1 in D. nia. }
      rewrite B2. cbn [wpc]. split; [exact Hf|]. split.
      + intros f' T. eapply frame_trans; [exact Hf|]. eapply frame_weak; [exact (frame_torn_erase _ _ _ _ _ T)|zl|zl].
      + apply IH; [zl|zl|zl|zl| |].
        * eapply frame_trans; [exact Hf|]. eapply frame_weak; [exact (frame_erase _ _ _ (proj1 Hf))|zl|zl].
        * intros i Hi. destruct (Z.ltb_spec i (k * SECT c)) as [Hl|Hl].
          -- rewrite erase_out by zl. apply Hd. zl.
          -- right. split; [zl|]. apply erase_in. zl.
  Qed.

  Lemma copied_state : forall f, marked c B f0 -> same_out f -> done_to f (PART c) ->
    wpc tear_free (set_partition_state c PBOOT ST_SUCCESS)
      (fun _ f' => same_out f' /\ holds f' (BOOT c) (fst B) /\ get_partition_state c f' PBOOT = Some ST_SUCCESS)
      same_out f.
  Proof.
    intros f (_ & HB & HS & _) Hf Hd.
    assert (Hmg : has_magic c f0 PUPDATE = true).
    { unfold get_partition_state in HS. destruct (has_magic c f0 PUPDATE); [reflexivity|discriminate]. }
    apply has_magic_magicable in Hmg; [|exact Hb]. destruct (g_sect c G) as (_ & S2). destruct (g_part c G) as (_ & P2).
    assert (Mg : magicable c f PBOOT).
    { intros i Hi. unfold magic_addr, trailer_addr, endflags. cbn [part_addr].
      replace (BOOT c + PART c - (4 + 0) + i) with (BOOT c + (PART c - 4 + i)) by zl.
      destruct (Hd (PART c - 4 + i) ltac:(zl)) as [E|(_ & E)]; rewrite E.
      - replace (UPDATE c + (PART c - 4 + i)) with (magic_addr c PUPDATE + i); [exact (Hmg i Hi)|].
        unfold magic_addr, trailer_addr, endflags, own_flags in *. cbn [part_addr]. zl.
      - apply land_255, magic_byte_range. }
    assert (Adr : BOOT c <= state_addr c PBOOT /\ magic_addr c PBOOT + 4 <= BOOT c + PART c /\
      BOOT c + (PART c - SECT c) <= state_addr c PBOOT).
    { unfold state_addr, magic_addr, trailer_addr, endflags. cbn [part_addr]. zl. }
    destruct (run_set_state c f PBOOT ST_SUCCESS (proj1 Hf) ltac:(unfold is_byte, ST_SUCCESS; lia) Mg) as (f1 & E1 & B1 & S1 & O1).
    eapply wpc_intro; [exact E1| |].
    - split; [|split].
      + split; [exact B1|]. intros x Hx. rewrite O1 by zl. apply (proj2 Hf). exact Hx.
      + intros i Hi. pose proof (gn_fit c _ _ GB). rewrite O1 by zl.
        destruct (Hd i ltac:(zl)) as [E|(E & _)]; [|zl]. rewrite E. apply HB. exact Hi.
      + rewrite S1. f_equal. unfold ST_SUCCESS. apply Z.land_0_r.
    - intros f2 Hc. destruct (crash_set_state tear_free c PBOOT ST_SUCCESS f f2 (proj1 Hf) ltac:(unfold is_byte, ST_SUCCESS; lia) Mg Hc) as (B2 & _ & _ & O2 & _).
      split; [exact B2|]. intros x Hx. rewrite O2 by zl. apply (proj2 Hf). exact Hx.
  Qed.

  Definition installed (f : flash) : Prop :=
    same_out f /\ holds f (BOOT c) (fst B) /\ get_partition_state c f PBOOT = Some ST_SUCCESS.

  Definition outdated (d : bool) : Prop :=
    d = false /\ c_allow_downgrade c = false /\ exists v, version_at c f0 (BOOT c) v /\ snd B <= v.

  Lemma update_direct_wpc : forall d, marked c B f0 ->
    wpc tear_free (update_direct c d)
      (fun b f' => (b = true /\ installed f') \/ (b = false /\ f' = f0 /\ outdated d)) same_out f0.
  Proof.
    intros d M. pose proof M as (_ & HB & HS & HF).
    assert (Hh : hdr_small c) by (apply hs; exact G).
    assert (NU : PUPDATE <> PSWAP) by discriminate. pose proof (even_part c PUPDATE G NU) as O1.
    pose proof (g_blk c G) as Hk. destruct (g_sect c G) as (_ & S2). destruct (g_part c G) as (_ & P2).
    pose proof (gn_fit c _ _ GB) as Ft. pose proof (gn_len c _ _ GB) as Ln. destruct (g_hdr c G) as (Hd1 & _).
    assert (Same : same_out f0) by (apply frame_refl, Hb).
    unfold update_direct. cbn [wpc]. cbn zeta.
    assert (Eo : open_image c f0 PUPDATE = (true, stored_image c PUPDATE (fst B) false false None)).
    { eapply (stored_open c f0 PUPDATE (fst B) (snd B)); auto; lia. }
    rewrite Eo. cbn [snd].
    destruct (open_img c f0 PBOOT) as (P1 & P2'). set (boot := snd (open_image c f0 PBOOT)) in *. cbn [part_addr] in P2'.
    assert (Z1 : 0 <= i_size boot) by (apply open_size_ge; auto; zl).
    assert (Z2 : i_size boot <= PART c - HDR c).
    { unfold boot, open_image. cbn [part_addr]. destruct (negb _); [cbn; zl|]. unfold image_size.
      destruct (Z.gtb_spec (word f0 (BOOT c + 4)) (PART c - HDR c)); cbn; zl. }
    set (total := get_total_size c boot _).
    assert (Ht : n <= total <= PART c).
    { unfold total, get_total_size, stored_image. cbn [i_size].
      destruct (Z.gtb_spec (n - HDR c + HDR c) (i_size boot + HDR c)); zl. }
    destruct (Z.leb_spec total (HDR c)); [zl|].
    destruct (stored_type c f0 PUPDATE (fst B) (snd B)) as (ty & Ety & T1 & T2); auto; try zl.
    cbn [pure bind wpc]. rewrite Ety. cbn [bind get wpc]. rewrite HF, Z.eqb_refl.
    apply wpc_bind.
    assert (Chk : wpc tear_free (update_checks c d (stored_image c PUPDATE (fst B) false false None) ty)
      (fun b f' => f' = f0 /\ (b = true \/ (b = false /\ outdated d))) same_out f0).
    { unfold update_checks. rewrite T1, T2, !Z.eqb_refl. cbn [negb orb stored_image i_size i_hdr_ok].
      destruct (Z.gtb_spec (n - HDR c) (PART c - SECT c - 1)); [zl|].
      apply wpc_bind. eapply (verify_both_wpc tear_free c f0 PUPDATE (fst B) (snd B)); auto; try zl.
      intro dg. cbn [negb]. unfold sanity, stored_image. cbn [i_hdr_ok i_sha_ok i_sig_ok andb negb].
      cbn [pure bind wpc]. destruct (version_val c f0 PBOOT Hb Hh) as (v1 & E1 & V1). rewrite E1. cbn [bind wpc pure].
      rewrite (stored_version c f0 PUPDATE (fst B) (snd B)) by (auto; zl). cbn [wpc]. split; [exact Same|]. split; [reflexivity|].
      destruct (c_allow_downgrade c) eqn:Ed; [left; reflexivity|]. destruct d; [left; reflexivity|]. cbn [orb].
      destruct (Z.ltb_spec v1 (snd B)); [left; reflexivity|right]. split; [reflexivity|].
      split; [reflexivity|]. split; [exact Ed|]. exists v1. auto. }
    eapply wpc_post; [exact Chk|]. cbn beta. intros b f' _ (-> & [ -> |( -> & O)]); cbn [negb].
    2:{ cbn [wpc]. split; [exact Same|]. right. auto. }
    apply wpc_bind. eapply direct_copy_wpc; try reflexivity; auto; try zl.
    2:{ unfold sector_fuel. zl. }
    2:{ intros i Hi. zl. }
    cbn beta. intros k f1 Hk0 Hk1 Hk2 Hf1 Hd1'. apply wpc_bind. eapply direct_erase_wpc; eauto; try zl.
    2:{ unfold sector_fuel. zl. }
    cbn beta. intros f2 Hf2 Hd2. apply wpc_bind. eapply wpc_post; [apply copied_state; auto|].
    cbn beta. intros [] f3 Hf3 (_ & H3 & H4). cbn [wpc]. split; [exact Hf3|]. left. split; [reflexivity|].
    split; [exact Hf3|auto].
  Qed.

  Lemma same_marked : forall f, marked c B f0 -> same_out f -> marked c B f.
  Proof.
    intros f (_ & HB & HS & HF) Hf. split; [exact (proj1 Hf)|].
    pose proof (gn_fit c _ _ GB). destruct (g_sect c G) as (_ & S2). destruct (g_part c G) as (_ & P2).
    assert (U : forall x, UPDATE c <= x < UPDATE c + PART c -> f x = f0 x).
    { intros x Hx. replace x with (UPDATE c + (x - UPDATE c)) by zl. apply upd_same; [exact Hf|zl]. }
    split; [intros i Hi; rewrite U by zl; apply HB; exact Hi|].
    assert (Em : has_magic c f PUPDATE = has_magic c f0 PUPDATE).
    { unfold has_magic. f_equal. apply word_ext. intros i Hi. apply U.
      unfold magic_addr, trailer_addr, endflags, own_flags in *. cbn [part_addr]. zl. }
    unfold own_flags in Own. unfold get_partition_state, get_update_sector_flag in *. rewrite Em.
    rewrite !U; [auto| |]; unfold state_addr, flags_addr, trailer_addr, endflags; cbn [part_addr]; change (flag_pos 0) with 0; zl.
  Qed.
End Direct.

Lemma start_direct_wpc : forall c B f, geometry c -> own_flags c -> good c B -> marked c B f ->
  wpc tear_free (start_direct c)
    (fun r f' => r = BOOT c + HDR c /\ (installed c B f f' \/ (f' = f /\ not_newer c B f)))
    (same_out c f) f.
Proof.
  intros c B f G Ow GB M. pose proof M as (Hb & HB & HS & HF).
  assert (Same : same_out c f f) by (apply frame_refl, Hb).
  assert (NB : PBOOT <> PSWAP) by discriminate.
  unfold start_direct. cbn [get bind wpc]. rewrite HS, Z.eqb_refl.
  assert (BI : forall upd f1, installed c B f f1 ->
    wpc tear_free (boot_stage c upd)
      (fun r f' => r = BOOT c + HDR c /\ (installed c B f f' \/ (f' = f /\ not_newer c B f))) (same_out c f) f1).
  { intros upd f1 I. pose proof I as (I1 & I2 & _).
    eapply wpc_post; [apply (boot_stage_wpc tear_free c f1 (fst B) (snd B)); auto; apply I1|].
    cbn beta. intros r f2 _ (-> & ->). auto. }
  assert (Em : forall d, ~ on_trial c f \/ d = true ->
    wpc tear_free ((update_direct c d ;; Ret tt) ;; boot_stage c (update_direct c true))
      (fun r f' => r = BOOT c + HDR c /\ (installed c B f f' \/ (f' = f /\ not_newer c B f))) (same_out c f) f).
  { intros d Hd. apply wpc_bind. apply wpc_bind. eapply wpc_post; [apply (update_direct_wpc c G Ow B GB f Hb d M)|].
    cbn beta. intros b f1 Hf1 [( -> & I)|( -> & -> & (D1 & D2 & v & V1 & V2))]; cbn [wpc].
    - split; [exact Hf1|]. apply BI, I.
    - split; [exact Same|]. destruct Hd as [Hd|Hd]; [|congruence].
      unfold boot_stage, open_and_verify. cbn [get bind wpc].
      destruct (open_image c f PBOOT) as [o im] eqn:Eo.
      assert (EU : wpc tear_free
        (let! r <- update_direct c true in
         if negb r then Panic
         else let! (ok2, img2) <- (let! (ok, img) <- Rd (fun f => Ret (open_image c f PBOOT)) in
                if ok then verify_both c img else Ret (false, img)) in if ok2 then Ret img2 else Panic)
        (fun im f' => installed c B f f' /\ sanity im = true /\ i_base im = BOOT c + HDR c) (same_out c f) f).
      { apply wpc_bind. eapply wpc_post; [apply (update_direct_wpc c G Ow B GB f Hb true M)|].
        cbn beta. intros b f1 _ [( -> & I)|( -> & -> & (X & _))]; [|discriminate]. cbn [negb].
        pose proof I as (I1 & I2 & _). cbn [bind wpc].
        rewrite (stored_open c f1 PBOOT (fst B) (snd B)); auto; [|apply hs, G|geo G; lia].
        apply wpc_bind. eapply (verify_both_wpc tear_free c f1 PBOOT (fst B) (snd B)); auto; [apply I1|].
        intro d'. cbn. auto. }
      destruct o.
      + apply wpc_bind.
        destruct (verify_both_cases c f PBOOT im G Hb NB Eo) as [(V & im' & W & O0 & O1 & O2 & O3 & O4)|(V & im' & _ & W)];
          apply W; try exact Same.
        * cbn [bind]. unfold sanity. rewrite O1, O2, O3. cbn [andb wpc]. split; [exact Same|]. split; [exact O0|].
          right. split; [reflexivity|]. split; [exact D2|]. split; [exact V|]. split; [exact Hd|]. exists v. auto.
        * apply wpc_bind. eapply wpc_post; [exact EU|]. cbn beta. intros im2 f2 Hf2 (I & Sa & Ba).
          rewrite Sa. cbn [wpc]. auto.
      + cbn [bind]. apply wpc_bind. eapply wpc_post; [exact EU|]. cbn beta. intros im2 f2 Hf2 (I & Sa & Ba).
        rewrite Sa. cbn [wpc]. auto. }
  destruct (get_partition_state c f PBOOT) as [s|] eqn:Es.
  - destruct (Z.eqb_spec s ST_TESTING) as [E|E]; [apply Em; right; reflexivity|].
    apply Em. left. unfold on_trial. congruence.
  - apply Em. left. unfold on_trial. congruence.
Qed.

(** ** Self-update *)

(** The bootloader region lies below the boot partition, away from the update partition,
    and has room for [n] bytes written in whole buffers. *)
Definition self_room (c : cfg) (s : self) (n : Z) : Prop :=
  0 <= s_base s /\ disjoint (s_base s) (BOOT c - s_base s) (UPDATE c) (PART c) /\
  s_base s + (n + FB c - 1) / FB c * FB c <= BOOT c.

Lemma self_copy_run : forall c s src f0, geometry c -> bytes f0 -> i_hdr src = UPDATE c ->
  0 <= i_size src <= PART c - HDR c -> self_room c s (i_size src) ->
  forall fuel pos f, 0 <= pos -> pos mod FB c = 0 -> i_size src - pos <= Z.of_nat fuel ->
  frame f0 f (s_base s) (BOOT c - s_base s) ->
  (forall i, 0 <= i < pos -> i < i_size src -> f (s_base s + i) = f0 (UPDATE c + HDR c + i)) ->
  (forall i, pos <= i -> s_base s + i < BOOT c -> f (s_base s + i) = 255) ->
  exists f', run (self_copy fuel c s src pos) f = Done tt f' /\ frame f0 f' (s_base s) (BOOT c - s_base s) /\
    forall i, 0 <= i < i_size src -> f' (s_base s + i) = f0 (UPDATE c + HDR c + i).
Proof.
  intros c s src f0 G Hb Eh Hs (R1 & R2 & R3). pose proof (g_fb c G) as Fb. destruct (g_hdr c G) as (Hh & _).
  pose proof (Z.div_mod (i_size src + FB c - 1) (FB c) ltac:(zl)) as D.
  pose proof (Z.mod_pos_bound (i_size src + FB c - 1) (FB c) ltac:(zl)) as Dm.
  set (q := (i_size src + FB c - 1) / FB c) in *.
  induction fuel as [|fuel IH]; intros pos f Hp Hpm Hfu Hf H1 H2; cbn [self_copy].
  - destruct (Z.ltb_spec pos (i_size src)) as [L|L]; [zl|]. exists f. split; [reflexivity|]. split; [exact Hf|].
    intros i Hi. apply H1; zl.
  - destruct (Z.ltb_spec pos (i_size src)) as [L|L].
    2:{ exists f. split; [reflexivity|]. split; [exact Hf|]. intros i Hi. apply H1; zl. }
    destruct (Z.ltb_spec (HDR c + pos) (i_size src + HDR c + FB c)); [|zl].
    pose proof (Z.div_mod pos (FB c) ltac:(zl)) as Dp. rewrite Hpm in Dp. set (k := pos / FB c) in *.
    assert (Hk : k < q) by (clear -D Dm Dp L Fb; nia).
    assert (Hroom : s_base s + pos + FB c <= BOOT c) by (clear -Hk Dp R3 Fb; nia).
    assert (Hsrc : forall i, 0 <= i < PART c -> f (UPDATE c + i) = f0 (UPDATE c + i)).
    { intros i Hi. apply (proj2 Hf). unfold disjoint in R2. zl. }
    cbn [bind run]. apply IH.
    + zl.
    + replace (pos + FB c) with (pos + 1 * FB c) by zl. rewrite Z_mod_plus_full. exact Hpm.
    + zl.
    + eapply frame_trans; [exact Hf|]. eapply frame_weak; [apply frame_write; [exact (proj1 Hf)|]|zl|zl].
      intros i _. apply (proj1 Hf).
    + intros i Hi Hi2. destruct (Z.ltb_spec i pos).
      * rewrite write_out by zl. apply H1; zl.
      * rewrite write_in by zl. rewrite H2 by zl.
        replace (i_hdr src + HDR c + pos + (s_base s + i - (s_base s + pos))) with (UPDATE c + (HDR c + i)) by zl.
        rewrite land_255 by apply (proj1 Hf). rewrite Hsrc by zl. f_equal. zl.
    + intros i Hi Hi2. rewrite write_out by zl. apply H2; zl.
Qed.

(** Type word of a verified bootloader image. *)
Lemma self_type : forall c f, geometry c -> bytes f -> verified c f (UPDATE c) -> exists v,
  get_image_type c f PUPDATE = Val v /\
  (v = c_auth c <->
   exists off b0 b1, field_at (UPDATE c) (rdl f (UPDATE c) (Z.to_nat (HDR c))) HDR_IMG_TYPE off [b0; b1] /\
     b0 + 256 * b1 = c_auth c).
Proof.
  intros c f G Hb (V1 & _ & d & _ & (id & n & s & T & _)).
  assert (Hh : hdr_small c) by (apply hs; exact G).
  destruct (hdr_facts c f (UPDATE c) Hb Hh) as (F1 & F2 & F3).
  destruct (get_header_val c f (UPDATE c) HDR_IMG_TYPE Hb Hh) as (r & E & K).
  unfold get_image_type. cbn zeta. cbn [part_addr]. rewrite V1, Z.eqb_refl. cbn [negb]. rewrite E.
  destruct T as (o & x0 & x1 & T1 & _). destruct r as [[off len]|].
  - destruct K as (dd & K1 & K2 & K3 & _ & _).
    destruct (field_det _ _ _ _ _ _ _ F1 F3 K1 T1) as (<- & ->). cbn [length] in K2. subst len.
    cbn [obind Nat.eqb]. eexists. split; [reflexivity|]. cbn [rdl] in K3. injection K3 as E0 E1.
    unfold half. rewrite E0, E1. split.
    + intro H. exists off, x0, x1. split; [exact T1|exact H].
    + intros (o2 & b0 & b1 & S1 & S2). destruct (field_det _ _ _ _ _ _ _ F1 F3 K1 S1) as (_ & Ed).
      injection Ed as -> ->. exact S2.
  - exfalso. eapply field_none; eauto.
Qed.

(** The copy ends whatever the size. *)
Lemma self_copy_ends : forall c s src, 1 <= FB c -> forall fuel pos f, i_size src - pos <= Z.of_nat fuel ->
  exists f', run (self_copy fuel c s src pos) f = Done tt f'.
Proof.
  intros c s src Hfb. induction fuel as [|fuel IH]; intros pos f Hf; cbn [self_copy];
    destruct (Z.ltb_spec pos (i_size src)) as [L|L]; [lia|eexists; reflexivity| |eexists; reflexivity].
  rewrite run_bind. destruct (_ <? _); cbn [run]; apply IH; lia.
Qed.

Lemma check_self_cases : forall c s f, geometry c -> bytes f ->
  (self_due c s f /\ (exists f', run (check_self_update c s) f = Done true f') /\
   (self_room c s (word f (UPDATE c + 4)) ->
     exists f', run (check_self_update c s) f = Done true f' /\
       frame f f' (s_base s) (BOOT c - s_base s) /\
       forall i, 0 <= i < word f (UPDATE c + 4) -> f' (s_base s + i) = f (UPDATE c + HDR c + i))) \/
  (~ self_due c s f /\
     wpc tear_free (check_self_update c s) (fun r f' => r = false /\ frame f f' (UPDATE c) (PART c))
       (fun f' => frame f f' (UPDATE c) (PART c)) f).
Proof.
  intros c s f G Hb. assert (Hh : hdr_small c) by (apply hs; exact G). assert (NU : PUPDATE <> PSWAP) by discriminate.
  pose proof (frame_refl f (UPDATE c) (PART c) Hb) as Fr.
  unfold check_self_update. cbn [get bind].
  destruct (get_partition_state c f PUPDATE) as [st|] eqn:Es.
  2:{ right. split; [intros (X & _); congruence|]. cbn [wpc]. rewrite Es. cbn. auto. }
  destruct (Z.eqb_spec st ST_UPDATING) as [->|Hst].
  2:{ right. split; [intros (X & _); congruence|]. cbn [wpc]. rewrite Es. apply Z.eqb_neq in Hst. rewrite Hst. cbn. auto. }
  destruct (open_image c f PUPDATE) as [ok im] eqn:Eo. destruct ok.
  2:{ right. split.
      - intros (_ & (V1 & V2 & _) & _).
        destruct (open_image_bad c f PUPDATE im NU Eo) as (_ & _ & _ & _ & _ & [X|X]); cbn [part_addr] in X; [congruence|lia].
      - cbn [wpc]. rewrite Es, Z.eqb_refl. cbn [negb wpc bind]. rewrite Eo. cbn [negb bind wpc]. auto. }
  destruct (get_type_val c f PUPDATE Hb Hh) as (ty & Ety).
  destruct (version_val c f PUPDATE Hb Hh) as (v & Ev & Vv). cbn [part_addr] in Vv.
  assert (Enum : Z.lor TYPE_WOLFBOOT (c_auth c) = c_auth c) by reflexivity.
  destruct (Z.eq_dec ty (c_auth c)) as [Ht|Ht].
  2:{ right. split.
      - intros (_ & V & T & _). destruct (self_type c f G Hb V) as (v' & E' & K). rewrite Ety in E'. injection E' as <-.
        apply Ht, K, T.
      - cbn [wpc]. rewrite Es, Z.eqb_refl. cbn [negb wpc bind]. rewrite Eo. cbn [negb bind wpc pure]. rewrite Ety.
        cbn [bind]. rewrite Enum. apply Z.eqb_neq in Ht. rewrite Ht. cbn [negb wpc]. auto. }
  destruct (Z.leb_spec v (s_version s)) as [Hv|Hv].
  { right. split.
    - intros (_ & _ & _ & v2 & V2 & L). rewrite (version_det _ _ _ _ _ Hb Hh V2 Vv) in L. lia.
    - cbn [wpc]. rewrite Es, Z.eqb_refl. cbn [negb wpc bind]. rewrite Eo. cbn [negb bind wpc pure]. rewrite Ety.
      cbn [bind]. rewrite Enum, Ht, Z.eqb_refl. cbn [negb bind wpc pure]. rewrite Ev. cbn [bind].
      destruct (Z.leb_spec v (s_version s)); [|lia]. cbn [wpc]. split; [exact Fr|]. split.
      + intros f' T. exact (frame_torn_erase _ _ _ _ _ T).
      + pose proof (frame_erase f (UPDATE c) (PART c) Hb). auto. }
  destruct (verify_both_cases c f PUPDATE im G Hb NU Eo) as [(V & im' & W & O0 & O1 & O2 & O3 & O4)|(V & im' & _ & W)].
  2:{ right. split; [intros (_ & X & _); contradiction|].
      cbn [wpc]. rewrite Es, Z.eqb_refl. cbn [negb wpc bind]. rewrite Eo. cbn [negb bind wpc pure]. rewrite Ety.
      cbn [bind]. rewrite Enum, Ht, Z.eqb_refl. cbn [negb bind wpc pure]. rewrite Ev. cbn [bind].
      destruct (Z.leb_spec v (s_version s)); [lia|]. apply wpc_bind. apply W; [exact Fr|]. cbn [negb wpc]. auto. }
  left. cbn [part_addr] in V. split.
  { split; [exact Es|]. split; [exact V|]. split; [|eauto].
    destruct (self_type c f G Hb V) as (v' & E' & K). rewrite Ety in E'. injection E' as <-. apply K, Ht. }
  assert (Run : run (check_self_update c s) f =
    match run (self_update c s im') f with Done _ f' => Done true f' | Panicked f' => Panicked f' | Wrong => Wrong end).
  { unfold check_self_update. cbn [get bind]. cbn [run]. rewrite Es, Z.eqb_refl. cbn [negb run bind]. rewrite Eo. cbn [negb bind run pure]. rewrite Ety.
    cbn [bind]. rewrite Enum, Ht, Z.eqb_refl. cbn [negb bind run pure]. rewrite Ev. cbn [bind].
    destruct (Z.leb_spec v (s_version s)); [lia|]. rewrite run_bind.
    destruct (wpc_run _ _ _ _ _ (W tear_free (fun r f1 => r = (true, im') /\ f1 = f) (fun _ => True) I (conj eq_refl eq_refl)))
      as (a & f1 & -> & (-> & ->) & _).
    cbn [negb]. unfold sanity. rewrite O1, O2, O3. cbn [andb negb]. rewrite run_bind. reflexivity. }
  change (Rd _) with (check_self_update c s). rewrite Run. unfold self_update. cbn [run]. split.
  { destruct (self_copy_ends c s im' ltac:(pose proof (g_fb c G); lia) (Z.to_nat (i_size im')) 0
      (erase f (s_base s) (BOOT c - s_base s)) ltac:(lia)) as (f' & ->). eauto. }
  intro R. destruct (open_image_ok c f PUPDATE im Hb NU Eo) as (H1 & H2 & H3 & H4 & H5 & _). cbn [part_addr] in *.
  destruct O4 as (O4 & O5). rewrite H1 in O4. rewrite H3 in O5.
  assert (Hw : 0 <= word f (UPDATE c + 4) <= PART c - HDR c) by (destruct V as (_ & V & _); pose proof (word_range f (UPDATE c + 4) Hb); lia).
  pose proof R as (R1 & R2 & R3). rewrite <- O5 in *.
  destruct (self_copy_run c s im' f G Hb O4 Hw R (Z.to_nat (i_size im')) 0 (erase f (s_base s) (BOOT c - s_base s)))
    as (f' & E' & Fr' & P').
  - lia.
  - apply Z.mod_0_l. pose proof (g_fb c G). lia.
  - lia.
  - apply frame_erase, Hb.
  - intros. lia.
  - intros i Hi Hi2. apply erase_in. lia.
  - exists f'. split; [rewrite E'; reflexivity|auto].
Qed.

(** ** What was booted *)

Lemma keeps_direct_copy : forall fuel c u b t s, keeps (direct_copy fuel c u b t s).
Proof.
  induction fuel as [|fuel IH]; intros; cbn [direct_copy]; (destruct (_ <? _); [|apply keeps_ret]); [apply keeps_stuck|].
  apply keeps_bind; [apply keeps_copy|]. intro. apply IH.
Qed.
Lemma keeps_direct_erase : forall fuel c b s, keeps (direct_erase fuel c b s).
Proof.
  induction fuel as [|fuel IH]; intros; cbn [direct_erase]; (destruct (_ <? _); [|apply keeps_ret]); [apply keeps_stuck|].
  apply keeps_er, IH.
Qed.
Lemma keeps_update_direct : forall c fb, keeps (update_direct c fb).
Proof.
  intros. unfold update_direct. apply keeps_rd. intro f. cbn zeta. destruct (_ <=? _); [apply keeps_ret|].
  apply keeps_bind; [apply keeps_pure|]. intro ty. apply keeps_bind; [apply keeps_get|]. intro fl.
  apply keeps_bind; [destruct (_ =? _); [apply keeps_checks|apply keeps_ret]|]. intro go.
  destruct (negb go); [apply keeps_ret|]. apply keeps_bind; [apply keeps_direct_copy|]. intro s.
  apply keeps_bind; [apply keeps_direct_erase|]. intros _. apply keeps_bind; [apply keeps_state; discriminate|].
  intros _. apply keeps_ret.
Qed.
Lemma start_direct_verified : forall c f r f', geometry c -> bytes f -> run (start_direct c) f = Done r f' ->
  verified c f' (BOOT c) /\ r = BOOT c + HDR c.
Proof.
  intros c f r f' G Hb E. unfold start_direct in E. cbn [get bind run] in E. rewrite run_bind in E.
  match type of E with match run ?p f with _ => _ end = _ => assert (K : keeps p) end.
  { repeat match goal with |- keeps (if ?b then _ else _) => destruct b end;
      try apply keeps_ret; (apply keeps_bind; [apply keeps_update_direct|intro; apply keeps_ret]). }
  specialize (K f Hb).
  match type of E with match run ?p f with _ => _ end = _ => destruct (run p f) as [[] f2|f2|] end; try discriminate.
  eapply boot_stage_verified; [exact G|exact K|apply keeps_update_direct|exact E].
Qed.
