(** From a delta image as specified to the hypotheses of DeltaUpdateProofs, in both
    directions. *)
From Verif Require Import Base BaseLemmas HeaderModel HeaderSpec HeaderProofs Flash FlashLemmas ImageModel ImageSpec ImageProofs GenuineProofs
  TrailerModel TrailerProofs TriggerProofs TrailerCrash SwapModel SwapSpec Geometry CopyProofs SwapInv SwapSteps SwapLoop SwapFinal
  SwapStart RefuseProofs HistoryProofs DeltaModel DeltaSpec DeltaProofs DeltaUpdateModel DeltaApply DeltaLoop DeltaFinal DeltaUpdateProofs
  DeltaUpdateSpec.
Local Ltac Zify.zify_post_hook ::= idtac.

(** ** Header fields of a stored image *)

Section Fields.
  Variables (c : cfg) (f : flash) (p : part) (X : list Z) (v : Z).
  Hypothesis G : geometry c.
  Hypothesis Hb : bytes f.
  Hypothesis Hp : p <> PSWAP.
  Hypothesis HX : genuine c X v.
  Hypothesis Hold : holds f (part_addr c p) X.

  Lemma sf_hdr : hdr_bytes c f (part_addr c p) = hdr_of c X /\ all_bytes (hdr_of c X) /\ zlen (hdr_of c X) < 65544 /\ hdr_small c.
  Proof.
    assert (Hh : hdr_small c) by (apply hs; exact G).
    destruct (hdr_facts c f (part_addr c p) Hb Hh) as (F1 & _ & F3).
    assert (E : hdr_bytes c f (part_addr c p) = hdr_of c X).
    { apply holds_hdr; [exact Hold|]. pose proof (gn_len _ _ _ HX). unfold hdr_small in Hh. lia. }
    rewrite E in *. auto.
  Qed.

  Lemma sf_field : forall ty off d, field_at 0 (hdr_of c X) ty off d ->
    get_header c f (part_addr c p) ty = Val (Some (off, length d)) /\ rdl f (part_addr c p + Z.of_nat off) (length d) = d.
  Proof.
    intros ty off d H. destruct sf_hdr as (E & B1 & B2 & Hh).
    apply (field_parity 0 (part_addr c p)) in H; [|symmetry; apply even_part; auto].
    destruct (field_find _ _ _ _ _ B1 B2 H) as (E1 & _).
    assert (E2 : get_header c f (part_addr c p) ty = Val (Some (off, length d))) by (unfold get_header; rewrite E; exact E1).
    split; [exact E2|]. destruct (get_header_val c f (part_addr c p) ty Hb Hh) as (r & E3 & K).
    rewrite E2 in E3. injection E3 as <-. destruct K as (d' & K1 & K2 & K3 & _). rewrite E in K1.
    destruct (field_det _ _ _ _ _ _ _ B1 B2 H K1) as (_ & ->). exact K3.
  Qed.

  Lemma sf_none : forall ty, no_field 0 (hdr_of c X) ty -> get_header c f (part_addr c p) ty = Val None.
  Proof.
    intros ty (items & R & N). destruct sf_hdr as (E & B1 & B2 & Hh). unfold get_header. rewrite E.
    apply no_field_find; auto. exists items. split; [|exact N].
    eapply reads_parity; [|exact R]. symmetry. apply even_part; auto.
  Qed.

  Lemma sf_num : forall ty w, num_field c X ty w -> word_field c f (part_addr c p) ty = Val (Some w).
  Proof.
    intros ty w (off & d & H & L & ->). destruct (sf_field ty off d H) as (E & R).
    unfold word_field. rewrite E. cbn [obind]. rewrite L in *. cbn [Nat.eqb]. rewrite word_rdl, R. reflexivity.
  Qed.
End Fields.

Lemma stored_delta_type : forall c f D v, geometry c -> bytes f -> genuine c D v -> holds f (UPDATE c) D -> delta_type c D ->
  exists ty, get_image_type c f PUPDATE = Val ty /\ Z.land ty 0x00F0 = TYPE_DIFF.
Proof.
  intros c f D v G Hb GD H (off & b0 & b1 & Hf & Ht).
  destruct (sf_field c f PUPDATE D v G Hb ltac:(discriminate) GD H _ _ _ Hf) as (E & R).
  exists (half f (UPDATE c + Z.of_nat off)). split.
  - unfold get_image_type. cbn zeta. rewrite (stored_magic c f PUPDATE D v) by (auto; apply hs, G).
    rewrite Z.eqb_refl. cbn [negb part_addr] in *. rewrite E. reflexivity.
  - cbn [length part_addr] in R. rewrite half_rdl, R. cbn [le_val].
    assert (B : all_bytes [b0; b1]) by (rewrite <- R; apply Forall_forall; intros x Hx; eapply rdl_in; eauto).
    inversion B as [|? ? B0 B']; subst. inversion B' as [|? ? B1 _]; subst. unfold is_byte in *. clear -B0 B1 Ht.
    replace (b0 + 256 * (b1 + 256 * 0)) with (b0 + b1 * 2 ^ 8) by lia. unfold TYPE_DIFF.
    apply Z.bits_inj'. intros n Hn. rewrite Z.land_spec.
    destruct (Z.ltb_spec n 8) as [L|L].
    + rewrite <- (Z.mod_pow2_bits_low _ 8) by lia. rewrite Z.mod_add by discriminate. rewrite Z.mod_pow2_bits_low by lia.
      rewrite <- Z.land_spec.
      assert (Z.land b0 240 = 208) as ->; [|reflexivity].
      pose proof (Z.div_mod b0 16 ltac:(discriminate)) as Dv. rewrite Ht in Dv. pose proof (Z.mod_pos_bound b0 16 eq_refl) as M.
      assert (K : forall m, 0 <= m < 16 -> Z.land (16 * 13 + m) 240 = 208).
      { intros m Hm. assert (m = 0 \/ m = 1 \/ m = 2 \/ m = 3 \/ m = 4 \/ m = 5 \/ m = 6 \/ m = 7 \/ m = 8 \/ m = 9 \/ m = 10 \/
          m = 11 \/ m = 12 \/ m = 13 \/ m = 14 \/ m = 15) as K by lia.
        repeat (destruct K as [ -> |K]; [reflexivity|]). rewrite K. reflexivity. }
      rewrite Dv. apply K, M.
    + assert (Z.testbit 240 n = false) as ->; [|rewrite andb_false_r; symmetry].
      * apply Z.bits_above_log2; [discriminate|]. change (Z.log2 240) with 7. lia.
      * apply Z.bits_above_log2; [discriminate|]. change (Z.log2 208) with 7. lia.
Qed.

(** ** Patches *)

Lemma carries_dec : forall c D off S T P v, genuine c D v -> patch_for c S T P -> carries D off P ->
  exists i e ts, d_sect i = SECT c /\ d_sa i = zlen S /\ zlen T <= e /\
    (forall x, 0 <= x < zlen S -> d_a i x = nth (Z.to_nat x) S 0) /\
    (forall x, 0 <= x < zlen T -> d_b i x = nth (Z.to_nat x) T 0) /\
    word (tgt i e) (PART c - 2 * SECT c) <> MT /\ 0 < zlen P /\
    dec i e (pt_of D off) (zlen P) true 0 (mkP 0 false 0 0) ts.
Proof.
  intros c D off S T P v GD (i & U & H1 & H2 & H3 & H4 & H5 & H6 & H7) (C1 & C2 & C3).
  destruct (make_patch_spec i U) as (ts & E & Ch & Fa & To). rewrite E in H6. injection H6 as <-.
  pose proof (us_sb i U).
  exists i, (total ts), ts. split; [exact H1|]. split; [exact H2|]. split; [lia|].
  split; [intros x Hx; apply (H4 x Hx)|]. split; [intros x Hx; apply (H5 x Hx)|]. split.
  { intro W. apply H7. pose proof (us_b i U) as Ub. clear -W Ub. unfold MT in *. rewrite <- W. unfold word, le32, tgt.
    set (a := PART c - 2 * SECT c) in *. unfold word, le32, tgt in W.
    destruct (Z.ltb_spec (a + 3) (total ts)) as [L|L].
    - rewrite !(proj2 (Z.ltb_lt _ (total ts))) by lia. reflexivity.
    - exfalso.
      assert (B : forall x, 0 <= (if x <? total ts then d_b i x else 255)).
      { intro x. destruct (x <? total ts); [apply Ub|lia]. }
      pose proof (B a). pose proof (B (a + 1)). pose proof (B (a + 2)). unfold WOLFBOOT_MAGIC_TRAIL in W. lia. }
  assert (Hlen : 0 < zlen (encoded ts)).
  { destruct ts as [|t ts]; [cbn [total] in To; lia|]. cbn [encoded flat_map]. rewrite zlen_app. pose proof (enc_len t).
    pose proof (zlen_nonneg (flat_map enc ts)). lia. }
  split; [exact Hlen|].
  assert (HP : holds (pt_of D off) 0 (encoded ts)) by (intros j Hj; unfold pt_of; rewrite Z.add_0_l; apply C3, Hj).
  split; [|split; [|split]].
  - apply (inb_encoded _ _ ts); auto.
  - split; [cbn [p_off]; lia|]. exists ts. split; [|reflexivity]. apply parsed_encoded; auto.
  - exact Ch.
  - left. lia.
Qed.

Lemma fresh_dmid : forall c i e D S T N N0 inv f, geometry c -> flags_fit c -> sectors c D T N -> sectors c S D N0 ->
  d_sa i = zlen S -> (forall x, 0 <= x < zlen S -> d_a i x = nth (Z.to_nat x) S 0) ->
  fresh c S D N0 f -> dmid c i e D T N inv false 0 false f.
Proof.
  intros c i e D S T N N0 inv f G F HN HN0 Hsa HaS ((Mb & _ & _ & Da & ((Ht & _) & Tm & _ & T3 & T4)) & Hn & Hst).
  apply (data_start c S D N0 G HN0) in Da. destruct Da as (D1 & D2 & D3).
  split; [exact Mb|]. split.
  { split; [lia|]. unfold NL. pose proof (sect_idx c 0 G ltac:(lia) ltac:(geo G; lia)). lia. }
  split.
  - split; [exact D2|]. split; [exact D3|]. unfold pc. rewrite (proj2 (Z.ltb_lt 0 N)) by apply HN.
    split; [intros x Hx; lia|]. split; [|discriminate]. intros x Hx. rewrite HaS by lia. apply D1. lia.
  - split; [destruct Tm as [E|(_ & _ & E)]; auto|]. split; [intros s Hs; lia|]. split; [exact T3|]. split; [exact T4|].
    unfold dst. cbn zeta. rewrite Hst. destruct inv; [|right; auto]. split; [reflexivity|]. split; [discriminate|].
    split; [left; discriminate|left; exact Ht].
Qed.

Lemma triggered_dmid : forall c i e D S v T N f f0, geometry c -> flags_fit c -> sectors c D T N -> genuine c S v ->
  zlen D <= PART c - SECT c -> d_sa i = zlen S -> (forall x, 0 <= x < zlen S -> d_a i x = nth (Z.to_nat x) S 0) ->
  bytes f0 -> holds f0 (BOOT c) S -> holds f0 (UPDATE c) D -> clean c f0 (BOOT c) -> clean c f0 (UPDATE c) ->
  triggered c f0 f -> get_partition_state c f PUPDATE = Some ST_UPDATING ->
  dmid c i e D T N false false 0 false f.
Proof.
  intros c i e D S v T N f f0 G F HN GS LD Hsa HaS Hb HA HD CA CD Tr Es. pose proof Tr as (B' & O' & _ & _).
  pose proof (gn_fit _ _ _ GS). assert (H0 : 0 < PART c / SECT c) by (apply sect_idx; auto; geo G; lia).
  assert (Hm : has_magic c f PUPDATE = true /\ f (state_addr c PUPDATE) = ST_UPDATING).
  { unfold get_partition_state in Es. destruct (has_magic c f PUPDATE); [|discriminate]. injection Es as Es. auto. }
  split; [exact B'|]. split; [unfold NL; lia|]. split.
  - split; [intros j Hj; rewrite O' by (geo G; lia); apply HD, Hj|]. split; [split|].
    + rewrite (word_ext f f0 _ (BOOT c + (PART c - 2 * SECT c))); [exact CA|]. intros j Hj. apply O'. geo G. lia.
    + rewrite (word_ext f f0 _ (UPDATE c + (PART c - 2 * SECT c))); [exact CD|]. intros j Hj. apply O'. geo G. lia.
    + unfold pc. rewrite (proj2 (Z.ltb_lt 0 N)) by apply HN. split; [intros x Hx; lia|]. split; [|discriminate].
      intros x Hx. rewrite HaS by lia. rewrite O' by (geo G; lia). apply HA. lia.
  - split; [left; apply Hm|]. split; [intros s Hs; lia|]. split; [intros s Hs; apply (triggered_nib c G F f0 f s Tr); lia|].
    split; [apply (triggered_nib c G F f0 f 0 Tr); lia|]. left. exact Hm.
Qed.

Section Link.
  Variables (c : cfg) (blk : Z) (A B : img) (D : list Z).
  Hypothesis G : geometry c.
  Hypothesis F : flags_fit c.
  Hypothesis GA : good c A.
  Hypothesis GB : good c B.
  Hypothesis HD : delta_of c A B D.
  Hypothesis HA : 0 < snd A.
  Hypothesis HAB : snd A < snd B.
  Hypothesis Hblk : 6 <= blk.
  Hypothesis Hdiv : (blk | SECT c).
  Let t := tear_std c.

  Definition is_fresh (X : img) (f : flash) : Prop := exists N, sectors c (fst X) D N /\ fresh c (fst X) D N f.

  Lemma fresh_holds : forall X f, is_fresh X f -> holds f (BOOT c) (fst X) /\ holds f (UPDATE c) D.
  Proof.
    intros X f (N & HN & ((_ & _ & _ & Da & _) & _)). apply (data_start c (fst X) D N G HN) in Da.
    destruct Da as (D1 & D2 & _). auto.
  Qed.

  Lemma delta_link : exists PF PB : flash -> Prop,
    (forall f, triggered_update c A (D, snd B) f -> PF f) /\
    (forall u f, u 0%nat <> ST_FINAL -> PF f ->
       wpc t (start_delta c blk u) (fun r f' => r = BOOT c + HDR c /\ is_fresh B f' /\ PB f') (fun f' => PF f' \/ (is_fresh B f' /\ PB f')) f) /\
    (forall u f, u 0%nat <> ST_FINAL -> PB f ->
       wpc t (start_delta c blk u)
         (fun r f' => r = BOOT c + HDR c /\ holds f' (BOOT c) (fst A) /\ holds f' (UPDATE c) D /\
            ((is_fresh A f' /\ PF f') \/ (PB f' /\ f' = f /\ ~ is_fresh B f))) (fun f' => (is_fresh A f' /\ PF f') \/ PB f') f).
  Proof.
    pose proof (do_genuine _ _ _ _ HD) as GD. pose proof (gn_len _ _ _ GD) as LD0. pose proof (gn_fit _ _ _ GD) as LD1.
    destruct (do_patch _ _ _ _ HD) as (P1 & PF1 & NF1 & CF1).
    destruct (do_inverse _ _ _ _ HD) as (P2 & off2 & PF2 & NO2 & NF2 & CF2).
    destruct (carries_dec c D (HDR c) _ _ P1 _ GD PF1 CF1) as (iF & eF & tsF & F1 & F2 & F3 & F4 & F5 & F6 & F7 & F8).
    destruct (carries_dec c D off2 _ _ P2 _ GD PF2 CF2) as (iB & eB & tsB & B1 & B2 & B3 & B4 & B5 & B6 & B7 & B8).
    destruct (sectors_exist c D (fst B) _ _ G GD GB) as (NF & HNF).
    destruct (sectors_exist c D (fst A) _ _ G GD GA) as (NB & HNB).
    assert (NU : PUPDATE <> PSWAP) by discriminate. assert (NBo : PBOOT <> PSWAP) by discriminate.
    set (offs := fun b : bool => if b then off2 else 0). set (szs := fun b : bool => if b then zlen P2 else zlen P1).
    assert (BH : exists bh,
      (forall f, bytes f -> holds f (UPDATE c) D -> get_header c f (UPDATE c) HDR_IMG_DELTA_BASE_HASH = Val bh) /\
      match bh with Some (_, n) => n = c_digsz c | None => True end /\
      (forall f bb, bytes f -> holds f (BOOT c) (fst A) -> holds f (UPDATE c) D ->
         get_header c f (BOOT c) (c_hash_tag c) = Val bb -> same_base c f (BOOT c) bh bb = true)).
    { destruct (do_hash _ _ _ _ HD) as [Hn|(off & off' & d & Hf & Hf')].
      - exists None. split; [|split; [exact I|reflexivity]]. intros f Hb H. apply (sf_none c f PUPDATE D (snd B)); auto.
      - destruct (gn_signed _ _ _ GA) as (d0 & (off0 & I1 & I2 & _) & _).
        assert (d0 = d) as ->.
        { assert (all_bytes (hdr_of c (fst A))) as Ba.
          { unfold hdr_of. apply Forall_forall. intros x Hx. apply (proj1 (Forall_forall _ _) (gn_bytes _ _ _ GA)).
            rewrite <- (firstn_skipn (Z.to_nat (HDR c)) (fst A)). apply in_or_app. left. exact Hx. }
          assert (zlen (hdr_of c (fst A)) < 65544) as Bz.
          { assert (Hh : hdr_small c) by (apply hs; exact G). unfold hdr_small in Hh. unfold hdr_of, zlen.
            rewrite firstn_length. clear -Hh. lia. }
          destruct (field_det _ _ _ _ _ _ _ Ba Bz I1 Hf') as (_ & E). exact E. }
        exists (Some (off, length d)). split; [|split; [exact I2|]].
        + intros f Hb H. apply (sf_field c f PUPDATE D (snd B)); auto.
        + intros f bb Hb H1 H2 E. destruct (sf_field c f PBOOT (fst A) (snd A) G Hb NBo GA H1 _ _ _ Hf') as (E1 & R1).
          destruct (sf_field c f PUPDATE D (snd B) G Hb NU GD H2 _ _ _ Hf) as (_ & R2). cbn [part_addr] in *.
          rewrite E1 in E. injection E as <-. unfold same_base. rewrite I2, Nat.eqb_refl. rewrite I2 in R1, R2.
          rewrite R1, R2. apply list_eqb_iff. reflexivity. }
    destruct BH as (bh & BH1 & BH2 & BH3).
    assert (Hinfo : forall b f, bytes f -> holds f (UPDATE c) D -> get_delta_info c f b = Val (Some (offs b, szs b, bh))).
    { intros b f Hb H. unfold get_delta_info. cbn zeta.
      change (UPDATE c) with (part_addr c PUPDATE).
      rewrite (stored_magic c f PUPDATE D (snd B)) by (auto; apply hs, G). rewrite Z.eqb_refl. cbn [negb].
      destruct b.
      - rewrite (sf_num c f PUPDATE D (snd B) G Hb NU GD H _ _ NO2). cbn [obind].
        rewrite (sf_num c f PUPDATE D (snd B) G Hb NU GD H _ _ NF2). cbn [obind]. cbn [part_addr]; rewrite BH1 by auto. reflexivity.
      - cbn [obind]. rewrite (sf_num c f PUPDATE D (snd B) G Hb NU GD H _ _ NF1). cbn [obind]. cbn [part_addr]; rewrite BH1 by auto. reflexivity. }
    assert (Hbase : forall f, bytes f -> holds f (UPDATE c) D -> get_diffbase_version c f PUPDATE = Val (snd A)).
    { intros f Hb H. destruct (do_base _ _ _ _ HD) as (off & d & Hf & L & ->).
      destruct (sf_field c f PUPDATE D (snd B) G Hb NU GD H _ _ _ Hf) as (E & R).
      unfold get_diffbase_version. cbn zeta.
      rewrite (stored_magic c f PUPDATE D (snd B)) by (auto; apply hs, G). rewrite Z.eqb_refl. cbn [negb].
      rewrite E. cbn [obind]. rewrite L in *. cbn [Nat.eqb]. rewrite word_rdl, R. reflexivity. }
    assert (Hty : forall f, bytes f -> holds f (UPDATE c) D ->
      exists ty, get_image_type c f PUPDATE = Val ty /\ Z.land ty 0x00F0 = TYPE_DIFF).
    { intros f Hb H. apply (stored_delta_type c f D (snd B)); auto. apply (do_type _ _ _ _ HD). }
    assert (Hsz : forall b, 0 < szs b /\ 0 <= poff c offs b /\ poff c offs b + szs b <= zlen D).
    { destruct CF1 as (K1 & K2 & _). destruct CF2 as (K3 & K4 & _).
      intros []; unfold szs, offs, poff; auto. }
    assert (HdecF : forall i e b, exists ts, dec i e (pt_of D (poff c offs b)) (szs b) false 0 (mkP 0 false 0 0) ts).
    { intros i e []; [exists tsB; destruct B8 as (K1 & K2 & _)|exists tsF; destruct F8 as (K1 & K2 & _)];
        (split; [exact K1|split; [exact K2|discriminate]]). }
    exists (fun f => (exists k sw, dmid c iF eF D (fst B) NF false false k sw f) \/ final c D (fst B) f),
      (fun f => (exists k sw, dmid c iB eB D (fst A) NB true false k sw f) \/ final c D (fst A) f).
    assert (XF : forall f, is_fresh A f -> exists k sw, dmid c iF eF D (fst B) NF false false k sw f).
    { intros f (N & HN & Fr). exists 0, false. apply (fresh_dmid c iF eF D (fst A) (fst B) NF N); auto. }
    assert (XB : forall f, is_fresh B f -> exists k sw, dmid c iB eB D (fst A) NB true false k sw f).
    { intros f (N & HN & Fr). exists 0, false. apply (fresh_dmid c iB eB D (fst B) (fst A) NB N); auto. }
    split; [|split].
    - intros f (f0 & Hb & H1 & H2 & H3 & H4 & H5 & E). left. exists 0, false.
      destruct (trigger_states c G F f0 Hb) as (Tr & _). destruct (Tr f E) as (T1 & T2).
      apply (triggered_dmid c iF eF D (fst A) (snd A) (fst B) NF f f0); auto.
    - intros u f Hu U.
      assert (Hdir : snd A < snd B /\ snd A = snd A /\ forall f bb, bytes f -> holds f (BOOT c) (fst A) -> holds f (UPDATE c) D ->
           get_header c f (BOOT c) (c_hash_tag c) = Val bb -> same_base c f (BOOT c) bh bb = true) by auto.
      eapply wpc_conseq; [exact (start_delta_wpc c blk iF eF D (fst A) (fst B) (snd B) (snd A) (snd B) NF false G F HNF GB GA GD
        Hblk Hdiv F1 F2 F3 F4 F5 F6 offs szs bh (snd A) Hinfo Hbase Hty BH2 Hsz (HdecF iF eF) (ex_intro _ tsF F8) HA Hdir u f Hu U)| |].
      + cbn beta. intros r f' (-> & [Fr|((K & _) & _)]); [|discriminate]. split; [reflexivity|].
        assert (is_fresh B f') as IF by (exists NF; split; [apply sectors_sym, HNF|exact Fr]). auto.
      + cbn beta. intros f' [K|[K|K]]; auto. right.
        assert (is_fresh B f') as IF by (exists NF; split; [apply sectors_sym, HNF|exact K]). auto.
    - intros u f Hu U.
      assert (HB0 : 0 < snd B) by (clear -HA HAB; lia).
      eapply wpc_conseq; [exact (start_delta_wpc c blk iB eB D (fst B) (fst A) (snd B) (snd B) (snd A) NB true G F HNB GA GB GD
        Hblk Hdiv B1 B2 B3 B4 B5 B6 offs szs bh (snd A) Hinfo Hbase Hty BH2 Hsz (HdecF iB eB) (ex_intro _ tsB B8) HB0
        (conj eq_refl HAB) u f Hu U)| |].
      + cbn beta. intros r f' (-> & [Fr|((_ & M & E1 & E2) & ->)]); (split; [reflexivity|]).
        * assert (is_fresh A f') as IF by (exists NB; split; [apply sectors_sym, HNB|exact Fr]).
          destruct (fresh_holds A f' IF) as (K1 & K2).
          split; [exact K1|]. split; [exact K2|]. left. split; [exact IF|]. left. apply XF, IF.
        * assert (SA : 0 < d_sa iB <= PART c - SECT c).
          { pose proof (gn_len _ _ _ GB) as L1. pose proof (gn_fit _ _ _ GB) as L2. rewrite B2. clear -G L1 L2. geo G. lia. }
          destruct (dl_range c iB D (fst A) NB G F HNB SA B5) as (_ & R2 & _).
          destruct (dmid_holds c iB eB D (fst A) NB true B5 _ _ _ _ R2 M) as (K1 & K2 & _).
          split; [exact K1|]. split; [exact K2|]. right. split; [left; eauto|]. split; [reflexivity|].
          intros (N & HN & ((_ & _ & _ & _ & ((Ht & _) & _)) & _)). apply E1, Ht.
      + cbn beta. intros f' [K|[K|K]]; auto. left.
        assert (is_fresh A f') as IF by (exists NB; split; [apply sectors_sym, HNB|exact K]). auto.
  Qed.
End Link.
