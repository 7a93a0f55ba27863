(** Installing a delta image: from the last sector to the end. *)
From Verif Require Import Base BaseLemmas HeaderModel Flash FlashLemmas ImageModel ImageSpec ImageProofs GenuineProofs
  TrailerModel TrailerProofs TriggerProofs TrailerCrash SwapModel SwapSpec Geometry CopyProofs SwapInv SwapSteps SwapLoop SwapFinal
  DeltaModel DeltaSpec DeltaProofs DeltaUpdateModel DeltaApply DeltaLoop.
Local Ltac Zify.zify_post_hook ::= idtac.

Section DFinal.
  Variables (c : cfg) (i : din) (e : Z) (D T : list Z) (vT N : Z) (inv : bool).
  Hypothesis G : geometry c.
  Hypothesis F : flags_fit c.
  Hypothesis HN : sectors c D T N.
  Hypothesis GT : genuine c T vT.
  Hypothesis HD0 : HDR c < zlen D.
  Hypothesis Hsa : 0 < d_sa i <= PART c - SECT c.
  Hypothesis HbT : forall x, 0 <= x < zlen T -> d_b i x = nth (Z.to_nat x) T 0.

  Let t := tear_std c.
  Local Notation dm := (dmid c i e D T N inv).

  Lemma dl_range : 1 <= NL c /\ N <= NL c /\ 0 < N /\ NL c < 512 /\ NL c + 1 = PART c / SECT c /\ NL c < PART c.
  Proof. eapply NL_range; eauto. Qed.
  Lemma dl_eq : NL c * SECT c = PART c - SECT c.
  Proof. eapply NL_eq; eauto. Qed.
  Lemma dl_le : forall k, 0 <= k <= NL c -> 0 <= k * SECT c <= PART c - SECT c.
  Proof. intros. eapply k_le; eauto. Qed.
  Lemma dl_fits : zlen T <= N * SECT c /\ zlen T <= PART c - SECT c /\ zlen D <= PART c - SECT c.
  Proof. eapply T_fits; eauto. Qed.

  (** Erasing sectors of the boot partition beyond the new image. *)
  Lemma dmid_hi : forall arm k sw s f f', N <= k -> N <= s < NL c -> dm arm k sw f ->
    frame f f' (BOOT c + s * SECT c) (SECT c) -> (guarded t (BOOT c + s * SECT c) -> word f' (BOOT c + s * SECT c) <> MT) ->
    dm arm k sw f'.
  Proof.
    intros arm k sw s f f' HkN Hs (A & B & (C1 & (N1 & N2) & C3) & E) Hf Hg. pose proof (proj2 Hf) as H.
    destruct dl_fits as (L1 & L2 & L3). destruct dl_range as (R1 & R2 & R3 & R4 & R5 & _). pose proof dl_eq as NE.
    pose proof (dl_le (s + 1) ltac:(lia)) as Ls1. pose proof (dl_le s ltac:(lia)) as Ls.
    assert (NS : N * SECT c <= s * SECT c) by (apply Z.mul_le_mono_nonneg_r; [destruct (g_sect c G); lia|apply Hs]).
    assert (E1 : (s + 1) * SECT c = s * SECT c + SECT c) by ring.
    split; [apply Hf|]. split; [exact B|]. split; [split; [|split]|].
    - intros j Hj. rewrite H by (geo G; zl). apply C1, Hj.
    - split.
      + destruct (sect_le c s G ltac:(lia)) as [Ek|Ek].
        * rewrite <- Ek. apply Hg. left. lia.
        * rewrite (word_ext f' f _ (BOOT c + (PART c - 2 * SECT c))); auto. intros j Hj. apply H. geo G. zl.
      + rewrite (word_ext f' f _ (UPDATE c + (PART c - 2 * SECT c))); auto. intros j Hj. apply H. geo G. zl.
    - unfold pc in *. destruct (Z.ltb_spec k N) as [Hk|_]; [lia|]. intros j Hj. rewrite H by zl. apply C3, Hj.
    - assert (BT : forall x, BOOT c + PART c - SECT c <= x < BOOT c + PART c -> f' x = f x) by (intros x Hx; apply H; zl).
      eapply dtrl_stable with (f := f); try eassumption; [intros x Hx; apply H; geo G; zl|right; exact BT].
  Qed.

  Lemma erase_boot_rest_wpc : forall (C : flash -> Prop), (forall f', (exists k sw, dm true k sw f') -> C f') ->
    forall boot, boot_img c boot -> forall fuel s k sw f, N <= k -> N <= s -> NL c - s <= Z.of_nat fuel -> dm true k sw f ->
    wpc t (erase_boot_rest fuel c boot s) (fun _ f' => dm true k sw f') C f.
  Proof.
    intros C HC boot (_ & HB2) fuel. pose proof dl_eq as NE. destruct dl_range as (R1 & R2 & R3 & R4 & R5 & _).
    assert (SP : 0 < SECT c) by (destruct (g_sect c G); lia).
    induction fuel as [|fuel IH]; intros s k sw f Hk Hs Hfu M; cbn [erase_boot_rest].
    - assert (PART c - SECT c <= s * SECT c).
      { rewrite <- NE. apply Z.mul_le_mono_nonneg_r; lia. }
      destruct (Z.ltb_spec (s * SECT c) (PART c - SECT c)); [lia|]. cbn [wpc]. split; [apply HC; eauto|exact M].
    - destruct (Z.ltb_spec (s * SECT c) (PART c - SECT c)) as [HL|HL]; [|cbn [wpc]; split; [apply HC; eauto|exact M]].
      assert (s < NL c) by (apply (Z.mul_lt_mono_pos_r (SECT c)); lia).
      rewrite HB2. cbn [wpc]. pose proof M as (Mb & _).
      split; [apply HC; eauto|]. split.
      + intros f' Te. apply HC. exists k, sw. eapply (dmid_hi true k sw s f f'); eauto; [eapply frame_torn_erase; exact Te|].
        intros Hg E. destruct Te as (_ & _ & _ & Te).
        assert (Her : word (erase f (BOOT c + s * SECT c) (SECT c)) (BOOT c + s * SECT c) <> MT)
          by (apply word_erased; intros j Hj; apply erase_in; geo G; lia).
        destruct (Te (BOOT c + s * SECT c)) as [E'|E']; auto. clear Her.
        destruct M as (_ & _ & (_ & (M1 & _) & _) & _).
        destruct Hg as [Hg|Hg].
        * rewrite Hg in E'. congruence.
        * pose proof (dl_le s ltac:(lia)). geo G. zl.
      + eapply IH; eauto; try lia.
        eapply (dmid_hi true k sw s f); eauto; [apply frame_erase, Mb|].
        intros _. apply word_erased. intros j Hj. apply erase_in. geo G. lia.
  Qed.

  (** *** The final phase *)

  Lemma dmid_magic : forall k sw f, N <= k -> dm true k sw f -> has_magic c f PUPDATE = true.
  Proof.
    intros k sw f Hk (_ & _ & _ & ([M|(M & _)] & _)); [exact M|]. destruct dl_range as (_ & _ & ? & _). lia.
  Qed.

  Lemma dmid_holds : forall arm k sw f, N <= k -> dm arm k sw f -> holds f (BOOT c) T /\ holds f (UPDATE c) D /\ np c f.
  Proof.
    intros arm k sw f Hk (_ & _ & (A & B & P) & _). split; [|split; [exact A|exact B]].
    unfold pc in P. destruct (Z.ltb_spec k N); [lia|exact P].
  Qed.

  (** Whatever the direction, the state byte can still be turned into FINAL. *)
  Lemma dst_final : forall arm k sw f, dst c N inv arm k sw f ->
    f (state_addr c PUPDATE) <> ST_FINAL /\ Z.land (f (state_addr c PUPDATE)) ST_FINAL = ST_FINAL.
  Proof.
    intros arm k sw f Hd. unfold dst in Hd. cbn zeta in Hd. destruct inv.
    - destruct Hd as (A & B & _). auto.
    - destruct Hd as [(_ & ->)|(_ & _ & _ & _ & E)]; [split; [discriminate|reflexivity]|].
      split; [intros E'; rewrite E' in E; discriminate|].
      replace ST_FINAL with (Z.land ST_UPDATING ST_FINAL) by reflexivity.
      rewrite Z.land_assoc, E. reflexivity.
  Qed.

  Lemma dfinal_wpc : forall k sw u f (C : flash -> Prop),
    (forall f', final c D T f' -> C f') -> (forall f', fresh c T D N f' -> C f') ->
    (forall f', (exists k sw, dm true k sw f') -> C f') -> N <= k -> dm true k sw f ->
    wpc t (swap_and_final_erase c u false) (fun _ f' => fresh c T D N f') C f.
  Proof.
    intros k sw u f C HC1 HC2 HC3 Hk M. unfold swap_and_final_erase. cbn [wpc]. cbn zeta. cbn [andb].
    pose proof M as (Mb & Mk & MC & (T1 & T2 & T3 & T4 & Td)).
    pose proof (dmid_magic k sw f Hk M) as Hm. destruct (dst_final _ _ _ _ Td) as (S3 & S4).
    destruct dl_range as (R1 & R2 & R3 & R4 & R5 & _). pose proof dl_eq as NE.
    set (s := f (state_addr c PUPDATE)) in *.
    assert (S1 : get_partition_state c f PUPDATE = Some s) by (unfold get_partition_state; rewrite Hm; reflexivity).
    rewrite S1. destruct (Z.eqb_spec s ST_FINAL) as [E|_]; [congruence|]. cbn [negb].
    destruct (open_img c f PBOOT) as (P1 & P2). destruct (open_img c f PUPDATE) as (P3 & P4).
    destruct (dmid_holds _ _ _ _ Hk M) as (D1 & D2 & (D3 & D4)).
    assert (Sz : i_size (snd (open_image c f PBOOT)) = zlen T - HDR c).
    { apply (open_size c f PBOOT T); auto; [discriminate|apply hs, G|destruct (g_sect c G); lia|exact (genuine_framed c T vT GT)|].
      intros j Hj Hy. apply D1. lia. }
    set (boot := snd (open_image c f PBOOT)) in *. set (update := snd (open_image c f PUPDATE)) in *.
    change (snd (open_image c f PSWAP)) with (swap_img c).
    apply wpc_bind. apply wpc_bind. pose proof (K_eq c G) as KE.
    replace (PART c - SECT c - SECT c) with (PART c - 2 * SECT c) by zl.
    set (K := (PART c - 2 * SECT c) / SECT c) in *. clearbody K.
    destruct (len_bounds c D T N HN) as (LX & LY).
    assert (MS : forall f', frame f f' (SWAP c) (SECT c) -> dm true k sw f').
    { intros f' Hf. eapply dmid_swap; eauto. }
    assert (Dj : disjoint (BOOT c + K * SECT c) (SECT c) (SWAP c) (SECT c)) by (geo G; zl).
    apply (copy_sector_wpc t c boot (swap_img c) K f _ _ (BOOT c + K * SECT c) (SWAP c) (K * SECT c) 0); auto.
    - rewrite P1. reflexivity.
    - rewrite P2. reflexivity.
    - cbn [swap_img i_hdr]. lia.
    - intros [E|E]; exfalso; geo G; zl.
    - intros [E|E] _; exfalso; geo G; zl.
    - intros f1 Hf1 Hg. apply HC3. exists k, sw. apply MS, Hf1.
    - intros f1 Hf1 Hg Hc. rewrite Sz in Hc.
      pose proof (MS f1 Hf1) as M1. pose proof M1 as (M1b & _ & MC1 & Tr1).
      destruct (dmid_holds _ _ _ _ Hk M1) as (E1 & E2 & E3).
      assert (Sw : swp c f1 T K).
      { split.
        - intros j Hj Hy. rewrite Hc by zl. rewrite (copied_in c G) by (geo G; zl).
          replace (BOOT c + K * SECT c + j) with (BOOT c + (K * SECT c + j)) by zl. apply D1. geo G. zl.
        - intros _. eapply (copied_word c G); [exact Hc|]. intros _. rewrite KE. exact D3. }
      assert (Ef : forall x, (UPDATE c <= x < UPDATE c + PART c) -> f1 x = f x).
      { intros x Hx. apply Hf1. geo G. zl. }
      assert (St1 : f1 (state_addr c PUPDATE) = s).
      { unfold s. apply Ef. rewrite state_addr_eq. cbn [endflags part_addr]. geo G. zl. }
      pose proof (dmid_magic k sw f1 Hk M1) as Mg1.
      assert (FS : forall f2, bytes f2 -> has_magic c f2 PUPDATE = true ->
         (forall x, ~ (state_addr c PUPDATE <= x < magic_addr c PUPDATE + 4) -> f2 x = f1 x) ->
         outside c f1 f2 /\ (f2 (state_addr c PUPDATE) = ST_FINAL -> final c D T f2)).
      { intros f2 B2 Hm2 O2. rewrite state_addr_eq, magic_addr_eq in O2. cbn [endflags part_addr] in O2.
        assert (Q1 : holds f2 (BOOT c) T) by (intros j Hj; rewrite O2 by (geo G; zl); apply E1, Hj).
        assert (Q2 : holds f2 (UPDATE c) D) by (intros j Hj; rewrite O2 by (geo G; zl); apply E2, Hj).
        assert (Q3 : np c f2).
        { destruct E3 as (E3 & E4).
          split; [rewrite (word_ext f2 f1 _ (BOOT c + (PART c - 2 * SECT c)))|
                  rewrite (word_ext f2 f1 _ (UPDATE c + (PART c - 2 * SECT c)))]; auto; intros j Hj; apply O2; geo G; zl. }
        split; [intros x Hx; apply O2; geo G; zl|]. intro Es.
        split; [exact B2|]. split; [unfold get_partition_state; rewrite Hm2, Es; reflexivity|].
        split; [intros j Hj Hy; apply Q1; geo G; zl|]. split; [exact Q2|]. split; [exact Q3|].
        assert (EK : (PART c - 2 * SECT c) / SECT c = K).
        { rewrite <- KE. apply Z.div_mul. destruct (g_sect c G). lia. }
        rewrite EK. destruct Sw as (W1 & W2). split.
        - intros j Hj Hy. rewrite O2 by (geo G; zl). apply W1; assumption.
        - intro E. rewrite (word_ext f2 f1 _ (SWAP c)); [apply W2, E|]. intros j Hj. apply O2. geo G. zl. }
      assert (Mb1 : magicable c f1 PUPDATE) by (apply has_magic_magicable; assumption).
      destruct (run_set_state c f1 PUPDATE ST_FINAL M1b ltac:(unfold is_byte, ST_FINAL; lia) Mb1) as (f2 & R2' & B2 & St2 & O2).
      apply (wpc_intro t _ _ _ f1 tt f2); [exact R2'| |].
      + rewrite St1, S4 in St2.
        assert (Hm2 : has_magic c f2 PUPDATE = true /\ f2 (state_addr c PUPDATE) = ST_FINAL).
        { unfold get_partition_state in St2. destruct (has_magic c f2 PUPDATE); [|discriminate].
          split; [reflexivity|]. inversion St2. reflexivity. }
        destruct Hm2 as (Hm2 & Es2).
        assert (F2 : final c D T f2) by (apply FS; auto).
        pose proof (tail_wpc c D T N G F HN (genuine_framed c T vT GT) boot update f2 C) as TW. unfold tail in TW.
        replace (PART c - SECT c - SECT c) with (PART c - 2 * SECT c) in TW by lia.
        assert (EK : (PART c - 2 * SECT c) / SECT c = K).
        { rewrite <- KE. apply Z.div_mul. destruct (g_sect c G). lia. }
        rewrite EK in TW.
        eapply wpc_conseq; [apply TW; auto| |intros ? K'; exact K'].
        * split; assumption.
        * split; assumption.
        * rewrite Sz. pose proof (gn_len _ _ _ GT). lia.
        * cbn beta. intros b f3 (_ & M3). exact M3.
      + intros f3 Hc3.
        destruct (crash_set_state t c PUPDATE ST_FINAL f1 f3 M1b ltac:(unfold is_byte, ST_FINAL; lia) Mb1 Hc3)
          as (B3 & _ & Hm3 & O3 & Bt3). rewrite St1, S4 in Bt3. specialize (Hm3 Mg1).
        destruct (FS f3 B3 Hm3 O3) as (Ho & F3).
        destruct (Z.eq_dec (f3 (state_addr c PUPDATE)) ST_FINAL) as [Es|Es]; [apply HC1, F3, Es|].
        apply HC3. exists k, sw. split; [exact B3|]. split; [exact Mk|].
        split; [eapply dcont_out; eauto|].
        destruct Tr1 as (_ & Tf1 & Tf2 & Tf3 & Tf4).
        assert (Nb : forall s', 0 <= s' < PART c / SECT c -> nib c f3 s' = nib c f1 s').
        { intros s' Hs'. destruct (sectors_div c s' G F Hs') as (_ & Ha). unfold nib. rewrite O3; [reflexivity|].
          rewrite state_addr_eq. cbn [endflags part_addr]. clear -Ha F; pose proof (fit_own _ F); lia. }
        split; [left; exact Hm3|]. split; [|split; [|split]].
        * intros s' Hs'. rewrite Nb by (clear -Hs' Mk R5; lia). apply Tf1, Hs'.
        * intros s' Hs'. rewrite Nb by (clear -Hs' Mk R5; lia). apply Tf2, Hs'.
        * rewrite Nb by (clear -Mk R5; lia). exact Tf3.
        * assert (PB : get_partition_state c f3 PBOOT = get_partition_state c f1 PBOOT).
          { apply (same_state c f1 f3 PBOOT). intros x Hx. apply O3.
            rewrite state_addr_eq, magic_addr_eq. cbn [endflags part_addr] in *. clear -G F Hx. geo G. zl. }
          unfold dst in *. cbn zeta in *. rewrite PB. destruct inv.
          -- destruct Tf4 as (_ & _ & _ & Tf4). split; [apply Bt3|]. split; [exact Es|]. split; [right; exact Hk|exact Tf4].
          -- left. split; [exact Hm3|]. destruct Tf4 as [(_ & Tf4)|(Tf4 & _)]; [|discriminate].
             rewrite St1 in Tf4. rewrite Tf4 in Bt3.
             destruct (btw_30_70 _ (B3 _) Bt3) as [E|E]; [congruence|exact E].
  Qed.

  (** *** No resumption of the final phase before its time *)
  Lemma dresume_wpc : forall k sw u f (C : flash -> Prop), u <> ST_FINAL -> C f -> dm false k sw f ->
    wpc t (swap_and_final_erase c u true) (fun b f' => b = false /\ f' = f) C f.
  Proof.
    intros k sw u f C Hu HC M. unfold swap_and_final_erase. cbn [wpc]. cbn zeta.
    pose proof M as (_ & _ & (_ & (N1 & _) & _) & (_ & _ & _ & _ & Td)).
    destruct (open_img c f PBOOT) as (_ & P2). rewrite P2. cbn [part_addr].
    replace (PART c - SECT c - SECT c) with (PART c - 2 * SECT c) by zl.
    destruct (Z.eqb_spec (word f (BOOT c + (PART c - 2 * SECT c))) WOLFBOOT_MAGIC_TRAIL) as [E|_]; [contradiction|].
    destruct (dst_final _ _ _ _ Td) as (S3 & _).
    assert (HF : (match get_partition_state c f PUPDATE with Some s => s | None => u end =? ST_FINAL) = false).
    { apply Z.eqb_neq. unfold get_partition_state in *. destruct (has_magic c f PUPDATE); assumption. }
    rewrite HF. cbn [negb andb wpc]. auto.
  Qed.
End DFinal.
