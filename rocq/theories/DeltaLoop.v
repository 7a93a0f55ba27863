(** Installing a delta image: the invariant that survives power failures, and the loop over
    the sectors. *)
From Verif Require Import Base BaseLemmas HeaderModel Flash FlashLemmas ImageModel ImageSpec ImageProofs GenuineProofs
  TrailerModel TrailerProofs TriggerProofs TrailerCrash SwapModel SwapSpec Geometry CopyProofs SwapInv SwapSteps SwapLoop
  DeltaModel DeltaSpec DeltaProofs DeltaUpdateModel DeltaApply.
Local Ltac Zify.zify_post_hook ::= idtac.

Lemma btw_0_7 : forall x, is_nib x -> btw SF_UPDATED SF_SWAPPING x -> x = SF_SWAPPING \/ (x <> SF_NEW /\ x <> SF_SWAPPING).
Proof.
  intros x Hx (H1 & H2).
  pose proof (nib_list_ok (fun x => negb (Z.land x SF_SWAPPING =? x)
     || (x =? SF_SWAPPING) || (negb (x =? SF_NEW) && negb (x =? SF_SWAPPING))) eq_refl x Hx) as K.
  cbn beta in K. lia.
Qed.

Section DLoop.
  Variables (c : cfg) (blk : Z) (i : din) (e : Z) (D T : list Z) (vT N : Z) (inv : bool).
  Hypothesis G : geometry c.
  Hypothesis F : flags_fit c.
  Hypothesis HN : sectors c D T N.
  Hypothesis GT : genuine c T vT.
  Hypothesis HD0 : HDR c < zlen D.
  Hypothesis Hblk : 6 <= blk.
  Hypothesis Hdiv : (blk | SECT c).
  Hypothesis Hsect : d_sect i = SECT c.
  Hypothesis Hsa : 0 < d_sa i <= PART c - SECT c.
  Hypothesis He : zlen T <= e.
  Hypothesis HbT : forall x, 0 <= x < zlen T -> d_b i x = nth (Z.to_nat x) T 0.

  Let t := tear_std c.

  (** What the decoder produces at offset [x], and an erased byte after its end. *)
  Definition tgt (x : Z) : Z := if x <? e then d_b i x else 255.
  Hypothesis HW : word tgt (PART c - 2 * SECT c) <> MT.

  Definition NL : Z := PART c / SECT c - 1.
  Lemma NL_eq : NL * SECT c = PART c - SECT c.
  Proof.
    unfold NL. destruct (g_part c G) as (P & _). destruct (g_sect c G).
    pose proof (Z.div_mod (PART c) (SECT c) ltac:(lia)) as E. rewrite P in E. lia.
  Qed.
  Lemma NL_range : 1 <= NL /\ N <= NL /\ 0 < N /\ NL < 512 /\ NL + 1 = PART c / SECT c /\ NL < PART c.
  Proof.
    pose proof NL_eq as E. destruct HN as (_ & _ & H & _ & H0). destruct F as (_ & F1 & _). geo G.
    assert (1 <= NL) by (apply (Z.mul_le_mono_pos_r _ _ (SECT c)); lia).
    assert (N <= NL) by (apply (Z.mul_le_mono_pos_r _ _ (SECT c)); lia).
    assert (NL + 1 = PART c / SECT c) by (unfold NL; lia).
    assert (NL * 1 <= NL * SECT c) by (apply Z.mul_le_mono_nonneg_l; lia).
    repeat split; lia.
  Qed.

  (** Sectors before [k] replaced, sector [k] in the swap area if [sw]. *)
  Definition pc (k : Z) (sw : bool) (f : flash) : Prop :=
    if k <? N then
      (forall x, 0 <= x < k * SECT c -> x < e -> f (BOOT c + x) = d_b i x) /\
      (forall x, (if sw then k + 1 else k) * SECT c <= x < d_sa i -> f (BOOT c + x) = d_a i x) /\
      (sw = true -> forall j, 0 <= j < SECT c -> f (SWAP c + j) = tgt (k * SECT c + j))
    else holds f (BOOT c) T.

  (** The direction is recorded in the update state: UPDATING forward. *)
  Definition dst (arm : bool) (k : Z) (sw : bool) (f : flash) : Prop :=
    let st := f (state_addr c PUPDATE) in
    if inv then
      Z.land st ST_FINAL = ST_FINAL /\ st <> ST_FINAL /\ (st <> ST_UPDATING \/ N <= k) /\
      (get_partition_state c f PBOOT = Some ST_TESTING \/ (k = NL /\ sw = true))
    else (has_magic c f PUPDATE = true /\ st = ST_UPDATING) \/
         (arm = false /\ k = 0 /\ sw = false /\ get_partition_state c f PBOOT = Some ST_TESTING /\
          Z.land st ST_UPDATING = ST_UPDATING).

  Definition dtrl (arm : bool) (k : Z) (sw : bool) (f : flash) : Prop :=
    (has_magic c f PUPDATE = true \/ (k = 0 /\ sw = false /\ magicable c f PUPDATE)) /\
    (forall s, 0 <= s < k -> nib c f s <> SF_NEW /\ nib c f s <> SF_SWAPPING) /\
    (forall s, k < s < PART c / SECT c -> nib c f s = SF_NEW) /\
    nib c f k = (if sw then SF_SWAPPING else SF_NEW) /\ dst arm k sw f.

  Definition dcont (k : Z) (sw : bool) (f : flash) : Prop := holds f (UPDATE c) D /\ np c f /\ pc k sw f.

  Definition dmid (arm : bool) (k : Z) (sw : bool) (f : flash) : Prop :=
    bytes f /\ 0 <= k <= NL /\ dcont k sw f /\ dtrl arm k sw f.

  Lemma dmid_arm : forall k sw f, dmid true k sw f -> dmid false k sw f.
  Proof.
    intros k sw f (A & B & C & (D1 & D2 & D3 & D4 & D5)). split; [exact A|]. split; [exact B|]. split; [exact C|].
    split; [exact D1|]. split; [exact D2|]. split; [exact D3|]. split; [exact D4|].
    unfold dst in *. destruct inv; [exact D5|]. destruct D5 as [D5|(D5 & _)]; [left; exact D5|discriminate].
  Qed.

  Lemma k_le : forall k, 0 <= k <= NL -> 0 <= k * SECT c <= PART c - SECT c.
  Proof.
    intros k Hk. pose proof NL_eq. geo G. split; [apply Z.mul_nonneg_nonneg; lia|].
    assert (k * SECT c <= NL * SECT c) by (apply Z.mul_le_mono_nonneg_r; lia). lia.
  Qed.
  Lemma k_lt : forall k, 0 <= k < NL -> 0 <= k * SECT c <= PART c - 2 * SECT c.
  Proof. intros k Hk. pose proof (k_le (k + 1) ltac:(lia)). pose proof (k_le k ltac:(lia)). lia. Qed.
  Lemma T_fits : zlen T <= N * SECT c /\ zlen T <= PART c - SECT c /\ zlen D <= PART c - SECT c.
  Proof. destruct HN as (H1 & H2 & H3 & _). lia. Qed.

  (** *** Stability *)

  Lemma dtrl_stable : forall arm k sw f f', 0 <= k <= NL ->
    (forall x, UPDATE c + PART c - SECT c <= x < UPDATE c + PART c -> f' x = f x) ->
    (k = NL /\ sw = true) \/ (forall x, BOOT c + PART c - SECT c <= x < BOOT c + PART c -> f' x = f x) ->
    dtrl arm k sw f -> dtrl arm k sw f'.
  Proof.
    intros arm k sw f f' Hk HU HB (T1 & T2 & T3 & T4 & T5).
    assert (HS : 5 <= SECT c) by (geo G; lia). destruct NL_range as (R1 & R2 & R3 & R4 & R5 & _).
    destruct (same_state c f f' PUPDATE) as (U1 & U2 & U3 & U4); [clear -G F HU; cbn [endflags]; intros; apply HU; geo G; lia|].
    assert (HNb : forall s, 0 <= s < PART c / SECT c -> nib c f' s = nib c f s).
    { intros s Hs. unfold nib. rewrite HU; [reflexivity|]. destruct (sectors_div c s G F Hs) as (_ & K). lia. }
    split; [rewrite U1; tauto|]. split; [intros s Hs; rewrite HNb by lia; apply T2, Hs|].
    split; [intros s Hs; rewrite HNb by lia; apply T3, Hs|]. split; [rewrite HNb by lia; exact T4|].
    unfold dst in *. cbn zeta in *. rewrite U3, U1. destruct HB as [HB|HB].
    - destruct inv; [tauto|]. destruct T5 as [T5|(_ & T5 & _)]; [left; exact T5|]. lia.
    - destruct (same_state c f f' PBOOT) as (_ & B2 & _); [clear -HB HS; cbn [endflags part_addr]; intros; apply HB; lia|]. rewrite B2. exact T5.
  Qed.

  Lemma pc_swap : forall k sw f f', 0 <= k <= NL -> sw = false \/ N <= k -> frame f f' (SWAP c) (SECT c) -> pc k sw f -> pc k sw f'.
  Proof.
    intros k sw f f' Hk Hs (Hb & H) P. pose proof (k_le k Hk). destruct T_fits as (L1 & L2 & L3). geo G.
    unfold pc in *. destruct (Z.ltb_spec k N).
    - destruct Hs as [ -> |Hs]; [|lia]. destruct P as (P1 & P2 & _).
      split; [intros; rewrite H by zl; apply P1; assumption|]. split; [intros; rewrite H by zl; apply P2; assumption|discriminate].
    - intros j Hj. rewrite H by zl. apply P, Hj.
  Qed.

  Lemma np_same : forall f f', (forall x, BOOT c + (PART c - 2 * SECT c) <= x < BOOT c + (PART c - 2 * SECT c) + 4 -> f' x = f x) ->
    (forall x, UPDATE c + (PART c - 2 * SECT c) <= x < UPDATE c + (PART c - 2 * SECT c) + 4 -> f' x = f x) -> np c f -> np c f'.
  Proof.
    intros f f' H1 H2 (N1 & N2). split.
    - rewrite (word_ext f' f _ (BOOT c + (PART c - 2 * SECT c))); auto. intros j Hj. apply H1. lia.
    - rewrite (word_ext f' f _ (UPDATE c + (PART c - 2 * SECT c))); auto. intros j Hj. apply H2. lia.
  Qed.

  Lemma dmid_swap : forall arm k sw f f', sw = false \/ N <= k -> frame f f' (SWAP c) (SECT c) -> dmid arm k sw f -> dmid arm k sw f'.
  Proof.
    intros arm k sw f f' Hs Hf (A & B & (C1 & C2 & C3) & E). pose proof (proj2 Hf) as H. destruct T_fits as (L1 & L2 & L3).
    split; [apply Hf|]. split; [exact B|]. split; [split; [|split]|].
    - intros j Hj. rewrite H by (geo G; zl). apply C1, Hj.
    - apply (np_same f); auto; intros x Hx; apply H; geo G; zl.
    - apply (pc_swap k sw f); auto.
    - apply (dtrl_stable arm k sw f); auto; [intros x Hx; apply H; geo G; zl|right; intros x Hx; apply H; geo G; zl].
  Qed.

  (** Writing in sector [k] of the boot partition. *)
  Lemma dmid_boot : forall arm k s f f', dmid arm k true f -> s = k ->
    frame f f' (BOOT c + s * SECT c) (SECT c) -> (guarded t (BOOT c + s * SECT c) -> word f' (BOOT c + s * SECT c) <> MT) ->
    dmid arm k true f'.
  Proof.
    intros arm k s f f' (A & B & (C1 & C2 & C3) & E) -> Hf Hg. pose proof (proj2 Hf) as H. destruct T_fits as (L1 & L2 & L3).
    pose proof (k_le k B) as KB. pose proof NL_eq as NE. destruct NL_range as (R1 & R2 & R3 & R4 & R5 & _).
    split; [apply Hf|]. split; [exact B|]. split; [split; [|split]|].
    - intros j Hj. rewrite H by (geo G; zl). apply C1, Hj.
    - destruct C2 as (N1 & N2). split.
      + destruct (Z.eq_dec k NL) as [->|Hne].
        * rewrite (word_ext f' f _ (BOOT c + (PART c - 2 * SECT c))); auto. intros j Hj. apply H. geo G. zl.
        * pose proof (k_lt k ltac:(lia)). destruct (sect_le c k G ltac:(lia)) as [Ek|Ek].
          -- rewrite <- Ek. apply Hg. left. lia.
          -- rewrite (word_ext f' f _ (BOOT c + (PART c - 2 * SECT c))); auto. intros j Hj. apply H. geo G. zl.
      + rewrite (word_ext f' f _ (UPDATE c + (PART c - 2 * SECT c))); auto. intros j Hj. apply H. geo G. zl.
    - unfold pc in *. destruct (Z.ltb_spec k N) as [Hk|Hk].
      + destruct C3 as (P1 & P2 & P3). pose proof (k_lt k ltac:(lia)).
        split; [intros x Hx1 Hx2; rewrite H by zl; apply P1; assumption|].
        split; [intros x Hx1; rewrite H by zl; apply P2; assumption|].
        intros _ j Hj. rewrite H by (geo G; zl). apply P3; [reflexivity|exact Hj].
      + assert (N * SECT c <= k * SECT c) by (geo G; apply Z.mul_le_mono_nonneg_r; lia).
        intros j Hj. rewrite H by zl. apply C3, Hj.
    - apply (dtrl_stable arm k true f); auto; [intros x Hx; apply H; geo G; zl|].
      destruct (Z.eq_dec k NL) as [->|Hne]; [left; auto|right].
      pose proof (k_lt k ltac:(lia)). intros x Hx. apply H. zl.
  Qed.

  (** *** Flags *)

  Definition outside (f f' : flash) : Prop :=
    forall x, ~ (UPDATE c + PART c - SECT c <= x < UPDATE c + PART c) -> f' x = f x.

  Lemma dcont_out : forall k sw f f', 0 <= k <= NL -> outside f f' -> dcont k sw f -> dcont k sw f'.
  Proof.
    intros k sw f f' Hk H (C1 & C2 & C3). destruct T_fits as (L1 & L2 & L3). pose proof (k_le k Hk). unfold outside in H.
    split; [|split].
    - intros j Hj. rewrite H by (geo G; zl). apply C1, Hj.
    - apply (np_same f); auto; intros x Hx; apply H; geo G; zl.
    - unfold pc in *. destruct (Z.ltb_spec k N).
      + destruct C3 as (P1 & P2 & P3).
        assert (0 <= (if sw then k + 1 else k) * SECT c) by (destruct sw; geo G; lia).
        split; [intros; rewrite H by (geo G; zl); apply P1; assumption|].
        split; [intros; rewrite H by (geo G; zl); apply P2; assumption|].
        intros; rewrite H by (geo G; zl); apply P3; assumption.
      + intros j Hj. rewrite H by (geo G; zl). apply C3, Hj.
  Qed.

  Definition next_is (k : Z) (sw : bool) (k' : Z) (sw' : bool) (v : Z) : Prop :=
    (sw = false /\ k' = k /\ sw' = true /\ v = SF_SWAPPING) \/
    (sw = true /\ k' = k + 1 /\ sw' = false /\ v = SF_UPDATED /\ k < NL).

  Lemma dflag_step : forall k sw k' sw' v f (C : flash -> Prop),
    (forall f', (exists k sw, dmid true k sw f') -> C f') ->
    next_is k sw k' sw' v -> dmid true k sw f -> dcont k' sw' f ->
    wpc t (set_update_sector_flag c k v) (fun _ f' => dmid true k' sw' f' /\ outside f f') C f.
  Proof.
    intros k sw k' sw' v f C HC Nx (Hb & Hk & D1 & (T1 & T2 & T3 & T4 & T5)) D2.
    destruct NL_range as (R1 & R2 & R3 & R4 & R5 & _). geo G.
    assert (Hm : magicable c f PUPDATE).
    { destruct T1 as [M|(_ & _ & M)]; [apply has_magic_magicable; assumption|exact M]. }
    assert (Hk' : 0 <= k' <= NL) by (destruct Nx as [(_ & -> & _)|(_ & -> & _ & _ & ?)]; lia).
    assert (Hv : is_nib v /\ Z.land (nib c f k) v = v).
    { rewrite T4. destruct Nx as [( -> & _ & _ & -> )|( -> & _ & _ & -> & _)];
        split; (unfold is_nib, SF_SWAPPING, SF_UPDATED; lia) || reflexivity. }
    destruct Hv as (Hv1 & Hv2).
    destruct (sectors_div c k G F ltac:(lia)) as (_ & Hfa).
    assert (Hma : magic_addr c PUPDATE = UPDATE c + PART c - 4) by (rewrite magic_addr_eq, (own_end c PUPDATE F); reflexivity).
    assert (Hsa' : state_addr c PUPDATE = UPDATE c + PART c - 5) by (rewrite state_addr_eq, (own_end c PUPDATE F); reflexivity).
    set (O := fun f' : flash => forall x, x <> flags_addr c (flag_pos k) ->
       ~ (magic_addr c PUPDATE <= x < magic_addr c PUPDATE + 4) -> f' x = f x).
    assert (HO : forall f', O f' -> outside f f') by (intros f' HOx x Hx; apply HOx; zl).
    (* the direction is not affected *)
    assert (HDs : forall f' k1 sw1, O f' -> (has_magic c f PUPDATE = true -> has_magic c f' PUPDATE = true) ->
      (k1 = k /\ sw1 = sw) \/ (k1 = k' /\ sw1 = sw') -> dst true k1 sw1 f').
    { intros f' k1 sw1 Hf' HM K. assert (HS : 5 <= SECT c) by zl.
      destruct (same_state c f f' PBOOT) as (_ & B2 & _).
      { intros x Hx. cbn [endflags part_addr] in Hx. apply Hf'; zl. }
      assert (Es : f' (state_addr c PUPDATE) = f (state_addr c PUPDATE)) by (apply Hf'; zl).
      unfold dst in *. cbn zeta in *. rewrite B2, Es. destruct inv.
      - destruct T5 as (A1 & A2 & A3 & A4). split; [exact A1|]. split; [exact A2|].
        clear -A3 A4 K Nx Hk. unfold next_is in Nx.
        destruct K as [( -> & -> )|( -> & -> )]; [tauto|]. split; [destruct A3; [auto|right; lia]|].
        destruct A4 as [A4|(A4 & A5)]; [auto|]. destruct Nx as [( -> & _)|(_ & _ & _ & _ & ?)]; [discriminate|lia].
      - destruct T5 as [(A1 & A2)|(A1 & _)]; [|discriminate]. left. split; [apply HM, A1|exact A2]. }
    (* trailers after the flag is fully written *)
    assert (HF : forall f', bytes f' -> has_magic c f' PUPDATE = true ->
      (sw = false -> nib c f' k = v) -> (sw = true -> nib c f' k <> SF_NEW /\ nib c f' k <> SF_SWAPPING) ->
      (forall s', 0 <= s' < 512 -> s' <> k -> nib c f' s' = nib c f s') -> O f' -> dmid true k' sw' f').
    { intros f' Hb' HM HV1 HV2 HNb Hf'.
      split; [exact Hb'|]. split; [exact Hk'|].
      split; [apply (dcont_out k' sw' f f' Hk' (HO f' Hf') D2)|].
      split; [left; exact HM|].
      destruct Nx as [( -> & -> & -> & -> )|( -> & -> & -> & -> & Hlt)].
      - split; [intros s Hs; rewrite HNb by zl; apply T2, Hs|].
        split; [intros s Hs; rewrite HNb by zl; apply T3, Hs|]. split; [apply HV1; reflexivity|].
        apply HDs; auto.
      - split.
        + intros s Hs. destruct (Z.eq_dec s k) as [->|Hne]; [apply HV2; reflexivity|]. rewrite HNb by zl. apply T2. zl.
        + split; [intros s Hs; rewrite HNb by zl; apply T3; zl|].
          split; [rewrite HNb by zl; apply T3; zl|]. apply HDs; auto. }
    destruct (run_set_flag c f k v Hb Hv1 Hm Hv2) as (f1 & Hr & B1 & M1 & V1 & O1 & X1).
    apply (wpc_intro t _ _ _ f tt f1); [exact Hr| |].
    - split; [|apply HO; exact X1]. apply HF; auto.
      + intros Es. rewrite V1. destruct Nx as [(E' & _)|(_ & _ & _ & -> & _)]; [congruence|split; discriminate].
      + intros s' Hs' Hne. apply O1; zl.
    - intros f' Hc.
      destruct (crash_set_flag t c k v f f' Hb Hv1 Hm ltac:(zl) Hv2 Hc) as (C1 & C2 & C3 & C4 & C5 & C6 & C7).
      assert (Hni : is_nib (nib c f' k)) by (apply nibv_range; apply C1).
      apply HC. clear HC.
      assert (HOld : nib c f' k = (if sw then SF_SWAPPING else SF_NEW) -> exists k sw, dmid true k sw f').
      { intro E. exists k, sw. split; [exact C1|]. split; [exact Hk|].
        split; [apply (dcont_out k sw f f' Hk (HO f' C7) D1)|].
        split; [destruct T1 as [M|(M1' & M2 & M3)]; [left; apply C3, M|right; auto]|].
        split; [intros s Hs; rewrite C6 by zl; apply T2, Hs|].
        split; [intros s Hs; rewrite C6 by zl; apply T3, Hs|]. split; [exact E|]. apply HDs; auto. }
      assert (HNew : nib c f' k <> (if sw then SF_SWAPPING else SF_NEW) -> (sw = false -> nib c f' k = v) ->
        (sw = true -> nib c f' k <> SF_NEW /\ nib c f' k <> SF_SWAPPING) -> exists k sw, dmid true k sw f').
      { intros E E1 E2. exists k', sw'. rewrite <- T4 in E. apply HF; auto. }
      clear V1 O1 X1 M1 B1. rewrite T4 in C5.
      destruct Nx as [( -> & -> & -> & -> )|( -> & -> & -> & -> & Hlt)].
      + destruct (btw_7_15 _ Hni C5) as [E|E]; [auto|]. apply HNew; [rewrite E; discriminate|auto|discriminate].
      + destruct (btw_0_7 _ Hni C5) as [E|E]; [auto|]. apply HNew; [apply E|congruence|auto].
  Qed.

  (** *** Installing a sector from the swap area *)

  Lemma install_wpc : forall boot k f (C : flash -> Prop),
    (forall f', (exists k sw, dmid true k sw f') -> C f') ->
    boot_img c boot -> dmid true k true f ->
    (k < NL -> (forall j, 0 <= j < SECT c -> f (SWAP c + j) = tgt (k * SECT c + j)) /\
       (forall x, 0 <= x < k * SECT c -> x < e -> f (BOOT c + x) = d_b i x) /\
       (forall x, (k + 1) * SECT c <= x < d_sa i -> f (BOOT c + x) = d_a i x)) ->
    wpc t (copy_sector c (swap_img c) boot k ;; store_flag c k SF_UPDATED)
      (fun _ f' => if k <? NL then dmid true (k + 1) false f' /\ midway i e (k + 1) (from f' (BOOT c)) else dmid true k true f') C f.
  Proof.
    intros boot k f C HC (HB1 & HB2) M Hcon. pose proof M as (Mb & Mk & (M1 & (M2 & M2') & M3) & MT').
    pose proof (k_le k Mk) as KB. pose proof NL_eq as NE. destruct NL_range as (R1 & R2 & R3 & R4 & R5 & _).
    apply wpc_bind.
    apply (copy_sector_wpc t c (swap_img c) boot k f _ _ (SWAP c) (BOOT c + k * SECT c) 0 (k * SECT c)); auto.
    - rewrite HB1. reflexivity.
    - cbn [swap_img i_hdr]. lia.
    - rewrite HB2. reflexivity.
    - geo G. zl.
    - intros [E|E]; [rewrite E; exact M2|geo G; zl].
    - intros [E|E] _; [|geo G; zl]. assert (Ek : k * SECT c = PART c - 2 * SECT c) by lia.
      assert (k < NL) by (apply (Z.mul_lt_mono_pos_r (SECT c)); geo G; lia).
      destruct (Hcon ltac:(assumption)) as (K1 & _). intro E2. apply HW. rewrite <- E2, <- Ek.
      apply word_ext. intros j Hj. symmetry. apply K1. geo G; lia.
    - intros f' Hf Hg. apply HC. exists k, true. eapply dmid_boot; eauto.
    - intros f' Hf Hg Hc. assert (M' : dmid true k true f') by (eapply dmid_boot; eauto).
      unfold store_flag. destruct (Z.ltb_spec k NL) as [Hlt|Hge].
      2:{ assert (k = NL) by lia. subst k.
          destruct (Z.ltb_spec ((NL + 1) * SECT c) (PART c)); [lia|]. cbn [wpc]. split; [apply HC; eauto|exact M']. }
      destruct (Hcon Hlt) as (K1 & K2 & K3). pose proof (k_lt k ltac:(lia)) as KL.
      rewrite (proj2 (Z.ltb_lt ((k + 1) * SECT c) (PART c)))
        by (clear -KL G; destruct (g_sect c G); rewrite Z.mul_add_distr_r; lia).
      pose proof (proj2 Hf) as H.
      assert (HB : forall x, 0 <= x < (k + 1) * SECT c -> x < e -> f' (BOOT c + x) = d_b i x).
      { intros x Hx Hxe. destruct (Z.ltb_spec x (k * SECT c)) as [Hl|Hl].
        - rewrite H by zl. apply K2; zl.
        - replace (BOOT c + x) with (BOOT c + k * SECT c + (x - k * SECT c)) by lia.
          rewrite Hc by lia. rewrite (copied_in c G) by (cbn [i_size swap_img]; geo G; zl).
          rewrite K1 by lia. unfold tgt. replace (k * SECT c + (x - k * SECT c)) with x by lia.
          rewrite (proj2 (Z.ltb_lt _ _) Hxe). reflexivity. }
      assert (HA : forall x, (k + 1) * SECT c <= x < d_sa i -> f' (BOOT c + x) = d_a i x).
      { intros x Hx. rewrite H by zl. apply K3, Hx. }
      eapply wpc_post; [apply (dflag_step k true (k + 1) false SF_UPDATED f' C HC); auto|].
      + right. auto.
      + destruct M' as (_ & _ & (Q1 & Q2 & _) & _). split; [exact Q1|]. split; [exact Q2|].
        unfold pc. destruct (Z.ltb_spec (k + 1) N); [split; [exact HB|split; [exact HA|discriminate]]|].
        destruct T_fits as (L1 & L2 & L3).
        assert (LN : N * SECT c <= (k + 1) * SECT c)
          by (apply Z.mul_le_mono_nonneg_r; [destruct (g_sect c G); lia|assumption]).
        intros j Hj. rewrite HB; [apply HbT, Hj| |]; clear -Hj LN L1 He; lia.
      + cbn beta. intros _ f2 _ (M2f & Ho). split; [exact M2f|]. unfold outside in Ho. unfold from, midway. rewrite Hsect. split.
        * intros x Hx Hxe. rewrite Ho by (geo G; zl). apply HB; auto.
        * intros x Hx. rewrite Ho by (geo G; zl). apply HA; auto.
  Qed.

  (** *** The loop *)

  Variables (boot update : image) (pt : Z -> Z) (poff psz : Z).
  Hypothesis Hpt : bytes pt.
  Hypothesis Hpsz : 0 <= psz.
  Hypothesis Hpoff : 0 <= poff /\ poff + psz <= zlen D.
  Hypothesis HptD : forall j, 0 <= j < psz -> pt j = nth (Z.to_nat (poff + j)) D 0.
  Hypothesis HB : boot_img c boot.
  Hypothesis HU : update_img c update.

  Lemma pt_same : forall f f', frame f f' (SWAP c) (SECT c) -> holds f (UPDATE c) D ->
    forall j, 0 <= j < psz -> from f' (i_hdr update + poff) j = pt j.
  Proof.
    intros f f' Hf H j Hj. destruct HU as (_ & HU2). rewrite HU2. unfold from.
    destruct T_fits as (L1 & L2 & L3). rewrite (proj2 Hf) by (geo G; zl). rewrite HptD by exact Hj.
    rewrite <- Z.add_assoc. apply H. lia.
  Qed.

  Lemma midway_frame : forall k f f', 0 <= k <= NL -> frame f f' (SWAP c) (SECT c) ->
    midway i e k (from f (BOOT c)) -> midway i e k (from f' (BOOT c)).
  Proof.
    intros k f f' Hk Hf (M1 & M2). pose proof (k_le k Hk). unfold from, midway in *. rewrite Hsect in *. split.
    - intros x Hx Hxe. rewrite (proj2 Hf) by (geo G; zl). apply M1; assumption.
    - intros x Hx. rewrite (proj2 Hf) by (geo G; zl). apply M2; assumption.
  Qed.

  Lemma fuel_ok : SECT c - 0 < 6 * Z.of_nat (Z.to_nat (SECT c)).
  Proof. geo G. lia. Qed.

  (** Skipping over a sector already produced. *)
  Lemma consume_wpc : forall full k x ts f (C : flash -> Prop) (Q : option pctx -> flash -> Prop), 0 <= k -> bytes f ->
    holds f (UPDATE c) D -> dec i e pt psz full (k * SECT c) x ts -> C f ->
    (forall x' ts', dec i e pt psz full ((k + 1) * SECT c) x' ts' -> Q (Some x') f) ->
    wpc t (patch_sector (Z.to_nat (SECT c)) c blk boot update (swap_img c) poff psz false 0 x) Q C f.
  Proof.
    intros full k x ts f C Q Hk Hb HD Hdec HC HQ.
    apply (patch_sector_wpc c blk i e boot update (swap_img c) pt poff psz Hblk Hdiv Hsect ltac:(geo G; lia) Hpt Hpsz eq_refl
             t full false k f Q C Hk) with (ts := ts); auto.
    - intros f' Hf. apply (pt_same f f' Hf HD).
    - discriminate.
    - intros f' E _. rewrite E by reflexivity. exact HC.
    - intros f' x' ts' E _ Hd _. rewrite E by reflexivity. eapply HQ; eauto.
    - rewrite Z.add_0_r. exact Hdec.
    - geo G. lia.
    - left. apply Z.divide_0_r.
    - left. apply fuel_ok.
    - apply frame_refl, Hb.
    - discriminate.
  Qed.

  (** Producing a sector in the swap area. *)
  Lemma produce_wpc : forall full k x ts f (C : flash -> Prop) (Q : option pctx -> flash -> Prop), 0 <= k <= NL -> bytes f ->
    holds f (UPDATE c) D -> dec i e pt psz full (k * SECT c) x ts ->
    (full = true -> midway i e k (from f (BOOT c))) ->
    (forall f', frame f f' (SWAP c) (SECT c) -> C f') ->
    (forall f' x' ts', frame f f' (SWAP c) (SECT c) -> dec i e pt psz full ((k + 1) * SECT c) x' ts' ->
       (full = true -> forall j, 0 <= j < SECT c -> f' (SWAP c + j) = tgt (k * SECT c + j)) -> Q (Some x') f') ->
    wpc t (Er (SWAP c) (SECT c) (patch_sector (Z.to_nat (SECT c)) c blk boot update (swap_img c) poff psz true 0 x)) Q C f.
  Proof.
    intros full k x ts f C Q Hk Hb HD Hdec Hmid HC HQ. cbn [wpc].
    split; [apply HC, frame_refl, Hb|]. split; [intros f' Te; apply HC; eapply frame_torn_erase; exact Te|].
    assert (Fe : frame f (erase f (SWAP c) (SECT c)) (SWAP c) (SECT c)) by apply frame_erase, Hb.
    assert (FT : forall f', frame (erase f (SWAP c) (SECT c)) f' (SWAP c) (SECT c) -> frame f f' (SWAP c) (SECT c))
      by (intros f' Hf; eapply frame_trans; eauto).
    apply (patch_sector_wpc c blk i e boot update (swap_img c) pt poff psz Hblk Hdiv Hsect ltac:(geo G; lia) Hpt Hpsz eq_refl
             t full true k (erase f (SWAP c) (SECT c)) Q C ltac:(lia)) with (ts := ts); auto.
    - intros f' Hf. apply (pt_same f f'); auto.
    - intros Fu _ f' Hf. destruct HB as (_ & HB2). rewrite HB2. apply (midway_frame k f); auto.
    - intros f' x' ts' _ Hf Hd Hcon. apply (HQ f' x' ts'); auto. intro Fu. exact (Hcon eq_refl Fu).
    - rewrite Z.add_0_r. exact Hdec.
    - geo G. lia.
    - left. apply Z.divide_0_r.
    - left. apply fuel_ok.
    - apply frame_refl, Fe.
    - intros _. split; [intros _ j Hj; lia|]. intros j Hj. apply erase_in. lia.
  Qed.

  (** Either the decoder is on the right track, or nothing is left to produce. *)
  Definition active (full : bool) (k : Z) (sw : bool) (f : flash) : Prop :=
    full = true /\ ((sw = false /\ midway i e k (from f (BOOT c))) \/ (sw = true /\ k < N)).

  Lemma d_flag_some : forall k sw f, dmid true k sw f ->
    match get_update_sector_flag c f k with None => true | Some fl => fl =? SF_NEW end = negb sw /\
    match get_update_sector_flag c f k with None => false | Some fl => fl =? SF_SWAPPING end = sw.
  Proof.
    intros k sw f (_ & _ & _ & (T1 & _ & _ & T4 & _)). rewrite get_flag_nib.
    destruct (has_magic c f PUPDATE).
    - rewrite T4. destruct sw; split; reflexivity.
    - destruct T1 as [T1|(_ & -> & _)]; [discriminate|]. split; reflexivity.
  Qed.
  Lemma d_flag_done : forall k sw f s, dmid true k sw f -> 0 <= s < k ->
    match get_update_sector_flag c f s with None => true | Some fl => fl =? SF_NEW end = false /\
    match get_update_sector_flag c f s with None => false | Some fl => fl =? SF_SWAPPING end = false.
  Proof.
    intros k sw f s (_ & _ & _ & (T1 & T2 & _)) Hs. rewrite get_flag_nib.
    destruct T1 as [T1|(E & _)]; [|lia]. rewrite T1. destruct (T2 s Hs) as (A & B).
    split; apply Z.eqb_neq; assumption.
  Qed.

  Lemma boot_size : forall k sw f, dmid true k sw f -> 1 <= k -> image_size f (BOOT c) = zlen T - HDR c.
  Proof.
    intros k sw f (_ & Hk & (_ & _ & P) & _) H1.
    assert (R : rng f (part_addr c PBOOT) T 0 8).
    { cbn [part_addr]. intros j Hj HjT. unfold pc in P. destruct (k <? N).
      - destruct P as (P & _). rewrite P; [apply HbT; lia| |lia]. split; [lia|].
        geo G. assert (1 * SECT c <= k * SECT c) by (apply Z.mul_le_mono_nonneg_r; lia). lia.
      - apply P. lia. }
    pose proof (open_size c f PBOOT T ltac:(discriminate) (hs c G) ltac:(geo G; lia) (genuine_framed c T vT GT) R) as E.
    destruct GT. unfold open_image in E. cbn zeta in E. cbn [part_addr] in E, R. unfold image_size in *.
    destruct (negb (word f (BOOT c) =? WOLFBOOT_MAGIC)) eqn:E1; cbn [snd i_size] in E; [lia|].
    destruct (word f (BOOT c + 4) >? PART c - HDR c) eqn:E2; cbn [snd i_size] in E; [|exact E]. geo G. lia.
  Qed.

  Definition maxTD : Z := Z.max (zlen T) (zlen D).
  Lemma maxTD_N : (N - 1) * SECT c < maxTD <= N * SECT c.
  Proof. destruct HN as (H1 & H2 & _ & H4 & _). unfold maxTD. lia. Qed.

  Lemma delta_loop_wpc : forall (C : flash -> Prop), (forall f', (exists k sw, dmid true k sw f') -> C f') ->
    forall fuel full x ts sector k sw tot f,
    dmid true k sw f -> 0 <= sector -> dec i e pt psz full (sector * SECT c) x ts ->
    sector <= k \/ (k = NL /\ sw = true /\ sector = NL + 1) ->
    NL + 1 - sector <= Z.of_nat fuel -> 0 < tot <= PART c ->
    (1 <= sector -> maxTD <= tot) -> zlen D <= tot ->
    active full k sw f \/ Z.max tot (zlen T) <= k * SECT c ->
    wpc t (delta_loop fuel c blk boot update (swap_img c) poff psz tot sector x)
      (fun r f' => exists s k' sw', r = Some s /\ dmid true k' sw' f' /\ N <= s /\ N <= k') C f.
  Proof.
    intros C HC. pose proof NL_eq as NE. destruct NL_range as (R1 & R2 & R3 & R4 & R5 & R6).
    destruct T_fits as (L1 & L2 & L3).
    assert (Lend : forall sector k sw tot f, dmid true k sw f -> sector <= k \/ (k = NL /\ sw = true /\ sector = NL + 1) ->
      0 < tot -> 0 <= sector -> (1 <= sector -> maxTD <= tot) -> tot <= sector * SECT c ->
      wpc t (Ret (Some sector)) (fun r f' => exists s k' sw', r = Some s /\ dmid true k' sw' f' /\ N <= s /\ N <= k') C f).
    { intros sector k sw tot f M Hs Ht H0 Hm Hl. cbn [wpc]. split; [apply HC; eauto|].
      assert (1 <= sector) by (destruct (Z.eq_dec sector 0) as [->|]; lia).
      assert (N <= sector).
      { pose proof maxTD_N. specialize (Hm ltac:(lia)). assert (N - 1 < sector); [|lia].
        apply (Z.mul_lt_mono_pos_r (SECT c)); geo G; lia. }
      exists sector, k, sw. split; [reflexivity|]. split; [exact M|]. split; [lia|]. lia. }
    induction fuel as [|fuel IH]; intros full x ts sector k sw tot f M H0 Hd Hs Hfu Ht Hm HtD Hact; cbn [delta_loop].
    - assert (PART c <= sector * SECT c).
      { assert ((NL + 1) * SECT c <= sector * SECT c) by (geo G; apply Z.mul_le_mono_nonneg_r; lia). lia. }
      destruct (Z.ltb_spec (sector * SECT c) tot); [lia|]. apply (Lend sector k sw tot f M Hs); auto; lia.
    - destruct (Z.ltb_spec (sector * SECT c) tot) as [HL|HL]; [|apply (Lend sector k sw tot f M Hs); auto; lia].
      assert (Hsn : sector <= NL).
      { assert (sector < NL + 1); [|lia]. apply (Z.mul_lt_mono_pos_r (SECT c)); geo G; lia. }
      destruct Hs as [Hs|(_ & _ & Hs)]; [|lia].
      pose proof M as (Mb & Mk & (M1 & M2 & M3) & MT').
      (* what follows the sector *)
      assert (Rest : forall full' x' ts' k' sw' f', dmid true k' sw' f' -> dec i e pt psz full' ((sector + 1) * SECT c) x' ts' ->
         sector + 1 <= k' \/ (k' = NL /\ sw' = true /\ sector + 1 = NL + 1) ->
         active full' k' sw' f' \/ Z.max tot (zlen T) <= k' * SECT c \/ (k' = NL /\ sw' = true /\ sector = NL) ->
         wpc t (if sector =? 0 then
            Rd (fun f =>
              let update_size := (image_size f (BOOT c) + HDR c) mod 2 ^ 32 in
              let total := if update_size >? tot then update_size else tot in
              if total <=? HDR c then Ret None
              else if total >? PART c then Ret None
              else delta_loop fuel c blk boot update (swap_img c) poff psz total (sector + 1) x')
          else delta_loop fuel c blk boot update (swap_img c) poff psz tot (sector + 1) x')
          (fun r f' => exists s k' sw', r = Some s /\ dmid true k' sw' f' /\ N <= s /\ N <= k') C f').
      { intros full' x' ts' k' sw' f' M' Hd' Hs' Ha'.
        destruct (Z.eq_dec sector NL) as [En|En].
        - (* that was the last sector *)
          destruct (Z.eqb_spec sector 0); [lia|].
          assert (Hl : tot <= (sector + 1) * SECT c) by lia.
          destruct fuel; cbn [delta_loop]; (destruct (Z.ltb_spec ((sector + 1) * SECT c) tot); [lia|]); apply (Lend (sector + 1) k' sw' tot f' M' Hs'); try lia; (intros _; apply Hm; lia).
        - assert (Ha2 : active full' k' sw' f' \/ Z.max tot (zlen T) <= k' * SECT c)
            by (destruct Ha' as [?|[?|(_ & _ & ?)]]; [auto|auto|lia]).
          destruct (Z.eqb_spec sector 0) as [E0|E0].
          + subst sector. cbn [wpc]. cbn zeta.
            rewrite (boot_size k' sw' f' M' ltac:(lia)). replace (zlen T - HDR c + HDR c) with (zlen T) by lia.
            rewrite Z.mod_small by (geo G; pose proof (zlen_nonneg T); lia).
            set (tot' := if zlen T >? tot then zlen T else tot).
            assert (Et : tot' = Z.max tot (zlen T)) by (unfold tot'; destruct (Z.gtb_spec (zlen T) tot); lia).
            pose proof (gn_len _ _ _ GT) as LT.
            destruct (Z.leb_spec tot' (HDR c)); [lia|]. destruct (Z.gtb_spec tot' (PART c)); [geo G; lia|].
            eapply (IH full' x' ts' (0 + 1) k' sw' tot' f'); eauto; try lia.
            * intros _. unfold maxTD. lia.
            * destruct Ha2 as [Ha2|Ha2]; [left; exact Ha2|right; lia].
          + eapply (IH full' x' ts' (sector + 1) k' sw' tot f'); eauto; try lia. }
      cbn [get bind wpc].
      destruct (Z.eq_dec sector k) as [Ek|Ek].
      + (* the current sector *)
        subst k. destruct (d_flag_some sector sw f M) as (F1 & F2). rewrite F1, F2.
        assert (Hac : active full sector sw f) by (destruct Hact as [Ha|Ha]; [exact Ha|lia]). clear Hact F1 F2.
        destruct Hac as (-> & Hac). destruct Hac as [(-> & Hmid)|(-> & Hkn)]; cbn [negb orb].
        * (* produce *)
          apply wpc_bind. cbn [bind].
          assert (HCs : forall f', frame f f' (SWAP c) (SECT c) -> C f').
          { intros f' Hf. apply HC. exists sector, false. eapply dmid_swap; eauto. }
          change (i_hdr (swap_img c)) with (SWAP c).
          pose proof (produce_wpc true sector x ts f C
            (fun r f1 => exists x1 ts1, r = Some x1 /\ frame f f1 (SWAP c) (SECT c) /\
               dec i e pt psz true ((sector + 1) * SECT c) x1 ts1 /\
               forall j, 0 <= j < SECT c -> f1 (SWAP c + j) = tgt (sector * SECT c + j)) ltac:(lia) Mb M1 Hd (fun _ => Hmid) HCs) as W.
          assert (W' := W (fun f' x' ts' a b cc => ex_intro _ x' (ex_intro _ ts' (conj eq_refl (conj a (conj b (cc eq_refl))))))).
          clear W. cbn [wpc] in W' |- *. destruct W' as (W1 & W2 & W3). split; [exact W1|]. split; [exact W2|].
          apply wpc_bind. eapply wpc_post; [exact W3|]. cbn beta. clear W1 W2 W3.
          intros r f1 _ (x1 & ts1 & -> & Hf1 & Hd1 & Hc1).
          assert (Mf1 : dmid true sector false f1) by (eapply dmid_swap; eauto).
          assert (Mid1 : midway i e sector (from f1 (BOOT c))) by (apply (midway_frame sector f); auto; lia).
          apply wpc_bind.
          eapply wpc_post; [apply (dflag_step sector false sector true SF_SWAPPING f1 C HC); auto|].
          { left. auto. }
          { destruct Mf1 as (_ & _ & (Q1 & Q2 & Q3) & _). split; [exact Q1|]. split; [exact Q2|].
            unfold pc in *. destruct (sector <? N); [|exact Q3]. destruct Q3 as (Q3 & Q4 & _).
            split; [exact Q3|]. split; [intros y Hy; apply Q4; geo G; lia|]. intros _. exact Hc1. }
          cbn beta. intros _ f2 _ (Mf2 & Ho2). cbn [wpc]. split; [apply HC; eauto|].
          unfold outside in Ho2. apply wpc_bind.
          eapply wpc_post; [apply (install_wpc boot sector f2 C HC HB Mf2)|].
          { intro Hlt. pose proof (k_lt sector ltac:(lia)). destruct Mid1 as (Q1 & Q2). unfold from in Q1, Q2. rewrite Hsect in Q1, Q2.
            split; [|split].
            - intros j Hj. rewrite Ho2 by (geo G; zl). apply Hc1, Hj.
            - intros y Hy Hye. rewrite Ho2 by (geo G; zl). apply Q1; assumption.
            - intros y Hy. rewrite Ho2 by (geo G; zl). apply Q2. lia. }
          cbn beta. intros _ f3 _ K3. destruct (Z.ltb_spec sector NL) as [Hlt|Hge].
          -- destruct K3 as (K3 & K4). apply (Rest true x1 ts1 (sector + 1) false f3); auto; [left; lia|].
             left. split; auto.
          -- assert (sector = NL) by lia. apply (Rest true x1 ts1 sector true f3); auto.
             right. split; [lia|split; [reflexivity|lia]].
        * (* the sector was already produced *)
          apply wpc_bind.
          apply (consume_wpc true sector x ts f C); auto; [apply HC; eauto|].
          intros x1 ts1 Hd1. apply wpc_bind.
          eapply wpc_post; [apply (install_wpc boot sector f C HC HB M)|].
          { intros _. unfold pc in M3. rewrite (proj2 (Z.ltb_lt _ _) Hkn) in M3. destruct M3 as (Q1 & Q2 & Q3).
            split; [apply Q3; reflexivity|]. split; [exact Q1|exact Q2]. }
          cbn beta. intros _ f3 _ K3. destruct (Z.ltb_spec sector NL) as [Hlt|Hge]; [|lia].
          destruct K3 as (K3 & K4). apply (Rest true x1 ts1 (sector + 1) false f3); auto; [left; lia|].
          left. split; auto.
      + (* a sector installed earlier *)
        destruct (d_flag_done k sw f sector M ltac:(lia)) as (F1 & F2). rewrite F1, F2. cbn [orb].
        apply wpc_bind.
        apply (consume_wpc full sector x ts f C); auto; [apply HC; eauto|].
        intros x1 ts1 Hd1. cbn [bind]. apply (Rest full x1 ts1 k sw f); auto; [left; lia|].
        destruct Hact; auto.
  Qed.
End DLoop.
