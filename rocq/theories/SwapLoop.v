(** The whole swap: loop over the sectors, erasure of the rest, final erase and resume. *)
From Verif Require Import Base BaseLemmas HeaderModel Flash FlashLemmas ImageModel ImageSpec ImageProofs
  GenuineProofs TrailerModel TrailerProofs TriggerProofs TrailerCrash SwapModel SwapSpec Geometry CopyProofs
  SwapInv SwapSteps.
Local Ltac Zify.zify_post_hook ::= idtac.

(** ** Opening images *)

Lemma open_img : forall c f p, i_part (snd (open_image c f p)) = p /\ i_hdr (snd (open_image c f p)) = part_addr c p.
Proof.
  intros. unfold open_image. destruct p; cbn [part_addr snd i_part i_hdr]; auto;
  repeat match goal with |- context [if ?b then _ else _] => destruct b end; auto.
Qed.

Lemma open_size_ge : forall c f p, bytes f -> 0 <= HDR c <= PART c -> 0 <= SECT c -> 0 <= i_size (snd (open_image c f p)).
Proof.
  intros c f p Hb Hh Hs. unfold open_image. destruct p; cbn [snd i_size]; auto;
    (destruct (negb _); [cbn [snd i_size]; lia|]);
    (match goal with |- context [image_size f ?a >? ?b] => destruct (Z.gtb_spec (image_size f a) b) end);
    cbn [snd i_size]; try lia; unfold image_size; apply word_range; assumption.
Qed.

Lemma genuine_framed : forall c X v, genuine c X v -> framed c X.
Proof. intros c X v []. constructor; assumption. Qed.

Lemma open_size : forall c f p X, p <> PSWAP -> hdr_small c -> 0 <= SECT c -> framed c X ->
  rng f (part_addr c p) X 0 8 -> i_size (snd (open_image c f p)) = zlen X - HDR c.
Proof.
  intros c f p X Hp (Hh1 & _) Hs G R. destruct G.
  assert (HL : (8 <= length X)%nat) by (unfold zlen in *; lia).
  assert (Hold : holds f (part_addr c p) (firstn 8 X)).
  { intros i Hi. unfold zlen in Hi. rewrite firstn_length, Nat.min_l in Hi by lia.
    rewrite R by (unfold zlen; lia). rewrite <- (firstn_skipn 8 X) at 1. apply app_nth1.
    rewrite firstn_length. lia. }
  assert (E1 : word f (part_addr c p) = WOLFBOOT_MAGIC).
  { rewrite <- fr_magic, word_rdl. replace (part_addr c p) with (part_addr c p + Z.of_nat 0) by lia.
    rewrite (holds_sub f _ (firstn 8 X) 0 4 Hold) by (rewrite firstn_length; lia).
    unfold sub. cbn [skipn]. rewrite firstn_firstn. reflexivity. }
  assert (E2 : word f (part_addr c p + 4) = zlen X - HDR c).
  { rewrite <- fr_size, word_rdl. change 4 with (Z.of_nat 4).
    rewrite (holds_sub f _ (firstn 8 X) 4 4 Hold) by (rewrite firstn_length; lia).
    unfold sub. rewrite skipn_firstn_comm, firstn_firstn. reflexivity. }
  unfold open_image. cbn zeta. rewrite E1, Z.eqb_refl. unfold image_size. rewrite E2. cbn [negb].
  destruct (Z.gtb_spec (zlen X - HDR c) (PART c - HDR c)); [lia|].
  destruct p; [reflexivity|reflexivity|congruence].
Qed.

Lemma get_type_val : forall c f p, bytes f -> hdr_small c -> exists ty, get_image_type c f p = Val ty.
Proof.
  intros c f p Hb Hh. unfold get_image_type. cbn zeta. destruct (negb _); [eauto|].
  destruct (get_header_val c f (part_addr c p) HDR_IMG_TYPE Hb Hh) as (r & E & _). rewrite E.
  destruct r as [[o n]|]; cbn [obind]; [destruct (n =? 0)%nat|]; eauto.
Qed.

(** Wherever the first eight bytes of [X] are, an image of size [b] is opened, which covers [X]. *)
Record opens (c : cfg) (X : list Z) (b : Z) : Prop := {
  op_size : forall f p, p <> PSWAP -> rng f (part_addr c p) X 0 8 -> i_size (snd (open_image c f p)) = b;
  op_cover : zlen X <= b + HDR c;
  op_pos : 0 <= b }.

Lemma framed_opens : forall c X, hdr_small c -> 0 <= SECT c -> framed c X -> opens c X (zlen X - HDR c).
Proof.
  intros c X Hh Hs FX. pose proof (fr_len c X FX). constructor; [|lia|lia].
  intros f p Hp R. apply open_size; auto.
Qed.

Section Loop.
  Variables (c : cfg) (X Y : list Z) (bX N : Z).
  Hypothesis G : geometry c.
  Hypothesis F : flags_room c.
  Hypothesis HN : sectors c X Y N.
  Hypothesis OX : opens c X bX.
  Hypothesis HbX : bX + HDR c <= N * SECT c.
  Hypothesis GY : framed c Y.

  Let t := tear_std c.

  Lemma hs : hdr_small c.
  Proof. destruct (g_hdr c G). unfold hdr_small. lia. Qed.
  Lemma HY0 : HDR c < zlen Y. Proof. apply GY. Qed.

  Lemma N_bound : N < PART c /\ N * SECT c <= PART c - SECT c /\ 0 < N.
  Proof.
    destruct HN as (_ & _ & H & _ & ?). geo G. split; [|lia].
    assert (N * 1 <= N * SECT c) by (apply Z.mul_le_mono_nonneg_l; lia). lia.
  Qed.

  (** *** The swap loop *)

  Definition total : Z := if zlen Y >? bX + HDR c then zlen Y else bX + HDR c.

  Lemma total_bounds : (N - 1) * SECT c < total <= N * SECT c.
  Proof. destruct HN as (H1 & H2 & _ & H4 & _). pose proof (op_cover c X bX OX). unfold total. destruct (Z.gtb_spec (zlen Y) (bX + HDR c)); lia. Qed.

  Lemma total_size : forall boot update, i_size boot = bX -> i_size update = zlen Y - HDR c ->
    get_total_size c boot update = total.
  Proof.
    intros boot update E1 E2. unfold get_total_size, total. rewrite E1, E2.
    replace (zlen Y - HDR c + HDR c) with (zlen Y) by lia.
    reflexivity.
  Qed.

  Lemma loop_wpc : forall d fuel boot update tot sector k ph f (C : flash -> Prop),
    (forall f', (exists k ph, mid c X Y N d k ph f') -> C f') ->
    boot_img c boot -> update_img c update -> mid c X Y N d k ph f -> 0 <= sector <= k ->
    N - sector <= Z.of_nat fuel ->
    (1 <= sector -> i_size boot = bX /\ i_size update = zlen Y - HDR c /\ tot = total) ->
    (sector = 0 -> 0 < tot /\ (k = 0 -> (ph <> Bak -> i_size boot = bX) /\
                                       (ph = New -> i_size update = zlen Y - HDR c))) ->
    wpc t (swap_loop fuel c boot update (swap_img c) tot sector) (fun s f' => s = N /\ mid c X Y N d N New f') C f.
  Proof.
    intros d fuel. induction fuel as [|fuel IH]; intros boot update tot sector k ph f C HC HB HU M Hs Hf H1 H0;
      cbn [swap_loop]; pose proof M as (Mb & Mk & Mp & MD & MT').
    - (* no fuel left: the loop is over *)
      assert (Hsk : sector = N /\ k = N /\ ph = New).
      { destruct N_bound as (_ & _ & ?).
        assert (sector = N) by (cbn in Hf; lia). assert (k = N) by lia. repeat split; auto.
        destruct ph; auto; assert (k < N) by (apply Mp; discriminate); lia. }
      destruct Hsk as (-> & -> & ->).
      destruct N_bound as (_ & _ & ?). destruct (H1 ltac:(lia)) as (_ & _ & ->).
      destruct (Z.ltb_spec (N * SECT c) total); [pose proof total_bounds; lia|].
      cbn [wpc]. split; [apply HC; eauto|auto].
    - destruct (Z.ltb_spec (sector * SECT c) tot) as [HL|HL].
      + assert (Hsn : sector < N).
        { destruct (Z.eq_dec sector 0) as [->|Hne]; [apply N_bound|].
          destruct (H1 ltac:(lia)) as (_ & _ & ->). pose proof total_bounds as TB. geo G.
          apply (Z.mul_lt_mono_pos_r (SECT c)); lia. }
        apply wpc_bind. cbn [get wpc].
        split; [apply HC; eauto|]. fold (flag_of c f sector).
        (* the sector *)
        assert (Body : wpc t (swap_sector c boot update (swap_img c) sector (flag_of c f sector))
          (fun _ f' => exists k' ph', sector + 1 <= k' /\ mid c X Y N d k' ph' f') C f).
        { destruct (Z.eq_dec sector k) as [->|Hne].
          - rewrite (mid_flag c X Y N d k ph f M).
            eapply wpc_conseq; [apply (sector_step c X Y N d G F HN HY0 boot update k ph f HB HU); auto| |apply HC].
            + intro Hb'. assert (i_size boot = bX) as ->
                by (destruct (Z.eq_dec k 0) as [Ek|Ek]; [apply (H0 Ek); auto|apply H1; lia]).
              apply (op_cover c X bX OX).
            + intro Hb'. destruct (Z.eq_dec k 0) as [Ek|Ek]; [apply (H0 Ek); auto|apply H1; lia].
            + cbn beta. intros _ f' M'. exists (k + 1), New. split; [lia|exact M'].
          - rewrite (skip_step c X Y N d boot update k ph f sector M ltac:(lia)). cbn [wpc].
            split; [apply HC; eauto|]. exists k, ph. split; [lia|exact M]. }
        cbn beta. apply wpc_bind. eapply wpc_post; [exact Body|].
        cbn beta. intros _ f' _ (k' & ph' & Hk' & M').
        destruct (Z.eqb_spec (sector + 1) 1) as [E1|E1].
        * assert (sector = 0) by lia. subst sector. cbn [wpc].
          pose proof M' as (M1 & M2 & _ & (R1 & R2 & _) & _). geo G.
          assert (HK : SECT c <= k' * SECT c).
          { assert (1 * SECT c <= k' * SECT c) by (apply Z.mul_le_mono_nonneg_r; lia). lia. }
          assert (S1 : i_size (snd (open_image c f' PBOOT)) = zlen Y - HDR c).
          { apply (open_size c f' PBOOT Y); auto; [discriminate|apply hs|lia|]. intros i Hi Hy. apply R1; lia. }
          assert (S2 : i_size (snd (open_image c f' PUPDATE)) = bX).
          { apply (op_size c X bX OX); [discriminate|]. intros i Hi Hy. apply R2; lia. }
          destruct (open_img c f' PBOOT) as (P1 & P2). destruct (open_img c f' PUPDATE) as (P3 & P4).
          apply (IH _ _ _ (0 + 1) k' ph' f' C HC); auto.
          -- split; assumption.
          -- split; assumption.
          -- lia.
          -- lia.
          -- intros _. cbn [set_size i_size]. split; [exact S2|]. split; [exact S1|].
             apply total_size; cbn [set_size i_size]; assumption.
          -- lia.
        * apply (IH boot update tot (sector + 1) k' ph' f' C HC); auto; try lia.
      + assert (Hne : sector <> 0) by (intros ->; destruct (H0 eq_refl); lia).
        destruct (H1 ltac:(lia)) as (_ & _ & ->). pose proof total_bounds as TB.
        assert (N - 1 < sector).
        { geo G. apply (Z.mul_lt_mono_pos_r (SECT c)); lia. }
        assert (k = N /\ sector = N) as (-> & ->) by lia.
        assert (ph = New) as -> by (destruct ph; auto; assert (N < N) by (apply Mp; discriminate); lia).
        cbn [wpc]. split; [apply HC; eauto|auto].
  Qed.

  (** *** All sectors swapped *)

  Lemma data_start : forall f, data c X Y 0 New f <->
    holds f (BOOT c) X /\ holds f (UPDATE c) Y /\ np c f.
  Proof.
    destruct (len_bounds c X Y N HN) as (LX & LY). intro f. geo G. split.
    - intros (_ & _ & D3 & D4 & D5 & D6 & D7). split; [|split; [|exact D5]].
      + intros i Hi. destruct (Z.ltb_spec i (SECT c)); [apply D6; lia|apply D3; lia].
      + intros i Hi. destruct (Z.ltb_spec i (SECT c)); [apply D7; lia|apply D4; lia].
    - intros (K1 & K2 & K3). split; [intros i Hi; lia|]. split; [intros i Hi; lia|].
      split; [intros i Hi Hx; apply K1; lia|]. split; [intros i Hi Hx; apply K2; lia|].
      split; [exact K3|]. split; intros i Hi Hx; [apply K1; lia|apply K2; lia].
  Qed.

  Lemma data_end : forall f, data c X Y N New f <->
    holds f (BOOT c) Y /\ holds f (UPDATE c) X /\ np c f.
  Proof.
    destruct HN as (LX & LY & _). destruct N_bound as (_ & NB & _). intro f. geo G. split.
    - intros (D1 & D2 & _ & _ & D5 & _). split; [|split; [|exact D5]].
      + intros i Hi. apply D1; lia.
      + intros i Hi. apply D2; lia.
    - intros (K1 & K2 & K3).
      split; [intros i Hi Hx; apply K1; lia|]. split; [intros i Hi Hx; apply K2; lia|].
      split; [intros i Hi Hx; lia|]. split; [intros i Hi Hx; lia|].
      split; [exact K3|]. split; intros i Hi Hx; lia.
  Qed.

  (** Overwriting a sector outside the images and trailers. *)
  Lemma mid_end_frame : forall d f f' p s, p <> PSWAP -> N <= s -> s * SECT c <= PART c - 2 * SECT c ->
    frame f f' (part_addr c p + s * SECT c) (SECT c) ->
    (s * SECT c = PART c - 2 * SECT c -> word f' (part_addr c p + s * SECT c) <> MT) ->
    mid c X Y N d N New f -> mid c X Y N d N New f'.
  Proof.
    intros d f f' p s Hp Hs Hb2 Hf Hw (Mb & Mk & Mp & MD & MT').
    destruct N_bound as (_ & NB & NP). destruct (len_bounds c X Y N HN) as (LX & LY).
    destruct HN as (LX' & LY' & _).
    assert (HsS : N * SECT c <= s * SECT c) by (geo G; apply Z.mul_le_mono_nonneg_r; lia).
    assert (HO : forall x, ~ (part_addr c p + s * SECT c <= x < part_addr c p + s * SECT c + SECT c) -> f' x = f x)
      by apply Hf.
    split; [apply Hf|]. split; [exact Mk|]. split; [exact Mp|]. split.
    - apply data_end in MD. destruct MD as (D1 & D2 & (N1 & N2)). apply data_end.
      geo G.
      split; [intros i Hi; rewrite HO; [apply D1, Hi|destruct p; cbn [part_addr]; (congruence || lia)]|].
      split; [intros i Hi; rewrite HO; [apply D2, Hi|destruct p; cbn [part_addr]; (congruence || lia)]|].
      destruct (sect_le c s G Hb2) as [E|E].
      + specialize (Hw E). split.
        * destruct p; cbn [part_addr] in *; [rewrite <- E; exact Hw| |congruence].
          rewrite (word_ext f' f _ (BOOT c + (PART c - 2 * SECT c))); auto. intros i Hi. apply HO. lia.
        * destruct p; cbn [part_addr] in *; [|rewrite <- E; exact Hw|congruence].
          rewrite (word_ext f' f _ (UPDATE c + (PART c - 2 * SECT c))); auto. intros i Hi. apply HO. lia.
      + split; [rewrite (word_ext f' f _ (BOOT c + (PART c - 2 * SECT c)))|
                rewrite (word_ext f' f _ (UPDATE c + (PART c - 2 * SECT c)))]; auto; intros i Hi; apply HO;
          (destruct p; cbn [part_addr]; (congruence || lia)).
    - apply (trail_stable c d N New f); auto; [lia|geo G; lia|].
      intros x Hx. apply HO. geo G. destruct p; cbn [part_addr]; (congruence || lia).
  Qed.

  Lemma mid_end_torn : forall d f f' p s, p <> PSWAP -> N <= s -> s * SECT c <= PART c - 2 * SECT c ->
    mid c X Y N d N New f ->
    (f' = erase f (part_addr c p + s * SECT c) (SECT c) \/
     torn_erase t (part_addr c p + s * SECT c) (SECT c) f f') -> mid c X Y N d N New f'.
  Proof.
    intros d f f' p s Hp Hs Hb2 M Hc.
    pose proof M as (Mb & _ & _ & (_ & _ & _ & _ & (N1 & N2) & _) & _).
    assert (Her : word (erase f (part_addr c p + s * SECT c) (SECT c)) (part_addr c p + s * SECT c) <> MT).
    { apply word_erased. intros i Hi. apply erase_in. geo G. lia. }
    apply (mid_end_frame d f f' p s); auto.
    - destruct Hc as [->|Hc]; [apply frame_erase, Mb|eapply frame_torn_erase; exact Hc].
    - intros E. destruct Hc as [->|(_ & _ & _ & T)]; [exact Her|]. intro K.
      destruct (T (part_addr c p + s * SECT c)) as [B|A]; [|exact K| |exact (Her A)].
      + rewrite E. destruct p; cbn [part_addr]; [left; reflexivity|right; reflexivity|congruence].
      + rewrite E in B. destruct p; cbn [part_addr] in B; [exact (N1 B)|exact (N2 B)|congruence].
  Qed.

  Lemma erase_rest_wpc : forall d fuel boot update s f (C : flash -> Prop),
    (forall f', (exists k ph, mid c X Y N d k ph f') -> C f') ->
    boot_img c boot -> update_img c update -> N <= s -> PART c - s <= Z.of_nat fuel ->
    mid c X Y N d N New f ->
    wpc t (erase_rest fuel c boot update s) (fun _ f' => mid c X Y N d N New f') C f.
  Proof.
    intros d fuel. induction fuel as [|fuel IH]; intros boot update s f C HC HB HU Hs Hfu M;
      cbn [erase_rest]; destruct (Z.ltb_spec (s * SECT c) (PART c - SECT c)) as [HL|HL].
    - exfalso. destruct N_bound as (_ & _ & ?). geo G. cbn in Hfu.
      assert (s * 1 <= s * SECT c) by (apply Z.mul_le_mono_nonneg_l; lia). lia.
    - cbn [wpc]. split; [apply HC; eauto|exact M].
    - assert (HL2 : s * SECT c <= PART c - 2 * SECT c).
      { destruct N_bound as (_ & _ & NP). destruct (g_sect c G) as (_ & S). destruct (g_part c G) as (P & _).
        pose proof (Z.div_mod (PART c) (SECT c) ltac:(lia)) as D. rewrite P in D.
        set (q := PART c / SECT c) in *.
        assert (s < q - 1) by (apply (Z.mul_lt_mono_pos_r (SECT c)); lia).
        assert (s * SECT c <= (q - 2) * SECT c) by (apply Z.mul_le_mono_nonneg_r; lia). lia. }
      destruct HB as (HB1 & HB2), HU as (HU1 & HU2). cbn [wpc]. rewrite HB2, HU2.
      split; [apply HC; eauto|].
      split; [intros f' T; apply HC; exists N, New;
              apply (mid_end_torn d f f' PBOOT s); auto; try discriminate|].
      assert (M1 : mid c X Y N d N New (erase f (BOOT c + s * SECT c) (SECT c)))
        by (apply (mid_end_torn d f _ PBOOT s); auto; discriminate).
      split; [apply HC; eauto|].
      split; [intros f' T; apply HC; exists N, New;
              apply (mid_end_torn d _ f' PUPDATE s M1) || eapply (mid_end_torn d _ f' PUPDATE s); eauto; discriminate|].
      apply IH; auto; [split; auto|split; auto|lia|lia|].
      eapply (mid_end_torn d _ _ PUPDATE s); eauto; discriminate.
    - cbn [wpc]. split; [apply HC; eauto|exact M].
  Qed.
End Loop.
