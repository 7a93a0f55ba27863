(** Each step of the sector swap preserves the invariant, at every crash point. *)
From Verif Require Import Base BaseLemmas HeaderModel Flash FlashLemmas ImageModel ImageSpec
  TrailerModel TrailerProofs TriggerProofs TrailerCrash SwapModel SwapSpec Geometry CopyProofs SwapInv.
Local Ltac Zify.zify_post_hook ::= idtac.

Lemma nib_list_ok : forall (P : Z -> bool), forallb P nib_list = true -> forall n, is_nib n -> P n = true.
Proof. intros P H n Hn. rewrite forallb_forall in H. apply H, nib_in, Hn. Qed.

Lemma btw_7_15 : forall x, is_nib x -> btw SF_SWAPPING SF_NEW x -> x = SF_NEW \/ x = SF_SWAPPING.
Proof.
  intros x Hx (H1 & H2).
  pose proof (nib_list_ok (fun x => negb ((Z.land x SF_SWAPPING =? SF_SWAPPING) && (Z.land x SF_NEW =? x))
     || (x =? SF_NEW) || (x =? SF_SWAPPING)) eq_refl x Hx) as K. cbn beta in K. lia.
Qed.
Lemma btw_3_7 : forall x, is_nib x -> btw SF_BACKUP SF_SWAPPING x -> x = SF_SWAPPING \/ x = SF_BACKUP.
Proof.
  intros x Hx (H1 & H2).
  pose proof (nib_list_ok (fun x => negb ((Z.land x SF_BACKUP =? SF_BACKUP) && (Z.land x SF_SWAPPING =? x))
     || (x =? SF_SWAPPING) || (x =? SF_BACKUP)) eq_refl x Hx) as K. cbn beta in K. lia.
Qed.
Lemma btw_0_3 : forall x, is_nib x -> btw SF_UPDATED SF_BACKUP x -> x = SF_BACKUP \/ done_flag x.
Proof.
  intros x Hx (H1 & H2).
  pose proof (nib_list_ok (fun x => negb (Z.land x SF_BACKUP =? x)
     || (x =? SF_BACKUP) || (negb (x =? SF_NEW) && negb (x =? SF_SWAPPING) && negb (x =? SF_BACKUP))) eq_refl x Hx) as K.
  cbn beta in K. unfold done_flag. lia.
Qed.

(** ** Sector contents after a copy *)

Lemma copied_in : forall c, geometry c -> forall f sa soff L i, 0 <= i -> soff + i < L -> copied c f sa soff L i = f (sa + i).
Proof.
  intros c G f sa soff L i Hi H. unfold copied. pose proof (g_fb c G).
  pose proof (Z.mod_pos_bound i (FB c) ltac:(lia)).
  destruct (Z.ltb_spec (soff + (i - i mod FB c)) L); [reflexivity|lia].
Qed.

Lemma copied_word : forall c, geometry c -> forall f f' sa da soff L, (forall i, 0 <= i < SECT c -> f' (da + i) = copied c f sa soff L i) ->
  (soff < L -> word f sa <> MT) -> word f' da <> MT.
Proof.
  intros c G f f' sa da soff L H Hw. geo G. destruct (Z.ltb_spec soff L) as [HL|HL].
  - rewrite (word_ext f' f da sa); [apply Hw, HL|]. intros i Hi. rewrite H by lia. unfold copied.
    rewrite (Z.mod_small i) by lia. destruct (Z.ltb_spec (soff + (i - i)) L); [reflexivity|lia].
  - apply word_erased. intros i Hi. rewrite H by lia. unfold copied.
    rewrite (Z.mod_small i) by lia. destruct (Z.ltb_spec (soff + (i - i)) L); [lia|reflexivity].
Qed.

Section Swap.
  Variables (c : cfg) (X Y : list Z) (N : Z) (d : mode).
  Hypothesis G : geometry c.
  Hypothesis F : flags_room c.
  Hypothesis HN : sectors c X Y N.
  Hypothesis HY0 : HDR c < zlen Y.

  Let t := tear_std c.
  Let INV (f : flash) : Prop := exists k ph, mid c X Y N d k ph f.

  Lemma len_bounds : zlen X <= PART c - SECT c /\ zlen Y <= PART c - SECT c.
  Proof. destruct HN as (H1 & H2 & H3 & _). lia. Qed.

  Lemma k_bound : forall k, 0 <= k < N -> 0 <= k * SECT c <= PART c - 2 * SECT c.
  Proof.
    intros k Hk. destruct HN as (_ & _ & H3 & _). geo G.
    assert ((k + 1) * SECT c <= N * SECT c) by (apply Z.mul_le_mono_nonneg_r; lia). lia.
  Qed.

  Lemma k_bound' : forall k, 0 <= k <= N -> 0 <= k * SECT c <= PART c - SECT c.
  Proof.
    intros k Hk. destruct HN as (_ & _ & H3 & _). geo G.
    assert (k * SECT c <= N * SECT c) by (apply Z.mul_le_mono_nonneg_r; lia). lia.
  Qed.

  (** *** Flag updates *)

  Definition next_of (k : Z) (ph : phase) : Z * phase * Z :=
    match ph with New => (k, Swp, SF_SWAPPING) | Swp => (k, Bak, SF_BACKUP) | Bak => (k + 1, New, SF_UPDATED) end.

  Lemma flag_step : forall k ph k' ph' v f, next_of k ph = (k', ph', v) -> 0 <= k < N -> bytes f ->
    data c X Y k ph f -> data c X Y k' ph' f -> trail c d k ph f ->
    wpc t (store_flag c k v) (fun _ f' => mid c X Y N d k' ph' f') INV f.
  Proof.
    intros k ph k' ph' v f En Hk Hb D1 D2 T.
    pose proof (k_bound k Hk) as Hkb. geo G. destruct len_bounds as (LX & LY).
    assert (Hsec : k < PART c / SECT c /\ k + 1 < PART c / SECT c)
      by (split; apply sect_idx; auto; lia).
    assert (H512 : PART c / SECT c <= 512) by apply F.
    unfold store_flag. destruct (Z.ltb_spec ((k + 1) * SECT c) (PART c)); [|lia].
    destruct T as (T1 & T2 & T3 & T4 & T5).
    assert (Hm : magicable c f PUPDATE).
    { destruct T2 as [M|(_ & _ & M)]; [apply has_magic_magicable; assumption|exact M]. }
    assert (Hv : is_nib v /\ Z.land (nib c f k) v = v).
    { rewrite T5. destruct ph; inversion En; split; (unfold is_nib, SF_SWAPPING, SF_BACKUP, SF_UPDATED; lia) || reflexivity. }
    destruct Hv as (Hv1 & Hv2).
    destruct (sectors_room c k G F ltac:(lia)) as (_ & Hfa).
    assert (Hma : magic_addr c PUPDATE = UFLAGS c - 4) by apply magic_addr_eq.
    assert (Hsa : state_addr c PUPDATE = UFLAGS c - 5) by apply state_addr_eq.
    (* drv is stable when only flag and magic bytes of the update trailer change *)
    assert (HD : forall f', bytes f' -> (has_magic c f PUPDATE = true -> has_magic c f' PUPDATE = true) ->
      (forall x, x <> flags_addr c (flag_pos k) ->
         ~ (magic_addr c PUPDATE <= x < magic_addr c PUPDATE + 4) -> f' x = f x) -> drv c d f').
    { intros f' Hb' HM HO.
      destruct (same_state c f f' PBOOT) as (_ & B2 & _).
      { intros x Hx. cbn [endflags part_addr] in Hx. apply HO; zl. }
      assert (Es : f' (state_addr c PUPDATE) = f (state_addr c PUPDATE)) by (apply HO; zl).
      unfold drv in *. rewrite B2, Es. destruct d; [|exact T1|exact T1]. destruct T1 as (T1a & T1b).
      split; [exact T1a|]. unfold get_partition_state in *.
      destruct (has_magic c f PUPDATE); [|discriminate]. rewrite HM, Es by reflexivity. exact T1b. }
    assert (HDT : forall f', (forall x, x <> flags_addr c (flag_pos k) ->
         ~ (magic_addr c PUPDATE <= x < magic_addr c PUPDATE + 4) -> f' x = f x) ->
         forall x, ~ (BOOT c + PART c - SECT c <= x < BOOT c + PART c) ->
             ~ (UPDATE c + PART c - SECT c <= x < UPDATE c + PART c) -> f' x = f x).
    { intros f' HO x Hx1 Hx2. apply HO; zl. }
    assert (Hk' : 0 <= k' <= N /\ (ph' <> New -> k' < N) /\ 0 <= k')
      by (destruct ph; inversion En; subst; repeat split; try lia; congruence).
    (* trailers after the flag is fully written *)
    assert (HF : forall f', bytes f' -> has_magic c f' PUPDATE = true -> drv c d f' ->
      (ph <> Bak -> nib c f' k = v) -> (ph = Bak -> done_flag (nib c f' k)) ->
      (forall s', 0 <= s' < 512 -> s' <> k -> nib c f' s' = nib c f s') ->
      (forall x, x <> flags_addr c (flag_pos k) ->
         ~ (magic_addr c PUPDATE <= x < magic_addr c PUPDATE + 4) -> f' x = f x) ->
      mid c X Y N d k' ph' f').
    { intros f' Hb' HM HDr HV1 HV2 HNb HO.
      split; [exact Hb'|]. split; [apply Hk'|]. split; [apply Hk'|].
      split; [apply (data_stable c X Y k' ph' f f' G LX LY (HDT f' HO)); [apply Hk'|exact D2]|].
      split; [exact HDr|]. split; [left; exact HM|].
      destruct ph; inversion En; subst k' ph' v.
      - split; [intros s Hs; rewrite HNb by zl; apply T3, Hs|].
        split; [intros s Hs; rewrite HNb by zl; apply T4, Hs|]. apply HV1. discriminate.
      - split; [intros s Hs; rewrite HNb by zl; apply T3, Hs|].
        split; [intros s Hs; rewrite HNb by zl; apply T4, Hs|]. apply HV1. discriminate.
      - split.
        + intros s Hs. destruct (Z.eq_dec s k) as [->|Hne]; [apply HV2; reflexivity|].
          rewrite HNb by zl. apply T3. zl.
        + split; [intros s Hs; rewrite HNb by zl; apply T4; zl|].
          rewrite HNb by zl. apply T4. zl. }
    destruct (run_set_flag c f k v Hb Hv1 Hm Hv2) as (f1 & Hr & B1 & M1 & V1 & O1 & X1).
    apply (wpc_intro t _ _ _ f tt f1); [exact Hr| |].
    - apply HF; auto.
      + intros Eb. rewrite V1. rewrite Eb in En. inversion En. repeat split; discriminate.
      + intros s' Hs' Hne. apply O1; zl.
    - intros f' Hc.
      destruct (crash_set_flag t c k v f f' Hb Hv1 Hm ltac:(zl) Hv2 Hc) as (C1 & C2 & C3 & C4 & C5 & C6 & C7).
      assert (Hni : is_nib (nib c f' k)) by (apply nibv_range; apply C1).
      (* not yet effective *)
      assert (HOld : nib c f' k = ph_flag ph -> INV f').
      { intro E. exists k, ph. split; [exact C1|]. split; [lia|]. split; [lia|].
        split; [apply (data_stable c X Y k ph f f' G LX LY (HDT f' C7)); [lia|exact D1]|].
        split; [apply HD; assumption|]. split.
        - destruct T2 as [M|(M1' & M2 & M3)]; [left; apply C3, M|right; auto].
        - split; [intros s Hs; rewrite C6 by zl; apply T3, Hs|].
          split; [intros s Hs; rewrite C6 by zl; apply T4, Hs|exact E]. }
      assert (HNew : nib c f' k <> ph_flag ph -> (ph <> Bak -> nib c f' k = v) ->
        (ph = Bak -> done_flag (nib c f' k)) -> INV f').
      { intros E E1 E2. exists k', ph'. rewrite <- T5 in E. apply HF; auto. }
      clear V1 O1 X1 M1 B1. rewrite T5 in C5. destruct ph; inversion En; subst k' ph' v; cbn [ph_flag] in *.
      + destruct (btw_7_15 _ Hni C5) as [E|E]; [auto|]. apply HNew; [rewrite E; discriminate|auto|discriminate].
      + destruct (btw_3_7 _ Hni C5) as [E|E]; [auto|]. apply HNew; [rewrite E; discriminate|auto|discriminate].
      + destruct (btw_0_3 _ Hni C5) as [E|E]; [auto|]. apply HNew; [apply E|congruence|auto].
  Qed.

  (** *** Stability of the invariant when one area is overwritten *)

  Ltac rs := eapply rng_stable; [|eassumption]; intros.

  Lemma data_swap_area : forall k f f', 0 <= k <= N -> frame f f' (SWAP c) (SECT c) ->
    data c X Y k New f -> data c X Y k New f'.
  Proof.
    intros k f f' Hk (Hb & H) (D1 & D2 & D3 & D4 & (N1 & N2) & D5 & D6).
    pose proof (k_bound' k Hk). geo G. destruct len_bounds as (LX & LY).
    split; [rs; apply H; lia|]. split; [rs; apply H; lia|]. split; [rs; apply H; lia|].
    split; [rs; apply H; lia|]. split; [|split; rs; apply H; lia].
    split; [rewrite (word_ext f' f _ (BOOT c + (PART c - 2 * SECT c)))|
            rewrite (word_ext f' f _ (UPDATE c + (PART c - 2 * SECT c)))]; auto; intros i Hi; apply H; lia.
  Qed.

  Lemma np_boot : forall k f f', 0 <= k < N -> frame f f' (BOOT c + k * SECT c) (SECT c) ->
    (guarded t (BOOT c + k * SECT c) -> word f' (BOOT c + k * SECT c) <> MT) -> np c f -> np c f'.
  Proof.
    intros k f f' Hk (Hb & H) Hg (N1 & N2). pose proof (k_bound k Hk) as Hkb. geo G.
    split.
    - destruct (sect_le c k G ltac:(lia)) as [E|E].
      + rewrite <- E. apply Hg. left. lia.
      + rewrite (word_ext f' f _ (BOOT c + (PART c - 2 * SECT c))); auto. intros i Hi. apply H. lia.
    - rewrite (word_ext f' f _ (UPDATE c + (PART c - 2 * SECT c))); auto. intros i Hi. apply H. lia.
  Qed.

  Lemma np_update : forall k f f', 0 <= k < N -> frame f f' (UPDATE c + k * SECT c) (SECT c) ->
    (guarded t (UPDATE c + k * SECT c) -> word f' (UPDATE c + k * SECT c) <> MT) -> np c f -> np c f'.
  Proof.
    intros k f f' Hk (Hb & H) Hg (N1 & N2). pose proof (k_bound k Hk) as Hkb. geo G.
    split.
    - rewrite (word_ext f' f _ (BOOT c + (PART c - 2 * SECT c))); auto. intros i Hi. apply H. lia.
    - destruct (sect_le c k G ltac:(lia)) as [E|E].
      + rewrite <- E. apply Hg. right. lia.
      + rewrite (word_ext f' f _ (UPDATE c + (PART c - 2 * SECT c))); auto. intros i Hi. apply H. lia.
  Qed.

  Lemma swp_frame : forall k f f' a, frame f f' a (SECT c) -> disjoint a (SECT c) (SWAP c) (SECT c) ->
    swp c f Y k -> swp c f' Y k.
  Proof.
    intros k f f' a (_ & H) Hd (S1 & S2). geo G. split.
    - intros i Hi Hy. rewrite H by lia. apply S1; assumption.
    - intro E. rewrite (word_ext f' f _ (SWAP c)); [apply S2, E|]. intros i Hi. apply H. lia.
  Qed.

  Lemma data_update_area : forall k f f', 0 <= k < N -> frame f f' (UPDATE c + k * SECT c) (SECT c) ->
    (guarded t (UPDATE c + k * SECT c) -> word f' (UPDATE c + k * SECT c) <> MT) ->
    data c X Y k Swp f -> data c X Y k Swp f'.
  Proof.
    intros k f f' Hk Hf Hg (D1 & D2 & D3 & D4 & D5 & D6 & D7).
    pose proof (k_bound k Hk). pose proof (np_update k f f' Hk Hf Hg D5) as NP. pose proof (proj2 Hf) as H'.
    geo G. destruct len_bounds as (LX & LY).
    split; [rs; apply H'; lia|]. split; [rs; apply H'; lia|]. split; [rs; apply H'; lia|].
    split; [rs; apply H'; lia|]. split; [exact NP|]. split; [rs; apply H'; lia|].
    eapply swp_frame; [exact Hf| |exact D7]. unfold disjoint. lia.
  Qed.

  Lemma data_boot_area : forall k f f', 0 <= k < N -> frame f f' (BOOT c + k * SECT c) (SECT c) ->
    (guarded t (BOOT c + k * SECT c) -> word f' (BOOT c + k * SECT c) <> MT) ->
    data c X Y k Bak f -> data c X Y k Bak f'.
  Proof.
    intros k f f' Hk Hf Hg (D1 & D2 & D3 & D4 & D5 & D6 & D7).
    pose proof (k_bound k Hk). pose proof (np_boot k f f' Hk Hf Hg D5) as NP. pose proof (proj2 Hf) as H'.
    geo G. destruct len_bounds as (LX & LY).
    split; [rs; apply H'; lia|]. split; [rs; apply H'; lia|]. split; [rs; apply H'; lia|].
    split; [rs; apply H'; lia|]. split; [exact NP|]. split; [rs; apply H'; lia|].
    eapply swp_frame; [exact Hf| |exact D7]. unfold disjoint. lia.
  Qed.

  Lemma trailers_frame : forall f f' a, frame f f' a (SECT c) ->
    (disjoint a (SECT c) (BOOT c + PART c - SECT c) (SECT c)) ->
    (disjoint a (SECT c) (UPDATE c + PART c - SECT c) (SECT c)) -> same_trailers c f f'.
  Proof. intros f f' a (_ & H) H1 H2 x Hx. apply H. geo G. lia. Qed.

  (** *** The three copies *)

  Definition boot_img (b : image) : Prop := i_part b = PBOOT /\ i_hdr b = BOOT c.
  Definition update_img (u : image) : Prop := i_part u = PUPDATE /\ i_hdr u = UPDATE c.
  Definition swap_img : image := mkImage PSWAP (SWAP c) (SWAP c) (SECT c) true false false None.

  Lemma backup_step : forall boot k f, boot_img boot -> 0 <= k < N -> mid c X Y N d k Bak f ->
    wpc t (swap_backup c boot swap_img k) (fun _ f' => mid c X Y N d (k + 1) New f') INV f.
  Proof.
    intros boot k f (Hp & Hh) Hk (Hb & Hkn & _ & D & T). unfold swap_backup. apply wpc_bind.
    pose proof (k_bound k Hk) as Hkb. pose proof D as (D1 & D2 & D3 & D4 & D5 & D6 & D7).
    destruct len_bounds as (LX & LY).
    assert (Hst : forall f', frame f f' (BOOT c + k * SECT c) (SECT c) -> trail c d k Bak f').
    { intros f' Hf. apply (trail_stable c d k Bak f); auto; [lia|geo G; lia|].
      eapply trailers_frame; [exact Hf|geo G; lia|geo G; lia]. }
    assert (Dj : disjoint (SWAP c) (SECT c) (BOOT c + k * SECT c) (SECT c)) by (geo G; lia).
    apply (copy_sector_wpc t c swap_img boot k f _ _ (SWAP c) (BOOT c + k * SECT c) 0 (k * SECT c));
      auto; try (cbn; lia).
    - rewrite Hp. reflexivity.
    - intros [E|E]; [rewrite E; apply D5|geo G; lia].
    - intros [E|E] _; [apply D7; lia|geo G; lia].
    - intros f' Hf Hg. exists k, Bak. split; [apply Hf|]. split; [lia|]. split; [lia|].
      split; [apply (data_boot_area k f); auto|apply Hst, Hf].
    - intros f' Hf Hg Hc.
      assert (D' : data c X Y k Bak f') by (apply (data_boot_area k f); auto).
      apply (flag_step k Bak (k + 1) New); auto; [apply Hf|].
      pose proof D' as (E1 & E2 & E3 & E4 & E5 & E6 & E7).
      assert (HB : rng f' (BOOT c) Y (k * SECT c) (k * SECT c + SECT c)).
      { intros i Hi Hy. replace (BOOT c + i) with (BOOT c + k * SECT c + (i - k * SECT c)) by lia.
        rewrite Hc by lia. rewrite (copied_in c G) by (geo G; cbn [i_size swap_img]; lia).
        destruct D7 as (D7 & _). rewrite D7 by lia. do 2 f_equal. lia. }
      geo G. split.
      { intros i Hi Hy. destruct (Z.ltb_spec i (k * SECT c)); [apply E1; lia|apply HB; lia]. }
      split.
      { intros i Hi Hy. destruct (Z.ltb_spec i (k * SECT c)); [apply E2; lia|apply E6; lia]. }
      split; [intros i Hi Hy; apply E3; lia|]. split; [intros i Hi Hy; apply E4; lia|].
      split; [exact E5|]. split; intros i Hi Hy; [apply E3; lia|apply E4; lia].
  Qed.

  Lemma swapping_step : forall boot update k f, boot_img boot -> update_img update ->
    zlen X <= i_size boot + HDR c -> 0 <= k < N -> mid c X Y N d k Swp f ->
    wpc t (swap_swapping c boot update swap_img k) (fun _ f' => mid c X Y N d (k + 1) New f') INV f.
  Proof.
    intros boot update k f (Hp & Hh) (Hup & Huh) Hsz Hk (Hb & Hkn & _ & D & T). unfold swap_swapping.
    apply wpc_bind.
    pose proof (k_bound k Hk) as Hkb. pose proof D as (D1 & D2 & D3 & D4 & D5 & D6 & D7).
    destruct len_bounds as (LX & LY).
    assert (Hst : forall f', frame f f' (UPDATE c + k * SECT c) (SECT c) -> trail c d k Swp f').
    { intros f' Hf. apply (trail_stable c d k Swp f); auto; [lia|geo G; lia|].
      eapply trailers_frame; [exact Hf|geo G; lia|geo G; lia]. }
    assert (Dj : disjoint (BOOT c + k * SECT c) (SECT c) (UPDATE c + k * SECT c) (SECT c)) by (geo G; lia).
    apply (copy_sector_wpc t c boot update k f _ _ (BOOT c + k * SECT c) (UPDATE c + k * SECT c)
             (k * SECT c) (k * SECT c)); auto.
    - rewrite Hp. reflexivity.
    - rewrite Hup. reflexivity.
    - rewrite Hh. reflexivity.
    - rewrite Huh. reflexivity.
    - intros [E|E]; [geo G; lia|rewrite E; apply D5].
    - intros [E|E] _; [geo G; lia|]. replace (BOOT c + k * SECT c) with (BOOT c + (PART c - 2 * SECT c)) by lia. apply D5.
    - intros f' Hf Hg. exists k, Swp. split; [apply Hf|]. split; [lia|]. split; [lia|].
      split; [apply (data_update_area k f); auto|apply Hst, Hf].
    - intros f' Hf Hg Hc. apply wpc_bind.
      assert (D' : data c X Y k Swp f') by (apply (data_update_area k f); auto).
      eapply wpc_post; [apply (flag_step k Swp k Bak SF_BACKUP); auto; [apply Hf|]|].
      + pose proof D' as (E1 & E2 & E3 & E4 & E5 & E6 & E7).
        split; [exact E1|]. split; [exact E2|]. split; [exact E3|]. split; [exact E4|].
        split; [exact E5|]. split; [|exact E7].
        intros i Hi Hy. replace (UPDATE c + i) with (UPDATE c + k * SECT c + (i - k * SECT c)) by lia.
        rewrite Hc by lia. rewrite (copied_in c G) by (geo G; lia).
        replace (BOOT c + k * SECT c + (i - k * SECT c)) with (BOOT c + i) by lia.
        apply D6; lia.
      + intros [] f2 _ M2. cbn beta in M2. apply backup_step; auto. split; auto.
  Qed.

  Lemma new_step : forall boot update k f, boot_img boot -> update_img update ->
    zlen X <= i_size boot + HDR c -> i_size update = zlen Y - HDR c ->
    0 <= k < N -> mid c X Y N d k New f ->
    wpc t (swap_new c boot update swap_img k) (fun _ f' => mid c X Y N d (k + 1) New f') INV f.
  Proof.
    intros boot update k f Hbi (Hup & Huh) Hsz Hsu Hk (Hb & Hkn & _ & D & T). unfold swap_new.
    apply wpc_bind.
    pose proof (k_bound k Hk) as Hkb. pose proof D as (D1 & D2 & D3 & D4 & D5 & D6 & D7).
    destruct len_bounds as (LX & LY).
    assert (Hst : forall f', frame f f' (SWAP c) (SECT c) -> trail c d k New f').
    { intros f' Hf. apply (trail_stable c d k New f); auto; [lia|geo G; lia|].
      eapply trailers_frame; [exact Hf|geo G; lia|geo G; lia]. }
    assert (Dj : disjoint (UPDATE c + k * SECT c) (SECT c) (SWAP c) (SECT c)) by (geo G; lia).
    apply (copy_sector_wpc t c update swap_img k f _ _ (UPDATE c + k * SECT c) (SWAP c) (k * SECT c) 0); auto.
    - rewrite Hup. reflexivity.
    - rewrite Huh. reflexivity.
    - cbn [swap_img i_hdr]. lia.
    - intros [E|E]; exfalso; geo G; lia.
    - intros [E|E] _; exfalso; geo G; lia.
    - intros f' Hf Hg. exists k, New. split; [apply Hf|]. split; [lia|]. split; [congruence|].
      split; [apply (data_swap_area k f); auto; lia|apply Hst, Hf].
    - intros f' Hf Hg Hc. apply wpc_bind.
      assert (D' : data c X Y k New f') by (apply (data_swap_area k f); auto; lia).
      eapply wpc_post; [apply (flag_step k New k Swp SF_SWAPPING); auto; [apply Hf|]|].
      + pose proof D' as (E1 & E2 & E3 & E4 & E5 & E6 & E7).
        split; [exact E1|]. split; [exact E2|]. split; [exact E3|]. split; [exact E4|].
        split; [exact E5|]. split; [exact E6|]. split.
        * intros i Hi Hy. rewrite Hc by lia. rewrite (copied_in c G) by (geo G; lia).
          replace (UPDATE c + k * SECT c + i) with (UPDATE c + (k * SECT c + i)) by lia.
          apply D7; lia.
        * intro E. eapply (copied_word c G); [exact Hc|]. intros _. rewrite E. apply D5.
      + intros [] f2 _ M2. cbn beta in M2. apply swapping_step; auto. split; auto.
  Qed.

  (** *** One iteration *)

  Definition flag_of (f : flash) (s : Z) : Z :=
    match get_update_sector_flag c f s with Some fl => fl | None => SF_NEW end.

  Lemma mid_flag : forall k ph f, mid c X Y N d k ph f -> flag_of f k = ph_flag ph.
  Proof.
    intros k ph f (_ & _ & _ & _ & (_ & M & _ & _ & T5)). unfold flag_of. rewrite get_flag_nib.
    destruct (has_magic c f PUPDATE); [exact T5|].
    destruct M as [M|(_ & -> & _)]; [discriminate|reflexivity].
  Qed.

  Lemma mid_flag_done : forall k ph f s, mid c X Y N d k ph f -> 0 <= s < k -> done_flag (flag_of f s).
  Proof.
    intros k ph f s (_ & _ & _ & _ & (_ & M & T3 & _)) Hs. unfold flag_of. rewrite get_flag_nib.
    destruct M as [M|(-> & _)]; [|lia]. rewrite M. apply T3, Hs.
  Qed.

  Lemma sector_step : forall boot update k ph f, boot_img boot -> update_img update ->
    (ph <> Bak -> zlen X <= i_size boot + HDR c) -> (ph = New -> i_size update = zlen Y - HDR c) ->
    k < N -> mid c X Y N d k ph f ->
    wpc t (swap_sector c boot update swap_img k (ph_flag ph))
      (fun _ f' => mid c X Y N d (k + 1) New f') INV f.
  Proof.
    intros boot update k ph f HB HU S1 S2 Hk M.
    assert (0 <= k < N) by (destruct M as (_ & ? & _); lia).
    unfold swap_sector. destruct ph; cbn [ph_flag].
    - apply new_step; auto. apply S1. discriminate.
    - apply swapping_step; auto. apply S1. discriminate.
    - apply backup_step; auto.
  Qed.

  Lemma skip_step : forall boot update k ph f s, mid c X Y N d k ph f -> 0 <= s < k ->
    swap_sector c boot update swap_img s (flag_of f s) = Ret tt.
  Proof.
    intros boot update k ph f s M Hs. destruct (mid_flag_done k ph f s M Hs) as (F1 & F2 & F3).
    unfold swap_sector. apply Z.eqb_neq in F1, F2, F3. rewrite F1, F2, F3. reflexivity.
  Qed.
End Swap.
