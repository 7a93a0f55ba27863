(** Copying one sector under power failure. *)
From Verif Require Import Base BaseLemmas HeaderModel Flash FlashLemmas ImageModel TrailerModel
  SwapModel Geometry.

(** [lia] without the quantified hypotheses and implications of the context. *)
Ltac zl := repeat match goal with H : forall _, _ |- _ => clear H end; lia.

(** [f'] is a legal content that differs from [f] in the [n] bytes from [a] only. *)
Definition frame (f f' : flash) (a n : Z) : Prop :=
  bytes f' /\ forall x, ~ (a <= x < a + n) -> f' x = f x.

Lemma frame_refl : forall f a n, bytes f -> frame f f a n.
Proof. split; auto. Qed.
Lemma frame_trans : forall f g h a n, frame f g a n -> frame g h a n -> frame f h a n.
Proof. intros f g h a n (_ & H1) (B & H2). split; [exact B|]. intros x Hx. rewrite H2, H1; auto. Qed.
Lemma frame_weak : forall f g a n b m, frame f g a n -> b <= a -> a + n <= b + m -> frame f g b m.
Proof. intros f g a n b m (B & H) H1 H2. split; [exact B|]. intros x Hx. apply H. lia. Qed.
Lemma frame_erase : forall f a n, bytes f -> frame f (erase f a n) a n.
Proof. intros. split; [apply bytes_erase; assumption|]. intros x Hx. apply erase_out, Hx. Qed.
Lemma frame_torn_erase : forall t f f' a n, torn_erase t a n f f' -> frame f f' a n.
Proof. intros t f f' a n (_ & B & H & _). split; [exact B|]. intros x Hx. apply H, inr_false, Hx. Qed.
Lemma frame_write : forall f a n d, bytes f -> (forall i, 0 <= i < n -> 0 <= d i) ->
  frame f (write f a n d) a n.
Proof. intros. split; [apply bytes_write; assumption|]. intros x Hx. apply write_out, Hx. Qed.
Lemma frame_torn_write : forall t f f' a n d, torn_write t a n d f f' -> frame f f' a n.
Proof. intros t f f' a n d (B & H & _). split; [exact B|]. intros x Hx. apply H, inr_false, Hx. Qed.

Notation MT := WOLFBOOT_MAGIC_TRAIL.

Lemma word_erased : forall f a, (forall i, 0 <= i < 4 -> f (a + i) = 255) -> word f a <> MT.
Proof.
  intros f a H E. pose proof (H 0 ltac:(lia)) as H0. rewrite Z.add_0_r in H0.
  unfold word in E. rewrite H0, (H 1), (H 2), (H 3) in E by lia. discriminate E.
Qed.

Lemma word_frame : forall f f' a n w, frame f f' a n -> w + 4 <= a \/ a + n <= w -> word f' w = word f w.
Proof.
  intros f f' a n w (_ & H) Hd. apply word_ext. intros i Hi. apply H. lia.
Qed.

(** What a chunk-wise copy leaves at offset [i] of the destination sector. *)
Definition copied (c : cfg) (f : flash) (sa soff L i : Z) : Z :=
  if soff + (i - i mod FB c) <? L then f (sa + i) else 255.

Lemma copy_loop_wpc : forall t c sa da soff L f0 (Q : unit -> flash -> Prop) (C : flash -> Prop),
  4 <= FB c -> SECT c mod FB c = 0 -> 4 <= SECT c -> disjoint sa (SECT c) da (SECT c) ->
  (guarded t da -> soff < L -> word f0 sa <> MT) ->
  (forall f', frame f0 f' da (SECT c) -> (guarded t da -> word f' da <> MT) -> C f') ->
  (forall f', frame f0 f' da (SECT c) -> (guarded t da -> word f' da <> MT) ->
     (forall i, 0 <= i < SECT c -> f' (da + i) = copied c f0 sa soff L i) -> Q tt f') ->
  forall fuel pos f,
  0 <= pos <= SECT c -> pos mod FB c = 0 -> SECT c - pos <= Z.of_nat fuel ->
  frame f0 f da (SECT c) ->
  (forall i, 0 <= i < pos -> f (da + i) = copied c f0 sa soff L i) ->
  (forall i, pos <= i < SECT c -> f (da + i) = 255) ->
  wpc t (copy_loop fuel c sa da soff L pos) Q C f.
Proof.
  intros t c sa da soff L f0 Q C HF HSm HS Hd Hg HC HQ.
  assert (Hword : forall f pos, 0 <= pos <= SECT c -> pos mod FB c = 0 -> frame f0 f da (SECT c) ->
    (forall i, 0 <= i < pos -> f (da + i) = copied c f0 sa soff L i) ->
    (forall i, pos <= i < SECT c -> f (da + i) = 255) -> 4 <= SECT c -> guarded t da -> word f da <> MT).
  { intros f pos Hp Hpm Hf H1 H2 H4 G.
    destruct (Z.eq_dec pos 0) as [->|Hne]; [apply word_erased; intros; apply H2; zl|].
    assert (FB c <= pos) by (apply Znumtheory.Zdivide_le; [zl|zl|apply Z.mod_divide; zl]).
    destruct (Z.ltb_spec soff L) as [HL|HL].
    - rewrite (word_ext f f0 da sa); [apply Hg; assumption|].
      intros i Hi. rewrite H1 by zl. unfold copied.
      rewrite (Z.mod_small i) by zl. destruct (Z.ltb_spec (soff + (i - i)) L); [reflexivity|zl].
    - apply word_erased. intros i Hi. rewrite H1 by zl. unfold copied.
      rewrite (Z.mod_small i) by zl. destruct (Z.ltb_spec (soff + (i - i)) L); [zl|reflexivity]. }
  induction fuel as [|fuel IH]; intros pos f Hp Hpm Hfu Hf H1 H2; cbn [copy_loop].
  - destruct (Z.ltb_spec pos (SECT c)); [zl|]. cbn [wpc].
    assert (pos = SECT c) by zl. subst pos.
    assert (HW : guarded t da -> word f da <> MT).
    { intro G. apply (Hword f (SECT c)); auto; try zl. }
    split; [apply HC|apply HQ]; auto.
  - destruct (Z.ltb_spec pos (SECT c)) as [Hlt|Hge].
    2:{ cbn [wpc]. assert (pos = SECT c) by zl. subst pos.
        assert (HW : guarded t da -> word f da <> MT).
        { intro G. apply (Hword f (SECT c)); auto; try zl. }
        split; [apply HC|apply HQ]; auto. }
    assert (Hroom : pos + FB c <= SECT c).
    { assert (FB c <= SECT c - pos); [|zl]. apply Znumtheory.Zdivide_le; [zl|zl|].
      apply Z.divide_sub_r; apply Z.mod_divide; zl. }
    assert (Hpm' : (pos + FB c) mod FB c = 0).
    { replace (pos + FB c) with (pos + 1 * FB c) by zl. rewrite Z_mod_plus_full. exact Hpm. }
    assert (Hchunk : forall i, pos <= i < pos + FB c -> i - i mod FB c = pos).
    { intros i Hi. replace i with (i - pos + pos / FB c * FB c) at 2.
      2:{ pose proof (Z.div_mod pos (FB c) ltac:(zl)). zl. }
      rewrite Z_mod_plus_full, Z.mod_small by zl. zl. }
    assert (HW : guarded t da -> word f da <> MT) by (intro G; apply (Hword f pos); auto; try zl).
    destruct (Z.ltb_spec (soff + pos) L) as [Hcp|Hcp].
    + cbn [bind wpc]. split; [apply HC; assumption|].
      pose proof (frame_write f (da + pos) (FB c) (fun i => f (sa + pos + i)) (proj1 Hf)
        (fun i _ => proj1 (proj1 Hf (sa + pos + i)))) as Fw.
      assert (Fw' : frame f0 (write f (da + pos) (FB c) (fun i => f (sa + pos + i))) da (SECT c)).
      { eapply frame_trans; [exact Hf|]. eapply frame_weak; [exact Fw|zl|zl]. }
      assert (Hsrc : forall i, 0 <= i < SECT c -> f (sa + i) = f0 (sa + i)).
      { intros i Hi. apply (proj2 Hf). unfold disjoint in Hd. zl. }
      assert (N1 : forall i, 0 <= i < pos + FB c ->
        write f (da + pos) (FB c) (fun i => f (sa + pos + i)) (da + i) = copied c f0 sa soff L i).
      { intros i Hi. destruct (Z.ltb_spec i pos).
        - rewrite write_out by zl. apply H1. zl.
        - rewrite write_in by zl. rewrite H2 by zl.
          replace (sa + pos + (da + i - (da + pos))) with (sa + i) by zl.
          rewrite land_255 by apply (proj1 Hf). rewrite Hsrc by zl.
          unfold copied. rewrite Hchunk by zl. destruct (Z.ltb_spec (soff + pos) L); [reflexivity|zl]. }
      assert (N2 : forall i, pos + FB c <= i < SECT c ->
        write f (da + pos) (FB c) (fun i => f (sa + pos + i)) (da + i) = 255).
      { intros i Hi. rewrite write_out by zl. apply H2. zl. }
      split.
      * intros f' T. pose proof (frame_torn_write _ _ _ _ _ _ T) as Ft.
        apply HC.
        -- eapply frame_trans; [exact Hf|]. eapply frame_weak; [exact Ft|zl|zl].
        -- intros G E. destruct T as (_ & _ & _ & T). destruct (T da G E) as [B|A].
           ++ exact (HW G B).
           ++ revert A. apply (Hword _ (pos + FB c)); auto; try zl.
      * apply IH; auto; try zl.
    + cbn [bind]. apply IH; auto; try zl.
      * intros i Hi. destruct (Z.ltb_spec i pos); [apply H1; zl|].
        rewrite H2 by zl. unfold copied. rewrite Hchunk by zl.
        destruct (Z.ltb_spec (soff + pos) L); [zl|reflexivity].
      * intros i Hi. apply H2. zl.
Qed.

Lemma copy_sector_wpc : forall t c src dst sector f (Q : unit -> flash -> Prop) (C : flash -> Prop) sa da soff doff,
  geometry c -> bytes f ->
  soff = (if part_eqb (i_part src) PSWAP then 0 else sector * SECT c) ->
  doff = (if part_eqb (i_part dst) PSWAP then 0 else sector * SECT c) ->
  sa = i_hdr src + soff -> da = i_hdr dst + doff ->
  disjoint sa (SECT c) da (SECT c) ->
  (guarded t da -> word f da <> MT) ->
  (guarded t da -> soff < i_size src + HDR c + FB c -> word f sa <> MT) ->
  (forall f', frame f f' da (SECT c) -> (guarded t da -> word f' da <> MT) -> C f') ->
  (forall f', frame f f' da (SECT c) -> (guarded t da -> word f' da <> MT) ->
     (forall i, 0 <= i < SECT c -> f' (da + i) = copied c f sa soff (i_size src + HDR c + FB c) i) ->
     Q tt f') ->
  wpc t (copy_sector c src dst sector) Q C f.
Proof.
  intros t c src dst sector f Q C sa da soff doff G Hb Es Ed Esa Eda Hd Hg1 Hg2 HC HQ.
  unfold copy_sector. cbn zeta. rewrite <- Es, <- Ed, <- Esa, <- Eda. cbn [wpc].
  pose proof (g_fb c G). destruct (g_sect c G) as (G1 & G2).
  assert (HE : forall i, 0 <= i < SECT c -> erase f da (SECT c) (da + i) = 255)
    by (intros; apply erase_in; zl).
  assert (Hsrc : forall i, 0 <= i < SECT c -> erase f da (SECT c) (sa + i) = f (sa + i)).
  { intros i Hi. apply erase_out. unfold disjoint in Hd. zl. }
  split; [apply HC; [apply frame_refl, Hb|exact Hg1]|]. split.
  - intros f' T. apply HC; [eapply frame_torn_erase; exact T|].
    intros Gd E. destruct T as (_ & _ & _ & T). destruct (T da Gd E) as [B|A]; [exact (Hg1 Gd B)|].
    revert A. apply word_erased. intros. apply HE. zl.
  - apply (copy_loop_wpc t c sa da soff (i_size src + HDR c + FB c) (erase f da (SECT c)) Q C); auto; try zl.
    + intros Gd Hl. rewrite (word_ext _ f sa sa) by (intros; apply Hsrc; zl). auto.
    + intros f' Hf Hw. apply HC; [|exact Hw]. eapply frame_trans; [apply frame_erase, Hb|exact Hf].
    + intros f' Hf Hw Hc. apply HQ; [|exact Hw|].
      * eapply frame_trans; [apply frame_erase, Hb|exact Hf].
      * intros i Hi. rewrite Hc by exact Hi. unfold copied. rewrite Hsrc by exact Hi. reflexivity.
    + apply frame_refl, bytes_erase, Hb.
Qed.
