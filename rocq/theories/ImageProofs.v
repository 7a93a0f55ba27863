(** Opening, integrity, authenticity (C08-C11). *)
From Verif Require Import Base BaseLemmas HeaderModel HeaderSpec HeaderProofs Flash FlashLemmas
  ImageModel ImageSpec.

(** ** Header fields *)

Lemma find_field : forall base h ty r, all_bytes h -> (8 <= length h)%nat -> zlen h < 65544 ->
  find_header base h ty = Val r ->
  match r with
  | Some (off, len) => exists d, field_at base h ty off d /\ length d = len /\ sub h off len = d
  | None => no_field base h ty
  end.
Proof.
  intros base h ty r Hb Hl Hz E.
  destruct (reads_as_exists base h Hb Hl) as (items & Hr).
  destruct (find_header_reads base h items ty Hb Hz Hr) as (E' & Hs).
  rewrite E' in E. destruct (first_rec ty items) as [d|] eqn:F.
  - destruct r as [[off len]|]; [|discriminate]. inversion E; subst. exists d.
    split; [exists items; auto|]. split; [reflexivity|]. apply Hs. reflexivity.
  - destruct r; [discriminate|]. exists items; auto.
Qed.

Lemma field_find : forall base h ty off d, all_bytes h -> zlen h < 65544 ->
  field_at base h ty off d ->
  find_header base h ty = Val (Some (off, length d)) /\ sub h off (length d) = d.
Proof.
  intros base h ty off d Hb Hz (items & Hr & F & Ho).
  destruct (find_header_reads base h items ty Hb Hz Hr) as (E' & Hs).
  rewrite F in E'. subst off. split; [exact E'|]. apply Hs, F.
Qed.

Lemma no_field_find : forall base h ty, all_bytes h -> zlen h < 65544 ->
  no_field base h ty -> find_header base h ty = Val None.
Proof.
  intros base h ty Hb Hz (items & Hr & F).
  destruct (find_header_reads base h items ty Hb Hz Hr) as (E' & _). rewrite F in E'. exact E'.
Qed.

(** Side conditions on the configuration used in this file. *)
Definition hdr_small (c : cfg) : Prop := 8 <= HDR c < 65544.

Lemma hdr_facts : forall c f a, bytes f -> hdr_small c ->
  all_bytes (hdr_bytes c f a) /\ (8 <= length (hdr_bytes c f a))%nat /\ zlen (hdr_bytes c f a) < 65544.
Proof.
  intros c f a Hb (H1 & H2). unfold hdr_bytes, zlen. rewrite length_rdl.
  split; [apply rdl_bytes, Hb|]. lia.
Qed.

Lemma get_header_val : forall c f a ty, bytes f -> hdr_small c ->
  exists r, get_header c f a ty = Val r /\
    match r with
    | Some (off, len) => exists d, field_at a (hdr_bytes c f a) ty off d /\ length d = len /\
        rdl f (a + Z.of_nat off) len = d /\ (12 <= off)%nat /\ Z.of_nat (off + len) <= HDR c
    | None => no_field a (hdr_bytes c f a) ty
    end.
Proof.
  intros c f a ty Hb Hh. destruct (hdr_facts c f a Hb Hh) as (F1 & F2 & F3).
  destruct (find_header_safe a (hdr_bytes c f a) ty F1) as (r & E & Hsafe).
  exists r. split; [exact E|]. pose proof (find_field _ _ _ _ F1 F2 F3 E) as K.
  destruct r as [[off len]|]; [|exact K]. destruct K as (d & K1 & K2 & K3).
  destruct (Hsafe off len eq_refl) as (S1 & S2).
  unfold hdr_bytes in S2. rewrite length_rdl in S2.
  exists d. split; [exact K1|]. split; [exact K2|]. split; [|unfold hdr_small in *; lia].
  rewrite <- K3. unfold hdr_bytes. rewrite rdl_sub by lia. reflexivity.
Qed.

Lemma field_det : forall base h ty off d off' d', all_bytes h -> zlen h < 65544 ->
  field_at base h ty off d -> field_at base h ty off' d' -> off = off' /\ d = d'.
Proof.
  intros base h ty off d off' d' Hb Hz F1 F2.
  destruct (field_find _ _ _ _ _ Hb Hz F1) as (E1 & S1).
  destruct (field_find _ _ _ _ _ Hb Hz F2) as (E2 & S2).
  rewrite E1 in E2. injection E2 as Eo El. subst off'. split; [reflexivity|].
  rewrite <- S1, <- S2, El. reflexivity.
Qed.

Lemma field_none : forall base h ty off d, all_bytes h -> zlen h < 65544 ->
  field_at base h ty off d -> no_field base h ty -> False.
Proof.
  intros base h ty off d Hb Hz F1 F2.
  destruct (field_find _ _ _ _ _ Hb Hz F1) as (E1 & _).
  rewrite (no_field_find _ _ _ Hb Hz F2) in E1. discriminate.
Qed.

(** ** Feeding the hash *)

Lemma feed_header_all : forall fuel c f p e, 0 < BLK c -> e - p <= Z.of_nat fuel -> p <= e ->
  feed_header fuel c f p e = Val (rdl f p (Z.to_nat (e - p))).
Proof.
  induction fuel as [|fuel IH]; intros c f p e Hb Hf Hp; cbn [feed_header].
  - destruct (Z.ltb_spec p e); [lia|]. replace (e - p) with 0 by lia. reflexivity.
  - destruct (Z.ltb_spec p e).
    + set (n := if e - p <? BLK c then e - p else BLK c).
      assert (Hn : 0 < n <= e - p) by (unfold n; destruct (Z.ltb_spec (e - p) (BLK c)); lia).
      rewrite IH by lia. cbn [obind]. f_equal.
      replace (Z.to_nat (e - p)) with (Z.to_nat n + Z.to_nat (e - (p + n)))%nat by lia.
      rewrite rdl_app. do 2 f_equal. lia.
    + replace (e - p) with 0 by lia. reflexivity.
Qed.

Lemma feed_image_all : forall fuel c f base size pos,
  0 < BLK c -> 0 <= pos <= size -> size + BLK c < 2 ^ 32 ->
  size - pos < Z.of_nat fuel ->
  feed_image fuel c f base size pos = Val (rdl f (base + pos) (Z.to_nat (size - pos))).
Proof.
  induction fuel as [|fuel IH]; intros c f base size pos Hb Hp Hs Hf; [lia|].
  cbn [feed_image]. destruct (Z.gtb_spec pos size); [lia|].
  rewrite (Z.mod_small (pos + BLK c)) by lia.
  set (n := if pos + BLK c >? size then size - pos else BLK c).
  assert (Hn : 0 <= n <= size - pos /\ (n = 0 -> pos = size))
    by (unfold n; destruct (Z.gtb_spec (pos + BLK c) size); lia).
  rewrite (Z.mod_small (pos + n)) by lia.
  destruct (Z.ltb_spec (pos + n) size).
  - rewrite IH by lia. cbn [obind]. f_equal.
    replace (Z.to_nat (size - pos)) with (Z.to_nat n + Z.to_nat (size - (pos + n)))%nat by lia.
    rewrite rdl_app. do 2 f_equal. lia.
  - do 2 f_equal. lia.
Qed.

Lemma feed_image_wraps : forall fuel c f base pos, BLK c = 256 ->
  0 <= pos < 2 ^ 32 -> pos mod 256 = 0 ->
  feed_image fuel c f base (2 ^ 32 - 1) pos = NoFuel.
Proof.
  induction fuel as [|fuel IH]; intros c f base pos Hb Hp Hm; [reflexivity|].
  cbn [feed_image]. rewrite Hb. destruct (Z.gtb_spec pos (2 ^ 32 - 1)); [lia|].
  pose proof (Z.mod_pos_bound (pos + 256) (2 ^ 32) ltac:(lia)) as R.
  destruct (Z.gtb_spec ((pos + 256) mod 2 ^ 32) (2 ^ 32 - 1)); [lia|].
  assert (M : ((pos + 256) mod 2 ^ 32) mod 256 = 0).
  { replace (2 ^ 32) with (256 * 2 ^ 24) by reflexivity. rewrite <- Znumtheory.Zmod_div_mod.
    - rewrite Z.add_mod, Hm by lia. reflexivity.
    - lia.
    - lia.
    - exists (2 ^ 24). lia. }
  assert ((pos + 256) mod 2 ^ 32 < 2 ^ 32 - 1).
  { assert ((pos + 256) mod 2 ^ 32 <> 2 ^ 32 - 1); [|lia]. intro E. rewrite E in M. discriminate M. }
  destruct (Z.ltb_spec ((pos + 256) mod 2 ^ 32) (2 ^ 32 - 1)); [|lia].
  rewrite IH by assumption. reflexivity.
Qed.

Lemma list_eqb_iff : forall a b, list_eqb a b = true <-> a = b.
Proof.
  induction a as [|x a IH]; intros [|y b]; cbn; split; intro H; try discriminate; auto.
  - apply andb_prop in H. destruct H as (H1 & H2). apply Z.eqb_eq in H1. apply IH in H2. congruence.
  - inversion H; subst. rewrite Z.eqb_refl. apply IH. reflexivity.
Qed.

Definition blk_ok (c : cfg) (img : image) : Prop :=
  0 < BLK c /\ 0 <= i_size img /\ i_size img + BLK c < 2 ^ 32.

Definition fw_bytes (f : flash) (img : image) : list Z :=
  rdl f (i_base img) (Z.to_nat (i_size img)).

Lemma image_hash_val : forall c f img, bytes f -> hdr_small c -> blk_ok c img ->
  (exists off d, field_at (i_hdr img) (hdr_bytes c f (i_hdr img)) (c_hash_tag c) off d /\
     length d = c_digsz c /\
     image_hash c f img = Val (Some (c_hash c
       (firstn (off - 4) (hdr_bytes c f (i_hdr img)) ++ fw_bytes f img)))) \/
  ((forall off d, field_at (i_hdr img) (hdr_bytes c f (i_hdr img)) (c_hash_tag c) off d ->
     length d <> c_digsz c) /\ image_hash c f img = Val None).
Proof.
  intros c f img Hb Hh (B1 & B2 & B3).
  destruct (hdr_facts c f (i_hdr img) Hb Hh) as (F1 & F2 & F3).
  destruct (get_header_val c f (i_hdr img) (c_hash_tag c) Hb Hh) as (r & E & K).
  unfold image_hash. rewrite E. cbn [obind]. destruct r as [[off len]|].
  - destruct K as (d & K1 & K2 & K3 & K4 & K5).
    destruct (Nat.eqb_spec len (c_digsz c)) as [L|L]; cbn [negb].
    + left. exists off, d. split; [exact K1|]. split; [congruence|].
      rewrite feed_header_all by lia. cbn [obind].
      rewrite feed_image_all by lia. cbn [obind]. do 4 f_equal.
      * unfold hdr_bytes. rewrite rdl_firstn by lia. f_equal. lia.
      * unfold fw_bytes. f_equal; lia.
    + right. split; [|reflexivity]. intros off' d' F.
      destruct (field_det _ _ _ _ _ _ _ F1 F3 K1 F) as (_ & <-). congruence.
  - right. split; [|reflexivity]. intros off' d' F. exfalso. eapply field_none; eauto.
Qed.

(** C08. *)
Lemma verify_integrity_spec : forall c f img, bytes f -> hdr_small c -> blk_ok c img ->
  (exists d, intact c (i_hdr img) (hdr_bytes c f (i_hdr img)) (fw_bytes f img) d /\
     verify_integrity c f img =
       Val (true, mkImage (i_part img) (i_hdr img) (i_base img) (i_size img) (i_hdr_ok img)
                    true (i_sig_ok img) (Some d))) \/
  ((forall d, ~ intact c (i_hdr img) (hdr_bytes c f (i_hdr img)) (fw_bytes f img) d) /\
   verify_integrity c f img = Val (false, img)).
Proof.
  intros c f img Hb Hh Hk.
  destruct (hdr_facts c f (i_hdr img) Hb Hh) as (F1 & F2 & F3).
  destruct (get_header_val c f (i_hdr img) (c_hash_tag c) Hb Hh) as (r & E & K).
  unfold verify_integrity. rewrite E. cbn [obind]. destruct r as [[off len]|].
  - destruct K as (d & K1 & K2 & K3 & K4 & K5).
    destruct (Nat.eqb_spec len (c_digsz c)) as [L|L]; cbn [negb].
    + destruct (image_hash_val c f img Hb Hh Hk) as [(off' & d' & A1 & A2 & A3)|(A1 & A2)].
      2:{ exfalso. eapply A1; [exact K1|congruence]. }
      destruct (field_det _ _ _ _ _ _ _ F1 F3 K1 A1) as (<- & <-).
      rewrite A3. cbn [obind]. rewrite K3.
      destruct (list_eqb _ d) eqn:Eq.
      * apply list_eqb_iff in Eq. left. exists d. split; [|reflexivity].
        exists off. repeat split; congruence.
      * right. split; [|reflexivity]. intros d0 (o0 & I1 & I2 & I3).
        destruct (field_det _ _ _ _ _ _ _ F1 F3 K1 I1) as (<- & <-).
        rewrite <- I3 in Eq.
        assert (list_eqb d d = true) by (apply list_eqb_iff; reflexivity). congruence.
    + right. split; [|reflexivity]. intros d0 (o0 & I1 & I2 & I3).
      destruct (field_det _ _ _ _ _ _ _ F1 F3 K1 I1) as (_ & <-). congruence.
  - right. split; [|reflexivity]. intros d0 (o0 & I1 & _). eapply field_none; eauto.
Qed.

(** ** Keys (C10) *)

Lemma keyslot_from_spec : forall c ks id hint buf,
  match keyslot_from c ks id hint buf with
  | (Some n, b) => exists k, n = (id + k)%nat /\ b = hint /\
      (exists e, nth_error ks k = Some e /\ key_hash c (fst e) = hint) /\
      (forall j e, (j < k)%nat -> nth_error ks j = Some e -> key_hash c (fst e) <> hint)
  | (None, _) => forall j e, nth_error ks j = Some e -> key_hash c (fst e) <> hint
  end.
Proof.
  induction ks as [|[k m] ks IH]; intros id hint buf; cbn [keyslot_from].
  - intros j e H. destruct j; discriminate.
  - destruct (list_eqb (key_hash c k) hint) eqn:E.
    + apply list_eqb_iff in E. exists 0%nat. split; [lia|]. split; [exact E|]. split.
      * exists (k, m). split; [reflexivity|exact E].
      * intros j e Hj. lia.
    + assert (Hne : key_hash c k <> hint).
      { intro H. apply list_eqb_iff in H. congruence. }
      specialize (IH (S id) hint (key_hash c k)).
      destruct (keyslot_from c ks (S id) hint (key_hash c k)) as [[n|] b].
      * destruct IH as (k' & -> & Hb & (e & He1 & He2) & Hm). exists (S k'). split; [lia|].
        split; [exact Hb|]. split; [exists e; auto|].
        intros j e' Hj Hn. destruct j as [|j]; cbn in Hn.
        -- inversion Hn; subst. exact Hne.
        -- apply (Hm j e'); [lia|exact Hn].
      * intros j e' Hn. destruct j as [|j]; cbn in Hn; [inversion Hn; subst; exact Hne|eauto].
Qed.

Lemma slot_hash_key : forall c n,
  slot_hash c n = match nth_error (c_keys c) n with Some e => Some (key_hash c (fst e)) | None => None end.
Proof. intros. unfold slot_hash. destruct (nth_error (c_keys c) n) as [[[k|] m]|]; reflexivity. Qed.

Lemma keyslot_spec : forall c hint buf,
  (exists n, names_slot c hint n /\ keyslot_id_by_sha c hint buf = (Some n, hint)) \/
  ((forall n, slot_hash c n <> Some hint) /\ exists b, keyslot_id_by_sha c hint buf = (None, b)).
Proof.
  intros c hint buf. unfold keyslot_id_by_sha.
  pose proof (keyslot_from_spec c (c_keys c) 0 hint buf) as K.
  destruct (keyslot_from c (c_keys c) 0 hint buf) as [[n|] b].
  - destruct K as (k & -> & -> & (e & He1 & He2) & Hm). left. exists k. split; [|reflexivity].
    split.
    + rewrite slot_hash_key, He1, He2. reflexivity.
    + intros m Hlt. rewrite slot_hash_key. destruct (nth_error (c_keys c) m) as [e'|] eqn:Em; [|discriminate].
      intro H. injection H as H. eapply Hm; eauto.
  - right. split; [|exists b; reflexivity]. intros n. rewrite slot_hash_key.
    destruct (nth_error (c_keys c) n) as [e'|] eqn:Em; [|discriminate].
    intro H. injection H as H. eapply K; eauto.
Qed.

Lemma names_slot_det : forall c hint n m, names_slot c hint n -> names_slot c hint m -> n = m.
Proof.
  intros c hint n m (A1 & A2) (B1 & B2).
  destruct (Nat.lt_trichotomy n m) as [L|[L|L]]; [|exact L|].
  - exfalso. eapply B2; eauto.
  - exfalso. eapply A2; eauto.
Qed.

Lemma mask_allows_bit : forall mask id, 0 <= id -> mask_allows mask id = Z.testbit mask id.
Proof.
  intros mask id Hid. unfold mask_allows. rewrite Z.shiftl_1_l.
  destruct (Z.testbit mask id) eqn:E.
  - apply Z.eqb_eq. apply Z.bits_inj'. intros n Hn. rewrite Z.land_spec, Z.pow2_bits_eqb by lia.
    destruct (Z.eqb_spec id n) as [->|Hne]; [rewrite E|]; reflexivity.
  - apply Z.eqb_neq. intro H.
    assert (K : Z.testbit (Z.land (2 ^ id) mask) id = false) by (rewrite Z.land_spec, E; apply andb_false_r).
    rewrite H, Z.pow2_bits_true in K by lia. discriminate.
Qed.

Lemma allowed_mask : forall c n id, 0 <= id ->
  (mask_allows (key_mask c n) id = true <-> allowed c n id).
Proof.
  intros c n id Hid. rewrite mask_allows_bit by assumption. unfold key_mask, allowed.
  destruct (nth_error (c_keys c) n) as [[k m]|]; split.
  - intro H. exists k, m. auto.
  - intros (k' & m' & H1 & H2). injection H1 as -> ->. exact H2.
  - intro H. rewrite Z.bits_0 in H. discriminate.
  - intros (k' & m' & H1 & H2). discriminate.
Qed.

(** ** Authenticity (C09) *)

Lemma type_word : forall b0 b1, is_byte b0 -> is_byte b1 ->
  Z.land (b0 + 256 * b1) TYPE_AUTH_MASK = 256 * b1 /\ Z.land (b0 + 256 * b1) TYPE_PART_MASK = b0 mod 16.
Proof.
  intros b0 b1 H0 H1. unfold is_byte in *. split.
  - apply Z.bits_inj'. intros n Hn. rewrite Z.land_spec.
    replace (256 * b1) with (Z.shiftl b1 8) by (rewrite Z.shiftl_mul_pow2 by lia; lia).
    rewrite <- (Z.lxor_lor b0 (Z.shiftl b1 8)) || idtac.
    replace (b0 + Z.shiftl b1 8) with (le16 b0 b1)
      by (rewrite le16_add by assumption; rewrite Z.shiftl_mul_pow2 by lia; lia).
    unfold le16. rewrite Z.lor_spec, Z.shiftl_spec by lia.
    unfold TYPE_AUTH_MASK.
    destruct (Z.ltb_spec n 8).
    + rewrite (Z.testbit_neg_r b1) by lia.
      assert (Z.testbit 0xFF00 n = false).
      { assert (n = 0 \/ n = 1 \/ n = 2 \/ n = 3 \/ n = 4 \/ n = 5 \/ n = 6 \/ n = 7) as K by lia.
        repeat (destruct K as [ -> | K ]; [reflexivity|]). subst. reflexivity. }
      rewrite H2. apply andb_false_r.
    + replace (Z.testbit b0 n) with false.
      2:{ symmetry. apply Z.bits_above_log2; [lia|].
          destruct (Z.eq_dec b0 0) as [->|]; [cbn; lia|].
          apply Z.log2_lt_pow2; [lia|]. apply Z.lt_le_trans with (2 ^ 8); [lia|]. apply Z.pow_le_mono_r; lia. }
      cbn [orb]. destruct (Z.ltb_spec n 16).
      * assert (Z.testbit 0xFF00 n = true).
        { assert (n = 8 \/ n = 9 \/ n = 10 \/ n = 11 \/ n = 12 \/ n = 13 \/ n = 14 \/ n = 15) as K by lia.
          repeat (destruct K as [ -> | K ]; [reflexivity|]). subst. reflexivity. }
        rewrite H3. apply andb_true_r.
      * replace (Z.testbit b1 (n - 8)) with false; [reflexivity|].
        symmetry. apply Z.bits_above_log2; [lia|].
        destruct (Z.eq_dec b1 0) as [->|]; [cbn; lia|].
        apply Z.log2_lt_pow2; [lia|]. apply Z.lt_le_trans with (2 ^ 8); [lia|]. apply Z.pow_le_mono_r; lia.
  - unfold TYPE_PART_MASK. change 0x000F with (Z.ones 4). rewrite Z.land_ones by lia. lia.
Qed.

(** Looking a key hint up. *)
Lemma hint_cases : forall c f hdr ty, bytes f -> hdr_small c ->
  (exists off slot, let hint := rdl f (hdr + Z.of_nat off) (c_digsz c) in
     get_header c f hdr ty = Val (Some (off, c_digsz c)) /\
     (forall buf, keyslot_id_by_sha c hint buf = (Some slot, hint)) /\
     (forall id n, 0 <= id -> signer c hdr (hdr_bytes c f hdr) ty id n <->
                   n = slot /\ mask_allows (key_mask c slot) id = true)) \/
  ((forall id n, ~ signer c hdr (hdr_bytes c f hdr) ty id n) /\
   (get_header c f hdr ty = Val None \/
    (exists off len, get_header c f hdr ty = Val (Some (off, len)) /\ len <> c_digsz c) \/
    (exists off, get_header c f hdr ty = Val (Some (off, c_digsz c)) /\
       forall buf, exists b,
         keyslot_id_by_sha c (rdl f (hdr + Z.of_nat off) (c_digsz c)) buf = (None, b)))).
Proof.
  intros c f hdr ty Hb Hh. destruct (hdr_facts c f hdr Hb Hh) as (F1 & F2 & F3).
  destruct (get_header_val c f hdr ty Hb Hh) as (r & E & K).
  destruct r as [[off len]|].
  - destruct K as (d & K1 & K2 & K3 & K4 & K5).
    destruct (Nat.eq_dec len (c_digsz c)) as [L|L].
    + rewrite L in *. destruct (keyslot_spec c d []) as [(n & N1 & N2)|(N1 & N2)].
      * left. exists off, n. cbn zeta. rewrite K3. split; [exact E|]. split.
        { intro buf. destruct (keyslot_spec c d buf) as [(m & M1 & M2)|(M1 & _)].
          - rewrite (names_slot_det _ _ _ _ N1 M1). exact M2.
          - exfalso. eapply M1, N1. }
        intros id m Hid. split.
        -- intros (o & h & S1 & S2 & S3 & S4).
           destruct (field_det _ _ _ _ _ _ _ F1 F3 K1 S1) as (<- & <-).
           rewrite (names_slot_det _ _ _ _ N1 S3) in *. split; [reflexivity|].
           apply allowed_mask; assumption.
        -- intros (-> & S). exists off, d. repeat split; auto; try apply N1. now apply allowed_mask.
      * right. split.
        -- intros id n (o & h & S1 & S2 & (S3 & _) & S4).
           destruct (field_det _ _ _ _ _ _ _ F1 F3 K1 S1) as (<- & <-). eapply N1, S3.
        -- right. right. exists off. split; [exact E|]. rewrite K3. intro buf.
           destruct (keyslot_spec c d buf) as [(m & M1 & M2)|(_ & M)]; [|exact M].
           exfalso. eapply N1, M1.
    + right. split; [|right; left; exists off, len; auto].
      intros id n (o & h & S1 & S2 & _).
      destruct (field_det _ _ _ _ _ _ _ F1 F3 K1 S1) as (<- & <-). congruence.
  - right. split; [|left; exact E].
    intros id n (o & h & S1 & _). eapply field_none; eauto.
Qed.

Lemma presented_sig : forall c f hdr ty n s, bytes f -> hdr_small c ->
  exists r, get_header c f hdr ty = Val r /\
    (presented f hdr (hdr_bytes c f hdr) ty n s <-> s = sig_bytes f hdr r n).
Proof.
  intros c f hdr ty n s Hb Hh. destruct (hdr_facts c f hdr Hb Hh) as (F1 & F2 & F3).
  destruct (get_header_val c f hdr ty Hb Hh) as (r & E & K). exists r. split; [exact E|].
  destruct r as [[off len]|]; unfold sig_bytes.
  - destruct K as (d & K1 & _). split.
    + intros [(o & d' & S1 & S2)|(S1 & _)].
      * destruct (field_det _ _ _ _ _ _ _ F1 F3 K1 S1) as (<- & _). exact S2.
      * exfalso. eapply field_none; eauto.
    + intros ->. left. exists off, d. auto.
  - split.
    + intros [(o & d' & S1 & S2)|(_ & S)]; [exfalso; eapply field_none; eauto|exact S].
    + intros ->. right. auto.
Qed.

Lemma type_cases : forall c f hdr, bytes f -> hdr_small c ->
  (exists off, get_header c f hdr HDR_IMG_TYPE = Val (Some (off, 2%nat)) /\
     forall id, type_ok c hdr (hdr_bytes c f hdr) id <->
       Z.land (half f (hdr + Z.of_nat off)) TYPE_AUTH_MASK = c_auth c /\
       id = Z.land (half f (hdr + Z.of_nat off)) TYPE_PART_MASK) \/
  ((forall id, ~ type_ok c hdr (hdr_bytes c f hdr) id) /\
   (get_header c f hdr HDR_IMG_TYPE = Val None \/
    exists off len, get_header c f hdr HDR_IMG_TYPE = Val (Some (off, len)) /\ len <> 2%nat)).
Proof.
  intros c f hdr Hb Hh. destruct (hdr_facts c f hdr Hb Hh) as (F1 & F2 & F3).
  destruct (get_header_val c f hdr HDR_IMG_TYPE Hb Hh) as (r & E & K).
  destruct r as [[off len]|].
  - destruct K as (d & K1 & K2 & K3 & K4 & K5).
    destruct (Nat.eq_dec len 2) as [L|L].
    + left. exists off. rewrite L in *. split; [exact E|]. intro id.
      cbn [rdl] in K3.
      destruct (type_word (f (hdr + Z.of_nat off)) (f (hdr + Z.of_nat off + 1)) (Hb _) (Hb _)) as (T1 & T2).
      unfold half. rewrite T1, T2. split.
      * intros (o & b0 & b1 & S1 & S2 & S3).
        destruct (field_det _ _ _ _ _ _ _ F1 F3 K1 S1) as (<- & Ed).
        rewrite <- K3 in Ed. injection Ed as E0 E1. subst b0 b1. auto.
      * intros (S1 & S2). eexists off, _, _. rewrite K3. split; [exact K1|]. auto.
    + right. split; [|right; exists off, len; auto].
      intros id (o & b0 & b1 & S1 & _).
      destruct (field_det _ _ _ _ _ _ _ F1 F3 K1 S1) as (_ & ->). apply L. rewrite <- K2. reflexivity.
  - right. split; [|left; exact E]. intros id (o & b0 & b1 & S1 & _). eapply field_none; eauto.
Qed.

Ltac auth_no := right; split; [intros (id0 & n0 & s0 & A1 & A2 & A3 & A4 & A5) |
  eexists; split; [reflexivity|cbn; try assumption; try reflexivity]].

Lemma verify_authenticity_spec : forall c f img d, bytes f -> hdr_small c ->
  i_sha img = Some d -> i_sig_ok img = false ->
  (authentic c f (i_hdr img) (hdr_bytes c f (i_hdr img)) d /\
   verify_authenticity c f img = Val (Accept, set_sig img true)) \/
  (~ authentic c f (i_hdr img) (hdr_bytes c f (i_hdr img)) d /\
   exists img', verify_authenticity c f img = Val (Reject, img') /\ i_sig_ok img' = false).
Proof.
  intros c f img d Hb Hh Hsha Hsig. unfold verify_authenticity. cbn zeta.
  set (hdr := i_hdr img). set (h := hdr_bytes c f hdr).
  destruct (get_header_val c f hdr HDR_SIGNATURE Hb Hh) as (sig & Esig & _).
  assert (Psig : forall s, presented f hdr h HDR_SIGNATURE (c_sigsz c) s <-> s = sig_bytes f hdr sig (c_sigsz c)).
  { intro s. destruct (presented_sig c f hdr HDR_SIGNATURE (c_sigsz c) s Hb Hh) as (r & E & P).
    rewrite Esig in E. injection E as ->. exact P. }
  rewrite Esig. cbn [obind].
  destruct (hint_cases c f hdr HDR_PUBKEY Hb Hh) as
    [(hoff & slot & Ehint & Ekey & Psign)|(Nsign & Hcase)].
  2:{ destruct Hcase as [Eh|[(off & len & Eh & L)|(off & Eh & Ek)]]; rewrite Eh; cbn [obind].
      - auth_no. eapply Nsign; eauto.
      - apply Nat.eqb_neq in L. rewrite L. cbn [negb]. auth_no. eapply Nsign; eauto.
      - rewrite Nat.eqb_refl. cbn [negb]. destruct (Ek []) as (b & Ek'). rewrite Ek'.
        auth_no. eapply Nsign; eauto. }
  rewrite Ehint. cbn [obind]. rewrite Nat.eqb_refl. cbn [negb]. rewrite Ekey.
  destruct (type_cases c f hdr Hb Hh) as [(toff & Ety & Pty)|(Nty & Hcase)].
  2:{ destruct Hcase as [Eh|(off & len & Eh & L)]; rewrite Eh; cbn [obind].
      - auth_no. eapply Nty; eauto.
      - apply Nat.eqb_neq in L. rewrite L. cbn [negb]. auth_no. eapply Nty; eauto. }
  rewrite Ety. cbn [obind Nat.eqb negb].
  destruct (Z.eqb_spec (Z.land (half f (hdr + Z.of_nat toff)) TYPE_AUTH_MASK) (c_auth c)) as [Ea|Ea]; cbn [negb].
  2:{ auth_no. apply Pty in A1. apply Ea, A1. }
  rewrite Hsha. cbn [obind].
  set (id := Z.land (half f (hdr + Z.of_nat toff)) TYPE_PART_MASK) in *.
  assert (Hid : 0 <= id) by (apply Z.land_nonneg; right; discriminate).
  assert (Tid : type_ok c hdr h id) by (apply Pty; auto).
  assert (Uid : forall i, type_ok c hdr h i -> i = id) by (intros i Hi; apply Pty in Hi; apply Hi).
  assert (Es : set_sha img d = img) by (destruct img; unfold set_sha; cbn in *; congruence).
  rewrite Es, Hsig. cbn [orb].
  destruct (mask_allows (key_mask c slot) id) eqn:Em; cbn [negb].
  2:{ auth_no. apply Uid in A1. subst id0. apply Psign in A2; [|exact Hid]. destruct A2. congruence. }
  destruct (c_verify c slot d (sig_bytes f hdr sig (c_sigsz c))) eqn:Ev; cbn [negb i_sig_ok set_sig].
  2:{ auth_no. apply Uid in A1. subst id0. apply Psign in A2; [|exact Hid]. destruct A2 as (-> & _).
      apply Psig in A3. subst s0. congruence. }
  assert (S1 : signer c hdr h HDR_PUBKEY id slot) by (apply Psign; auto).
  assert (P1 : presented f hdr h HDR_SIGNATURE (c_sigsz c) (sig_bytes f hdr sig (c_sigsz c)))
    by (apply Psig; reflexivity).
  destruct (c_hybrid c) eqn:Ehy; cbn [negb].
  2:{ left. split; [|reflexivity]. exists id, slot, (sig_bytes f hdr sig (c_sigsz c)).
      repeat (split; [assumption|]). intro Hx. congruence. }
  destruct (hint_cases c f hdr HDR_SECONDARY_PUBKEY Hb Hh) as
    [(h2off & slot2 & Ehint2 & Ekey2 & Psign2)|(Nsign2 & Hcase)].
  2:{ destruct Hcase as [Eh|[(off & len & Eh & L)|(off & Eh & Ek)]]; rewrite Eh; cbn [obind].
      - auth_no. destruct (A5 Ehy) as (n2 & s2 & B1 & _). eapply Nsign2; eauto.
      - apply Nat.eqb_neq in L. rewrite L. cbn [negb].
        auth_no. destruct (A5 Ehy) as (n2 & s2 & B1 & _). eapply Nsign2; eauto.
      - rewrite Nat.eqb_refl. cbn [negb]. destruct (Ek (rdl f (hdr + Z.of_nat hoff) (c_digsz c))) as (b & Ek').
        rewrite Ek'. auth_no. destruct (A5 Ehy) as (n2 & s2 & B1 & _). eapply Nsign2; eauto. }
  rewrite Ehint2. cbn [obind]. rewrite Nat.eqb_refl. cbn [negb]. rewrite Ekey2.
  destruct (mask_allows (key_mask c slot2) id) eqn:Em2; cbn [negb].
  2:{ auth_no. apply Uid in A1. subst id0. destruct (A5 Ehy) as (n2 & s2 & B1 & _).
      apply Psign2 in B1; [|exact Hid]. destruct B1. congruence. }
  destruct (get_header_val c f hdr HDR_SECONDARY_SIGNATURE Hb Hh) as (sig2 & Esig2 & _).
  assert (Psig2 : forall s, presented f hdr h HDR_SECONDARY_SIGNATURE (c_sigsz2 c) s <-> s = sig_bytes f hdr sig2 (c_sigsz2 c)).
  { intro s. destruct (presented_sig c f hdr HDR_SECONDARY_SIGNATURE (c_sigsz2 c) s Hb Hh) as (r & E & P).
    rewrite Esig2 in E. injection E as ->. exact P. }
  rewrite Esig2. cbn [obind].
  destruct (c_verify2 c slot2 d (sig_bytes f hdr sig2 (c_sigsz2 c))) eqn:Ev2.
  - left. split; [|reflexivity]. exists id, slot, (sig_bytes f hdr sig (c_sigsz c)).
    repeat (split; [assumption|]). intros _. exists slot2, (sig_bytes f hdr sig2 (c_sigsz2 c)).
    split; [apply Psign2; auto|]. split; [apply Psig2; reflexivity|exact Ev2].
  - auth_no. apply Uid in A1. subst id0. destruct (A5 Ehy) as (n2 & s2 & B1 & B2 & B3).
    apply Psign2 in B1; [|exact Hid]. destruct B1 as (-> & _). apply Psig2 in B2. subst s2. congruence.
Qed.

(** ** Opening (C11) *)

Lemma word_range : forall f a, bytes f -> 0 <= word f a < 2 ^ 32.
Proof.
  intros f a Hb. unfold word, le32.
  pose proof (Hb a). pose proof (Hb (a + 1)). pose proof (Hb (a + 2)). pose proof (Hb (a + 3)).
  unfold is_byte in *. lia.
Qed.

Lemma open_image_ok : forall c f p img, bytes f -> p <> PSWAP -> open_image c f p = (true, img) ->
  i_hdr img = part_addr c p /\ i_base img = part_addr c p + HDR c /\
  i_size img = word f (part_addr c p + 4) /\ word f (part_addr c p) = WOLFBOOT_MAGIC /\
  0 <= i_size img <= PART c - HDR c /\
  i_sha_ok img = false /\ i_sig_ok img = false /\ i_sha img = None /\ i_part img = p.
Proof.
  intros c f p img Hb Hp. unfold open_image. cbn zeta.
  assert (E : forall (A : Type) (x y : A), (match p with PSWAP => x | PBOOT => y | PUPDATE => y end) = y)
    by (destruct p; congruence).
  rewrite E. clear E.
  destruct (Z.eqb_spec (word f (part_addr c p)) WOLFBOOT_MAGIC) as [Em|Em]; cbn [negb]; [|discriminate].
  destruct (Z.gtb_spec (image_size f (part_addr c p)) (PART c - HDR c)); [discriminate|].
  intro E. injection E as <-. cbn. unfold image_size in *.
  pose proof (word_range f (part_addr c p + 4) Hb). repeat split; auto; lia.
Qed.

Lemma open_image_bad : forall c f p img, p <> PSWAP -> open_image c f p = (false, img) ->
  i_base img = 0 /\ (i_size img = 0 \/ i_size img = PART c - HDR c) /\
  i_sha_ok img = false /\ i_sig_ok img = false /\ i_sha img = None /\
  (word f (part_addr c p) <> WOLFBOOT_MAGIC \/ word f (part_addr c p + 4) > PART c - HDR c).
Proof.
  intros c f p img Hp. unfold open_image. cbn zeta.
  assert (E : forall (A : Type) (x y : A), (match p with PSWAP => x | PBOOT => y | PUPDATE => y end) = y)
    by (destruct p; congruence).
  rewrite E. clear E.
  destruct (Z.eqb_spec (word f (part_addr c p)) WOLFBOOT_MAGIC) as [Em|Em]; cbn [negb].
  - destruct (Z.gtb_spec (image_size f (part_addr c p)) (PART c - HDR c)); [|discriminate].
    intro E. injection E as <-. cbn. unfold image_size in *. repeat split; auto; lia.
  - intro E. injection E as <-. cbn. repeat split; auto.
Qed.
