From Verif Require Import Base BaseLemmas HeaderModel HeaderSpec HeaderProofs SignModel SignSpec.

Definition recs_of (items : list item) : list (Z * list Z) :=
  concat (map (fun i => match i with Pad _ => [] | Rec t d => [(t, d)] end) items).

(** Items as the tool lays them out: only 0xFF padding, records at even offsets. *)
Fixpoint wf (pos : Z) (items : list item) : Prop :=
  match items with
  | [] => True
  | Pad b :: l => b = 255 /\ wf (pos + 1) l
  | Rec t d :: l => Z.odd pos = false /\ 0 < t < 65536 /\ t mod 256 <> 255 /\
                    ok_data d /\ wf (pos + 4 + zlen d) l
  end.

Definition good (h : list Z) (fs : list (Z * list Z)) : Prop :=
  exists pre items, length pre = 8%nat /\ all_bytes pre /\
    h = pre ++ items_bytes items /\ wf 8 items /\ recs_of items = fs.

Lemma le_bytes2 : forall v, 0 <= v < 65536 -> le_bytes 2 v = [v mod 256; v / 256].
Proof. intros v H. cbn [le_bytes]. rewrite (Z.mod_small (v / 256)) by lia. reflexivity. Qed.

Lemma recs_app : forall a b, recs_of (a ++ b) = recs_of a ++ recs_of b.
Proof. intros. unfold recs_of. rewrite map_app, concat_app. reflexivity. Qed.

Lemma items_bytes_app : forall a b, items_bytes (a ++ b) = items_bytes a ++ items_bytes b.
Proof. intros. unfold items_bytes. rewrite map_app, concat_app. reflexivity. Qed.

Lemma zlen_rec : forall t d, zlen (item_bytes (Rec t d)) = 4 + zlen d.
Proof. intros. unfold zlen. cbn [item_bytes]. rewrite app_length. cbn [length]. lia. Qed.

Lemma wf_app : forall a b pos,
  wf pos a -> wf (pos + zlen (items_bytes a)) b -> wf pos (a ++ b).
Proof.
  induction a as [|i a IH]; intros b pos Ha Hb.
  - cbn [app]. unfold items_bytes in Hb. cbn in Hb. rewrite Z.add_0_r in Hb. exact Hb.
  - rewrite items_bytes_cons, zlen_app in Hb. destruct i as [c|t d]; cbn [app wf] in *.
    + destruct Ha as [-> Ha]. split; [reflexivity|]. apply IH; [exact Ha|].
      replace (pos + 1 + zlen (items_bytes a)) with (pos + (zlen (item_bytes (Pad 255)) + zlen (items_bytes a)));
        [exact Hb|]. cbn [item_bytes]. unfold zlen. cbn [length]. lia.
    + destruct Ha as (H1 & H2 & H3 & H4 & H5). repeat (split; [assumption|]).
      apply IH; [exact H5|]. rewrite zlen_rec in Hb.
      replace (pos + 4 + zlen d + zlen (items_bytes a)) with (pos + (4 + zlen d + zlen (items_bytes a))) by lia.
      exact Hb.
Qed.

Lemma pads_bytes : forall k, items_bytes (repeat (Pad 255) k) = repeat 255 k.
Proof. induction k as [|k IH]; [reflexivity|]. cbn [repeat]. rewrite items_bytes_cons, IH. reflexivity. Qed.
Lemma pads_wf : forall k pos, wf pos (repeat (Pad 255) k).
Proof. induction k as [|k IH]; intro pos; cbn [repeat wf]; auto. Qed.
Lemma pads_recs : forall k, recs_of (repeat (Pad 255) k) = [].
Proof. induction k as [|k IH]; [reflexivity|]. cbn [repeat]. exact IH. Qed.

Lemma good_pad : forall h fs k, good h fs -> good (h ++ repeat 255 k) fs.
Proof.
  intros h fs k (pre & items & H1 & H2 & H3 & H4 & H5).
  exists pre, (items ++ repeat (Pad 255) k). repeat split; auto.
  - rewrite items_bytes_app, pads_bytes, H3, app_assoc. reflexivity.
  - apply wf_app; [assumption|apply pads_wf].
  - rewrite recs_app, pads_recs, H5. apply app_nil_r.
Qed.

Lemma good_align8 : forall h fs, good h fs -> good (align8 h) fs.
Proof. intros. apply good_pad. assumption. Qed.
Lemma good_align4 : forall h fs, good h fs -> good (align4 h) fs.
Proof. intros. apply good_pad. assumption. Qed.

Definition even_len (h : list Z) : Prop := Z.odd (zlen h) = false.

Lemma even_mod : forall h, even_len h <-> (zlen h) mod 2 = 0.
Proof.
  intro h. unfold even_len. rewrite Zmod_odd. destruct (Z.odd (zlen h)); split; intro; try reflexivity; discriminate.
Qed.

Lemma even_align8 : forall h, even_len (align8 h).
Proof.
  intro h. apply even_mod. unfold align8, zlen. rewrite app_length, repeat_length.
  lia.
Qed.
Lemma even_align4 : forall h, even_len (align4 h).
Proof.
  intro h. apply even_mod. unfold align4, zlen. rewrite app_length, repeat_length.
  lia.
Qed.
Lemma even_put : forall t d h, even_len h -> even_len d -> even_len (put_tag t d h).
Proof.
  intros t d h Hh Hd. rewrite even_mod in *. unfold put_tag, zlen in *.
  rewrite !app_length, !le_bytes_length. lia.
Qed.

Lemma good_put : forall h fs t d,
  good h fs -> even_len h -> 0 < t < 65536 -> t mod 256 <> 255 -> ok_data d ->
  good (put_tag t d h) (fs ++ [(t, d)]).
Proof.
  intros h fs t d (pre & items & H1 & H2 & H3 & H4 & H5) He Ht Ht' Hd.
  exists pre, (items ++ [Rec t d]). repeat split; auto.
  - unfold put_tag. rewrite items_bytes_app, H3, <- app_assoc. do 2 f_equal.
    rewrite items_bytes_cons. destruct Hd as (_ & Hd & _). pose proof (zlen_nonneg d).
    rewrite !le_bytes2 by lia. cbn [item_bytes app]. unfold items_bytes. cbn [map concat].
    rewrite app_nil_r. reflexivity.
  - apply wf_app; [assumption|]. cbn [wf]. repeat (split; [try assumption|]); try apply Hd; auto.
    unfold even_len in He. rewrite H3, zlen_app in He.
    replace (zlen pre) with 8 in He by (unfold zlen; lia). exact He.
  - rewrite recs_app, H5. reflexivity.
Qed.

Lemma ok_le : forall n v, (0 < n)%nat -> Z.of_nat n < 65536 -> ok_data (le_bytes n v).
Proof.
  intros n v H H'. repeat split.
  - destruct n; [lia|]. discriminate.
  - unfold zlen. rewrite le_bytes_length. lia.
  - apply le_bytes_bytes.
Qed.
Lemma even_le : forall n v, Z.of_nat n mod 2 = 0 -> even_len (le_bytes n v).
Proof. intros n v H. apply even_mod. unfold zlen. rewrite le_bytes_length. exact H. Qed.

Ltac tagok :=
  match goal with
  | |- 0 < _ < 65536 => first [lia | split; reflexivity]
  | |- _ mod 256 <> 255 => first [assumption | vm_compute; discriminate]
  | |- ok_data (le_bytes _ _) => apply ok_le; lia
  | |- even_len (le_bytes _ _) => apply even_le; reflexivity
  | |- even_len (align8 _) => apply even_align8
  | |- even_len (align4 _) => apply even_align4
  | |- even_len (put_tag _ _ _) => apply even_put; tagok
  | |- good (align8 _) _ => apply good_align8; tagok
  | |- good (align4 _) _ => apply good_align4; tagok
  | |- _ => assumption
  end.

Lemma good_fixed : forall o sz,
  good (lay_fixed o sz)
    ([(HDR_VERSION, le_bytes 4 (o_version o))]
      ++ opt_field (o_timestamp o) (fun t => (HDR_TIMESTAMP, le_bytes 8 t))
      ++ [(HDR_IMG_TYPE, le_bytes 2 (o_img_type o))]) /\ even_len (lay_fixed o sz).
Proof.
  intros o sz. unfold lay_fixed.
  set (h0 := le_bytes 4 WOLFBOOT_MAGIC ++ le_bytes 4 sz).
  assert (G0 : good h0 []).
  { exists h0, []. split; [reflexivity|]. split; [apply all_bytes_app; split; apply le_bytes_bytes|].
    split; [symmetry; apply app_nil_r|]. split; [exact I|reflexivity]. }
  assert (E0 : even_len h0).
  { apply even_mod. unfold h0, zlen. rewrite app_length, !le_bytes_length. reflexivity. }
  set (h1 := align8 (put_tag HDR_VERSION (le_bytes 4 (o_version o)) h0)).
  assert (G1 : good h1 ([] ++ [(HDR_VERSION, le_bytes 4 (o_version o))])).
  { apply good_align8, good_put; tagok. }
  assert (E1 : even_len h1) by apply even_align8.
  destruct (o_timestamp o) as [ts|]; cbn [opt_field app] in *.
  - split.
    + change [(HDR_VERSION, le_bytes 4 (o_version o)); (HDR_TIMESTAMP, le_bytes 8 ts);
              (HDR_IMG_TYPE, le_bytes 2 (o_img_type o))]
       with (([(HDR_VERSION, le_bytes 4 (o_version o))] ++ [(HDR_TIMESTAMP, le_bytes 8 ts)])
              ++ [(HDR_IMG_TYPE, le_bytes 2 (o_img_type o))]).
      apply good_put; try tagok; first [apply good_put; tagok|apply even_put; tagok].
    + apply even_put; [apply even_put; tagok|tagok].
  - split.
    + change [(HDR_VERSION, le_bytes 4 (o_version o)); (HDR_IMG_TYPE, le_bytes 2 (o_img_type o))]
       with ([(HDR_VERSION, le_bytes 4 (o_version o))] ++ [(HDR_IMG_TYPE, le_bytes 2 (o_img_type o))]).
      apply good_put; tagok.
    + apply even_put; tagok.
Qed.

Lemma good_delta : forall o h fs,
  (forall d bh, o_delta o = Some d -> d_base_hash d = Some bh -> ok_data bh) ->
  good h fs ->
  good (lay_delta o h)
    (fs ++ match o_delta o with
     | None => []
     | Some d =>
         [(HDR_IMG_DELTA_BASE, le_bytes 4 (d_base d));
          (HDR_IMG_DELTA_SIZE, le_bytes 4 (d_size d));
          (HDR_IMG_DELTA_INVERSE, le_bytes 4 (d_inv_off d));
          (HDR_IMG_DELTA_INVERSE_SIZE, le_bytes 4 (d_inv_size d))]
         ++ opt_field (d_base_hash d) (fun h => (HDR_IMG_DELTA_BASE_HASH, h))
     end).
Proof.
  intros o h fs Hok Hg. unfold lay_delta. destruct (o_delta o) as [d|].
  2:{ rewrite app_nil_r. exact Hg. }
  specialize (Hok d).
  assert (G : good (put_tag HDR_IMG_DELTA_INVERSE_SIZE (le_bytes 4 (d_inv_size d))
     (put_tag HDR_IMG_DELTA_INVERSE (le_bytes 4 (d_inv_off d))
        (align4 (put_tag HDR_IMG_DELTA_SIZE (le_bytes 4 (d_size d))
           (put_tag HDR_IMG_DELTA_BASE (le_bytes 4 (d_base d)) (align4 h))))))
     ((((fs ++ [(HDR_IMG_DELTA_BASE, le_bytes 4 (d_base d))])
        ++ [(HDR_IMG_DELTA_SIZE, le_bytes 4 (d_size d))])
        ++ [(HDR_IMG_DELTA_INVERSE, le_bytes 4 (d_inv_off d))])
        ++ [(HDR_IMG_DELTA_INVERSE_SIZE, le_bytes 4 (d_inv_size d))])).
  { repeat first [ apply good_align4 | apply good_put; try tagok ]. }
  destruct (d_base_hash d) as [bh|]; cbn [opt_field].
  - rewrite <- !app_assoc in G. cbn [app] in G.
    change (fs ++ [(HDR_IMG_DELTA_BASE, le_bytes 4 (d_base d));
            (HDR_IMG_DELTA_SIZE, le_bytes 4 (d_size d));
            (HDR_IMG_DELTA_INVERSE, le_bytes 4 (d_inv_off d));
            (HDR_IMG_DELTA_INVERSE_SIZE, le_bytes 4 (d_inv_size d))] ++ [(HDR_IMG_DELTA_BASE_HASH, bh)])
    with (fs ++ ([(HDR_IMG_DELTA_BASE, le_bytes 4 (d_base d));
            (HDR_IMG_DELTA_SIZE, le_bytes 4 (d_size d));
            (HDR_IMG_DELTA_INVERSE, le_bytes 4 (d_inv_off d));
            (HDR_IMG_DELTA_INVERSE_SIZE, le_bytes 4 (d_inv_size d))] ++ [(HDR_IMG_DELTA_BASE_HASH, bh)])).
    rewrite app_assoc. apply good_put; try tagok.
    apply Hok; reflexivity.
  - rewrite app_nil_r. rewrite <- !app_assoc in G. exact G.
Qed.

Lemma good_custom_aux : forall l h fs,
  (forall t d, In (t, d) l -> 0x30 <= t < 65536 /\ t mod 256 <> 255 /\ t / 256 <> 255 /\ ok_data d) ->
  good h fs ->
  good (fold_left (fun h tv => put_tag (fst tv) (snd tv) (align8 h)) l h) (fs ++ l).
Proof.
  induction l as [|[t d] l IH]; intros h fs Hok Hg; cbn [fold_left].
  - rewrite app_nil_r. exact Hg.
  - replace (fs ++ (t, d) :: l) with ((fs ++ [(t, d)]) ++ l) by (rewrite <- app_assoc; reflexivity).
    apply IH.
    + intros t' d' H. apply Hok. right. exact H.
    + cbn [fst snd]. destruct (Hok t d (or_introl eq_refl)) as (H1 & H2 & _ & H3).
      apply good_put; auto; tagok.
Qed.

Lemma good_keys : forall o h fs,
  ok_data (o_pubkey_hash o) -> (forall c h2, o_secondary o = Some (c, h2) -> ok_data h2) ->
  good h fs ->
  good (lay_keys o h)
    (fs ++ [(HDR_PUBKEY, o_pubkey_hash o)]
     ++ match o_secondary o with
        | None => []
        | Some (c, h2) => [(HDR_SECONDARY_CIPHER, le_bytes 2 c); (HDR_SECONDARY_PUBKEY, h2)]
        end).
Proof.
  intros o h fs Hk Hs Hg. unfold lay_keys. apply good_align8.
  assert (G : good (align8 (put_tag HDR_PUBKEY (o_pubkey_hash o) (align8 h)))
               (fs ++ [(HDR_PUBKEY, o_pubkey_hash o)])).
  { apply good_align8, good_put; tagok. }
  destruct (o_secondary o) as [[c h2]|].
  - specialize (Hs c h2 eq_refl).
    replace (fs ++ [(HDR_PUBKEY, o_pubkey_hash o)] ++ [(HDR_SECONDARY_CIPHER, le_bytes 2 c); (HDR_SECONDARY_PUBKEY, h2)])
      with (((fs ++ [(HDR_PUBKEY, o_pubkey_hash o)]) ++ [(HDR_SECONDARY_CIPHER, le_bytes 2 c)]) ++ [(HDR_SECONDARY_PUBKEY, h2)])
      by (rewrite <- !app_assoc; reflexivity).
    apply good_put; try tagok.
    + assert (G2 : good (put_tag HDR_SECONDARY_CIPHER (le_bytes 2 c)
                 (align8 (put_tag HDR_PUBKEY (o_pubkey_hash o) (align8 h))))
                ((fs ++ [(HDR_PUBKEY, o_pubkey_hash o)]) ++ [(HDR_SECONDARY_CIPHER, le_bytes 2 c)])).
      { apply good_put; tagok. }
      destruct (o_algo o); [apply good_align8|..]; exact G2.
    + destruct (o_algo o); [apply even_align8|apply even_put; [apply even_align8|tagok]..].
  - rewrite app_nil_r. exact G.
Qed.

Lemma good_prefix : forall o sz, ok_opts o -> good (signed_prefix o sz) (hashed_fields o).
Proof.
  intros o sz (H1 & H2 & H3 & H4 & H5). unfold signed_prefix.
  pose proof (good_keys o _ _ H2 H4
    (good_custom_aux (o_custom o) _ _ H1 (good_delta o _ _ H3 (proj1 (good_fixed o sz))))) as G.
  unfold lay_custom. unfold hashed_fields. rewrite <- !app_assoc in G. cbn [app] in G.
  exact G.
Qed.

Lemma even_prefix : forall o sz, even_len (signed_prefix o sz).
Proof. intros. unfold signed_prefix, lay_keys. apply even_align8. Qed.

Definition ends_rec (h : list Z) (fs : list (Z * list Z)) : Prop :=
  exists pre items t d, length pre = 8%nat /\ all_bytes pre /\
    h = pre ++ items_bytes (items ++ [Rec t d]) /\ wf 8 (items ++ [Rec t d]) /\
    recs_of (items ++ [Rec t d]) = fs.

Lemma ends_put : forall h fs t d,
  good h fs -> even_len h -> 0 < t < 65536 -> t mod 256 <> 255 -> ok_data d ->
  ends_rec (put_tag t d h) (fs ++ [(t, d)]).
Proof.
  intros h fs t d (pre & items & H1 & H2 & H3 & H4 & H5) He Ht Ht' Hd.
  exists pre, items, t, d. repeat split; auto.
  - unfold put_tag. rewrite items_bytes_app, H3, <- app_assoc. do 2 f_equal.
    rewrite items_bytes_cons. destruct Hd as (_ & Hd & _). pose proof (zlen_nonneg d).
    rewrite !le_bytes2 by lia. cbn [item_bytes app]. unfold items_bytes. cbn [map concat].
    rewrite app_nil_r. reflexivity.
  - apply wf_app; [assumption|]. cbn [wf]. repeat (split; [try assumption|]); try apply Hd; auto.
    unfold even_len in He. rewrite H3, zlen_app in He.
    replace (zlen pre) with 8 in He by (unfold zlen; lia). exact He.
  - rewrite recs_app, H5. reflexivity.
Qed.

Lemma ends_good : forall h fs, ends_rec h fs -> good h fs.
Proof. intros h fs (pre & items & t & d & H). exists pre, (items ++ [Rec t d]). exact H. Qed.

Lemma ends_sigs : forall o sz digest,
  ok_opts o -> ok_data digest -> 
  (forall sg, o_sign o = Some sg -> ok_data (sg digest)) ->
  (forall sg, o_sign2 o = Some sg -> ok_data (sg digest)) ->
  ends_rec (lay_sigs o digest (signed_prefix o sz)) (all_fields o digest).
Proof.
  intros o sz digest Ho Hd Hs Hs2.
  unfold lay_sigs, all_fields.
  assert (E1 : ends_rec (put_tag (hash_tag (o_algo o)) digest (signed_prefix o sz))
                        (hashed_fields o ++ [(hash_tag (o_algo o), digest)])).
  { apply ends_put; [apply good_prefix; assumption|apply even_prefix|..|assumption];
      destruct (o_algo o); vm_compute; try split; congruence. }
  destruct (o_sign o) as [sg|].
  2:{ rewrite app_nil_r. exact E1. }
  specialize (Hs sg eq_refl).
  assert (E2 : forall h fs, ends_rec h fs ->
     ends_rec (put_tag HDR_SIGNATURE (sg digest) (align8 h)) (fs ++ [(HDR_SIGNATURE, sg digest)])).
  { intros h fs E. apply ends_put; try tagok; apply good_align8, ends_good, E. }
  apply E2 in E1. clear E2.
  destruct Ho as (_ & _ & _ & _ & Hp).
  replace (hashed_fields o ++ [(hash_tag (o_algo o), digest)] ++ [(HDR_SIGNATURE, sg digest)] ++
     opt_field (o_sign2 o) (fun s => (HDR_SECONDARY_SIGNATURE, s digest)) ++
     opt_field (o_policy o) (fun p => (HDR_POLICY_SIGNATURE, p)))
  with (((((hashed_fields o ++ [(hash_tag (o_algo o), digest)]) ++ [(HDR_SIGNATURE, sg digest)])) ++
     opt_field (o_sign2 o) (fun s => (HDR_SECONDARY_SIGNATURE, s digest))) ++
     opt_field (o_policy o) (fun p => (HDR_POLICY_SIGNATURE, p)))
  by (rewrite <- !app_assoc; reflexivity).
  set (h := put_tag HDR_SIGNATURE _ _) in *.
  set (fs := (hashed_fields o ++ _) ++ _) in *.
  assert (E3 : ends_rec (match o_sign2 o with
      | None => h
      | Some sg2 => put_tag HDR_SECONDARY_SIGNATURE (sg2 digest) (align8 h) end)
      (fs ++ opt_field (o_sign2 o) (fun s => (HDR_SECONDARY_SIGNATURE, s digest)))).
  { destruct (o_sign2 o) as [sg2|]; cbn [opt_field].
    - apply ends_put; try tagok; [apply good_align8, ends_good, E1|apply Hs2; reflexivity].
    - rewrite app_nil_r. exact E1. }
  destruct (o_policy o) as [p|]; cbn [opt_field].
  - apply ends_put; try tagok; [apply good_align8, ends_good, E3|apply Hp; reflexivity].
  - rewrite app_nil_r. exact E3.
Qed.

(** From tool layout to a legal reading. *)
Lemma placed_app : forall a b addr rest,
  placed addr a (items_bytes b ++ rest) ->
  placed (addr + zlen (items_bytes a)) b rest -> placed addr (a ++ b) rest.
Proof.
  induction a as [|i a IH]; intros b addr rest Ha Hb.
  - cbn [app]. unfold items_bytes in Hb at 1. cbn in Hb. rewrite Z.add_0_r in Hb. exact Hb.
  - cbn [app placed] in *. rewrite items_bytes_app, <- app_assoc. destruct Ha as [H1 H2].
    split; [exact H1|]. apply IH; [exact H2|].
    rewrite items_bytes_cons, zlen_app, Z.add_assoc in Hb. exact Hb.
Qed.

Lemma placed_wf : forall items base pos t d rest,
  Z.odd base = false -> wf pos (items ++ [Rec t d]) ->
  placed (base + pos) (items ++ [Rec t d]) rest.
Proof.
  assert (Hodd : forall base pos, Z.odd base = false -> Z.odd (base + pos) = Z.odd pos).
  { intros base pos H. rewrite Z.odd_add, H. destruct (Z.odd pos); reflexivity. }
  induction items as [|i items IH]; intros base pos t d rest Hb Hw.
  - cbn [app placed wf] in *. destruct Hw as (H1 & H2 & H3 & (H4 & H5 & H6) & _).
    split; [|exact I]. rewrite Hodd by assumption. repeat split; auto; try lia.
    destruct d; [congruence|]. cbn. lia.
  - destruct i as [b|t' d']; cbn [app placed wf] in *.
    + destruct Hw as [-> Hw]. specialize (IH base (pos + 1) t d rest Hb Hw). split.
      * repeat split; try lia. rewrite items_bytes_app, !app_length. cbn. lia.
      * cbn [item_bytes]. replace (base + pos + zlen [255]) with (base + (pos + 1))
          by (unfold zlen; cbn [length]; lia). exact IH.
    + destruct Hw as (H1 & H2 & H3 & (H4 & H5 & H6) & Hw).
      specialize (IH base (pos + 4 + zlen d') t d rest Hb Hw). split.
      * rewrite Hodd by assumption. repeat split; auto; try lia.
        rewrite app_length. destruct d'; [congruence|]. cbn [length]. lia.
      * rewrite zlen_rec. replace (base + pos + (4 + zlen d')) with (base + (pos + 4 + zlen d')) by lia.
        exact IH.
Qed.

Lemma placed_pads : forall k addr rest, (4 <= length rest)%nat -> placed addr (repeat (Pad 255) k) rest.
Proof.
  induction k as [|k IH]; intros addr rest H; cbn [repeat placed]; [exact I|].
  split; [|apply IH; exact H]. repeat split; try lia. rewrite app_length. lia.
Qed.

Lemma wf_all_bytes : forall items pos, wf pos items -> all_bytes (items_bytes items).
Proof.
  induction items as [|i items IH]; intros pos H.
  - constructor.
  - rewrite items_bytes_cons. apply all_bytes_app. destruct i as [b|t d]; cbn [wf] in H.
    + destruct H as [-> H]. split; [repeat constructor; lia|eapply IH; eassumption].
    + destruct H as (_ & H2 & _ & (_ & H5 & H6) & H7). split; [|eapply IH; eassumption].
      cbn [item_bytes]. pose proof (zlen_nonneg d). apply all_bytes_app. split; [|exact H6].
      unfold all_bytes. repeat (apply Forall_cons; [unfold is_byte; lia|]). constructor.
Qed.

Lemma first_rec_field : forall ty items, first_rec ty items = field ty (recs_of items).
Proof.
  induction items as [|[b|t d] items IH]; cbn [first_rec recs_of map concat app field]; auto.
  unfold recs_of in IH. rewrite IH. reflexivity.
Qed.

Lemma padded_reads : forall base h fs n, Z.odd base = false -> ends_rec h fs ->
  exists items, reads_as base (h ++ repeat 255 n) items /\
    (forall ty, first_rec ty items = field ty fs) /\ all_bytes (h ++ repeat 255 n).
Proof.
  intros base h fs n Hb (pre & items & t & d & H1 & H2 & H3 & H4 & H5).
  exists ((items ++ [Rec t d]) ++ repeat (Pad 255) (n - 4)).
  split; [|split].
  - exists pre, (repeat 255 (min n 4)).
    rewrite items_bytes_app, pads_bytes.
    split; [|split; [exact H1|split]].
    + rewrite H3, <- !app_assoc. do 2 f_equal. rewrite <- repeat_app. f_equal. lia.
    + apply placed_app; [apply placed_wf; assumption|].
      destruct (Nat.le_gt_cases n 4).
      * replace (n - 4)%nat with 0%nat by lia. exact I.
      * apply placed_pads. rewrite repeat_length. lia.
    + left. rewrite repeat_length. lia.
  - intro ty. rewrite first_rec_field, recs_app, pads_recs, app_nil_r, H5. reflexivity.
  - rewrite H3. apply all_bytes_app. split.
    + apply all_bytes_app. split; [assumption|eapply wf_all_bytes; eassumption].
    + apply Forall_forall. intros x Hx. apply repeat_spec in Hx. subst. unfold is_byte. lia.
Qed.

Lemma make_header_lookup : forall hash header_sz o image h base,
  ok_opts o -> Z.odd base = false -> Z.of_nat header_sz < 65544 ->
  let digest := hash (signed_prefix o (zlen image) ++ image) in
  ok_data digest ->
  (forall sg, o_sign o = Some sg -> ok_data (sg digest)) ->
  (forall sg, o_sign2 o = Some sg -> ok_data (sg digest)) ->
  make_header hash header_sz o image = Val h ->
  length h = header_sz /\ all_bytes h /\
  forall ty,
    match field ty (all_fields o digest) with
    | Some d => exists off, find_header base h ty = Val (Some (off, length d)) /\
                            sub h off (length d) = d
    | None => find_header base h ty = Val None
    end.
Proof.
  intros hash header_sz o image h base Ho Hb Hsz digest Hd Hs Hs2 Hm.
  unfold make_header in Hm. fold digest in Hm.
  destruct (Nat.ltb_spec header_sz (length (lay_sigs o digest (signed_prefix o (zlen image))))) as [?|Hle];
    [discriminate|].
  set (h0 := lay_sigs o digest (signed_prefix o (zlen image))) in *.
  assert (Hm' : h = h0 ++ repeat 255 (header_sz - length h0)) by congruence. clear Hm.
  assert (Hl : length h = header_sz) by (rewrite Hm', app_length, repeat_length; lia).
  destruct (padded_reads base h0 (all_fields o digest) (header_sz - length h0) Hb)
    as (items & Hr & Hf & Hby).
  { apply ends_sigs; assumption. }
  rewrite <- Hm' in Hr, Hby.
  split; [exact Hl|]. split; [exact Hby|]. intro ty.
  destruct (find_header_reads base h items ty Hby) as [E1 E2].
  { unfold zlen. lia. } { exact Hr. }
  rewrite Hf in E1, E2.
  destruct (field ty (all_fields o digest)) as [d|].
  - exists (8 + first_off ty items)%nat. split; [exact E1|apply E2; reflexivity].
  - exact E1.
Qed.

(** ** Position of the digest field: everything before it is what the tool hashed. *)

Definition goodI (h : list Z) (items : list item) : Prop :=
  exists pre, length pre = 8%nat /\ all_bytes pre /\ h = pre ++ items_bytes items /\ wf 8 items.

Lemma goodI_put : forall h items t d,
  goodI h items -> even_len h -> 0 < t < 65536 -> t mod 256 <> 255 -> ok_data d ->
  goodI (put_tag t d h) (items ++ [Rec t d]).
Proof.
  intros h items t d (pre & H1 & H2 & H3 & H4) He Ht Ht' Hd.
  exists pre. repeat split; auto.
  - unfold put_tag. rewrite items_bytes_app, H3, <- app_assoc. do 2 f_equal.
    rewrite items_bytes_cons. destruct Hd as (_ & Hd & _). pose proof (zlen_nonneg d).
    rewrite !le_bytes2 by lia. cbn [item_bytes app]. unfold items_bytes. cbn [map concat].
    rewrite app_nil_r. reflexivity.
  - apply wf_app; [assumption|]. cbn [wf]. repeat (split; [try assumption|]); try apply Hd; auto.
    unfold even_len in He. rewrite H3, zlen_app in He.
    replace (zlen pre) with 8 in He by (unfold zlen; lia). exact He.
Qed.

Lemma goodI_pad : forall h items k, goodI h items ->
  goodI (h ++ repeat 255 k) (items ++ repeat (Pad 255) k).
Proof.
  intros h items k (pre & H1 & H2 & H3 & H4).
  exists pre. repeat split; auto.
  - rewrite items_bytes_app, pads_bytes, H3, app_assoc. reflexivity.
  - apply wf_app; [assumption|apply pads_wf].
Qed.

(** [goodI] for a header that starts with the items [p] and ends with a record. *)
Definition tailed (h : list Z) (p : list item) : Prop :=
  exists tail t d, goodI h (p ++ tail ++ [Rec t d]).

Lemma tailed_put : forall h p t d, tailed h p ->
  0 < t < 65536 -> t mod 256 <> 255 -> ok_data d -> tailed (put_tag t d (align8 h)) p.
Proof.
  intros h p t d (tail & t0 & d0 & G) Ht Ht' Hd.
  exists (tail ++ [Rec t0 d0] ++ repeat (Pad 255) ((12 - length h mod 8) mod 8)%nat), t, d.
  assert (G2 := goodI_put _ _ t d (goodI_pad _ _ ((12 - length h mod 8) mod 8)%nat G)
                 (even_align8 h) Ht Ht' Hd).
  rewrite <- !app_assoc in G2. rewrite <- !app_assoc. exact G2.
Qed.

Lemma tailed_sigs : forall o sz digest,
  ok_opts o -> ok_data digest ->
  (forall sg, o_sign o = Some sg -> ok_data (sg digest)) ->
  (forall sg, o_sign2 o = Some sg -> ok_data (sg digest)) ->
  exists pitems, goodI (signed_prefix o sz) pitems /\ recs_of pitems = hashed_fields o /\
    (goodI (lay_sigs o digest (signed_prefix o sz)) (pitems ++ [Rec (hash_tag (o_algo o)) digest])
     \/ tailed (lay_sigs o digest (signed_prefix o sz)) (pitems ++ [Rec (hash_tag (o_algo o)) digest])).
Proof.
  intros o sz digest Ho Hd Hs Hs2.
  destruct (good_prefix o sz Ho) as (pre & pitems & H1 & H2 & H3 & H4 & H5).
  assert (G0 : goodI (signed_prefix o sz) pitems) by (exists pre; auto).
  exists pitems. split; [exact G0|]. split; [exact H5|].
  assert (G1 : goodI (put_tag (hash_tag (o_algo o)) digest (signed_prefix o sz))
                     (pitems ++ [Rec (hash_tag (o_algo o)) digest])).
  { apply goodI_put; [exact G0|apply even_prefix|..|assumption];
      destruct (o_algo o); vm_compute; try split; congruence. }
  unfold lay_sigs. destruct (o_sign o) as [sg|]; [right|left; exact G1].
  specialize (Hs sg eq_refl). destruct Ho as (_ & _ & _ & _ & Hp).
  set (P := pitems ++ [Rec (hash_tag (o_algo o)) digest]) in *.
  assert (T1 : tailed (put_tag HDR_SIGNATURE (sg digest)
             (align8 (put_tag (hash_tag (o_algo o)) digest (signed_prefix o sz)))) P).
  { set (h := put_tag (hash_tag _) _ _) in *.
    eexists _, _, _. 
    assert (G2 := goodI_put _ _ HDR_SIGNATURE (sg digest) (goodI_pad _ _ ((12 - length h mod 8) mod 8)%nat G1)
                 (even_align8 h)).
    rewrite <- app_assoc in G2. apply G2; [split; reflexivity|vm_compute; discriminate|exact Hs]. }
  set (h := put_tag HDR_SIGNATURE _ _) in *.
  assert (T2 : tailed (match o_sign2 o with
      | None => h
      | Some sg2 => put_tag HDR_SECONDARY_SIGNATURE (sg2 digest) (align8 h) end) P).
  { destruct (o_sign2 o) as [sg2|]; [|exact T1].
    apply tailed_put; [exact T1|split; reflexivity|vm_compute; discriminate|apply Hs2; reflexivity]. }
  destruct (o_policy o) as [p|]; [|exact T2].
  apply tailed_put; [exact T2|split; reflexivity|vm_compute; discriminate|apply Hp; reflexivity].
Qed.

Lemma first_off_app : forall ty p d tail,
  field ty (recs_of p) = None ->
  first_off ty (p ++ Rec ty d :: tail) = (length (items_bytes p) + 4)%nat.
Proof.
  induction p as [|[b|t x] p IH]; intros d tail H.
  - cbn [app first_off]. rewrite Z.eqb_refl. reflexivity.
  - cbn [app first_off]. rewrite items_bytes_cons, app_length. rewrite IH by exact H.
    cbn [item_bytes length]. lia.
  - cbn [app first_off]. change (recs_of (Rec t x :: p)) with ((t, x) :: recs_of p) in H.
    cbn [field] in H. destruct (t =? ty); [discriminate|].
    rewrite IH by exact H. rewrite items_bytes_cons, app_length.
    change (length (item_bytes (Rec t x))) with (4 + length x)%nat. lia.
Qed.

Lemma first_rec_app : forall ty p d tail,
  field ty (recs_of p) = None -> first_rec ty (p ++ Rec ty d :: tail) = Some d.
Proof.
  induction p as [|[b|t x] p IH]; intros d tail H.
  - cbn [app first_rec]. rewrite Z.eqb_refl. reflexivity.
  - cbn [app first_rec]. apply IH, H.
  - cbn [app first_rec]. change (recs_of (Rec t x :: p)) with ((t, x) :: recs_of p) in H.
    cbn [field] in H. destruct (t =? ty); [discriminate|]. apply IH, H.
Qed.

Lemma field_app : forall ty a b,
  field ty (a ++ b) = match field ty a with Some d => Some d | None => field ty b end.
Proof.
  induction a as [|[t d] a IH]; intro b; [reflexivity|].
  cbn [app field]. destruct (t =? ty); auto.
Qed.

Lemma field_custom : forall ty l,
  (forall t d, In (t, d) l -> 0x30 <= t) -> ty < 0x30 -> field ty l = None.
Proof.
  induction l as [|[t d] l IH]; intros H Hty; [reflexivity|].
  cbn [field]. pose proof (H t d (or_introl eq_refl)).
  destruct (Z.eqb_spec t ty); [lia|]. apply IH; [|exact Hty].
  intros t' d' Hin. apply (H t' d'). right. exact Hin.
Qed.

Lemma no_hash_in_prefix : forall o, ok_opts o -> field (hash_tag (o_algo o)) (hashed_fields o) = None.
Proof.
  intros o (H & _). unfold hashed_fields. rewrite !field_app.
  assert (Hc : field (hash_tag (o_algo o)) (o_custom o) = None).
  { apply field_custom; [|destruct (o_algo o); reflexivity].
    intros t d Hin. apply (H t d Hin). }
  rewrite Hc.
  destruct (o_timestamp o); destruct (o_delta o) as [dl|]; [destruct (d_base_hash dl)| |destruct (d_base_hash dl)|];
  destruct (o_secondary o) as [[? ?]|]; destruct (o_algo o); reflexivity.
Qed.

Lemma make_header_digest : forall hash header_sz o image h base,
  ok_opts o -> Z.odd base = false -> Z.of_nat header_sz < 65544 ->
  let prefix := signed_prefix o (zlen image) in
  let digest := hash (prefix ++ image) in
  ok_data digest ->
  (forall sg, o_sign o = Some sg -> ok_data (sg digest)) ->
  (forall sg, o_sign2 o = Some sg -> ok_data (sg digest)) ->
  make_header hash header_sz o image = Val h ->
  exists off,
    find_header base h (hash_tag (o_algo o)) = Val (Some (off, length digest)) /\
    sub h off (length digest) = digest /\
    firstn (off - 4) h = prefix /\
    firstn 8 h = le_bytes 4 WOLFBOOT_MAGIC ++ le_bytes 4 (zlen image).
Proof.
  intros hash header_sz o image h base Ho Hb Hsz prefix digest Hd Hs Hs2 Hm.
  unfold make_header in Hm. fold prefix in Hm. fold digest in Hm.
  destruct (Nat.ltb_spec header_sz (length (lay_sigs o digest prefix))) as [?|Hle]; [discriminate|].
  set (h0 := lay_sigs o digest prefix) in *.
  assert (Hm' : h = h0 ++ repeat 255 (header_sz - length h0)) by congruence. clear Hm.
  assert (Hl : length h = header_sz) by (rewrite Hm', app_length, repeat_length; lia).
  destruct (tailed_sigs o (zlen image) digest Ho Hd Hs Hs2) as (p & Gp & Hp & HG).
  fold prefix in Gp, HG. fold h0 in HG.
  set (ty := hash_tag (o_algo o)) in *.
  assert (HG' : exists items t d tail, goodI h0 (items ++ [Rec t d]) /\
             items ++ [Rec t d] = p ++ Rec ty digest :: tail).
  { destruct HG as [G|(tail & t & d & G)].
    - exists p, ty, digest, []. split; [exact G|reflexivity].
    - exists ((p ++ [Rec ty digest]) ++ tail), t, d, (tail ++ [Rec t d]).
      split; [rewrite <- app_assoc; exact G|]. rewrite <- !app_assoc. reflexivity. }
  destruct HG' as (items & t & d & tail & (pre & H1 & H2 & H3 & H4) & Hit).
  set (n := (header_sz - length h0)%nat) in *.
  assert (Hr : reads_as base h ((items ++ [Rec t d]) ++ repeat (Pad 255) (n - 4))).
  { exists pre, (repeat 255 (min n 4)).
    rewrite items_bytes_app, pads_bytes.
    split; [|split; [exact H1|split]].
    + rewrite Hm', H3, <- !app_assoc. do 2 f_equal. rewrite <- repeat_app. f_equal. lia.
    + apply placed_app; [apply placed_wf; assumption|].
      destruct (Nat.le_gt_cases n 4).
      * replace (n - 4)%nat with 0%nat by lia. exact I.
      * apply placed_pads. rewrite repeat_length. lia.
    + left. rewrite repeat_length. lia. }
  assert (Hby : all_bytes h).
  { rewrite Hm', H3. apply all_bytes_app. split.
    + apply all_bytes_app. split; [assumption|eapply wf_all_bytes; eassumption].
    + apply Forall_forall. intros x Hx. apply repeat_spec in Hx. rewrite Hx. unfold is_byte. lia. }
  destruct (find_header_reads base h _ ty Hby ltac:(unfold zlen; lia) Hr) as [E1 E2].
  rewrite Hit, <- app_assoc in E1, E2. cbn [app] in E1, E2.
  assert (Hnone : field ty (recs_of p) = None) by (rewrite Hp; apply no_hash_in_prefix, Ho).
  rewrite first_rec_app in E1, E2 by exact Hnone.
  rewrite first_off_app in E1, E2 by exact Hnone.
  exists (8 + (length (items_bytes p) + 4))%nat.
  destruct Gp as (pre' & P1 & P2 & P3 & P4).
  assert (Hpre : pre' = pre).
  { assert (Hx : firstn 8 h0 = firstn 8 prefix).
    { unfold h0, lay_sigs, put_tag.
      assert (Hlp : (8 <= length prefix)%nat) by (rewrite P3, app_length; lia).
      destruct (o_sign o); [destruct (o_sign2 o); destruct (o_policy o)|];
        unfold align8; rewrite <- ?app_assoc; rewrite firstn_app;
        replace (8 - length prefix)%nat with 0%nat by lia; cbn [firstn];
        apply app_nil_r. }
    rewrite H3, P3, !firstn_app, H1, P1, <- H1, firstn_all, H1, <- P1, firstn_all, P1, Nat.sub_diag in Hx.
    cbn [firstn] in Hx. rewrite !app_nil_r in Hx. congruence. }
  split; [exact E1|]. split; [apply E2; reflexivity|].
  assert (Hh : h = prefix ++ items_bytes (Rec ty digest :: tail) ++ repeat 255 n).
  { rewrite Hm', H3, Hit, items_bytes_app, P3, Hpre, <- !app_assoc. reflexivity. }
  split.
  - rewrite Hh, firstn_app. replace (8 + (length (items_bytes p) + 4) - 4)%nat with (length prefix)
      by (rewrite P3, app_length; lia).
    rewrite firstn_all, Nat.sub_diag. cbn [firstn]. apply app_nil_r.
  - assert (Hlp : (8 <= length prefix)%nat) by (rewrite P3, app_length; lia).
    rewrite Hh, firstn_app. replace (8 - length prefix)%nat with 0%nat by lia.
    rewrite firstn_O, app_nil_r. unfold prefix.
    assert (Hpf : forall (h0 k : list Z), (8 <= length h0)%nat -> firstn 8 (h0 ++ k) = firstn 8 h0).
    { intros a k Ha. rewrite firstn_app. replace (8 - length a)%nat with 0%nat by lia.
      cbn [firstn]. apply app_nil_r. }
    clear - Hpf.
    (* every layout step only appends *)
    assert (App : forall a : list Z, exists k, signed_prefix o (zlen a) =
        (le_bytes 4 WOLFBOOT_MAGIC ++ le_bytes 4 (zlen a)) ++ k).
    { intro a.
      assert (A8 : forall x y, (exists k, x = y ++ k) -> exists k, align8 x = y ++ k).
      { intros x y (k & ->). unfold align8. rewrite <- app_assoc. eauto. }
      assert (A4 : forall x y, (exists k, x = y ++ k) -> exists k, align4 x = y ++ k).
      { intros x y (k & ->). unfold align4. rewrite <- app_assoc. eauto. }
      assert (PT : forall t d x y, (exists k, x = y ++ k) -> exists k, put_tag t d x = y ++ k).
      { intros t d x y (k & ->). unfold put_tag. rewrite <- app_assoc. eauto. }
      set (m := le_bytes 4 WOLFBOOT_MAGIC ++ le_bytes 4 (zlen a)).
      assert (B : exists k, lay_fixed o (zlen a) = m ++ k).
      { unfold lay_fixed. fold m. apply PT. destruct (o_timestamp o); [apply PT|];
        apply A8, PT; exists []; symmetry; apply app_nil_r. }
      assert (C : exists k, lay_delta o (lay_fixed o (zlen a)) = m ++ k).
      { unfold lay_delta. destruct (o_delta o) as [d|]; [|exact B].
        destruct (d_base_hash d); [apply PT, A8|]; apply PT, PT, A4, PT, PT, A4, B. }
      assert (D : forall l x, (exists k, x = m ++ k) ->
         exists k, fold_left (fun h tv => put_tag (fst tv) (snd tv) (align8 h)) l x = m ++ k).
      { induction l as [|tv l IH]; intros x Hx; cbn [fold_left]; [exact Hx|].
        apply IH, PT, A8, Hx. }
      unfold signed_prefix, lay_keys. apply A8.
      destruct (o_secondary o) as [[c h2]|].
      - apply PT. destruct (o_algo o); [apply A8|..]; apply PT, A8, PT, A8, D, C.
      - apply A8, PT, A8, D, C. }
    destruct (App image) as (k & ->). rewrite Hpf by (rewrite app_length, !le_bytes_length; lia).
    apply firstn_all2. rewrite app_length, !le_bytes_length. lia.
Qed.
