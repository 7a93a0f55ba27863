From Verif Require Import Base BaseLemmas HeaderModel HeaderSpec.

(** ** Safety and termination on arbitrary headers (C01) *)

Lemma find_loop_safe : forall fuel base h ty p,
  all_bytes h -> (length h < fuel + p)%nat -> (1 <= fuel)%nat ->
  exists r, find_loop fuel base h ty p = Val r /\
    (forall off len, r = Some (off, len) -> (p + 4 <= off /\ off + len <= length h)%nat).
Proof.
  induction fuel as [|fuel IH]; intros base h ty p Hb Hf H1; [lia|].
  cbn [find_loop].
  destruct (Nat.ltb_spec (p + 4) (length h)) as [Hp|Hp].
  2:{ exists None. split; [reflexivity|discriminate]. }
  destruct (rd_lt h p ltac:(lia)) as [b0 E0].
  destruct (rd_lt h (p+1) ltac:(lia)) as [b1 E1].
  destruct (rd_lt h (p+2) ltac:(lia)) as [b2 E2].
  destruct (rd_lt h (p+3) ltac:(lia)) as [b3 E3].
  rewrite E0, E1, E2, E3. cbn [obind].
  pose proof (rd_byte _ _ _ Hb E2) as B2. pose proof (rd_byte _ _ _ Hb E3) as B3.
  rewrite !(le16_add b2 b3) by assumption.
  unfold is_byte in *.
  destruct (le16 b0 b1 =? 0).
  { exists None. split; [reflexivity|discriminate]. }
  destruct ((b0 =? HDR_PADDING) || Z.odd (base + Z.of_nat p)).
  { destruct (IH base h ty (p+1)%nat Hb) as (r & Hr & Hs); [lia|lia|].
    exists r. split; [exact Hr|]. intros off len E. specialize (Hs _ _ E). lia. }
  destruct (4 + (b2 + 256 * b3) >? _).
  { exists None. split; [reflexivity|discriminate]. }
  unfold zlen.
  destruct (Z.of_nat p + 4 + (b2 + 256 * b3) >? Z.of_nat (length h)) eqn:E4.
  { exists None. split; [reflexivity|discriminate]. }
  destruct (le16 b0 b1 =? ty).
  { eexists. split; [reflexivity|]. intros off len E. apply some_pair_inj in E. lia. }
  destruct (IH base h ty (p + 4 + Z.to_nat (b2 + 256 * b3))%nat Hb) as (r & Hr & Hs); [lia|lia|].
  exists r. split; [exact Hr|]. intros off len E. specialize (Hs _ _ E). lia.
Qed.

Lemma find_header_safe : forall base h ty,
  all_bytes h ->
  exists r, find_header base h ty = Val r /\
    (forall off len, r = Some (off, len) -> (12 <= off /\ off + len <= length h)%nat).
Proof.
  intros base h ty Hb. unfold find_header.
  destruct (Nat.ltb_spec (length h) IMAGE_HEADER_OFFSET).
  { exists None. split; [reflexivity|discriminate]. }
  apply (find_loop_safe (S (length h)) base h ty IMAGE_HEADER_OFFSET Hb); lia.
Qed.

(** ** Functional correctness (C02) *)

Lemma items_bytes_cons : forall i l, items_bytes (i :: l) = item_bytes i ++ items_bytes l.
Proof. reflexivity. Qed.

Lemma odd_shift : forall base p, Z.odd (base + 8 + Z.of_nat p - 8) = Z.odd (base + Z.of_nat p).
Proof. intros. f_equal. lia. Qed.

Lemma find_loop_items : forall items fuel base h ty pre rest,
  h = pre ++ items_bytes items ++ rest ->
  all_bytes h -> (8 <= length pre)%nat -> zlen h - 8 < 65536 ->
  placed (base + zlen pre) items rest ->
  stops (base + zlen pre + zlen (items_bytes items)) rest ->
  (length h < fuel + length pre)%nat -> (1 <= fuel)%nat ->
  find_loop fuel base h ty (length pre) =
  Val (match first_rec ty items with
       | Some d => Some (length pre + first_off ty items, length d)%nat
       | None => None
       end).
Proof.
  induction items as [|i items IH]; intros fuel base h ty pre rest Hh Hb Hpre Hlen Hpl Hst Hf H1.
  - (* stop *)
    cbn [items_bytes map concat app] in Hh. subst h.
    destruct fuel as [|fuel]; [lia|]. cbn [find_loop first_rec].
    apply all_bytes_app in Hb. destruct Hb as [Hb1 Hb2].
    rewrite app_length in *.
    destruct Hst as [Hs | [[t Hs] | (Ho & b0 & b1 & b2 & b3 & t & Hs & Hn & Hz & Hl)]].
    + destruct (Nat.ltb_spec (length pre + 4) (length pre + length rest)); [lia|reflexivity].
    + subst rest.
      destruct (Nat.ltb_spec (length pre + 4) (length pre + length (0 :: 0 :: t))); [|reflexivity].
      rewrite rd_app_r0, rd_app_r. cbn [rd nth_error obind]. reflexivity.
    + subst rest.
      destruct (Nat.ltb_spec (length pre + 4) (length pre + length (b0 :: b1 :: b2 :: b3 :: t)));
        [|reflexivity].
      rewrite rd_app_r0, !rd_app_r. cbn [rd nth_error obind].
      inversion Hb2 as [|? ? B0 Hb3]; subst. inversion Hb3 as [|? ? B1 Hb4]; subst.
      inversion Hb4 as [|? ? B2 Hb5]; subst. inversion Hb5 as [|? ? B3 Hb6]; subst.
      rewrite !le16_add by assumption. unfold is_byte in *.
      destruct (Z.eqb_spec (b0 + 256 * b1) 0); [lia|].
      destruct (Z.eqb_spec b0 HDR_PADDING); [unfold HDR_PADDING in *; lia|].
      unfold items_bytes in Ho; cbn [map concat] in Ho.
      replace (base + zlen pre + zlen (@nil Z)) with (base + Z.of_nat (length pre)) in Ho
        by (unfold zlen; cbn [length]; lia).
      rewrite Ho. cbn [orb].
      destruct (_ >? _); [reflexivity|].
      rewrite zlen_app, !zlen_cons. unfold zlen in *.
      destruct (_ >? _) eqn:E; [reflexivity|lia].
  - destruct fuel as [|fuel]; [lia|].
    rewrite items_bytes_cons in Hh, Hst.
    cbn [placed] in Hpl.
    set (after := items_bytes items ++ rest) in *.
    destruct i as [b|t d].
    + destruct Hpl as [(Ha & Bb & Hodd) Hpl].
      cbn [item_bytes] in Hpl. cbn [item_bytes] in Hh, Hst.
      assert (Hh' : h = (pre ++ [b]) ++ items_bytes items ++ rest).
      { rewrite Hh. rewrite <- !app_assoc. reflexivity. }
      assert (Hl : length h = (length pre + 1 + length after)%nat).
      { rewrite Hh'. rewrite !app_length. subst after. rewrite app_length. cbn [length]. lia. }
      cbn [find_loop first_rec first_off].
      destruct (Nat.ltb_spec (length pre + 4) (length h)); [|lia].
      assert (Hstep : find_loop fuel base h ty (length pre + 1) =
        Val (match first_rec ty items with
             | Some d => Some (length pre + S (first_off ty items), length d)%nat
             | None => None end)).
      { specialize (IH fuel base h ty (pre ++ [b]) rest Hh' Hb).
        rewrite app_length in IH. cbn [length] in IH. rewrite IH; try lia.
        - destruct (first_rec ty items); [|reflexivity]. do 3 f_equal; lia.
        - replace (base + zlen (pre ++ [b])) with (base + zlen pre + zlen [b])
            by (rewrite zlen_app; lia). exact Hpl.
        - replace (base + zlen (pre ++ [b]) + zlen (items_bytes items))
            with (base + zlen pre + zlen ([b] ++ items_bytes items))
            by (rewrite !zlen_app; lia). exact Hst. }
      rewrite Hstep. clear Hstep.
      assert (Hafter : exists c t, after = c :: t).
      { destruct after as [|c t]; [cbn [length] in Ha; lia|eauto]. }
      destruct Hafter as (c & t & Hc).
      assert (Hh2 : h = pre ++ b :: c :: t).
      { rewrite Hh'. rewrite <- app_assoc. cbn [app]. fold after. rewrite Hc. reflexivity. }
      assert (R0 : rd h (length pre) = Val b) by (rewrite Hh2, rd_app_r0; reflexivity).
      assert (R1 : rd h (length pre + 1) = Val c) by (rewrite Hh2, rd_app_r; reflexivity).
      rewrite R0, R1. cbn [obind].
      rewrite Hh2 in Hb. apply all_bytes_app in Hb. destruct Hb as [_ Hb].
      apply Forall_cons_iff in Hb. destruct Hb as [B0 Hb3]. apply Forall_cons_iff in Hb3. destruct Hb3 as [B1 _].
      rewrite !le16_add by assumption. unfold is_byte in *.
      destruct (Z.eqb_spec (b + 256 * c) 0) as [E|E].
      * exfalso. destruct Hodd as [->|[_ Hn]]; [lia|]. rewrite Hc in Hn. cbn [hd] in Hn. lia.
      * assert (Hor : (b =? HDR_PADDING) || Z.odd (base + Z.of_nat (length pre)) = true).
        { destruct Hodd as [->|[Ho _]]; [reflexivity|]. unfold zlen in Ho. rewrite Ho.
          apply orb_true_r. }
        rewrite Hor. reflexivity.
    + destruct Hpl as [(Ho & Ht & Ht255 & Hd & Ha) Hpl].
      assert (Hh' : h = (pre ++ item_bytes (Rec t d)) ++ items_bytes items ++ rest).
      { rewrite Hh. rewrite <- !app_assoc. reflexivity. }
      assert (Hil : length (item_bytes (Rec t d)) = (4 + length d)%nat) by reflexivity.
      assert (Hl : length h = (length pre + 4 + length d + length after)%nat).
      { rewrite Hh'. rewrite !app_length, Hil. subst after. rewrite app_length. lia. }
      cbn [find_loop first_rec first_off].
      rewrite app_length in Ha.
      destruct (Nat.ltb_spec (length pre + 4) (length h)); [|lia].
      assert (Hstep : find_loop fuel base h ty (length pre + 4 + length d) =
        Val (match first_rec ty items with
             | Some d' => Some (length pre + (4 + length d + first_off ty items), length d')%nat
             | None => None end)).
      { specialize (IH fuel base h ty (pre ++ item_bytes (Rec t d)) rest Hh' Hb).
        rewrite app_length, Hil in IH.
        replace (length pre + (4 + length d))%nat with (length pre + 4 + length d)%nat in IH by lia.
        rewrite IH; try lia.
        - destruct (first_rec ty items); [|reflexivity]. do 3 f_equal; lia.
        - replace (base + zlen (pre ++ item_bytes (Rec t d)))
            with (base + zlen pre + zlen (item_bytes (Rec t d)))
            by (rewrite zlen_app; lia). exact Hpl.
        - replace (base + zlen (pre ++ item_bytes (Rec t d)) + zlen (items_bytes items))
            with (base + zlen pre + zlen (item_bytes (Rec t d) ++ items_bytes items))
            by (rewrite !zlen_app; lia). exact Hst. }
      assert (Hh2 : h = pre ++ (t mod 256) :: (t / 256) :: (zlen d mod 256) :: (zlen d / 256)
                          :: d ++ after).
      { rewrite Hh'. rewrite <- app_assoc. fold after. reflexivity. }
      assert (R0 : rd h (length pre) = Val (t mod 256)) by (rewrite Hh2, rd_app_r0; reflexivity).
      assert (R1 : rd h (length pre + 1) = Val (t / 256)) by (rewrite Hh2, rd_app_r; reflexivity).
      assert (R2 : rd h (length pre + 2) = Val (zlen d mod 256)) by (rewrite Hh2, rd_app_r; reflexivity).
      assert (R3 : rd h (length pre + 3) = Val (zlen d / 256)) by (rewrite Hh2, rd_app_r; reflexivity).
      rewrite R0, R1, R2, R3. cbn [obind].
      pose proof (zlen_nonneg d) as Hd0.
      rewrite !le16_add by (unfold is_byte; lia).
      replace (t mod 256 + 256 * (t / 256)) with t by lia.
      replace (zlen d mod 256 + 256 * (zlen d / 256)) with (zlen d) by lia.
      destruct (Z.eqb_spec t 0); [lia|].
      destruct (Z.eqb_spec (t mod 256) HDR_PADDING); [unfold HDR_PADDING in *; lia|].
      unfold zlen in Ho at 1. rewrite Ho. cbn [orb].
      change (Z.of_nat IMAGE_HEADER_OFFSET) with 8.
      rewrite Z.mod_small by (unfold zlen in *; lia).
      destruct (4 + zlen d >? zlen h - 8) eqn:E1; [unfold zlen in *; lia|].
      destruct (Z.of_nat (length pre) + 4 + zlen d >? zlen h) eqn:E2; [unfold zlen in *; lia|].
      replace (Z.to_nat (zlen d)) with (length d) by (unfold zlen; lia).
      destruct (Z.eqb_spec t ty); [reflexivity|exact Hstep].
Qed.

Lemma first_rec_sub : forall ty items pre rest d,
  first_rec ty items = Some d ->
  sub (pre ++ items_bytes items ++ rest) (length pre + first_off ty items) (length d) = d.
Proof.
  induction items as [|i items IH]; intros pre rest d H; [discriminate|].
  rewrite items_bytes_cons.
  destruct i as [b|t d0]; cbn [first_rec first_off] in *.
  - specialize (IH (pre ++ [b]) rest d H). rewrite app_length in IH. cbn [length] in IH.
    cbn [item_bytes]. rewrite <- !app_assoc in IH. rewrite <- !app_assoc.
    replace (length pre + S (first_off ty items))%nat
      with (length pre + 1 + first_off ty items)%nat by lia. exact IH.
  - destruct (Z.eqb_spec t ty) as [E|E].
    + inversion H; subst d0. cbn [item_bytes].
      rewrite <- !app_assoc.
      set (a := [t mod 256; t / 256; zlen d mod 256; zlen d / 256]).
      replace (pre ++ a ++ d ++ items_bytes items ++ rest)
        with ((pre ++ a) ++ d ++ (items_bytes items ++ rest))
        by (rewrite <- !app_assoc; reflexivity).
      apply sub_app'; [rewrite app_length; reflexivity|reflexivity].
    + specialize (IH (pre ++ item_bytes (Rec t d0)) rest d H). rewrite app_length in IH.
      change (length (item_bytes (Rec t d0))) with (4 + length d0)%nat in IH.
      rewrite <- !app_assoc in IH. rewrite <- !app_assoc.
      replace (length pre + (4 + length d0 + first_off ty items))%nat
        with (length pre + (4 + length d0) + first_off ty items)%nat by lia. exact IH.
Qed.

Lemma find_header_reads : forall base h items ty,
  all_bytes h -> zlen h < 65544 -> reads_as base h items ->
  find_header base h ty =
    Val (match first_rec ty items with
         | Some d => Some (8 + first_off ty items, length d)%nat
         | None => None
         end) /\
  (forall d, first_rec ty items = Some d -> sub h (8 + first_off ty items) (length d) = d).
Proof.
  intros base h items ty Hb Hlen (pre & rest & Hh & Hpre & Hpl & Hst).
  split.
  - unfold find_header.
    assert (Hl8 : (8 <= length h)%nat) by (rewrite Hh, app_length; lia).
    destruct (Nat.ltb_spec (length h) IMAGE_HEADER_OFFSET);
      [unfold IMAGE_HEADER_OFFSET in *; lia|].
    unfold IMAGE_HEADER_OFFSET. rewrite <- Hpre.
    assert (Hz : zlen pre = 8) by (unfold zlen; lia).
    apply find_loop_items with (rest := rest); auto; try rewrite Hz; auto; lia.
  - intros d Hd. rewrite Hh, <- Hpre. apply first_rec_sub. exact Hd.
Qed.

(** Every suffix has a reading. *)
Lemma reading_exists : forall n l addr,
  (length l <= n)%nat -> all_bytes l ->
  exists items rest, l = items_bytes items ++ rest /\ placed addr items rest /\
    stops (addr + zlen (items_bytes items)) rest.
Proof.
  induction n as [|n IH]; intros l addr Hn Hb.
  - exists [], l. split; [reflexivity|]. split; [exact I|]. left. lia.
  - destruct l as [|b0 [|b1 [|b2 [|b3 [|b4 t]]]]];
      try (exists [], []; split; [reflexivity|]; split; [exact I|]; left; cbn; lia);
      try (eexists [], _; split; [reflexivity|]; split; [exact I|]; left; cbn; lia).
    inversion Hb as [|? ? B0 Hb1]; subst. inversion Hb1 as [|? ? B1 Hb2]; subst.
    inversion Hb2 as [|? ? B2 Hb3]; subst. inversion Hb3 as [|? ? B3 Hb4]; subst.
    unfold is_byte in B0, B1, B2, B3.
    assert (Hz : b0 = 0 /\ b1 = 0 \/ ~ (b0 = 0 /\ b1 = 0)) by lia.
    destruct Hz as [[-> ->]|Hz].
    { eexists [], _. split; [reflexivity|]. split; [exact I|]. right; left. eauto. }
    assert (Hk : (b0 = 255 \/ Z.odd addr = true) \/ (b0 <> 255 /\ Z.odd addr = false)).
    { destruct (Z.odd addr); lia. }
    destruct Hk as [Hk|[H255 Ho]].
    + destruct (IH (b1 :: b2 :: b3 :: b4 :: t) (addr + 1)) as (items & rest & Hl & Hp & Hs).
      { cbn [length] in *. lia. } { assumption. }
      exists (Pad b0 :: items), rest. cbn [placed]. rewrite <- Hl.
      split; [rewrite items_bytes_cons, <- app_assoc, <- Hl; reflexivity|].
      split; [split; [|exact Hp]|].
      * split; [cbn; lia|]. split; [unfold is_byte; lia|].
        destruct Hk as [Hk|Hk]; [left; exact Hk|right]. split; [assumption|].
        cbn [hd]. lia.
      * rewrite items_bytes_cons, zlen_app. cbn [item_bytes].
        replace (addr + (zlen [b0] + zlen (items_bytes items)))
          with (addr + 1 + zlen (items_bytes items)) by (unfold zlen; cbn [length]; lia).
        exact Hs.
    + destruct (Z.ltb_spec (zlen (b4 :: t)) (b2 + 256 * b3)) as [Hlt|Hge].
      { eexists [], _. split; [reflexivity|]. split; [exact I|]. right; right.
        cbn [items_bytes map concat]. unfold zlen at 1. cbn [length].
        rewrite Z.add_0_r. split; [assumption|].
        exists b0, b1, b2, b3, (b4 :: t). auto. }
      set (len := Z.to_nat (b2 + 256 * b3)).
      destruct (IH (skipn len (b4 :: t)) (addr + 4 + Z.of_nat len)) as (items & rest & Hl & Hp & Hs).
      { rewrite skipn_length. cbn [length] in *. lia. }
      { rewrite <- (firstn_skipn len) in Hb4. apply all_bytes_app in Hb4. apply Hb4. }
      set (d := firstn len (b4 :: t)) in *.
      assert (Hd : length d = len).
      { subst d. rewrite firstn_length. unfold zlen in Hge. lia. }
      assert (Hdz : zlen d = b2 + 256 * b3) by (unfold zlen; lia).
      exists (Rec (b0 + 256 * b1) d :: items), rest. cbn [placed].
      assert (Hdl : d ++ items_bytes items ++ rest = b4 :: t).
      { rewrite <- Hl. apply firstn_skipn. }
      split; [|split; [split|]].
      * rewrite items_bytes_cons, <- app_assoc. cbn [item_bytes]. rewrite <- app_assoc, Hdl.
        rewrite Hdz. cbn [app]. repeat f_equal; lia.
      * split; [assumption|]. split; [lia|]. split; [lia|]. split; [lia|].
        rewrite Hdl. cbn [length]. lia.
      * replace (addr + zlen (item_bytes (Rec (b0 + 256 * b1) d)))
          with (addr + 4 + Z.of_nat len); [exact Hp|].
        cbn [item_bytes]. rewrite zlen_app. unfold zlen. cbn [length]. lia.
      * rewrite items_bytes_cons, zlen_app.
        replace (addr + (zlen (item_bytes (Rec (b0 + 256 * b1) d)) + zlen (items_bytes items)))
          with (addr + 4 + Z.of_nat len + zlen (items_bytes items)); [exact Hs|].
        cbn [item_bytes]. rewrite zlen_app. unfold zlen. cbn [length]. lia.
Qed.

Lemma reads_as_exists : forall base h, all_bytes h -> (8 <= length h)%nat ->
  exists items, reads_as base h items.
Proof.
  intros base h Hb Hl.
  destruct (reading_exists (length h) (skipn 8 h) (base + 8)) as (items & rest & E & Hp & Hs).
  { rewrite skipn_length. lia. }
  { rewrite <- (firstn_skipn 8 h) in Hb. apply all_bytes_app in Hb. apply Hb. }
  exists items, (firstn 8 h), rest. rewrite <- E, firstn_skipn, firstn_length.
  repeat split; auto. lia.
Qed.
