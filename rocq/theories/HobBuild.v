(** The Multiboot2 boot information and the Linux zero page as a whole. *)
From Verif Require Import Base BaseLemmas HobSpec HobModel HobProofs Mb2Proofs.

(** * Multiboot2 *)

Lemma align_up base o : base mod 8 = 0 -> mb2_align_address_up base o 8 = (o + 7) / 8 * 8.
Proof.
  intro B. unfold mb2_align_address_up. change (8 - 1) with (Z.ones 3).
  rewrite <- Z.ldiff_land, Z.ldiff_ones_r by lia. rewrite Z.shiftl_mul_pow2, Z.shiftr_div_pow2 by lia.
  change (Z.ones 3) with 7. change (2 ^ 3) with 8. lia.
Qed.

Lemma htag_len t : length (htag_bytes t) = Z.to_nat ((8 + zlen (body t) + 7) / 8 * 8).
Proof.
  unfold htag_bytes, padding. rewrite !app_length, !le_bytes_length, repeat_length.
  pose proof (zlen_nonneg (body t)) as N. unfold zlen in *. lia.
Qed.

Lemma find_step f h pre t c base : h = pre ++ htag_bytes t ++ c ->
  base mod 8 = 0 -> zlen pre mod 8 = 0 -> htag_ok t ->
  mb2_find_tag_by_type (S f) h base (length pre) 1 =
  if ty t =? 1 then Val (Some (length pre))
  else mb2_find_tag_by_type f h base (length (pre ++ htag_bytes t)) 1.
Proof.
  intros E B P (T & N). cbn [mb2_find_tag_by_type]. unfold htag_bytes in E. rewrite <- !app_assoc in E.
  rewrite (ldw_at h pre 2 (ty t) (le_bytes 2 (flags t) ++ le_bytes 4 (8 + zlen (body t)) ++ body t ++ padding (zlen (body t)) ++ c));
    [|exact E|reflexivity|change (256 ^ Z.of_nat 2) with 65536; lia].
  cbn [obind]. replace (ty t =? 0) with false by lia. cbv iota.
  destruct (ty t =? 1); [reflexivity|].
  pose proof (zlen_nonneg (body t)) as NB.
  rewrite (ldw_at h (pre ++ le_bytes 2 (ty t) ++ le_bytes 2 (flags t)) 4 (8 + zlen (body t)) (body t ++ padding (zlen (body t)) ++ c));
    [|rewrite <- !app_assoc; exact E|rewrite !app_length, !le_bytes_length; lia|change (256 ^ Z.of_nat 4) with (2 ^ 32); lia].
  cbn [obind]. rewrite align_up by exact B. rewrite app_length, htag_len.
  unfold zlen in P. f_equal. unfold zlen in *. lia.
Qed.

Lemma htag_aligned t : zlen (htag_bytes t) mod 8 = 0.
Proof. unfold zlen. rewrite htag_len. pose proof (zlen_nonneg (body t)). lia. Qed.

Lemma find_tags base (B : base mod 8 = 0) : forall ts fuel h pre c,
  h = pre ++ concat (map htag_bytes ts) ++ c -> zlen pre mod 8 = 0 ->
  Forall htag_ok ts -> Forall (fun t => ty t <> 1) ts -> (length ts < fuel)%nat ->
  exists f, (0 < f)%nat /\
  mb2_find_tag_by_type fuel h base (length pre) 1 =
  mb2_find_tag_by_type f h base (length (pre ++ concat (map htag_bytes ts))) 1.
Proof.
  induction ts as [|t ts IH]; intros fuel h pre c E P K T L; cbn [map concat] in *.
  - exists fuel. rewrite app_nil_r. split; [lia|reflexivity].
  - apply Forall_cons_iff in K, T. destruct K as [K1 K], T as [T1 T].
    destruct fuel as [|fuel]; [lia|]. cbn [length] in L. rewrite <- app_assoc in E.
    rewrite (find_step fuel h pre t (concat (map htag_bytes ts) ++ c)) by assumption.
    replace (ty t =? 1) with false by lia.
    destruct (IH fuel h (pre ++ htag_bytes t) c) as (f & F & Q); try assumption; [..|lia|].
    + rewrite <- app_assoc. exact E.
    + rewrite zlen_app. pose proof (htag_aligned t). lia.
    + exists f. split; [exact F|]. rewrite Q, <- app_assoc. reflexivity.
Qed.

Lemma find_end f h pre c base : h = pre ++ le_bytes 2 0 ++ c -> (0 < f)%nat ->
  mb2_find_tag_by_type f h base (length pre) 1 = Val None.
Proof.
  intros E F. destruct f as [|f]; [lia|]. cbn [mb2_find_tag_by_type].
  rewrite (ldw_at h pre 2 0 c) by (try exact E; try reflexivity; change (256 ^ Z.of_nat 2) with 65536; lia).
  reflexivity.
Qed.

Lemma zlen_words rs : zlen (concat (map (le_bytes 4) rs)) = 4 * zlen rs.
Proof.
  induction rs as [|r rs IH]; [reflexivity|]. cbn [map concat]. rewrite zlen_app, IH, zlen_cons, zlen_le. lia.
Qed.

Section Build.
Context (l : list hob) (fuel : nat) (LOK : Forall hob_ok l) (LF : (length l < fuel)%nat).
Context (hdr : list Z) (H16 : length hdr = 16%nat) (base : Z) (B8 : base mod 8 = 0).
Context (b : list Z) (max : Z) (MB : max <= zlen b) (BB : zlen b < 2 ^ 32).

Lemma build_some ts1 ts2 fl rs more :
  Forall htag_ok ts1 -> Forall (fun t => ty t <> 1) ts1 -> (length ts1 < fuel)%nat ->
  Forall (fun r => 0 <= r < 2 ^ 32) rs -> 8 + 4 * zlen rs < 2 ^ 32 ->
  let R := mb2_build_boot_info_header fuel b (hdr ++ htags (ts1 ++ request fl rs :: ts2) ++ more) base (hob_list l) max in
  match tags_for (descriptors l) rs with
  | Some T =>
      if 8 + zlen T <=? max then
        R = Val (le_bytes 4 (8 + zlen T) ++ le_bytes 4 0 ++ T ++ skipn (8 + length T) b, 0)
      else exists b', R = Val (b', -1)
  | None => exists b', R = Val (b', -1)
  end.
Proof using l fuel LOK LF hdr H16 base B8 b max MB BB.
  intros K1 T1 L1 RS RL. cbv zeta. unfold mb2_build_boot_info_header.
  destruct (Z.ltb_spec max 8) as [M|M].
  { destruct (tags_for (descriptors l) rs) as [T|]; [|eauto]. pose proof (zlen_nonneg T).
    destruct (Z.leb_spec (8 + zlen T) max); [lia|eauto]. }
  destruct (split_at b 4) as (b1 & b' & E1 & L4); [unfold zlen in MB; lia|].
  destruct (split_at b' 4) as (b2 & b3 & E2 & L8).
  { rewrite E1 in MB. unfold zlen in MB. rewrite app_length in MB. lia. }
  assert (Eb : b = b1 ++ b2 ++ b3) by congruence.
  rewrite (put_at' 4 _ b1 b2 b3) by (try exact Eb; try exact L8; symmetry; exact L4).
  cbn [obind max_size buf].
  set (h := hdr ++ htags (ts1 ++ request fl rs :: ts2) ++ more).
  set (rest2 := concat (map htag_bytes ts2) ++ (le_bytes 2 0 ++ le_bytes 2 0 ++ le_bytes 4 8) ++ more).
  assert (Eh : h = hdr ++ concat (map htag_bytes ts1) ++ htag_bytes (request fl rs) ++ rest2).
  { unfold h, htags, rest2. rewrite map_app, concat_app. cbn [map concat]. rewrite <- !app_assoc. reflexivity. }
  destruct (find_tags base B8 ts1 fuel h hdr _ Eh) as (f & F & Q);
    [unfold zlen; rewrite H16; reflexivity|assumption|assumption|exact L1|].
  rewrite H16 in Q. rewrite Q.
  set (pos := hdr ++ concat (map htag_bytes ts1)) in *.
  assert (Eh2 : h = pos ++ htag_bytes (request fl rs) ++ rest2) by (unfold pos; rewrite <- app_assoc; exact Eh).
  destruct f as [|f]; [lia|].
  rewrite (find_step f h pos (request fl rs) rest2 base Eh2 B8).
  2:{ unfold pos. rewrite zlen_app. replace (zlen hdr) with 16 by (unfold zlen; rewrite H16; reflexivity).
      assert (A : zlen (concat (map htag_bytes ts1)) mod 8 = 0).
      { clear. induction ts1 as [|t ts IH]; [reflexivity|]. cbn [map concat]. rewrite zlen_app.
        pose proof (htag_aligned t). lia. }
      lia. }
  2:{ unfold htag_ok, request. cbn [ty body]. rewrite zlen_words. lia. }
  change (ty (request fl rs) =? 1) with true. cbv iota. cbn [obind].
  unfold htag_bytes, request in Eh2. cbn [ty flags body] in Eh2. rewrite zlen_words, <- !app_assoc in Eh2.
  rewrite (ldw_at h (pos ++ le_bytes 2 1 ++ le_bytes 2 fl) 4 (8 + 4 * zlen rs)
             (concat (map (le_bytes 4) rs) ++ padding (4 * zlen rs) ++ rest2));
    [|rewrite <- !app_assoc; exact Eh2|rewrite !app_length, !le_bytes_length; lia
     |change (256 ^ Z.of_nat 4) with (2 ^ 32); pose proof (zlen_nonneg rs); lia].
  cbn [obind].
  assert (NR : Z.to_nat (s32 ((8 + 4 * zlen rs - 8) mod 2 ^ 64 / 4)) = length rs).
  { pose proof (zlen_nonneg rs). replace (8 + 4 * zlen rs - 8) with (zlen rs * 4) by lia.
    change (2 ^ 64) with 18446744073709551616. change (2 ^ 32) with 4294967296 in RL.
    rewrite Z.mod_small by lia. rewrite Z.div_mul by lia. unfold s32.
    change (2 ^ 32) with 4294967296. change (2 ^ 31) with 2147483648.
    rewrite Z.mod_small by lia. unfold zlen. lia. }
  rewrite NR.
  pose proof (requests_list l fuel LOK LF rs
                (pos ++ le_bytes 2 1 ++ le_bytes 2 fl ++ le_bytes 4 (8 + 4 * zlen rs))
                (padding (4 * zlen rs) ++ rest2) (b1 ++ le_bytes 4 0) b3 (max - 8) RS) as Q2.
  assert (ZB : zlen b = 8 + zlen b3) by (rewrite Eb; unfold zlen; rewrite !app_length; lia).
  rewrite zlen_app, zlen_le in Q2. replace (zlen b1) with 4 in Q2 by (unfold zlen; lia).
  specialize (Q2 ltac:(lia) ltac:(lia)). cbv zeta in Q2.
  rewrite <- !app_assoc in Q2. rewrite <- Eh2 in Q2.
  assert (P1 : length (pos ++ le_bytes 2 1 ++ le_bytes 2 fl ++ le_bytes 4 (8 + 4 * zlen rs)) = (length pos + 8)%nat)
    by (rewrite !app_length, !le_bytes_length; lia).
  assert (P2 : length (b1 ++ le_bytes 4 0) = 8%nat) by (rewrite app_length, le_bytes_length; lia).
  rewrite P1, P2 in Q2.
  destruct (tags_for (descriptors l) rs) as [T|].
  - destruct (Z.leb_spec (zlen T) (max - 8)) as [K|K].
    + destruct (Z.leb_spec (8 + zlen T) max) as [_|?]; [|lia].
      rewrite Q2. cbn [obind]. change (negb (0 =? 0)) with false. cbv iota.
      rewrite (put_at' 4 _ [] b1 (le_bytes 4 0 ++ T ++ skipn (length T) b3));
        [|cbn [buf app]; rewrite <- app_assoc; reflexivity|reflexivity|exact L4].
      cbn [obind buf app]. f_equal. f_equal. f_equal.
      * f_equal. unfold u32, zlen in *. rewrite Z.mod_small by lia. lia.
      * assert (SK : skipn (8 + length T) b = skipn (length T) b3).
        { rewrite <- skipn_more. f_equal. rewrite Eb, app_assoc.
          replace 8%nat with (length (b1 ++ b2)) by (rewrite app_length; lia).
          rewrite skipn_app, skipn_all, Nat.sub_diag. reflexivity. }
        rewrite SK. reflexivity.
    + destruct (Z.leb_spec (8 + zlen T) max) as [?|_]; [lia|].
      destruct Q2 as (i & k & ->). cbn [obind]. change (negb (-1 =? 0)) with true. cbv iota. eauto.
  - destruct Q2 as (i & k & ->). cbn [obind]. change (negb (-1 =? 0)) with true. cbv iota. eauto.
Qed.

Lemma build_none ts more :
  Forall htag_ok ts -> Forall (fun t => ty t <> 1) ts -> (length ts < fuel)%nat ->
  exists b', mb2_build_boot_info_header fuel b (hdr ++ htags ts ++ more) base (hob_list l) max = Val (b', -1).
Proof using l fuel LOK LF hdr H16 base B8 b max MB BB.
  intros K1 T1 L1. unfold mb2_build_boot_info_header.
  destruct (Z.ltb_spec max 8) as [M|M]; [eauto|].
  destruct (split_at b 4) as (b1 & b' & E1 & L4); [unfold zlen in MB; lia|].
  destruct (split_at b' 4) as (b2 & b3 & E2 & L8).
  { rewrite E1 in MB. unfold zlen in MB. rewrite app_length in MB. lia. }
  assert (Eb : b = b1 ++ b2 ++ b3) by congruence.
  rewrite (put_at' 4 _ b1 b2 b3) by (try exact Eb; try exact L8; symmetry; exact L4).
  cbn [obind max_size buf].
  set (h := hdr ++ htags ts ++ more).
  assert (Eh : h = hdr ++ concat (map htag_bytes ts) ++ le_bytes 2 0 ++ (le_bytes 2 0 ++ le_bytes 4 8) ++ more).
  { unfold h, htags. rewrite <- !app_assoc. reflexivity. }
  destruct (find_tags base B8 ts fuel h hdr _ Eh) as (f & F & Q);
    [unfold zlen; rewrite H16; reflexivity|assumption|assumption|exact L1|].
  rewrite H16 in Q. rewrite Q.
  rewrite (find_end f h _ ((le_bytes 2 0 ++ le_bytes 4 8) ++ more)); [cbn [obind]; eauto|rewrite <- app_assoc; exact Eh|exact F].
Qed.
End Build.

(** Finding the header. *)
Lemma find_loop_ok image : forall n i, (4 * (i + n) <= length image)%nat ->
  exists r, find_loop n image i = Val r /\
  match r with
  | Some o => exists k, o = (4 * k)%nat /\ (i <= k < i + n)%nat /\ word image o = 3897708758 /\
              forall j, (i <= j < k)%nat -> word image (4 * j) <> 3897708758
  | None => forall j, (i <= j < i + n)%nat -> word image (4 * j) <> 3897708758
  end.
Proof.
  induction n as [|n IH]; intros i L; cbn [find_loop].
  - eexists. split; [reflexivity|]. intros j J. lia.
  - unfold ldw. destruct (Nat.leb_spec (4 * i + 4) (length image)) as [_|?]; [|lia]. cbn [obind].
    fold (word image (4 * i)). destruct (Z.eqb_spec (word image (4 * i)) 3897708758) as [E|E].
    + eexists. split; [reflexivity|]. exists i. split; [reflexivity|]. split; [lia|]. split; [exact E|].
      intros j J. lia.
    + destruct (IH (S i) ltac:(lia)) as (r & Q & P). rewrite Q. eexists. split; [reflexivity|].
      destruct r as [o|].
      * destruct P as (k & P1 & P2 & P3 & P4). exists k. split; [exact P1|]. split; [lia|]. split; [exact P3|].
        intros j J. destruct (Nat.eq_dec j i) as [->|N]; [exact E|]. apply P4. lia.
      * intros j J. destruct (Nat.eq_dec j i) as [->|N]; [exact E|]. apply P. lia.
Qed.

(** No terminating tag. *)
Lemma word_at a v c o : o = length a -> 0 <= v < 2 ^ 32 -> word (a ++ le_bytes 4 v ++ c) o = v.
Proof.
  intros -> V. unfold word. rewrite (sub_app' a (le_bytes 4 v) c) by (rewrite ?le_bytes_length; reflexivity).
  apply le_val_bytes. change (256 ^ Z.of_nat 4) with (2 ^ 32). exact V.
Qed.

Lemma some_inj {A} (x y : A) : Some x = Some y -> x = y.
Proof. congruence. Qed.

Lemma tag_shape ds r T : tag_for ds r = Some T -> zlen T < 2 ^ 32 ->
  exists t rest, 0 < t < 2 ^ 32 /\ T = le_bytes 4 t ++ le_bytes 4 (zlen T) ++ rest /\ zlen T mod 8 = 0 /\ 16 <= zlen T.
Proof.
  unfold tag_for. destruct (r =? 4).
  - intros E _. apply some_inj in E. subst T. exists 4. eexists. split; [lia|].
    rewrite zlen_basic_tag. split; [reflexivity|]. split; [reflexivity|lia].
  - destruct (r =? 6); [|discriminate]. intros E _. apply some_inj in E. subst T. exists 6. eexists. split; [lia|].
    rewrite zlen_map_tag. pose proof (zlen_nonneg ds). split; [reflexivity|]. lia.
Qed.

Lemma not_terminated ds : forall rs T fuel pre c,
  tags_for ds rs = Some T -> zlen pre mod 8 = 0 ->
  word (pre ++ T ++ c) 0 = zlen (pre ++ T) -> zlen (pre ++ T) < 2 ^ 32 ->
  terminated fuel (pre ++ T ++ c) (zlen pre) = false.
Proof.
  induction rs as [|r rs IH]; intros T fuel pre c E P W B.
  - cbn [tags_for] in E. apply some_inj in E. subst T. rewrite app_nil_r in W.
    cbn [app] in W |- *. destruct fuel; cbn [terminated]; rewrite W;
      replace (zlen pre <? zlen pre + 8) with true by lia; reflexivity.
  - cbn [tags_for] in E. destruct (tag_for ds r) as [T1|] eqn:E1; [|discriminate].
    destruct (tags_for ds rs) as [T2|] eqn:E2; [|discriminate]. apply some_inj in E. subst T.
    rewrite !zlen_app in B. pose proof (zlen_nonneg pre) as NP. pose proof (zlen_nonneg T1) as N1.
    pose proof (zlen_nonneg T2) as N2.
    destruct (tag_shape _ _ _ E1 ltac:(lia)) as (t & x & T0 & ET & A8 & G).
    assert (W1 : word (pre ++ (T1 ++ T2) ++ c) (Z.to_nat (zlen pre)) = t).
    { rewrite ET, <- !app_assoc. apply word_at; [unfold zlen; lia|lia]. }
    assert (W2 : word (pre ++ (T1 ++ T2) ++ c) (Z.to_nat (zlen pre) + 4) = zlen T1).
    { rewrite ET at 1. rewrite <- !app_assoc. rewrite (app_assoc pre).
      apply word_at; [rewrite app_length, le_bytes_length; unfold zlen; lia|lia]. }
    assert (STEP : forall f, terminated f (pre ++ (T1 ++ T2) ++ c) ((zlen pre + zlen T1 + 7) / 8 * 8) = false).
    { intro f. replace ((zlen pre + zlen T1 + 7) / 8 * 8) with (zlen (pre ++ T1)) by (rewrite zlen_app; lia).
      rewrite <- !app_assoc in W |- *. rewrite (app_assoc pre T1 (T2 ++ c)) in W |- *.
      apply IH; [reflexivity|rewrite zlen_app; lia|rewrite W, <- app_assoc; reflexivity|rewrite !zlen_app; lia]. }
    destruct fuel as [|f]; cbn [terminated]; rewrite W, W1, W2;
      (destruct (_ <? _); [reflexivity|]); replace (t =? 0) with false by lia; cbn [andb]; [reflexivity|].
    destruct (zlen T1 <? 8); [reflexivity|]. apply STEP.
Qed.

(** * Linux *)

Lemma length_e820 d : length (e820_entry d) = 20%nat.
Proof. unfold e820_entry. rewrite !app_length, !le_bytes_length. reflexivity. Qed.

Lemma length_e820s ds : length (concat (map e820_entry ds)) = (20 * length ds)%nat.
Proof.
  induction ds as [|d ds IH]; [reflexivity|]. cbn [map concat length].
  rewrite app_length, length_e820, IH. lia.
Qed.

Lemma stw_out m o d : (length m < o + length d)%nat -> stw m o d = UB.
Proof. intro L. unfold stw. destruct (Nat.leb_spec (o + length d) (length m)); [lia|reflexivity]. Qed.

Lemma stw_le m a b c n v o : m = a ++ b ++ c -> o = length a -> length b = n ->
  stw m o (le_bytes n v) = Val (a ++ le_bytes n v ++ c).
Proof. intros E O L. apply stw_at with b; [exact E|exact O|rewrite le_bytes_length; exact L]. Qed.

Section E820.
Context (A M : list Z) (LA : length A = P_E820_ENTRIES) (LM : length M = 231%nat).

Lemma e820_cb E n rest d : length E = (20 * n)%nat -> (n <= 168)%nat -> (20 <= length rest)%nat ->
  e820_add_entry_cb (A ++ le_bytes 1 (Z.of_nat n) ++ M ++ E ++ rest) (start d) (len d) (rtype d) =
  Val (A ++ le_bytes 1 (Z.of_nat (S n)) ++ M ++ (E ++ e820_entry d) ++ skipn 20 rest, 0).
Proof using A M LA LM.
  intros LE N LR. unfold e820_add_entry_cb.
  rewrite (ldw_at _ A 1 (Z.of_nat n) (M ++ E ++ rest)); [|reflexivity|symmetry; exact LA
    |change (256 ^ Z.of_nat 1) with 256; lia].
  cbn [obind]. rewrite Nat2Z.id.
  destruct (split_at rest 20) as (r & rest' & -> & R); [exact LR|].
  rewrite skipn_app, skipn_all2, R, Nat.sub_diag by lia. cbn [skipn app].
  destruct (split_at r 8) as (r1 & r' & -> & R1); [lia|]. rewrite app_length in R.
  destruct (split_at r' 8) as (r2 & r3 & -> & R2); [lia|]. rewrite app_length in R.
  set (bn := le_bytes 1 (Z.of_nat n)).
  assert (LB : length bn = 1%nat) by apply le_bytes_length.
  assert (LO : (P_E820_TABLE + 20 * n)%nat = length (A ++ bn ++ M ++ E)).
  { rewrite !app_length, LA, LB, LM, LE. unfold P_E820_TABLE, P_E820_ENTRIES. lia. }
  rewrite LO.
  rewrite (stw_le _ (A ++ bn ++ M ++ E) r1 (r2 ++ r3 ++ rest'));
    [|rewrite <- !app_assoc; reflexivity|reflexivity|exact R1]. cbn [obind].
  rewrite (stw_le _ (A ++ bn ++ M ++ E ++ le_bytes 8 (start d)) r2 (r3 ++ rest'));
    [|rewrite <- !app_assoc; reflexivity|rewrite !app_length, !le_bytes_length; lia|exact R2]. cbn [obind].
  rewrite (stw_le _ (A ++ bn ++ M ++ E ++ le_bytes 8 (start d) ++ le_bytes 8 (len d)) r3 rest');
    [|rewrite <- !app_assoc; reflexivity|rewrite !app_length, !le_bytes_length; lia|lia]. cbn [obind].
  rewrite (stw_le _ A bn (M ++ E ++ le_bytes 8 (start d) ++ le_bytes 8 (len d) ++
             le_bytes 4 (if rtype d =? RESOURCE_SYSTEM_MEMORY then 1 else 2) ++ rest'));
    [|rewrite <- !app_assoc; reflexivity|symmetry; exact LA|exact LB]. cbn [obind].
  replace (Z.of_nat n + 1) with (Z.of_nat (S n)) by lia.
  unfold e820_entry, kind. change SYSTEM_MEMORY with RESOURCE_SYSTEM_MEMORY.
  rewrite <- !app_assoc. reflexivity.
Qed.

Lemma e820_out E n rest d : length E = (20 * n)%nat -> (n <= 168)%nat -> (length rest < 20)%nat ->
  e820_add_entry_cb (A ++ le_bytes 1 (Z.of_nat n) ++ M ++ E ++ rest) (start d) (len d) (rtype d) = UB.
Proof using A M LA LM.
  intros LE N LR. unfold e820_add_entry_cb.
  rewrite (ldw_at _ A 1 (Z.of_nat n) (M ++ E ++ rest)); [|reflexivity|symmetry; exact LA
    |change (256 ^ Z.of_nat 1) with 256; lia].
  cbn [obind]. rewrite Nat2Z.id.
  set (m := A ++ le_bytes 1 (Z.of_nat n) ++ M ++ E ++ rest).
  assert (L0 : (length m < P_E820_TABLE + 20 * n + 20)%nat).
  { unfold m. rewrite !app_length, le_bytes_length, LA, LM, LE. unfold P_E820_TABLE, P_E820_ENTRIES. lia. }
  assert (SL : forall m' o d' m2, stw m' o d' = Val m2 -> length m2 = length m').
  { intros m' o d' m2. unfold stw. destruct (Nat.leb_spec (o + length d') (length m')) as [K|K]; [|discriminate].
    intro Q. assert (Q' : m2 = firstn o m' ++ d' ++ skipn (o + length d') m') by congruence.
    rewrite Q', !app_length, firstn_length, skipn_length. lia. }
  destruct (stw m _ _) as [m1| |] eqn:S1; [|reflexivity|exfalso; revert S1; unfold stw; destruct (_ <=? _)%nat; discriminate].
  cbn [obind]. apply SL in S1.
  destruct (stw m1 _ _) as [m2| |] eqn:S2; [|reflexivity|exfalso; revert S2; unfold stw; destruct (_ <=? _)%nat; discriminate].
  cbn [obind]. apply SL in S2.
  rewrite stw_out by (rewrite le_bytes_length; lia). reflexivity.
Qed.

Lemma e820_visit : forall ds E n rest, length E = (20 * n)%nat -> (length rest = 3376 - 20 * n)%nat -> (n <= 168)%nat ->
  let R := visit (fun s d => e820_add_entry_cb s (start d) (len d) (rtype d))
             (A ++ le_bytes 1 (Z.of_nat n) ++ M ++ E ++ rest) ds in
  if (n + length ds <=? 168)%nat then
    R = Val (A ++ le_bytes 1 (Z.of_nat (n + length ds)) ++ M ++ (E ++ concat (map e820_entry ds)) ++
             skipn (20 * length ds) rest, 0)
  else R = UB.
Proof using A M LA LM.
  induction ds as [|d ds IH]; intros E n rest LE LR N; cbn [visit length].
  - destruct (Nat.leb_spec (n + 0) 168) as [_|?]; [|lia].
    cbn [map concat]. rewrite app_nil_r, Nat.add_0_r. reflexivity.
  - destruct (Nat.eq_dec n 168) as [E168|N168].
    + destruct (Nat.leb_spec (n + S (length ds)) 168) as [?|_]; [lia|].
      rewrite e820_out by (try assumption; lia). reflexivity.
    + rewrite e820_cb by (try assumption; lia). cbn [obind]. change (0 =? 0) with true. cbv iota.
      specialize (IH (E ++ e820_entry d) (S n) (skipn 20 rest)).
      rewrite app_length, length_e820, skipn_length in IH.
      specialize (IH ltac:(lia) ltac:(lia) ltac:(lia)). cbv zeta in IH.
      replace (n + S (length ds))%nat with (S n + length ds)%nat by lia.
      destruct (S n + length ds <=? 168)%nat; [|exact IH].
      rewrite IH. f_equal. f_equal. rewrite skipn_more. cbn [map concat].
      replace (20 + 20 * length ds)%nat with (20 * S (length ds))%nat by lia.
      rewrite <- !app_assoc. reflexivity.
Qed.
End E820.

Lemma sub_split {A} (l : list A) o a b : sub l o (a + b) = sub l o a ++ sub l (o + a) b.
Proof.
  unfold sub. rewrite <- skipn_more. generalize (skipn o l). intro k.
  revert k. induction a as [|a IH]; intro k; [reflexivity|].
  destruct k as [|x k]; [rewrite !skipn_nil, !firstn_nil; reflexivity|]. cbn [Nat.add firstn skipn app]. f_equal. apply IH.
Qed.

Lemma sub_len {A} (l : list A) o n : (o + n <= length l)%nat -> length (sub l o n) = n.
Proof. intro L. unfold sub. rewrite firstn_length, skipn_length. lia. Qed.

Lemma ldw_part m a b c o n : m = a ++ b ++ c -> o = length a -> length b = n -> ldw m o n = Val (le_val b).
Proof.
  intros -> -> <-. unfold ldw. destruct (Nat.leb_spec (length a + length b) (length (a ++ b ++ c))) as [_|K].
  - rewrite sub_app. reflexivity.
  - rewrite !app_length in K. lia.
Qed.

Lemma repeat_add {A} (x : A) a b : repeat x (a + b) = repeat x a ++ repeat x b.
Proof. induction a as [|a IH]; [reflexivity|]. cbn [Nat.add repeat app]. f_equal. exact IH. Qed.

Lemma skipn_repeat {A} (x : A) a b : skipn a (repeat x b) = repeat x (b - a).
Proof. revert a. induction b as [|b IH]; intros [|a]; try reflexivity. cbn [repeat skipn Nat.sub]. apply IH. Qed.

Lemma linux_ok image l fuel cmd :
  Forall hob_ok l -> (length l < fuel)%nat -> (620 <= length image)%nat ->
  let ds := descriptors l in
  let s := le_val (sub image 497 1) in
  let off := if s =? 0 then 5 * 512 else (s + 1) * 512 in
  let size := u32 (le_val (sub image 500 4) * 16) in
  off + size <= zlen image ->
  load_linux fuel image (hob_list l) cmd =
  if (length ds <=? 168)%nat then
    Val (Some {| writes := [(65536, cmd ++ [0]); (1048576, sub image (Z.to_nat off) (Z.to_nat size))];
                 entry := le_val (sub image 532 4);
                 zero_page := repeat 0 488 ++ le_bytes 1 (zlen ds) ++ repeat 0 8 ++
                   sub image 497 31 ++ [255] ++ sub image 529 23 ++ le_bytes 4 65536 ++ sub image 556 64 ++
                   repeat 0 100 ++ concat (map e820_entry ds) ++ repeat 0 (3376 - 20 * length ds) |})
  else UB.
Proof.
  intros LOK LF LI ds s off size FIT. unfold load_linux.
  unfold P_HDR, SETUP_HEADER_SIZE, P_SIZE.
  destruct (Nat.leb_spec (497 + 123) (length image)) as [_|?]; [|lia]. cbn [obind].
  set (h0 := sub image 497 1) in *. set (h1 := sub image 498 2). set (h2 := sub image 500 4) in *.
  set (h3 := sub image 504 24). set (h4 := sub image 528 1). set (h5 := sub image 529 3).
  set (h6 := sub image 532 4). set (h7 := sub image 536 16). set (h8 := sub image 552 4).
  set (h9 := sub image 556 64).
  assert (L0 : length h0 = 1%nat) by (apply sub_len; lia).
  assert (L1 : length h1 = 2%nat) by (apply sub_len; lia).
  assert (L2 : length h2 = 4%nat) by (apply sub_len; lia).
  assert (L3 : length h3 = 24%nat) by (apply sub_len; lia).
  assert (L4 : length h4 = 1%nat) by (apply sub_len; lia).
  assert (L5 : length h5 = 3%nat) by (apply sub_len; lia).
  assert (L6 : length h6 = 4%nat) by (apply sub_len; lia).
  assert (L7 : length h7 = 16%nat) by (apply sub_len; lia).
  assert (L8 : length h8 = 4%nat) by (apply sub_len; lia).
  assert (L9 : length h9 = 64%nat) by (apply sub_len; lia).
  assert (E123 : sub image 497 123 = h0 ++ h1 ++ h2 ++ h3 ++ h4 ++ h5 ++ h6 ++ h7 ++ h8 ++ h9).
  { change 123%nat with (1 + (2 + (4 + (24 + (1 + (3 + (4 + (16 + (4 + 64)))))))))%nat.
    rewrite !(sub_split image). reflexivity. }
  assert (E31 : sub image 497 31 = h0 ++ h1 ++ h2 ++ h3).
  { change 31%nat with (1 + (2 + (4 + 24)))%nat. rewrite !(sub_split image). reflexivity. }
  assert (E23 : sub image 529 23 = h5 ++ h6 ++ h7).
  { change 23%nat with (3 + (4 + 16))%nat. rewrite !(sub_split image). reflexivity. }
  rewrite E123, E31, E23.
  set (A := repeat 0 488). set (Z8 := repeat 0 8). set (Z100 := repeat 0 100).
  assert (LA : length A = 488%nat) by apply repeat_length.
  assert (LZ8 : length Z8 = 8%nat) by apply repeat_length.
  assert (LZ : length Z100 = 100%nat) by apply repeat_length.
  assert (EZ : repeat 0 4096 = (A ++ le_bytes 1 0 ++ Z8) ++ repeat 0 123 ++ (Z100 ++ repeat 0 3376)).
  { unfold A, Z8, Z100. change 4096%nat with (488 + (1 + (8 + (123 + (100 + 3376)))))%nat.
    rewrite !repeat_add, <- !app_assoc. reflexivity. }
  rewrite EZ.
  set (hdr := h0 ++ h1 ++ h2 ++ h3 ++ h4 ++ h5 ++ h6 ++ h7 ++ h8 ++ h9).
  assert (LH : length hdr = 123%nat) by (unfold hdr; rewrite !app_length; lia).
  rewrite (stw_at _ (A ++ le_bytes 1 0 ++ Z8) (repeat 0 123) (Z100 ++ repeat 0 3376) hdr);
    [|reflexivity|rewrite !app_length, le_bytes_length; lia|rewrite repeat_length; lia].
  cbn [obind]. rewrite iterate_whole by assumption.
  pose proof (e820_visit A (Z8 ++ hdr ++ Z100) LA) as V.
  specialize (V ltac:(rewrite !app_length; lia) (descriptors l) [] 0%nat (repeat 0 3376) eq_refl
                ltac:(rewrite repeat_length; reflexivity) ltac:(lia)).
  cbv zeta in V. change (Z.of_nat 0) with 0 in V. cbn [app Nat.add] in V. fold ds in V |- *.
  rewrite <- !app_assoc in V. rewrite <- !app_assoc.
  destruct (length ds <=? 168)%nat; [|rewrite V; reflexivity].
  rewrite V. cbn [obind]. change (negb (0 =? 0)) with false. cbv iota. clear V EZ.
  rewrite skipn_repeat.
  set (bn := le_bytes 1 (Z.of_nat (length ds))).
  assert (LB : length bn = 1%nat) by apply le_bytes_length.
  set (tl := Z100 ++ concat (map e820_entry ds) ++ repeat 0 (3376 - 20 * length ds)).
  set (m := A ++ bn ++ Z8 ++ hdr ++ tl).
  rewrite (ldw_part m (A ++ bn ++ Z8) h0 (h1 ++ h2 ++ h3 ++ h4 ++ h5 ++ h6 ++ h7 ++ h8 ++ h9 ++ tl));
    [|unfold m, hdr; rewrite <- !app_assoc; reflexivity|rewrite !app_length; lia|exact L0].
  cbn [obind]. fold s.
  rewrite (stw_le m (A ++ bn ++ Z8 ++ h0 ++ h1 ++ h2 ++ h3) h4 (h5 ++ h6 ++ h7 ++ h8 ++ h9 ++ tl));
    [|unfold m, hdr; rewrite <- !app_assoc; reflexivity|rewrite !app_length; lia|exact L4].
  cbn [obind].
  rewrite (stw_le _ (A ++ bn ++ Z8 ++ h0 ++ h1 ++ h2 ++ h3 ++ le_bytes 1 255 ++ h5 ++ h6 ++ h7) h8 (h9 ++ tl));
    [|rewrite <- !app_assoc; reflexivity|rewrite !app_length, le_bytes_length; lia|exact L8].
  cbn [obind].
  rewrite (ldw_part _ (A ++ bn ++ Z8 ++ h0 ++ h1) h2 (h3 ++ le_bytes 1 255 ++ h5 ++ h6 ++ h7 ++ le_bytes 4 65536 ++ h9 ++ tl));
    [|rewrite <- !app_assoc; reflexivity|rewrite !app_length; lia|exact L2].
  cbn [obind]. fold size.
  assert (EO : (if negb (s =? 0) then (s + 1) * 512 else 5 * 512) = off) by (unfold off; destruct (s =? 0); reflexivity).
  rewrite EO. fold (zlen image). destruct (Z.ltb_spec (zlen image) (off + size)) as [?|_]; [lia|].
  rewrite (ldw_part _ (A ++ bn ++ Z8 ++ h0 ++ h1 ++ h2 ++ h3 ++ le_bytes 1 255 ++ h5) h6 (h7 ++ le_bytes 4 65536 ++ h9 ++ tl));
    [|rewrite <- !app_assoc; reflexivity|rewrite !app_length, le_bytes_length; lia|exact L6].
  cbn [obind]. unfold tl. rewrite <- !app_assoc. reflexivity.
Qed.
