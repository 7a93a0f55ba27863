(** Lemmas about the chips and the loops of the flash drivers. *)
From Verif Require Import Base BaseLemmas HalSpec HalModel.

Lemma same_refl : forall m, same m m.
Proof. intros m x. reflexivity. Qed.
Lemma same_trans : forall m1 m2 m3, same m1 m2 -> same m2 m3 -> same m1 m3.
Proof. intros m1 m2 m3 A B x. rewrite (A x). apply B. Qed.
Lemma same_sym : forall m1 m2, same m1 m2 -> same m2 m1.
Proof. intros m1 m2 A x. symmetry. apply A. Qed.

Lemma in_iff : forall p x n, (p <=? x) && (x <? p + n) = true <-> p <= x < p + n.
Proof. intros. rewrite andb_true_iff, Z.leb_le, Z.ltb_lt. reflexivity. Qed.
Lemma in_dec : forall p x n, {p <= x < p + n} + {~ p <= x < p + n}.
Proof.
  intros. destruct ((p <=? x) && (x <? p + n)) eqn:E.
  - left. apply in_iff. exact E.
  - right. intros H. apply in_iff in H. congruence.
Qed.
Lemma in_true : forall p x n, p <= x < p + n -> (p <=? x) && (x <? p + n) = true.
Proof. intros. apply in_iff. assumption. Qed.
Lemma in_false : forall p x n, ~ p <= x < p + n -> (p <=? x) && (x <? p + n) = false.
Proof.
  intros p x n H. destruct ((p <=? x) && (x <? p + n)) eqn:E; [|reflexivity].
  exfalso. apply H, in_iff, E.
Qed.

Lemma nor_in : forall m p v x, p <= x < p + zlen v ->
  nor m p v x = Z.land (m x) (nth (Z.to_nat (x - p)) v 0).
Proof. intros. unfold nor. rewrite in_true by assumption. reflexivity. Qed.
Lemma nor_out : forall m p v x, ~ p <= x < p + zlen v -> nor m p v x = m x.
Proof. intros. unfold nor. rewrite in_false by assumption. reflexivity. Qed.
Lemma patch_in : forall m p v x, p <= x < p + zlen v ->
  patch m p v x = nth (Z.to_nat (x - p)) v 0.
Proof. intros. unfold patch. rewrite in_true by assumption. reflexivity. Qed.
Lemma patch_out : forall m p v x, ~ p <= x < p + zlen v -> patch m p v x = m x.
Proof. intros. unfold patch. rewrite in_false by assumption. reflexivity. Qed.
Lemma wipe_in : forall m p n x, p <= x < p + n -> wipe m p n x = 255.
Proof. intros. unfold wipe. rewrite in_true by assumption. reflexivity. Qed.
Lemma wipe_out : forall m p n x, ~ p <= x < p + n -> wipe m p n x = m x.
Proof. intros. unfold wipe. rewrite in_false by assumption. reflexivity. Qed.

Lemma same_nor : forall m m' p v, same m m' -> same (nor m p v) (nor m' p v).
Proof. intros m m' p v A x. unfold nor. rewrite (A x). reflexivity. Qed.
Lemma same_patch : forall m m' p v, same m m' -> same (patch m p v) (patch m' p v).
Proof. intros m m' p v A x. unfold patch. rewrite (A x). reflexivity. Qed.
Lemma same_wipe : forall m m' p n, same m m' -> same (wipe m p n) (wipe m' p n).
Proof. intros m m' p n A x. unfold wipe. rewrite (A x). reflexivity. Qed.
Lemma same_bytes : forall m m' p n, same m m' -> bytes m p n = bytes m' p n.
Proof. intros m m' p n A. unfold bytes. apply map_ext. intros k. apply A. Qed.

Lemma nor_nil : forall m p, same (nor m p []) m.
Proof. intros m p x. apply nor_out. change (zlen (@nil Z)) with 0. lia. Qed.
Lemma patch_nil : forall m p, same (patch m p []) m.
Proof. intros m p x. apply patch_out. change (zlen (@nil Z)) with 0. lia. Qed.

Lemma nor_clears : forall m a d, clears m a d -> same (nor m a d) (patch m a d).
Proof.
  intros m a d C x. destruct (in_dec a x (zlen d)) as [I|O].
  - rewrite nor_in by assumption. specialize (C x I). rewrite patch_in in C by assumption.
    rewrite patch_in by assumption. exact C.
  - rewrite nor_out, patch_out by assumption. reflexivity.
Qed.

Lemma nth_app_l : forall (v w : list Z) k, 0 <= k < zlen v ->
  nth (Z.to_nat k) (v ++ w) 0 = nth (Z.to_nat k) v 0.
Proof. intros v w k H. unfold zlen in H. apply app_nth1. lia. Qed.
Lemma nth_app_r : forall (v w : list Z) k, zlen v <= k ->
  nth (Z.to_nat k) (v ++ w) 0 = nth (Z.to_nat (k - zlen v)) w 0.
Proof.
  intros v w k H. unfold zlen in *. rewrite app_nth2 by lia. f_equal. lia.
Qed.

Lemma nor_app : forall m a v w,
  same (nor (nor m a v) (a + zlen v) w) (nor m a (v ++ w)).
Proof.
  intros m a v w x. pose proof (zlen_nonneg v) as LV. pose proof (zlen_nonneg w) as LW.
  destruct (in_dec (a + zlen v) x (zlen w)) as [I|O].
  - rewrite nor_in by assumption. rewrite nor_out by lia.
    rewrite nor_in by (rewrite zlen_app; lia).
    rewrite nth_app_r by lia. f_equal. f_equal. lia.
  - rewrite nor_out by assumption. destruct (in_dec a x (zlen v)) as [I'|O'].
    + rewrite nor_in by assumption. rewrite nor_in by (rewrite zlen_app; lia).
      rewrite nth_app_l by lia. reflexivity.
    + rewrite nor_out by assumption. rewrite nor_out by (rewrite zlen_app; lia). reflexivity.
Qed.

Lemma patch_app : forall m a v w,
  same (patch (patch m a v) (a + zlen v) w) (patch m a (v ++ w)).
Proof.
  intros m a v w x. pose proof (zlen_nonneg v) as LV. pose proof (zlen_nonneg w) as LW.
  destruct (in_dec (a + zlen v) x (zlen w)) as [I|O].
  - rewrite patch_in by assumption. rewrite patch_in by (rewrite zlen_app; lia).
    rewrite nth_app_r by lia. f_equal. lia.
  - rewrite patch_out by assumption. destruct (in_dec a x (zlen v)) as [I'|O'].
    + rewrite patch_in by assumption. rewrite patch_in by (rewrite zlen_app; lia).
      rewrite nth_app_l by lia. reflexivity.
    + rewrite patch_out by assumption. rewrite patch_out by (rewrite zlen_app; lia).
      reflexivity.
Qed.

Lemma bytes_length : forall m p n, length (bytes m p n) = n.
Proof. intros. unfold bytes. rewrite map_length, seq_length. reflexivity. Qed.
Lemma nth_bytes : forall m p n k, (k < n)%nat -> nth k (bytes m p n) 0 = m (p + Z.of_nat k).
Proof.
  intros m p n k H. unfold bytes.
  rewrite (nth_indep _ 0 (m (p + Z.of_nat 0))) by (rewrite map_length, seq_length; exact H).
  rewrite (map_nth (fun k => m (p + Z.of_nat k))). rewrite seq_nth by exact H. reflexivity.
Qed.

Lemma zlen_splice : forall u off v, 0 <= off -> off + zlen v <= zlen u ->
  zlen (splice u off v) = zlen u.
Proof.
  intros u off v H1 H2. unfold splice, zlen in *.
  rewrite !app_length, firstn_length, skipn_length. lia.
Qed.
Lemma nth_splice_in : forall u off v k, 0 <= off -> off + zlen v <= zlen u ->
  off <= k < off + zlen v ->
  nth (Z.to_nat k) (splice u off v) 0 = nth (Z.to_nat (k - off)) v 0.
Proof.
  intros u off v k H1 H2 H3. unfold splice.
  assert (LF : zlen (firstn (Z.to_nat off) u) = off)
    by (unfold zlen in *; rewrite firstn_length; lia).
  rewrite nth_app_r by lia. rewrite LF. apply nth_app_l. lia.
Qed.
Lemma nth_splice_out : forall u off v k, 0 <= off -> off + zlen v <= zlen u -> 0 <= k ->
  ~ off <= k < off + zlen v ->
  nth (Z.to_nat k) (splice u off v) 0 = nth (Z.to_nat k) u 0.
Proof.
  intros u off v k H1 H2 H0 H3. unfold splice.
  assert (LF : zlen (firstn (Z.to_nat off) u) = off)
    by (unfold zlen in *; rewrite firstn_length; lia).
  rewrite <- (firstn_skipn (Z.to_nat off) u) at 3.
  destruct (Z_lt_le_dec k off) as [L|G].
  - rewrite !nth_app_l by lia. reflexivity.
  - rewrite !nth_app_r by lia. rewrite LF.
    unfold zlen in *.
    replace (Z.to_nat (k - off - Z.of_nat (length v)))
      with (Z.to_nat (k - off) - length v)%nat by lia.
    rewrite <- (firstn_skipn (Z.to_nat off) u) at 1.
    rewrite firstn_skipn.
    assert (N : forall (l : list Z) a b, nth b (skipn a l) 0 = nth (a + b) l 0).
    { induction l as [|y l IH]; intros a b.
      - rewrite skipn_nil. destruct b, a; reflexivity.
      - destruct a; [reflexivity|]. cbn [skipn plus nth]. apply IH. }
    rewrite !N. f_equal. lia.
Qed.

(** Read, modify, write on NOR flash is the same as writing the bytes. *)
Lemma nor_rmw : forall m p n off v, 0 <= off -> off + zlen v <= Z.of_nat n ->
  same (nor m p (splice (bytes m p n) off v)) (nor m (p + off) v).
Proof.
  intros m p n off v H1 H2 x.
  assert (LB : zlen (bytes m p n) = Z.of_nat n) by (unfold zlen; rewrite bytes_length; reflexivity).
  pose proof (zlen_nonneg v) as LV.
  destruct (in_dec p x (Z.of_nat n)) as [I|O].
  - rewrite nor_in by (rewrite zlen_splice; lia).
    destruct (in_dec (p + off) x (zlen v)) as [I'|O'].
    + rewrite nth_splice_in by lia. rewrite nor_in by assumption. f_equal. f_equal. lia.
    + rewrite nth_splice_out by lia. rewrite nor_out by assumption.
      rewrite nth_bytes by lia. replace (p + Z.of_nat (Z.to_nat (x - p))) with x by lia.
      apply Z.land_diag.
  - rewrite nor_out by (rewrite zlen_splice; lia). rewrite nor_out by lia. reflexivity.
Qed.

(** The same with [patch]. *)
Lemma patch_rmw : forall m p n off v, 0 <= off -> off + zlen v <= Z.of_nat n ->
  same (patch m p (splice (bytes m p n) off v)) (patch m (p + off) v).
Proof.
  intros m p n off v H1 H2 x.
  assert (LB : zlen (bytes m p n) = Z.of_nat n) by (unfold zlen; rewrite bytes_length; reflexivity).
  pose proof (zlen_nonneg v) as LV.
  destruct (in_dec p x (Z.of_nat n)) as [I|O].
  - rewrite patch_in by (rewrite zlen_splice; lia).
    destruct (in_dec (p + off) x (zlen v)) as [I'|O'].
    + rewrite nth_splice_in by lia. rewrite patch_in by assumption. f_equal. lia.
    + rewrite nth_splice_out by lia. rewrite patch_out by assumption.
      rewrite nth_bytes by lia. f_equal. lia.
  - rewrite patch_out by (rewrite zlen_splice; lia). rewrite patch_out by lia. reflexivity.
Qed.

Lemma ecc_blank : forall m p v, blank m p (zlen v) -> ecc m p v = patch m p v.
Proof.
  intros m p v B. unfold ecc.
  replace (forallb _ (seq 0 (length v))) with true; [reflexivity|].
  symmetry. apply forallb_forall. intros k K. apply in_seq in K.
  apply Z.eqb_eq, B. unfold zlen. lia.
Qed.

Lemma blank_patch : forall m p v a n, blank m a n -> p + zlen v <= a -> blank (patch m p v) a n.
Proof. intros m p v a n B H x X. rewrite patch_out by lia. apply B, X. Qed.
Lemma blank_same : forall m m' a n, same m m' -> blank m a n -> blank m' a n.
Proof. intros m m' a n A B x X. rewrite <- (A x). apply B, X. Qed.
Lemma blank_sub : forall m a n a' n', blank m a n -> a <= a' -> a' + n' <= a + n -> blank m a' n'.
Proof. intros m a n a' n' B H1 H2 x X. apply B. lia. Qed.

(** Taking bytes of the buffer. *)
Lemma grab_ok : forall d o n, 0 <= o -> 0 <= n -> o + n <= zlen d ->
  grab d o n = Val (sub d (Z.to_nat o) (Z.to_nat n)) /\
  zlen (sub d (Z.to_nat o) (Z.to_nat n)) = n /\
  sub d (Z.to_nat o) (Z.to_nat n) ++ skipn (Z.to_nat (o + n)) d = skipn (Z.to_nat o) d.
Proof.
  intros d o n H0 H1 H2. unfold grab.
  replace (0 <=? o) with true by (symmetry; apply Z.leb_le; lia).
  replace (o + n <=? zlen d) with true by (symmetry; apply Z.leb_le; lia).
  split; [reflexivity|]. unfold zlen, sub in *. split.
  - rewrite firstn_length, skipn_length. lia.
  - replace (Z.to_nat (o + n)) with (Z.to_nat n + Z.to_nat o)%nat by lia.
    rewrite <- (firstn_skipn (Z.to_nat n) (skipn (Z.to_nat o) d)) at 2. f_equal.
    generalize (Z.to_nat o) as a. generalize (Z.to_nat n) as b. clear.
    intros b a. revert b d. induction a as [|a IH]; intros b d.
    + rewrite Nat.add_0_r. reflexivity.
    + destruct d as [|y d]; [rewrite !skipn_nil; reflexivity|].
      rewrite Nat.add_succ_r. cbn [skipn]. apply IH.
Qed.
Lemma grab_bad : forall d o n, zlen d < o + n -> grab d o n = UB.
Proof.
  intros d o n H. unfold grab.
  replace (o + n <=? zlen d) with false by (symmetry; apply Z.leb_gt; lia).
  rewrite andb_false_r. reflexivity.
Qed.

Lemma skipn_past : forall (d : list Z) i, zlen d <= i -> skipn (Z.to_nat i) d = [].
Proof. intros d i H. apply skipn_all2. unfold zlen in H. lia. Qed.

Lemma zlen_skipn : forall (d : list Z) i, 0 <= i <= zlen d ->
  zlen (skipn (Z.to_nat i) d) = zlen d - i.
Proof. intros d i H. unfold zlen in *. rewrite skipn_length. lia. Qed.
