(** Generic lemmas on bytes and lists. *)
From Verif Require Import Base.

Lemma le16_add : forall a b, is_byte a -> is_byte b -> le16 a b = a + 256 * b.
Proof.
  intros a b Ha Hb. unfold le16, is_byte in *.
  rewrite Z.shiftl_mul_pow2 by lia.
  replace (b * 2 ^ 8) with (b * 256) by reflexivity.
  assert (Hz : Z.land a (b * 256) = 0).
  { apply Z.bits_inj'. intros n Hn. rewrite Z.land_spec, Z.bits_0.
    destruct (Z.ltb_spec n 8).
    - replace (b * 256) with (b * 2 ^ 8) by reflexivity.
      rewrite Z.mul_pow2_bits_low by lia. apply andb_false_r.
    - rewrite <- (Z.mod_small a (2 ^ 8)) by lia.
      rewrite Z.mod_pow2_bits_high by lia. reflexivity. }
  rewrite <- Z.lxor_lor by assumption. rewrite <- Z.add_nocarry_lxor by assumption. lia.
Qed.

Lemma rd_app_r : forall {A} (l1 l2 : list A) k,
  rd (l1 ++ l2) (length l1 + k) = rd l2 k.
Proof.
  intros. unfold rd. rewrite nth_error_app2 by lia.
  replace (length l1 + k - length l1)%nat with k by lia. reflexivity.
Qed.

Lemma rd_app_r0 : forall {A} (l1 l2 : list A), rd (l1 ++ l2) (length l1) = rd l2 0.
Proof. intros. rewrite <- (rd_app_r l1 l2 0). f_equal. lia. Qed.

Lemma rd_lt : forall {A} (l : list A) i, (i < length l)%nat -> exists x, rd l i = Val x.
Proof.
  intros A l i H. unfold rd. destruct (nth_error l i) eqn:E; eauto.
  apply nth_error_None in E. lia.
Qed.

Lemma rd_byte : forall l i b, all_bytes l -> rd l i = Val b -> is_byte b.
Proof.
  intros l i b Hl H. unfold rd in H. destruct (nth_error l i) eqn:E; inversion H; subst.
  apply nth_error_In in E. eapply Forall_forall in Hl; eauto.
Qed.

Lemma zlen_app : forall {A} (a b : list A), zlen (a ++ b) = zlen a + zlen b.
Proof. intros. unfold zlen. rewrite app_length. lia. Qed.

Lemma zlen_nonneg : forall {A} (a : list A), 0 <= zlen a.
Proof. intros. unfold zlen. lia. Qed.

Lemma zlen_cons : forall {A} (x : A) l, zlen (x :: l) = 1 + zlen l.
Proof. intros. unfold zlen. cbn [length]. lia. Qed.

Lemma all_bytes_app : forall a b, all_bytes (a ++ b) <-> all_bytes a /\ all_bytes b.
Proof. intros. apply Forall_app. Qed.

Lemma sub_app : forall {A} (a b c : list A), sub (a ++ b ++ c) (length a) (length b) = b.
Proof.
  intros. unfold sub. rewrite skipn_app, skipn_all, Nat.sub_diag. cbn [app skipn].
  rewrite firstn_app, firstn_all, Nat.sub_diag. cbn [firstn]. apply app_nil_r.
Qed.

Lemma sub_app' : forall {A} (a b c : list A) o n, o = length a -> n = length b ->
  sub (a ++ b ++ c) o n = b.
Proof. intros; subst; apply sub_app. Qed.

Lemma length_sub : forall {A} (l : list A) o n, (o + n <= length l)%nat -> length (sub l o n) = n.
Proof. intros. unfold sub. rewrite firstn_length, skipn_length. lia. Qed.

Lemma nth_error_sub : forall {A} (l : list A) o n i, (i < n)%nat ->
  nth_error (sub l o n) i = nth_error l (o + i).
Proof.
  intros A l o n i H. unfold sub.
  revert l. induction o as [|o IH]; intros l.
  - cbn [skipn Nat.add]. revert l i H. induction n as [|n IHn]; intros [|x l] [|i] H; cbn; try lia; try reflexivity.
    apply IHn. lia.
  - destruct l as [|x l]; cbn [skipn Nat.add].
    + rewrite firstn_nil. destruct i; reflexivity.
    + apply IH.
Qed.

Lemma le_bytes_length : forall n v, length (le_bytes n v) = n.
Proof. induction n as [|n IH]; intro v; cbn [le_bytes length]; auto. Qed.

Lemma le_bytes_bytes : forall n v, all_bytes (le_bytes n v).
Proof.
  induction n as [|n IH]; intro v; cbn [le_bytes]; [constructor|].
  constructor; [unfold is_byte; lia|apply IH].
Qed.

Lemma le_val_bytes : forall n v, 0 <= v < 256 ^ Z.of_nat n -> le_val (le_bytes n v) = v.
Proof.
  induction n as [|n IH]; intros v H; cbn [le_bytes le_val].
  - cbn in H. lia.
  - rewrite Nat2Z.inj_succ, Z.pow_succ_r in H by lia.
    rewrite IH.
    + pose proof (Z.div_mod v 256 ltac:(lia)). lia.
    + split; [apply Z.div_pos; lia | apply Z.div_lt_upper_bound; lia].
Qed.

Lemma some_pair_inj : forall {A B} (a a' : A) (b b' : B),
  Some (a, b) = Some (a', b') -> a = a' /\ b = b'.
Proof. intros A B a a' b b' H. split; congruence. Qed.
