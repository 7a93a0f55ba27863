(** Crash-aware weakest precondition and basic flash lemmas. *)
From Verif Require Import Base BaseLemmas HeaderModel Flash.

(** [wpc t p Q C f]: from [f], [p] ends normally in a state satisfying [Q], and every state
    a power failure can leave satisfies [C]. *)
Fixpoint wpc {A} (t : tear) (p : prog A) (Q : A -> flash -> Prop) (C : flash -> Prop)
    (f : flash) : Prop :=
  match p with
  | Ret a => C f /\ Q a f
  | Panic => False
  | Stuck => False
  | Rd r => wpc t (r f) Q C f
  | Er a n p' => C f /\ (forall f', torn_erase t a n f f' -> C f') /\ wpc t p' Q C (erase f a n)
  | Wr a n d p' =>
      C f /\ (forall f', torn_write t a n d f f' -> C f') /\ wpc t p' Q C (write f a n d)
  end.

Lemma wpc_run : forall {A} t (p : prog A) Q C f, wpc t p Q C f ->
  exists a f', run p f = Done a f' /\ Q a f' /\ C f'.
Proof.
  induction p as [a|r IH|a n p IH|a n d p IH| |]; intros Q C f H; cbn in *.
  - exists a, f. tauto.
  - eapply IH; eauto.
  - apply (IH Q C). tauto.
  - apply (IH Q C). tauto.
  - contradiction.
  - contradiction.
Qed.

Lemma wpc_crash : forall {A} t (p : prog A) Q C f, wpc t p Q C f ->
  forall f', crash t p f f' -> C f'.
Proof.
  induction p as [a|r IH|a n p IH|a n d p IH| |]; intros Q C f H f' Hc; cbn in *.
  - subst. tauto.
  - eapply IH; eauto.
  - destruct H as (H1 & H2 & H3). destruct Hc as [->|[Hc|Hc]]; auto; eapply IH; eauto.
  - destruct H as (H1 & H2 & H3). destruct Hc as [->|[Hc|Hc]]; auto; eapply IH; eauto.
  - contradiction.
  - contradiction.
Qed.

Lemma wpc_bind : forall {A B} t (p : prog A) (k : A -> prog B) Q C f,
  wpc t p (fun a f' => wpc t (k a) Q C f') C f -> wpc t (bind p k) Q C f.
Proof.
  induction p as [a|r IH|a n p IH|a n d p IH| |]; intros k Q C f H; cbn in *; try tauto.
  - eapply IH; eauto.
  - destruct H as (H1 & H2 & H3). repeat split; auto.
  - destruct H as (H1 & H2 & H3). repeat split; auto.
Qed.

Lemma wpc_conseq : forall {A} t (p : prog A) (Q Q' : A -> flash -> Prop) (C C' : flash -> Prop) f,
  wpc t p Q C f -> (forall a f', Q a f' -> Q' a f') -> (forall f', C f' -> C' f') ->
  wpc t p Q' C' f.
Proof.
  induction p as [a|r IH|a n p IH|a n d p IH| |]; intros Q Q' C C' f H HQ HC; cbn in *; try tauto.
  - destruct H. split; auto.
  - eapply IH; eauto.
  - destruct H as (H1 & H2 & H3). repeat split; eauto.
  - destruct H as (H1 & H2 & H3). repeat split; eauto.
Qed.

(** [C] may be assumed of the final state as well. *)
Lemma wpc_post : forall {A} t (p : prog A) (Q Q' : A -> flash -> Prop) (C : flash -> Prop) f,
  wpc t p Q C f -> (forall a f', C f' -> Q a f' -> Q' a f') -> wpc t p Q' C f.
Proof.
  induction p as [a|r IH|a n p IH|a n d p IH| |]; intros Q Q' C f H HQ; cbn in *; try tauto.
  - destruct H. split; auto.
  - eapply IH; eauto.
  - destruct H as (H1 & H2 & H3). repeat split; eauto.
  - destruct H as (H1 & H2 & H3). repeat split; eauto.
Qed.

Lemma run_bind : forall {A B} (p : prog A) (k : A -> prog B) f,
  run (bind p k) f =
  match run p f with Done a f' => run (k a) f' | Panicked f' => Panicked f' | Wrong => Wrong end.
Proof.
  induction p as [a|r IH|a n p IH|a n d p IH| |]; intros k f; cbn; auto.
Qed.

Lemma crash_bind : forall {A B} t (p : prog A) (k : A -> prog B) f f',
  crash t (bind p k) f f' ->
  crash t p f f' \/ exists a f1, run p f = Done a f1 /\ crash t (k a) f1 f'.
Proof.
  induction p as [a|r IH|a n p IH|a n d p IH| |]; intros k f f' H; cbn in *.
  - right. eauto.
  - auto.
  - destruct H as [H|[H|H]]; auto. apply IH in H. tauto.
  - destruct H as [H|[H|H]]; auto. apply IH in H. tauto.
  - auto.
  - auto.
Qed.

(** ** Cells *)

Lemma inr_true : forall a n x, inr a n x = true <-> a <= x < a + n.
Proof. intros. unfold inr. lia. Qed.
Lemma inr_false : forall a n x, inr a n x = false <-> ~ (a <= x < a + n).
Proof. intros. unfold inr. lia. Qed.

Lemma erase_in : forall f a n x, a <= x < a + n -> erase f a n x = 255.
Proof. intros. unfold erase. rewrite (proj2 (inr_true a n x)) by lia. reflexivity. Qed.
Lemma erase_out : forall f a n x, ~ (a <= x < a + n) -> erase f a n x = f x.
Proof. intros. unfold erase. rewrite (proj2 (inr_false a n x)) by lia. reflexivity. Qed.
Lemma write_in : forall f a n d x, a <= x < a + n -> write f a n d x = Z.land (f x) (d (x - a)).
Proof. intros. unfold write. rewrite (proj2 (inr_true a n x)) by lia. reflexivity. Qed.
Lemma write_out : forall f a n d x, ~ (a <= x < a + n) -> write f a n d x = f x.
Proof. intros. unfold write. rewrite (proj2 (inr_false a n x)) by lia. reflexivity. Qed.

Lemma land_byte : forall a b, is_byte a -> 0 <= b -> is_byte (Z.land a b).
Proof.
  intros a b Ha Hb. unfold is_byte in *. split; [apply Z.land_nonneg; lia|].
  assert (Z.land a b <= a); [|lia].
  replace (Z.land a b) with (Z.ldiff a (Z.ldiff a b)).
  - rewrite <- Z.sub_nocarry_ldiff.
    + assert (0 <= Z.ldiff a b) by (apply Z.ldiff_nonneg; lia). lia.
    + apply Z.bits_inj'. intros k Hk. rewrite !Z.ldiff_spec, Z.bits_0.
      destruct (Z.testbit a k), (Z.testbit b k); reflexivity.
  - apply Z.bits_inj'. intros k Hk. rewrite Z.land_spec, !Z.ldiff_spec.
    destruct (Z.testbit a k), (Z.testbit b k); reflexivity.
Qed.

Lemma bytes_erase : forall f a n, bytes f -> bytes (erase f a n).
Proof. intros f a n H x. unfold erase. destruct (inr a n x); [unfold is_byte; lia|apply H]. Qed.

Lemma bytes_write : forall f a n d, bytes f -> (forall i, 0 <= i < n -> 0 <= d i) -> bytes (write f a n d).
Proof.
  intros f a n d H Hd x. unfold write. destruct (inr a n x) eqn:E; [|apply H].
  apply inr_true in E. apply land_byte; [apply H|apply Hd; lia].
Qed.

Lemma land_255 : forall b, is_byte b -> Z.land 255 b = b.
Proof.
  intros b H. unfold is_byte in H. rewrite Z.land_comm.
  change 255 with (Z.ones 8). rewrite Z.land_ones by lia. apply Z.mod_small. lia.
Qed.

Lemma length_rdl : forall n f a, length (rdl f a n) = n.
Proof. induction n as [|n IH]; intros; cbn [rdl length]; auto. Qed.

Lemma rdl_nth : forall n f a i d, (i < n)%nat -> nth i (rdl f a n) d = f (a + Z.of_nat i).
Proof.
  induction n as [|n IH]; intros f a i d H; [lia|]. destruct i as [|i]; cbn [rdl nth].
  - f_equal. lia.
  - rewrite IH by lia. f_equal. lia.
Qed.

Lemma rdl_ext : forall n f g a b,
  (forall i, 0 <= i < Z.of_nat n -> f (a + i) = g (b + i)) -> rdl f a n = rdl g b n.
Proof.
  induction n as [|n IH]; intros f g a b H; cbn [rdl]; [reflexivity|]. f_equal.
  - specialize (H 0). rewrite !Z.add_0_r in H. apply H. lia.
  - apply IH. intros i Hi. specialize (H (i + 1)).
    replace (a + 1 + i) with (a + (i + 1)) by lia.
    replace (b + 1 + i) with (b + (i + 1)) by lia. apply H. lia.
Qed.

Lemma rdl_app : forall n m f a, rdl f a (n + m) = rdl f a n ++ rdl f (a + Z.of_nat n) m.
Proof.
  induction n as [|n IH]; intros m f a; cbn [rdl Nat.add app].
  - f_equal. lia.
  - rewrite IH. do 3 f_equal. lia.
Qed.

Lemma rdl_bytes : forall n f a, bytes f -> all_bytes (rdl f a n).
Proof. induction n as [|n IH]; intros f a H; cbn [rdl]; constructor; [apply H|apply IH, H]. Qed.

Lemma rdl_sub : forall n f a o k, (o + k <= n)%nat ->
  sub (rdl f a n) o k = rdl f (a + Z.of_nat o) k.
Proof.
  intros n f a o k H. replace n with (o + (k + (n - o - k)))%nat by lia.
  rewrite !rdl_app. apply sub_app'; rewrite length_rdl; reflexivity.
Qed.

Lemma rdl_firstn : forall n f a k, (k <= n)%nat -> firstn k (rdl f a n) = rdl f a k.
Proof.
  intros n f a k H. replace n with (k + (n - k))%nat by lia. rewrite rdl_app.
  rewrite firstn_app, length_rdl, Nat.sub_diag, firstn_O, app_nil_r.
  rewrite <- (length_rdl k f a) at 1. apply firstn_all.
Qed.

Lemma word_ext : forall f g a b, (forall i, 0 <= i < 4 -> f (a + i) = g (b + i)) -> word f a = word g b.
Proof.
  intros f g a b H. unfold word.
  pose proof (H 0 ltac:(lia)) as H0. rewrite !Z.add_0_r in H0.
  rewrite H0, (H 1), (H 2), (H 3) by lia. reflexivity.
Qed.

Lemma word_bytes_inj : forall f a v, bytes f -> word f a = v ->
  f a = v mod 256 /\ f (a+1) = v / 256 mod 256 /\ f (a+2) = v / 65536 mod 256 /\ f (a+3) = v / 16777216 mod 256.
Proof.
  intros f a v Hb H. unfold word, le32 in H.
  pose proof (Hb a). pose proof (Hb (a+1)). pose proof (Hb (a+2)). pose proof (Hb (a+3)).
  unfold is_byte in *. lia.
Qed.
