(** Proofs about the C library functions. *)
From Verif Require Import Base BaseLemmas StringModel StringSpec.

Lemma ld_ok : forall m a, m a <> None -> exists v, m a = Some v /\ ld m a = Val v.
Proof. intros m a H. unfold ld. destruct (m a) as [v|]; [exists v; split; reflexivity|contradiction]. Qed.
Lemma st_ok : forall m a v, m a <> None -> st m a v = Val (fun x => if x =? a then Some v else m x).
Proof. intros m a v H. unfold st. destruct (m a); [reflexivity|contradiction]. Qed.
Lemma upd_range : forall m a v b n, ok_range m b n -> ok_range (fun x => if x =? a then Some v else m x) b n.
Proof. intros m a v b n H x Hx. cbv beta. destruct (x =? a); [discriminate|]. apply H, Hx. Qed.
Lemma range_sub : forall m a n b k, ok_range m a n -> a <= b -> b + k <= a + n -> ok_range m b k.
Proof. intros m a n b k H H1 H2 x Hx. apply H. lia. Qed.

(** ** Copying *)

Lemma memset_ok : forall n s c m, ok_range m s (Z.of_nat n) -> exists m', memset n s c m = Val m' /\ stored m m' s (repeat (c mod 256) n).
Proof.
  induction n as [|n IH]; intros s c m H; cbn [memset].
  - exists m. split; [reflexivity|]. intro x. unfold zlen. cbn [repeat length]. destruct (Z.leb_spec s x), (Z.ltb_spec x (s + Z.of_nat 0)); try lia; reflexivity.
  - rewrite st_ok by (apply H; lia). cbn [obind]. destruct (IH (s + 1) c (fun x => if x =? s then Some (c mod 256) else m x)) as (m' & E & ST).
    { apply upd_range. eapply range_sub; [exact H|lia|lia]. }
    exists m'. split; [exact E|]. intro x. rewrite ST. unfold zlen. cbn [repeat length]. rewrite !repeat_length.
    destruct (Z.leb_spec (s + 1) x), (Z.ltb_spec x (s + 1 + Z.of_nat n)); cbn [andb];
      destruct (Z.leb_spec s x), (Z.ltb_spec x (s + Z.of_nat (S n))); cbn [andb]; try lia; destruct (Z.eqb_spec x s); try lia; try reflexivity.
    + replace (Z.to_nat (x - s)) with (S (Z.to_nat (x - (s + 1)))) by lia. reflexivity.
    + subst. rewrite Z.sub_diag. reflexivity.
Qed.

Lemma moved_0 : forall m d s, moved m m d s 0.
Proof. intros m d s x. destruct (Z.leb_spec d x), (Z.ltb_spec x (d + 0)); try lia; reflexivity. Qed.
(** Two copies in a row. *)
Lemma moved_app : forall m m1 m2 d s a b, 0 <= a -> 0 <= b -> d <= s \/ s + (a + b) <= d -> moved m m1 d s a -> moved m1 m2 (d + a) (s + a) b -> moved m m2 d s (a + b).
Proof.
  intros m m1 m2 d s a b Ha Hb HD H1 H2 x. rewrite H2. destruct (Z.leb_spec (d + a) x), (Z.ltb_spec x (d + a + b)); cbn [andb];
    destruct (Z.leb_spec d x), (Z.ltb_spec x (d + (a + b))); cbn [andb]; try lia.
  - rewrite H1. replace (s + a + (x - (d + a))) with (s + (x - d)) by ring. destruct (Z.leb_spec d (s + (x - d))), (Z.ltb_spec (s + (x - d)) (d + a)); cbn [andb]; try lia; reflexivity.
  - rewrite H1. destruct (Z.leb_spec d x), (Z.ltb_spec x (d + a)); cbn [andb]; try lia; reflexivity.
  - rewrite H1. destruct (Z.leb_spec d x), (Z.ltb_spec x (d + a)); cbn [andb]; try lia; reflexivity.
  - rewrite H1. destruct (Z.leb_spec d x), (Z.ltb_spec x (d + a)); cbn [andb]; try lia; reflexivity.
Qed.
Lemma moved_range : forall m m' d s n a k, moved m m' d s n -> ok_range m s n -> ok_range m a k -> ok_range m' a k.
Proof.
  intros m m' d s n a k H Hs Ha x Hx. rewrite H. destruct (Z.leb_spec d x), (Z.ltb_spec x (d + n)); cbn [andb]; try (apply Ha; exact Hx). apply Hs. lia.
Qed.

Lemma copy_bytes_ok : forall n d s m, ok_range m d (Z.of_nat n) -> ok_range m s (Z.of_nat n) -> d <= s \/ s + Z.of_nat n <= d ->
  exists m', copy_bytes n d s m = Val m' /\ moved m m' d s (Z.of_nat n).
Proof.
  induction n as [|n IH]; intros d s m Hd Hs HD; cbn [copy_bytes].
  - exists m. split; [reflexivity|]. apply moved_0.
  - destruct (ld_ok m s) as (v & E & ->); [apply Hs; lia|]. cbn [obind]. rewrite st_ok by (apply Hd; lia). cbn [obind].
    set (m1 := fun x => if x =? d then Some v else m x).
    assert (M1 : moved m m1 d s 1).
    { intro x. unfold m1. destruct (Z.eqb_spec x d), (Z.leb_spec d x), (Z.ltb_spec x (d + 1)); try lia; cbn [andb]; try reflexivity.
      subst x. rewrite Z.sub_diag, Z.add_0_r. symmetry. exact E. }
    destruct (IH (d + 1) (s + 1) m1) as (m' & E' & M'); [apply upd_range; eapply range_sub; [exact Hd|lia|lia]|apply upd_range; eapply range_sub; [exact Hs|lia|lia]|lia|].
    exists m'. split; [exact E'|]. replace (Z.of_nat (S n)) with (1 + Z.of_nat n) by lia. eapply moved_app; [lia|lia|lia|exact M1|exact M'].
Qed.

Lemma ld_word_ok : forall w a m, ok_range m a (Z.of_nat w) -> exists l, ld_word w a m = Val l /\ length l = w /\ holds m a l.
Proof.
  induction w as [|w IH]; intros a m H; cbn [ld_word].
  - exists []. split; [reflexivity|]. split; [reflexivity|]. intros i Hi. cbn in Hi. lia.
  - destruct (ld_ok m a) as (v & E & ->); [apply H; lia|]. cbn [obind]. destruct (IH (a + 1) m) as (l & -> & L & Hl); [eapply range_sub; [exact H|lia|lia]|].
    cbn [obind]. exists (v :: l). split; [reflexivity|]. split; [cbn [length]; lia|]. intros i Hi. destruct i as [|i]; cbn [nth].
    + rewrite Z.add_0_r. exact E.
    + cbn [length] in Hi. replace (a + Z.of_nat (S i)) with (a + 1 + Z.of_nat i) by lia. apply Hl. lia.
Qed.
Lemma st_word_ok : forall l a m, ok_range m a (zlen l) -> exists m', st_word l a m = Val m' /\ stored m m' a l.
Proof.
  induction l as [|v l IH]; intros a m H; cbn [st_word]; unfold zlen in *; cbn [length] in *.
  - exists m. split; [reflexivity|]. intro x. unfold zlen. cbn [length]. destruct (Z.leb_spec a x), (Z.ltb_spec x (a + Z.of_nat 0)); try lia; reflexivity.
  - rewrite st_ok by (apply H; lia). cbn [obind]. destruct (IH (a + 1) (fun x => if x =? a then Some v else m x)) as (m' & E & ST).
    { apply upd_range. eapply range_sub; [exact H|lia|lia]. }
    exists m'. split; [exact E|]. intro x. rewrite ST. unfold zlen. cbn [length].
    destruct (Z.leb_spec (a + 1) x), (Z.ltb_spec x (a + 1 + Z.of_nat (length l))); cbn [andb];
      destruct (Z.leb_spec a x), (Z.ltb_spec x (a + Z.of_nat (S (length l)))); cbn [andb]; try lia; destruct (Z.eqb_spec x a); try lia; try reflexivity.
    + replace (Z.to_nat (x - a)) with (S (Z.to_nat (x - (a + 1)))) by lia. reflexivity.
    + subst. rewrite Z.sub_diag. reflexivity.
Qed.

Lemma copy_words_ok : forall k w d s m, (0 < w)%nat -> ok_range m d (Z.of_nat (k * w)) -> ok_range m s (Z.of_nat (k * w)) -> d <= s \/ s + Z.of_nat (k * w) <= d ->
  exists m', copy_words k w d s m = Val m' /\ moved m m' d s (Z.of_nat (k * w)).
Proof.
  induction k as [|k IH]; intros w d s m Hw Hd Hs HD; cbn [copy_words].
  - exists m. split; [reflexivity|]. apply moved_0.
  - assert (KW : Z.of_nat (S k * w) = Z.of_nat w + Z.of_nat (k * w)) by lia. rewrite KW in *.
    destruct (ld_word_ok w s m) as (l & -> & L & Hl); [eapply range_sub; [exact Hs|lia|lia]|]. cbn [obind].
    destruct (st_word_ok l d m) as (m1 & -> & S1); [unfold zlen; rewrite L; eapply range_sub; [exact Hd|lia|lia]|]. cbn [obind].
    assert (M1 : moved m m1 d s (Z.of_nat w)).
    { intro x. rewrite S1. unfold zlen. rewrite L. destruct (Z.leb_spec d x), (Z.ltb_spec x (d + Z.of_nat w)); cbn [andb]; try reflexivity.
      rewrite <- Hl by lia. f_equal. lia. }
    assert (R : forall a n, ok_range m a n -> ok_range m1 a n).
    { intros a n Ha. eapply moved_range; [exact M1| |exact Ha]. eapply range_sub; [exact Hs|lia|lia]. }
    destruct (IH w (d + Z.of_nat w) (s + Z.of_nat w) m1 Hw) as (m' & E' & M'); [apply R; eapply range_sub; [exact Hd|lia|lia]|apply R; eapply range_sub; [exact Hs|lia|lia]|lia|].
    exists m'. split; [exact E'|]. eapply moved_app; [lia|lia|lia|exact M1|exact M'].
Qed.

Lemma memcpy_ok : forall fast w d s n m, (0 < w)%nat -> 0 <= n -> ok_range m d n -> ok_range m s n -> d <= s \/ s + n <= d ->
  exists m', memcpy fast w d s n m = Val m' /\ moved m m' d s n.
Proof.
  intros fast w d s n m Hw Hn Hd Hs HD. unfold memcpy. destruct (fast && _ && _).
  - set (k := n / Z.of_nat w). assert (K : 0 <= k /\ k * Z.of_nat w <= n) by (unfold k; split; [apply Z.div_pos; lia|rewrite Z.mul_comm; apply Z.mul_div_le; lia]).
    assert (KW : Z.of_nat (Z.to_nat k * w) = k * Z.of_nat w) by lia. clearbody k.
    destruct (copy_words_ok (Z.to_nat k) w d s m Hw) as (m1 & -> & M1).
    { rewrite KW. eapply range_sub; [exact Hd|lia|lia]. } { rewrite KW. eapply range_sub; [exact Hs|lia|lia]. } { rewrite KW. lia. }
    cbn [obind]. rewrite KW in M1. set (q := k * Z.of_nat w) in *.
    assert (R : forall a n, ok_range m a n -> ok_range m1 a n).
    { intros a i Ha. eapply moved_range; [exact M1| |exact Ha]. eapply range_sub; [exact Hs|lia|lia]. }
    destruct (copy_bytes_ok (Z.to_nat (n - q)) (d + q) (s + q) m1) as (m' & E & M').
    { apply R. rewrite Z2Nat.id by lia. eapply range_sub; [exact Hd|lia|lia]. } { apply R. rewrite Z2Nat.id by lia. eapply range_sub; [exact Hs|lia|lia]. } { rewrite Z2Nat.id by lia. lia. }
    exists m'. split; [exact E|]. rewrite Z2Nat.id in M' by lia. replace n with (q + (n - q)) by ring. eapply moved_app; [lia|lia|lia|exact M1|exact M'].
  - destruct (copy_bytes_ok (Z.to_nat n) d s m) as (m' & E & M'); rewrite ?Z2Nat.id in * by lia; try assumption. exists m'. split; assumption.
Qed.

(** Copying downwards: the bytes from [k] up are done. *)
Lemma copy_down_ok : forall k d s m, ok_range m d (Z.of_nat k) -> ok_range m s (Z.of_nat k) -> s < d ->
  exists m', copy_down k d s m = Val m' /\ moved m m' d s (Z.of_nat k).
Proof.
  induction k as [|k IH]; intros d s m Hd Hs HD; cbn [copy_down].
  - exists m. split; [reflexivity|]. apply moved_0.
  - destruct (ld_ok m (s + Z.of_nat k)) as (v & E & ->); [apply Hs; lia|]. cbn [obind]. rewrite st_ok by (apply Hd; lia). cbn [obind].
    set (m1 := fun x => if x =? d + Z.of_nat k then Some v else m x).
    destruct (IH d s m1) as (m' & E' & M'); [apply upd_range; eapply range_sub; [exact Hd|lia|lia]|apply upd_range; eapply range_sub; [exact Hs|lia|lia]|lia|].
    exists m'. split; [exact E'|]. intro x. rewrite M'. unfold m1.
    destruct (Z.leb_spec d x), (Z.ltb_spec x (d + Z.of_nat k)); cbn [andb]; destruct (Z.ltb_spec x (d + Z.of_nat (S k))); cbn [andb]; try lia.
    + destruct (Z.eqb_spec (s + (x - d)) (d + Z.of_nat k)); [lia|]. reflexivity.
    + destruct (Z.eqb_spec x (d + Z.of_nat k)); [|lia]. subst x. replace (s + (d + Z.of_nat k - d)) with (s + Z.of_nat k) by ring. symmetry. exact E.
    + destruct (Z.eqb_spec x (d + Z.of_nat k)); [lia|]. reflexivity.
    + destruct (Z.eqb_spec x (d + Z.of_nat k)); [lia|]. reflexivity.
Qed.

(** ** Comparing *)

Lemma holds_cons : forall m a x l, holds m a (x :: l) -> m a = Some x /\ holds m (a + 1) l.
Proof.
  intros m a x l H. split; [specialize (H O); cbn [length nth] in H; rewrite Z.add_0_r in H; apply H; lia|].
  intros i Hi. specialize (H (S i)). cbn [length nth] in H. replace (a + 1 + Z.of_nat i) with (a + Z.of_nat (S i)) by lia. apply H. lia.
Qed.
Lemma ld_at : forall m a x, m a = Some x -> ld m a = Val x.
Proof. intros m a x H. unfold ld. rewrite H. reflexivity. Qed.

Lemma memcmp_ok : forall l1 l2 a b m, length l1 = length l2 -> holds m a l1 -> holds m b l2 ->
  exists v, memcmp (length l1) a b m = Val v /\ sign_is v (lex l1 l2).
Proof.
  induction l1 as [|x l1 IH]; intros [|y l2] a b m HL H1 H2; try discriminate; cbn [length memcmp lex].
  - exists 0. split; reflexivity.
  - apply holds_cons in H1 as (A1 & H1). apply holds_cons in H2 as (A2 & H2). rewrite (ld_at _ _ _ A1), (ld_at _ _ _ A2). cbn [obind].
    destruct (Z.eqb_spec (x - y) 0) as [E|E].
    + replace y with x by lia. rewrite Z.compare_refl. apply IH; [injection HL; auto|exact H1|exact H2].
    + exists (x - y). split; [reflexivity|]. unfold sign_is. destruct (Z.compare_spec x y); [lia|apply Z.compare_lt_iff; lia|apply Z.compare_gt_iff; lia].
Qed.

Lemma memchr_ok : forall l a c m, holds m a l -> 
  exists r, memchr (length l) a c m = Val r /\
    match r with
    | Some p => exists i, (i < length l)%nat /\ p = a + Z.of_nat i /\ nth i l 0 = c mod 256 /\ forall j, (j < i)%nat -> nth j l 0 <> c mod 256
    | None => ~ In (c mod 256) l
    end.
Proof.
  induction l as [|x l IH]; intros a c m H; cbn [length memchr].
  - exists None. split; [reflexivity|]. intros [].
  - apply holds_cons in H as (A & H). rewrite (ld_at _ _ _ A). cbn [obind]. destruct (Z.eqb_spec x (c mod 256)) as [E|E].
    + exists (Some a). split; [reflexivity|]. exists O. split; [lia|]. split; [lia|]. split; [exact E|]. intros j Hj; lia.
    + destruct (IH (a + 1) c m H) as (r & -> & R). exists r. split; [reflexivity|]. destruct r as [p|].
      * destruct R as (i & Hi & -> & Hc & Hj). exists (S i). split; [lia|]. split; [lia|]. split; [exact Hc|]. intros [|j] Hj2; cbn [nth]; [exact E|apply Hj; lia].
      * intros [Hx|Hx]; [apply E; exact Hx|exact (R Hx)].
Qed.

Lemma cstr_cons : forall m a x l, cstr m a (x :: l) -> m a = Some x /\ 0 < x < 256 /\ cstr m (a + 1) l.
Proof. intros m a x l (H1 & H2). inversion H1 as [|? ? X1 X2]; subst. apply holds_cons in H2 as (A & H2). split; [exact A|]. split; [exact X1|]. split; assumption. Qed.
Lemma cstr_nil : forall m a, cstr m a [] -> m a = Some 0.
Proof. intros m a (_ & H). apply holds_cons in H. apply H. Qed.

Lemma strlen_ok : forall l fuel a m, cstr m a l -> (length l < fuel)%nat -> strlen fuel a m = Val (zlen l).
Proof.
  induction l as [|x l IH]; intros [|fuel] a m H HF; cbn [length] in HF; try lia; cbn [strlen].
  - rewrite (ld_at _ _ _ (cstr_nil _ _ H)). reflexivity.
  - apply cstr_cons in H as (A & X & H). rewrite (ld_at _ _ _ A). cbn [obind]. destruct (Z.eqb_spec x 0); [lia|]. rewrite (IH fuel (a + 1) m H) by lia.
    cbn [obind]. unfold zlen. cbn [length]. f_equal. lia.
Qed.

Lemma strncmp_ok : forall n l1 l2 a b m, cstr m a l1 -> cstr m b l2 ->
  exists v, strncmp n a b m = Val v /\ sign_is v (lex (firstn n l1) (firstn n l2)).
Proof.
  induction n as [|n IH]; intros l1 l2 a b m H1 H2; cbn [strncmp firstn]; [exists 0; split; reflexivity|].
  destruct l1 as [|x l1], l2 as [|y l2].
  - rewrite (ld_at _ _ _ (cstr_nil _ _ H1)), (ld_at _ _ _ (cstr_nil _ _ H2)). exists 0. split; reflexivity.
  - apply cstr_cons in H2 as (A2 & Y & H2). rewrite (ld_at _ _ _ (cstr_nil _ _ H1)), (ld_at _ _ _ A2). cbn [obind Z.eqb]. rewrite orb_true_r.
    exists (0 - y). split; [reflexivity|]. unfold sign_is. cbn [lex]. apply Z.compare_lt_iff. lia.
  - apply cstr_cons in H1 as (A1 & X & H1). rewrite (ld_at _ _ _ (cstr_nil _ _ H2)), (ld_at _ _ _ A1). cbn [obind]. destruct (Z.eqb_spec (x - 0) 0); [lia|].
    exists (x - 0). split; [reflexivity|]. unfold sign_is. cbn [lex]. apply Z.compare_gt_iff. lia.
  - apply cstr_cons in H1 as (A1 & X & H1). apply cstr_cons in H2 as (A2 & Y & H2). rewrite (ld_at _ _ _ A1), (ld_at _ _ _ A2). cbn [obind lex].
    destruct (Z.eqb_spec (x - y) 0) as [E|E]; cbn [negb orb].
    + destruct (Z.eqb_spec x 0); [lia|]. replace y with x by lia. rewrite Z.compare_refl. apply IH; assumption.
    + exists (x - y). split; [reflexivity|]. unfold sign_is. destruct (Z.compare_spec x y); [lia|apply Z.compare_lt_iff; lia|apply Z.compare_gt_iff; lia].
Qed.

(** [strcmp] as it is: it stops at the end of the first string without looking at the second. *)
Lemma strcmp_val : forall l1 l2 fuel sc a b m, cstr m a l1 -> cstr m b l2 -> (length l1 < fuel)%nat -> (sc = true -> Forall (fun c => c < 128) (l1 ++ l2)) ->
  exists v, strcmp fuel sc a b m = Val v /\ sign_is v (lex l1 (firstn (length l1) l2)).
Proof.
  unfold strcmp. induction l1 as [|x l1 IH]; intros l2 [|fuel] sc a b m H1 H2 HF HA; cbn [length] in HF; try lia; cbn [str_cmp length firstn].
  - rewrite (ld_at _ _ _ (cstr_nil _ _ H1)). exists 0. split; reflexivity.
  - apply cstr_cons in H1 as (A1 & X & H1). rewrite (ld_at _ _ _ A1). cbn [obind]. destruct (Z.eqb_spec x 0); [lia|].
    assert (CX : chr sc x = x). { unfold chr. destruct sc; [|reflexivity]. specialize (HA eq_refl). inversion HA; subst. destruct (Z.leb_spec 128 x); [lia|reflexivity]. }
    destruct l2 as [|y l2].
    + rewrite (ld_at _ _ _ (cstr_nil _ _ H2)). cbn [obind andb]. rewrite CX. replace (chr sc 0) with 0 by (destruct sc; reflexivity).
      destruct (Z.eqb_spec (x - 0) 0); [lia|]. exists (x - 0). split; [reflexivity|]. cbn [lex]. unfold sign_is. apply Z.compare_gt_iff. lia.
    + apply cstr_cons in H2 as (A2 & Y & H2). rewrite (ld_at _ _ _ A2). cbn [obind andb lex]. rewrite CX.
      assert (CY : chr sc y = y). { unfold chr. destruct sc; [|reflexivity]. specialize (HA eq_refl). rewrite Forall_forall in HA. specialize (HA y ltac:(apply in_or_app; right; left; reflexivity)). destruct (Z.leb_spec 128 y); [lia|reflexivity]. }
      rewrite CY. destruct (Z.eqb_spec (x - y) 0) as [E|E].
      * replace y with x by lia. rewrite Z.compare_refl. apply IH; [exact H1|exact H2|lia|]. intro SC. specialize (HA SC). rewrite Forall_forall in *. intros c Hc. apply HA.
        apply in_app_or in Hc as [Hc|Hc]; [right; apply in_or_app; left; exact Hc|right; apply in_or_app; right; right; exact Hc].
      * exists (x - y). split; [reflexivity|]. unfold sign_is. destruct (Z.compare_spec x y); [lia|apply Z.compare_lt_iff; lia|apply Z.compare_gt_iff; lia].
Qed.

(** ** Copying strings *)

Lemma holds_upd : forall m d v a l, holds m a l -> ~ (a <= d < a + zlen l) -> holds (fun x => if x =? d then Some v else m x) a l.
Proof. intros m d v a l H HD i Hi. cbv beta. unfold zlen in HD. destruct (Z.eqb_spec (a + Z.of_nat i) d); [lia|]. apply H, Hi. Qed.

Lemma stored_cons : forall m m' d v l, stored (fun x => if x =? d then Some v else m x) m' (d + 1) l -> stored m m' d (v :: l).
Proof.
  intros m m' d v l ST x. rewrite ST. unfold zlen. cbn [length].
  destruct (Z.leb_spec (d + 1) x), (Z.ltb_spec x (d + 1 + Z.of_nat (length l))); cbn [andb];
    destruct (Z.leb_spec d x), (Z.ltb_spec x (d + Z.of_nat (S (length l)))); cbn [andb]; try lia; destruct (Z.eqb_spec x d); try lia; try reflexivity.
  - replace (Z.to_nat (x - d)) with (S (Z.to_nat (x - (d + 1)))) by lia. reflexivity.
  - subst. rewrite Z.sub_diag. reflexivity.
Qed.
Lemma stored_nil : forall m d, stored m m d [].
Proof. intros m d x. unfold zlen. cbn [length]. destruct (Z.leb_spec d x), (Z.ltb_spec x (d + Z.of_nat 0)); try lia; reflexivity. Qed.

Lemma cstr_upd : forall m d v a l, cstr m a l -> ~ (a <= d <= a + zlen l) -> cstr (fun x => if x =? d then Some v else m x) a l.
Proof. intros m d v a l (H1 & H2) HD. split; [exact H1|]. apply holds_upd; [exact H2|]. unfold zlen in *. rewrite app_length. cbn [length]. lia. Qed.

Lemma strcpy_ok : forall l fuel d s m, cstr m s l -> ok_range m d (zlen l + 1) -> (length l < fuel)%nat -> d + zlen l < s \/ s + zlen l < d ->
  exists m', strcpy fuel d s m = Val m' /\ stored m m' d (l ++ [0]).
Proof.
  induction l as [|x l IH]; intros [|fuel] d s m H HD HF HO; cbn [length] in HF; try lia; cbn [strcpy app]; unfold zlen in *; cbn [length] in *.
  - rewrite (ld_at _ _ _ (cstr_nil _ _ H)). cbn [obind]. rewrite st_ok by (apply HD; lia). cbn [obind]. unfold ld. destruct (Z.eqb_spec s d); [lia|].
    rewrite (cstr_nil _ _ H). cbn [obind Z.eqb]. eexists. split; [reflexivity|]. apply stored_cons, stored_nil.
  - pose proof (cstr_cons _ _ _ _ H) as (A & X & H'). rewrite (ld_at _ _ _ A). cbn [obind]. rewrite st_ok by (apply HD; lia). cbn [obind]. unfold ld. destruct (Z.eqb_spec s d); [lia|].
    rewrite A. cbn [obind]. destruct (Z.eqb_spec x 0); [lia|].
    destruct (IH fuel (d + 1) (s + 1) (fun a => if a =? d then Some x else m a)) as (m' & E & ST).
    + apply cstr_upd; [exact H'|]. unfold zlen. lia.
    + apply upd_range. eapply range_sub; [exact HD|lia|lia].
    + lia.
    + lia.
    + exists m'. split; [exact E|]. apply stored_cons. exact ST.
Qed.

Lemma strncpy_ok : forall l n d s m, cstr m s l -> ok_range m d (Z.of_nat n) -> d + Z.of_nat n <= s \/ s + zlen l < d ->
  exists m', strncpy n d s m = Val m' /\ stored m m' d (firstn n (l ++ [0])).
Proof.
  induction l as [|x l IH]; intros [|n] d s m H HD HO; cbn [strncpy app firstn]; try (exists m; split; [reflexivity|apply stored_nil]); unfold zlen in *; cbn [length] in *.
  - rewrite (ld_at _ _ _ (cstr_nil _ _ H)). cbn [obind]. rewrite st_ok by (apply HD; lia). cbn [obind]. unfold ld. destruct (Z.eqb_spec s d); [lia|].
    rewrite (cstr_nil _ _ H). cbn [obind Z.eqb]. eexists. split; [reflexivity|]. rewrite firstn_nil. apply stored_cons, stored_nil.
  - pose proof (cstr_cons _ _ _ _ H) as (A & X & H'). rewrite (ld_at _ _ _ A). cbn [obind]. rewrite st_ok by (apply HD; lia). cbn [obind]. unfold ld. destruct (Z.eqb_spec s d); [lia|].
    rewrite A. cbn [obind]. destruct (Z.eqb_spec x 0); [lia|].
    destruct n as [|n].
    { cbn [strncpy firstn]. eexists. split; [reflexivity|]. apply stored_cons, stored_nil. }
    destruct (IH (S n) (d + 1) (s + 1) (fun a => if a =? d then Some x else m a)) as (m' & E & ST).
    + destruct HO as [HO|HO]; [|apply cstr_upd; [exact H'|unfold zlen; lia]]. apply cstr_upd; [exact H'|]. lia.
    + apply upd_range. eapply range_sub; [exact HD|lia|lia].
    + lia.
    + exists m'. split; [exact E|]. apply stored_cons. exact ST.
Qed.

(** ** Appending strings *)

Definition take (lim : option Z) (j : Z) (r : list Z) : list Z := match lim with None => r | Some L => firstn (Z.to_nat (L - j)) r end.

Lemma holds_nth : forall m a l i, holds m a l -> (i < length l)%nat -> m (a + Z.of_nat i) = Some (nth i l 0).
Proof. intros m a l i H Hi. apply H, Hi. Qed.
Lemma skip_cons : forall (l : list Z) i x r, skipn i l = x :: r -> (i < length l)%nat /\ nth i l 0 = x /\ skipn (S i) l = r.
Proof.
  intros l. induction l as [|y l IH]; intros [|i] x r H; cbn [skipn] in H; try discriminate.
  - injection H as -> ->. split; [cbn; lia|]. split; reflexivity.
  - destruct (IH i x r H) as (A & B & C). split; [cbn [length]; lia|]. split; [exact B|exact C].
Qed.
Lemma skip_nil : forall (l : list Z) i, skipn i l = [] -> (length l <= i)%nat.
Proof. intros l i H. pose proof (skipn_length i l) as E. rewrite H in E. cbn [length] in E. lia. Qed.

Lemma cat_ok : forall r fuel lim i j d s l m, cstr m s l -> skipn i l = r -> (i <= length l)%nat -> ok_range m (d + j) (zlen r) ->
  d + j + zlen r <= s \/ s + zlen l < d + j -> (length l + length r < fuel)%nat ->
  exists m', cat_loop fuel lim (Z.of_nat i) j d s m = Val (j + zlen (take lim j r), m') /\ stored m m' (d + j) (take lim j r).
Proof.
  induction r as [|x r IH]; intros [|fuel] lim i j d s l m H HS HI HR HO HF; cbn [length] in HF; try lia; cbn [cat_loop];
    rewrite (strlen_ok l _ s m H) by lia; cbn [obind].
  - apply skip_nil in HS. destruct (Z.ltb_spec (Z.of_nat i) (zlen l)); [unfold zlen in *; lia|].
    replace (take lim j []) with (@nil Z) by (destruct lim; cbn [take]; [rewrite firstn_nil|]; reflexivity). exists m. split; [unfold zlen; cbn [length]; rewrite Z.add_0_r; reflexivity|apply stored_nil].
  - destruct (skip_cons _ _ _ _ HS) as (L & E & HS'). destruct (Z.ltb_spec (Z.of_nat i) (zlen l)); [|unfold zlen in *; lia].
    assert (Z : (exists L0, lim = Some L0 /\ L0 <= j) \/ (match lim with Some l0 => l0 <=? j | None => false end = false /\ take lim j (x :: r) = x :: take lim (j + 1) r)).
    { destruct lim as [L0|]; [|right; split; reflexivity]. destruct (Z.leb_spec L0 j); [left; exists L0; split; [reflexivity|assumption]|right; split; [reflexivity|]].
      cbn [take]. replace (Z.to_nat (L0 - j)) with (S (Z.to_nat (L0 - (j + 1)))) by lia. reflexivity. }
    destruct Z as [(L0 & -> & LE)|(-> & ET)].
    + destruct (Z.leb_spec L0 j); [|lia]. cbn [take]. replace (Z.to_nat (L0 - j)) with O by lia. cbn [firstn]. exists m. split; [unfold zlen; cbn [length]; rewrite Z.add_0_r; reflexivity|apply stored_nil].
    + rewrite ET. destruct H as (H1 & H2). rewrite (ld_at m (s + Z.of_nat i) x) by (rewrite (H2 i) by (rewrite app_length; lia); rewrite app_nth1 by exact L; rewrite E; reflexivity).
      cbn [obind]. unfold zlen in HR, HO. cbn [length] in HR, HO. rewrite st_ok by (apply HR; lia). cbn [obind].
      destruct (IH fuel lim (S i) (j + 1) d s l (fun a => if a =? d + j then Some x else m a)) as (m' & E' & ST).
      * apply cstr_upd; [split; assumption|]. unfold zlen. pose proof (skipn_length i l) as SL. rewrite HS in SL. cbn [length] in SL. lia.
      * exact HS'.
      * lia.
      * replace (d + (j + 1)) with (d + j + 1) by ring. apply upd_range. eapply range_sub; [exact HR|lia|]. unfold zlen. lia.
      * unfold zlen. lia.
      * lia.
      * exists m'. replace (Z.of_nat (S i)) with (Z.of_nat i + 1) in E' by lia. rewrite E'. split; [f_equal; f_equal; unfold zlen; cbn [length]; lia|].
        apply stored_cons. replace (d + j + 1) with (d + (j + 1)) by ring. exact ST.
Qed.

Lemma stored_app : forall m m1 m2 a l v, stored m m1 a l -> (forall x, m2 x = if x =? a + zlen l then Some v else m1 x) -> stored m m2 a (l ++ [v]).
Proof.
  intros m m1 m2 a l v S1 S2 x. rewrite S2, S1. unfold zlen. rewrite app_length. cbn [length].
  destruct (Z.eqb_spec x (a + Z.of_nat (length l))); destruct (Z.leb_spec a x), (Z.ltb_spec x (a + Z.of_nat (length l))), (Z.ltb_spec x (a + Z.of_nat (length l + 1))); cbn [andb]; try lia; try reflexivity.
  - rewrite app_nth2 by lia. replace (Z.to_nat (x - a) - length l)%nat with O by lia. reflexivity.
  - rewrite app_nth1 by lia. reflexivity.
Qed.

Lemma take_len : forall lim j r, zlen (take lim j r) <= zlen r.
Proof. intros [L|] j r; unfold zlen; cbn [take]; [rewrite firstn_length|]; lia. Qed.

Lemma append_ok : forall fuel lim d s l1 l2 m, cstr m d l1 -> cstr m s l2 -> ok_range m d (zlen l1 + zlen l2 + 1) ->
  d + zlen l1 + zlen l2 < s \/ s + zlen l2 < d -> (length l1 + length l2 + length l2 < fuel)%nat ->
  exists m', (dlet j0 <- strlen fuel d m in dlet (j, m') <- cat_loop fuel lim 0 j0 d s m in st m' (d + j) 0) = Val m' /\
    stored m m' (d + zlen l1) (take lim (zlen l1) l2 ++ [0]).
Proof.
  intros fuel lim d s l1 l2 m H1 H2 HR HO HF. rewrite (strlen_ok l1 fuel d m H1) by lia. cbn [obind].
  destruct (cat_ok l2 fuel lim O (zlen l1) d s l2 m H2 eq_refl ltac:(lia)) as (m1 & E & ST).
  { eapply range_sub; [exact HR|unfold zlen; lia|lia]. } { unfold zlen in *; lia. } { lia. }
  change (Z.of_nat 0) with 0 in E. rewrite E. cbn [obind]. pose proof (take_len lim (zlen l1) l2) as TL.
  assert (N : m1 (d + (zlen l1 + zlen (take lim (zlen l1) l2))) <> None).
  { rewrite ST. destruct (Z.leb_spec (d + zlen l1) (d + (zlen l1 + zlen (take lim (zlen l1) l2)))), (Z.ltb_spec (d + (zlen l1 + zlen (take lim (zlen l1) l2))) (d + zlen l1 + zlen (take lim (zlen l1) l2))); cbn [andb]; try discriminate; apply HR; unfold zlen in *; lia. }
  rewrite st_ok by exact N. eexists. split; [reflexivity|]. apply (stored_app m m1); [exact ST|]. intro x. cbv beta.
  replace (d + (zlen l1 + zlen (take lim (zlen l1) l2))) with (d + zlen l1 + zlen (take lim (zlen l1) l2)) by ring. reflexivity.
Qed.

(** ** Numbers *)

Fixpoint digs (fuel : nat) (base v : Z) : list Z :=
  match fuel with O => [] | S f => (if 0 <? v / base then digs f base (v / base) else []) ++ [digit (v mod base)] end.

Lemma digit_ok : forall base v, 2 <= base <= 16 -> 0 <= v < base -> is_digit base (digit v) /\ dval (digit v) = v /\ (digit v = 48 -> v = 0).
Proof.
  intros base v HB Hv. unfold digit, is_digit, dval. destruct (Z.ltb_spec v 10).
  - destruct (Z.ltb_spec (48 + v) 58); [|lia]. lia.
  - destruct (Z.ltb_spec (55 + v) 58); [lia|]. lia.
Qed.
Lemma value_snoc : forall base l acc c, value base acc (l ++ [c]) = value base acc l * base + dval c.
Proof. intros base l. induction l as [|x l IH]; intros acc c; cbn [value app]; [reflexivity|]. apply IH. Qed.
Lemma hd_snoc : forall (l : list Z) c, l <> [] -> hd 0 (l ++ [c]) = hd 0 l.
Proof. intros [|x l] c H; [contradiction|reflexivity]. Qed.

Lemma half : forall v base n, 2 <= base -> 0 <= v < 2 ^ Z.of_nat (S n) -> 0 <= v / base < 2 ^ Z.of_nat n.
Proof.
  intros v base n HB Hv. split; [apply Z.div_pos; lia|]. apply Z.div_lt_upper_bound; [lia|]. rewrite Nat2Z.inj_succ, Z.pow_succ_r in Hv by lia. nia.
Qed.

Lemma digs_numeral : forall fuel base v, 2 <= base <= 16 -> 0 <= v < 2 ^ Z.of_nat fuel -> (0 < fuel)%nat -> numeral base (digs fuel base v) v /\ (0 < v -> hd 0 (digs fuel base v) <> 48).
Proof.
  induction fuel as [|fuel IH]; intros base v HB Hv HF; [lia|]. cbn [digs].
  pose proof (half v base fuel ltac:(lia) Hv) as Hq. pose proof (Z.mod_pos_bound v base ltac:(lia)) as Hm.
  destruct (digit_ok base (v mod base) HB Hm) as (D1 & D2 & D3). pose proof (Z.div_mod v base ltac:(lia)) as DM.
  destruct (Z.ltb_spec 0 (v / base)) as [L|L].
  - assert (F0 : (0 < fuel)%nat) by (destruct fuel; [change (2 ^ Z.of_nat 0) with 1 in Hq; lia|lia]).
    destruct (IH base (v / base) HB Hq F0) as ((N1 & N2 & N3 & N4) & N5). split; [split; [|split; [|split]]|].
    + apply Forall_app. split; [exact N1|apply Forall_cons; [exact D1|apply Forall_nil]].
    + rewrite value_snoc, N2, D2. lia.
    + destruct (digs fuel base (v / base)); discriminate.
    + rewrite hd_snoc by exact N3. intro H48. exfalso. exact (N5 L H48).
    + intros _. rewrite hd_snoc by exact N3. apply N5, L.
  - assert (V : v / base = 0) by lia. cbn [app]. split; [split; [|split; [|split]]|].
    + apply Forall_cons; [exact D1|apply Forall_nil].
    + cbn [value]. rewrite D2. lia.
    + discriminate.
    + cbn [hd]. intros ->. reflexivity.
    + cbn [hd]. intros Hp H48. specialize (D3 H48). lia.
Qed.

Lemma digs_len : forall fuel base v K, 2 <= base -> 0 <= v < base ^ Z.of_nat K -> (0 < K)%nat -> (length (digs fuel base v) <= K)%nat.
Proof.
  induction fuel as [|fuel IH]; intros base v K HB Hv HK; cbn [digs length]; [lia|]. rewrite app_length. cbn [length].
  destruct (Z.ltb_spec 0 (v / base)) as [L|L]; [|cbn [length]; lia].
  destruct K as [|K]; [lia|]. assert (Q : 0 <= v / base < base ^ Z.of_nat K).
  { split; [lia|]. apply Z.div_lt_upper_bound; [lia|]. rewrite Nat2Z.inj_succ, Z.pow_succ_r in Hv by lia. lia. }
  assert (K0 : (0 < K)%nat) by (destruct K; [change (base ^ Z.of_nat 0) with 1 in Q; lia|lia]). specialize (IH base (v / base) K HB Q K0). lia.
Qed.

Lemma put_ok : forall buf i l, 0 <= i -> i + zlen l <= zlen buf -> put buf i l = Val (firstn (Z.to_nat i) buf ++ l ++ skipn (Z.to_nat i + length l) buf).
Proof. intros buf i l H1 H2. unfold put. destruct (Z.leb_spec 0 i); [|lia]. destruct (Z.leb_spec (i + zlen l) (zlen buf)); [|lia]. reflexivity. Qed.
Lemma put_len : forall buf i l b, put buf i l = Val b -> length b = length buf.
Proof.
  intros buf i l b H. unfold put in H. destruct (Z.leb_spec 0 i); [|discriminate]. destruct (Z.leb_spec (i + zlen l) (zlen buf)); [|discriminate].
  cbn [andb] in H. injection H as <-. unfold zlen in *. rewrite !app_length, firstn_length, skipn_length. lia.
Qed.

Lemma num_loop_ok : forall fuel base v sz buf, 2 <= base -> 0 <= v < 2 ^ Z.of_nat fuel -> (0 < fuel)%nat -> 0 <= sz -> sz + zlen (digs fuel base v) <= zlen buf ->
  num_loop fuel base v sz buf = Val (sz + zlen (digs fuel base v),
    firstn (length buf - Z.to_nat sz - length (digs fuel base v)) buf ++ digs fuel base v ++ skipn (length buf - Z.to_nat sz) buf).
Proof.
  induction fuel as [|fuel IH]; intros base v sz buf HB Hv HF Hs HL; [lia|]. cbn [digs num_loop] in *.
  pose proof (half v base fuel HB Hv) as Hq. unfold zlen in *.
  assert (L1 : sz + 1 <= Z.of_nat (length buf)) by (rewrite app_length in HL; cbn [length] in HL; lia).
  rewrite put_ok by (unfold zlen; cbn [length]; lia). cbn [obind]. unfold zlen. replace (Z.to_nat (Z.of_nat (length buf) - sz - 1)) with (length buf - Z.to_nat sz - 1)%nat by lia.
  set (c := digit (v mod base)) in *. set (n := length buf) in *. set (t := Z.to_nat sz) in *. cbn [length].
  replace (n - t - 1 + 1)%nat with (n - t)%nat by lia.
  set (b1 := firstn (n - t - 1) buf ++ [c] ++ skipn (n - t) buf).
  assert (LB : length b1 = n) by (unfold b1; rewrite !app_length, firstn_length, skipn_length; fold n; cbn [length]; lia).
  destruct (Z.ltb_spec 0 (v / base)) as [L|L].
  - assert (F0 : (0 < fuel)%nat) by (destruct fuel; [change (2 ^ Z.of_nat 0) with 1 in Hq; lia|lia]).
    rewrite app_length in HL. cbn [length] in HL. rewrite IH; [|exact HB|exact Hq|exact F0|lia|unfold zlen; rewrite LB; lia]. rewrite LB. set (D := digs fuel base (v / base)) in *.
    replace (Z.to_nat (sz + 1)) with (t + 1)%nat by lia. f_equal. f_equal; [unfold zlen; rewrite app_length; cbn [length]; lia|]. rewrite app_length. cbn [length].
    replace (n - (t + 1))%nat with (n - t - 1)%nat by lia. replace (n - t - (length D + 1))%nat with (n - t - 1 - length D)%nat by lia.
    assert (SK : skipn (n - t - 1) b1 = [c] ++ skipn (n - t) buf).
    { unfold b1. rewrite skipn_app, firstn_length. fold n. replace (Nat.min (n - t - 1) n) with (n - t - 1)%nat by lia. rewrite Nat.sub_diag. rewrite skipn_all2 by (rewrite firstn_length; lia). reflexivity. }
    rewrite SK. assert (FI : firstn (n - t - 1 - length D) b1 = firstn (n - t - 1 - length D) buf).
    { unfold b1. rewrite firstn_app, firstn_length. fold n. replace (n - t - 1 - length D - Nat.min (n - t - 1) n)%nat with O by lia. cbn [firstn]. rewrite app_nil_r, firstn_firstn. f_equal. lia. }
    rewrite FI. rewrite <- app_assoc. reflexivity.
  - cbn [app length]. reflexivity.
Qed.
