(** Lemmas about RSA signatures. *)
From Verif Require Import Base BaseLemmas OtpModel OtpProofs RsaSpec RsaModel.
Local Ltac Zify.zify_post_hook ::= idtac.

(** ** Byte strings and numbers *)
Lemma fold_os2ip : forall l a, fold_left (fun a b => 256 * a + b) l a = a * 256 ^ zlen l + os2ip l.
Proof.
  unfold os2ip. induction l as [|b l IH]; intro a; cbn [fold_left].
  - unfold zlen. cbn [length]. change (256 ^ Z.of_nat 0) with 1. lia.
  - rewrite IH, (IH (256 * 0 + b)). unfold zlen. cbn [length]. rewrite Nat2Z.inj_succ, Z.pow_succ_r by lia. lia.
Qed.
Lemma os2ip_app : forall l r, os2ip (l ++ r) = os2ip l * 256 ^ zlen r + os2ip r.
Proof. intros l r. unfold os2ip at 1. rewrite fold_left_app, fold_os2ip. reflexivity. Qed.

Lemma os2ip_bounds : forall l, Forall is_byte l -> 0 <= os2ip l < 256 ^ zlen l.
Proof.
  induction l as [|b l IH]; intro H.
  - cbn. lia.
  - pose proof (Forall_inv H) as Hb. specialize (IH (Forall_inv_tail H)).
    change (b :: l) with ([b] ++ l). rewrite os2ip_app. change (os2ip [b]) with (256 * 0 + b).
    replace (zlen ([b] ++ l)) with (Z.succ (zlen l)) by (unfold zlen; cbn [app length]; lia).
    rewrite Z.pow_succ_r by apply zlen_nonneg. unfold is_byte in Hb. nia.
Qed.

Lemma i2osp_length : forall k x, length (i2osp x k) = k.
Proof. induction k as [|k IH]; intro x; cbn [i2osp]; [reflexivity|]. rewrite app_length, IH. cbn [length]. lia. Qed.
Lemma i2osp_bytes : forall k x, Forall is_byte (i2osp x k).
Proof.
  induction k as [|k IH]; intro x; cbn [i2osp]; [constructor|]. apply Forall_app. split; [apply IH|].
  constructor; [|constructor]. unfold is_byte. apply Z.mod_pos_bound. lia.
Qed.
Lemma pow256_S : forall r, 256 ^ Z.of_nat (S r) = 256 * 256 ^ Z.of_nat r.
Proof. intro r. rewrite Nat2Z.inj_succ, Z.pow_succ_r by lia. reflexivity. Qed.

Lemma i2osp_join : forall r p q a, 0 <= q < 256 ^ Z.of_nat r -> i2osp (p * 256 ^ Z.of_nat r + q) (a + r) = i2osp p a ++ i2osp q r.
Proof.
  induction r as [|r IH]; intros p q a H.
  - change (256 ^ Z.of_nat 0) with 1 in *. replace (p * 1 + q) with p by lia. rewrite Nat.add_0_r. cbn [i2osp]. rewrite app_nil_r. reflexivity.
  - rewrite pow256_S in *. rewrite Nat.add_succ_r. cbn [i2osp].
    pose proof (Z.div_mod q 256 ltac:(lia)) as E. pose proof (Z.mod_pos_bound q 256 ltac:(lia)) as M.
    assert (D : (p * (256 * 256 ^ Z.of_nat r) + q) / 256 = p * 256 ^ Z.of_nat r + q / 256).
    { replace (p * (256 * 256 ^ Z.of_nat r) + q) with (q + p * 256 ^ Z.of_nat r * 256) by lia. rewrite Z.div_add by lia. lia. }
    assert (MM : (p * (256 * 256 ^ Z.of_nat r) + q) mod 256 = q mod 256).
    { replace (p * (256 * 256 ^ Z.of_nat r) + q) with (q + p * 256 ^ Z.of_nat r * 256) by lia. apply Z.mod_add. lia. }
    rewrite D, MM, IH, app_assoc; [reflexivity|]. split; [apply Z.div_pos; lia|]. apply Z.div_lt_upper_bound; lia.
Qed.

Lemma i2osp_os2ip : forall l, Forall is_byte l -> i2osp (os2ip l) (length l) = l.
Proof.
  induction l as [|b l IH] using rev_ind; intro H; [reflexivity|].
  apply Forall_app in H. destruct H as (H1 & H2). pose proof (Forall_inv H2) as Hb. unfold is_byte in Hb.
  rewrite app_length. change (length [b]) with 1%nat. rewrite os2ip_app. change (os2ip [b]) with (256 * 0 + b).
  change (zlen [b]) with (Z.of_nat 1). rewrite i2osp_join by (change (256 ^ Z.of_nat 1) with 256; lia).
  rewrite IH by exact H1. f_equal. cbn [i2osp app]. f_equal. apply Z.mod_small. lia.
Qed.
Lemma os2ip_i2osp : forall k x, 0 <= x < 256 ^ Z.of_nat k -> os2ip (i2osp x k) = x.
Proof.
  induction k as [|k IH]; intros x H.
  - change (256 ^ Z.of_nat 0) with 1 in H. cbn. lia.
  - rewrite pow256_S in H. cbn [i2osp]. rewrite os2ip_app. change (zlen [x mod 256]) with 1. change (256 ^ 1) with 256.
    change (os2ip [x mod 256]) with (256 * 0 + x mod 256).
    rewrite IH by (split; [apply Z.div_pos; lia|apply Z.div_lt_upper_bound; lia]).
    pose proof (Z.div_mod x 256 ltac:(lia)). lia.
Qed.

(** ** Padding *)
Lemma skip_ff_ok : forall n d m, skip_ff (repeat 255 n ++ [0] ++ d) m = Some ((m + n)%nat, d).
Proof.
  induction n as [|n IH]; intros d m; cbn [repeat app skip_ff].
  - rewrite Nat.add_0_r. reflexivity.
  - cbn [Z.eqb Pos.eqb]. change (repeat 255 n ++ 0 :: d) with (repeat 255 n ++ [0] ++ d). rewrite IH. f_equal. f_equal. lia.
Qed.
Lemma unpad_ok : forall k em d, padded k em d -> unpad em = Some d.
Proof.
  intros k em d (_ & n & N & ->). unfold unpad. cbn [app]. change (repeat 255 n ++ 0 :: d) with (repeat 255 n ++ [0] ++ d).
  rewrite skip_ff_ok. cbn [plus]. replace (8 <=? n)%nat with true by (symmetry; apply Nat.leb_le; exact N). reflexivity.
Qed.
Lemma skip_ff_inv : forall l m n d, skip_ff l m = Some (n, d) -> (m <= n)%nat /\ l = repeat 255 (n - m) ++ [0] ++ d.
Proof.
  induction l as [|b l IH]; intros m n d H; cbn [skip_ff] in H; [discriminate|].
  destruct (Z.eqb_spec b 255) as [-> |].
  - apply IH in H. destruct H as (L & ->). split; [lia|]. replace (n - m)%nat with (S (n - S m)) by lia. reflexivity.
  - destruct (Z.eqb_spec b 0) as [-> |]; [|discriminate]. apply some_pair_inj in H. destruct H as (<- & <-).
    split; [lia|]. rewrite Nat.sub_diag. reflexivity.
Qed.
Lemma unpad_inv : forall em d, unpad em = Some d -> padded (length em) em d.
Proof.
  intros em d H. split; [reflexivity|]. unfold unpad in H.
  destruct em as [|[|?|?] [|[|[| |]|?] l]]; try discriminate.
  destruct (skip_ff l 0) as [(n, d')|] eqn:E; [|discriminate]. apply skip_ff_inv in E. destruct E as (_ & ->).
  destruct (Nat.leb_spec 8 n) as [L|L]; [|discriminate]. assert (d' = d) by congruence. subst d'.
  exists n. split; [exact L|]. rewrite Nat.sub_0_r. reflexivity.
Qed.

(** ** The three tags *)
Lemma decode_tag_cases : forall d i t,
  (nth_error d i = None /\ decode_tag d i t = UB) \/
  (exists b, nth_error d i = Some b /\ b <> t /\ decode_tag d i t = Val None) \/
  (nth_error d i = Some t /\ nth_error d (S i) = None /\ decode_tag d i t = UB) \/
  (exists l, nth_error d i = Some t /\ nth_error d (S i) = Some l /\
     ((l + Z.of_nat i + 2 <= zlen d /\ decode_tag d i t = Val (Some (l, S (S i)))) \/
      (zlen d < l + Z.of_nat i + 2 /\ decode_tag d i t = Val None))).
Proof.
  intros d i t. unfold decode_tag, rd. destruct (nth_error d i) as [b|] eqn:E1; cbn [obind]; [|auto].
  right. destruct (Z.eqb_spec b t) as [-> |N]; cbn [negb]; [|left; eauto].
  right. destruct (nth_error d (S i)) as [l|] eqn:E2; cbn [obind]; [|auto]. right. exists l. split; [reflexivity|]. split; [reflexivity|].
  rewrite Z.gtb_ltb. destruct (Z.ltb_spec (zlen d) (l + Z.of_nat (S (S i)))) as [L|L]; [right|left]; (split; [lia|reflexivity]).
Qed.

Lemma decode_tag_ok : forall a t l r, 0 <= l <= zlen r -> decode_tag (a ++ [t; l] ++ r) (length a) t = Val (Some (l, S (S (length a)))).
Proof.
  intros a t l r L.
  assert (E0 : nth_error (a ++ [t; l] ++ r) (length a) = Some t) by (rewrite nth_error_app2, Nat.sub_diag by lia; reflexivity).
  assert (E1 : nth_error (a ++ [t; l] ++ r) (S (length a)) = Some l) by (rewrite nth_error_app2, Nat.sub_succ_l, Nat.sub_diag by lia; reflexivity).
  unfold decode_tag, rd. rewrite E0. cbn [obind]. rewrite Z.eqb_refl. cbn [negb]. rewrite E1. cbn [obind].
  replace (l + Z.of_nat (S (S (length a))) >? zlen (a ++ [t; l] ++ r)) with false; [reflexivity|].
  symmetry. rewrite Z.gtb_ltb. apply Z.ltb_ge. unfold zlen in *. rewrite app_length. cbn [app length]. lia.
Qed.

Lemma decode_tag_tot : forall t l r, 0 <= l <= zlen r -> decode_tag ([t; l] ++ r) 0 t = Val (Some (l, 2%nat)).
Proof. intros t l r L. exact (decode_tag_ok [] t l r L). Qed.

Lemma decode_lax : forall t A h R, 0 <= t <= zlen A + zlen h + zlen R + 4 ->
  rsa_decode (lax t A h R) = Val (Some ((length A + 6)%nat, zlen h)).
Proof.
  intros t A h R T. unfold rsa_decode, lax.
  rewrite decode_tag_tot by (unfold zlen in *; rewrite !app_length; cbn [length]; lia). cbn [obind].
  assert (E2 : decode_tag ([48; t] ++ [48; zlen A] ++ A ++ [4; zlen h] ++ h ++ R) 2 48 = Val (Some (zlen A, 4%nat))).
  { apply (decode_tag_ok [48; t] 48 (zlen A)). unfold zlen. rewrite !app_length. lia. }
  rewrite E2. cbn [obind].
  assert (E3 : decode_tag ([48; t] ++ [48; zlen A] ++ A ++ [4; zlen h] ++ h ++ R) (4 + Z.to_nat (zlen A)) 4 = Val (Some (zlen h, (length A + 6)%nat))).
  { replace ([48; t] ++ [48; zlen A] ++ A ++ [4; zlen h] ++ h ++ R) with (([48; t; 48; zlen A] ++ A) ++ [4; zlen h] ++ (h ++ R)) by (rewrite <- app_assoc; reflexivity).
    replace (4 + Z.to_nat (zlen A))%nat with (length ([48; t; 48; zlen A] ++ A)) by (rewrite app_length; unfold zlen; cbn [length]; lia).
    rewrite decode_tag_ok by (unfold zlen; rewrite app_length; lia).
    rewrite app_length. cbn [length]. replace (S (S (4 + length A))) with (length A + 6)%nat by lia. reflexivity. }
  rewrite E3. reflexivity.
Qed.

Lemma sub_lax : forall t A h R, sub (lax t A h R) (length A + 6) (length h) = h.
Proof.
  intros t A h R. unfold lax, sub.
  replace ([48; t] ++ [48; zlen A] ++ A ++ [4; zlen h] ++ h ++ R) with (([48; t; 48; zlen A] ++ A ++ [4; zlen h]) ++ h ++ R) by (rewrite <- !app_assoc; reflexivity).
  rewrite skipn_app. replace (length A + 6)%nat with (length ([48; t; 48; zlen A] ++ A ++ [4; zlen h])) by (rewrite !app_length; cbn [length]; lia).
  rewrite skipn_all, Nat.sub_diag. cbn [skipn app]. rewrite firstn_app, Nat.sub_diag, firstn_all. cbn [firstn]. apply app_nil_r.
Qed.

Lemma nth_split : forall {A} (l : list A) i x, nth_error l i = Some x -> l = firstn i l ++ x :: skipn (S i) l.
Proof. induction l as [|y l IH]; intros [|i] x H; cbn in *; try discriminate; [congruence|]. f_equal. apply IH, H. Qed.

(** ** Integer cube roots *)
Lemma cube_root : forall M, 0 <= M -> exists y, 0 <= y /\ y ^ 3 <= M < (y + 1) ^ 3.
Proof.
  apply natlike_ind.
  - exists 0. lia.
  - intros M HM (y & Y0 & Y1 & Y2). destruct (Z_lt_le_dec (Z.succ M) ((y + 1) ^ 3)) as [L|L].
    + exists y. lia.
    + exists (y + 1). split; [lia|]. split; [lia|]. assert (E : Z.succ M = (y + 1) ^ 3) by lia. rewrite E.
      apply Z.pow_lt_mono_l; lia.
Qed.

(** A cube in an interval that is long enough. *)
Lemma cube_between : forall lo b w, 0 <= lo < b ^ 3 -> 0 < b -> 3 * b ^ 2 <= w -> exists x, 0 <= x <= b /\ lo <= x ^ 3 < lo + w.
Proof.
  intros lo b w L B W. destruct (Z.eq_dec lo 0) as [-> |NZ].
  - exists 0. split; [lia|]. change (0 ^ 3) with 0. pose proof (Z.pow_pos_nonneg b 2). lia.
  - destruct (cube_root (lo - 1) ltac:(lia)) as (y & Y0 & Y1 & Y2). exists (y + 1).
    assert (YB : y < b). { apply (Z.pow_lt_mono_l_iff y b 3); lia. }
    split; [lia|]. split; [lia|].
    replace ((y + 1) ^ 3) with (y ^ 3 + (3 * (y * y) + 3 * y + 1)) by ring.
    assert (3 * (y * y) + 3 * y + 1 <= 3 * b ^ 2); [|lia].
    replace (b ^ 2) with (b * b) by ring. nia.
Qed.

(** What is accepted with the three tags has that form. *)
Lemma decode_inv : forall d i l h, Forall is_byte d -> rsa_decode d = Val (Some (i, l)) -> l = zlen h -> same_at d i (length h) h = Val true ->
  exists t A R, d = lax t A h R /\ 0 <= t <= zlen A + zlen h + zlen R + 4.
Proof.
  intros d i l h Hb D -> SM. unfold rsa_decode in D.
  destruct (decode_tag_cases d 0 48) as [(_ & E)|[(b & _ & _ & E)|[(_ & _ & E)|(t & T0 & T1 & [(T2 & E)|(_ & E)])]]]; rewrite E in D; cbn [obind] in D; try discriminate.
  destruct (decode_tag_cases d 2 48) as [(_ & E2)|[(b & _ & _ & E2)|[(_ & _ & E2)|(a & A0 & A1 & [(A2 & E2)|(_ & E2)])]]]; rewrite E2 in D; cbn [obind] in D; try discriminate.
  assert (Ba : is_byte a) by (apply (proj1 (Forall_forall is_byte d) Hb a); apply nth_error_In with 3%nat; exact A1).
  assert (Bt : is_byte t) by (apply (proj1 (Forall_forall is_byte d) Hb t); apply nth_error_In with 1%nat; exact T1).
  unfold is_byte in Ba, Bt.
  destruct (decode_tag_cases d (4 + Z.to_nat a) 4) as [(_ & E3)|[(b & _ & _ & E3)|[(_ & _ & E3)|(l & L0 & L1 & [(L2 & E3)|(_ & E3)])]]]; rewrite E3 in D; cbn [obind] in D; try discriminate.
  assert (EQ : (i, zlen h) = (S (S (4 + Z.to_nat a)), l)) by congruence. clear D E E2 E3.
  assert (i = S (S (4 + Z.to_nat a))) by congruence. assert (l = zlen h) by congruence. subst i l. clear EQ.
  destruct d as [|d0 [|d1 [|d2 [|d3 r]]]]; try discriminate.
  cbn [nth_error] in T0, T1, A0, A1. assert (d0 = 48) by congruence. assert (d1 = t) by congruence. assert (d2 = 48) by congruence. assert (d3 = a) by congruence. subst d0 d1 d2 d3.
  change (nth_error r (Z.to_nat a) = Some 4) in L0. change (nth_error r (S (Z.to_nat a)) = Some (zlen h)) in L1.
  assert (ZR : zlen (48 :: t :: 48 :: a :: r) = 4 + zlen r) by (unfold zlen; cbn [length]; lia). rewrite ZR in *.
  unfold same_at in SM. destruct (Nat.leb_spec (S (S (4 + Z.to_nat a)) + length h) (length (48 :: t :: 48 :: a :: r))) as [LL|]; [|discriminate].
  assert (SE : list_eqb h (sub (48 :: t :: 48 :: a :: r) (S (S (4 + Z.to_nat a))) (length h)) = true) by congruence.
  apply list_eqb_eq in SE. change (sub (48 :: t :: 48 :: a :: r) (S (S (4 + Z.to_nat a))) (length h)) with (firstn (length h) (skipn (S (S (Z.to_nat a))) r)) in SE.
  pose proof (nth_split r (Z.to_nat a) 4 L0) as R1.
  pose proof (nth_split r (S (Z.to_nat a)) (zlen h) L1) as R2.
  assert (SK : skipn (S (Z.to_nat a)) r = zlen h :: skipn (S (S (Z.to_nat a))) r).
  { rewrite R2 at 1. rewrite skipn_app. rewrite firstn_length_le by (assert (S (Z.to_nat a) < length r)%nat by (apply nth_error_Some; congruence); lia).
    rewrite Nat.sub_diag. rewrite skipn_all2 by (rewrite firstn_length; lia). reflexivity. }
  assert (AL : length (firstn (Z.to_nat a) r) = Z.to_nat a).
  { apply firstn_length_le. assert (Z.to_nat a < length r)%nat by (apply nth_error_Some; congruence). lia. }
  assert (ZA : zlen (firstn (Z.to_nat a) r) = a) by (unfold zlen; lia).
  pose proof (firstn_skipn (length h) (skipn (S (S (Z.to_nat a))) r)) as FS. rewrite <- SE in FS.
  set (R := skipn (length h) (skipn (S (S (Z.to_nat a))) r)) in *.
  assert (RR : r = firstn (Z.to_nat a) r ++ [4; zlen h] ++ h ++ R) by (rewrite FS; rewrite R1 at 1; rewrite SK; reflexivity).
  exists t, (firstn (Z.to_nat a) r), R. split.
  - unfold lax. rewrite ZA. rewrite <- RR. reflexivity.
  - assert (ZZ : zlen r = a + 2 + zlen h + zlen R).
    { rewrite RR at 1. unfold zlen in *. rewrite !app_length. cbn [length]. lia. }
    lia.
Qed.
