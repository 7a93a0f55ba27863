(** The write loops of the flash drivers. *)
From Verif Require Import Base BaseLemmas HalSpec HalModel HalProofs.

Lemma nor_step : forall m m1 m' d a i n,
  0 <= i -> 0 <= n -> i + n <= zlen d ->
  same m1 (nor m (a + i) (sub d (Z.to_nat i) (Z.to_nat n))) ->
  same m' (nor m1 (a + (i + n)) (skipn (Z.to_nat (i + n)) d)) ->
  same m' (nor m (a + i) (skipn (Z.to_nat i) d)).
Proof.
  intros m m1 m' d a i n Hi Hn Hl E1 E2.
  destruct (grab_ok d i n Hi Hn Hl) as (_ & L & A).
  eapply same_trans; [exact E2|]. eapply same_trans; [apply same_nor, E1|].
  rewrite <- A. replace (a + (i + n)) with (a + i + zlen (sub d (Z.to_nat i) (Z.to_nat n))) by lia.
  apply nor_app.
Qed.

Lemma patch_step : forall m m1 m' d a i n,
  0 <= i -> 0 <= n -> i + n <= zlen d ->
  same m1 (patch m (a + i) (sub d (Z.to_nat i) (Z.to_nat n))) ->
  same m' (patch m1 (a + (i + n)) (skipn (Z.to_nat (i + n)) d)) ->
  same m' (patch m (a + i) (skipn (Z.to_nat i) d)).
Proof.
  intros m m1 m' d a i n Hi Hn Hl E1 E2.
  destruct (grab_ok d i n Hi Hn Hl) as (_ & L & A).
  eapply same_trans; [exact E2|]. eapply same_trans; [apply same_patch, E1|].
  rewrite <- A. replace (a + (i + n)) with (a + i + zlen (sub d (Z.to_nat i) (Z.to_nat n))) by lia.
  apply patch_app.
Qed.

Lemma nor_end : forall m d a i, zlen d <= i -> same m (nor m (a + i) (skipn (Z.to_nat i) d)).
Proof. intros m d a i H. rewrite skipn_past by exact H. apply same_sym, nor_nil. Qed.
Lemma patch_end : forall m d a i, zlen d <= i -> same m (patch m (a + i) (skipn (Z.to_nat i) d)).
Proof. intros m d a i H. rewrite skipn_past by exact H. apply same_sym, patch_nil. Qed.

(** From a loop result to the specification. *)
Lemma nor_written : forall r m a d, clears m a d ->
  (exists m', r = Val (m', 0) /\ same m' (nor m (a + 0) (skipn (Z.to_nat 0) d))) ->
  written r m a d.
Proof.
  intros r m a d C (m' & E & H). exists m'. split; [exact E|].
  rewrite Z.add_0_r in H. cbn [Z.to_nat skipn] in H.
  eapply same_trans; [exact H|]. apply nor_clears, C.
Qed.
Lemma patch_written : forall r m a d,
  (exists m', r = Val (m', 0) /\ same m' (patch m (a + 0) (skipn (Z.to_nat 0) d))) ->
  written r m a d.
Proof.
  intros r m a d (m' & E & H). exists m'. split; [exact E|].
  rewrite Z.add_0_r in H. cbn [Z.to_nat skipn] in H. exact H.
Qed.

Lemma store_nor_ok : forall u m p v, p mod u = 0 -> store_nor u m p v = Val (nor m p v).
Proof. intros u m p v H. unfold store_nor. rewrite H. reflexivity. Qed.
Lemma store_nor_bad : forall u m p v, p mod u <> 0 -> store_nor u m p v = UB.
Proof. intros u m p v H. unfold store_nor. apply Z.eqb_neq in H. rewrite H. reflexivity. Qed.
Lemma store_ecc_ok : forall u m p v, p mod u = 0 -> store_ecc u m p v = Val (ecc m p v).
Proof. intros u m p v H. unfold store_ecc. rewrite H. reflexivity. Qed.
Lemma store_ecc_bad : forall u m p v, p mod u <> 0 -> store_ecc u m p v = UB.
Proof. intros u m p v H. unfold store_ecc. apply Z.eqb_neq in H. rewrite H. reflexivity. Qed.

Ltac yes t := replace t with true by (symmetry; first [apply Z.ltb_lt|apply Z.leb_le|apply Z.eqb_eq]; lia).
Ltac no t := replace t with false by (symmetry; first [apply Z.ltb_ge|apply Z.leb_gt|apply Z.eqb_neq]; lia).

Lemma next_multiple : forall u x y, 0 < u -> x mod u = 0 -> y mod u = 0 -> x < y -> x + u <= y.
Proof.
  intros u x y U X Y L. rewrite Z.mod_eq in X, Y by lia.
  generalize dependent (x / u). intros p X. generalize dependent (y / u). intros q Y.
  assert (x = u * p) by lia. assert (y = u * q) by lia. subst x y.
  assert (p < q) by (apply (Z.mul_lt_mono_pos_l u); lia).
  assert (u * (p + 1) <= u * q) by (apply Z.mul_le_mono_nonneg_l; lia). lia.
Qed.

(** *** Bytes *)
Lemma f4_loop : forall d m a, same (f4_write_loop m a d) (nor m a d).
Proof.
  induction d as [|b d IH]; intros m a.
  - apply same_sym, nor_nil.
  - cbn [f4_write_loop]. eapply same_trans; [apply IH|].
    change (b :: d) with ([b] ++ d). change (a + 1) with (a + zlen [b]). apply nor_app.
Qed.

(** *** nRF52 *)
Lemma nrf_loop_ok : forall a da d, a mod 4 = 0 -> da mod 4 = 0 -> zlen d mod 4 <= 1 ->
  forall fuel m i, 0 <= i -> i mod 4 = 0 \/ zlen d <= i -> zlen d - i < Z.of_nat fuel ->
  0 < Z.of_nat fuel ->
  exists m', nrf_write_loop fuel m a da d i = Val (m', 0) /\
             same m' (nor m (a + i) (skipn (Z.to_nat i) d)).
Proof.
  intros a da d A D L. induction fuel as [|f IH]; intros m i I0 I4 F F0; [lia|].
  cbn [nrf_write_loop].
  destruct (i <? zlen d) eqn:E; [apply Z.ltb_lt in E|apply Z.ltb_ge in E].
  2: { exists m. split; [reflexivity|]. apply nor_end. lia. }
  assert (I4' : i mod 4 = 0) by lia. clear I4.
  assert (Ai : (a + i) mod 4 = 0) by lia. assert (Di : (da + i) mod 4 = 0) by lia.
  assert (Q : 4 * (i / 4) = i) by lia.
  destruct (3 <? zlen d - i) eqn:G; [apply Z.ltb_lt in G|apply Z.ltb_ge in G].
  - rewrite Ai, Di. cbn [Z.eqb andb]. rewrite Q.
    destruct (grab_ok d i 4) as (E1 & L1 & A1); [lia..|]. rewrite E1. cbn [obind].
    rewrite store_nor_ok by exact Ai. cbn [obind].
    destruct (IH (nor m (a + i) (sub d (Z.to_nat i) (Z.to_nat 4))) (i + 4)) as (m' & Em & S');
      [lia..|].
    exists m'. split; [exact Em|].
    eapply (nor_step m _ m' d a i 4); [lia..|apply same_refl|exact S'].
  - cbn [andb]. assert (zlen d = i + 1) by lia.
    rewrite Ai, Q. replace (a - 0 + i) with (a + i) by lia.
    destruct (grab_ok d i 1) as (E1 & L1 & A1); [lia..|]. rewrite E1. cbn [obind].
    rewrite store_nor_ok by exact Ai. cbn [obind].
    match goal with |- context [nrf_write_loop f ?m1] =>
      destruct (IH m1 (i + 1)) as (m' & Em & S'); [lia..|] end.
    exists m'. split; [exact Em|].
    eapply (nor_step m _ m' d a i 1); [lia..| |exact S'].
    rewrite <- (Z.add_0_r (a + i)) at 3. apply nor_rmw; lia.
Qed.

Lemma nrf_ok : forall m a da d, clears m a d ->
  zlen d <= 1 \/ (a mod 4 = 0 /\ da mod 4 = 0 /\ zlen d mod 4 <= 1) ->
  written (nrf_write m a da d) m a d.
Proof.
  intros m a da d C [L|(A & D & L)]; apply nor_written; try exact C; unfold nrf_write.
  - destruct d as [|b [|b' d]].
    + exists m. split; [reflexivity|]. apply nor_end. reflexivity.
    + cbn [length nrf_write_loop]. change (0 <? zlen [b]) with true. cbv iota.
      change (3 <? zlen [b] - 0) with false. cbn [andb].
      destruct (grab_ok [b] 0 1) as (E1 & _ & _); [lia|lia|reflexivity|].
      rewrite E1. cbn [obind].
      change (sub [b] (Z.to_nat 0) (Z.to_nat 1)) with [b].
      change (4 * (0 / 4)) with 0. rewrite !Z.add_0_r.
      rewrite store_nor_ok by lia. cbn [obind].
      change (0 + 1 <? zlen [b]) with false. cbv iota.
      eexists. split; [reflexivity|]. cbn [Z.to_nat skipn].
      eapply same_trans; [apply nor_rmw; [lia|change (zlen [b]) with 1; lia]|].
      replace (a - a mod 4 + a mod 4) with a by lia. apply same_refl.
    + exfalso. unfold zlen in L. cbn [length] in L. lia.
  - apply (nrf_loop_ok a da d A D L); unfold zlen; lia.
Qed.

(** The loop reaches a store to an address that is not a multiple of four. *)
Lemma nrf_loop_bad : forall a da d, a mod 4 = 0 -> da mod 4 = 0 -> 1 < zlen d mod 4 ->
  forall fuel m i, 0 <= i < zlen d -> i mod 4 = 0 -> zlen d - i < Z.of_nat fuel ->
  nrf_write_loop fuel m a da d i = UB.
Proof.
  intros a da d A D L. induction fuel as [|f IH]; intros m i I0 I4 F; [lia|].
  cbn [nrf_write_loop]. yes (i <? zlen d). cbv iota.
  assert (Ai : (a + i) mod 4 = 0) by lia. assert (Di : (da + i) mod 4 = 0) by lia.
  assert (Q : 4 * (i / 4) = i) by lia.
  destruct (3 <? zlen d - i) eqn:G; [apply Z.ltb_lt in G|apply Z.ltb_ge in G].
  - rewrite Ai, Di. cbn [Z.eqb andb]. rewrite Q.
    destruct (grab_ok d i 4) as (E1 & L1 & A1); [lia..|]. rewrite E1. cbn [obind].
    rewrite store_nor_ok by exact Ai. cbn [obind]. apply IH; lia.
  - cbn [andb]. rewrite Ai, Q. replace (a - 0 + i) with (a + i) by lia.
    destruct (grab_ok d i 1) as (E1 & L1 & A1); [lia..|]. rewrite E1. cbn [obind].
    rewrite store_nor_ok by exact Ai. cbn [obind].
    destruct f as [|f]; [lia|]. cbn [nrf_write_loop].
    yes (i + 1 <? zlen d). cbv iota. no (3 <? zlen d - (i + 1)). cbn [andb].
    destruct (grab_ok d (i + 1) 1) as (E2 & L2 & A2); [lia..|]. rewrite E2. cbn [obind].
    rewrite store_nor_bad by lia. reflexivity.
Qed.

Lemma nrf_bad : forall m a da d,
  1 < zlen d -> ~ (a mod 4 = 0 /\ da mod 4 = 0 /\ zlen d mod 4 <= 1) ->
  nrf_write m a da d = UB.
Proof.
  intros m a da d L N. unfold nrf_write.
  destruct (Z.eq_dec (a mod 4) 0) as [A|A]; [destruct (Z.eq_dec (da mod 4) 0) as [D|D]|].
  - apply nrf_loop_bad; unfold zlen in *; lia.
  - destruct d as [|b0 [|b1 d]]; unfold zlen in L; cbn [length] in L; [lia|lia|].
    set (dd := b0 :: b1 :: d) in *. change (length dd) with (S (S (length d))).
    cbn [nrf_write_loop].
    assert (LL : 2 <= zlen dd) by (unfold zlen, dd; cbn [length]; lia).
    yes (0 <? zlen dd). cbv iota.
    replace ((a + 0) mod 4 =? 0) with true by (symmetry; apply Z.eqb_eq; lia).
    replace ((da + 0) mod 4 =? 0) with false by (symmetry; apply Z.eqb_neq; lia).
    rewrite !andb_false_r.
    destruct (grab_ok dd 0 1) as (E1 & L1 & A1); [lia..|]. rewrite E1. cbn [obind].
    change (4 * (0 / 4)) with 0. rewrite store_nor_ok by lia. cbn [obind].
    change (0 + 1) with 1. yes (1 <? zlen dd). cbv iota.
    replace ((a + 1) mod 4 =? 0) with false by (symmetry; apply Z.eqb_neq; lia).
    cbn [andb]. rewrite andb_false_r.
    destruct (grab_ok dd 1 1) as (E2 & L2 & A2); [lia..|]. rewrite E2. cbn [obind].
    change (4 * (1 / 4)) with 0.
    rewrite store_nor_bad by lia. reflexivity.
  - destruct d as [|b0 [|b1 d]]; unfold zlen in L; cbn [length] in L; [lia|lia|].
    set (dd := b0 :: b1 :: d) in *. change (length dd) with (S (S (length d))).
    cbn [nrf_write_loop].
    assert (LL : 2 <= zlen dd) by (unfold zlen, dd; cbn [length]; lia).
    yes (0 <? zlen dd). cbv iota.
    replace ((a + 0) mod 4 =? 0) with false by (symmetry; apply Z.eqb_neq; lia).
    cbn [andb]. rewrite andb_false_r.
    destruct (grab_ok dd 0 1) as (E1 & L1 & A1); [lia..|]. rewrite E1. cbn [obind].
    change (4 * (0 / 4)) with 0. rewrite store_nor_ok by lia. cbn [obind].
    change (0 + 1) with 1. yes (1 <? zlen dd). cbv iota.
    change (4 * (1 / 4)) with 0.
    destruct ((3 <? zlen dd - 1) && (((a + 1) mod 4 =? 0) && ((da + 1) mod 4 =? 0))) eqn:G.
    + apply andb_true_iff in G. destruct G as [G _]. apply Z.ltb_lt in G.
      destruct (grab_ok dd 0 4) as (E2 & L2 & A2); [lia..|]. rewrite E2. cbn [obind].
      rewrite store_nor_bad by lia. reflexivity.
    + destruct (grab_ok dd 1 1) as (E2 & L2 & A2); [lia..|]. rewrite E2. cbn [obind].
      destruct (Z.eq_dec (a mod 4) 3) as [A3|A3].
      * rewrite store_nor_bad by lia. reflexivity.
      * rewrite store_nor_bad by lia. reflexivity.
Qed.

(** *** STM32F1 *)
Definition only_half (prog : mem -> Z -> Z -> Z -> mem) : Prop :=
  forall m p lo hi x, x <> p -> x <> p + 1 -> prog m p lo hi x = m x.

Lemma patch2 : forall m p b0 b1 (m' : mem),
  m' p = b0 -> m' (p + 1) = b1 -> (forall x, x <> p -> x <> p + 1 -> m' x = m x) ->
  same m' (patch m p [b0; b1]).
Proof.
  intros m p b0 b1 m' H0 H1 H x.
  destruct (Z.eq_dec x p) as [ -> | N0].
  - rewrite patch_in by (change (zlen [b0; b1]) with 2; lia). rewrite Z.sub_diag. exact H0.
  - destruct (Z.eq_dec x (p + 1)) as [ -> | N1].
    + rewrite patch_in by (change (zlen [b0; b1]) with 2; lia).
      replace (p + 1 - p) with 1 by lia. exact H1.
    + rewrite patch_out by (change (zlen [b0; b1]) with 2; lia). apply H; assumption.
Qed.
Lemma patch1 : forall m p b (m' : mem),
  m' p = b -> (forall x, x <> p -> m' x = m x) -> same m' (patch m p [b]).
Proof.
  intros m p b m' H0 H x.
  destruct (Z.eq_dec x p) as [ -> | N0].
  - rewrite patch_in by (change (zlen [b]) with 1; lia). rewrite Z.sub_diag. exact H0.
  - rewrite patch_out by (change (zlen [b]) with 1; lia). apply H; assumption.
Qed.

Lemma f1_w16_ok : forall prog m p lo hi m', only_half prog ->
  f1_w16 prog m p lo hi = (m', true) ->
  m' p = lo /\ m' (p + 1) = hi /\ forall x, x <> p -> x <> p + 1 -> m' x = m x.
Proof.
  intros prog m p lo hi m' O E. unfold f1_w16 in E. apply pair_equal_spec in E.
  destruct E as [E B]. rewrite <- E in *. apply andb_true_iff in B. destruct B as [B1 B2].
  apply Z.eqb_eq in B1, B2. repeat split; try assumption.
  intros x X1 X2. apply O; assumption.
Qed.

Lemma f1_loop_sound : forall prog, only_half prog -> forall fuel m p src m',
  f1_write_loop prog fuel m p src = Val (m', 0) -> same m' (patch m p src).
Proof.
  intros prog O. induction fuel as [|f IH]; intros m p src m' E; [discriminate|].
  cbn [f1_write_loop] in E. destruct src as [|b0 [|b1 src]].
  - injection E as E. rewrite <- E. apply same_sym, patch_nil.
  - destruct (f1_w16 prog m p b0 (m (p + 1))) as [m1 ok] eqn:W. destruct ok; [|discriminate].
    injection E as E. subst m'. destruct (f1_w16_ok _ _ _ _ _ _ O W) as (H0 & H1 & H2).
    apply patch1; [exact H0|]. intros x X. destruct (Z.eq_dec x (p + 1)) as [ -> | N].
    + exact H1.
    + apply H2; assumption.
  - destruct (f1_w16 prog m p b0 b1) as [m1 ok] eqn:W. destruct ok; [|discriminate].
    destruct (f1_w16_ok _ _ _ _ _ _ O W) as (H0 & H1 & H2).
    apply IH in E. eapply same_trans; [exact E|].
    change (b0 :: b1 :: src) with ([b0; b1] ++ src).
    eapply same_trans; [apply same_patch, (patch2 m p b0 b1 m1 H0 H1 H2)|].
    change (p + 2) with (p + zlen [b0; b1]). apply patch_app.
Qed.

Lemma f1_loop_total : forall prog fuel m p src, (length src < fuel)%nat ->
  exists m', f1_write_loop prog fuel m p src = Val (m', 0) \/
             f1_write_loop prog fuel m p src = Val (m', -1).
Proof.
  intros prog. induction fuel as [|f IH]; intros m p src F; [lia|].
  cbn [f1_write_loop]. destruct src as [|b0 [|b1 src]].
  - exists m. left. reflexivity.
  - destruct (f1_w16 prog m p b0 (m (p + 1))) as [m1 ok]. exists m1. destruct ok; auto.
  - destruct (f1_w16 prog m p b0 b1) as [m1 ok]. destruct ok.
    + apply IH. cbn [length] in F. lia.
    + exists m1. right. reflexivity.
Qed.

Lemma f1_write_sound : forall prog m a d, only_half prog ->
  exists m' r, f1_write prog m a d = Val (m', r) /\ (r = 0 \/ r = -1) /\
    (r = 0 -> same m' (patch m a d)).
Proof.
  intros prog m a d O. unfold f1_write.
  destruct (f1_valid a (zlen d)) eqn:V; cbn [negb].
  2: { exists m, (-1). repeat split; auto; lia. }
  assert (P : 0 < zlen d).
  { unfold f1_valid in V. apply andb_true_iff in V. destruct V as [V _].
    apply andb_true_iff in V. destruct V as [V _]. apply negb_true_iff, orb_false_iff in V.
    destruct V as [V _]. apply Z.leb_gt in V. exact V. }
  destruct (a mod 2 =? 1) eqn:A.
  - destruct d as [|b d]; [change (zlen (@nil Z)) with 0 in P; lia|].
    destruct (f1_w16 prog m (a - 1) (m (a - 1)) b) as [m1 ok] eqn:W. destruct ok.
    + destruct (f1_w16_ok _ _ _ _ _ _ O W) as (H0 & H1 & H2).
      replace (a - 1 + 1) with a in * by lia.
      destruct (f1_loop_total prog (S (length d)) m1 (a + 1) d) as (m' & [E|E]); [lia| |].
      * exists m', 0. split; [exact E|]. split; [auto|]. intros _.
        apply (f1_loop_sound prog O) in E. eapply same_trans; [exact E|].
        change (b :: d) with ([b] ++ d).
        eapply same_trans; [apply same_patch, (patch1 m a b m1 H1)|].
        -- intros x X. destruct (Z.eq_dec x (a - 1)) as [ -> | N].
           ++ exact H0.
           ++ apply H2; assumption.
        -- change (a + 1) with (a + zlen [b]). apply patch_app.
      * exists m', (-1). split; [exact E|]. split; [auto|lia].
    + exists m1, (-1). repeat split; auto; lia.
  - destruct (f1_loop_total prog (S (length d)) m a d) as (m' & [E|E]); [lia| |].
    + exists m', 0. split; [exact E|]. split; [auto|]. intros _.
      exact (f1_loop_sound prog O _ _ _ _ _ E).
    + exists m', (-1). split; [exact E|]. split; [auto|lia].
Qed.

(** The chip takes a half-word when it is erased. *)
Definition takes_erased (prog : mem -> Z -> Z -> Z -> mem) : Prop :=
  forall m p lo hi, m p = 255 -> m (p + 1) = 255 ->
    prog m p lo hi p = lo /\ prog m p lo hi (p + 1) = hi.

Lemma f1_loop_ok : forall prog, only_half prog -> takes_erased prog ->
  forall fuel m p src, (length src < fuel)%nat -> blank m p (zlen src + 1) ->
  exists m', f1_write_loop prog fuel m p src = Val (m', 0).
Proof.
  intros prog O T. induction fuel as [|f IH]; intros m p src F B; [lia|].
  cbn [f1_write_loop]. destruct src as [|b0 [|b1 src]].
  - exists m. reflexivity.
  - change (zlen [b0]) with 1 in B. unfold f1_w16.
    destruct (T m p b0 (m (p + 1))) as [T0 T1]; [apply B; lia..|].
    rewrite T0, T1, !Z.eqb_refl. cbn [andb]. eexists. reflexivity.
  - rewrite !zlen_cons in B. pose proof (zlen_nonneg src). unfold f1_w16.
    destruct (T m p b0 b1) as [T0 T1]; [apply B; lia..|].
    rewrite T0, T1, !Z.eqb_refl. cbn [andb].
    apply IH; [cbn [length] in F; lia|].
    intros x X. rewrite O by lia. apply B. lia.
Qed.

Lemma f1_write_ok : forall prog m a d, only_half prog -> takes_erased prog ->
  f1_valid a (zlen d) = true -> blank m (a - a mod 2) (a mod 2 + zlen d + 1) ->
  written (f1_write prog m a d) m a d.
Proof.
  intros prog m a d O T V B.
  assert (G : exists m', f1_write prog m a d = Val (m', 0)).
  { unfold f1_write. rewrite V. cbn [negb].
    destruct (a mod 2 =? 1) eqn:A.
    - apply Z.eqb_eq in A. rewrite A in B. destruct d as [|b d].
      + exfalso. unfold f1_valid in V. cbn in V. discriminate.
      + rewrite zlen_cons in B. pose proof (zlen_nonneg d).
        unfold f1_w16. destruct (T m (a - 1) (m (a - 1)) b) as [T0 T1]; [apply B; lia..|].
        rewrite T0, T1, !Z.eqb_refl. cbn [andb].
        apply f1_loop_ok; [assumption..|lia|].
        intros x X. rewrite O by lia. apply B. lia.
    - apply Z.eqb_neq in A. apply f1_loop_ok; [assumption..|lia|].
      eapply blank_sub; [exact B|lia|lia]. }
  destruct G as (m' & E). exists m'. split; [exact E|].
  destruct (f1_write_sound prog m a d O) as (m2 & r & E2 & _ & S2).
  rewrite E in E2. assert (m2 = m') by congruence. assert (r = 0) by congruence.
  subst m2. apply S2. assumption.
Qed.

(** *** LPC *)
Lemma lpc_loop_ok : forall ps a d, 0 < ps -> 0 <= a -> forall fuel m idx,
  0 <= idx -> idx = 0 \/ (a + idx) mod ps = 0 \/ zlen d <= idx ->
  zlen d - idx < Z.of_nat fuel -> 0 < Z.of_nat fuel ->
  exists m', lpc_write_loop ps fuel m a d idx = Val (m', 0) /\
             same m' (nor m (a + idx) (skipn (Z.to_nat idx) d)).
Proof.
  intros ps a d P A0. induction fuel as [|f IH]; intros m idx I0 IV F F0; [lia|].
  cbn [lpc_write_loop].
  destruct (idx <? zlen d) eqn:E; [apply Z.ltb_lt in E|apply Z.ltb_ge in E].
  2: { exists m. split; [reflexivity|]. apply nor_end. lia. }
  set (off := (a + idx) mod ps).
  assert (OB : 0 <= off < ps) by (apply Z.mod_pos_bound; lia).
  assert (PG : (a + idx) / ps * ps = a + idx - off).
  { unfold off. rewrite Z.mod_eq by lia. lia. }
  rewrite PG.
  replace (if a + idx - off <? a then a - (a + idx - off) else 0) with off.
  2: { destruct (a + idx - off <? a) eqn:C; [apply Z.ltb_lt in C|apply Z.ltb_ge in C].
       - destruct IV as [IV|[IV|IV]]; [lia| |lia]. unfold off in C. rewrite IV in C. lia.
       - destruct IV as [IV|[IV|IV]]; [lia| |lia]. exact IV. }
  set (n := if zlen d - idx <? ps - off then zlen d - idx else ps - off).
  assert (NB : 0 < n /\ idx + n <= zlen d /\ off + n <= ps /\
               ((a + (idx + n)) mod ps = 0 \/ zlen d <= idx + n)).
  { unfold n. destruct (zlen d - idx <? ps - off) eqn:C; [apply Z.ltb_lt in C|apply Z.ltb_ge in C].
    - repeat split; try lia.
    - repeat split; try lia. left. replace (a + (idx + (ps - off))) with (((a + idx) / ps + 1) * ps)
        by (rewrite Z.mul_add_distr_r, PG; clear; lia).
      apply Z.mod_mul. lia. }
  destruct NB as (N0 & N1 & N2 & N3).
  yes (0 <? n). cbv iota.
  destruct (grab_ok d idx n) as (E1 & L1 & A1); [lia..|]. rewrite E1. cbn [obind].
  match goal with |- context [lpc_write_loop ps f ?m1] =>
    destruct (IH m1 (idx + n)) as (m' & Em & S'); [lia..|] end.
  exists m'. split; [exact Em|].
  eapply (nor_step m _ m' d a idx n); [lia..| |exact S'].
  eapply same_trans; [apply nor_rmw; lia|].
  replace (a + idx - off + off) with (a + idx) by lia. apply same_refl.
Qed.

Lemma lpc_write_ok : forall ps m a d, 0 < ps -> 0 <= a -> clears m a d ->
  written (lpc_write ps m a d) m a d.
Proof.
  intros ps m a d P A C. apply nor_written; [exact C|]. unfold lpc_write.
  apply (lpc_loop_ok ps a d P A); unfold zlen; lia.
Qed.

(** *** Whole units *)
Lemma unit_loop_ok : forall u a d, 0 < u -> a mod u = 0 -> zlen d mod u = 0 ->
  forall fuel m i, 0 <= i -> i mod u = 0 -> zlen d - i < Z.of_nat fuel -> 0 < Z.of_nat fuel ->
  blank m (a + i) (zlen d - i) ->
  exists m', unit_write_loop u fuel m a d i = Val (m', 0) /\
             same m' (patch m (a + i) (skipn (Z.to_nat i) d)).
Proof.
  intros u a d U A L. induction fuel as [|f IH]; intros m i I0 IU F F0 B; [lia|].
  cbn [unit_write_loop].
  destruct (i <? zlen d) eqn:E; [apply Z.ltb_lt in E|apply Z.ltb_ge in E].
  2: { exists m. split; [reflexivity|]. apply patch_end. lia. }
  assert (R : i + u <= zlen d).
  { apply next_multiple; assumption. }
  destruct (grab_ok d i u) as (E1 & L1 & A1); [lia..|]. rewrite E1. cbn [obind].
  rewrite store_ecc_ok by (rewrite Z.add_mod, A, IU by lia; apply Z.mod_0_l; lia).
  cbn [obind]. rewrite ecc_blank by (rewrite L1; eapply blank_sub; [exact B|lia|lia]).
  match goal with |- context [unit_write_loop u f ?m1] =>
    destruct (IH m1 (i + u)) as (m' & Em & S') end; [lia| |lia|lia| |].
  - rewrite Z.add_mod, IU, Z.mod_same by lia. apply Z.mod_0_l. lia.
  - apply blank_patch; [eapply blank_sub; [exact B|lia|lia]|lia].
  - exists m'. split; [exact Em|].
    eapply (patch_step m _ m' d a i u); [lia..|apply same_refl|exact S'].
Qed.

Lemma unit_loop_bad : forall u a d, 0 < u -> a mod u <> 0 \/ zlen d mod u <> 0 ->
  forall fuel m i, 0 <= i < zlen d -> i mod u = 0 -> zlen d - i < Z.of_nat fuel ->
  unit_write_loop u fuel m a d i = UB.
Proof.
  intros u a d U N. induction fuel as [|f IH]; intros m i I0 IU F; [lia|].
  cbn [unit_write_loop]. yes (i <? zlen d). cbv iota.
  destruct (Z_lt_le_dec (zlen d) (i + u)) as [S|L].
  { rewrite grab_bad by lia. reflexivity. }
  destruct (grab_ok d i u) as (E1 & L1 & A1); [lia..|]. rewrite E1. cbn [obind].
  destruct (Z.eq_dec (a mod u) 0) as [A|A].
  - rewrite store_ecc_ok by (rewrite Z.add_mod, A, IU by lia; apply Z.mod_0_l; lia).
    cbn [obind].
    assert (IU' : (i + u) mod u = 0)
      by (rewrite Z.add_mod, IU, Z.mod_same by lia; apply Z.mod_0_l; lia).
    apply IH; [|exact IU'|lia].
    destruct (Z.eq_dec (i + u) (zlen d)) as [Q|Q]; [|lia].
    exfalso. rewrite Q in IU'. lia.
  - rewrite store_ecc_bad; [reflexivity|].
    rewrite Z.add_mod, IU, Z.add_0_r, Z.mod_mod by lia. exact A.
Qed.

Lemma h5_loop_ok : forall a d, a mod 8 = 0 -> zlen d mod 8 = 0 ->
  forall fuel m i, 0 <= i -> i mod 8 = 0 -> zlen d - i < Z.of_nat fuel -> 0 < Z.of_nat fuel ->
  blank m (a + i) (zlen d - i) ->
  exists m', h5_write_loop fuel m a d i = Val (m', 0) /\
             same m' (patch m (a + i) (skipn (Z.to_nat i) d)).
Proof.
  intros a d A L. induction fuel as [|f IH]; intros m i I0 IU F F0 B; [lia|].
  cbn [h5_write_loop].
  destruct (i <? zlen d) eqn:E; [apply Z.ltb_lt in E|apply Z.ltb_ge in E].
  2: { exists m. split; [reflexivity|]. apply patch_end. lia. }
  destruct (grab_ok d i 4) as (E1 & L1 & A1); [lia..|]. rewrite E1. cbn [obind].
  yes (i + 1 <? zlen d). cbv iota.
  destruct (grab_ok d (i + 4) 4) as (E2 & L2 & A2); [lia..|]. rewrite E2. cbn [obind].
  rewrite store_ecc_ok by lia. cbn [obind].
  assert (C8 : sub d (Z.to_nat i) (Z.to_nat 4) ++ sub d (Z.to_nat (i + 4)) (Z.to_nat 4)
               = sub d (Z.to_nat i) (Z.to_nat 8)).
  { destruct (grab_ok d i 8) as (E3 & L3 & A3); [lia..|].
    replace (i + 8) with (i + 4 + 4) in A3 by lia.
    rewrite <- A2, app_assoc in A1. rewrite <- A3 in A1.
    apply app_inv_tail in A1. exact A1. }
  rewrite C8. destruct (grab_ok d i 8) as (E3 & L3 & A3); [lia..|].
  rewrite ecc_blank by (rewrite L3; eapply blank_sub; [exact B|lia|lia]).
  match goal with |- context [h5_write_loop f ?m1] =>
    destruct (IH m1 (i + 8)) as (m' & Em & S') end; [lia..| |].
  - apply blank_patch; [eapply blank_sub; [exact B|lia|lia]|lia].
  - exists m'. split; [exact Em|].
    eapply (patch_step m _ m' d a i 8); [lia..|apply same_refl|exact S'].
Qed.

Lemma h5_loop_bad : forall a d, a mod 8 <> 0 \/ zlen d mod 8 <> 0 ->
  forall fuel m i, 0 <= i < zlen d -> i mod 8 = 0 -> zlen d - i < Z.of_nat fuel ->
  h5_write_loop fuel m a d i = UB.
Proof.
  intros a d N. induction fuel as [|f IH]; intros m i I0 IU F; [lia|].
  cbn [h5_write_loop]. yes (i <? zlen d). cbv iota.
  destruct (Z_lt_le_dec (zlen d) (i + 4)) as [S|L].
  { rewrite grab_bad by lia. reflexivity. }
  destruct (grab_ok d i 4) as (E1 & L1 & A1); [lia..|]. rewrite E1. cbn [obind].
  yes (i + 1 <? zlen d). cbv iota.
  destruct (Z_lt_le_dec (zlen d) (i + 8)) as [S|L'].
  { rewrite grab_bad by lia. reflexivity. }
  destruct (grab_ok d (i + 4) 4) as (E2 & L2 & A2); [lia..|]. rewrite E2. cbn [obind].
  destruct (Z.eq_dec (a mod 8) 0) as [A|A].
  - rewrite store_ecc_ok by lia. cbn [obind]. apply IH; lia.
  - rewrite store_ecc_bad by lia. reflexivity.
Qed.

Lemma rx_loop_ok : forall u a d, 0 < u -> a mod u = 0 ->
  forall fuel m i, 0 <= i -> i mod u = 0 -> zlen d - i < Z.of_nat fuel -> 0 < Z.of_nat fuel ->
  exists m', rx_write_loop u fuel m a d i = Val (m', 0) /\
             same m' (nor m (a + i) (skipn (Z.to_nat i) d)).
Proof.
  intros u a d U A. induction fuel as [|f IH]; intros m i I0 IU F F0; [lia|].
  cbn [rx_write_loop].
  destruct (i <? zlen d) eqn:E; [apply Z.ltb_lt in E|apply Z.ltb_ge in E].
  2: { exists m. split; [reflexivity|]. apply nor_end. lia. }
  assert (AL : (a + i) mod u = 0) by (rewrite Z.add_mod, A, IU by lia; apply Z.mod_0_l; lia).
  assert (IU' : (i + u) mod u = 0)
    by (rewrite Z.add_mod, IU, Z.mod_same by lia; apply Z.mod_0_l; lia).
  destruct (zlen d - i <? u) eqn:C; [apply Z.ltb_lt in C|apply Z.ltb_ge in C].
  - set (n := zlen d - i) in *.
    destruct (grab_ok d i n) as (E1 & L1 & A1); [lia..|]. rewrite E1. cbn [obind].
    rewrite store_nor_ok by exact AL. cbn [obind].
    match goal with |- context [rx_write_loop u f ?m1] =>
      destruct (IH m1 (i + u)) as (m' & Em & S') end; [lia|exact IU'|lia|lia|].
    exists m'. split; [exact Em|].
    rewrite (skipn_past d (i + u)) in S' by lia.
    eapply same_trans; [exact S'|]. eapply same_trans; [apply nor_nil|].
    rewrite <- A1. rewrite (skipn_past d (i + n)) by lia. rewrite app_nil_r.
    eapply same_trans;
      [|eapply same_trans; [apply (nor_rmw m (a + i) (Z.to_nat u) 0
         (sub d (Z.to_nat i) (Z.to_nat n))); [lia|rewrite L1; lia]|
         rewrite Z.add_0_r; apply same_refl]].
    assert (EQ : sub d (Z.to_nat i) (Z.to_nat n) ++ bytes m (a + i + n) (Z.to_nat (u - n))
            = splice (bytes m (a + i) (Z.to_nat u)) 0 (sub d (Z.to_nat i) (Z.to_nat n))).
    { unfold splice. cbn [Z.to_nat firstn app plus]. f_equal.
      replace (length (sub d (Z.to_nat i) (Z.to_nat n))) with (Z.to_nat n)
        by (unfold zlen in L1; lia).
      unfold bytes. replace (Z.to_nat u) with (Z.to_nat n + Z.to_nat (u - n))%nat by lia.
      rewrite seq_app, map_app, skipn_app, skipn_all2
        by (rewrite map_length, seq_length; lia).
      rewrite map_length, seq_length, Nat.sub_diag. cbn [skipn app].
      apply (nth_ext _ _ 0 0); [rewrite !map_length, !seq_length; reflexivity|].
      intros k K. rewrite map_length, seq_length in K.
      rewrite (nth_indep _ 0 (m (a + i + n + Z.of_nat 0))) by (rewrite map_length, seq_length; exact K).
      rewrite (map_nth (fun k => m (a + i + n + Z.of_nat k))).
      rewrite (nth_indep (map _ (seq (0 + Z.to_nat n) _)) 0 (m (a + i + Z.of_nat 0)))
        by (rewrite map_length, seq_length; exact K).
      rewrite (map_nth (fun k => m (a + i + Z.of_nat k))).
      rewrite !seq_nth by exact K. f_equal. lia. }
    rewrite EQ. apply same_refl.
  - destruct (grab_ok d i u) as (E1 & L1 & A1); [lia..|]. rewrite E1. cbn [obind].
    rewrite store_nor_ok by exact AL. cbn [obind].
    match goal with |- context [rx_write_loop u f ?m1] =>
      destruct (IH m1 (i + u)) as (m' & Em & S') end; [lia|exact IU'|lia|lia|].
    exists m'. split; [exact Em|].
    eapply (nor_step m _ m' d a i u); [lia..|apply same_refl|exact S'].
Qed.
