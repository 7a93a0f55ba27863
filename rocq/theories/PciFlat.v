(** Lemmas for PciProps: what the layout of the tree says about single registers. *)
From Verif Require Import Base BaseLemmas PciSpec PciModel PciProofs PciTree PciBars PciEnum PciBridge PciScan PciRun PciLoop.
Local Ltac Zify.zify_post_hook ::= idtac.

Lemma bars_laid_mono : forall bl st id idx lo hi, bars_laid st id idx bl lo hi -> forall k, lo k <= hi k.
Proof.
  induction bl as [|bd bl IH]; intros st id idx lo hi H k; [exact (H k)|]. destruct H as (mid & M1 & M2 & M3). specialize (IH _ _ _ _ _ M3 k). specialize (M1 k). lia.
Qed.

Lemma bars_laid_in : forall bl st id idx lo hi n bd k, bars_laid st id idx bl lo hi -> nth_error bl n = Some bd -> space_of bd = Some k ->
  let a := base_of st id (idx + Z.of_nat n) bd in lo k <= a /\ a mod size_of bd = 0 /\ a + size_of bd <= hi k.
Proof.
  induction bl as [|b0 bl IH]; intros st id idx lo hi n bd k H N K; [destruct n; discriminate N|]. destruct H as (mid & M1 & M2 & M3). destruct n as [|n]; cbn [nth_error] in N.
  - assert (b0 = bd) by congruence. subst b0. change (Z.of_nat 0) with 0. rewrite Z.add_0_r. destruct (M2 k K) as (A & B & C). pose proof (bars_laid_mono _ _ _ _ _ _ M3 k).
    cbv zeta. split; [exact A|]. split; [exact B|lia].
  - destruct (IH st id (idx + 1) mid hi n bd k M3 N K) as (A & B & C). replace (idx + Z.of_nat (S n)) with (idx + 1 + Z.of_nat n) by lia. cbv zeta. specialize (M1 k). split; [lia|]. split; [exact B|exact C].
Qed.

Lemma bars_laid_apart : forall bl st id idx lo hi n bd n' bd' k, bars_laid st id idx bl lo hi -> nth_error bl n = Some bd -> nth_error bl n' = Some bd' ->
  space_of bd = Some k -> space_of bd' = Some k -> (n < n')%nat ->
  base_of st id (idx + Z.of_nat n) bd + size_of bd <= base_of st id (idx + Z.of_nat n') bd'.
Proof.
  induction bl as [|b0 bl IH]; intros st id idx lo hi n bd n' bd' k H N N' K K' L; [destruct n; discriminate N|]. destruct H as (mid & M1 & M2 & M3). destruct n' as [|n']; [lia|].
  replace (idx + Z.of_nat (S n')) with (idx + 1 + Z.of_nat n') by lia. cbn [nth_error] in N'. destruct n as [|n]; cbn [nth_error] in N.
  - assert (b0 = bd) by congruence. subst b0. change (Z.of_nat 0) with 0. rewrite Z.add_0_r. destruct (M2 k K) as (A & B & C). destruct (bars_laid_in bl st id (idx + 1) mid hi n' bd' k M3 N' K') as (A' & _). lia.
  - replace (idx + Z.of_nat (S n)) with (idx + 1 + Z.of_nat n) by lia. apply (IH st id (idx + 1) mid hi n bd n' bd' k M3 N N' K K'). lia.
Qed.

Section Flat.
Context (D : description) (st : regs).

(** Devices have nothing behind them. *)
Definition tidy (l : list fn) : Prop := forall id d f l', In (Fn id d f l') (all_fns l) -> D id <> None -> l' = [].

Lemma tidy_behind : forall l id d f l', tidy l -> In (Fn id d f l') (all_fns l) -> tidy l'.
Proof. intros l id d f l' T I id2 d2 f2 l2 I2. apply (T id2 d2 f2 l2). apply (all_trans _ _ I). rewrite fns_eq. right. exact I2. Qed.

Lemma laid_list_mono : forall l lo hi, laid_list D st l lo hi -> forall k, lo k <= hi k.
Proof. induction l as [|y l IH]; intros lo hi H k; [exact (H k)|]. destruct H as (mid & A & B & C). specialize (A k). specialize (IH mid hi C k). lia. Qed.

(** [lo' hi'] is the extent of [x]. *)
Definition inside (lo hi lo' hi' : curs) : Prop := forall k, lo k <= lo' k /\ lo' k <= hi' k /\ hi' k <= hi k.

Lemma inside_trans : forall a b a' b' a'' b'', inside a b a' b' -> inside a' b' a'' b'' -> inside a b a'' b''.
Proof. intros a b a' b' a'' b'' H1 H2 k. specialize (H1 k). specialize (H2 k). lia. Qed.

Lemma laid_pick : forall l lo hi x, laid_list D st l lo hi -> In x l -> exists lo' hi', laid D st x lo' hi' /\ inside lo hi lo' hi'.
Proof.
  induction l as [|y l IH]; intros lo hi x H I; [destruct I|]. destruct H as (mid & A & B & C). destruct I as [<- |I].
  - exists lo, mid. split; [exact B|]. intro k. pose proof (laid_list_mono _ _ _ C k). specialize (A k). lia.
  - destruct (IH mid hi x C I) as (lo' & hi' & L & X). exists lo', hi'. split; [exact L|]. intro k. specialize (X k). specialize (A k). lia.
Qed.

Lemma laid_two : forall l lo hi p x q y t, laid_list D st l lo hi -> l = p ++ x :: q ++ y :: t ->
  exists lo1 hi1 lo2 hi2, laid D st x lo1 hi1 /\ inside lo hi lo1 hi1 /\ laid D st y lo2 hi2 /\ inside lo hi lo2 hi2 /\ forall k, hi1 k <= lo2 k.
Proof.
  induction l as [|z l IH]; intros lo hi p x q y t H E; [destruct p; discriminate E|]. destruct H as (mid & A & B & C). destruct p as [|w p]; cbn [app] in E.
  - assert (z = x) by congruence. assert (EL : l = q ++ y :: t) by congruence. subst z. destruct (laid_pick l mid hi y C) as (lo2 & hi2 & L2 & X2); [rewrite EL; apply in_or_app; right; left; reflexivity|].
    exists lo, mid, lo2, hi2. split; [exact B|]. split; [intro k; pose proof (laid_list_mono _ _ _ C k); specialize (A k); lia|]. split; [exact L2|].
    split; [intro k; specialize (X2 k); specialize (A k); lia|]. intro k. specialize (X2 k). lia.
  - assert (EL : l = p ++ x :: q ++ y :: t) by congruence. destruct (IH mid hi p x q y t C EL) as (lo1 & hi1 & lo2 & hi2 & L1 & X1 & L2 & X2 & O).
    exists lo1, hi1, lo2, hi2. split; [exact L1|]. split; [intro k; specialize (X1 k); specialize (A k); lia|]. split; [exact L2|].
    split; [intro k; specialize (X2 k); specialize (A k); lia|exact O].
Qed.

(** Extents of everything below. *)
Lemma laid_deep : forall x, tidy [x] -> forall y, In y (fns x) -> forall lo hi, (forall k, lo k <= hi k) -> laid D st x lo hi ->
  exists lo' hi', laid D st y lo' hi' /\ inside lo hi lo' hi'.
Proof.
  apply (fn_rect' (fun x => tidy [x] -> forall y, In y (fns x) -> forall lo hi, (forall k, lo k <= hi k) -> laid D st x lo hi ->
    exists lo' hi', laid D st y lo' hi' /\ inside lo hi lo' hi')).
  intros id d f l IH T y Y lo hi LH L. rewrite fns_eq in Y. destruct Y as [<- |Y]; [exists lo, hi; split; [exact L|]; intro k; specialize (LH k); lia|].
  assert (TL : tidy l) by (apply (tidy_behind [Fn id d f l] id d f l T); left; reflexivity).
  rewrite laid_eq in L. destruct (D id) as [bl|] eqn:DI.
  - assert (l = []) by (apply (T id d f l); [left; reflexivity|rewrite DI; discriminate]). subst l. destruct Y.
  - destruct L as (s & e & A & _ & _ & _ & L). unfold all_fns in Y. apply in_flat_map in Y. destruct Y as (z & Z1 & Z2).
    destruct (laid_pick l s e z L Z1) as (lz & hz & L2 & X2).
    destruct (IH z Z1) with (y := y) (lo := lz) (hi := hz) as (lo' & hi' & L3 & X3); [|exact Z2|intro k; specialize (X2 k); lia|exact L2|].
    + intros id2 d2 f2 l2 I2. apply (TL id2 d2 f2 l2). unfold all_fns in I2. cbn [flat_map] in I2. rewrite app_nil_r in I2. exact (in_all z l Z1 _ I2).
    + exists lo', hi'. split; [exact L3|]. intro k. specialize (A k). specialize (X2 k). specialize (X3 k). lia.
Qed.

Lemma laid_all : forall l, tidy l -> forall lo hi y, laid_list D st l lo hi -> In y (all_fns l) -> exists lo' hi', laid D st y lo' hi' /\ inside lo hi lo' hi'.
Proof.
  intros l T lo hi y L Y. unfold all_fns in Y. apply in_flat_map in Y. destruct Y as (z & Z1 & Z2). destruct (laid_pick l lo hi z L Z1) as (lz & hz & L2 & X2).
  destruct (laid_deep z) with (y := y) (lo := lz) (hi := hz) as (lo' & hi' & L3 & X3); [|exact Z2|intro k; specialize (X2 k); lia|exact L2|].
  - intros id2 d2 f2 l2 I2. apply (T id2 d2 f2 l2). unfold all_fns in I2. cbn [flat_map] in I2. rewrite app_nil_r in I2. exact (in_all z l Z1 _ I2).
  - exists lo', hi'. split; [exact L3|exact (inside_trans _ _ _ _ _ _ X2 X3)].
Qed.

(** Neither of two functions is behind the other: their extents are apart. *)
Definition apart (x y : fn) : Prop := exists lo1 hi1 lo2 hi2, laid D st x lo1 hi1 /\ (forall k, lo1 k <= hi1 k) /\ laid D st y lo2 hi2 /\ (forall k, lo2 k <= hi2 k) /\
  ((forall k, hi1 k <= lo2 k) \/ (forall k, hi2 k <= lo1 k)).

Lemma apart_list : forall l, tidy l -> (forall z, In z l -> forall x y lo hi, In x (fns z) -> In y (fns z) -> ~ In x (fns y) -> ~ In y (fns x) ->
    (forall k, lo k <= hi k) -> laid D st z lo hi -> apart x y) ->
  forall x y lo hi, In x (all_fns l) -> In y (all_fns l) -> ~ In x (fns y) -> ~ In y (fns x) -> laid_list D st l lo hi -> apart x y.
Proof.
  intros l T H x y lo hi X Y NX NY L. pose proof X as X'. pose proof Y as Y'. unfold all_fns in X, Y. apply in_flat_map in X. apply in_flat_map in Y. destruct X as (z1 & Z1 & X), Y as (z2 & Z2 & Y).
  assert (T1 : forall z, In z l -> tidy [z]).
  { intros z HZ id2 d2 f2 l2 I2. apply (T id2 d2 f2 l2). unfold all_fns in I2. cbn [flat_map] in I2. rewrite app_nil_r in I2. exact (in_all z l HZ _ I2). }
  assert (GO : forall p q t z z' u v, l = p ++ z :: q ++ z' :: t -> In u (fns z) -> In v (fns z') -> apart u v).
  { intros p q t z z' u v E HU HV. destruct (laid_two l lo hi p z q z' t L E) as (lo1 & hi1 & lo2 & hi2 & L1 & I1 & L2 & I2 & O).
    assert (HZ : In z l) by (rewrite E; apply in_or_app; right; left; reflexivity).
    assert (HZ' : In z' l) by (rewrite E; apply in_or_app; right; right; apply in_or_app; right; left; reflexivity).
    destruct (laid_deep z (T1 z HZ) u HU lo1 hi1 ltac:(intro k; specialize (I1 k); lia) L1) as (a1 & b1 & LU & IU).
    destruct (laid_deep z' (T1 z' HZ') v HV lo2 hi2 ltac:(intro k; specialize (I2 k); lia) L2) as (a2 & b2 & LV & IV).
    exists a1, b1, a2, b2. split; [exact LU|]. split; [intro k; specialize (IU k); lia|]. split; [exact LV|]. split; [intro k; specialize (IV k); lia|].
    left. intro k. specialize (IU k). specialize (IV k). specialize (O k). lia. }
  apply in_split in Z1. destruct Z1 as (p & t & E). rewrite E in Z2. apply in_app_or in Z2. destruct Z2 as [Z2|[Z2|Z2]].
  - apply in_split in Z2. destruct Z2 as (p1 & p2 & ->). destruct (GO p1 p2 t z2 z1 y x) as (a1 & b1 & a2 & b2 & A1 & A2 & A3 & A4 & A5); [rewrite E, <- app_assoc; reflexivity|exact Y|exact X|].
    exists a2, b2, a1, b1. split; [exact A3|]. split; [exact A4|]. split; [exact A1|]. split; [exact A2|]. destruct A5 as [A5|A5]; [right|left]; exact A5.
  - subst z2. assert (HZ : In z1 l) by (rewrite E; apply in_or_app; right; left; reflexivity).
    destruct (laid_pick l lo hi z1 L HZ) as (lz & hz & LZ & IZ). apply (H z1 HZ x y lz hz X Y NX NY); [intro k; specialize (IZ k); lia|exact LZ].
  - apply in_split in Z2. destruct Z2 as (t1 & t2 & ->). apply (GO p t1 t2 z1 z2 x y E X Y).
Qed.

Lemma apart_tree : forall z, tidy [z] -> forall x y lo hi, In x (fns z) -> In y (fns z) -> ~ In x (fns y) -> ~ In y (fns x) ->
  (forall k, lo k <= hi k) -> laid D st z lo hi -> apart x y.
Proof.
  apply (fn_rect' (fun z => tidy [z] -> forall x y lo hi, In x (fns z) -> In y (fns z) -> ~ In x (fns y) -> ~ In y (fns x) ->
    (forall k, lo k <= hi k) -> laid D st z lo hi -> apart x y)).
  intros id d f l IH T x y lo hi X Y NX NY LH L. pose proof X as X'. pose proof Y as Y'. rewrite fns_eq in X, Y.
  destruct X as [<- |X]; [exfalso; exact (NY Y')|]. destruct Y as [<- |Y]; [exfalso; exact (NX X')|].
  assert (TL : tidy l) by (apply (tidy_behind [Fn id d f l] id d f l T); left; reflexivity).
  rewrite laid_eq in L. destruct (D id) as [bl|] eqn:DI.
  - assert (l = []) by (apply (T id d f l); [left; reflexivity|rewrite DI; discriminate]). subst l. destruct Y.
  - destruct L as (s & e & A & _ & _ & _ & L). apply (apart_list l TL) with (lo := s) (hi := e); try assumption.
    intros z HZ x0 y0 lo0 hi0. apply (IH z HZ). intros id2 d2 f2 l2 I2. apply (TL id2 d2 f2 l2). unfold all_fns in I2. cbn [flat_map] in I2. rewrite app_nil_r in I2. exact (in_all z l HZ _ I2).
Qed.

Lemma apart_all : forall l, tidy l -> forall x y lo hi, In x (all_fns l) -> In y (all_fns l) -> ~ In x (fns y) -> ~ In y (fns x) -> laid_list D st l lo hi -> apart x y.
Proof.
  intros l T. apply (apart_list l T). intros z HZ. apply apart_tree. intros id2 d2 f2 l2 I2. apply (T id2 d2 f2 l2). unfold all_fns in I2. cbn [flat_map] in I2. rewrite app_nil_r in I2. exact (in_all z l HZ _ I2).
Qed.

(** Regions and windows lie in the extent. *)
Lemma region_extent : forall id d f l lo hi n k a b, laid D st (Fn id d f l) lo hi -> region D st id n k a b -> lo k <= a /\ b <= hi k.
Proof.
  intros id d f l lo hi n k a b L (bl & bd & DI & N & K & -> & ->). rewrite laid_eq, DI in L. destruct (bars_laid_in bl st id 0 lo hi n bd k L N K) as (A & _ & C).
  rewrite Z.add_0_l in A, C. split; assumption.
Qed.

Lemma region_aligned : forall id d f l lo hi n k a b, laid D st (Fn id d f l) lo hi -> region D st id n k a b -> a mod (b - a) = 0.
Proof.
  intros id d f l lo hi n k a b L (bl & bd & DI & N & K & -> & ->). rewrite laid_eq, DI in L. destruct (bars_laid_in bl st id 0 lo hi n bd k L N K) as (_ & B & _).
  rewrite Z.add_0_l in B. match goal with |- _ mod ?x = 0 => replace x with (size_of bd) by lia end. exact B.
Qed.

Lemma window_extent : forall id d f l lo hi k a, laid D st (Fn id d f l) lo hi -> D id = None -> k <> IoS -> in_window st id k a -> lo k <= a < hi k.
Proof.
  intros id d f l lo hi k a L DI NK W. rewrite laid_eq, DI in L. destruct L as (s & e & A & W1 & W2 & _). unfold in_window in W. specialize (A k).
  assert (W3 : window st id k (s k) (e k)) by (destruct k; [exact W1|exact W2|congruence]). destruct W3 as [(_ & W3)|(W3 & W4 & W5 & _)]; [lia|]. rewrite W4, W5 in W. lia.
Qed.

Lemma window_behind : forall id d f l lo hi k y n a b, tidy l -> laid D st (Fn id d f l) lo hi -> D id = None -> In y (all_fns l) -> region D st (fid y) n k a b -> a < b ->
  k <> IoS -> win_base st id k <= a /\ b - 1 <= win_limit st id k /\ Z.testbit (st id 1) 1 = true.
Proof.
  intros id d f l lo hi k y n a b T L DI Y R AB NK. rewrite laid_eq, DI in L. destruct L as (s & e & A & W1 & W2 & _ & L).
  destruct (laid_all l T s e y L Y) as (lo' & hi' & LY & I). destruct y as [idy dy fy ly]. cbn [fid] in R. destruct (region_extent _ _ _ _ _ _ _ _ _ _ LY R) as (X1 & X2). specialize (I k).
  assert (W3 : window st id k (s k) (e k)) by (destruct k; [exact W1|exact W2|congruence]). destruct W3 as [(W3 & _)|(W3 & W4 & W5 & W6)]; [lia|]. rewrite W4, W5. split; [lia|]. split; [lia|exact W6].
Qed.

(** * Bus numbers *)

Lemma numbered_bounds : forall x, tidy [x] -> forall lo hi, lo <= hi -> numbered D st x lo hi -> forall y, In y (fns x) -> D (fid y) = None -> lo < secondary st (fid y) <= hi.
Proof.
  apply (fn_rect' (fun x => tidy [x] -> forall lo hi, lo <= hi -> numbered D st x lo hi -> forall y, In y (fns x) -> D (fid y) = None -> lo < secondary st (fid y) <= hi)).
  intros id d f l IH T lo hi LH N y Y DY. rewrite numbered_eq in N. rewrite fns_eq in Y.
  assert (TL : tidy l) by (apply (tidy_behind [Fn id d f l] id d f l T); left; reflexivity).
  destruct (D id) as [bl|] eqn:DI.
  - assert (l = []) by (apply (T id d f l); [left; reflexivity|rewrite DI; discriminate]). subst l. destruct Y as [<- |[]]. cbn [fid] in DY. congruence.
  - destruct N as (N1 & N2 & N3). assert (B : lo + 1 <= hi) by (apply (numbered_sub D st l); exact N3). destruct Y as [<- |Y]; [cbn [fid]; lia|].
    enough (X : lo + 1 < secondary st (fid y) <= hi) by lia. revert N3 IH Y TL. clear - DY. generalize (lo + 1). induction l as [|z l IHl]; intros lo0 N3 IH Y TL; [destruct Y|].
    destruct N3 as (mid & A & B & C). rewrite all_cons in Y. apply in_app_or in Y.
    assert (MH : mid <= hi) by (apply (numbered_sub D st l); exact C). destruct Y as [Y|Y].
    + enough (lo0 < secondary st (fid y) <= mid) by lia. apply (IH z ltac:(left; reflexivity)); try assumption. intros id2 d2 f2 l2 I2. apply (TL id2 d2 f2 l2). rewrite all_cons. apply in_or_app. left. unfold all_fns in I2. cbn [flat_map] in I2. rewrite app_nil_r in I2. exact I2.
    + enough (mid < secondary st (fid y) <= hi) by lia. apply IHl; try assumption; [intros x X; apply (IH x); right; exact X|]. intros id2 d2 f2 l2 I2. apply (TL id2 d2 f2 l2). rewrite all_cons. apply in_or_app. right. exact I2.
Qed.

Lemma tidy_one : forall l z, tidy l -> In z l -> tidy [z].
Proof. intros l z T Z1 id2 d2 f2 l2 I2. apply (T id2 d2 f2 l2). unfold all_fns in I2. cbn [flat_map] in I2. rewrite app_nil_r in I2. exact (in_all z l Z1 _ I2). Qed.

Lemma numbered_pick : forall l lo hi x, numbered_list D st l lo hi -> In x l -> exists lx hx, numbered D st x lx hx /\ lo <= lx <= hx /\ hx <= hi.
Proof.
  induction l as [|y l IH]; intros lo hi x N X; [destruct X|]. destruct N as (mid & A & B & C). pose proof (proj1 (numbered_sub D st l mid hi C)). destruct X as [<- |X].
  - exists lo, mid. split; [exact B|]. lia.
  - destruct (IH mid hi x C X) as (lx & hx & N & L). exists lx, hx. split; [exact N|lia].
Qed.

Definition headers (l : list fn) : Prop := forall y, In y (all_fns l) -> (header_type st (fid y) = 1 <-> D (fid y) = None).

Lemma find_bridge : forall l lo hi x, tidy l -> headers l -> numbered_list D st l lo hi -> In x (all_fns l) -> D (fid x) = None ->
  exists z lz hz, find (claims st (secondary st (fid x))) l = Some z /\ In z l /\ In x (fns z) /\ numbered D st z lz hz /\ lo <= lz <= hz.
Proof.
  induction l as [|y l IH]; intros lo hi x T H N X DX; [destruct X|]. destruct N as (mid & A & B & C).
  assert (Ty : tidy [y]) by (intros id2 d2 f2 l2 I2; apply (T id2 d2 f2 l2); rewrite all_cons; apply in_or_app; left; unfold all_fns in I2; cbn [flat_map] in I2; rewrite app_nil_r in I2; exact I2).
  assert (Tl : tidy l) by (intros id2 d2 f2 l2 I2; apply (T id2 d2 f2 l2); rewrite all_cons; apply in_or_app; right; exact I2).
  assert (Hl : headers l) by (intros z Z1; apply H; rewrite all_cons; apply in_or_app; right; exact Z1).
  assert (Hy : header_type st (fid y) = 1 <-> D (fid y) = None) by (apply H; rewrite all_cons; apply in_or_app; left; apply in_fns_self).
  rewrite all_cons in X. apply in_app_or in X. cbn [find]. destruct y as [id d f l']. cbn [fid] in Hy. destruct X as [X|X].
  - exists (Fn id d f l'), lo, mid. assert (CL : claims st (secondary st (fid x)) (Fn id d f l') = true).
    { pose proof (numbered_bounds _ Ty lo mid A B x X DX) as BD. unfold claims. destruct (D id) as [bl|] eqn:DI.
      - exfalso. assert (l' = []) by (apply (Ty id d f l'); [left; reflexivity|rewrite DI; discriminate]). subst l'. rewrite fns_eq in X. destruct X as [<- |[]]. cbn [fid] in DX. congruence.
      - rewrite numbered_eq, DI in B. destruct B as (B1 & B2 & _). rewrite (proj2 Hy eq_refl), B1, B2. change (1 =? 1) with true. cbn [andb].
        replace (lo + 1 <=? secondary st (fid x)) with true by (symmetry; apply Z.leb_le; lia). apply Z.leb_le. lia. }
    rewrite CL. split; [reflexivity|]. split; [left; reflexivity|]. split; [exact X|]. split; [exact B|lia].
  - assert (NC : claims st (secondary st (fid x)) (Fn id d f l') = false).
    { unfold claims. destruct (Z.eqb_spec (header_type st id) 1) as [E|E]; [|reflexivity]. rewrite numbered_eq, (proj1 Hy E) in B. destruct B as (B1 & B2 & _).
      assert (mid < secondary st (fid x)).
      { revert C X Tl. clear - DX. revert mid. induction l as [|z l IHl]; intros mid C X Tl; [destruct X|]. destruct C as (m2 & C1 & C2 & C3). rewrite all_cons in X. apply in_app_or in X. destruct X as [X|X].
        - apply (numbered_bounds z) with (hi := m2); try assumption. intros id2 d2 f2 l2 I2. apply (Tl id2 d2 f2 l2). rewrite all_cons. apply in_or_app. left. unfold all_fns in I2. cbn [flat_map] in I2. rewrite app_nil_r in I2. exact I2.
        - enough (m2 < secondary st (fid x)) by lia. apply IHl; try assumption. intros id2 d2 f2 l2 I2. apply (Tl id2 d2 f2 l2). rewrite all_cons. apply in_or_app. right. exact I2. }
      cbn [andb]. replace (secondary st (fid x) <=? subordinate st id) with false by (symmetry; apply Z.leb_gt; lia). apply andb_false_r. }
    rewrite NC. destruct (IH mid hi x Tl Hl C X DX) as (z & lz & hz & E1 & E2 & E3 & E4 & E5). exists z, lz, hz. split; [exact E1|]. split; [right; exact E2|]. split; [exact E3|]. split; [exact E4|lia].
Qed.

Lemma route_numbered : forall h l n lo hi id d f l', tidy l -> headers l -> NoDup (ids l) -> numbered_list D st l lo hi -> n <= lo -> In (Fn id d f l') (all_fns l) -> D id = None ->
  secondary st id - n <= Z.of_nat h -> n < secondary st id /\ route h st l n (secondary st id) = Some l'.
Proof.
  induction h as [|h IH]; intros l n lo hi id d f l' T H ND N NL X DX HH;
    destruct (find_bridge l lo hi (Fn id d f l') T H N X DX) as (z & lz & hz & E1 & E2 & E3 & E4 & E5); cbn [fid] in E1;
    (assert (Tz : tidy [z]) by (intros id2 d2 f2 l2 I2; apply (T id2 d2 f2 l2); unfold all_fns in I2; cbn [flat_map] in I2; rewrite app_nil_r in I2; exact (in_all z l E2 _ I2)));
    pose proof (numbered_bounds z Tz lz hz ltac:(lia) E4 _ E3 DX) as BD; cbn [fid] in BD.
  - lia.
  - split; [lia|]. cbn [route]. replace (secondary st id =? n) with false by (symmetry; apply Z.eqb_neq; lia). rewrite E1. destruct z as [idz dz fz lz'].
    rewrite fns_eq in E3. rewrite numbered_eq in E4. destruct (D idz) as [bl|] eqn:DZ.
    { exfalso. assert (lz' = []) by (apply (Tz idz dz fz lz'); [left; reflexivity|rewrite DZ; discriminate]). subst lz'. destruct E3 as [E3|[]]. congruence. }
    destruct E4 as (N1 & N2 & N3). destruct E3 as [E3|E3].
    + assert (idz = id) by congruence. assert (lz' = l') by congruence. subst idz lz'. destruct h; cbn [route]; rewrite Z.eqb_refl; reflexivity.
    + destruct (ids_split l _ ND E2) as (ND1 & _). destruct (nodup_behind _ _ _ _ ND1) as (ND2 & _).
      apply (IH lz' (secondary st idz) (lz + 1) hz id d f l'); try assumption; try lia.
      * apply (tidy_behind l idz dz fz lz' T). exact (in_all_self _ _ E2).
      * intros y Y. apply H. apply (in_all _ l E2). rewrite fns_eq. right. exact Y.
Qed.
End Flat.
