(** Lemmas for PciProps: buses and routing. *)
From Verif Require Import Base BaseLemmas PciSpec PciModel PciProofs.
Local Ltac Zify.zify_post_hook ::= idtac.

Lemma fn_rect' (P : fn -> Prop) (H : forall id d f l, (forall x, In x l -> P x) -> P (Fn id d f l)) : forall x, P x.
Proof.
  fix REC 1. intros [id d f l]. apply H. induction l as [|y l IH]; intros x HX; [destruct HX|].
  destruct HX as [<- |HX]; [apply REC|apply IH; exact HX].
Qed.

Lemma all_cons : forall x l, all_fns (x :: l) = fns x ++ all_fns l.
Proof. reflexivity. Qed.
Lemma all_app : forall a b, all_fns (a ++ b) = all_fns a ++ all_fns b.
Proof. intros. unfold all_fns. apply flat_map_app. Qed.
Lemma fns_eq : forall id d f l, fns (Fn id d f l) = Fn id d f l :: all_fns l.
Proof. reflexivity. Qed.
Lemma ids_cons : forall x l, ids (x :: l) = map fid (fns x) ++ ids l.
Proof. intros. unfold ids. rewrite all_cons, map_app. reflexivity. Qed.
Lemma ids_app : forall a b, ids (a ++ b) = ids a ++ ids b.
Proof. intros. unfold ids. rewrite all_app, map_app. reflexivity. Qed.

Lemma in_fns_self : forall x, In x (fns x).
Proof. intros [id d f l]. left. reflexivity. Qed.
Lemma in_all : forall x l, In x l -> incl (fns x) (all_fns l).
Proof. intros x l H y Y. unfold all_fns. apply in_flat_map. exists x. split; assumption. Qed.
Lemma in_all_self : forall x l, In x l -> In x (all_fns l).
Proof. intros x l H. exact (in_all x l H x (in_fns_self x)). Qed.
Lemma all_trans : forall y l, In y (all_fns l) -> incl (fns y) (all_fns l).
Proof.
  assert (X : forall x y, In y (fns x) -> incl (fns y) (fns x)).
  { apply (fn_rect' (fun x => forall y, In y (fns x) -> incl (fns y) (fns x))). intros id d f l IH y HY. rewrite fns_eq in HY.
    destruct HY as [<- |HY]; [apply incl_refl|]. unfold all_fns in HY. apply in_flat_map in HY. destruct HY as (z & Z1 & Z2).
    intros w W. rewrite fns_eq. right. exact (in_all z l Z1 w (IH z Z1 y Z2 w W)). }
  intros y l HY. unfold all_fns in HY. apply in_flat_map in HY. destruct HY as (z & Z1 & Z2).
  intros w W. exact (in_all z l Z1 w (X z y Z2 w W)).
Qed.

Lemma in_ids : forall x l, In x (all_fns l) -> In (fid x) (ids l).
Proof. intros. unfold ids. apply in_map. assumption. Qed.
Lemma fid_in : forall x l, In x l -> In (fid x) (ids l).
Proof. intros x l H. apply in_ids, in_all_self, H. Qed.

Lemma nodup_app : forall {A} (a b : list A), NoDup (a ++ b) -> NoDup a /\ NoDup b /\ forall x, In x a -> ~ In x b.
Proof.
  intros A a b. induction a as [|x a IH]; cbn [app]; intro H.
  - split; [constructor|]. split; [exact H|]. intros x [].
  - inversion H as [|? ? N ND]; subst. destruct (IH ND) as (A1 & A2 & A3). split; [constructor; [|exact A1]|split; [exact A2|]].
    + intro I. apply N. apply in_or_app. left. exact I.
    + intros y [<- |Y]; [|exact (A3 y Y)]. intro I. apply N. apply in_or_app. right. exact I.
Qed.

(** Of two functions on a bus with different numbers, neither is in the other's part. *)
Lemma ids_split : forall l x, NoDup (ids l) -> In x l ->
  NoDup (map fid (fns x)) /\ forall y, In y l -> fid y <> fid x -> forall z, In z (fns x) -> fid z <> fid y.
Proof.
  induction l as [|w l IH]; intros x ND HX; [destruct HX|]. rewrite ids_cons in ND. apply nodup_app in ND. destruct ND as (N1 & N2 & N3).
  destruct HX as [<- |HX].
  - split; [exact N1|]. intros y [<- |Y] NE z Z; [congruence|]. intro E. apply (N3 (fid z)); [apply in_map; exact Z|]. rewrite E. apply fid_in. exact Y.
  - destruct (IH x N2 HX) as (I1 & I2). split; [exact I1|]. intros y [<- |Y] NE z Z; [|exact (I2 y Y NE z Z)].
    intro E. apply (N3 (fid w)); [apply in_map, in_fns_self|]. rewrite <- E. apply in_ids. exact (in_all x l HX z Z).
Qed.

Lemma same_fid : forall l x y, NoDup (ids l) -> In x l -> In y l -> fid x = fid y -> x = y.
Proof.
  induction l as [|w l IH]; intros x y ND HX HY E; [destruct HX|]. rewrite ids_cons in ND. apply nodup_app in ND. destruct ND as (N1 & N2 & N3).
  destruct HX as [<- |HX], HY as [<- |HY]; [reflexivity| | |exact (IH x y N2 HX HY E)].
  - exfalso. apply (N3 (fid w)); [apply in_map, in_fns_self|]. rewrite E. apply fid_in. exact HY.
  - exfalso. apply (N3 (fid w)); [apply in_map, in_fns_self|]. rewrite <- E. apply fid_in. exact HX.
Qed.

Lemma nodup_behind : forall id d f l, NoDup (map fid (fns (Fn id d f l))) -> NoDup (ids l) /\ ~ In id (ids l).
Proof. intros id d f l H. rewrite fns_eq in H. cbn [map fid] in H. inversion H; subst. split; assumption. Qed.

(** * Routing while buses are enumerated: the bridges on the way pass everything on. *)

Inductive opened (st : regs) : list fn -> Z -> list fn -> Z -> Prop :=
| op_here l n : opened st l n l n
| op_down l n id d f l' F B : In (Fn id d f l') l -> header_type st id = 1 -> subordinate st id = 255 -> n < secondary st id ->
    (forall y, In y l -> fid y <> id -> header_type st (fid y) = 1 -> subordinate st (fid y) < secondary st id) ->
    opened st l' (secondary st id) F B -> opened st l n F B.

Lemma opened_le : forall st l n F B, opened st l n F B -> n <= B.
Proof. intros st l n F B H. induction H; lia. Qed.

Lemma opened_incl : forall st l n F B, opened st l n F B -> incl (all_fns F) (all_fns l).
Proof.
  intros st l n F B H. induction H as [|l n id d f l' F B I H1 H2 H3 H4 H IH]; [apply incl_refl|].
  intros x X. apply (in_all _ l I). rewrite fns_eq. right. apply IH. exact X.
Qed.

Lemma opened_nodup : forall st l n F B, opened st l n F B -> NoDup (ids l) -> NoDup (ids F).
Proof.
  intros st l n F B H. induction H as [|l n id d f l' F B I H1 H2 H3 H4 H IH]; intro ND; [exact ND|].
  apply IH. destruct (ids_split l _ ND I) as (N & _). exact (proj1 (nodup_behind _ _ _ _ N)).
Qed.

Lemma incl_ids : forall a b, incl (all_fns a) (all_fns b) -> incl (ids a) (ids b).
Proof. intros a b H x X. unfold ids in *. apply in_map_iff in X. destruct X as (y & <- & Y). apply in_map. apply H. exact Y. Qed.

Definition agree_off (S : list nat) (st st' : regs) : Prop := forall x, ~ In x S -> forall r, st' x r = st x r.

Lemma agree_refl : forall S st, agree_off S st st.
Proof. intros S st x _ r. reflexivity. Qed.
Lemma agree_trans : forall S a b c, agree_off S a b -> agree_off S b c -> agree_off S a c.
Proof. intros S a b c H1 H2 x X r. rewrite H2, H1 by exact X. reflexivity. Qed.
Lemma agree_incl : forall S S' a b, incl S S' -> agree_off S a b -> agree_off S' a b.
Proof. intros S S' a b I H x X r. apply H. intro Y. apply X, I, Y. Qed.

Lemma opened_frame : forall st st' l n F B, NoDup (ids l) -> opened st l n F B -> agree_off (ids F) st st' -> opened st' l n F B.
Proof.
  intros st st' l n F B ND H A. revert ND A. induction H as [|l n id d f l' F B I H1 H2 H3 H4 H IH]; intros ND A; [constructor|].
  destruct (ids_split l _ ND I) as (N1 & N2). destruct (nodup_behind _ _ _ _ N1) as (N3 & N4).
  assert (IN : incl (ids F) (ids l')) by (apply incl_ids; exact (opened_incl _ _ _ _ _ H)).
  assert (E : forall r, st' id r = st id r) by (intro r; apply A; intro X; apply N4, IN, X).
  assert (ES : secondary st' id = secondary st id) by (unfold secondary; rewrite E; reflexivity).
  apply (op_down st' l n id d f l' F B I).
  - unfold header_type. rewrite E. exact H1.
  - unfold subordinate. rewrite E. exact H2.
  - rewrite ES. exact H3.
  - intros y Y NE HT. rewrite ES.
    assert (EY : forall r, st' (fid y) r = st (fid y) r).
    { intro r. apply A. intro X. apply IN in X. unfold ids in X. apply in_map_iff in X. destruct X as (z & EZ & ZI).
      apply (N2 y Y NE z); [rewrite fns_eq; right; exact ZI|exact EZ]. }
    unfold subordinate. rewrite EY. apply (H4 y Y NE). unfold header_type in *. rewrite EY in HT. exact HT.
  - rewrite ES. apply IH; assumption.
Qed.

Lemma opened_trans : forall st l n F B, opened st l n F B -> forall F' B', opened st F B F' B' -> opened st l n F' B'.
Proof.
  intros st l n F B H. induction H as [|l n id d f l' F B I H1 H2 H3 H4 H IH]; intros F' B' H'; [exact H'|].
  apply (op_down st l n id d f l' F' B' I H1 H2 H3 H4). apply IH. exact H'.
Qed.

Lemma opened_route : forall st l n F B, opened st l n F B -> NoDup (ids l) -> 0 <= n -> B <= 255 ->
  forall h, B - n <= Z.of_nat h -> route h st l n B = Some F.
Proof.
  intros st l n F B H. induction H as [l n|l n id d f l' F B I H1 H2 H3 H4 H IH]; intros ND N0 BB h HH.
  - destruct h; cbn [route]; rewrite Z.eqb_refl; reflexivity.
  - pose proof (opened_le _ _ _ _ _ H) as LE. destruct h as [|h]; [lia|]. cbn [route].
    destruct (Z.eqb_spec B n); [lia|].
    assert (C : claims st B (Fn id d f l') = true).
    { unfold claims. rewrite H1, H2. cbn [Z.eqb Pos.eqb andb]. apply andb_true_intro. split; apply Z.leb_le; lia. }
    assert (FD : find (claims st B) l = Some (Fn id d f l')).
    { destruct (find (claims st B) l) as [y|] eqn:E.
      - apply find_some in E. destruct E as (Y1 & Y2). f_equal. destruct (Nat.eq_dec (fid y) id) as [EQ|NE].
        + apply (same_fid l y (Fn id d f l') ND Y1 I EQ).
        + exfalso. destruct y as [id' d' f' l'']. unfold claims in Y2. apply andb_prop in Y2. destruct Y2 as (Y2 & Y4). apply andb_prop in Y2. destruct Y2 as (Y2 & Y3).
          apply Z.eqb_eq in Y2. apply Z.leb_le in Y4. specialize (H4 _ Y1 NE Y2). cbn [fid] in H4. lia.
      - pose proof (find_none _ _ E _ I) as X. congruence. }
    rewrite FD. destruct (ids_split l _ ND I) as (N1 & _). destruct (nodup_behind _ _ _ _ N1) as (N3 & _).
    apply IH; [exact N3|lia|exact BB|lia].
Qed.

(** * Finding a function on its bus *)

Lemma at_slot_true : forall d f x, at_slot d f x = true <-> exists id l, x = Fn id d f l.
Proof.
  intros d f [id d' f' l]. unfold at_slot. split.
  - intro H. apply andb_prop in H. destruct H as (H1 & H2). apply Z.eqb_eq in H1. apply Z.eqb_eq in H2. subst. exists id, l. reflexivity.
  - intros (i & l0 & E). assert (d' = d) by congruence. assert (f' = f) by congruence. subst. rewrite !Z.eqb_refl. reflexivity.
Qed.

Lemma slot_unique : forall st l x y, bus_ok st l -> In x l -> In y l -> place x = place y -> x = y.
Proof.
  intros st l x y (S1 & _) HX HY E. apply in_split in HX. destruct HX as (p & t & ->). apply in_app_or in HY.
  destruct HY as [HY|[HY|HY]]; [|exact HY|].
  - apply in_split in HY. destruct HY as (p1 & p2 & ->). specialize (S1 p1 y p2 x t ltac:(rewrite <- app_assoc; reflexivity)). lia.
  - apply in_split in HY. destruct HY as (p1 & p2 & ->). specialize (S1 p x p1 y p2 eq_refl). lia.
Qed.

Lemma find_slot : forall st l id d f l', bus_ok st l -> In (Fn id d f l') l -> find (at_slot d f) l = Some (Fn id d f l').
Proof.
  intros st l id d f l' BO I. destruct (find (at_slot d f) l) as [y|] eqn:E.
  - apply find_some in E. destruct E as (Y1 & Y2). f_equal. apply (slot_unique st l); try assumption.
    apply at_slot_true in Y2. destruct Y2 as (i & l0 & ->). reflexivity.
  - pose proof (find_none _ _ E _ I) as X. rewrite (proj2 (at_slot_true d f _)) in X; [discriminate|]. exists id, l'. reflexivity.
Qed.

Lemma target_in : forall m st0 st F B id d f l, NoDup (ids (root m)) -> opened st (root m) 0 F B -> B <= 255 -> bus_ok st0 F -> In (Fn id d f l) F ->
  target m st B d f = Some id.
Proof.
  intros m st0 st F B id d f l ND O BB BO I. unfold target. rewrite (opened_route st (root m) 0 F B O ND); [|lia|lia|change (Z.of_nat 256) with 256; lia].
  rewrite (find_slot st0 F id d f l BO I). reflexivity.
Qed.

Lemma target_none : forall m st F B d f, NoDup (ids (root m)) -> opened st (root m) 0 F B -> B <= 255 ->
  (forall id l, ~ In (Fn id d f l) F) -> target m st B d f = None.
Proof.
  intros m st F B d f ND O BB NI. unfold target. rewrite (opened_route st (root m) 0 F B O ND); [|lia|lia|change (Z.of_nat 256) with 256; lia].
  destruct (find (at_slot d f) F) as [y|] eqn:E; [|reflexivity]. exfalso. apply find_some in E. destruct E as (Y1 & Y2).
  apply at_slot_true in Y2. destruct Y2 as (i & l0 & ->). exact (NI _ _ Y1).
Qed.
