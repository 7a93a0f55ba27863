(** Trees and their tokens; a blob that holds a device tree. *)
From Verif Require Import Base BaseLemmas StringModel FdtModel FdtSpec FdtProofs.
Local Ltac Zify.zify_post_hook ::= idtac.

Lemma tree_rec' : forall P : tree -> Prop, (forall n ps ks, Forall P ks -> P (Node n ps ks)) -> forall t, P t.
Proof.
  intros P H. fix IH 1. intros [n ps ks]. apply H. induction ks as [|k ks IHk]; constructor; [apply IH|exact IHk].
Qed.

Definition ptoks (ps : list (list Z * list Z)) : list tok := map (fun p => KProp (fst p) (snd p)) ps.
Definition forest (ks : list tree) : list tok := flat_map flat ks.
Lemma flat_node : forall n ps ks, flat (Node n ps ks) = KBegin n :: ptoks ps ++ forest ks ++ [KEnd].
Proof. reflexivity. Qed.
Lemma props_size_ok : forall ps, props_size ps = size (ptoks ps).
Proof. induction ps as [|p ps IH]; [reflexivity|]. cbn [props_size fold_right ptoks map size t_size]. fold (props_size ps). rewrite IH. reflexivity. Qed.

Lemma flat_no_fin : forall t, ~ In KFin (flat t).
Proof.
  induction t as [n ps ks IH] using tree_rec'. rewrite flat_node. cbn [In]. intros [E|I]; [discriminate|]. apply in_app_or in I. destruct I as [I|I].
  - unfold ptoks in I. apply in_map_iff in I. destruct I as (p & E & _). discriminate.
  - apply in_app_or in I. destruct I as [I|[E|[]]]; [|discriminate]. unfold forest in I. apply in_flat_map in I. destruct I as (k & Ik & I).
    rewrite Forall_forall in IH. exact (IH k Ik I).
Qed.

(** ** Every node is followed by its properties *)

Lemma well_nil : well [].
Proof. intros pre n r E. destruct pre; discriminate. Qed.
Lemma well_cons : forall k r, (forall n, k = KBegin n -> props_then r) -> well r -> well (k :: r).
Proof.
  intros k r H W pre n r' E. destruct pre as [|k' pre]; cbn [app] in E.
  - injection E as -> ->. exact (H n eq_refl).
  - injection E as _ E. exact (W pre n r' E).
Qed.
Lemma well_props : forall ps r, well r -> well (ptoks ps ++ r).
Proof. induction ps as [|p ps IH]; intros r W; [exact W|]. cbn [ptoks map app]. apply well_cons; [discriminate|exact (IH r W)]. Qed.
Lemma props_then_node : forall ps ks rest, props_then (ptoks ps ++ forest ks ++ KEnd :: rest).
Proof.
  intros ps ks rest. destruct ks as [|[n' ps' ks'] ks].
  - exists ps, KEnd, rest. split; [reflexivity|left; reflexivity].
  - exists ps, (KBegin n'), ((ptoks ps' ++ forest ks' ++ [KEnd]) ++ forest ks ++ KEnd :: rest). split; [|right; exists n'; reflexivity].
    unfold forest at 1. cbn [flat_map]. fold (forest ks). rewrite flat_node. cbn [app]. rewrite <- !app_assoc. reflexivity.
Qed.
Lemma well_flat : forall t rest, well rest -> well (flat t ++ rest).
Proof.
  induction t as [n ps ks IH] using tree_rec'. intros rest W. rewrite flat_node. cbn [app]. rewrite <- !app_assoc. cbn [app].
  apply well_cons; [intros m _; apply props_then_node|]. apply well_props.
  assert (WE : well (KEnd :: rest)) by (apply well_cons; [discriminate|exact W]).
  induction ks as [|k ks IHk]; [exact WE|]. unfold forest. cbn [flat_map]. fold (forest ks). rewrite <- app_assoc.
  inversion IH; subst. match goal with H : forall rest, _ |- _ => apply H end. apply IHk. assumption.
Qed.

(** ** Depth *)

Lemma closes_props : forall ps d o r, closes d o (ptoks ps ++ r) = closes d (o + size (ptoks ps)) r.
Proof.
  induction ps as [|p ps IH]; intros d o r; cbn [ptoks map app size closes]; [rewrite Z.add_0_r; reflexivity|]. fold (ptoks ps). rewrite IH. f_equal. lia.
Qed.
Lemma closes_flat : forall t d o r, closes d o (flat t ++ r) = closes d (o + size (flat t)) r.
Proof.
  induction t as [n ps ks IH] using tree_rec'. intros d o r. rewrite flat_node. cbn [app closes]. rewrite <- !app_assoc, closes_props.
  assert (F : forall o r, closes (S d) o (forest ks ++ r) = closes (S d) (o + size (forest ks)) r).
  { clear o r. induction ks as [|k ks IHk]; intros o r; cbn [forest flat_map app size]; [rewrite Z.add_0_r; reflexivity|]. fold (forest ks). inversion IH; subst.
    rewrite <- app_assoc, size_app. match goal with H : forall d o r, _ |- _ => rewrite H end. rewrite IHk by assumption. f_equal. lia. }
  rewrite F. cbn [app closes size]. f_equal. rewrite !size_app. cbn [size t_size]. lia.
Qed.
Lemma closes_node : forall n ps ks o r, closes 0 (o + t_size (KBegin n)) (ptoks ps ++ forest ks ++ KEnd :: r) = Some (o + size (flat (Node n ps ks))).
Proof.
  intros n ps ks o r. rewrite closes_props.
  assert (F : forall o r, closes 0 o (forest ks ++ r) = closes 0 (o + size (forest ks)) r).
  { clear o r. induction ks as [|k ks IHk]; intros o r; cbn [forest flat_map app size]; [rewrite Z.add_0_r; reflexivity|]. fold (forest ks).
    rewrite <- app_assoc, size_app, closes_flat, IHk. f_equal. lia. }
  rewrite F. cbn [closes]. f_equal. rewrite flat_node. cbn [size]. rewrite !size_app. cbn [size t_size]. lia.
Qed.

Lemma subfind_props : forall s ps d o r, subfind s d o (ptoks ps ++ r) = subfind s d (o + size (ptoks ps)) r.
Proof.
  intro s. induction ps as [|p ps IH]; intros d o r; cbn [ptoks map app size subfind]; [rewrite Z.add_0_r; reflexivity|]. fold (ptoks ps). rewrite IH. f_equal. lia.
Qed.
Lemma subfind_flat : forall s t d o r, subfind s (S d) o (flat t ++ r) = subfind s (S d) (o + size (flat t)) r.
Proof.
  intros s t. induction t as [n ps ks IH] using tree_rec'. intros d o r. rewrite flat_node. cbn [app subfind]. rewrite <- !app_assoc, subfind_props.
  assert (F : forall o r, subfind s (S (S d)) o (forest ks ++ r) = subfind s (S (S d)) (o + size (forest ks)) r).
  { clear o r. induction ks as [|k ks IHk]; intros o r; cbn [forest flat_map app size]; [rewrite Z.add_0_r; reflexivity|]. fold (forest ks). inversion IH; subst.
    rewrite <- app_assoc, size_app. match goal with H : forall d o r, _ |- _ => rewrite H end. rewrite IHk by assumption. f_equal. lia. }
  rewrite F. cbn [app subfind size]. f_equal. rewrite !size_app. cbn [size t_size]. lia.
Qed.
(** The first child whose name matches. *)
Lemma subfind_kids : forall s ks o r, (exists e, subfind s 0 o (forest ks ++ KEnd :: r) = Some e /\ o <= e /\ existsb (fun k => name_matches s (t_name k)) ks = true) \/
  (subfind s 0 o (forest ks ++ KEnd :: r) = Some ERR_NOTFOUND /\ existsb (fun k => name_matches s (t_name k)) ks = false).
Proof.
  intros s ks. induction ks as [|[n ps k'] ks IH]; intros o r; [right; split; reflexivity|].
  cbn [forest flat_map existsb t_name]. fold (forest ks). rewrite flat_node. cbn [app subfind].
  destruct (name_matches s n); [left; exists o; split; [reflexivity|split; [lia|reflexivity]]|]. cbn [orb].
  assert (E : subfind s 1 (o + t_size (KBegin n)) (((ptoks ps ++ forest k' ++ [KEnd]) ++ forest ks) ++ KEnd :: r) = subfind s 0 (o + size (flat (Node n ps k'))) (forest ks ++ KEnd :: r)).
  { rewrite <- !app_assoc, subfind_props.
    assert (F : forall o r, subfind s 1 o (forest k' ++ r) = subfind s 1 (o + size (forest k')) r).
    { clear. induction k' as [|k ks IHk]; intros o r; cbn [forest flat_map app size]; [rewrite Z.add_0_r; reflexivity|]. fold (forest ks).
      rewrite <- app_assoc, size_app, subfind_flat, IHk. f_equal. lia. }
    rewrite F. cbn [app subfind]. f_equal. rewrite flat_node. cbn [size]. rewrite !size_app. cbn [size t_size]. lia. }
  rewrite E. destruct (IH (o + size (flat (Node n ps k'))) r) as [(e & A & B & C)|[A B]]; [left; exists e|right; split; assumption].
  split; [exact A|split; [|exact C]]. pose proof (size_ge (flat (Node n ps k'))). pose proof (zlen_nn _ (flat (Node n ps k'))). lia.
Qed.

(** ** Nodes in document order *)

Fixpoint fnodes (o : Z) (ks : list tree) : list (Z * tree) :=
  match ks with [] => [] | k :: r => nodes o k ++ fnodes (o + size (flat k)) r end.
Lemma nodes_node : forall o n ps ks, nodes o (Node n ps ks) = (o, Node n ps ks) :: fnodes (o + t_size (KBegin n) + size (ptoks ps)) ks.
Proof.
  intros o n ps ks. cbn [nodes]. f_equal. rewrite props_size_ok. cbn [t_size]. rewrite Z.add_assoc.
  generalize (o + 4 + up4 (zlen n + 1) + size (ptoks ps)). clear. induction ks as [|k ks IH]; intro o; [reflexivity|]. exact (f_equal (app (nodes o k)) (IH (o + size (flat k)))).
Qed.

(** The nodes among tokens, each with the tokens from there on. *)
Fixpoint tnodes (o : Z) (ts : list tok) : list (Z * list tok) :=
  match ts with
  | [] => []
  | KBegin n :: r => (o, ts) :: tnodes (o + t_size (KBegin n)) r
  | k :: r => tnodes (o + t_size k) r
  end.
Lemma search_tnodes : forall test ts o, search test o ts = first_of test (tnodes o ts).
Proof.
  intros test ts. unfold first_of. induction ts as [|k ts IH]; intro o; [reflexivity|]. destruct k as [n|n d| |]; cbn [search tnodes]; try apply IH.
  cbn [find snd]. destruct (test (KBegin n :: ts)); [reflexivity|apply IH].
Qed.
Definition same (rest : list tok) (x : Z * tree) (y : Z * list tok) : Prop := fst x = fst y /\ exists r, snd y = flat (snd x) ++ r ++ rest.
Lemma tnodes_props : forall ps o r, tnodes o (ptoks ps ++ r) = tnodes (o + size (ptoks ps)) r.
Proof. induction ps as [|p ps IH]; intros o r; cbn [ptoks map app size tnodes]; [rewrite Z.add_0_r; reflexivity|]. fold (ptoks ps). rewrite IH. f_equal. lia. Qed.
Lemma same_more : forall a rest x y, same (a ++ rest) x y -> same rest x y.
Proof. intros a rest x y [E (r & E2)]. split; [exact E|]. exists (r ++ a). rewrite <- app_assoc. exact E2. Qed.
Lemma tnodes_flat : forall t o rest, exists l, tnodes o (flat t ++ rest) = l ++ tnodes (o + size (flat t)) rest /\ Forall2 (same rest) (nodes o t) l.
Proof.
  induction t as [n ps ks IH] using tree_rec'. intros o rest. rewrite nodes_node.
  assert (F : forall o rest, exists l, tnodes o (forest ks ++ rest) = l ++ tnodes (o + size (forest ks)) rest /\ Forall2 (same rest) (fnodes o ks) l).
  { clear o rest. induction ks as [|k ks IHk]; intros o rest.
    - exists []. split; [cbn [forest flat_map app size]; rewrite Z.add_0_r; reflexivity|constructor].
    - inversion IH as [|? ? H1 H2]; subst. destruct (H1 o (forest ks ++ rest)) as (l1 & E1 & F1). destruct (IHk H2 (o + size (flat k)) rest) as (l2 & E2 & F2).
      exists (l1 ++ l2). cbn [forest flat_map fnodes]. fold (forest ks). rewrite <- app_assoc, E1, E2, size_app, <- app_assoc, Z.add_assoc. split; [reflexivity|].
      apply Forall2_app; [|exact F2]. clear -F1. induction F1; constructor; [exact (same_more _ _ _ _ H)|assumption]. }
  destruct (F (o + t_size (KBegin n) + size (ptoks ps)) (KEnd :: rest)) as (l & E & F').
  exists ((o, flat (Node n ps ks) ++ rest) :: l). split.
  - assert (Es : o + size (flat (Node n ps ks)) = o + t_size (KBegin n) + size (ptoks ps) + size (forest ks) + 4) by (rewrite flat_node; cbn [size]; rewrite !size_app; cbn [size t_size]; lia).
    rewrite Es. rewrite flat_node. cbn [app tnodes]. rewrite <- !app_assoc. cbn [app]. rewrite tnodes_props, E. cbn [tnodes t_size]. reflexivity.
  - constructor; [split; [reflexivity|exists []; reflexivity]|]. clear -F'. induction F'; constructor; [exact (same_more [KEnd] _ _ _ H)|assumption].
Qed.
Lemma find_same : forall (test : list tok -> bool) (p : tree -> bool) rest l1 l2, (forall t r, test (flat t ++ r) = p t) -> Forall2 (same rest) l1 l2 -> first_of test l2 = first_of p l1.
Proof.
  intros test p rest l1 l2 H F. unfold first_of. induction F as [|[o1 t1] [o2 s2] l1 l2 [E (r & E2)] F IH]; [reflexivity|]. cbn [fst snd] in *. subst. cbn [find snd].
  rewrite H. destruct (p t1); [reflexivity|exact IH].
Qed.

(** From the start, and after a node. *)
Lemma search_all : forall test p t, (forall t r, test (flat t ++ r) = p t) -> search test 0 (flat t) = first_of p (nodes 0 t).
Proof.
  intros test p t H. rewrite search_tnodes. destruct (tnodes_flat t 0 []) as (l & E & F). rewrite app_nil_r in E. rewrite E. cbn [tnodes]. rewrite app_nil_r.
  exact (find_same test p [] _ _ H F).
Qed.
Lemma tnodes_split : forall ts o l1 q s l2, tnodes o ts = l1 ++ (q, s) :: l2 -> exists A n r, ts = A ++ KBegin n :: r /\ s = KBegin n :: r /\ q = o + size A /\ l2 = tnodes (q + t_size (KBegin n)) r.
Proof.
  induction ts as [|k ts IH]; intros o l1 q s l2 E; [destruct l1; discriminate|].
  assert (Skip : tnodes (o + t_size k) ts = l1 ++ (q, s) :: l2 -> exists A n r, k :: ts = A ++ KBegin n :: r /\ s = KBegin n :: r /\ q = o + size A /\ l2 = tnodes (q + t_size (KBegin n)) r).
  { intro E'. destruct (IH _ _ _ _ _ E') as (A & n & r & E1 & E2 & E3 & E4). exists (k :: A), n, r. rewrite E1. repeat (split; [assumption || reflexivity|]). split; [cbn [size]; lia|exact E4]. }
  destruct k as [n|n d| |]; try exact (Skip E). cbn [tnodes] in E. destruct l1 as [|x l1]; cbn [app] in E.
  - assert (E1 : (o, KBegin n :: ts) = (q, s)) by congruence. assert (E2 : tnodes (o + t_size (KBegin n)) ts = l2) by congruence. assert (E3 : o = q) by congruence. assert (E4 : KBegin n :: ts = s) by congruence.
    subst. exists [], n, ts. repeat (split; [reflexivity|]). split; [cbn [size]; lia|reflexivity].
  - assert (E' : tnodes (o + t_size (KBegin n)) ts = l1 ++ (q, s) :: l2) by congruence.
    destruct (IH _ _ _ _ _ E') as (A & n' & r & E1 & E2 & E3 & E4). exists (KBegin n :: A), n', r. rewrite E1. repeat (split; [assumption || reflexivity|]). split; [cbn [size]; lia|exact E4].
Qed.
Lemma nodes_split : forall t l1 q x l2, nodes 0 t = l1 ++ (q, x) :: l2 ->
  exists A B r, flat t = A ++ flat x ++ B /\ q = size A /\ flat x ++ B = KBegin (t_name x) :: r /\
    forall test p, (forall t r, test (flat t ++ r) = p t) -> search test (q + t_size (KBegin (t_name x))) r = first_of p l2.
Proof.
  intros t l1 q x l2 E. destruct (tnodes_flat t 0 []) as (l & El & F). rewrite !app_nil_r in El. rewrite E in F.
  apply Forall2_app_inv_l in F. destruct F as (m1 & m2 & F1 & F2 & ->). inversion F2 as [|? [q' s] ? m3 S1 F3]; subst. destruct S1 as [Eq (r0 & Es)]. cbn [fst snd] in Eq, Es. subst q'. rewrite app_nil_r in Es.
  destruct (tnodes_split _ _ _ _ _ _ El) as (A & n & r & Et & Es' & Eqq & Em). rewrite Es in Es'.
  destruct x as [nx px kx]. assert (nx = n) by (rewrite flat_node in Es'; cbn [app] in Es'; congruence). subst nx. cbn [t_name].
  exists A, r0, r. rewrite Et, <- Es'. repeat (split; [reflexivity|]). split; [lia|]. split; [reflexivity|].
  intros test p H. rewrite search_tnodes, <- Em. exact (find_same test p [] _ _ H F3).
Qed.

(** ** Paths *)

Lemma upd_split : forall A (l : list A) i x f, nth_error l i = Some x -> upd l i f = firstn i l ++ f x :: skipn (S i) l.
Proof. induction l as [|y l IH]; intros i x f E; destruct i as [|i]; cbn [nth_error] in E; try discriminate; cbn [upd firstn skipn app]; [congruence|]. f_equal. exact (IH i x f E). Qed.
Lemma nth_split : forall A (l : list A) i x, nth_error l i = Some x -> l = firstn i l ++ x :: skipn (S i) l.
Proof. intros A l i x E. rewrite <- (upd_split A l i x (fun y => y) E). revert i E. induction l as [|y l IH]; intros [|i] E; cbn [nth_error upd] in *; try discriminate; [reflexivity|f_equal; exact (IH i E)]. Qed.
Lemma forest_app : forall a b, forest (a ++ b) = forest a ++ forest b.
Proof. intros. unfold forest. apply flat_map_app. Qed.
Lemma path_split : forall path o t q x, node_at path o t = Some (q, x) ->
  exists A B, flat t = A ++ flat x ++ B /\ q = o + size A /\ forall f, flat (edit path f t) = A ++ flat (f x) ++ B.
Proof.
  induction path as [|i path IH]; intros o t q x E; cbn [node_at edit] in *.
  - apply some_pair_inj in E. destruct E as [<- <-]. exists [], []. cbn [app size]. rewrite app_nil_r. split; [reflexivity|split; [lia|intro f; rewrite app_nil_r; reflexivity]].
  - destruct t as [n ps ks]. destruct (nth_error ks i) as [k|] eqn:Ek; [|discriminate]. destruct (IH _ _ _ _ E) as (A & B & E1 & E2 & E3).
    exists (KBegin n :: ptoks ps ++ forest (firstn i ks) ++ A), (B ++ forest (skipn (S i) ks) ++ [KEnd]). split; [|split].
    + rewrite flat_node. rewrite (nth_split _ ks i k Ek) at 1. rewrite forest_app. change (forest (k :: skipn (S i) ks)) with (flat k ++ forest (skipn (S i) ks)). rewrite E1. cbn [app]. rewrite <- !app_assoc. reflexivity.
    + cbn [size]. rewrite !size_app. rewrite E2, props_size_ok. unfold forest. cbn [t_size]. lia.
    + intro f. rewrite flat_node. rewrite (upd_split _ ks i k _ Ek). rewrite forest_app. change (forest (edit path f k :: skipn (S i) ks)) with (flat (edit path f k) ++ forest (skipn (S i) ks)). rewrite E3. cbn [app]. rewrite <- !app_assoc. reflexivity.
Qed.
Lemma nodes_paths : forall t o q x, In (q, x) (nodes o t) <-> exists path, node_at path o t = Some (q, x).
Proof.
  induction t as [n ps ks IH] using tree_rec'. intros o q x. rewrite nodes_node. cbn [In].
  assert (F : forall o, In (q, x) (fnodes o ks) <-> exists i k path, nth_error ks i = Some k /\ node_at path (o + size (forest (firstn i ks))) k = Some (q, x)).
  { clear o. induction ks as [|k ks IHk]; intro o; cbn [fnodes].
    - split; [intros []|intros (i & k & path & E & _); destruct i; discriminate].
    - inversion IH as [|? ? H1 H2]; subst. rewrite in_app_iff, H1, (IHk H2). split.
      + intros [(path & E)|(i & k' & path & E1 & E2)].
        * exists 0%nat, k, path. split; [reflexivity|]. cbn [firstn forest flat_map size]. rewrite Z.add_0_r. exact E.
        * exists (S i), k', path. split; [exact E1|]. cbn [firstn]. change (forest (k :: firstn i ks)) with (flat k ++ forest (firstn i ks)). rewrite size_app, Z.add_assoc. exact E2.
      + intros (i & k' & path & E1 & E2). destruct i as [|i]; cbn [nth_error firstn] in *.
        * left. exists path. injection E1 as ->. cbn [forest flat_map size] in E2. rewrite Z.add_0_r in E2. exact E2.
        * right. exists i, k', path. split; [exact E1|]. change (forest (k :: firstn i ks)) with (flat k ++ forest (firstn i ks)) in E2. rewrite size_app, Z.add_assoc in E2. exact E2. }
  rewrite F. cbn [t_size]. split.
  - intros [E|(i & k & path & E1 & E2)].
    + exists []. cbn [node_at]. congruence.
    + exists (i :: path). cbn [node_at]. rewrite E1, props_size_ok. rewrite Z.add_assoc in E2. exact E2.
  - intros (path & E). destruct path as [|i path]; cbn [node_at] in E; [left; congruence|right].
    destruct (nth_error ks i) as [k|] eqn:Ek; [|discriminate]. exists i, k, path. split; [exact Ek|]. rewrite props_size_ok in E. rewrite Z.add_assoc. exact E.
Qed.

(** ** The blob *)

Lemma h32_holds : forall b i v l, holds b (4 * Z.of_nat i) (be32 v ++ l) -> 0 <= v < 2 ^ 32 -> h32 b i = v.
Proof.
  intros b i v l H V. unfold h32. apply holds_l in H. pose proof (holds_lds _ _ _ H) as E. rewrite be32_len in E. unfold lds in E. change (4 <=? 0) with false in E. cbn iota in E.
  destruct ((4 * Z.of_nat i <? 0) || (zlen b <? 4 * Z.of_nat i + 4)); [discriminate|]. assert (E' : sub b (Z.to_nat (4 * Z.of_nat i)) (Z.to_nat 4) = be32 v) by congruence.
  replace (Z.to_nat (4 * Z.of_nat i)) with (4 * i)%nat in E' by lia. change (Z.to_nat 4) with 4%nat in E'. rewrite E'. apply be_val_be32. exact V.
Qed.
Lemma header_len : forall a b c d e f g h, zlen (header a b c d e f g h) = 40.
Proof. reflexivity. Qed.
Lemma header_fields : forall b tot os oss rsv comp cpu sss ss r, b = header tot os oss rsv comp cpu sss ss ++ r ->
  0 <= tot < 2 ^ 32 -> 0 <= os < 2 ^ 32 -> 0 <= oss < 2 ^ 32 -> 0 <= comp < 2 ^ 32 -> 0 <= sss < 2 ^ 32 -> 0 <= ss < 2 ^ 32 ->
  magic b = 0xD00DFEED /\ totalsize b = tot /\ off_struct b = os /\ off_strings b = oss /\ version b = 17 /\ last_comp b = comp /\ size_strings b = sss /\ size_struct b = ss.
Proof.
  intros b tot os oss rsv comp cpu sss ss r E H1 H2 H3 H4 H5 H6.
  assert (H : holds b 0 (header tot os oss rsv comp cpu sss ss ++ r)) by (exists [], []; rewrite app_nil_r; split; [exact E|reflexivity]).
  unfold header in H. rewrite <- !app_assoc in H.
  pose proof H as A0. apply (holds_r _ _ _ _ 4) in H; [|reflexivity]. pose proof H as A1. apply (holds_r _ _ _ _ 8) in H; [|reflexivity]. pose proof H as A2.
  apply (holds_r _ _ _ _ 12) in H; [|reflexivity]. pose proof H as A3. apply (holds_r _ _ _ _ 16) in H; [|reflexivity]. apply (holds_r _ _ _ _ 20) in H; [|reflexivity]. pose proof H as A5.
  apply (holds_r _ _ _ _ 24) in H; [|reflexivity]. pose proof H as A6. apply (holds_r _ _ _ _ 28) in H; [|reflexivity]. apply (holds_r _ _ _ _ 32) in H; [|reflexivity]. pose proof H as A8.
  apply (holds_r _ _ _ _ 36) in H; [|reflexivity]. pose proof H as A9.
  repeat split; eapply h32_holds; try eassumption; lia.
Qed.

Lemma are_toks_size : forall strs ts l, are_toks strs ts l -> zlen l = size ts.
Proof. intros strs ts. induction ts as [|k ts IH]; intros l H; cbn [are_toks size] in *; [subst; reflexivity|]. destruct H as (l1 & l2 & -> & [E _] & H). zs. rewrite E, (IH _ H). reflexivity. Qed.
Lemma are_toks_app : forall strs a b l, are_toks strs (a ++ b) l <-> exists l1 l2, l = l1 ++ l2 /\ are_toks strs a l1 /\ are_toks strs b l2.
Proof.
  intros strs a. induction a as [|k a IH]; intros b l; cbn [app are_toks].
  - split; [intro H; exists [], l; auto|intros (l1 & l2 & -> & -> & H); exact H].
  - split.
    + intros (l1 & l2 & -> & K & H). apply IH in H. destruct H as (m1 & m2 & -> & H1 & H2). exists (l1 ++ m1), m2. rewrite app_assoc. split; [reflexivity|]. split; [exists l1, m1; auto|exact H2].
    + intros (l1 & l2 & -> & (m1 & m2 & -> & K & H1) & H2). exists m1, (m2 ++ l2). rewrite app_assoc. split; [reflexivity|]. split; [exact K|]. apply IH. exists m2, l2. auto.
Qed.
Lemma placed_of : forall b strs os ss ts l o, are_toks strs ts l -> Forall good_tok ts -> holds b (os + o) l -> o + zlen l <= ss -> placed b strs os ss o ts.
Proof.
  intros b strs os ss ts. induction ts as [|k ts IH]; intros l o T Gk H L; [exact I|]. cbn [are_toks] in T. destruct T as (l1 & l2 & -> & K & T). zsi L. pose proof (zlen_nn _ l2).
  inversion Gk; subst. pose proof K as [Lk _]. cbn [placed]. split; [exists l1; split; [exact K|split; [exact (holds_l _ _ _ _ H)|assumption]]|]. split; [lia|].
  apply (IH l2); try assumption; [|lia]. apply (holds_r _ _ _ _ (os + (o + t_size k))) in H; [exact H|lia].
Qed.

(** What reading needs. *)
Record readable (b : blob) (d : dt) (used : Z) (strs : list Z) (oss ss : Z) : Prop := mkR {
  r_geo : geo b (40 + zlen (d_pre d)) ss (d_total d); r_strs : off_strings b = oss; r_holds : holds b oss strs; r_head : check_header b = 0;
  r_len : zlen b < 2 ^ 31; r_placed : placed b strs (40 + zlen (d_pre d)) ss 0 (flat (d_tree d) ++ [KFin]); r_ssz : size_strings b = zlen strs; r_used : used = oss + zlen strs;
  r_size : ss = size (flat (d_tree d)) + 4; r_fuel : (length (flat (d_tree d)) + 10 < length b)%nat
}.
Lemma dtb_readable : forall b d used, dtb b d used -> exists strs oss ss, readable b d used strs oss ss.
Proof.
  intros b d used (st & gap & strs & slack & Eb & Eu & [L1 L2] & L3 & R1 & R2 & R3 & B & Gt & T). cbv zeta in *.
  set (os := 40 + zlen (d_pre d)) in *. set (oss := os + zlen st + zlen gap) in *.
  pose proof (zlen_nn _ (d_pre d)) as N1. pose proof (zlen_nn _ st) as N2. pose proof (zlen_nn _ gap) as N3. pose proof (zlen_nn _ strs) as N4. pose proof (zlen_nn _ slack) as N5.
  destruct (header_fields b (d_total d) os oss (d_rsv d) (d_comp d) (d_cpu d) (zlen strs) (zlen st) _ Eb) as (F0 & F1 & F2 & F3 & F4 & F5 & F6 & F7); try lia.
  assert (H : holds b 0 (header (d_total d) os oss (d_rsv d) (d_comp d) (d_cpu d) (zlen strs) (zlen st) ++ d_pre d ++ st ++ gap ++ strs ++ slack)) by (exists [], []; rewrite app_nil_r; split; [exact Eb|reflexivity]).
  apply (holds_r _ _ _ _ 40) in H; [|reflexivity]. apply (holds_r _ _ _ _ os) in H; [|lia]. pose proof (holds_l _ _ _ _ H) as Hst. apply (holds_r _ _ _ _ (os + zlen st)) in H; [|lia].
  apply (holds_r _ _ _ _ oss) in H; [|lia]. apply holds_l in H. pose proof (are_toks_size _ _ _ T) as Sz. rewrite size_app in Sz. cbn [size t_size] in Sz.
  exists strs, oss, (zlen st). constructor; try assumption.
  - constructor; try assumption; lia.
  - unfold check_header. rewrite F0, F4, F5. change (0xD00DFEED =? FDT_MAGIC) with true. cbn iota. change (17 <? 0x10) with false. cbn iota. destruct (Z.ltb_spec 0x11 (d_comp d)); [lia|reflexivity].
  - apply (placed_of b strs os (zlen st) _ st 0 T); [apply Forall_app; split; [exact Gt|repeat constructor]|rewrite Z.add_0_r; exact Hst|lia].
  - pose proof (size_ge (flat (d_tree d))) as Sg. pose proof (zlen_nn _ (flat (d_tree d))).
    assert (Lb : 44 + size (flat (d_tree d)) <= zlen b) by (rewrite Eb; zs; rewrite header_len; lia).
    clear -Lb Sg. unfold zlen in *. lia.
Qed.
