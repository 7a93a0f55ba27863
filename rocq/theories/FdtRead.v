(** Lookups in a blob that holds a device tree. *)
From Verif Require Import Base BaseLemmas StringModel FdtModel FdtSpec FdtProofs FdtTree.
Local Ltac Zify.zify_post_hook ::= idtac.

Lemma pos0 : pos_ok 0.
Proof. split; [lia|reflexivity]. Qed.
Lemma suffix_no_fin : forall A r t, flat t = A ++ r -> ~ In KFin r.
Proof. intros A r t E I. apply (flat_no_fin t). rewrite E. apply in_or_app. right. exact I. Qed.
Lemma suffix_well : forall A r t, flat t = A ++ r -> well r.
Proof.
  intros A r t E pre n r' E'. pose proof (well_flat t [] well_nil) as W. rewrite app_nil_r in W. apply (W (A ++ pre) n r'). rewrite E, E', <- app_assoc. reflexivity.
Qed.
Lemma find_prop_get : forall name ps k rest o, (k = KEnd \/ exists n, k = KBegin n) ->
  match prop_get ps name with
  | Some d => exists a, find_prop name o (ptoks ps ++ k :: rest) = Some (a, d)
  | None => find_prop name o (ptoks ps ++ k :: rest) = None
  end.
Proof.
  intros name ps k rest o K. revert o. induction ps as [|[n d] ps IH]; intro o; cbn [prop_get ptoks map app find_prop fst snd].
  - destruct K as [ -> |[n -> ]]; reflexivity.
  - destruct (seqb n name); [exists o; reflexivity|]. apply (IH (o + t_size (KProp n d))).
Qed.
Lemma node_tail : forall ks rest, exists k r, forest ks ++ KEnd :: rest = k :: r /\ (k = KEnd \/ exists n, k = KBegin n).
Proof.
  intros [|[n ps ks'] ks] rest; [exists KEnd, rest; split; [reflexivity|left; reflexivity]|].
  exists (KBegin n), ((ptoks ps ++ forest ks' ++ [KEnd]) ++ forest ks ++ KEnd :: rest). split; [|right; exists n; reflexivity].
  change (forest (Node n ps ks' :: ks)) with (flat (Node n ps ks') ++ forest ks). rewrite flat_node. cbn [app]. rewrite <- !app_assoc. reflexivity.
Qed.
Lemma flat_tail : forall t r, flat t ++ r = KBegin (t_name t) :: ptoks (t_props t) ++ forest (t_kids t) ++ KEnd :: r.
Proof. intros [n ps ks] r. rewrite flat_node. cbn [app t_name t_props t_kids]. rewrite <- !app_assoc. reflexivity. Qed.
Lemma prop_test_flat : forall name test t r, prop_test name test (flat t ++ r) = match prop_get (t_props t) name with Some d => test d | None => false end.
Proof.
  intros name test t r. rewrite flat_tail. cbn [prop_test]. destruct (node_tail (t_kids t) r) as (k & r' & -> & K).
  pose proof (find_prop_get name (t_props t) k r' 0 K) as F. destruct (prop_get (t_props t) name) as [d|]; [destruct F as [a ->]; reflexivity|rewrite F; reflexivity].
Qed.
Lemma named_flat : forall name t r, named name (flat t ++ r) = seqb (t_name t) name.
Proof. intros name t r. rewrite flat_tail. reflexivity. Qed.

Section lookups.
Context (b : blob) (d : dt) (used : Z) (D : dtb b d used).

Lemma step_from : forall strs oss ss start l, readable b d used strs oss ss -> from d start l -> exists o ts,
  (forall fuel, (length b <= fuel)%nat -> next_node fuel b start None = Val (next_off (first_node o ts), None)) /\
  pos_ok o /\ placed b strs (40 + zlen (d_pre d)) ss o (ts ++ [KFin]) /\ ~ In KFin ts /\ well ts /\ (forall k, In k ts -> In k (flat (d_tree d))) /\ (length ts + 10 < length b)%nat /\
  forall test p, (forall t r, test (flat t ++ r) = p t) -> search test o ts = first_of p l.
Proof.
  intros strs oss ss start l R F. pose proof (r_fuel _ _ _ _ _ _ R) as RF. destruct F as [start S0|l1 q x l2 E].
  - exists 0, (flat (d_tree d)). assert (N := flat_no_fin (d_tree d)). split; [|split; [exact pos0|split; [exact (r_placed _ _ _ _ _ _ R)|split; [exact N|]]]].
    + intros fuel Ff. unfold next_node. destruct (Z.leb_spec 0 start); [lia|].
      apply (next_node_loop_ok b strs (40 + zlen (d_pre d)) ss (d_total d) (r_geo _ _ _ _ _ _ R) (flat (d_tree d)) fuel 0 pos0 (r_placed _ _ _ _ _ _ R) N). lia.
    + split; [apply (suffix_well [] _ (d_tree d)); reflexivity|]. split; [auto|]. split; [exact RF|]. intros test p H. apply search_all. exact H.
  - destruct (nodes_split _ _ _ _ _ E) as (A & B & r & Et & Eq & Er & S1). exists (q + t_size (KBegin (t_name x))), r.
    rewrite Er in Et. assert (Et' : flat (d_tree d) = (A ++ [KBegin (t_name x)]) ++ r) by (rewrite Et, <- app_assoc; reflexivity).
    assert (N := suffix_no_fin _ _ _ Et'). pose proof (r_placed _ _ _ _ _ _ R) as P. rewrite Et in P. rewrite <- app_assoc in P. apply placed_app in P. destruct P as [_ P]. rewrite Z.add_0_l, <- Eq in P. cbn [app] in P.
    assert (Pq : pos_ok q) by (rewrite Eq; rewrite <- (Z.add_0_l (size A)); apply pos_size; exact pos0).
    assert (Lr : (length r <= length (flat (d_tree d)))%nat) by (rewrite Et'; rewrite !app_length; lia).
    split; [|split; [apply pos_next; exact Pq|split; [apply P|split; [exact N|]]]].
    + intros fuel Ff. apply (next_node_ok b strs (40 + zlen (d_pre d)) ss (d_total d) (r_geo _ _ _ _ _ _ R) (t_name x) r fuel q Pq P N). lia.
    + split; [exact (suffix_well _ _ _ Et')|]. split; [intros k I; rewrite Et'; apply in_or_app; right; exact I|]. split; [lia|]. exact S1.
Qed.

Lemma find_node_tree : forall fuel start l name, (length b <= fuel)%nat -> cstr name -> from d start l ->
  find_node_offset fuel b start name = Val (first_of (fun t => seqb (t_name t) name) l).
Proof.
  intros fuel start l name Ff Cn F. destruct (dtb_readable _ _ _ D) as (strs & oss & ss & R).
  destruct (step_from _ _ _ _ _ R F) as (o & ts & En & P & Pl & N & W & _ & Lt & S1). unfold find_node_offset. rewrite (En fuel Ff). cbn [obind].
  rewrite <- (S1 (named name) _ (named_flat name)).
  apply (find_node_loop_ok b strs _ ss (d_total d) (r_geo _ _ _ _ _ _ R) (r_head _ _ _ _ _ _ R) name Cn (r_len _ _ _ _ _ _ R) (length ts)); try assumption; lia.
Qed.
Lemma find_prop_tree : forall fuel start l name val, (length b <= fuel)%nat -> cstr name -> cstr val -> from d start l ->
  find_prop_offset fuel b start name val = Val (first_of (fun t => match prop_get (t_props t) name with Some v => seqb v (val ++ [0]) | None => false end) l).
Proof.
  intros fuel start l name val Ff Cn Cv F. destruct (dtb_readable _ _ _ D) as (strs & oss & ss & R).
  destruct (step_from _ _ _ _ _ R F) as (o & ts & En & P & Pl & N & W & _ & Lt & S1). unfold find_prop_offset. rewrite (En fuel Ff). cbn [obind].
  rewrite <- (S1 _ _ (prop_test_flat name (fun v => seqb v (val ++ [0])))).
  apply (find_prop_loop_ok b strs _ oss ss (d_total d) (r_geo _ _ _ _ _ _ R) (r_strs _ _ _ _ _ _ R) (r_holds _ _ _ _ _ _ R) name val Cn Cv (r_len _ _ _ _ _ _ R) (length ts)); try assumption; lia.
Qed.
Lemma flat_props : forall t n v, In (KProp n v) (flat t) -> exists o x, In (o, x) (nodes 0 t) /\ In (n, v) (t_props x).
Proof.
  intro t. generalize 0. induction t as [m ps ks IH] using tree_rec'. intros o n v I. rewrite flat_node in I. cbn [In] in I. destruct I as [I|I]; [discriminate|].
  rewrite nodes_node. apply in_app_or in I. destruct I as [I|I].
  - unfold ptoks in I. apply in_map_iff in I. destruct I as ([n' v'] & E & I). cbn [fst snd] in E. injection E as -> ->. exists o, (Node m ps ks). split; [left; reflexivity|exact I].
  - apply in_app_or in I. destruct I as [I|[I|[]]]; [|discriminate].
    assert (X : forall o, In (KProp n v) (forest ks) -> exists q x, In (q, x) (fnodes o ks) /\ In (n, v) (t_props x)).
    { clear -IH. induction ks as [|k ks IHk]; intros o I; [destruct I|]. inversion IH as [|? ? H1 H2]; subst. change (forest (k :: ks)) with (flat k ++ forest ks) in I. apply in_app_or in I. cbn [fnodes]. destruct I as [I|I].
      - destruct (H1 o n v I) as (q & x & A & B). exists q, x. split; [apply in_or_app; left; exact A|exact B].
      - destruct (IHk H2 (o + size (flat k)) I) as (q & x & A & B). exists q, x. split; [apply in_or_app; right; exact A|exact B]. }
    destruct (X (o + t_size (KBegin m) + size (ptoks ps)) I) as (q & x & A & B). exists q, x. split; [right; exact A|exact B].
Qed.
Lemma by_compatible_tree : forall fuel start l s, (length b <= fuel)%nat -> cstr s -> s <> [] -> from d start l ->
  (forall o x v, In (o, x) (nodes 0 (d_tree d)) -> In (s_compatible, v) (t_props x) -> string_list v) ->
  node_offset_by_compatible fuel b start s = Val (first_of (fun t => match prop_get (t_props t) s_compatible with Some v => has_word s v | None => false end) l).
Proof.
  intros fuel start l s Ff Cs Ns F K. destruct (dtb_readable _ _ _ D) as (strs & oss & ss & R).
  destruct (step_from _ _ _ _ _ R F) as (o & ts & En & P & Pl & N & W & Sub & Lt & S1). unfold node_offset_by_compatible. rewrite (En fuel Ff). cbn [obind].
  rewrite <- (S1 _ _ (prop_test_flat s_compatible (has_word s))).
  apply (by_compatible_loop_ok b strs _ oss ss (d_total d) (r_geo _ _ _ _ _ _ R) (r_strs _ _ _ _ _ _ R) (r_holds _ _ _ _ _ _ R) s Cs Ns (r_len _ _ _ _ _ _ R) (length ts)); try assumption; try lia.
  intros n v I ->. destruct (flat_props _ _ _ (Sub _ I)) as (q & x & A & B). exact (K q x v A B).
Qed.

(** The tokens from a node on. *)
Lemma at_node : forall strs oss ss q x, readable b d used strs oss ss -> In (q, x) (nodes 0 (d_tree d)) ->
  exists r, pos_ok q /\ placed b strs (40 + zlen (d_pre d)) ss q (KBegin (t_name x) :: ptoks (t_props x) ++ forest (t_kids x) ++ KEnd :: r) /\
    (length (ptoks (t_props x) ++ forest (t_kids x) ++ KEnd :: r) + 8 < length b)%nat /\ q + size (flat x) + 4 <= ss.
Proof.
  intros strs oss ss q x R I. apply in_split in I. destruct I as (l1 & l2 & E). destruct (nodes_split _ _ _ _ _ E) as (A & B & r & Et & Eq & _ & _).
  exists (B ++ [KFin]). pose proof (r_placed _ _ _ _ _ _ R) as P. rewrite Et in P. rewrite <- !app_assoc in P. apply placed_app in P. destruct P as [_ P]. rewrite Z.add_0_l, <- Eq in P. rewrite flat_tail in P.
  split; [rewrite Eq; rewrite <- (Z.add_0_l (size A)); apply pos_size; exact pos0|]. split; [exact P|]. split.
  - pose proof (r_fuel _ _ _ _ _ _ R) as RF. rewrite Et in RF. pose proof (f_equal (@length tok) (flat_tail x (B ++ [KFin]))) as El. rewrite !app_length in RF, El. cbn [length] in El.
    rewrite app_length in El. rewrite app_length. cbn [length] in *. lia.
  - pose proof (r_size _ _ _ _ _ _ R) as RS. rewrite Et, !size_app in RS. pose proof (size_ge B). pose proof (zlen_nn _ B). lia.
Qed.
Lemma getprop_tree : forall fuel q x name, (length b <= fuel)%nat -> cstr name -> In (q, x) (nodes 0 (d_tree d)) ->
  match prop_get (t_props x) name with
  | Some v => exists a, getprop fuel b q name = Val (Some a, zlen v) /\ holds b a v /\ a + zlen v <= d_total d /\ 40 < a /\ all_bytes v
  | None => getprop fuel b q name = Val (None, -6)
  end.
Proof.
  intros fuel q x name Ff Cn I. destruct (dtb_readable _ _ _ D) as (strs & oss & ss & R). destruct (at_node _ _ _ _ _ R I) as (r & P & Pl & Lf & _).
  destruct (node_tail (t_kids x) r) as (k & r' & E & K).
  pose proof (getprop_ok b strs _ oss ss (d_total d) (r_geo _ _ _ _ _ _ R) (r_strs _ _ _ _ _ _ R) (r_holds _ _ _ _ _ _ R) name Cn (r_len _ _ _ _ _ _ R) (t_name x) _ fuel q P Pl) as Gp.
  specialize (Gp (props_then_node _ _ _)). specialize (Gp ltac:(lia)). rewrite E in Gp, Pl.
  pose proof (find_prop_get name (t_props x) k r' (q + t_size (KBegin (t_name x))) K) as F. destruct (prop_get (t_props x) name) as [v|].
  - destruct F as [a Ea]. rewrite Ea in Gp. exists (40 + zlen (d_pre d) + a + 12). split; [exact Gp|].
    destruct Pl as (_ & _ & Pl). destruct (find_prop_placed b strs _ ss name _ _ a v (pos_next _ _ P) Pl Ea) as ([A0 _] & A & B & C & F).
    pose proof (r_geo _ _ _ _ _ _ R) as G. pose proof (g_fit _ _ _ _ G). pose proof (up4_ge (zlen v)). pose proof (zlen_nn _ (d_pre d)). split; [exact A|]. split; [lia|]. split; [lia|]. exact B.
  - rewrite F in Gp. exact Gp.
Qed.
Lemma getprop_address_tree : forall fuel q x name, (length b <= fuel)%nat -> cstr name -> In (q, x) (nodes 0 (d_tree d)) ->
  getprop_address fuel b q name = Val (match prop_get (t_props x) name with Some v => if (zlen v =? 8) || (zlen v =? 4) then be_val v else 0 | None => 0 end).
Proof.
  intros fuel q x name Ff Cn I. pose proof (getprop_tree fuel q x name Ff Cn I) as Gp. unfold getprop_address. destruct (prop_get (t_props x) name) as [v|].
  - destruct Gp as (a & -> & H & _). cbn [obind]. destruct ((zlen v =? 8) || (zlen v =? 4)); [|reflexivity]. rewrite (holds_lds _ _ _ H). reflexivity.
  - rewrite Gp. reflexivity.
Qed.
Lemma get_name_tree : forall q x, In (q, x) (nodes 0 (d_tree d)) -> exists a, get_name b q = Val (Some a, zlen (t_name x)) /\ holds b a (t_name x ++ [0]) /\ cstr (t_name x).
Proof.
  intros q x I. destruct (dtb_readable _ _ _ D) as (strs & oss & ss & R). destruct (at_node _ _ _ _ _ R I) as (r & P & Pl & Lf & _).
  destruct (get_name_ok b strs _ ss (d_total d) (r_geo _ _ _ _ _ _ R) (r_head _ _ _ _ _ _ R) q _ _ P Pl (r_len _ _ _ _ _ _ R)) as (A & B & C). eexists. eauto.
Qed.
Lemma first_of_in : forall (p : tree -> bool) l, 0 <= first_of p l -> exists x, In (first_of p l, x) l /\ p x = true.
Proof.
  intros p l. unfold first_of. destruct (find (fun x => p (snd x)) l) as [[o x]|] eqn:E; intro H; [|lia]. apply find_some in E. exists x. exact E.
Qed.
End lookups.
