(** The editing functions on a blob that holds a device tree. *)
From Verif Require Import Base BaseLemmas StringModel FdtModel FdtSpec FdtProofs FdtTree FdtRead FdtEdit.
Local Ltac Zify.zify_post_hook ::= idtac.

Ltac napp := repeat (progress (rewrite <- ?app_assoc; cbn [app])).

Lemma prop_get_split : forall name ps v, prop_get ps name = Some v ->
  exists ps1 ps2, ps = ps1 ++ (name, v) :: ps2 /\ (forall new, prop_replace ps name new = ps1 ++ (name, new) :: ps2) /\
    forall o rest, find_prop name o (ptoks ps ++ rest) = Some (o + size (ptoks ps1), v).
Proof.
  intros name ps. induction ps as [|[n d] ps IH]; intros v E; cbn [prop_get] in E; [discriminate|]. destruct (seqb n name) eqn:S1.
  - assert (d = v) by congruence. subst d. apply seqb_eq in S1. subst n. exists [], ps. split; [reflexivity|]. split.
    + intro new. cbn [prop_replace app]. rewrite seqb_refl. reflexivity.
    + intros o rest. cbn [ptoks map app find_prop fst snd size]. rewrite seqb_refl, Z.add_0_r. reflexivity.
  - destruct (IH v E) as (ps1 & ps2 & E1 & E2 & E3). exists ((n, d) :: ps1), ps2. split; [rewrite E1; reflexivity|]. split.
    + intro new. cbn [prop_replace app]. rewrite S1, E2. reflexivity.
    + intros o rest. cbn [ptoks map app find_prop fst snd size]. rewrite S1. fold (ptoks ps). fold (ptoks ps1). rewrite E3. do 2 f_equal. lia.
Qed.
Lemma ptoks_app : forall a b, ptoks (a ++ b) = ptoks a ++ ptoks b.
Proof. intros. unfold ptoks. apply map_app. Qed.
Lemma good_ptoks : forall ps, Forall good_tok (ptoks ps) <-> Forall (fun p => cstr (fst p) /\ all_bytes (snd p)) ps.
Proof. induction ps as [|p ps IH]; cbn [ptoks map]; [split; constructor|]. fold (ptoks ps). split; intro H; inversion H; subst; constructor; try assumption; tauto. Qed.

Lemma insert_node_ok : forall b d gap strs slack st A B name p, raw b d st gap strs slack -> are_toks strs (A ++ B) st -> cstr name -> p = 40 + zlen (d_pre d) + size A ->
  let sz := up4 (zlen name + 1) in
  (d_total d < uses d st gap strs + 8 + sz /\ splice_struct b p 0 (4 + sz + 4) = Val (ERR_NOSPACE, b)) \/
  exists b1 b2 b3 b4 b5 st' slack', splice_struct b p 0 (4 + sz + 4) = Val (0, b1) /\ stb b1 p (be32 1) = Val b2 /\ stb b2 (p + 4) (repeat 0 (Z.to_nat sz)) = Val b3 /\ stb b3 (p + 4) name = Val b4 /\
    stb b4 (p + (4 + sz + 4) - 4) (be32 2) = Val b5 /\ raw b5 d st' gap strs slack' /\ are_toks strs (A ++ KBegin name :: KEnd :: B) st' /\ same_tail (d_total d) b b5 /\ uses d st gap strs + 8 + sz <= d_total d /\
    zlen st' = zlen st + 8 + sz.
Proof.
  intros b d gap strs slack st A B name p R T Cn -> sz. apply are_toks_app in T. destruct T as (s1 & s2 & -> & TA & TB).
  pose proof (are_toks_size _ _ _ TA) as SA. pose proof (zlen_nn _ name) as Nv. pose proof (up4_ge (zlen name + 1)) as Uv. fold sz in Uv.
  pose proof (splice_struct_ok b d s1 [] s2 gap strs slack (4 + sz + 4) (40 + zlen (d_pre d) + size A) R ltac:(lia) ltac:(lia)) as S1. rewrite zlen_nil in S1. cbn [app] in S1.
  replace (uses d (s1 ++ s2) gap strs - 0 + (4 + sz + 4)) with (uses d (s1 ++ s2) gap strs + 8 + sz) in S1 by lia.
  destruct (Z.ltb_spec (d_total d) (uses d (s1 ++ s2) gap strs + 8 + sz)) as [Full|Room]; [left; split; [exact Full|exact S1]|right].
  destruct S1 as (mid & slack' & b1 & E1 & Lm & R1 & T1).
  destruct (split_at _ mid 4) as (m1 & x1 & Ex1 & L1); [lia|]. assert (Lx1 : zlen x1 = sz + 4) by (rewrite Ex1 in Lm; zsi Lm; lia).
  destruct (split_at _ x1 sz) as (m2 & m3 & Ex2 & L2); [lia|]. assert (Lx2 : zlen m3 = 4) by (rewrite Ex2 in Lx1; zsi Lx1; lia). subst mid x1.
  set (q := 40 + zlen (d_pre d) + size A) in *.
  assert (R1' : raw b1 d (s1 ++ m1 ++ (m2 ++ m3 ++ s2)) gap strs slack') by (rewrite <- !app_assoc in R1; exact R1).
  destruct (raw_stb b1 d s1 m1 _ (be32 1) gap strs slack' q R1' ltac:(rewrite be32_len; lia) (be32_bytes _) ltac:(lia)) as (b2 & E2 & R2 & T2).
  assert (R2' : raw b2 d ((s1 ++ be32 1) ++ m2 ++ (m3 ++ s2)) gap strs slack') by (revert R2; rewrite <- !app_assoc; exact (fun X => X)).
  assert (Lz : forall z, 0 <= z -> zlen (repeat 0 (Z.to_nat z)) = z) by (intros z Hz; unfold zlen; rewrite repeat_length; lia).
  assert (Bz : forall n, all_bytes (repeat 0 n)) by (intro n; apply Forall_forall; intros y Hy; apply repeat_spec in Hy; subst y; unfold is_byte; lia).
  destruct (raw_stb b2 d (s1 ++ be32 1) m2 _ (repeat 0 (Z.to_nat sz)) gap strs slack' (q + 4) R2' ltac:(rewrite Lz; lia) (Bz _) ltac:(zs; rewrite be32_len; lia)) as (b3 & E3 & R3 & T3).
  assert (Ez : repeat 0 (Z.to_nat sz) = repeat 0 (length name) ++ [0] ++ repeat 0 (Z.to_nat (sz - zlen name - 1))).
  { replace (Z.to_nat sz) with (length name + (1 + Z.to_nat (sz - zlen name - 1)))%nat by (unfold zlen in *; lia). rewrite !repeat_app. reflexivity. }
  set (pad := repeat 0 (Z.to_nat (sz - zlen name - 1))) in *. assert (Lp : zlen pad = sz - zlen name - 1) by (apply Lz; lia).
  assert (R3' : raw b3 d ((s1 ++ be32 1) ++ repeat 0 (length name) ++ ([0] ++ pad ++ m3 ++ s2)) gap strs slack') by (revert R3; rewrite Ez, <- !app_assoc; exact (fun X => X)).
  destruct (raw_stb b3 d (s1 ++ be32 1) (repeat 0 (length name)) _ name gap strs slack' (q + 4) R3' ltac:(unfold zlen; rewrite repeat_length; reflexivity) (cstr_bytes _ Cn) ltac:(zs; rewrite be32_len; lia)) as (b4 & E4 & R4 & T4).
  assert (R4' : raw b4 d ((s1 ++ be32 1 ++ name ++ [0] ++ pad) ++ m3 ++ s2) gap strs slack') by (revert R4; rewrite <- !app_assoc; exact (fun X => X)).
  destruct (raw_stb b4 d (s1 ++ be32 1 ++ name ++ [0] ++ pad) m3 s2 (be32 2) gap strs slack' (q + (4 + sz + 4) - 4) R4' ltac:(rewrite be32_len; lia) (be32_bytes _) ltac:(zs; rewrite !be32_len; lia)) as (b5 & E5 & R5 & T5).
  eexists b1, b2, b3, b4, b5, _, slack'. do 5 (split; [eassumption|]). split; [exact R5|].
  split; [|split; [|split; [exact Room|]]].
  - apply are_toks_app. exists s1, ((be32 1 ++ name ++ [0] ++ pad) ++ be32 2 ++ s2). split; [rewrite <- !app_assoc; reflexivity|]. split; [exact TA|].
    cbn [are_toks]. eexists _, (be32 2 ++ s2). split; [reflexivity|]. split; [split; [zs; rewrite !be32_len; cbn [t_size]; fold sz; lia|exists pad; reflexivity]|].
    exists (be32 2), s2. split; [reflexivity|]. split; [split; reflexivity|exact TB].
  - exact (same_tail_trans _ _ _ _ T1 (same_tail_trans _ _ _ _ T2 (same_tail_trans _ _ _ _ T3 (same_tail_trans _ _ _ _ T4 T5)))).
  - zs. rewrite !be32_len. lia.
Qed.
Lemma node_at_last : forall path o t i q' k, node_at (path ++ [i]) o t = Some (q', k) <->
  exists q n ps ks, node_at path o t = Some (q, Node n ps ks) /\ nth_error ks i = Some k /\ q' = q + t_size (KBegin n) + size (ptoks ps) + size (forest (firstn i ks)).
Proof.
  induction path as [|j path IH]; intros o [n ps ks] i q' k; cbn [app node_at].
  - split.
    + destruct (nth_error ks i) as [k'|] eqn:E; [|discriminate]. intro H. apply some_pair_inj in H. destruct H as [<- <-]. exists o, n, ps, ks. split; [reflexivity|]. split; [exact E|]. rewrite props_size_ok. cbn [t_size]. unfold forest. lia.
    + intros (q & n' & ps' & ks' & E1 & E2 & E3). apply some_pair_inj in E1. destruct E1 as [<- E1]. injection E1 as <- <- <-. rewrite E2. do 2 f_equal. rewrite E3, props_size_ok. cbn [t_size]. unfold forest. lia.
  - destruct (nth_error ks j) as [k'|]; [apply IH|]. split; [discriminate|]. intros (? & ? & ? & ? & E & _). discriminate.
Qed.

Lemma node_at_edit : forall path f o t q x, node_at path o t = Some (q, x) -> node_at path o (edit path f t) = Some (q, f x).
Proof.
  induction path as [|i path IH]; intros f o [n ps ks] q x E; cbn [node_at edit] in *; [apply some_pair_inj in E; destruct E as [<- <-]; reflexivity|].
  destruct (nth_error ks i) as [k|] eqn:Ek; [|discriminate].
  assert (E1 : forall (g : tree -> tree) l i k, nth_error l i = Some k -> nth_error (upd l i g) i = Some (g k) /\ firstn i (upd l i g) = firstn i l).
  { clear. intros g l. induction l as [|y l IH]; intros [|i] k E; cbn [nth_error upd firstn] in *; try discriminate; [split; congruence|]. destruct (IH i k E) as [H1 H2]. split; [exact H1|]. f_equal. exact H2. }
  destruct (E1 (edit path f) ks i k Ek) as [H1 H2]. rewrite H1, H2. apply IH. exact E.
Qed.

Section edits.
Context (b : blob) (d : dt) (used : Z) (D : dtb b d used) (fuel : nat) (Ff : (length b <= fuel)%nat).
Context (path : list nat) (q : Z) (x : tree) (At : node_at path 0 (d_tree d) = Some (q, x)).

Lemma total_bounds : 44 <= used /\ used <= d_total d /\ d_total d < 2 ^ 31.
Proof.
  pose proof D as D'. apply dtb_raw in D'. destruct D' as (st & gap & strs & slack & R & Eu & Gt & T). pose proof R as (_ & L1 & L2 & _). cbv zeta in L1. unfold uses in Eu.
  pose proof (are_toks_size _ _ _ T) as Sz. rewrite size_app in Sz. cbn [size t_size] in Sz. pose proof (size_ge (flat (d_tree d))). pose proof (zlen_nn _ (flat (d_tree d))).
  pose proof (zlen_nn _ (d_pre d)). pose proof (zlen_nn _ gap). pose proof (zlen_nn _ strs). lia.
Qed.
Lemma get_property_tree : forall name, cstr name ->
  get_property fuel b q name = Val (match prop_get (t_props x) name with
    | Some v => match find_prop name (q + t_size (KBegin (t_name x))) (ptoks (t_props x) ++ []) with Some (o, _) => Found (40 + zlen (d_pre d) + o) (zlen v) o | None => Missing ERR_NOTFOUND end
    | None => Missing ERR_NOTFOUND end).
Proof.
  intros name Cn. destruct (dtb_readable _ _ _ D) as (strs & oss & ss & R). assert (I : In (q, x) (nodes 0 (d_tree d))) by (apply nodes_paths; exists path; exact At).
  destruct (at_node _ _ _ _ _ _ _ _ R I) as (r & P & Pl & Lf & _).
  rewrite (get_property_ok b strs _ oss ss (d_total d) (r_geo _ _ _ _ _ _ R) (r_strs _ _ _ _ _ _ R) (r_holds _ _ _ _ _ _ R) name Cn (r_len _ _ _ _ _ _ R) (t_name x) _ fuel q P Pl (props_then_node _ _ _)) by lia.
  f_equal. unfold prop_found. destruct (prop_get (t_props x) name) as [v|] eqn:E.
  - destruct (prop_get_split _ _ _ E) as (ps1 & ps2 & _ & _ & F). rewrite !F. reflexivity.
  - destruct (node_tail (t_kids x) r) as (k & r' & Ek & K). rewrite Ek. pose proof (find_prop_get name (t_props x) k r' (q + t_size (KBegin (t_name x))) K) as F. rewrite E in F. rewrite F. reflexivity.
Qed.

(** [need]: the room a new value takes. *)
Definition need (name val : list Z) : Z :=
  match prop_get (t_props x) name with Some v => up4 (zlen val) - up4 (zlen v) | None => 12 + up4 (zlen val) + (zlen name + 1) end.
Lemma setprop_tree : forall name val, cstr name -> zlen name < 2 ^ 31 -> all_bytes val -> zlen val < 2 ^ 31 - 20 ->
  exists r b', setprop fuel b q name val = Val (r, b') /\ same_tail (d_total d) b b' /\
    ((r = 0 /\ exists used', dtb b' (with_tree d (edit path (prop_set name val) (d_tree d))) used' /\ used' <= used + need name val) \/
     (r = -7 /\ dtb b' d used /\ d_total d < used + need name val)).
Proof.
  intros name val Cn Ln Bv Lv. pose proof total_bounds as (TB1 & TB2 & TB3). pose proof D as D'. apply dtb_raw in D'. destruct D' as (st & gap & strs & slack & R & Eu & Gt & T).
  destruct (path_split _ _ _ _ _ At) as (A & B & Et & Eq & Ee). rewrite Z.add_0_l in Eq.
  destruct (raw_fields _ _ _ _ _ _ R) as (F1 & F2 & F3 & F4 & F5 & F6). unfold setprop. rewrite F1. rewrite (to_int_small (d_total d)) by lia. destruct (Z.leb_spec (d_total d) 0); [lia|].
  unfold resize_property. rewrite (get_property_tree name Cn). cbn [obind]. unfold need. pose proof (zlen_nn _ val) as Nv. pose proof (up4_ge (zlen val)) as Uv.
  assert (Gx : Forall good_tok (flat x)) by (rewrite Et in Gt; apply Forall_app in Gt; destruct Gt as [_ Gt]; apply Forall_app in Gt; apply Gt).
  destruct x as [n ps ks] eqn:Ex. cbn [t_props t_name] in *. rewrite flat_node in Et, Gx.
  destruct (prop_get ps name) as [v|] eqn:Ep.
  - destruct (prop_get_split _ _ _ Ep) as (ps1 & ps2 & Eps & Erep & Ef). rewrite Ef. cbn [obind].
    assert (Sv : zlen v < 2 ^ 31 - 4).
    { pose proof (are_toks_size _ _ _ T) as Sz. rewrite Et, Eps, ptoks_app in Sz. cbn [ptoks map fst snd app] in Sz. fold (ptoks ps1) (ptoks ps2) in Sz. repeat (rewrite ?size_app in Sz; cbn [app size t_size] in Sz). unfold uses in Eu.
      pose proof (size_ge A). pose proof (size_ge B). pose proof (size_ge (ptoks ps1)). pose proof (size_ge (ptoks ps2)). pose proof (size_ge (forest ks)). pose proof (up4_ge (zlen n + 1)). pose proof (up4_ge (zlen v)). pose proof (zlen_nn _ n).
      pose proof (zlen_nn _ A). pose proof (zlen_nn _ B). pose proof (zlen_nn _ (ptoks ps1)). pose proof (zlen_nn _ (ptoks ps2)). pose proof (zlen_nn _ (forest ks)). pose proof (zlen_nn _ (d_pre d)). pose proof (zlen_nn _ gap). pose proof (zlen_nn _ strs). lia. }
    pose proof (zlen_nn _ v). rewrite !tagalign_small by lia.
    set (A' := A ++ KBegin n :: ptoks ps1). set (B' := ptoks ps2 ++ forest ks ++ KEnd :: B ++ [KFin]).
    assert (T' : are_toks strs (A' ++ KProp name v :: B') st).
    { revert T. rewrite Et, Eps, ptoks_app. unfold A', B'. cbn [ptoks map fst snd app]. fold (ptoks ps2). napp. exact (fun X => X). }
    assert (Epos : q + t_size (KBegin n) + size (ptoks ps1) = size A') by (unfold A'; rewrite size_app; cbn [size]; lia).
    replace (40 + zlen (d_pre d) + (q + t_size (KBegin n) + size (ptoks ps1))) with (40 + zlen (d_pre d) + size A') by lia.
    destruct (replace_ok b d gap strs slack st A' name v B' val _ R T' Bv Lv eq_refl) as [[Full E1]|(b1 & b2 & b3 & st' & slack' & E1 & E2 & E3 & R' & T2 & Tl & Room & Lst)].
    + rewrite E1. cbn [obind]. change (ERR_NOSPACE =? 0) with false. cbn iota. cbn [obind]. change (ERR_NOSPACE =? ERR_NOTFOUND) with false. cbn iota. cbn [obind]. change (ERR_NOSPACE =? 0) with false. cbn iota.
      exists (-7), b. split; [reflexivity|]. split; [apply same_tail_refl|]. right. split; [reflexivity|]. split; [exact D|]. lia.
    + rewrite E1. cbn [obind]. change (0 =? 0) with true. cbn iota. rewrite (Z.mod_small (zlen val)) by lia. rewrite be32b_be32, E2. cbn [obind]. change (0 =? ERR_NOTFOUND) with false. cbn iota. cbn [obind]. change (0 =? 0) with true. cbn iota. rewrite E3. cbn [obind].
      exists 0, b3. split; [reflexivity|]. split; [exact Tl|]. left. split; [reflexivity|]. exists (uses d st' gap strs). split; [|unfold uses in *; lia].
      apply dtb_raw. exists st', gap, strs, slack'. cbn [with_tree d_tree]. split; [exact R'|]. split; [reflexivity|].
      assert (Ef' : flat (edit path (prop_set name val) (d_tree d)) = A' ++ KProp name val :: ptoks ps2 ++ forest ks ++ KEnd :: B).
      { rewrite Ee. cbn [prop_set]. rewrite Ep, Erep, flat_node, ptoks_app. unfold A'. cbn [ptoks map fst snd app]. fold (ptoks ps2). napp. reflexivity. }
      rewrite Ef'. split.
      * rewrite Et, Eps, ptoks_app in Gt. unfold A'. apply Forall_app in Gt. destruct Gt as [Ga Gt]. inversion Gx as [|? ? Gn _]; subst. cbn [app] in Gt. apply Forall_inv_tail in Gt. rewrite <- !app_assoc in Gt.
        apply Forall_app in Gt. destruct Gt as [G1 Gt]. cbn [ptoks map fst snd app] in Gt. apply Forall_inv_tail in Gt. fold (ptoks ps2) in Gt. 
        apply Forall_app. split; [apply Forall_app; split; [exact Ga|constructor; [exact Gn|exact G1]]|]. constructor; [split; assumption|exact Gt].
      * revert T2. unfold B'. napp. exact (fun X => X).
  - cbn [obind]. change (ERR_NOTFOUND =? ERR_NOTFOUND) with true. cbn iota. unfold add_property.
    destruct (dtb_readable _ _ _ D) as (strs0 & oss0 & ss0 & Rd0). assert (I : In (q, Node n ps ks) (nodes 0 (d_tree d))) by (apply nodes_paths; exists path; exact At).
    destruct (at_node _ _ _ _ _ _ _ _ Rd0 I) as (r0 & P & Pl & _). cbn [t_name] in Pl. rewrite (check_node b strs0 _ ss0 (d_total d) (r_geo _ _ _ _ _ _ Rd0) q n _ P Pl). cbn [obind].
    pose proof (pos_next q (KBegin n) P) as [P2 _]. destruct (Z.ltb_spec (q + t_size (KBegin n)) 0); [lia|].
    rewrite tagalign_small by lia.
    set (A' := A ++ [KBegin n]). set (B' := ptoks ps ++ forest ks ++ KEnd :: B ++ [KFin]).
    assert (T' : are_toks strs (A' ++ B') st).
    { revert T. rewrite Et. unfold A', B'. napp. exact (fun X => X). }
    assert (Epos : q + t_size (KBegin n) = size A') by (unfold A'; rewrite size_app; cbn [size]; lia).
    assert (Ef' : flat (edit path (prop_set name val) (d_tree d)) = A' ++ KProp name val :: ptoks ps ++ forest ks ++ KEnd :: B).
    { rewrite Ee. cbn [prop_set]. rewrite Ep, flat_node. unfold A'. cbn [ptoks map fst snd app]. fold (ptoks ps). napp. reflexivity. }
    assert (Good : Forall good_tok (A' ++ KProp name val :: ptoks ps ++ forest ks ++ KEnd :: B)).
    { rewrite Et in Gt. unfold A'. cbn [app] in Gt. apply Forall_app in Gt. destruct Gt as [Ga Gt]. pose proof (Forall_inv Gt) as Gn. apply Forall_inv_tail in Gt. rewrite <- !app_assoc in Gt. cbn [app] in Gt.
      apply Forall_app. split; [apply Forall_app; split; [exact Ga|constructor; [exact Gn|constructor]]|]. constructor; [split; assumption|exact Gt]. }
    assert (Fin : forall b' st' strs' slack', raw b' d st' gap strs' slack' -> are_toks strs' (A' ++ KProp name val :: B') st' -> dtb b' (with_tree d (edit path (prop_set name val) (d_tree d))) (uses d st' gap strs')).
    { intros b' st' strs' slack' R' T2. apply dtb_raw. exists st', gap, strs', slack'. cbn [with_tree d_tree]. split; [exact R'|]. split; [reflexivity|]. rewrite Ef'. split; [exact Good|].
      revert T2. unfold B'. napp. exact (fun X => X). }
    destruct (find_add_string_ok b d st gap strs slack name R Cn Ln) as (r & new & b0 & E0 & Cases). rewrite E0. cbn [obind].
    assert (Case : exists strs1 slack1, raw b0 d st gap strs1 slack1 /\ same_tail (d_total d) b b0 /\ (exists y, strs1 = strs ++ y /\ if new then y = name ++ [0] else y = []) /\ (exists before after, strs1 = before ++ name ++ [0] ++ after /\ zlen before = r) \/
      (new = false /\ r = ERR_NOSPACE /\ b0 = b /\ d_total d < used + need name val)).
    { destruct Cases as [(-> & -> & Hstr)|[(-> & Er & Tl & slack' & R')|(-> & -> & -> & Full)]].
      - exists strs, slack. left. split; [exact R|]. split; [apply same_tail_refl|]. split; [exists []; split; [rewrite app_nil_r; reflexivity|reflexivity]|exact Hstr].
      - exists (strs ++ name ++ [0]), slack'. left. split; [exact R'|]. split; [exact Tl|]. split; [eexists; split; reflexivity|]. exists strs, []. rewrite app_nil_r. split; [reflexivity|congruence].
      - exists strs, slack. right. unfold need. rewrite Ex. cbn [t_props]. rewrite Ep. repeat (split; [reflexivity|]). lia. }
    destruct Case as (strs1 & slack1 & [(R1 & Tl1 & (y & Ey & Hy) & before & after & Es & Ebf)|(-> & -> & -> & Full)]).
    + pose proof (zlen_nn _ before). destruct (Z.ltb_spec r 0); [lia|]. destruct (raw_fields _ _ _ _ _ _ R1) as (_ & G2 & _). rewrite G2.
      assert (T1 : are_toks strs1 (A' ++ B') st) by (rewrite Ey; apply are_toks_more; exact T').
      assert (Hr : 0 <= r < 2 ^ 32). { destruct (raw_fields _ _ _ _ _ _ R1) as (_ & _ & _ & _ & _ & _). pose proof R1 as (_ & RL1 & RL2 & _). cbv zeta in RL1. assert (zlen before <= zlen strs1) by (rewrite Es; zs; pose proof (zlen_nn _ name); pose proof (zlen_nn _ after); lia). pose proof (zlen_nn _ (d_pre d)). pose proof (zlen_nn _ st). pose proof (zlen_nn _ gap). lia. }
      assert (Lup : zlen y <= zlen name + 1) by (destruct new; subst y; zs; pose proof (zlen_nn _ name); lia). assert (Ls1 : zlen strs1 = zlen strs + zlen y) by (rewrite Ey; zs; lia).
      destruct (insert_prop_ok b0 d gap strs1 slack1 st A' B' name val r (40 + zlen (d_pre d) + (q + t_size (KBegin n))) R1 T1 Bv Lv ltac:(lia) (ex_intro _ before (ex_intro _ after (conj Es Ebf)))) as [[Full E1]|(b1 & b2 & b3 & b4 & b5 & st' & slack' & E1 & E2 & E3 & E4 & E5 & R' & T2 & Tl & Room & Lst)].
      * rewrite E1. cbn [obind]. change (ERR_NOSPACE =? 0) with false. cbn iota. destruct new.
        -- subst y. rewrite Ey in R1. destruct (raw_drop_string b0 d st gap strs (name ++ [0]) slack1 R1) as (b9 & E9 & R9 & T9). replace (zlen (name ++ [0])) with (zlen name + 1) in E9 by (zs; lia). rewrite E9. cbn [obind]. change (ERR_NOSPACE =? 0) with false. cbn iota.
           exists (-7), b9. split; [reflexivity|]. split; [exact (same_tail_trans _ _ _ _ Tl1 T9)|]. right. split; [reflexivity|]. split; [|unfold need, uses in *; rewrite ?Ex; cbn [t_props]; rewrite ?Ep; lia].
           apply dtb_raw. exists st, gap, strs, ((name ++ [0]) ++ slack1). auto.
        -- cbn [obind]. change (ERR_NOSPACE =? 0) with false. cbn iota. exists (-7), b0. split; [reflexivity|]. split; [exact Tl1|]. right. split; [reflexivity|]. split; [|unfold need, uses in *; rewrite ?Ex; cbn [t_props]; rewrite ?Ep; lia].
           apply dtb_raw. exists st, gap, strs1, slack1. subst y. rewrite app_nil_r in Ey. subst strs1. auto.
      * rewrite E1. cbn [obind]. change (0 =? 0) with true. cbn iota. rewrite !be32b_be32. change PROP with 3. rewrite E2. cbn [obind]. rewrite (Z.mod_small r) by lia. rewrite E3. cbn [obind]. rewrite (Z.mod_small (zlen val)) by lia. rewrite E4. cbn [obind].
        change (0 =? 0) with true. cbn iota. rewrite E5. cbn [obind]. exists 0, b5. split; [reflexivity|]. split; [exact (same_tail_trans _ _ _ _ Tl1 Tl)|]. left. split; [reflexivity|].
        exists (uses d st' gap strs1). split; [exact (Fin _ _ _ _ R' T2)|]. unfold uses in *. lia.
    + change (ERR_NOSPACE <? 0) with true. cbn iota. cbn [obind]. change (ERR_NOSPACE =? 0) with false. cbn iota. exists (-7), b. split; [reflexivity|]. split; [apply same_tail_refl|]. right. split; [reflexivity|]. split; [exact D|].
      unfold need in Full. rewrite Ex in Full. cbn [t_props] in Full. rewrite Ep in Full. exact Full.
Qed.

(** A node is deleted by removing its tokens. *)
Lemma remove_ok : forall gap strs slack st A M B p, raw b d st gap strs slack -> are_toks strs (A ++ M ++ B) st -> p = 40 + zlen (d_pre d) + size A ->
  exists b' st' slack', splice_struct b p (size M) 0 = Val (0, b') /\ raw b' d st' gap strs slack' /\ are_toks strs (A ++ B) st' /\ same_tail (d_total d) b b' /\ zlen st' = zlen st - size M.
Proof.
  intros gap strs slack st A M B p R T ->. apply are_toks_app in T. destruct T as (s1 & s2 & -> & TA & TB). apply are_toks_app in TB. destruct TB as (m & s3 & -> & TM & TB).
  pose proof (are_toks_size _ _ _ TA) as SA. pose proof (are_toks_size _ _ _ TM) as SM.
  pose proof (splice_struct_ok b d s1 m s3 gap strs slack 0 (40 + zlen (d_pre d) + size A) R ltac:(lia) ltac:(lia)) as S1.
  pose proof R as (_ & L1 & _). cbv zeta in L1. unfold uses in S1. pose proof (zlen_nn _ m).
  match type of S1 with context [?x <? ?y] => destruct (Z.ltb_spec x y) as [Full|Room]; [lia|] end.
  destruct S1 as (mid & slack' & b1 & E1 & Lm & R1 & T1). destruct mid; [|rewrite zlen_cons in Lm; pose proof (zlen_nn _ mid); lia]. cbn [app] in R1. rewrite SM in E1 || rewrite <- SM.
  exists b1, (s1 ++ s3), slack'. split; [exact E1|]. split; [exact R1|]. split; [apply are_toks_app; exists s1, s3; auto|]. split; [exact T1|]. zs. lia.
Qed.

Lemma add_subnode_tree : forall name, cstr name -> zlen name < 2 ^ 31 - 20 ->
  exists r b', add_subnode fuel b q name = Val (r, b') /\ same_tail (d_total d) b b' /\
    (if existsb (fun k => name_matches name (t_name k)) (t_kids x) then r = -10 /\ b' = b
     else let room := 8 + up4 (zlen name + 1) in
       if d_total d <? used + room then r = -7 /\ b' = b
       else node_at (path ++ [0%nat]) 0 (edit path (add_kid name) (d_tree d)) = Some (r, Node name [] []) /\ dtb b' (with_tree d (edit path (add_kid name) (d_tree d))) (used + room)).
Proof.
  intros name Cn Ln. pose proof total_bounds as (TB1 & TB2 & TB3). pose proof D as D'. apply dtb_raw in D'. destruct D' as (st & gap & strs & slack & R & Eu & Gt & T).
  destruct (path_split _ _ _ _ _ At) as (A & B & Et & Eq & Ee). rewrite Z.add_0_l in Eq.
  destruct (raw_fields _ _ _ _ _ _ R) as (F1 & F2 & F3 & F4 & F5 & F6).
  destruct (dtb_readable _ _ _ D) as (strs0 & oss0 & ss0 & Rd0). assert (I : In (q, x) (nodes 0 (d_tree d))) by (apply nodes_paths; exists path; exact At).
  destruct (at_node _ _ _ _ _ _ _ _ Rd0 I) as (r0 & P & Pl & Lf & _). unfold add_subnode. rewrite (r_head _ _ _ _ _ _ Rd0). change (negb (0 =? 0)) with false. cbn iota.
  pose proof (zlen_nn _ name) as Nn. pose proof (up4_ge (zlen name + 1)) as Un.
  destruct x as [n ps ks] eqn:Ex. cbn [t_props t_name t_kids] in *. rewrite flat_node in Et.
  pose proof (subnode_ok b strs0 _ ss0 (d_total d) (r_geo _ _ _ _ _ _ Rd0)) as SN.
  assert (Sub : forall e, subfind name 0 (q + t_size (KBegin n) + size (ptoks ps)) (forest ks ++ KEnd :: r0) = Some e -> subnode_offset fuel b q name = Val e).
  { intros e E. apply (SN name n (ptoks ps ++ forest ks ++ KEnd :: r0) fuel q e Cn ltac:(lia) P Pl); [|lia]. rewrite subfind_props. exact E. }
  destruct (subfind_kids name ks (q + t_size (KBegin n) + size (ptoks ps)) r0) as [(e & E1 & E2 & E3)|(E1 & E2)].
  - rewrite (Sub _ E1). cbn [obind]. pose proof P as [P0 _]. pose proof (size_ge (ptoks ps)). pose proof (zlen_nn _ (ptoks ps)). pose proof (zlen_nn _ n). pose proof (up4_ge (zlen n + 1)). cbn [t_size] in E2. destruct (Z.leb_spec 0 e); [|lia].
    rewrite E3. exists (-10), b. split; [reflexivity|]. split; [apply same_tail_refl|]. split; reflexivity.
  - rewrite (Sub _ E1), E2. cbn [obind]. change (0 <=? ERR_NOTFOUND) with false. change (negb (ERR_NOTFOUND =? ERR_NOTFOUND)) with false. cbn iota.
    rewrite (tag_at b strs0 _ ss0 (d_total d) (r_geo _ _ _ _ _ _ Rd0) q (KBegin n) _ P Pl). cbn [obind].
    destruct (node_tail ks r0) as (k & r' & Ek & K). pose proof (proj2 (proj2 Pl)) as Pl2. rewrite Ek in Pl2.
    rewrite (skip_props_ok b strs0 _ ss0 (d_total d) (r_geo _ _ _ _ _ _ Rd0) ps k r' fuel (q + t_size (KBegin n)) (pos_next q (KBegin n) P) Pl2 K) by (unfold ptoks in Lf; rewrite app_length, map_length in Lf; lia).
    cbn [obind]. fold (ptoks ps). rewrite F2. rewrite tagalign_small by lia.
    set (A' := A ++ KBegin n :: ptoks ps). set (B' := forest ks ++ KEnd :: B ++ [KFin]).
    assert (T' : are_toks strs (A' ++ B') st).
    { revert T. rewrite Et. unfold A', B'. napp. exact (fun X => X). }
    assert (Epos : q + t_size (KBegin n) + size (ptoks ps) = size A') by (unfold A'; rewrite size_app; cbn [size]; lia).
    assert (Ef' : flat (edit path (add_kid name) (d_tree d)) = A' ++ KBegin name :: KEnd :: forest ks ++ KEnd :: B).
    { rewrite Ee. cbn [add_kid]. rewrite flat_node. unfold A'. cbn [forest flat_map]. fold (forest ks). rewrite flat_node. cbn [ptoks map forest flat_map]. napp. reflexivity. }
    replace (40 + zlen (d_pre d) + (q + t_size (KBegin n) + size (ptoks ps))) with (40 + zlen (d_pre d) + size A') by lia.
    destruct (insert_node_ok b d gap strs slack st A' B' name _ R T' Cn eq_refl) as [[Full E3]|(b1 & b2 & b3 & b4 & b5 & st' & slack' & W1 & W2 & W3 & W4 & W5 & R' & T2 & Tl & Room & Lst)].
    + rewrite E3. cbn [obind]. change (ERR_NOSPACE =? 0) with false. cbn iota. exists (-7), b. split; [reflexivity|]. split; [apply same_tail_refl|]. cbv zeta. destruct (Z.ltb_spec (d_total d) (used + (8 + up4 (zlen name + 1)))); [split; reflexivity|lia].
    + rewrite W1. cbn [obind]. change (0 =? 0) with true. cbn iota. rewrite !be32b_be32. change BEGIN_NODE with 1. change END_NODE with 2. rewrite W2. cbn [obind]. rewrite W3. cbn [obind]. rewrite W4. cbn [obind]. rewrite W5. cbn [obind].
      eexists _, b5. split; [reflexivity|]. split; [exact Tl|]. cbv zeta. destruct (Z.ltb_spec (d_total d) (used + (8 + up4 (zlen name + 1)))) as [Hlt|Hge]; [lia|]. split.
      * apply node_at_last. exists q, n, ps, (Node name [] [] :: ks). split; [|split; [reflexivity|cbn [firstn forest flat_map size]; lia]].
        rewrite (node_at_edit path (add_kid name) 0 (d_tree d) q (Node n ps ks) At). reflexivity.
      * apply dtb_raw. exists st', gap, strs, slack'. cbn [with_tree d_tree]. split; [exact R'|]. split; [unfold uses in *; cbn [with_tree d_pre]; lia|]. rewrite Ef'. split.
        -- rewrite Et in Gt. unfold A'. cbn [app] in Gt. apply Forall_app in Gt. destruct Gt as [Ga Gt]. pose proof (Forall_inv Gt) as Gn. apply Forall_inv_tail in Gt. rewrite <- !app_assoc in Gt. cbn [app] in Gt. apply Forall_app in Gt. destruct Gt as [Gp Gt].
           apply Forall_app. split; [apply Forall_app; split; [exact Ga|constructor; [exact Gn|exact Gp]]|]. constructor; [exact Cn|]. constructor; [exact Logic.I|exact Gt].
        -- revert T2. unfold B'. napp. exact (fun X => X).
Qed.
Lemma del_node_tree : forall i k q', nth_error (t_kids x) i = Some k -> node_at (path ++ [i]) 0 (d_tree d) = Some (q', k) ->
  exists b', del_node fuel b q' = Val (0, b') /\ same_tail (d_total d) b b' /\ dtb b' (with_tree d (edit path (del_kid i) (d_tree d))) (used - size (flat k)).
Proof.
  intros i k q' Ei At'. pose proof D as D'. apply dtb_raw in D'. destruct D' as (st & gap & strs & slack & R & Eu & Gt & T).
  destruct (path_split _ _ _ _ _ At) as (A & B & Et & Eq & Ee). rewrite Z.add_0_l in Eq.
  destruct (raw_fields _ _ _ _ _ _ R) as (F1 & F2 & F3 & F4 & F5 & F6).
  destruct (dtb_readable _ _ _ D) as (strs0 & oss0 & ss0 & Rd0). assert (I : In (q', k) (nodes 0 (d_tree d))) by (apply nodes_paths; exists (path ++ [i]); exact At').
  destruct (at_node _ _ _ _ _ _ _ _ Rd0 I) as (r0 & P & Pl & Lf & _). unfold del_node. rewrite (r_head _ _ _ _ _ _ Rd0). change (negb (0 =? 0)) with false. cbn iota.
  rewrite (end_loop_ok b strs0 _ ss0 (d_total d) (r_geo _ _ _ _ _ _ Rd0) (t_name k) (ptoks (t_props k) ++ forest (t_kids k) ++ KEnd :: r0) fuel q' (q' + size (flat k)) P Pl); [|destruct k as [kn kp kk]; apply closes_node|lia].
  cbn [obind]. pose proof P as [P0 _]. pose proof (size_ge (flat k)). pose proof (zlen_nn _ (flat k)). destruct (Z.ltb_spec (q' + size (flat k)) 0); [lia|]. replace (q' + size (flat k) - q') with (size (flat k)) by lia.
  apply node_at_last in At'. destruct At' as (q0 & n & ps & ks & At0 & Ei0 & Eq'). rewrite At in At0. apply some_pair_inj in At0. destruct At0 as [<- Ex].
  set (A' := A ++ KBegin n :: ptoks ps ++ forest (firstn i ks)). set (B' := forest (skipn (S i) ks) ++ KEnd :: B ++ [KFin]).
  rewrite Ex, flat_node in Et. pose proof (nth_split _ ks i k Ei0) as Eks.
  assert (Efk : forest ks = forest (firstn i ks) ++ flat k ++ forest (skipn (S i) ks)) by (rewrite Eks at 1; rewrite forest_app; reflexivity).
  assert (T' : are_toks strs (A' ++ flat k ++ B') st).
  { revert T. rewrite Et, Efk. unfold A', B'. napp. exact (fun X => X). }
  assert (Epos : q' = size A') by (unfold A'; rewrite size_app; cbn [size]; rewrite size_app; lia).
  rewrite F2. rewrite Epos. destruct (remove_ok gap strs slack st A' (flat k) B' _ R T' eq_refl) as (b' & st' & slack' & E1 & R' & T2 & Tl & Lst). rewrite E1.
  exists b'. split; [reflexivity|]. split; [exact Tl|]. apply dtb_raw. exists st', gap, strs, slack'. cbn [with_tree d_tree]. split; [exact R'|]. split; [unfold uses in *; cbn [with_tree d_pre]; lia|].
  assert (Ef' : flat (edit path (del_kid i) (d_tree d)) = A' ++ forest (skipn (S i) ks) ++ KEnd :: B).
  { rewrite Ee, Ex. cbn [del_kid]. rewrite flat_node, forest_app. unfold A'. napp. reflexivity. }
  rewrite Ef'. split.
  - rewrite Et, Efk in Gt. unfold A'. cbn [app] in Gt. apply Forall_app in Gt. destruct Gt as [Ga Gt]. pose proof (Forall_inv Gt) as Gn. apply Forall_inv_tail in Gt. rewrite <- !app_assoc in Gt. cbn [app] in Gt. apply Forall_app in Gt. destruct Gt as [Gp Gt].
    apply Forall_app in Gt. destruct Gt as [Gf Gt]. apply Forall_app in Gt. destruct Gt as [_ Gt].
    apply Forall_app. split; [apply Forall_app; split; [exact Ga|constructor; [exact Gn|apply Forall_app; split; assumption]]|exact Gt].
  - revert T2. unfold B'. napp. exact (fun X => X).
Qed.
End edits.

Lemma shrink_tree : forall b d used, dtb b d used ->
  exists b', shrink b = Val b' /\ same_tail used b b' /\ dtb b' (mkDT used (d_rsv d) (d_comp d) (d_cpu d) (d_pre d) (d_tree d)) used.
Proof.
  intros b d used D. pose proof (total_bounds _ _ _ D (length b) (le_n _)) as (TB1 & TB2 & TB3). apply dtb_raw in D. destruct D as (st & gap & strs & slack & R & Eu & Gt & T).
  destruct (raw_fields _ _ _ _ _ _ R) as (F1 & F2 & F3 & F4 & F5 & F6). pose proof R as (Eb & L1 & L2 & R1 & R2 & R3 & B). cbv zeta in *.
  assert (Ed : data_size b = used). { lia. }
  unfold shrink. rewrite Ed. rewrite Eb. rewrite set_total by lia. eexists. split; [reflexivity|].
  set (os := 40 + zlen (d_pre d)) in *. set (oss := os + zlen st + zlen gap) in *. set (rest := d_pre d ++ st ++ gap ++ strs ++ slack) in *.
  assert (Lb : zlen (header used os oss (d_rsv d) (d_comp d) (d_cpu d) (zlen strs) (zlen st) ++ rest) = zlen b) by (rewrite Eb; rewrite !zlen_app, !header_len; reflexivity).
  split.
  - pose proof (same_tail_part used [] (header (d_total d) os oss (d_rsv d) (d_comp d) (d_cpu d) (zlen strs) (zlen st)) (header used os oss (d_rsv d) (d_comp d) (d_cpu d) (zlen strs) (zlen st)) rest) as X.
    cbn [app] in X. apply X; [rewrite !header_len; reflexivity|]. rewrite zlen_nil, header_len. lia.
  - apply dtb_raw. exists st, gap, strs, slack. cbn [d_tree]. split; [|split; [exact Eu|split; assumption]].
    unfold raw. cbv zeta. cbn [d_pre d_total d_rsv d_comp d_cpu]. fold os. fold oss. fold rest. split; [reflexivity|]. rewrite Lb. unfold uses in Eu. fold os in Eu. split; [lia|]. split; [lia|]. repeat (split; [assumption|]).
    rewrite Eb in B. apply bytes_app in B. apply bytes_app. split; [apply header_bytes|apply B].
Qed.
