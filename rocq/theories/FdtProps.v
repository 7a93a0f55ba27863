(** C45-C48: device trees. *)
From Verif Require Import Base BaseLemmas StringModel FdtModel FdtSpec FdtProofs FdtTree FdtRead FdtEdit FdtOps FdtSafe FdtBuild.

(** ** C45: lookups *)

(** Every device tree that fits has a blob. *)
Theorem C45_every_tree : forall d, Forall good_tok (flat (d_tree d)) -> all_bytes (d_pre d) -> 0 <= d_rsv d < 2 ^ 32 -> 0 <= d_comp d <= 17 -> 0 <= d_cpu d < 2 ^ 32 ->
  room d <= d_total d < 2 ^ 31 -> dtb (build d) d (room d).
Proof. exact build_dtb. Qed.
Print Assumptions C45_every_tree.

(** The searches give the offset of the first node, in document order after the starting node,
    that has the name; the string property; the string in its list of compatible devices. *)
Theorem C45_search : forall b d used, dtb b d used -> forall fuel start l, (length b <= fuel)%nat -> from d start l ->
  (forall name, cstr name -> find_node_offset fuel b start name = Val (first_of (fun t => seqb (t_name t) name) l)) /\
  (forall name val, cstr name -> cstr val -> find_prop_offset fuel b start name val =
     Val (first_of (fun t => match prop_get (t_props t) name with Some v => seqb v (val ++ [0]) | None => false end) l)) /\
  (forall s, cstr s -> s <> [] -> (forall o x v, In (o, x) (nodes 0 (d_tree d)) -> In (s_compatible, v) (t_props x) -> string_list v) ->
     node_offset_by_compatible fuel b start s = Val (first_of (fun t => match prop_get (t_props t) s_compatible with Some v => has_word s v | None => false end) l)).
Proof.
  intros b d used D fuel start l F Fr. split; [|split].
  - intros name C. exact (find_node_tree b d used D fuel start l name F C Fr).
  - intros name val C Cv. exact (find_prop_tree b d used D fuel start l name val F C Cv Fr).
  - intros s C N Hs. exact (by_compatible_tree b d used D fuel start l s F C N Fr Hs).
Qed.
Print Assumptions C45_search.

(** At the offset of a node: its name, and the value of the first property of a name. *)
Theorem C45_property : forall b d used, dtb b d used -> forall fuel q x, (length b <= fuel)%nat -> In (q, x) (nodes 0 (d_tree d)) ->
  (exists a, get_name b q = Val (Some a, zlen (t_name x)) /\ holds b a (t_name x ++ [0])) /\
  forall name, cstr name ->
    match prop_get (t_props x) name with
    | Some v => exists a, getprop fuel b q name = Val (Some a, zlen v) /\ holds b a v /\ a + zlen v <= d_total d
    | None => getprop fuel b q name = Val (None, -6)
    end /\
    getprop_address fuel b q name = Val (address x name).
Proof.
  intros b d used D fuel q x F I. split.
  - destruct (get_name_tree b d used D q x I) as (a & E & H & _). exists a. auto.
  - intros name C. split; [|exact (getprop_address_tree b d used D fuel q x name F C I)]. pose proof (getprop_tree b d used D fuel q x name F C I) as G.
    destruct (prop_get (t_props x) name); [|exact G]. destruct G as (a & E & H & L & _). exists a. auto.
Qed.
Print Assumptions C45_property.

Definition str (s : list Z) : list Z := s ++ [0].
Definition kern1 : list Z := [107; 49].
Definition fdt1 : list Z := [102; 49].
Definition conf1 : list Z := [99; 49].
Definition s_images : list Z := [105; 109; 97; 103; 101; 115].
(** / { images { k1 { data load entry type }; f1 { data type } }; configurations { default; c1 { kernel fdt } } } *)
Definition ex_tree : tree :=
  Node [] [(s_compatible, str [97; 98] ++ str [120; 121])] [
    Node s_images [] [
      Node kern1 [(s_data, [1; 2; 3; 4; 5]); (s_load, [0; 0; 0x40; 0]); (s_entry, [0; 0; 0x40; 4]); (s_type, str s_kernel)] [];
      Node fdt1 [(s_data, [7; 8]); (s_type, str s_flat_dt)] []];
    Node s_configurations [(s_default, str conf1)] [
      Node conf1 [(s_kernel, str kern1); (s_fdt, str fdt1)] []]].
Definition ex_dt : dt := mkDT 600 40 16 0 (repeat 0 16) ex_tree.
Lemma ex_dtb : dtb (build ex_dt) ex_dt (room ex_dt).
Proof.
  apply build_dtb; try (cbn [ex_dt d_rsv d_comp d_cpu]; lia); try (repeat constructor; fail).
  - cbn [ex_dt d_tree]. repeat constructor; cbn; lia.
  - repeat constructor; lia.
  - split; [vm_compute; discriminate|reflexivity].
Qed.
Example C45_nonvacuous : exists fuel, (length (build ex_dt) <= fuel)%nat /\
  find_node_offset fuel (build ex_dt) (-1) kern1 = Val 40 /\ find_prop_offset fuel (build ex_dt) 40 s_type s_flat_dt = Val 124 /\
  node_offset_by_compatible fuel (build ex_dt) (-1) [120; 121] = Val 0 /\ getprop_address fuel (build ex_dt) 40 s_load = Val 0x4000.
Proof.
  exists 1000%nat. split; [apply Nat.leb_le; vm_compute; reflexivity|]. repeat split; vm_compute; reflexivity.
Qed.

(** A "compatible" value that does not end in a zero makes the search run forever. *)
Definition bad_tree : tree := Node [] [(s_compatible, [97; 98; 99])] [].
Definition bad_dt : dt := mkDT 200 40 16 0 [] bad_tree.
Theorem C45_compatible_refuted : exists b d used s, dtb b d used /\ cstr s /\ s <> [] /\ forall fuel, (length b <= fuel)%nat -> node_offset_by_compatible fuel b (-1) s = NoFuel.
Proof.
  exists (build bad_dt), bad_dt, (room bad_dt), [97; 98]. split; [|split; [repeat constructor; lia|split; [discriminate|]]].
  - apply build_dtb; try (cbn [bad_dt d_rsv d_comp d_cpu]; lia).
    + cbn [bad_dt d_tree]. repeat constructor; cbn; lia.
    + constructor.
    + split; [vm_compute; discriminate|reflexivity].
  - intros fuel F. remember (build bad_dt) as b eqn:Eb. assert (L : (length b = 200)%nat) by (subst b; vm_compute; reflexivity).
    assert (N : forall k, next_node (S k) b (-1) None = Val (0, None)) by (intro k; subst b; vm_compute; reflexivity).
    assert (G : exists a, forall k, getprop (S (S k)) b 0 s_compatible = Val (Some a, 3)) by (exists 60; intro k; subst b; vm_compute; reflexivity). destruct G as (a & G).
    assert (Ea : a = 60) by (specialize (G 0%nat); subst b; vm_compute in G; congruence).
    assert (C : forall k, compatible_loop k b [97; 98] a 3 = NoFuel).
    { assert (Q1 : eq_at b a ([97; 98] ++ [0]) = Val false) by (rewrite Ea; subst b; vm_compute; reflexivity). assert (Q2 : zero_at (Z.to_nat 3) b a = Val None) by (rewrite Ea; subst b; vm_compute; reflexivity).
      induction k as [|k IH]; cbn [compatible_loop]; change (3 <? zlen [97; 98]) with false; cbn iota; [reflexivity|]. rewrite Q1. cbn [obind]. rewrite Q2. cbn [obind]. exact IH. }
    destruct fuel as [|[|fuel]]; [lia|lia|]. unfold node_offset_by_compatible. rewrite N. cbn [obind by_compatible_loop]. change (0 <? 0) with false. cbn iota. rewrite G. cbn [obind]. rewrite C. reflexivity.
Qed.
Print Assumptions C45_compatible_refuted.

(** ** C46: changes *)

(** A property is set: the blob then holds the tree with that property of that node replaced or
    added, nothing else.  It fails only for lack of space, and then the tree is unchanged.
    Bytes beyond the total size are never touched. *)
Theorem C46_setprop : forall b d used, dtb b d used -> forall fuel path q x, (length b <= fuel)%nat -> node_at path 0 (d_tree d) = Some (q, x) ->
  forall name val, cstr name -> zlen name < 2 ^ 31 -> all_bytes val -> zlen val < 2 ^ 31 - 20 ->
  exists r b', setprop fuel b q name val = Val (r, b') /\ same_tail (d_total d) b b' /\
    let more := match prop_get (t_props x) name with Some v => up4 (zlen val) - up4 (zlen v) | None => 12 + up4 (zlen val) + (zlen name + 1) end in
    ((r = 0 /\ exists used', dtb b' (with_tree d (edit path (prop_set name val) (d_tree d))) used' /\ used' <= used + more) \/
     (r = -7 /\ dtb b' d used /\ d_total d < used + more)).
Proof. intros b d used D fuel path q x F At name val Cn Ln Bv Lv. exact (setprop_tree b d used D fuel F path q x At name val Cn Ln Bv Lv). Qed.
Print Assumptions C46_setprop.

Lemma prop_get_set : forall name val other ps, prop_get (match prop_get ps name with Some _ => prop_replace ps name val | None => (name, val) :: ps end) other = if seqb name other then Some val else prop_get ps other.
Proof.
  intros name val other ps. assert (R : forall v, prop_get ps name = Some v -> prop_get (prop_replace ps name val) other = if seqb name other then Some val else prop_get ps other).
  { induction ps as [|[n d] ps IH]; intros v E; cbn [prop_get prop_replace] in *; [discriminate|]. destruct (seqb n name) eqn:S1; cbn [prop_get].
    - apply seqb_eq in S1. subst n. destruct (seqb name other); reflexivity.
    - destruct (seqb n other) eqn:S2; [|exact (IH v E)]. destruct (seqb name other) eqn:S3; [|reflexivity]. apply seqb_eq in S2, S3. subst. rewrite seqb_refl in S1. discriminate. }
  destruct (prop_get ps name) as [v|] eqn:E; [exact (R v eq_refl)|]. cbn [prop_get]. reflexivity.
Qed.
(** After a fix-up of a number, a read of that property gives the number; all other properties of
    the node read as before. *)
Theorem C46_fixup : forall b d used, dtb b d used -> forall fuel path q x, (length b <= fuel)%nat -> node_at path 0 (d_tree d) = Some (q, x) ->
  forall name, cstr name -> zlen name < 2 ^ 31 -> forall v b', 0 <= v < 2 ^ 64 ->
  fixup_val64 fuel b q name v = Val (0, b') \/ (v < 2 ^ 32 /\ fixup_val fuel b q name v = Val (0, b')) ->
  getprop_address fuel b' q name = Val v /\
  forall other, cstr other -> other <> name ->
    match prop_get (t_props x) other with
    | Some w => exists a, getprop fuel b' q other = Val (Some a, zlen w) /\ holds b' a w
    | None => getprop fuel b' q other = Val (None, -6)
    end.
Proof.
  intros b d used D fuel path q x F At name Cn Ln v b' Hv E.
  assert (W : exists val, setprop fuel b q name val = Val (0, b') /\ all_bytes val /\ (zlen val = 8 \/ zlen val = 4) /\ le_val (rev val) = v).
  { destruct E as [E|[Hv' E]].
    - exists (rev (le_bytes 8 v)). split; [exact E|]. split; [apply Forall_forall; intros y Hy; apply in_rev in Hy; revert y Hy; apply Forall_forall; apply le_bytes_bytes|]. split; [left; reflexivity|]. rewrite rev_involutive. apply le_val_bytes. exact Hv.
    - exists (rev (le_bytes 4 v)). split; [exact E|]. split; [apply Forall_forall; intros y Hy; apply in_rev in Hy; revert y Hy; apply Forall_forall; apply le_bytes_bytes|]. split; [right; reflexivity|]. rewrite rev_involutive. apply le_val_bytes. change (256 ^ Z.of_nat 4) with (2 ^ 32). lia. }
  destruct W as (val & Es & Bv & Lv & Ev). destruct (setprop_tree b d used D fuel F path q x At name val Cn Ln Bv ltac:(lia)) as (r & b1 & E1 & [L1 _] & Cases). rewrite Es in E1.
  assert (r = 0 /\ b1 = b') as [-> ->] by (split; congruence). destruct Cases as [(_ & used' & D' & _)|(X & _)]; [|discriminate].
  set (x' := prop_set name val x). assert (I : In (q, x') (nodes 0 (d_tree (with_tree d (edit path (prop_set name val) (d_tree d)))))) by (apply nodes_paths; exists path; cbn [with_tree d_tree]; apply node_at_edit; exact At).
  assert (F' : (length b' <= fuel)%nat) by (unfold zlen in L1; lia).
  assert (G : forall o, prop_get (t_props x') o = if seqb name o then Some val else prop_get (t_props x) o) by (intro o; unfold x'; destruct x as [n ps ks]; cbn [prop_set t_props]; apply prop_get_set).
  split.
  - rewrite (getprop_address_tree b' _ used' D' fuel q x' name F' Cn I). rewrite G, seqb_refl. destruct Lv as [->| ->]; cbn [Z.eqb Pos.eqb orb]; unfold be_val; rewrite Ev; reflexivity.
  - intros other Co No. pose proof (getprop_tree b' _ used' D' fuel q x' other F' Co I) as H. rewrite G in H. assert (S1 : seqb name other = false) by (apply seqb_neq; congruence). rewrite S1 in H.
    destruct (prop_get (t_props x) other); [|exact H]. destruct H as (a & H1 & H2 & _). exists a. auto.
Qed.
Print Assumptions C46_fixup.

(** A node is added as the first child, unless a child of that name exists or space is lacking. *)
Theorem C46_add : forall b d used, dtb b d used -> forall fuel path q x, (length b <= fuel)%nat -> node_at path 0 (d_tree d) = Some (q, x) ->
  forall name, cstr name -> zlen name < 2 ^ 31 - 20 ->
  exists r b', add_subnode fuel b q name = Val (r, b') /\ same_tail (d_total d) b b' /\
    (if existsb (fun k => name_matches name (t_name k)) (t_kids x) then r = -10 /\ b' = b
     else let room := 8 + up4 (zlen name + 1) in
       if d_total d <? used + room then r = -7 /\ b' = b
       else node_at (path ++ [0%nat]) 0 (edit path (add_kid name) (d_tree d)) = Some (r, Node name [] []) /\
            dtb b' (with_tree d (edit path (add_kid name) (d_tree d))) (used + room)).
Proof. intros b d used D fuel path q x F At name Cn Ln. exact (add_subnode_tree b d used D fuel F path q x At name Cn Ln). Qed.
Print Assumptions C46_add.

(** A child is deleted with everything below it; its space can be used again. *)
Theorem C46_delete : forall b d used, dtb b d used -> forall fuel path i q k, (length b <= fuel)%nat -> node_at (path ++ [i]) 0 (d_tree d) = Some (q, k) ->
  exists b', del_node fuel b q = Val (0, b') /\ same_tail (d_total d) b b' /\ dtb b' (with_tree d (edit path (del_kid i) (d_tree d))) (used - size (flat k)).
Proof.
  intros b d used D fuel path i q k F At. pose proof At as At'. apply node_at_last in At'. destruct At' as (q0 & n & ps & ks & At0 & Ei & _).
  exact (del_node_tree b d used D fuel F path q0 (Node n ps ks) At0 i k q Ei At).
Qed.
Print Assumptions C46_delete.

(** The root can be deleted too: a blob without a tree is left. *)
Theorem C46_root_refuted : exists b d used fuel b', dtb b d used /\ (length b <= fuel)%nat /\ del_node fuel b 0 = Val (0, b') /\ forall d' used', ~ dtb b' d' used'.
Proof.
  exists (build bad_dt), bad_dt, (room bad_dt), 200%nat. eexists. split; [|split; [apply Nat.leb_le; vm_compute; reflexivity|split; [vm_compute; reflexivity|]]].
  - apply build_dtb; try (cbn [bad_dt d_rsv d_comp d_cpu]; lia).
    + cbn [bad_dt d_tree]. repeat constructor; cbn; lia.
    + constructor.
    + split; [vm_compute; discriminate|reflexivity].
  - intros d' used' D'. destruct (dtb_readable _ _ _ D') as (strs & oss & ss & R). pose proof (r_geo _ _ _ _ _ _ R) as G. pose proof (g_ss _ _ _ _ G) as Gs. pose proof (r_size _ _ _ _ _ _ R) as Rs.
    pose proof (size_ge (flat (d_tree d'))) as S1. destruct (d_tree d') as [n ps ks]. rewrite flat_node in S1, Rs. cbn [size t_size] in Rs. rewrite size_app in Rs. rewrite size_app in Rs. cbn [size t_size] in Rs.
    pose proof (size_ge (ptoks ps)). pose proof (size_ge (forest ks)). pose proof (zlen_nn _ (ptoks ps)). pose proof (zlen_nn _ (forest ks)). pose proof (zlen_nn _ n). pose proof (up4_ge (zlen n + 1)).
    vm_compute in Gs. lia.
Qed.
Print Assumptions C46_root_refuted.

(** Shrinking gives up the free space at the end, nothing else. *)
Theorem C46_shrink : forall b d used, dtb b d used ->
  exists b', shrink b = Val b' /\ same_tail used b b' /\ dtb b' (mkDT used (d_rsv d) (d_comp d) (d_cpu d) (d_pre d) (d_tree d)) used.
Proof. exact shrink_tree. Qed.
Print Assumptions C46_shrink.

Example C46_nonvacuous : exists fuel b1 b2 b3 r, (length (build ex_dt) <= fuel)%nat /\ node_at [0; 0]%nat 0 (d_tree ex_dt) = Some (40, nth 0 (t_kids (nth 0 (t_kids ex_tree) ex_tree)) ex_tree) /\
  setprop fuel (build ex_dt) 40 s_data [9; 9; 9; 9; 9; 9; 9; 9; 9] = Val (0, b1) /\ add_subnode fuel b1 40 [110] = Val (r, b2) /\ 0 < r /\ fixup_val fuel b2 r s_kernel 0x01020304 = Val (0, b3) /\
  getprop_address fuel b3 r s_kernel = Val 0x01020304 /\ find_node_offset fuel b3 (-1) [110] = Val r.
Proof.
  exists 1000%nat. eexists _, _, _, _. split; [apply Nat.leb_le; vm_compute; reflexivity|]. split; [vm_compute; reflexivity|]. split; [vm_compute; reflexivity|]. split; [vm_compute; reflexivity|]. split; [vm_compute; reflexivity|]. split; [vm_compute; reflexivity|].
  split; vm_compute; reflexivity.
Qed.

(** ** C47: arbitrary blobs *)

(** Whatever the blob holds, if its total size is right the walks over the structure block read
    nothing outside it. *)
Theorem C47_in_bounds : forall b, all_bytes b -> totalsize b <= zlen b -> zlen b < 2 ^ 31 - 4 -> forall fuel off s, - 2 ^ 31 <= off < 2 ^ 31 ->
  next_tag b off <> UB /\ get_name b off <> UB /\ find_node_offset fuel b off s <> UB /\ (zlen s + 1 < 2 ^ 32 -> subnode_offset fuel b off s <> UB).
Proof.
  intros b B T L fuel off s I. split; [|split; [|split]].
  - destruct (next_tag_safe b B T L off I) as (t & n & -> & _). discriminate.
  - destruct (get_name_fine b B T L off I) as (r & -> & _). discriminate.
  - exact (find_node_fine b B T L fuel off s I).
  - intro Ls. exact (subnode_fine b B T L fuel off s I Ls).
Qed.
Print Assumptions C47_in_bounds.
(** They end, unless the blob holds the word 0xFFFFFFF4. *)
Theorem C47_ends : forall b, all_bytes b -> totalsize b <= zlen b -> zlen b < 2 ^ 31 - 4 -> 16 <= version b -> (forall a, ld32 b a <> Val 0xFFFFFFF4) ->
  forall fuel start name, - 2 ^ 31 <= start < 2 ^ 31 -> (length b <= fuel)%nat -> (0 < fuel)%nat -> exists r, find_node_offset fuel b start name = Val r.
Proof. intros b B T L V Ns fuel start name I F F0. exact (find_node_ends b B T L V Ns fuel start name I F F0). Qed.
Print Assumptions C47_ends.
Definition blob_of (st strs : list Z) : list Z := header (40 + zlen st + zlen strs) 40 (40 + zlen st) 40 16 0 (zlen strs) (zlen st) ++ st ++ strs.
Example C47_nonvacuous : let b := blob_of (be32 1 ++ [120; 0; 0; 0] ++ be32 7 ++ be32 5) [] in
  totalsize b <= zlen b /\ 16 <= version b /\ find_node_offset 60 b (-1) [121] = Val (-3).
Proof. cbv zeta. split; [vm_compute; discriminate|split; [vm_compute; discriminate|vm_compute; reflexivity]]. Qed.
(** A property that claims 0xFFFFFFF4 bytes ends where it starts: the search never returns. *)
Definition stall_blob : list Z := blob_of (be32 1 ++ [0; 0; 0; 0] ++ be32 3 ++ be32 0xFFFFFFF4 ++ be32 0 ++ be32 2 ++ be32 9) [120; 0].
Theorem C47_stall_refuted : exists b name, all_bytes b /\ totalsize b <= zlen b /\ zlen b < 2 ^ 31 - 4 /\ check_header b = 0 /\ cstr name /\ forall fuel, find_node_offset fuel b (-1) name = NoFuel.
Proof.
  exists stall_blob, [121]. split; [vm_compute; repeat constructor; discriminate|]. split; [vm_compute; discriminate|]. split; [vm_compute; reflexivity|]. split; [vm_compute; reflexivity|]. split; [repeat constructor; lia|].
  assert (T : next_tag stall_blob 8 = Val (PROP, 8)) by (vm_compute; reflexivity).
  assert (S1 : forall k, next_node_loop k stall_blob 8 None = NoFuel) by (induction k as [|k IH]; cbn [next_node_loop]; [reflexivity|]; rewrite T; cbn [obind]; exact IH).
  intros [|k]; [vm_compute; reflexivity|]. unfold find_node_offset. assert (N : next_node (S k) stall_blob (-1) None = Val (0, None)) by (vm_compute; reflexivity). rewrite N. cbn [obind find_node_loop]. change (0 <? 0) with false. cbn iota.
  assert (G : get_name stall_blob 0 = Val (Some 44, 0)) by (vm_compute; reflexivity). rewrite G. cbn [obind]. change (0 =? zlen [121]) with false. cbn iota. cbn [obind].
  unfold next_node. change (0 <=? 0) with true. cbn iota. assert (C : check_node_offset stall_blob 0 = Val 8) by (vm_compute; reflexivity). rewrite C. cbn [obind]. change (8 <? 0) with false. cbn iota. rewrite S1. reflexivity.
Qed.
Print Assumptions C47_stall_refuted.
(** The name of a property is read wherever its offset points. *)
Theorem C47_name_refuted : exists b name, all_bytes b /\ totalsize b <= zlen b /\ zlen b < 2 ^ 31 - 4 /\ check_header b = 0 /\ cstr name /\ getprop 100 b 0 name = UB.
Proof.
  exists (blob_of (be32 1 ++ [0; 0; 0; 0] ++ be32 3 ++ be32 0 ++ be32 5000 ++ be32 2 ++ be32 9) [120; 0]), [120].
  split; [vm_compute; repeat constructor; discriminate|]. split; [vm_compute; discriminate|]. split; [vm_compute; reflexivity|]. split; [vm_compute; reflexivity|]. split; [repeat constructor; lia|]. vm_compute. reflexivity.
Qed.
Print Assumptions C47_name_refuted.
(** A property whose length wraps around is reported with a negative length, and an image with such
    data is copied with that length. *)
Definition wrap_blob : list Z :=
  blob_of (be32 1 ++ [0; 0; 0; 0] ++ be32 1 ++ [107; 0; 0; 0] ++ be32 3 ++ be32 0xFFFFFFFC ++ be32 3 ++ be32 4 ++ be32 8 ++ [0; 0; 16; 0] ++ be32 2 ++ be32 2 ++ be32 9) ([0; 0; 0] ++ str s_data ++ str s_load).
Theorem C47_length_refuted : exists b, all_bytes b /\ totalsize b <= zlen b /\ zlen b < 2 ^ 31 - 4 /\ check_header b = 0 /\
  (exists a, getprop 200 b 8 s_data = Val (Some a, -4)) /\ fit_load_image 200 0x10000 b [107] = UB.
Proof.
  exists wrap_blob. split; [vm_compute; repeat constructor; discriminate|]. split; [vm_compute; discriminate|]. split; [vm_compute; reflexivity|]. split; [vm_compute; reflexivity|]. split; [eexists; vm_compute; reflexivity|]. vm_compute. reflexivity.
Qed.
Print Assumptions C47_length_refuted.

(** ** C48: FIT images *)

(** The images of the default configuration are found. *)
Theorem C48_default : forall b d used, dtb b d used -> forall fuel, (length b <= fuel)%nat -> forall qc xc c q1 x1 k f,
  named_node (d_tree d) s_configurations = Some (qc, xc) -> 0 < qc -> prop_get (t_props xc) s_default = Some (c ++ [0]) -> cstr c ->
  named_node (d_tree d) c = Some (q1, x1) -> 0 < q1 -> prop_get (t_props x1) s_kernel = Some (k ++ [0]) -> prop_get (t_props x1) s_fdt = Some (f ++ [0]) ->
  exists ac ak af, fit_find_images fuel b = Val (Some ac, Some ak, Some af) /\ holds b ac (c ++ [0]) /\ holds b ak (k ++ [0]) /\ holds b af (f ++ [0]).
Proof.
  intros b d used D fuel F qc xc c q1 x1 k f H1 H2 H3 H4 H5 H6 H7 H8. destruct (images_conf b d used D fuel F qc xc c q1 x1 k f H1 H2 H3 H4 H5 H6 H7 H8) as (oc & ok & of_ & E & (ac & -> & Hc) & (ak & -> & Hk) & (af & -> & Hf)).
  exists ac, ak, af. auto.
Qed.
Print Assumptions C48_default.
(** Without configurations: the first image of type "kernel" and the first of type "flat_dt". *)
Theorem C48_types : forall b d used, dtb b d used -> forall fuel, (length b <= fuel)%nat -> named_node (d_tree d) s_configurations = None ->
  forall qk xk qf xf, with_prop (d_tree d) s_type s_kernel = Some (qk, xk) -> 0 < qk -> t_name xk <> [] -> with_prop (d_tree d) s_type s_flat_dt = Some (qf, xf) -> 0 < qf -> t_name xf <> [] ->
  exists ak af, fit_find_images fuel b = Val (None, Some ak, Some af) /\ holds b ak (t_name xk ++ [0]) /\ holds b af (t_name xf ++ [0]).
Proof.
  intros b d used D fuel F N qk xk qf xf H1 H2 H3 H4 H5 H6. destruct (images_plain b d used D fuel F N qk xk qf xf H1 H2 H3 H4 H5 H6) as (ok & of_ & E & (ak & -> & Hk) & (af & -> & Hf)). exists ak, af. auto.
Qed.
Print Assumptions C48_types.
(** Loading copies exactly the image's data to its load address and returns its entry point, else the
    load address; without a load address the data stay where they are.  [base] is the address of the
    blob. *)
Theorem C48_load : forall b d used, dtb b d used -> forall fuel, (length b <= fuel)%nat -> forall base image q x v, cstr image -> named_node (d_tree d) image = Some (q, x) -> 0 < q ->
  prop_get (t_props x) s_data = Some v ->
  exists a, holds b a v /\
    let load := address x s_load in
    let entry := address x s_entry in
    fit_load_image fuel base b image =
      Val (if (load =? 0) || (base + a =? load) then (base + a, zlen v, None)
           else (if entry =? 0 then load else entry, zlen v, Some (load, v))).
Proof.
  intros b d used D fuel F base image q x v C N Q E. destruct (load_ok b d used D fuel F base image q x v C N Q E) as (a & Ha & El). exists a. split; [exact Ha|]. cbv zeta. rewrite El.
  destruct (address x s_load =? 0); [reflexivity|]. destruct (base + a =? address x s_load); reflexivity.
Qed.
Print Assumptions C48_load.
Theorem C48_missing : forall b d used, dtb b d used -> forall fuel, (length b <= fuel)%nat -> forall base image, cstr image -> named_node (d_tree d) image = None -> fit_load_image fuel base b image = Val (0, 0, None).
Proof. intros b d used D fuel F base image C N. apply (load_missing b d used D fuel F base image C). rewrite N. exact Logic.I. Qed.
Print Assumptions C48_missing.
Example C48_nonvacuous : (exists ac ak af, fit_find_images 1000 (build ex_dt) = Val (Some ac, Some ak, Some af) /\ holds (build ex_dt) ak (str kern1)) /\
  fit_load_image 1000 0x100000 (build ex_dt) kern1 = Val (0x4004, 5, Some (0x4000, [1; 2; 3; 4; 5])).
Proof.
  split.
  - destruct (C48_default _ _ _ ex_dtb 1000 ltac:(apply Nat.leb_le; vm_compute; reflexivity) _ _ conf1 _ _ kern1 fdt1 ltac:(vm_compute; reflexivity) ltac:(vm_compute; reflexivity) ltac:(vm_compute; reflexivity) ltac:(repeat constructor; lia) ltac:(vm_compute; reflexivity) ltac:(vm_compute; reflexivity) ltac:(vm_compute; reflexivity) ltac:(vm_compute; reflexivity)) as (ac & ak & af & E & _ & H & _).
    exists ac, ak, af. auto.
  - vm_compute. reflexivity.
Qed.
(** Names are looked up in the whole tree: the image that is loaded need not be among "/images". *)
Definition twin_tree : tree := Node [] [] [Node [111] [] [Node kern1 [(s_data, [6; 6; 6]); (s_load, [0; 0; 0x50; 0])] []]; Node s_images [] [Node kern1 [(s_data, [1; 2; 3]); (s_load, [0; 0; 0x40; 0])] []]].
Definition twin_dt : dt := mkDT 400 40 16 0 [] twin_tree.
Theorem C48_scope_refuted : exists b d used images x v, dtb b d used /\ In images (t_kids (d_tree d)) /\ t_name images = s_images /\ In x (t_kids images) /\ t_name x = kern1 /\ prop_get (t_props x) s_data = Some v /\
  forall base, 0x10000 <= base -> exists r n load v', fit_load_image 1000 base b kern1 = Val (r, n, Some (load, v')) /\ v' <> v.
Proof.
  exists (build twin_dt), twin_dt, (room twin_dt), (nth 1 (t_kids twin_tree) twin_tree), (nth 0 (t_kids (nth 1 (t_kids twin_tree) twin_tree)) twin_tree), [1; 2; 3].
  assert (D : dtb (build twin_dt) twin_dt (room twin_dt)).
  { apply build_dtb; try (cbn [twin_dt d_rsv d_comp d_cpu]; lia).
    - cbn [twin_dt d_tree]. repeat constructor; cbn; lia.
    - constructor.
    - split; [vm_compute; discriminate|reflexivity]. }
  split; [exact D|]. split; [right; left; reflexivity|]. split; [reflexivity|]. split; [left; reflexivity|]. split; [reflexivity|]. split; [reflexivity|]. intros base Hbase.
  destruct (C48_load _ _ _ D 1000 ltac:(apply Nat.leb_le; vm_compute; reflexivity) base kern1 _ _ [6; 6; 6] ltac:(repeat constructor; lia) ltac:(vm_compute; reflexivity) ltac:(vm_compute; reflexivity) ltac:(vm_compute; reflexivity)) as (a & Ha & E).
  cbv zeta in E. match type of E with context [address ?x s_load] => assert (El : address x s_load = 0x5000) by (vm_compute; reflexivity) end.
  rewrite El in E. change (20480 =? 0) with false in E. cbn [orb] in E. pose proof (holds_nn _ _ _ Ha) as [A0 _]. destruct (Z.eqb_spec (base + a) 20480); [lia|]. eexists _, _, _, _. split; [exact E|discriminate].
Qed.
Print Assumptions C48_scope_refuted.
