(** Every device tree has a blob; the FIT functions on a blob that holds a device tree. *)
From Verif Require Import Base BaseLemmas StringModel FdtModel FdtSpec FdtProofs FdtTree FdtRead FdtEdit.
Local Ltac Zify.zify_post_hook ::= idtac.

Definition zeros (n : Z) : list Z := repeat 0 (Z.to_nat n).
Lemma zeros_len : forall n, 0 <= n -> zlen (zeros n) = n.
Proof. intros n H. unfold zeros, zlen. rewrite repeat_length. lia. Qed.
Lemma zeros_bytes : forall n, all_bytes (zeros n).
Proof. intro n. apply Forall_forall. intros y Hy. apply repeat_spec in Hy. subst y. unfold is_byte. lia. Qed.
Fixpoint place (n : list Z) (names : list (list Z)) : Z :=
  match names with [] => 0 | m :: r => if seqb m n then 0 else zlen m + 1 + place n r end.
Definition enc (names : list (list Z)) (k : tok) : list Z :=
  match k with
  | KBegin n => be32 1 ++ n ++ [0] ++ zeros (up4 (zlen n + 1) - (zlen n + 1))
  | KProp n v => be32 3 ++ be32 (zlen v) ++ be32 (place n names) ++ v ++ zeros (up4 (zlen v) - zlen v)
  | KEnd => be32 2
  | KFin => be32 9
  end.
Definition tok_names (ts : list tok) : list (list Z) := flat_map (fun k => match k with KProp n _ => [n] | _ => [] end) ts.
(** The blob of a device tree: structure block, then strings, then zeros. *)
Definition build (d : dt) : list Z :=
  let ts := flat (d_tree d) ++ [KFin] in
  let names := tok_names ts in
  let st := flat_map (enc names) ts in
  let strs := strings names in
  let os := 40 + zlen (d_pre d) in
  header (d_total d) os (os + zlen st) (d_rsv d) (d_comp d) (d_cpu d) (zlen strs) (zlen st) ++ d_pre d ++ st ++ strs ++ zeros (d_total d - (os + zlen st + zlen strs)).
Definition room (d : dt) : Z := 40 + zlen (d_pre d) + size (flat (d_tree d) ++ [KFin]) + zlen (strings (tok_names (flat (d_tree d) ++ [KFin]))).

Lemma place_ok : forall n names, In n names -> exists before after, strings names = before ++ n ++ [0] ++ after /\ zlen before = place n names.
Proof.
  intros n names. induction names as [|m r IH]; intros I; [destruct I|]. cbn [place strings flat_map]. fold (strings r). destruct (seqb m n) eqn:E.
  - apply seqb_eq in E. subst m. exists [], (strings r). rewrite <- app_assoc. split; reflexivity.
  - destruct I as [->|I]; [rewrite seqb_refl in E; discriminate|]. destruct (IH I) as (before & after & E1 & E2). exists (m ++ [0] ++ before), after. rewrite E1, <- !app_assoc. split; [reflexivity|]. zs. lia.
Qed.
Lemma enc_ok : forall names k, (forall n v, k = KProp n v -> In n names) -> zlen (strings names) < 2 ^ 32 -> is_tok (strings names) k (enc names k).
Proof.
  intros names k I L. unfold is_tok. destruct k as [n|n v| |]; cbn [enc t_size].
  - pose proof (up4_ge (zlen n + 1)). split; [zs; rewrite be32_len, zeros_len by lia; lia|]. eexists. reflexivity.
  - pose proof (up4_ge (zlen v)). split; [zs; rewrite !be32_len, zeros_len by lia; lia|]. destruct (place_ok n names (I n v eq_refl)) as (before & after & E1 & E2). eexists _, _. split; [reflexivity|]. split; [|exists before, after; split; assumption].
    assert (zlen before <= zlen (strings names)) by (rewrite E1; zs; pose proof (zlen_nn _ n); pose proof (zlen_nn _ after); lia). pose proof (zlen_nn _ before). lia.
  - split; reflexivity.
  - split; reflexivity.
Qed.
Lemma encs_ok : forall names ts, (forall n v, In (KProp n v) ts -> In n names) -> zlen (strings names) < 2 ^ 32 -> are_toks (strings names) ts (flat_map (enc names) ts).
Proof.
  intros names ts. induction ts as [|k ts IH]; intros I L; cbn [are_toks flat_map]; [reflexivity|]. eexists _, _. split; [reflexivity|]. split.
  - apply enc_ok; [|exact L]. intros n v ->. apply (I n v). left. reflexivity.
  - apply IH; [|exact L]. intros n v H. apply (I n v). right. exact H.
Qed.
Lemma names_in : forall ts n v, In (KProp n v) ts -> In n (tok_names ts).
Proof. intros ts n v H. unfold tok_names. apply in_flat_map. exists (KProp n v). split; [exact H|left; reflexivity]. Qed.
Lemma enc_bytes : forall names k, good_tok k -> all_bytes (enc names k).
Proof.
  intros names k G. destruct k as [n|n v| |]; cbn [enc good_tok] in *; repeat (apply bytes_app; split); try apply be32_bytes; try apply zeros_bytes; try (apply cstr_bytes; exact G); try apply G.
  constructor; [unfold is_byte; lia|constructor].
Qed.
Lemma build_dtb : forall d, Forall good_tok (flat (d_tree d)) -> all_bytes (d_pre d) -> 0 <= d_rsv d < 2 ^ 32 -> 0 <= d_comp d <= 17 -> 0 <= d_cpu d < 2 ^ 32 -> room d <= d_total d < 2 ^ 31 ->
  dtb (build d) d (room d).
Proof.
  intros d G Bp R1 R2 R3 R4. set (ts := flat (d_tree d) ++ [KFin]). set (names := tok_names ts).
  pose proof (zlen_nn _ (d_pre d)) as Np. pose proof (zlen_nn _ (strings names)) as Ns. pose proof (size_ge ts) as Sz. pose proof (zlen_nn _ ts) as Nt. unfold room in R4. fold ts in R4. fold names in R4.
  assert (T : are_toks (strings names) ts (flat_map (enc names) ts)) by (apply encs_ok; [intros n v; apply names_in|lia]). pose proof (are_toks_size _ _ _ T) as St.
  assert (Gt : Forall good_tok ts) by (apply Forall_app; split; [exact G|constructor; [exact Logic.I|constructor]]).
  exists (flat_map (enc names) ts), [], (strings names), (zeros (d_total d - (40 + zlen (d_pre d) + zlen (flat_map (enc names) ts) + zlen (strings names)))). cbv zeta. rewrite zlen_nil, Z.add_0_r.
  unfold build. cbv zeta. fold ts. fold names. split; [reflexivity|]. split; [unfold room; fold ts; fold names; lia|].
  assert (Lz := zeros_len (d_total d - (40 + zlen (d_pre d) + zlen (flat_map (enc names) ts) + zlen (strings names))) ltac:(lia)).
  match goal with |- context [zlen (header ?a ?b ?c ?dd ?e ?f ?g ?h ++ ?r)] => assert (Lb : zlen (header a b c dd e f g h ++ r) = d_total d) by (rewrite zlen_app, header_len; zs; lia) end. rewrite Lb.
  split; [unfold room; fold ts; fold names; lia|]. split; [lia|]. split; [exact R1|]. split; [exact R2|]. split; [exact R3|]. split; [|split; [exact G|exact T]].
  apply bytes_app. split; [apply header_bytes|]. apply bytes_app. split; [exact Bp|]. apply bytes_app. split; [|apply bytes_app; split; [|apply zeros_bytes]].
  - apply Forall_forall. intros y Hy. apply in_flat_map in Hy. destruct Hy as (k & Hk & Hy). exact (proj1 (Forall_forall _ _) (enc_bytes names k (proj1 (Forall_forall _ _) Gt k Hk)) y Hy).
  - apply Forall_forall. intros y Hy. apply in_flat_map in Hy. destruct Hy as (n & Hn & Hy). unfold names, tok_names in Hn. apply in_flat_map in Hn. destruct Hn as (k & Hk & Hn). destruct k as [|n' v| |]; cbn in Hn; try tauto. destruct Hn as [<-|[]].
    pose proof (proj1 (Forall_forall _ _) Gt _ Hk) as [Gn _]. apply in_app_or in Hy. destruct Hy as [Hy|[<-|[]]]; [exact (proj1 (Forall_forall _ _) (cstr_bytes _ Gn) y Hy)|unfold is_byte; lia].
Qed.

(** ** FIT *)

Section fit.
Context (b : blob) (d : dt) (used : Z) (D : dtb b d used) (fuel : nat) (Ff : (length b <= fuel)%nat).
Lemma cstr_at_ok : forall a s, holds b a (s ++ [0]) -> cstr s -> cstr_at b a = Val s.
Proof using. intros a s H C. unfold cstr_at. pose proof (holds_length _ _ _ H) as L. rewrite app_length in L. cbn [length] in L. rewrite (strlen_ok b s (S (length b)) a H C) by (clear Ff; lia). cbn [obind]. apply holds_lds. apply holds_l in H. exact H. Qed.
Lemma find_some_in : forall A (f : A -> bool) l x, find f l = Some x -> In x l.
Proof using. intros A f l x H. apply find_some in H. apply H. Qed.
Lemma find_named : forall name, cstr name -> find_node_offset fuel b (-1) name = Val (match named_node (d_tree d) name with Some (q, _) => q | None => -6 end).
Proof using D Ff. intros name C. rewrite (find_node_tree b d used D fuel (-1) _ name Ff C (from_start d (-1) ltac:(lia))). unfold first_of, named_node. reflexivity. Qed.
Lemma load_ok : forall base image q x v, cstr image -> named_node (d_tree d) image = Some (q, x) -> 0 < q -> prop_get (t_props x) s_data = Some v ->
  exists a, holds b a v /\ fit_load_image fuel base b image =
    Val (if negb (address x s_load =? 0) && negb (base + a =? address x s_load) then (if address x s_entry =? 0 then address x s_load else address x s_entry, zlen v, Some (address x s_load, v)) else (base + a, zlen v, None)).
Proof using D Ff.
  intros base image q x v C Fq Q Ev. unfold fit_load_image. rewrite (find_named image C), Fq. cbn [obind]. destruct (Z.ltb_spec 0 q); [|lia].
  assert (I : In (q, x) (nodes 0 (d_tree d))) by (exact (find_some_in _ _ _ _ Fq)). assert (Cd : forall n, n = s_data \/ n = s_load \/ n = s_entry -> cstr n) by (intros n [ -> |[ -> | -> ]]; repeat constructor).
  pose proof (getprop_tree b d used D fuel q x s_data Ff (Cd s_data ltac:(tauto)) I) as Gd. rewrite Ev in Gd. destruct Gd as (a & -> & Ha & _). cbn [obind].
  rewrite (getprop_address_tree b d used D fuel q x s_load Ff (Cd s_load ltac:(tauto)) I). cbn [obind]. rewrite (getprop_address_tree b d used D fuel q x s_entry Ff (Cd s_entry ltac:(tauto)) I). cbn [obind]. unfold be_val. fold (address x s_load). fold (address x s_entry).
  exists a. split; [exact Ha|]. destruct (negb (address x s_load =? 0) && negb (base + a =? address x s_load)); [|reflexivity]. pose proof (zlen_nn _ v). destruct (Z.ltb_spec (zlen v) 0); [lia|]. rewrite (holds_lds _ _ _ Ha). cbn [obind]. reflexivity.
Qed.
Lemma load_missing : forall base image, cstr image -> match named_node (d_tree d) image with Some (q, _) => q = 0 | None => True end -> fit_load_image fuel base b image = Val (0, 0, None).
Proof using D Ff. intros base image C H. unfold fit_load_image. rewrite (find_named image C). cbn [obind]. destruct (named_node (d_tree d) image) as [[q x]|]; [subst q|]; reflexivity. Qed.

(** A string property: its address, or nothing. *)
Definition points (o : option Z) (s : list Z) : Prop := exists a, o = Some a /\ holds b a (s ++ [0]).
Lemma name_of_type_ok : forall ty, cstr ty -> match with_prop (d_tree d) s_type ty with
  | Some (q, x) => 0 < q -> t_name x <> [] -> exists o, name_of_type fuel b ty = Val o /\ points o (t_name x)
  | None => name_of_type fuel b ty = Val None end.
Proof using D Ff.
  intros ty C. unfold name_of_type. assert (Ct : cstr s_type) by (repeat constructor). rewrite (find_prop_tree b d used D fuel (-1) _ s_type ty Ff Ct C (from_start d (-1) ltac:(lia))). cbn [obind]. unfold first_of, with_prop.
  destruct (find _ (nodes 0 (d_tree d))) as [[q x]|] eqn:E; [|reflexivity]. intros Q N. destruct (Z.ltb_spec 0 q); [|lia]. pose proof (find_some_in _ _ _ _ E) as I.
  destruct (get_name_tree b d used D q x I) as (a & -> & Ha & _). cbn [obind]. destruct (t_name x) as [|c s] eqn:En; [congruence|]. zs. pose proof (zlen_nn _ s). destruct (Z.ltb_spec 0 (1 + zlen s)); [|lia]. eexists. split; [reflexivity|]. exists a. split; [reflexivity|exact Ha].
Qed.
Lemma images_conf : forall qc xc c q1 x1 k f, named_node (d_tree d) s_configurations = Some (qc, xc) -> 0 < qc -> prop_get (t_props xc) s_default = Some (c ++ [0]) -> cstr c ->
  named_node (d_tree d) c = Some (q1, x1) -> 0 < q1 -> prop_get (t_props x1) s_kernel = Some (k ++ [0]) -> prop_get (t_props x1) s_fdt = Some (f ++ [0]) ->
  exists oc ok of_, fit_find_images fuel b = Val (oc, ok, of_) /\ points oc c /\ points ok k /\ points of_ f.
Proof using D Ff.
  intros qc xc c q1 x1 k f Nc Qc Pc Cc N1 Q1 Pk Pf. unfold fit_find_images. assert (C0 : forall n, n = s_configurations \/ n = s_default \/ n = s_kernel \/ n = s_fdt -> cstr n) by (intros n [ -> |[ -> |[ -> | -> ]]]; repeat constructor).
  rewrite (find_named s_configurations (C0 s_configurations ltac:(tauto))), Nc. cbn [obind]. destruct (Z.ltb_spec 0 qc); [|lia].
  pose proof (getprop_tree b d used D fuel qc xc s_default Ff (C0 s_default ltac:(tauto)) (find_some_in _ _ _ _ Nc)) as Gd. rewrite Pc in Gd. destruct Gd as (ac & -> & Hc & _). cbn [obind].
  zs. pose proof (zlen_nn _ c). destruct (Z.ltb_spec 0 (zlen c + (1 + 0))); [|lia]. rewrite (cstr_at_ok ac c Hc Cc). cbn [obind].
  rewrite (find_named c Cc), N1. cbn [obind]. destruct (Z.ltb_spec 0 q1); [|lia]. pose proof (find_some_in _ _ _ _ N1) as I1.
  pose proof (getprop_tree b d used D fuel q1 x1 s_kernel Ff (C0 s_kernel ltac:(tauto)) I1) as Gk. rewrite Pk in Gk. destruct Gk as (ak & -> & Hk & _). cbn [obind].
  pose proof (getprop_tree b d used D fuel q1 x1 s_fdt Ff (C0 s_fdt ltac:(tauto)) I1) as Gf. rewrite Pf in Gf. destruct Gf as (af & -> & Hf & _). cbn [obind].
  eexists _, _, _. split; [reflexivity|]. split; [exists ac; auto|]. split; [exists ak; auto|exists af; auto].
Qed.
Lemma images_plain : named_node (d_tree d) s_configurations = None ->
  forall qk xk qf xf, with_prop (d_tree d) s_type s_kernel = Some (qk, xk) -> 0 < qk -> t_name xk <> [] -> with_prop (d_tree d) s_type s_flat_dt = Some (qf, xf) -> 0 < qf -> t_name xf <> [] ->
  exists ok of_, fit_find_images fuel b = Val (None, ok, of_) /\ points ok (t_name xk) /\ points of_ (t_name xf).
Proof using D Ff.
  intros Nc qk xk qf xf Tk Qk Nk Tf Qf Nf. unfold fit_find_images. assert (C0 : forall n, n = s_configurations \/ n = s_kernel \/ n = s_flat_dt -> cstr n) by (intros n [ -> |[ -> | -> ]]; repeat constructor).
  rewrite (find_named s_configurations (C0 s_configurations ltac:(tauto))), Nc. cbn [obind]. change (0 <? -6) with false. cbn iota. cbn [obind].
  pose proof (name_of_type_ok s_kernel (C0 s_kernel ltac:(tauto))) as H1. rewrite Tk in H1. destruct (H1 Qk Nk) as (ok & -> & Hk). cbn [obind].
  pose proof (name_of_type_ok s_flat_dt (C0 s_flat_dt ltac:(tauto))) as H2. rewrite Tf in H2. destruct (H2 Qf Nf) as (of_ & -> & Hf). cbn [obind].
  exists ok, of_. split; [reflexivity|]. split; assumption.
Qed.
End fit.
