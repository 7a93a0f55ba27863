(** Reading a blob that holds a device tree. *)
From Verif Require Import Base BaseLemmas StringModel FdtModel FdtSpec.
Local Ltac Zify.zify_post_hook ::= idtac.

Lemma zlen_app : forall A (a b : list A), zlen (a ++ b) = zlen a + zlen b.
Proof. intros. unfold zlen. rewrite app_length. lia. Qed.
Lemma zlen_cons : forall A (x : A) l, zlen (x :: l) = 1 + zlen l.
Proof. intros. unfold zlen. cbn [length]. lia. Qed.
Lemma zlen_nn : forall A (l : list A), 0 <= zlen l.
Proof. intros. unfold zlen. lia. Qed.
Lemma zlen_nil : forall A, zlen (@nil A) = 0.
Proof. reflexivity. Qed.
Ltac zs := repeat first [rewrite zlen_app | rewrite zlen_cons | rewrite zlen_nil].
Ltac zsi H := repeat first [rewrite zlen_app in H | rewrite zlen_cons in H | rewrite zlen_nil in H].

Lemma seqb_eq : forall a b, seqb a b = true <-> a = b.
Proof. intros. unfold seqb. destruct (list_eq_dec Z.eq_dec a b); split; intros; try assumption; try reflexivity; try discriminate. contradiction. Qed.
Lemma seqb_neq : forall a b, seqb a b = false <-> a <> b.
Proof. intros. unfold seqb. destruct (list_eq_dec Z.eq_dec a b); split; intros; try assumption; try reflexivity; try discriminate; try contradiction. Qed.
Lemma seqb_refl : forall a, seqb a a = true.
Proof. intro. apply seqb_eq. reflexivity. Qed.

(** ** Words *)

Lemma be32b_be32 : forall v, be32b v = be32 v.
Proof.
  intro v. unfold be32b, be32. cbn [le_bytes rev app].
  rewrite !Z.div_div by lia. reflexivity.
Qed.
Lemma be_val_be32 : forall v, 0 <= v < 2 ^ 32 -> be_val (be32 v) = v.
Proof.
  intros v H. unfold be_val, be32. cbn [rev app le_val].
  assert (E : forall k, v / 2 ^ (k + 8) = v / 2 ^ k / 256 \/ k < 0).
  { intro k. destruct (Z.ltb_spec k 0); [right; lia|left]. rewrite Z.pow_add_r by lia. change (2 ^ 8) with 256. rewrite Z.div_div; [reflexivity|apply Z.pow_nonzero; lia|lia]. }
  destruct (E 16) as [E1|]; [|lia]. destruct (E 8) as [E2|]; [|lia]. change (16 + 8) with 24 in E1. change (8 + 8) with 16 in E2.
  rewrite E1, E2. change (2 ^ 8) with 256.
  pose proof (Z.div_mod v 256 ltac:(lia)). pose proof (Z.div_mod (v / 256) 256 ltac:(lia)). pose proof (Z.div_mod (v / 256 / 256) 256 ltac:(lia)).
  pose proof (Z.div_mod (v / 256 / 256 / 256) 256 ltac:(lia)).
  assert (v / 256 / 256 / 256 / 256 = 0).
  { rewrite !Z.div_div by lia. apply Z.div_small. change (256 * 256 * 256 * 256) with (2 ^ 32). lia. }
  lia.
Qed.
Lemma be32_len : forall v, zlen (be32 v) = 4.
Proof. reflexivity. Qed.
Lemma be32_bytes : forall v, all_bytes (be32 v).
Proof. intro v. unfold be32, all_bytes. repeat constructor; try (apply Z.mod_pos_bound; lia). Qed.

(** ** Places in a blob *)


Lemma holds_app : forall b a l1 l2, holds b a (l1 ++ l2) -> holds b a l1 /\ holds b (a + zlen l1) l2.
Proof.
  intros b a l1 l2 (A & E & -> & L). split.
  - exists A, (l2 ++ E). rewrite <- app_assoc. auto.
  - exists (A ++ l1), E. rewrite <- !app_assoc. split; [reflexivity|]. zs. lia.
Qed.
Lemma holds_l : forall b a l1 l2, holds b a (l1 ++ l2) -> holds b a l1.
Proof. intros b a l1 l2 H. apply holds_app in H. apply H. Qed.
Lemma holds_r : forall b a l1 l2 a', holds b a (l1 ++ l2) -> a' = a + zlen l1 -> holds b a' l2.
Proof. intros b a l1 l2 a' H ->. apply holds_app in H. apply H. Qed.
Lemma holds_nn : forall b a l, holds b a l -> 0 <= a /\ a + zlen l <= zlen b.
Proof. intros b a l (A & E & -> & L). zs. pose proof (zlen_nn _ A). pose proof (zlen_nn _ E). lia. Qed.

Lemma holds_lds : forall b a l, holds b a l -> lds b a (zlen l) = Val l.
Proof.
  intros b a l H. pose proof (holds_nn _ _ _ H). destruct H as (A & E & Eb & L). unfold lds.
  destruct (Z.leb_spec (zlen l) 0).
  - destruct l; [reflexivity|]. zsi H. pose proof (zlen_nn _ l). lia.
  - destruct (Z.ltb_spec a 0); [lia|]. destruct (Z.ltb_spec (zlen b) (a + zlen l)); [lia|]. cbn [orb].
    subst b a. unfold sub. f_equal. unfold zlen. rewrite !Nat2Z.id.
    rewrite skipn_app, skipn_all, Nat.sub_diag. cbn [app skipn]. rewrite firstn_app, firstn_all, Nat.sub_diag. cbn [firstn]. apply app_nil_r.
Qed.
Lemma holds_ldb : forall b a c l, holds b a (c :: l) -> ldb b a = Val c.
Proof.
  intros b a c l H. pose proof (holds_nn _ _ _ H). destruct H as (A & E & -> & L). unfold ldb.
  destruct (Z.ltb_spec a 0); [lia|]. subst a. unfold zlen. rewrite Nat2Z.id, nth_error_app2 by lia. rewrite Nat.sub_diag. reflexivity.
Qed.
Lemma holds_ld32 : forall b a v l, holds b a (be32 v ++ l) -> 0 <= v < 2 ^ 32 -> ld32 b a = Val v.
Proof.
  intros b a v l H V. unfold ld32. apply holds_l in H. change 4 with (zlen (be32 v)). rewrite (holds_lds _ _ _ H). cbn [obind].
  rewrite be_val_be32 by exact V. reflexivity.
Qed.

Lemma eq_at_same_len : forall b s a l, holds b a l -> zlen l = zlen s -> eq_at b a s = Val (seqb l s).
Proof.
  intros b s. induction s as [|c s IH]; intros a l H L.
  - destruct l; [reflexivity|]. zsi L. pose proof (zlen_nn _ l). lia.
  - destruct l as [|v l]; zsi L; [pose proof (zlen_nn _ s); lia|]. cbn [eq_at]. rewrite (holds_ldb _ _ _ _ H). cbn [obind].
    destruct (Z.eqb_spec v c) as [ -> |Ne].
    + rewrite (IH (a + 1) l); [|apply (holds_r b a [c] l); [exact H|reflexivity]|lia].
      f_equal. destruct (seqb l s) eqn:S1; symmetry; [apply seqb_eq in S1; subst; apply seqb_refl|].
      apply seqb_neq in S1. apply seqb_neq. congruence.
    + f_equal. symmetry. apply seqb_neq. congruence.
Qed.
Lemma eq_at_str : forall b s n a, holds b a (n ++ [0]) -> cstr n -> cstr s -> eq_at b a (s ++ [0]) = Val (seqb n s).
Proof.
  intros b s. induction s as [|c s IH]; intros n a H Cn Cs.
  - cbn [app eq_at]. destruct n as [|v n]; cbn [app] in H; rewrite (holds_ldb _ _ _ _ H); cbn [obind]; [reflexivity|].
    inversion Cn; subst. destruct (Z.eqb_spec v 0); [lia|reflexivity].
  - cbn [app eq_at]. inversion Cs; subst. destruct n as [|v n]; cbn [app] in H; rewrite (holds_ldb _ _ _ _ H); cbn [obind].
    + destruct (Z.eqb_spec 0 c); [lia|reflexivity].
    + inversion Cn; subst. destruct (Z.eqb_spec v c) as [ -> |Ne].
      * rewrite (IH n (a + 1)); [|apply (holds_r b a [c] (n ++ [0])); [exact H|reflexivity]|assumption|assumption].
        f_equal. destruct (seqb n s) eqn:S1; symmetry; [apply seqb_eq in S1; subst; apply seqb_refl|].
        apply seqb_neq in S1. apply seqb_neq. congruence.
      * f_equal. symmetry. apply seqb_neq. congruence.
Qed.
Lemma strlen_ok : forall b n fuel a, holds b a (n ++ [0]) -> cstr n -> (length n < fuel)%nat -> strlen_at fuel b a = Val (zlen n).
Proof.
  intros b n. induction n as [|c n IH]; intros fuel a H C F; (destruct fuel as [|fuel]; [cbn [length] in F; lia|]); cbn [app] in H; cbn [strlen_at]; rewrite (holds_ldb _ _ _ _ H); cbn [obind].
  - reflexivity.
  - inversion C; subst. destruct (Z.eqb_spec c 0); [lia|].
    rewrite (IH fuel (a + 1)); [|apply (holds_r b a [c] (n ++ [0])); [exact H|reflexivity]|assumption|cbn [length] in F; lia].
    cbn [obind]. f_equal. zs. lia.
Qed.
Lemma holds_length : forall b a l, holds b a l -> (length l <= length b)%nat.
Proof. intros b a l (A & E & -> & _). rewrite !app_length. lia. Qed.

(** ** Rounding *)

Lemma up4_ge : forall x, x <= up4 x < x + 4.
Proof. intro x. unfold up4. pose proof (Z.div_mod (x + 3) 4 ltac:(lia)). pose proof (Z.mod_pos_bound (x + 3) 4 ltac:(lia)). lia. Qed.
Lemma up4_mod : forall x, up4 x mod 4 = 0.
Proof. intro x. unfold up4. apply Z.mod_mul. lia. Qed.
Lemma up4_add : forall o x, o mod 4 = 0 -> up4 (o + x) = o + up4 x.
Proof.
  intros o x H. unfold up4. apply Z.mod_divide in H; [|lia]. destruct H as [k ->].
  replace (k * 4 + x + 3) with (x + 3 + k * 4) by lia. rewrite Z.div_add by lia. lia.
Qed.
Lemma add_mod4 : forall a b, a mod 4 = 0 -> b mod 4 = 0 -> (a + b) mod 4 = 0.
Proof. intros a b A B. rewrite Z.add_mod, A, B by lia. reflexivity. Qed.
Lemma t_size_mod : forall k, t_size k mod 4 = 0.
Proof. intros [n|n d| |]; cbn [t_size]; try reflexivity; apply add_mod4; try reflexivity; apply up4_mod. Qed.
Lemma t_size_ge : forall k, 4 <= t_size k.
Proof. intros [n|n d| |]; cbn [t_size]; try lia; [pose proof (up4_ge (zlen n + 1)); pose proof (zlen_nn _ n)|pose proof (up4_ge (zlen d)); pose proof (zlen_nn _ d)]; lia. Qed.
Lemma size_app : forall a b, size (a ++ b) = size a + size b.
Proof. induction a as [|k a IH]; intro b; cbn [app size]; [reflexivity|]. rewrite IH. lia. Qed.
Lemma size_mod : forall ts, size ts mod 4 = 0.
Proof. induction ts as [|k ts IH]; [reflexivity|]. cbn [size]. apply add_mod4; [apply t_size_mod|exact IH]. Qed.
Lemma size_ge : forall ts, 4 * zlen ts <= size ts.
Proof. induction ts as [|k ts IH]; [reflexivity|]. cbn [size]. zs. pose proof (t_size_ge k). lia. Qed.

Lemma to_int_small : forall v, - 2 ^ 31 <= v < 2 ^ 31 -> to_int v = v.
Proof. intros v H. unfold to_int. rewrite Z.mod_small by lia. lia. Qed.
Lemma tagalign_small : forall v, 0 <= v < 2 ^ 31 - 4 -> tagalign v = up4 v.
Proof. intros v H. unfold tagalign. change (align4 v) with (up4 v). pose proof (up4_ge v). apply to_int_small. lia. Qed.

(** ** Offsets *)

(** The structure block's place and size, and the limits. *)
Record geo (b : blob) (os ss tot : Z) : Prop := mkG {
  g_os : off_struct b = os; g_ss : size_struct b = ss; g_ver : version b = 17; g_tot : totalsize b = tot;
  g_nn : 0 <= os; g_fit : os + ss <= tot; g_len : tot <= zlen b; g_lim : tot < 2 ^ 31
}.

Lemma offset_ptr_ok : forall b os ss tot o n, geo b os ss tot -> 0 <= o -> 0 <= n -> o + n <= ss -> offset_ptr b o n = Some (os + o).
Proof.
  intros b os ss tot o n G Ho Hn L. destruct G. unfold offset_ptr. rewrite g_os0, g_ss0, g_ver0, g_tot0.
  rewrite (Z.mod_small (o + os)) by lia. rewrite (Z.mod_small (o + os + n)) by lia. rewrite (Z.mod_small (o + n)) by lia.
  destruct (Z.ltb_spec o 0); [lia|]. destruct (Z.ltb_spec (o + os) o); [lia|]. destruct (Z.ltb_spec (o + os + n) (o + os)); [lia|].
  destruct (Z.ltb_spec tot (o + os + n)); [lia|]. cbn [orb]. change (0x11 <=? 17) with true. cbn [andb].
  destruct (Z.ltb_spec (o + n) o); [lia|]. destruct (Z.ltb_spec ss (o + n)); [lia|]. reflexivity.
Qed.

Lemma skip_name_ok : forall b os ss tot n fuel o, geo b os ss tot -> holds b (os + o) (n ++ [0]) -> cstr n -> 0 <= o -> o + zlen n + 1 <= ss ->
  (length n < fuel)%nat -> skip_name fuel b o = Val (Some (o + zlen n + 1)).
Proof.
  intros b os ss tot n. induction n as [|c n IH]; intros fuel o G H C Ho L F; (destruct fuel as [|fuel]; [cbn [length] in F; lia|]);
    cbn [skip_name]; zsi L; pose proof (g_lim _ _ _ _ G); pose proof (g_fit _ _ _ _ G); pose proof (g_nn _ _ _ _ G).
  - rewrite (offset_ptr_ok _ _ _ _ o 1 G) by lia. cbn [app] in H. rewrite (holds_ldb _ _ _ _ H). cbn [obind]. change (0 =? 0) with true. cbn iota.
    rewrite to_int_small by lia. zs. do 2 f_equal. lia.
  - pose proof (zlen_nn _ n). rewrite (offset_ptr_ok _ _ _ _ o 1 G) by lia. cbn [app] in H. rewrite (holds_ldb _ _ _ _ H). cbn [obind]. inversion C; subst.
    destruct (Z.eqb_spec c 0); [lia|]. rewrite to_int_small by lia. rewrite (IH fuel (o + 1) G); [do 2 f_equal; zs; lia| |assumption|lia|lia|cbn [length] in F; lia].
    apply (holds_r b (os + o) [c] (n ++ [0])); [exact H|]. change (zlen [c]) with 1. lia.
Qed.

Definition tag_of (k : tok) : Z := match k with KBegin _ => BEGIN_NODE | KProp _ _ => PROP | KEnd => END_NODE | KFin => FEND end.
(** The token [k] is at offset [o]. *)
Definition tok_at (b : blob) (strs : list Z) (os o : Z) (k : tok) : Prop := exists l, is_tok strs k l /\ holds b (os + o) l /\ good_tok k.

Lemma next_tag_ok : forall b strs os ss tot o k, geo b os ss tot -> tok_at b strs os o k -> 0 <= o -> o mod 4 = 0 -> o + t_size k <= ss ->
  next_tag b o = Val (tag_of k, o + t_size k).
Proof.
  intros b strs os ss tot o k G (l & [Ll K] & H & Gk) Ho Mo L. pose proof (t_size_ge k) as Gs.
  pose proof (g_lim _ _ _ _ G) as L1. pose proof (g_fit _ _ _ _ G) as L2. pose proof (g_nn _ _ _ _ G) as L3.
  unfold next_tag. rewrite (offset_ptr_ok _ _ _ _ o 4 G) by lia.
  assert (F : forall tag off, o <= off -> off <= o + t_size k -> up4 off = o + t_size k ->
    match offset_ptr b o ((off - o) mod 2 ^ 32) with None => Val (FEND, ERR_BADSTRUCTURE) | Some _ => Val (tag, tagalign off) end = Val (tag, o + t_size k)).
  { intros tag off H1 H2 H3. rewrite Z.mod_small by lia. rewrite (offset_ptr_ok _ _ _ _ o (off - o) G) by lia.
    unfold tagalign. change (align4 off) with (up4 off). rewrite H3, to_int_small by lia. reflexivity. }
  rewrite (to_int_small (o + 4)) by lia.
  destruct k as [n|n d| |]; cbn [t_size tag_of] in *.
  - destruct K as [pad ->]. rewrite (holds_ld32 _ _ 1 _ H) by lia. cbn [obind]. change (1 =? BEGIN_NODE) with true. cbn iota.
    pose proof (up4_ge (zlen n + 1)) as U. pose proof (zlen_nn _ n).
    assert (Hn : holds b (os + (o + 4)) (n ++ [0])).
    { apply (holds_r _ _ _ _ (os + (o + 4))) in H; [|rewrite be32_len; lia]. change (n ++ [0] ++ pad) with (n ++ ([0] ++ pad)) in H. rewrite app_assoc in H. apply holds_l in H. exact H. }
    pose proof (holds_length _ _ _ Hn) as Hl. rewrite app_length in Hl. cbn [length] in Hl.
    rewrite (skip_name_ok _ _ _ _ n (S (length b)) (o + 4) G Hn) by (try assumption; lia). cbn [obind]. apply F; [lia|lia|].
    replace (o + 4 + zlen n + 1) with (o + (4 + (zlen n + 1))) by lia. rewrite (up4_add o) by exact Mo. rewrite (up4_add 4) by reflexivity. reflexivity.
  - destruct K as (at_ & pad & -> & Ha & _). pose proof (up4_ge (zlen d)) as U. pose proof (zlen_nn _ d) as D.
    pose proof H as H'. rewrite (holds_ld32 _ _ 3 _ H) by lia. cbn [obind]. change (3 =? BEGIN_NODE) with false. change (3 =? PROP) with true. cbn iota.
    rewrite (offset_ptr_ok _ _ _ _ (o + 4) 4 G) by lia. apply (holds_r _ _ _ _ (os + (o + 4))) in H'; [|rewrite be32_len; lia].
    rewrite (holds_ld32 _ _ (zlen d) _ H') by lia. cbn [obind].
    rewrite (g_ver _ _ _ _ G). change (17 <? 0x10) with false. cbn [andb]. cbn iota. rewrite to_int_small by lia. apply F; [lia|lia|].
    replace (o + 4 + 8 + zlen d) with (o + (12 + zlen d)) by lia. rewrite (up4_add o) by exact Mo. rewrite (up4_add 12) by reflexivity. reflexivity.
  - subst l. rewrite <- (app_nil_r (be32 2)) in H. rewrite (holds_ld32 _ _ 2 _ H) by lia. cbn [obind]. cbn -[offset_ptr tagalign Z.modulo Z.pow]. apply F; try lia.
    rewrite up4_add by exact Mo. reflexivity.
  - subst l. rewrite <- (app_nil_r (be32 9)) in H. rewrite (holds_ld32 _ _ 9 _ H) by lia. cbn [obind]. cbn -[offset_ptr tagalign Z.modulo Z.pow]. apply F; try lia.
    rewrite up4_add by exact Mo. reflexivity.
Qed.

(** ** Token lists *)

Lemma some_inj : forall A (x y : A), Some x = Some y -> x = y.
Proof. intros. congruence. Qed.
Ltac finv H := let a := fresh in let b := fresh in pose proof (Forall_inv H) as a; pose proof (Forall_inv_tail H) as b; cbv beta in a.
Section read.
Context (b : blob) (strs : list Z) (os oss ss tot : Z) (G : geo b os ss tot).
Context (Gs : off_strings b = oss) (Hs : holds b oss strs) (Gm : check_header b = 0).

(** The tokens [ts] are at offset [o]. *)
Fixpoint placed (o : Z) (ts : list tok) : Prop :=
  match ts with
  | [] => True
  | k :: ts' => tok_at b strs os o k /\ o + t_size k <= ss /\ placed (o + t_size k) ts'
  end.
Definition pos_ok (o : Z) : Prop := 0 <= o /\ o mod 4 = 0.

Lemma pos_next : forall o k, pos_ok o -> pos_ok (o + t_size k).
Proof. intros o k [A B]. pose proof (t_size_ge k). split; [lia|]. apply add_mod4; [exact B|apply t_size_mod]. Qed.
Lemma pos_size : forall o ts, pos_ok o -> pos_ok (o + size ts).
Proof. intros o ts [A B]. pose proof (size_ge ts). pose proof (zlen_nn _ ts). split; [lia|]. apply add_mod4; [exact B|apply size_mod]. Qed.
Lemma placed_app : forall ts1 ts2 o, placed o (ts1 ++ ts2) <-> placed o ts1 /\ placed (o + size ts1) ts2.
Proof.
  induction ts1 as [|k ts1 IH]; intros ts2 o; cbn [app placed size].
  - rewrite Z.add_0_r. tauto.
  - rewrite IH. rewrite Z.add_assoc. tauto.
Qed.
Lemma tag_at : forall o k ts, pos_ok o -> placed o (k :: ts) -> next_tag b o = Val (tag_of k, o + t_size k).
Proof. intros o k ts [A B] (T & L & _). exact (next_tag_ok b strs os ss tot o k G T A B L). Qed.

Lemma check_node : forall o n ts, pos_ok o -> placed o (KBegin n :: ts) -> check_node_offset b o = Val (o + t_size (KBegin n)).
Proof.
  intros o n ts P H. unfold check_node_offset, check_offset. destruct P as [A B]. destruct (Z.ltb_spec o 0); [lia|]. rewrite B. change (0 =? 0) with true. cbn [negb orb].
  rewrite (tag_at o _ ts (conj A B) H). reflexivity.
Qed.
Lemma check_prop : forall o n d ts, pos_ok o -> placed o (KProp n d :: ts) -> check_prop_offset b o = Val (o + t_size (KProp n d)).
Proof.
  intros o n d ts P H. unfold check_prop_offset, check_offset. destruct P as [A B]. destruct (Z.ltb_spec o 0); [lia|]. rewrite B. change (0 =? 0) with true. cbn [negb orb].
  rewrite (tag_at o _ ts (conj A B) H). reflexivity.
Qed.

(** ** Properties *)

(** The property at the head of a token list. *)
Definition head_prop (o : Z) (ts : list tok) : Z := match ts with KProp _ _ :: _ => o | _ => ERR_NOTFOUND end.
Lemma next_property_ok : forall fuel o k ts, pos_ok o -> placed o (k :: ts) -> k <> KFin -> (0 < fuel)%nat -> next_property_ fuel b o = Val (head_prop o (k :: ts)).
Proof.
  intros fuel o k ts P H Nk F. destruct fuel as [|fuel]; [lia|]. cbn [next_property_]. rewrite (tag_at o k ts P H). cbn [obind].
  destruct k as [n|n d| |]; cbn -[Z.add]; try reflexivity. contradiction.
Qed.

(** The first property of that name among the tokens, with its offset. *)
Fixpoint find_prop (name : list Z) (o : Z) (ts : list tok) : option (Z * list Z) :=
  match ts with
  | KProp n d :: ts' => if seqb n name then Some (o, d) else find_prop name (o + t_size (KProp n d)) ts'
  | _ => None
  end.

Definition prop_found (name : list Z) (o : Z) (ts : list tok) : found :=
  match find_prop name o ts with Some (o', d) => Found (os + o') (zlen d) o' | None => Missing ERR_NOTFOUND end.

Lemma strs_at : forall n at_ before after, strs = before ++ n ++ [0] ++ after -> zlen before = at_ -> holds b (oss + at_) (n ++ [0]).
Proof.
  intros n at_ before after E L. pose proof Hs as H. rewrite E in H. apply (holds_r _ _ _ _ (oss + at_)) in H; [|lia].
  change ([0] ++ after) with ([0] ++ after) in H. rewrite app_assoc in H. apply holds_l in H. exact H.
Qed.
Lemma strs_bound : zlen strs <= zlen b - oss /\ 0 <= oss.
Proof. pose proof (holds_nn _ _ _ Hs). lia. Qed.

Lemma property_step : forall o n d ts name, pos_ok o -> placed o (KProp n d :: ts) -> cstr name -> zlen b < 2 ^ 31 ->
  property_by_offset b o = Val (Some (os + o), zlen d) /\
  (dlet nameoff <- ld32 b (os + o + 8) in
   let p := oss + to_int nameoff in
   dlet slen <- strlen_at (S (length b)) b p in
   (if to_int slen =? zlen name then eq_at b p name else Val false)) = Val (seqb n name).
Proof.
  intros o n d ts name P H Cn Lb. pose proof H as (T & L & _). destruct T as (l & [Ll K] & Hl & Gk). cbn [t_size] in *.
  destruct K as (at_ & pad & -> & Ha & before & after & Es & Eb).
  pose proof (g_lim _ _ _ _ G) as L1. pose proof (g_fit _ _ _ _ G) as L2. pose proof (g_nn _ _ _ _ G) as L3. pose proof (g_len _ _ _ _ G) as L4.
  pose proof (up4_ge (zlen d)) as U. pose proof (zlen_nn _ d) as D. destruct P as [P0 P1]. destruct Gk as [Gn Gd].
  split.
  - unfold property_by_offset. rewrite (check_prop o n d ts (conj P0 P1) H). cbn [obind t_size].
    destruct (Z.ltb_spec (o + (12 + up4 (zlen d))) 0); [lia|]. rewrite (g_os _ _ _ _ G).
    pose proof Hl as Hl'. apply (holds_r _ _ _ _ (os + o + 4)) in Hl'; [|rewrite be32_len; lia].
    rewrite (holds_ld32 _ _ (zlen d) _ Hl') by lia. cbn [obind]. rewrite to_int_small by lia. reflexivity.
  - pose proof Hl as Hl'. apply (holds_r _ _ _ _ (os + o + 4)) in Hl'; [|rewrite be32_len; lia]. apply (holds_r _ _ _ _ (os + o + 8)) in Hl'; [|rewrite be32_len; lia].
    rewrite (holds_ld32 _ _ at_ _ Hl') by lia. cbn [obind]. cbv zeta.
    pose proof (strs_at n at_ before after Es Eb) as Hn. pose proof (holds_nn _ _ _ Hn) as B1. zsi B1. pose proof (zlen_nn _ n).
    assert (zlen before <= zlen b) by (pose proof strs_bound; rewrite Es in *; zsi H1; pose proof (zlen_nn _ after); lia).
    rewrite to_int_small by lia. pose proof (holds_length _ _ _ Hn) as HL. rewrite app_length in HL. cbn [length] in HL.
    rewrite (strlen_ok b n (S (length b)) (oss + at_) Hn Gn) by lia. cbn [obind]. rewrite to_int_small by lia.
    destruct (Z.eqb_spec (zlen n) (zlen name)) as [E|Ne].
    + apply (eq_at_same_len b name (oss + at_) n); [apply holds_l in Hn; exact Hn|exact E].
    + f_equal. symmetry. apply seqb_neq. intros ->. apply Ne. reflexivity.
Qed.

(** A list of properties, then something else that is not the end. *)
Definition props_then (ts : list tok) : Prop :=
  exists ps k rest, ts = map (fun p : list Z * list Z => KProp (fst p) (snd p)) ps ++ k :: rest /\ (k = KEnd \/ exists n, k = KBegin n).
Lemma props_then_cons : forall n d ts, props_then (KProp n d :: ts) -> props_then ts.
Proof.
  intros n d ts (ps & k & rest & E & K). destruct ps as [|p ps]; cbn [map app] in E.
  - injection E as <- _. destruct K as [K|[m K]]; discriminate.
  - injection E as _ _ ->. exists ps, k, rest. auto.
Qed.
Lemma props_then_cases : forall ts, props_then ts -> exists k r, ts = k :: r /\ k <> KFin.
Proof.
  intros ts (ps & k & rest & -> & K). destruct ps as [|p ps]; cbn [map app]; eexists _, _; (split; [reflexivity|]); [|discriminate].
  destruct K as [ -> |[m -> ]]; discriminate.
Qed.

Lemma property_loop_ok : forall name, cstr name -> zlen b < 2 ^ 31 -> forall ts fuel fuel' o, pos_ok o -> placed o ts -> props_then ts ->
  (length ts <= fuel)%nat -> (0 < fuel')%nat -> property_loop fuel fuel' b name (head_prop o ts) = Val (prop_found name o ts).
Proof.
  intros name Cn Lb ts. induction ts as [|k ts IH]; intros fuel fuel' o P H T F F'.
  { destruct (props_then_cases _ T) as (k & r & E & _). discriminate. }
  destruct k as [n|n d| |]; unfold prop_found; cbn [head_prop find_prop]; try (destruct fuel; reflexivity).
  destruct fuel as [|fuel]; [cbn [length] in F; lia|]. cbn [property_loop]. pose proof P as [P0 P1]. destruct (Z.ltb_spec o 0); [lia|].
  destruct (property_step o n d ts name P H Cn Lb) as [E1 E2]. rewrite E1. cbn [obind].
  rewrite Gs. match type of E2 with obind ?x ?k = _ => destruct x as [no| |]; cbn [obind] in E2 |- *; try discriminate end. cbv zeta in E2.
  match type of E2 with obind ?x ?k = _ => destruct x as [sl| |]; cbn [obind] in E2 |- *; try discriminate end. rewrite E2. cbn [obind].
  destruct (seqb n name) eqn:S1; [reflexivity|].
  unfold next_property_offset. rewrite (check_prop o n d ts P H). cbn [obind]. pose proof (pos_next o (KProp n d) P) as P'. destruct P' as [P2 P3].
  destruct (Z.ltb_spec (o + t_size (KProp n d)) 0); [lia|]. destruct H as (_ & _ & H). pose proof (props_then_cons _ _ _ T) as T'.
  destruct (props_then_cases _ T') as (k & r & -> & Nk). rewrite (next_property_ok fuel' _ k r (conj P2 P3) H Nk F'). cbn [obind].
  rewrite (IH fuel fuel' _ (conj P2 P3) H T'); [reflexivity|cbn [length] in *; lia|exact F'].
Qed.

Lemma get_property_ok : forall name, cstr name -> zlen b < 2 ^ 31 -> forall n ts fuel o, pos_ok o -> placed o (KBegin n :: ts) -> props_then ts ->
  (length ts < fuel)%nat -> get_property fuel b o name = Val (prop_found name (o + t_size (KBegin n)) ts).
Proof.
  intros name Cn Lb n ts fuel o P H T F. unfold get_property, first_property_offset. rewrite (check_node o n ts P H). cbn [obind].
  pose proof (pos_next o (KBegin n) P) as [P2 P3]. destruct (Z.ltb_spec (o + t_size (KBegin n)) 0); [lia|]. destruct H as (_ & _ & H).
  destruct (props_then_cases _ T) as (k & r & E & Nk). rewrite E in H |- *. rewrite (next_property_ok fuel _ k r (conj P2 P3) H Nk) by lia. cbn [obind].
  rewrite <- E in H |- *. apply property_loop_ok; try assumption; try lia. split; assumption.
Qed.

(** ** Nodes *)

(** The first node among the tokens. *)
Fixpoint first_node (o : Z) (ts : list tok) : option (Z * list tok) :=
  match ts with
  | [] => None
  | KBegin n :: _ => Some (o, ts)
  | k :: ts' => first_node (o + t_size k) ts'
  end.
Definition next_off (r : option (Z * list tok)) : Z := match r with Some (o, _) => o | None => ERR_NOTFOUND end.

Lemma next_node_loop_ok : forall ts fuel o, pos_ok o -> placed o (ts ++ [KFin]) -> ~ In KFin ts -> (length ts < fuel)%nat ->
  next_node_loop fuel b o None = Val (next_off (first_node o ts), None).
Proof.
  induction ts as [|k ts IH]; intros fuel o P H N F; (destruct fuel as [|fuel]; [cbn [length] in F; lia|]); cbn [next_node_loop app] in *; rewrite (tag_at o _ _ P H); cbn [obind].
  - cbn -[Z.add Z.leb]. destruct (Z.leb_spec 0 (o + 4)); [reflexivity|]. destruct P. lia.
  - assert (Step : next_node_loop fuel b (o + t_size k) None = Val (next_off (first_node (o + t_size k) ts), None)).
    { apply IH; [apply pos_next; exact P|apply H|intro X; apply N; right; exact X|cbn [length] in F; lia]. }
    destruct k as [n|n d| |]; cbn [tag_of first_node].
    + reflexivity.
    + exact Step.
    + exact Step.
    + exfalso. apply N. left. reflexivity.
Qed.

Lemma first_node_placed : forall ts o o' ts' e, pos_ok o -> placed o (ts ++ e) -> first_node o ts = Some (o', ts') ->
  pos_ok o' /\ placed o' (ts' ++ e) /\ (exists n r, ts' = KBegin n :: r) /\ (length ts' <= length ts)%nat /\ exists pre, ts = pre ++ ts'.
Proof.
  induction ts as [|k ts IH]; intros o o' ts' e P H E; [discriminate|].
  assert (S1 : first_node (o + t_size k) ts = Some (o', ts') -> pos_ok o' /\ placed o' (ts' ++ e) /\ (exists n r, ts' = KBegin n :: r) /\ (length ts' <= length (k :: ts))%nat /\ exists pre, k :: ts = pre ++ ts').
  { intro E'. destruct (IH _ _ _ e (pos_next o k P) (proj2 (proj2 H)) E') as (A & B & C & D & pre & F). repeat (split; [assumption|]). split; [cbn [length]; lia|]. exists (k :: pre). rewrite F. reflexivity. }
  destruct k as [n|n d| |]; cbn [first_node] in E; try (exact (S1 E)).
  injection E as <- <- . split; [exact P|]. split; [exact H|]. split; [eexists _, _; reflexivity|]. split; [lia|exists []; reflexivity].
Qed.

Lemma next_node_ok : forall n ts fuel o, pos_ok o -> placed o (KBegin n :: ts ++ [KFin]) -> ~ In KFin ts -> (length ts < fuel)%nat ->
  next_node fuel b o None = Val (next_off (first_node (o + t_size (KBegin n)) ts), None).
Proof.
  intros n ts fuel o P H N F. unfold next_node. pose proof P as [P0 _]. destruct (Z.leb_spec 0 o); [|lia]. rewrite (check_node o n _ P H). cbn [obind].
  pose proof (pos_next o (KBegin n) P) as P'. destruct P' as [P2 P3]. destruct (Z.ltb_spec (o + t_size (KBegin n)) 0); [lia|].
  apply next_node_loop_ok; [split; assumption|apply H|exact N|exact F].
Qed.

Lemma get_name_ok : forall o n ts, pos_ok o -> placed o (KBegin n :: ts) -> zlen b < 2 ^ 31 ->
  get_name b o = Val (Some (os + o + 4), zlen n) /\ holds b (os + o + 4) (n ++ [0]) /\ cstr n.
Proof.
  intros o n ts P H Lb. pose proof H as (T & L & _). destruct T as (l & [Ll K] & Hl & Gk). destruct K as [pad ->].
  assert (Hn : holds b (os + o + 4) (n ++ [0])).
  { apply (holds_r _ _ _ _ (os + o + 4)) in Hl; [|rewrite be32_len; lia]. rewrite app_assoc in Hl. apply holds_l in Hl. exact Hl. }
  split; [|split; [exact Hn|exact Gk]]. unfold get_name. rewrite Gm. change (negb (0 =? 0)) with false. cbn iota.
  rewrite (check_node o n ts P H). cbn [obind]. pose proof (pos_next o (KBegin n) P) as [P2 P3]. destruct (Z.ltb_spec (o + t_size (KBegin n)) 0); [lia|].
  rewrite (g_os _ _ _ _ G). pose proof (holds_length _ _ _ Hn) as HL. rewrite app_length in HL. cbn [length] in HL.
  rewrite (strlen_ok b n (S (length b)) _ Hn Gk) by lia. cbn [obind]. pose proof (holds_nn _ _ _ Hn) as B1. zsi B1. pose proof (zlen_nn _ n). rewrite to_int_small by lia. reflexivity.
Qed.

(** All nodes among the tokens that satisfy a test, in order. *)
Fixpoint search (test : list tok -> bool) (o : Z) (ts : list tok) : Z :=
  match ts with
  | [] => ERR_NOTFOUND
  | KBegin n :: ts' => if test ts then o else search test (o + t_size (KBegin n)) ts'
  | k :: ts' => search test (o + t_size k) ts'
  end.
Lemma search_first : forall test ts o, search test o ts = match first_node o ts with Some (o', ts') => search test o' ts' | None => ERR_NOTFOUND end.
Proof.
  intros test ts. induction ts as [|k ts IH]; intro o; [reflexivity|]. destruct k as [n|n d| |]; cbn [search first_node]; try apply IH. reflexivity.
Qed.
Definition named (name : list Z) (ts : list tok) : bool := match ts with KBegin n :: _ => seqb n name | _ => false end.

Lemma find_node_loop_ok : forall name, cstr name -> zlen b < 2 ^ 31 -> forall m ts fuel fuel' o, (length ts <= m)%nat -> pos_ok o -> placed o (ts ++ [KFin]) -> ~ In KFin ts ->
  (length ts < fuel)%nat -> (length ts < fuel')%nat ->
  find_node_loop fuel fuel' b name (next_off (first_node o ts)) = Val (search (named name) o ts).
Proof.
  intros name Cn Lb m. induction m as [|m IH]; intros ts fuel fuel' o Hm P H N F F'.
  { destruct ts; [|cbn [length] in Hm; lia]. destruct fuel; reflexivity. }
  rewrite search_first. destruct (first_node o ts) as [[o' ts']|] eqn:E; [|destruct fuel; reflexivity].
  destruct (first_node_placed ts o o' ts' [KFin] P H E) as (P' & H' & (n & r & ->) & L & pre & Epre). cbn [next_off].
  destruct fuel as [|fuel]; [lia|]. cbn [find_node_loop]. pose proof P' as [P0 _]. destruct (Z.ltb_spec o' 0); [lia|].
  cbn [app] in H'. destruct (get_name_ok o' n _ P' H' Lb) as (En & Hn & Cn'). rewrite En. cbn [obind].
  assert (Eq : (if zlen n =? zlen name then eq_at b (os + o' + 4) name else Val false) = Val (seqb n name)).
  { destruct (Z.eqb_spec (zlen n) (zlen name)) as [El|Ne].
    - apply eq_at_same_len; [apply holds_l in Hn; exact Hn|exact El].
    - f_equal. symmetry. apply seqb_neq. intros ->. apply Ne. reflexivity. }
  rewrite Eq. cbn [obind search named]. destruct (seqb n name); [reflexivity|].
  assert (N' : ~ In KFin r) by (intro X; apply N; rewrite Epre; apply in_or_app; right; right; exact X). cbn [length] in L.
  rewrite (next_node_ok n r fuel' o' P' H' N') by lia. cbn [obind]. apply IH; try lia; try assumption; [apply pos_next; exact P'|apply H'].
Qed.

Definition prop_test (name : list Z) (test : list Z -> bool) (ts : list tok) : bool :=
  match ts with KBegin n :: r => match find_prop name 0 r with Some (_, d) => test d | None => false end | _ => false end.
Lemma find_prop_off : forall name ts o o', match find_prop name o ts, find_prop name o' ts with
  | Some (a, d), Some (a', d') => a - o = a' - o' /\ d = d' | None, None => True | _, _ => False end.
Proof.
  intros name ts. induction ts as [|k ts IH]; intros o o'; cbn [find_prop]; [exact I|]. destruct k as [n|n d| |]; try exact I.
  destruct (seqb n name); [split; [lia|reflexivity]|]. specialize (IH (o + t_size (KProp n d)) (o' + t_size (KProp n d))).
  destruct (find_prop name (o + t_size (KProp n d)) ts) as [[a d1]|]; destruct (find_prop name (o' + t_size (KProp n d)) ts) as [[a' d2]|]; try exact IH.
  destruct IH. split; [lia|assumption].
Qed.
(** Where the value is. *)
Lemma find_prop_placed : forall name ts o a d, pos_ok o -> placed o ts -> find_prop name o ts = Some (a, d) ->
  pos_ok a /\ holds b (os + a + 12) d /\ all_bytes d /\ a + 12 + up4 (zlen d) <= ss /\ o <= a.
Proof.
  intros name ts. induction ts as [|k ts IH]; intros o a d P H E; [discriminate|]. destruct k as [n|n d0| |]; cbn [find_prop] in E; try discriminate.
  destruct (seqb n name).
  - apply some_pair_inj in E. destruct E as [<- <-]. destruct H as ((l & [Ll (at_ & pad & -> & _)] & Hl & [_ Gd]) & L & _). cbn [t_size] in L.
    split; [exact P|]. split; [|split; [exact Gd|split; [lia|lia]]].
    apply (holds_r _ _ _ _ (os + o + 4)) in Hl; [|rewrite be32_len; lia]. apply (holds_r _ _ _ _ (os + o + 8)) in Hl; [|rewrite be32_len; lia].
    apply (holds_r _ _ _ _ (os + o + 12)) in Hl; [|rewrite be32_len; lia]. apply holds_l in Hl. exact Hl.
  - destruct (IH _ a d (pos_next o (KProp n d0) P) (proj2 (proj2 H)) E) as (A & B & C & D & F). pose proof (t_size_ge (KProp n d0)). repeat (split; [assumption|]). lia.
Qed.
Lemma getprop_ok : forall name, cstr name -> zlen b < 2 ^ 31 -> forall n ts fuel o, pos_ok o -> placed o (KBegin n :: ts) -> props_then ts ->
  (length ts < fuel)%nat -> getprop fuel b o name = Val (match find_prop name (o + t_size (KBegin n)) ts with Some (a, d) => (Some (os + a + 12), zlen d) | None => (None, ERR_NOTFOUND) end).
Proof.
  intros name Cn Lb n ts fuel o P H T F. unfold getprop. rewrite (get_property_ok name Cn Lb n ts fuel o P H T F). cbn [obind]. unfold prop_found.
  destruct (find_prop name (o + t_size (KBegin n)) ts) as [[a d]|]; [|reflexivity]. rewrite (g_ver _ _ _ _ G). reflexivity.
Qed.

(** Tokens in which every node is followed by its properties and something else. *)
Definition well (ts : list tok) : Prop := forall pre n r, ts = pre ++ KBegin n :: r -> props_then r.

Lemma find_prop_loop_ok : forall name val, cstr name -> cstr val -> zlen b < 2 ^ 31 -> forall m ts fuel fuel' o, (length ts <= m)%nat -> pos_ok o -> placed o (ts ++ [KFin]) -> ~ In KFin ts ->
  well ts -> (length ts < fuel)%nat -> (length ts + 1 < fuel')%nat ->
  find_prop_loop fuel fuel' b name val (next_off (first_node o ts)) = Val (search (prop_test name (fun d => seqb d (val ++ [0]))) o ts).
Proof.
  intros name val Cn Cv Lb m. induction m as [|m IH]; intros ts fuel fuel' o Hm P H N W F F'.
  { destruct ts; [|cbn [length] in Hm; lia]. destruct fuel; reflexivity. }
  rewrite search_first. destruct (first_node o ts) as [[o' ts']|] eqn:E; [|destruct fuel; reflexivity].
  destruct (first_node_placed ts o o' ts' [KFin] P H E) as (P' & H' & (n & r & ->) & L & pre & Epre). cbn [next_off].
  destruct fuel as [|fuel]; [lia|]. cbn [find_prop_loop]. pose proof P' as [P0 _]. destruct (Z.ltb_spec o' 0); [lia|].
  cbn [app] in H'. cbn [length] in L. pose proof (W pre n r Epre) as T. destruct T as (ps & k & rest & Er & Kk).
  assert (T' : props_then (r ++ [KFin])) by (exists ps, k, (rest ++ [KFin]); split; [rewrite Er, <- app_assoc; reflexivity|exact Kk]).
  rewrite (getprop_ok name Cn Lb n (r ++ [KFin]) fuel' o' P' H' T') by (rewrite app_length; cbn [length]; lia). cbn [obind search prop_test].
  assert (Ef : forall q, find_prop name q (r ++ [KFin]) = find_prop name q r).
  { intro q. rewrite Er. clear -Kk. revert q. induction ps as [|p ps IHp]; intro q; cbn [map app find_prop]; [destruct Kk as [->|[m ->]]; reflexivity|].
    destruct (seqb (fst p) name); [reflexivity|apply IHp]. }
  rewrite Ef. pose proof (find_prop_off name r (o' + t_size (KBegin n)) 0) as Fo.
  assert (N' : ~ In KFin r) by (intro X; apply N; rewrite Epre; apply in_or_app; right; right; exact X).
  assert (W' : well r) by (intros pre' n' r' Er'; apply (W (pre ++ KBegin n :: pre') n' r'); rewrite Epre, Er', <- app_assoc; reflexivity).
  assert (Next : (dlet (off, _) <- next_node fuel' b o' None in find_prop_loop fuel fuel' b name val off) = Val (search (prop_test name (fun d => seqb d (val ++ [0]))) (o' + t_size (KBegin n)) r)).
  { rewrite (next_node_ok n r fuel' o' P' H' N') by lia. cbn [obind]. apply IH; try lia; try assumption; [apply pos_next; exact P'|apply H']. }
  destruct (find_prop name (o' + t_size (KBegin n)) r) as [[a d]|] eqn:Ep; destruct (find_prop name 0 r) as [[a' d']|]; try contradiction; [|exact Next].
  destruct Fo as [_ <-]. rewrite <- Ef in Ep. destruct H' as (_ & _ & H'). destruct (find_prop_placed name _ _ a d (pos_next o' (KBegin n) P') H' Ep) as (Pa & Ha & _).
  assert (Eq : (if zlen d =? zlen val + 1 then eq_at b (os + a + 12) (val ++ [0]) else Val false) = Val (seqb d (val ++ [0]))).
  { destruct (Z.eqb_spec (zlen d) (zlen val + 1)) as [El|Ne].
    - apply eq_at_same_len; [exact Ha|zs; lia].
    - f_equal. symmetry. apply seqb_neq. intros ->. apply Ne. zs. lia. }
  rewrite Eq. cbn [obind]. destruct (seqb d (val ++ [0])); [reflexivity|exact Next].
Qed.

(** *** "compatible" *)

Lemma zero_at_ok : forall s n a, holds b a (s ++ [0]) -> cstr s -> (length s < n)%nat -> zero_at n b a = Val (Some (a + zlen s)).
Proof.
  induction s as [|c s IH]; intros n a H C L; (destruct n as [|n]; [cbn [length] in L; lia|]); cbn [app] in H; cbn [zero_at]; rewrite (holds_ldb _ _ _ _ H); cbn [obind].
  - change (0 =? 0) with true. cbn iota. do 2 f_equal. rewrite zlen_nil. lia.
  - finv C. destruct (Z.eqb_spec c 0); [lia|]. rewrite (IH n (a + 1)); [do 2 f_equal; zs; lia| |assumption|cbn [length] in L; lia].
    apply (holds_r b a [c] (s ++ [0])); [exact H|reflexivity].
Qed.
Lemma compatible_ok : forall s, cstr s -> s <> [] -> forall l fuel p, holds b p (strings l) -> Forall cstr l -> (length l <= fuel)%nat ->
  compatible_loop fuel b s p (zlen (strings l)) = Val (existsb (fun x => seqb x s) l).
Proof.
  intros s Cs Ns l. assert (Ls : 0 < zlen s) by (destruct s; [contradiction|zs; pose proof (zlen_nn _ s); lia]).
  induction l as [|x l IH]; intros fuel p H F L.
  - unfold strings. cbn [flat_map]. rewrite zlen_nil. destruct fuel; cbn [compatible_loop existsb]; destruct (Z.ltb_spec 0 (zlen s)); reflexivity || lia.
  - destruct fuel as [|fuel]; [cbn [length] in L; lia|]. cbn [compatible_loop existsb]. finv F.
    assert (Small : forall l, zlen (strings l) < zlen s -> existsb (fun x => seqb x s) l = false).
    { clear -Ls. induction l as [|y l IHl]; intro S1; [reflexivity|]. unfold strings in S1. cbn [flat_map] in S1. fold (strings l) in S1. zsi S1. cbn [existsb].
      pose proof (zlen_nn _ (strings l)). pose proof (zlen_nn _ y). rewrite IHl by lia. rewrite orb_false_r. apply seqb_neq. intros ->. lia. }
    destruct (Z.ltb_spec (zlen (strings (x :: l))) (zlen s)) as [Lt|Ge].
    + f_equal. symmetry. apply (Small (x :: l) Lt).
    + unfold strings in H. cbn [flat_map] in H. fold (strings l) in H. pose proof H as Hx. apply holds_l in Hx.
      rewrite (eq_at_str b s x p Hx) by assumption. cbn [obind]. destruct (seqb x s); [reflexivity|]. cbn [orb].
      assert (El : zlen (strings (x :: l)) = zlen x + 1 + zlen (strings l)) by (unfold strings; cbn [flat_map]; fold (strings l); zs; lia).
      pose proof (zlen_nn _ (strings l)). pose proof (zlen_nn _ x).
      rewrite (zero_at_ok x _ p Hx) by (try assumption; unfold zlen in *; lia). cbn [obind].
      replace (zlen (strings (x :: l)) - (p + zlen x - p + 1)) with (zlen (strings l)) by lia.
      apply IH; [|assumption|cbn [length] in L; lia]. apply (holds_r b p (x ++ [0]) (strings l)); [exact H|zs; lia].
Qed.

Lemma words_strings : forall l, Forall cstr l -> words (strings l) = l.
Proof.
  induction l as [|x l IH]; intro F; [reflexivity|]. finv F. unfold strings. cbn [flat_map]. fold (strings l). rewrite <- app_assoc. cbn [app].
  clear F. match goal with H : cstr x |- _ => induction x as [|c x IHx]; cbn [app words]; [change (0 =? 0) with true; cbn iota; rewrite IH by assumption; reflexivity|]; finv H end.
  destruct (Z.eqb_spec c 0); [lia|]. rewrite IHx by assumption. reflexivity.
Qed.
Lemma strings_length : forall l, (length l <= length (strings l))%nat.
Proof. induction l as [|x l IH]; [cbn; lia|]. unfold strings in *. cbn [flat_map length]. rewrite !app_length. cbn [length]. lia. Qed.

(** All "compatible" properties among the tokens are lists of strings. *)
Definition comp_ok (ts : list tok) : Prop := forall n d, In (KProp n d) ts -> n = s_compatible -> string_list d.
Lemma find_prop_in : forall name ts o a d, find_prop name o ts = Some (a, d) -> In (KProp name d) ts.
Proof.
  intros name ts. induction ts as [|k ts IH]; intros o a d E; [discriminate|]. destruct k as [n|n d0| |]; cbn [find_prop] in E; try discriminate.
  destruct (seqb n name) eqn:S1; [apply seqb_eq in S1; apply some_pair_inj in E; destruct E as [_ <-]; subst; left; reflexivity|right; exact (IH _ _ _ E)].
Qed.

Lemma by_compatible_loop_ok : forall s, cstr s -> s <> [] -> zlen b < 2 ^ 31 -> forall m ts fuel fuel' o, (length ts <= m)%nat -> pos_ok o -> placed o (ts ++ [KFin]) -> ~ In KFin ts ->
  well ts -> comp_ok ts -> (length ts < fuel)%nat -> (length ts + 1 < fuel')%nat -> (length b <= fuel')%nat ->
  by_compatible_loop fuel fuel' b s (next_off (first_node o ts)) = Val (search (prop_test s_compatible (has_word s)) o ts).
Proof.
  intros s Cs Ns Lb m. assert (Cn : cstr s_compatible) by (repeat constructor; lia).
  induction m as [|m IH]; intros ts fuel fuel' o Hm P H N W K F F' F2.
  { destruct ts; [|cbn [length] in Hm; lia]. destruct fuel; reflexivity. }
  rewrite search_first. destruct (first_node o ts) as [[o' ts']|] eqn:E; [|destruct fuel; reflexivity].
  destruct (first_node_placed ts o o' ts' [KFin] P H E) as (P' & H' & (n & r & ->) & L & pre & Epre). cbn [next_off].
  destruct fuel as [|fuel]; [lia|]. cbn [by_compatible_loop]. pose proof P' as [P0 _]. destruct (Z.ltb_spec o' 0); [lia|].
  cbn [app] in H'. cbn [length] in L. pose proof (W pre n r Epre) as T. destruct T as (ps & k & rest & Er & Kk).
  assert (T' : props_then (r ++ [KFin])) by (exists ps, k, (rest ++ [KFin]); split; [rewrite Er, <- app_assoc; reflexivity|exact Kk]).
  rewrite (getprop_ok s_compatible Cn Lb n (r ++ [KFin]) fuel' o' P' H' T') by (rewrite app_length; cbn [length]; lia). cbn [obind search prop_test].
  assert (Ef : forall q, find_prop s_compatible q (r ++ [KFin]) = find_prop s_compatible q r).
  { intro q. rewrite Er. clear -Kk. revert q. induction ps as [|p ps IHp]; intro q; cbn [map app find_prop]; [destruct Kk as [->|[m ->]]; reflexivity|].
    destruct (seqb (fst p) s_compatible); [reflexivity|apply IHp]. }
  rewrite Ef. pose proof (find_prop_off s_compatible r (o' + t_size (KBegin n)) 0) as Fo.
  assert (N' : ~ In KFin r) by (intro X; apply N; rewrite Epre; apply in_or_app; right; right; exact X).
  assert (W' : well r) by (intros pre' n' r' Er'; apply (W (pre ++ KBegin n :: pre') n' r'); rewrite Epre, Er', <- app_assoc; reflexivity).
  assert (K' : comp_ok r) by (intros m' d' I' E'; apply (K m' d'); [rewrite Epre; apply in_or_app; right; right; exact I'|exact E']).
  assert (Next : (dlet (off, _) <- next_node fuel' b o' None in by_compatible_loop fuel fuel' b s off) = Val (search (prop_test s_compatible (has_word s)) (o' + t_size (KBegin n)) r)).
  { rewrite (next_node_ok n r fuel' o' P' H' N') by lia. cbn [obind]. apply IH; try lia; try assumption; [apply pos_next; exact P'|apply H']. }
  destruct (find_prop s_compatible (o' + t_size (KBegin n)) r) as [[a d]|] eqn:Ep; destruct (find_prop s_compatible 0 r) as [[a' d']|]; try contradiction; [|exact Next].
  destruct Fo as [_ <-]. pose proof (K' _ _ (find_prop_in _ _ _ _ _ Ep) eq_refl) as (l & Fl & El).
  rewrite <- Ef in Ep. destruct H' as (_ & _ & H'). destruct (find_prop_placed s_compatible _ _ a d (pos_next o' (KBegin n) P') H' Ep) as (Pa & Ha & _).
  assert (Eq : compatible_loop fuel' b s (os + a + 12) (zlen d) = Val (has_word s d)).
  { unfold has_word. rewrite El, words_strings by exact Fl. apply compatible_ok; try assumption; [rewrite <- El; exact Ha|].
    pose proof (strings_length l). pose proof (holds_length _ _ _ Ha). rewrite El in *. lia. }
  rewrite Eq. cbn [obind]. destruct (has_word s d); [reflexivity|exact Next].
Qed.

(** ** Walks that count the depth *)

(** The offset after the token that closes [S d] levels. *)
Fixpoint closes (d : nat) (o : Z) (ts : list tok) : option Z :=
  match ts with
  | [] => None
  | KBegin n :: r => closes (S d) (o + t_size (KBegin n)) r
  | KEnd :: r => match d with O => Some (o + 4) | S d' => closes d' (o + 4) r end
  | KFin :: _ => None
  | k :: r => closes d (o + t_size k) r
  end.
Lemma end_walk : forall ts fi fo fb o d e, pos_ok o -> placed o ts -> closes d o ts = Some e -> (length ts <= fi)%nat -> (length ts <= fo)%nat -> (length ts <= fb)%nat ->
  (dlet (off, dd) <- next_node_loop fi b o (Some (Z.of_nat d)) in end_loop fo fb b off (match dd with Some x => x | None => Z.of_nat d end)) = Val e.
Proof.
  induction ts as [|k ts IH]; intros fi fo fb o d e P H E F1 F2 F3; [discriminate|]. cbn [length] in F1, F2, F3.
  destruct fi as [|fi]; [lia|]. cbn [next_node_loop]. rewrite (tag_at o k ts P H). cbn [obind]. pose proof (pos_next o k P) as P'.
  pose proof H as (_ & _ & H'). destruct k as [n|n v| |]; cbn [tag_of closes] in *.
  - change (BEGIN_NODE =? BEGIN_NODE) with true. cbn iota. cbn [obind]. destruct fo as [|fo]; [lia|]. cbn [end_loop].
    pose proof P as [P0 _]. destruct (Z.leb_spec 0 o); [|lia]. destruct (Z.leb_spec 0 (Z.of_nat d + 1)); [|lia]. cbn [andb].
    unfold next_node. destruct (Z.leb_spec 0 o); [|lia]. rewrite (check_node o n ts P H). cbn [obind]. pose proof P' as [P1 _]. destruct (Z.ltb_spec (o + t_size (KBegin n)) 0); [lia|].
    replace (Z.of_nat d + 1) with (Z.of_nat (S d)) by lia. apply IH; try lia; assumption.
  - change (PROP =? BEGIN_NODE) with false. change (PROP =? END_NODE) with false. change (PROP =? FEND) with false. cbn iota. apply IH; try lia; assumption.
  - change (END_NODE =? BEGIN_NODE) with false. change (END_NODE =? END_NODE) with true. cbn iota. cbn [t_size] in *. destruct d as [|d].
    + change (Z.of_nat 0 - 1) with (-1). change (-1 <? 0) with true. cbn iota. cbn [obind]. apply some_inj in E. subst e.
      destruct fo; cbn [end_loop]; (change (0 <=? -1) with false; rewrite andb_false_r; reflexivity).
    + replace (Z.of_nat (S d) - 1) with (Z.of_nat d) by lia. destruct (Z.ltb_spec (Z.of_nat d) 0); [lia|].
      specialize (IH fi fo fb (o + 4) d e P' H' E ltac:(lia) ltac:(lia) ltac:(lia)).
      destruct (next_node_loop fi b (o + 4) (Some (Z.of_nat d))) as [[off dd]| |] eqn:En; cbn [obind] in IH |- *; try discriminate.
      destruct dd as [x|]; [exact IH|]. exfalso. clear -En.
      assert (Keep : forall f q z off, next_node_loop f b q (Some z) = Val (off, None) -> False).
      { clear. induction f as [|f IH]; intros q z off E; [discriminate|]. cbn [next_node_loop] in E. destruct (next_tag b q) as [[t nx]| |]; cbn [obind] in E; try discriminate.
        destruct (t =? BEGIN_NODE); [discriminate|]. destruct (t =? END_NODE); [destruct (z - 1 <? 0); [discriminate|exact (IH _ _ _ E)]|].
        destruct (t =? FEND); [discriminate|exact (IH _ _ _ E)]. }
      exact (Keep _ _ _ _ En).
  - discriminate.
Qed.
Lemma end_loop_ok : forall n ts fuel o e, pos_ok o -> placed o (KBegin n :: ts) -> closes 0 (o + t_size (KBegin n)) ts = Some e -> (length ts < fuel)%nat ->
  end_loop fuel fuel b o 0 = Val e.
Proof.
  intros n ts fuel o e P H E F. destruct fuel as [|fuel]; [lia|]. cbn [end_loop]. pose proof P as [P0 _]. destruct (Z.leb_spec 0 o); [|lia]. change (0 <=? 0) with true. cbn [andb].
  unfold next_node. destruct (Z.leb_spec 0 o); [|lia]. rewrite (check_node o n ts P H). cbn [obind]. pose proof (pos_next o (KBegin n) P) as P'. pose proof P' as [P1 _].
  destruct (Z.ltb_spec (o + t_size (KBegin n)) 0); [lia|]. change (Some 0) with (Some (Z.of_nat 0)).
  apply (end_walk ts (S fuel) fuel (S fuel) _ 0%nat e P'); try lia; [apply H|exact E].
Qed.

(** A child with a name. *)
Lemma eq_at_prefix : forall s n a, holds b a (n ++ [0]) -> cstr n -> cstr s ->
  (exists n', n = s ++ n' /\ eq_at b a s = Val true) \/ (eq_at b a s = Val false /\ forall n', n <> s ++ n').
Proof.
  induction s as [|c s IH]; intros n a H Cn Cs; [left; exists n; split; reflexivity|].
  finv Cs. cbn [eq_at]. destruct n as [|v n]; cbn [app] in H; rewrite (holds_ldb _ _ _ _ H); cbn [obind].
  - right. destruct (Z.eqb_spec 0 c); [lia|]. split; [reflexivity|intros n'; discriminate].
  - finv Cn. destruct (Z.eqb_spec v c) as [ -> |Ne].
    + destruct (IH n (a + 1)) as [(n' & -> & E)|(E & X)]; try assumption.
      * apply (holds_r b a [c] (n ++ [0])); [exact H|reflexivity].
      * left. exists n'. split; [reflexivity|exact E].
      * right. split; [exact E|]. intros n' E'. cbn [app] in E'. injection E' as E'. exact (X n' E').
    + right. split; [reflexivity|]. intros n' E'. cbn [app] in E'. injection E' as E' _. contradiction.
Qed.
Lemma firstn_pre : forall (s n' : list Z) x, firstn (S (length s)) (s ++ x :: n') = s ++ [x].
Proof. induction s as [|c s IH]; intros n' x; [reflexivity|]. cbn [length app firstn] in *. rewrite IH. reflexivity. Qed.
Lemma name_matches_prefix : forall s n, cstr n -> name_matches s n = true -> (n = s \/ exists n', n = s ++ 64 :: n' /\ existsb (Z.eqb 64) s = false).
Proof.
  intros s n Cn E. unfold name_matches in E. apply orb_prop in E. destruct E as [E|E]; [left; apply seqb_eq in E; congruence|right].
  apply andb_prop in E. destruct E as [E1 E2]. apply seqb_eq in E2. exists (skipn (S (length s)) n). split; [|apply negb_true_iff in E1; exact E1].
  rewrite <- (firstn_skipn (S (length s)) n) at 1. rewrite <- E2, <- app_assoc. reflexivity.
Qed.
Lemma nodename_eq_ok : forall s o n ts, cstr s -> zlen s < 2 ^ 31 - 1 -> pos_ok o -> placed o (KBegin n :: ts) -> nodename_eq b o s = Val (name_matches s n).
Proof.
  intros s o n ts Cs Ls P H. pose proof H as (T & L & _). destruct T as (l & [Ll K] & Hl & Gk). destruct K as [pad ->]. cbn [t_size] in *.
  pose proof (g_lim _ _ _ _ G) as L1. pose proof (g_fit _ _ _ _ G) as L2. pose proof (g_nn _ _ _ _ G) as L3. pose proof P as [P0 _].
  assert (Hn : holds b (os + (o + 4)) (n ++ [0])).
  { apply (holds_r _ _ _ _ (os + (o + 4))) in Hl; [|rewrite be32_len; lia]. rewrite app_assoc in Hl. apply holds_l in Hl. exact Hl. }
  pose proof (up4_ge (zlen n + 1)) as U. pose proof (zlen_nn _ n) as N0. pose proof (zlen_nn _ s) as S0.
  unfold nodename_eq. rewrite to_int_small by lia. rewrite Z.mod_small by lia.
  destruct (Z.leb_spec (zlen s + 1) (zlen n + 1)) as [Le|Gt].
  - rewrite (offset_ptr_ok _ _ _ _ (o + 4) (zlen s + 1) G) by lia.
    destruct (eq_at_prefix s n _ Hn Gk Cs) as [(n' & -> & E)|(E & X)]; rewrite E; cbn [obind].
    + assert (Hv : ldb b (os + (o + 4) + zlen s) = Val (match n' with [] => 0 | c :: _ => c end)).
      { rewrite <- app_assoc in Hn. apply (holds_r _ _ _ _ (os + (o + 4) + zlen s)) in Hn; [|reflexivity]. destruct n' as [|c n']; cbn [app] in Hn; exact (holds_ldb _ _ _ _ Hn). }
      rewrite Hv. cbn [obind]. f_equal. unfold name_matches. assert (Ex : existsb (fun c => c =? 64) s = existsb (Z.eqb 64) s) by (clear; induction s as [|c s IH]; cbn [existsb]; [reflexivity|rewrite IH, Z.eqb_sym; reflexivity]).
      rewrite Ex. destruct n' as [|c n'].
      * rewrite app_nil_r, seqb_refl. reflexivity.
      * rewrite firstn_pre. apply Forall_app in Gk. destruct Gk as [_ Gk]. finv Gk. destruct (Z.eqb_spec c 0); [lia|]. cbn [orb].
        replace (seqb s (s ++ c :: n')) with false; [cbn [orb]; f_equal|symmetry; apply seqb_neq; intro E'; apply (f_equal (@length Z)) in E'; rewrite app_length in E'; cbn [length] in E'; lia].
        destruct (Z.eqb_spec c 64) as [ -> |Nc]; symmetry; [apply seqb_refl|apply seqb_neq; intro E'; apply app_inv_head in E'; congruence].
    + f_equal. symmetry. destruct (name_matches s n) eqn:E'; [|reflexivity]. apply name_matches_prefix in E'; [|exact Gk]. destruct E' as [ -> |(n' & -> & _)]; exfalso; [apply (X []); rewrite app_nil_r; reflexivity|apply (X (64 :: n')); reflexivity].
  - assert (Nm : name_matches s n = false).
    { destruct (name_matches s n) eqn:E'; [|reflexivity]. apply name_matches_prefix in E'; [|exact Gk]. destruct E' as [ -> |(n' & -> & _)]; [lia|]. zsi Gt. pose proof (zlen_nn _ n'). lia. }
    rewrite Nm. destruct (offset_ptr b (o + 4) (zlen s + 1)) as [p|] eqn:Ep; [|reflexivity].
    assert (p = os + (o + 4)).
    { unfold offset_ptr in Ep. rewrite (g_os _ _ _ _ G) in Ep. destruct (o + 4 <? 0); [discriminate|].
      match type of Ep with (if ?c then _ else _) = _ => destruct c end; [discriminate|]. match type of Ep with (if ?c then _ else _) = _ => destruct c end; [discriminate|]. apply some_inj in Ep. congruence. }
    subst p. destruct (eq_at_prefix s n _ Hn Gk Cs) as [(n' & -> & E)|(E & X)]; rewrite E; cbn [obind]; [zsi Gt; pose proof (zlen_nn _ n'); lia|reflexivity].
Qed.

Fixpoint subfind (s : list Z) (d : nat) (o : Z) (ts : list tok) : option Z :=
  match ts with
  | [] => None
  | KBegin n :: r => if match d with O => name_matches s n | _ => false end then Some o else subfind s (S d) (o + t_size (KBegin n)) r
  | KEnd :: r => match d with O => Some ERR_NOTFOUND | S d' => subfind s d' (o + 4) r end
  | KFin :: _ => None
  | k :: r => subfind s d (o + t_size k) r
  end.
Lemma subnode_walk : forall s, cstr s -> zlen s < 2 ^ 31 - 1 -> forall ts fi fo fb o d e, pos_ok o -> placed o ts -> subfind s d o ts = Some e -> (length ts <= fi)%nat -> (length ts <= fo)%nat -> (length ts <= fb)%nat ->
  (dlet (off, dd) <- next_node_loop fi b o (Some (Z.of_nat d)) in subnode_loop fo fb b s off (match dd with Some x => x | None => Z.of_nat d end)) = Val e.
Proof.
  intros s Cs Ls ts. induction ts as [|k ts IH]; intros fi fo fb o d e P H E F1 F2 F3; [discriminate|]. cbn [length] in F1, F2, F3.
  destruct fi as [|fi]; [lia|]. cbn [next_node_loop]. rewrite (tag_at o k ts P H). cbn [obind]. pose proof (pos_next o k P) as P'.
  pose proof H as (_ & _ & H'). destruct k as [n|n v| |]; cbn [tag_of subfind] in *.
  - change (BEGIN_NODE =? BEGIN_NODE) with true. cbn iota. cbn [obind]. destruct fo as [|fo]; [lia|]. cbn [subnode_loop].
    pose proof P as [P0 _]. destruct (Z.leb_spec 0 o); [|lia]. destruct (Z.leb_spec 0 (Z.of_nat d + 1)); [|lia]. cbn [andb].
    assert (Et : (if Z.of_nat d + 1 =? 1 then nodename_eq b o s else Val false) = Val (match d with O => name_matches s n | _ => false end)).
    { destruct d as [|d]; [change (Z.of_nat 0 + 1 =? 1) with true; cbn iota; apply (nodename_eq_ok s o n ts Cs Ls P H)|]. destruct (Z.eqb_spec (Z.of_nat (S d) + 1) 1); [lia|reflexivity]. }
    rewrite Et. cbn [obind]. destruct (match d with O => name_matches s n | _ => false end); [apply some_inj in E; congruence|].
    unfold next_node. destruct (Z.leb_spec 0 o); [|lia]. rewrite (check_node o n ts P H). cbn [obind]. pose proof P' as [P1 _]. destruct (Z.ltb_spec (o + t_size (KBegin n)) 0); [lia|].
    replace (Z.of_nat d + 1) with (Z.of_nat (S d)) by lia. apply IH; try lia; assumption.
  - change (PROP =? BEGIN_NODE) with false. change (PROP =? END_NODE) with false. change (PROP =? FEND) with false. cbn iota. apply IH; try lia; assumption.
  - change (END_NODE =? BEGIN_NODE) with false. change (END_NODE =? END_NODE) with true. cbn iota. cbn [t_size] in *. destruct d as [|d].
    + change (Z.of_nat 0 - 1) with (-1). change (-1 <? 0) with true. cbn iota. cbn [obind]. apply some_inj in E. subst e.
      destruct fo; cbn [subnode_loop]; (change (0 <=? -1) with false; rewrite andb_false_r; reflexivity).
    + replace (Z.of_nat (S d) - 1) with (Z.of_nat d) by lia. destruct (Z.ltb_spec (Z.of_nat d) 0); [lia|].
      specialize (IH fi fo fb (o + 4) d e P' H' E ltac:(lia) ltac:(lia) ltac:(lia)).
      destruct (next_node_loop fi b (o + 4) (Some (Z.of_nat d))) as [[off dd]| |] eqn:En; cbn [obind] in IH |- *; try discriminate.
      destruct dd as [x|]; [exact IH|]. exfalso. clear -En.
      assert (Keep : forall f q z off, next_node_loop f b q (Some z) = Val (off, None) -> False).
      { clear. induction f as [|f IH]; intros q z off E; [discriminate|]. cbn [next_node_loop] in E. destruct (next_tag b q) as [[t nx]| |]; cbn [obind] in E; try discriminate.
        destruct (t =? BEGIN_NODE); [discriminate|]. destruct (t =? END_NODE); [destruct (z - 1 <? 0); [discriminate|exact (IH _ _ _ E)]|].
        destruct (t =? FEND); [discriminate|exact (IH _ _ _ E)]. }
      exact (Keep _ _ _ _ En).
  - discriminate.
Qed.
Lemma subnode_ok : forall s n ts fuel o e, cstr s -> zlen s < 2 ^ 31 - 1 -> pos_ok o -> placed o (KBegin n :: ts) -> subfind s 0 (o + t_size (KBegin n)) ts = Some e -> (length ts < fuel)%nat ->
  subnode_offset fuel b o s = Val e.
Proof.
  intros s n ts fuel o e Cs Ls P H E F. unfold subnode_offset. destruct fuel as [|fuel]; [lia|]. cbn [subnode_loop]. pose proof P as [P0 _]. destruct (Z.leb_spec 0 o); [|lia]. change (0 <=? 0) with true. cbn [andb].
  change (0 =? 1) with false. cbn iota. cbn [obind].
  unfold next_node. destruct (Z.leb_spec 0 o); [|lia]. rewrite (check_node o n ts P H). cbn [obind]. pose proof (pos_next o (KBegin n) P) as P'. pose proof P' as [P1 _].
  destruct (Z.ltb_spec (o + t_size (KBegin n)) 0); [lia|]. change (Some 0) with (Some (Z.of_nat 0)).
  apply (subnode_walk s Cs Ls ts (S fuel) fuel (S fuel) _ 0%nat e P'); try lia; [apply H|exact E].
Qed.

Lemma skip_props_ok : forall ps k rest fuel o, pos_ok o -> placed o (map (fun p : list Z * list Z => KProp (fst p) (snd p)) ps ++ k :: rest) -> (k = KEnd \/ exists n, k = KBegin n) ->
  (length ps < fuel)%nat -> skip_props fuel b o = Val (o + size (map (fun p : list Z * list Z => KProp (fst p) (snd p)) ps)).
Proof.
  induction ps as [|p ps IH]; intros k rest fuel o P H K F; (destruct fuel as [|fuel]; [cbn [length] in F; lia|]); cbn [map app size skip_props] in *; rewrite (tag_at o _ _ P H); cbn [obind].
  - rewrite Z.add_0_r. destruct K as [ -> |[n -> ]]; reflexivity.
  - cbn [tag_of]. change (PROP =? PROP) with true. cbn [orb]. rewrite (IH k rest fuel _ (pos_next _ _ P)); [f_equal; lia|apply H|exact K|cbn [length] in F; lia].
Qed.
End read.
