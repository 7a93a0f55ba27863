(** The storage calls refine named byte strings. *)
From Verif Require Import Base BaseLemmas HeaderModel Flash FlashLemmas VaultModel VaultSpec VaultProofs VaultCalls.
Local Ltac Zify.zify_post_hook ::= idtac.

(** ** Lists *)

Lemma key_eqb_eq : forall a b, key_eqb a b = true <-> a = b.
Proof.
  intros [[t1 k1] o1] [[t2 k2] o2]. unfold key_eqb. rewrite !andb_true_iff, !Z.eqb_eq. split.
  - intros [[-> ->] ->]. reflexivity.
  - intro E. injection E. auto.
Qed.

Lemma key_eqb_neq : forall a b, key_eqb a b = false <-> a <> b.
Proof. intros a b. pose proof (key_eqb_eq a b). destruct (key_eqb a b); intuition congruence. Qed.

Lemma vget_in : forall l k d, NoDup (map fst l) -> vget l k = Some d <-> In (k, d) l.
Proof.
  induction l as [|[k' d'] l IH]; intros k d N; cbn [vget].
  - split; [discriminate|intros []].
  - inversion N as [|x y N1 N2]; subst. destruct (key_eqb k k') eqn:E.
    + apply key_eqb_eq in E. subst k'. split.
      * intro H. injection H as -> . left. reflexivity.
      * intros [H|H]; [congruence|]. exfalso. apply N1. apply (in_map fst) in H. exact H.
    + apply key_eqb_neq in E. rewrite (IH k d N2). split; [right; assumption|].
      intros [H|H]; [congruence|exact H].
Qed.

Lemma vget_none : forall l k, vget l k = None <-> ~ In k (map fst l).
Proof.
  induction l as [|[k' d'] l IH]; intro k; cbn [vget map fst In].
  - tauto.
  - destruct (key_eqb k k') eqn:E.
    + apply key_eqb_eq in E. split; [discriminate|]. intro H. exfalso. apply H. left. congruence.
    + apply key_eqb_neq in E. rewrite IH. intuition congruence.
Qed.

Lemma vset_keys : forall l k d x, In x (map fst (vset l k d)) <-> x = k \/ In x (map fst l).
Proof.
  induction l as [|[k' d'] l IH]; intros k d x; cbn [vset map fst In].
  - intuition congruence.
  - destruct (key_eqb k k') eqn:E; cbn [map fst In].
    + apply key_eqb_eq in E. subst. intuition congruence.
    + rewrite IH. tauto.
Qed.

Lemma vset_nodup : forall l k d, NoDup (map fst l) -> NoDup (map fst (vset l k d)).
Proof.
  induction l as [|[k' d'] l IH]; intros k d N; cbn [vset map fst].
  - constructor; [intros []|constructor].
  - cbn [map fst] in N. inversion N as [|x y N1 N2]; subst. destruct (key_eqb k k') eqn:E; cbn [map fst].
    + constructor; assumption.
    + apply key_eqb_neq in E. constructor; [|apply IH; exact N2].
      intro H. apply vset_keys in H. destruct H as [H|H]; [congruence|contradiction].
Qed.

Lemma vset_in : forall l k d k' d', NoDup (map fst l) ->
  In (k', d') (vset l k d) <-> (k' = k /\ d' = d) \/ (k' <> k /\ In (k', d') l).
Proof.
  induction l as [|[k0 d0] l IH]; intros k d k' d' N; cbn [vset In].
  - split.
    + intros [H|[]]. injection H as -> -> . left. auto.
    + intros [[-> ->]|[_ []]]. left. reflexivity.
  - cbn [map fst] in N. inversion N as [|x y N1 N2]; subst. destruct (key_eqb k k0) eqn:E; cbn [In].
    + apply key_eqb_eq in E. subst k0. split.
      * intros [H|H]; [injection H as -> -> ; left; auto|]. right. split; [|right; exact H].
        intros -> . apply N1. apply (in_map fst) in H. exact H.
      * intros [[-> ->]|[Ne [H|H]]]; [left; reflexivity|congruence|right; exact H].
    + apply key_eqb_neq in E. rewrite (IH k d k' d' N2). split.
      * intros [H|[H|[H1 H2]]]; [injection H as -> -> ; right; split; [congruence|left; reflexivity]|left; exact H|right; auto].
      * intros [H|[H1 [H2|H2]]]; [right; left; exact H|left; exact H2|right; right; auto].
Qed.

Lemma set_nth_length : forall {A} (l : list A) i v, length (set_nth l i v) = length l.
Proof. induction l as [|x l IH]; intros [|i] v; cbn [set_nth length]; auto. Qed.

Lemma set_nth_same : forall {A} (l : list A) i d, set_nth l i (nth i l d) = l.
Proof. induction l as [|x l IH]; intros [|i] d; cbn [set_nth nth]; congruence. Qed.

Lemma nth_set : forall {A} (l : list A) i v d, (i < length l)%nat -> nth i (set_nth l i v) d = v.
Proof. induction l as [|x l IH]; intros [|i] v d H; cbn [set_nth nth length] in *; try (exfalso; lia); auto. apply IH. lia. Qed.

Lemma nth_set_out : forall {A} (l : list A) i j v d, i <> j -> nth j (set_nth l i v) d = nth j l d.
Proof.
  induction l as [|x l IH]; intros [|i] [|j] v d H; cbn [set_nth nth]; try congruence; auto.
Qed.

Lemma forall2_set : forall {A B} (P Q : A -> B -> Prop) la lb i a b da db,
  Forall2 P la lb -> (forall j, j <> i -> (j < length la)%nat -> P (nth j la da) (nth j lb db) -> Q (nth j la da) (nth j lb db)) ->
  Q a b -> Forall2 Q (set_nth la i a) (set_nth lb i b).
Proof.
  intros A B P Q la lb i a b da db F. revert i.
  induction F as [|x y la lb H F IH]; intros i HQ Hab; [constructor|].
  destruct i as [|i]; cbn [set_nth].
  - constructor; [exact Hab|]. clear -F HQ.
    assert (HQ' : forall j, (j < length la)%nat -> P (nth j la da) (nth j lb db) -> Q (nth j la da) (nth j lb db)).
    { intros j Hj. apply (HQ (S j)); [lia|cbn [length]; lia]. }
    clear HQ. induction F as [|x' y' la lb H F IH]; constructor.
    + apply (HQ' O); [cbn [length]; lia|exact H].
    + apply IH. intros j Hj. apply (HQ' (S j)). cbn [length]. lia.
  - constructor.
    + apply (HQ O); [lia|cbn [length]; lia|exact H].
    + apply IH; [|exact Hab]. intros j Hj Hl. apply (HQ (S j)); [lia|cbn [length]; lia].
Qed.

Lemma forall2_nth : forall {A B} (P : A -> B -> Prop) la lb i da db, Forall2 P la lb -> (i < length la)%nat -> P (nth i la da) (nth i lb db).
Proof.
  intros A B P la lb i da db F. revert i. induction F as [|x y la lb H F IH]; intros [|i] Hi; cbn [length nth] in *; try (exfalso; lia); auto.
  apply IH. lia.
Qed.

Lemma map_nodup : forall {A B} (g : A -> B) l, NoDup l -> (forall a b, In a l -> In b l -> g a = g b -> a = b) -> NoDup (map g l).
Proof.
  intros A B0 g l N. induction N as [|x l Hx N IH]; intro I; cbn [map]; constructor.
  - intro H. apply in_map_iff in H. destruct H as (y & E & Hy). apply Hx.
    rewrite (I x y); [exact Hy|left; reflexivity|right; exact Hy|congruence].
  - apply IH. intros a b Ha Hb. apply I; right; assumption.
Qed.

Section Vault.
Context (c : vcfg) (OK : vcfg_ok c).
Local Notation B := (VB c).
Local Notation SZ := (VSEC c).
Local Notation NS := (VaultProofs.NS c).
Local Notation tab := (VaultProofs.tab c).
Local Notation buf := (VaultProofs.buf c).
Local Notation hdr := (VaultProofs.hdr c).
Local Notation table_ok := (VaultProofs.table_ok c).
Local Notation vault_ok := (VaultProofs.vault_ok c).
Local Notation synced := (VaultProofs.synced c).
Local Notation kept := (VaultProofs.kept c).
Local Notation mid := (VaultProofs.mid c).
Local Notation like := (VaultProofs.like c).
Local Notation nohandle := (mkH false false None None 0).

(** ** The objects in flash *)

Definition content (f : flash) (j : Z) : list Z := rdl f (buf (s_pos (tab f) j) + 8) (Z.to_nat (s_size (tab f) j - 8)).
Definition rep (f : flash) (objs : list (key * list Z)) : Prop :=
  NoDup (map fst objs) /\
  forall k d, In (k, d) objs <-> exists j, 0 <= j < NS /\ used (tab f) j /\ keyat (tab f) j = k /\ content f j = d.

Lemma rep_get : forall f objs k d, rep f objs -> vget objs k = Some d ->
  exists j, 0 <= j < NS /\ used (tab f) j /\ keyat (tab f) j = k /\ content f j = d.
Proof. intros f objs k d [N R] H. apply R. apply vget_in; assumption. Qed.

Lemma rep_at : forall f objs j, rep f objs -> 0 <= j < NS -> used (tab f) j -> vget objs (keyat (tab f) j) = Some (content f j).
Proof. intros f objs j [N R] Hj U. apply vget_in; [exact N|]. apply R. exists j. auto. Qed.

Lemma rep_absent : forall f objs k, rep f objs -> key_ok k -> vget objs k = None -> forall i, 0 <= i < NS -> keyat (tab f) i <> k.
Proof.
  intros f objs k R K H i Hi E. assert (U : used (tab f) i) by (apply (key_used _ _ k); assumption).
  pose proof (rep_at f objs i R Hi U) as G. rewrite E in G. congruence.
Qed.

Lemma rep_set : forall f g objs j k d, rep f objs -> 0 <= j < NS ->
  used (tab g) j -> keyat (tab g) j = k -> content g j = d ->
  (forall i, 0 <= i < NS -> i <> j -> (used (tab g) i <-> used (tab f) i) /\ keyat (tab g) i = keyat (tab f) i /\
     (used (tab f) i -> content g i = content f i)) ->
  (forall i, 0 <= i < NS -> i <> j -> used (tab f) i -> keyat (tab f) i <> k) ->
  (used (tab f) j -> keyat (tab f) j = k) ->
  rep g (vset objs k d).
Proof.
  intros f g objs j k d [N R] Hj U Ek Ed O1 O2 O3. split; [apply vset_nodup; exact N|].
  intros k' d'. rewrite vset_in by exact N. rewrite (R k' d'). split.
  - intros [[-> ->]|[Ne (i & Hi & Ui & Ei & Di)]].
    + exists j. auto.
    + assert (Nj : i <> j) by (intros -> ; apply Ne; rewrite <- Ei; apply O3, Ui).
      destruct (O1 i Hi Nj) as (A1 & A2 & A3). exists i. split; [exact Hi|]. split; [apply A1, Ui|].
      split; [congruence|]. rewrite A3 by exact Ui. exact Di.
  - intros (i & Hi & Ui & Ei & Di). destruct (Z.eq_dec i j) as [ -> |Nj].
    + left. split; congruence.
    + right. destruct (O1 i Hi Nj) as (A1 & A2 & A3). apply A1 in Ui. split.
      * rewrite <- Ei, A2. apply O2; assumption.
      * exists i. split; [exact Hi|]. split; [exact Ui|]. split; [congruence|]. rewrite <- A3 by exact Ui. exact Di.
Qed.

Lemma content_same : forall f g i, s_pos (tab g) i = s_pos (tab f) i -> s_size (tab g) i = s_size (tab f) i ->
  (forall a, 8 <= a < s_size (tab f) i -> g (buf (s_pos (tab f) i) + a) = f (buf (s_pos (tab f) i) + a)) -> content g i = content f i.
Proof.
  intros f g i E1 E2 H. unfold content. rewrite E1, E2. apply rdl_ext. intros a Ha. rewrite <- !Z.add_assoc. apply H. lia.
Qed.

Lemma content_length : forall f j, zlen (content f j) = Z.max 0 (s_size (tab f) j - 8).
Proof. intros f j. unfold zlen, content. rewrite length_rdl. lia. Qed.

(** ** How many objects fit *)

Definition slots : list Z := map Z.of_nat (seq 0 (Z.to_nat NS)).
Definition usedb (s : flash) (j : Z) : bool := negb (s_tok s j =? INVALID).
Definition live (s : flash) : list Z := filter (usedb s) slots.

Lemma usedb_used : forall s j, usedb s j = true <-> used s j.
Proof. intros s j. unfold usedb, used. rewrite negb_true_iff, Z.eqb_neq. tauto. Qed.

Lemma range_in : forall n x, In x (map Z.of_nat (seq 0 (Z.to_nat n))) <-> 0 <= x < n.
Proof.
  intros n x. rewrite in_map_iff. split.
  - intros (a & <- & Ha). apply in_seq in Ha. lia.
  - intro H. exists (Z.to_nat x). split; [lia|]. apply in_seq. lia.
Qed.

Lemma range_nodup : forall n, NoDup (map Z.of_nat (seq 0 (Z.to_nat n))).
Proof. intro n. apply map_nodup; [apply seq_NoDup|intros a b _ _ H; lia]. Qed.

Lemma live_in : forall s j, In j (live s) <-> 0 <= j < NS /\ used s j.
Proof. intros s j. unfold live, slots. rewrite filter_In, range_in, usedb_used. tauto. Qed.

Lemma live_nodup : forall s, NoDup (live s).
Proof. intro s. apply NoDup_filter, range_nodup. Qed.

Lemma rep_length : forall f objs, table_ok (tab f) -> rep f objs -> length objs = length (live (tab f)).
Proof.
  intros f objs T [N R].
  assert (N2 : NoDup (map (keyat (tab f)) (live (tab f)))).
  { apply map_nodup; [apply live_nodup|]. intros a b Ha Hb E. apply live_in in Ha. apply live_in in Hb.
    apply (to_ukey c _ T); tauto. }
  assert (I1 : incl (map fst objs) (map (keyat (tab f)) (live (tab f)))).
  { intros k H. apply in_map_iff in H. destruct H as ([k' d] & <- & H). apply R in H. destruct H as (j & Hj & U & E & _).
    cbn [fst]. rewrite <- E. apply in_map. apply live_in. auto. }
  assert (I2 : incl (map (keyat (tab f)) (live (tab f))) (map fst objs)).
  { intros k H. apply in_map_iff in H. destruct H as (j & <- & H). apply live_in in H.
    assert (In (keyat (tab f) j, content f j) objs) by (apply R; exists j; tauto).
    apply (in_map fst) in H0. exact H0. }
  pose proof (NoDup_incl_length N I1) as L1. pose proof (NoDup_incl_length N2 I2) as L2. rewrite !map_length in *. lia.
Qed.

Lemma pos_nodup : forall s, table_ok s -> NoDup (map (s_pos s) (live s)).
Proof.
  intros s T. apply map_nodup; [apply live_nodup|]. intros a b Ha Hb E. apply live_in in Ha. apply live_in in Hb.
  apply (to_upos c _ T); tauto.
Qed.

Lemma full_items : forall f objs, table_ok (tab f) -> rep f objs ->
  (forall j, 0 <= j < NS -> used (tab f) j) \/ (forall p, 0 <= p < MAXI c -> bit (tab f) p = true) -> (items c <= length objs)%nat.
Proof.
  intros f objs T R H. rewrite (rep_length f objs T R). change (items c) with (Nat.min (Z.to_nat (MAXI c)) (Z.to_nat NS)). destruct H as [H|H].
  - assert (I : incl slots (live (tab f))) by (intros j Hj; apply range_in in Hj; apply live_in; auto).
    pose proof (NoDup_incl_length (range_nodup NS) I) as L. unfold slots in L. rewrite map_length, seq_length in L. lia.
  - assert (I : incl (map Z.of_nat (seq 0 (Z.to_nat (MAXI c)))) (map (s_pos (tab f)) (live (tab f)))).
    { intros p Hp. apply range_in in Hp. destruct (to_owner c _ T p Hp (H p Hp)) as (j & Hj & U & E).
      rewrite <- E. apply in_map, live_in. auto. }
    pose proof (NoDup_incl_length (range_nodup (MAXI c)) I) as L. rewrite !map_length, seq_length in L. lia.
Qed.

Lemma free_items : forall f objs j p, table_ok (tab f) -> rep f objs -> 0 <= j < NS -> ~ used (tab f) j ->
  0 <= p < MAXI c -> bit (tab f) p = false -> (length objs < items c)%nat.
Proof.
  intros f objs j p T R Hj Nu Hp Nb. rewrite (rep_length f objs T R). change (items c) with (Nat.min (Z.to_nat (MAXI c)) (Z.to_nat NS)).
  assert (L1 : (length (j :: live (tab f)) <= length slots)%nat).
  { apply NoDup_incl_length.
    - constructor; [|apply live_nodup]. intro H. apply live_in in H. tauto.
    - intros x [ <- |H]; [apply range_in; exact Hj|]. apply live_in in H. apply range_in. tauto. }
  assert (L2 : (length (p :: map (s_pos (tab f)) (live (tab f))) <= length (map Z.of_nat (seq 0 (Z.to_nat (MAXI c)))))%nat).
  { apply NoDup_incl_length.
    - constructor; [|apply pos_nodup; exact T]. intro H. apply in_map_iff in H. destruct H as (i & E & H). apply live_in in H.
      destruct H as [Hi U]. pose proof (to_bit c _ T i Hi U). congruence.
    - intros x [ <- |H]; [apply range_in; exact Hp|]. apply in_map_iff in H. destruct H as (i & <- & H). apply live_in in H.
      apply range_in. apply (to_pos c _ T); tauto. }
  unfold slots in L1. cbn [length] in *. rewrite !map_length, !seq_length in *. lia.
Qed.

(** ** Handles *)

Definition hok (f : flash) (oa : option ahandle) (h : handle) : Prop :=
  match oa with
  | None => h_open h = false /\ h_hdr h = None
  | Some a =>
    h_open h = true /\ h_ro h = a_ro a /\ key_ok (a_key a) /\ 8 + Z.of_nat (a_off a) <= OSZ c /\ h_off h = 8 + Z.of_nat (a_off a) /\
    exists j, 0 <= j < NS /\ keyat (tab f) j = a_key a /\ h_hdr h = Some (hdr j) /\ h_buf h = Some (buf (s_pos (tab f) j)) /\
      (a_ro a = false -> a_off a = length (content f j))
  end.
Definition excl (l : list (option ahandle)) : Prop :=
  forall i i' a a', nth i l None = Some a -> nth i' l None = Some a' -> a_ro a = false -> a_ro a' = false -> a_key a = a_key a' -> i = i'.
Record srel (f : flash) (hs : list handle) (s : vstore) : Prop := {
  sr_ok : vault_ok f;
  sr_sync : synced f;
  sr_rep : rep f (v_objs s);
  sr_hs : Forall2 (hok f) (v_open s) hs;
  sr_len : length (v_open s) = MAX_OPEN;
  sr_excl : excl (v_open s)
}.

Lemma free_agree : forall f l hs, Forall2 (hok f) l hs -> free_handle hs = free_slot l.
Proof.
  intros f l hs F. induction F as [|oa h l hs H F IH]; [reflexivity|]. cbn [free_handle free_slot].
  destruct oa as [a|]; destruct H as [H _]; rewrite H; [|reflexivity]. rewrite IH. reflexivity.
Qed.

Lemma free_slot_none : forall l i, free_slot l = Some i -> (i < length l)%nat /\ nth i l None = None.
Proof.
  induction l as [|[a|] l IH]; intros i H; cbn [free_slot] in H; [discriminate| |].
  - destruct (free_slot l) as [i'|]; [|discriminate]. injection H as <- . destruct (IH i' eq_refl). cbn [length nth]. split; [lia|assumption].
  - injection H as <- . cbn [length nth]. split; [lia|reflexivity].
Qed.

(** An object's slot stays where it is. *)
Lemma hok_keep : forall f g oa h, hok f oa h ->
  (forall j, 0 <= j < NS -> used (tab f) j -> keyat (tab g) j = keyat (tab f) j /\ s_pos (tab g) j = s_pos (tab f) j) ->
  (forall a j, oa = Some a -> a_ro a = false -> 0 <= j < NS -> used (tab f) j -> keyat (tab f) j = a_key a -> length (content g j) = length (content f j)) ->
  hok g oa h.
Proof.
  intros f g [a|] h H K L; [|exact H]. destruct H as (H1 & H2 & H3 & H4 & H5 & j & Hj & E1 & E2 & E3 & E4).
  assert (U : used (tab f) j) by (apply (key_used _ _ (a_key a)); assumption).
  destruct (K j Hj U) as [K1 K2].
  split; [exact H1|]. split; [exact H2|]. split; [exact H3|]. split; [exact H4|]. split; [exact H5|].
  exists j. rewrite K1, K2. split; [exact Hj|]. split; [exact E1|]. split; [exact E2|]. split; [exact E3|].
  intro Ro. rewrite (L a j eq_refl Ro Hj U E1). apply E4, Ro.
Qed.

Lemma excl_set : forall l i a, (i < length l)%nat -> excl l ->
  (a_ro a = false -> forall i' a', i' <> i -> nth i' l None = Some a' -> a_key a' = a_key a -> a_ro a' = true) ->
  excl (set_nth l i (Some a)).
Proof.
  intros l i a Hi X H i1 i2 a1 a2 N1 N2 R1 R2 E.
  destruct (Nat.eq_dec i1 i) as [ -> |D1], (Nat.eq_dec i2 i) as [ -> |D2]; [reflexivity| | |].
  - rewrite nth_set in N1 by exact Hi. injection N1 as <- . rewrite nth_set_out in N2 by congruence.
    specialize (H R1 i2 a2 D2 N2 (eq_sym E)). congruence.
  - rewrite nth_set in N2 by exact Hi. injection N2 as <- . rewrite nth_set_out in N1 by congruence.
    specialize (H R2 i1 a1 D1 N1 E). congruence.
  - rewrite nth_set_out in N1, N2 by congruence. exact (X i1 i2 a1 a2 N1 N2 R1 R2 E).
Qed.

Lemma excl_close : forall l i, excl l -> excl (set_nth l i None).
Proof.
  intros l i X i1 i2 a1 a2 N1 N2.
  assert (Y : forall i' a', nth i' (set_nth l i None) None = Some a' -> nth i' l None = Some a').
  { intros i' a' N. destruct (Nat.eq_dec i' i) as [ -> |D]; [|rewrite nth_set_out in N by congruence; exact N].
    destruct (Nat.lt_ge_cases i (length l)) as [L|L]; [rewrite nth_set in N by exact L; discriminate|].
    rewrite nth_overflow in N by (rewrite set_nth_length; lia). discriminate. }
  exact (X i1 i2 a1 a2 (Y _ _ N1) (Y _ _ N2)).
Qed.

(** ** One call *)

(** The slots other than [j] are as before. *)
Definition others (f g : flash) (j : Z) : Prop := forall i, 0 <= i < NS -> i <> j ->
  (used (tab g) i <-> used (tab f) i) /\ keyat (tab g) i = keyat (tab f) i /\ s_pos (tab g) i = s_pos (tab f) i /\
  (used (tab f) i -> content g i = content f i).

Lemma others_trans : forall f g h j, others f g j -> others g h j -> others f h j.
Proof.
  intros f g h j H1 H2 i Hi Ne. destruct (H1 i Hi Ne) as (A1 & A2 & A3 & A4). destruct (H2 i Hi Ne) as (B1 & B2 & B3 & B4).
  split; [tauto|]. split; [congruence|]. split; [congruence|]. intro U. rewrite B4 by tauto. apply A4, U.
Qed.

Lemma others_created : forall f g j p k, vault_ok f -> 0 <= j < NS -> 0 <= p < MAXI c -> key_ok k -> bit (tab f) p = false ->
  created c f g j p k -> others f g j.
Proof.
  intros f g j p k (Bf & T & _) Hj Hp K Nb [C1 C2 C3 C4] i Hi Ne.
  assert (E1 : keyat (tab g) i = keyat (tab f) i).
  { rewrite (like_key c OK _ _ i C2 Hi). apply (claim_key_out c OK); try assumption. lia. }
  assert (E2 : s_pos (tab g) i = s_pos (tab f) i).
  { rewrite (like_pos c OK _ _ i C2 Hi). apply (claim_slot c OK); (assumption || lia). }
  assert (E3 : s_size (tab g) i = s_size (tab f) i).
  { rewrite (like_size c OK _ _ i C2 Hi). apply (claim_slot c OK); (assumption || lia). }
  split; [unfold used; apply key_same in E1; destruct E1 as [-> _]; tauto|]. split; [exact E1|]. split; [exact E2|].
  intro U. apply content_same; [exact E2|exact E3|]. pose proof (to_pos c _ T i Hi U) as Hq. pose proof (to_size c _ T i Hi U) as Hs.
  intros a Ha. apply C4; [apply (buf_low c OK); lia|]. intro R. assert (H8 : 8 <= OSZ c) by apply OK.
  assert (Nq : s_pos (tab f) i <> p) by (intro E; pose proof (to_bit c _ T i Hi U); congruence).
  refine (buf_disjoint c _ _ a (buf (s_pos (tab f) i) + a - buf p) _ _ Nq _ _ _); lia.
Qed.

Lemma others_resized : forall f g j n, vault_ok f -> 0 <= n < 2 ^ 32 -> 0 <= j -> resized c f g j n -> others f g j.
Proof.
  intros f g j n (Bf & T & _) Hn Hj [R1 R2 R3] i Hi Ne.
  assert (E1 : keyat (tab g) i = keyat (tab f) i) by (rewrite (like_key c OK _ _ i R2 Hi); apply resize_key).
  assert (E2 : s_pos (tab g) i = s_pos (tab f) i) by (rewrite (like_pos c OK _ _ i R2 Hi); apply resize_pos).
  assert (E3 : s_size (tab g) i = s_size (tab f) i).
  { rewrite (like_size c OK _ _ i R2 Hi). rewrite resize_size by exact Hn. rewrite (proj2 (Z.eqb_neq i j)) by exact Ne. reflexivity. }
  split; [unfold used; apply key_same in E1; destruct E1 as [-> _]; tauto|]. split; [exact E1|]. split; [exact E2|].
  intro U. apply content_same; [exact E2|exact E3|]. intros a Ha. apply R3, (buf_low c OK); [apply (to_pos c _ T); assumption|lia].
Qed.

Lemma others_stored : forall f g j off d, vault_ok f -> 0 <= j < NS -> used (tab f) j -> 8 <= off -> off + zlen d <= OSZ c ->
  stored_at c f g (s_pos (tab f) j) off d -> others f g j.
Proof.
  intros f g j off d (Bf & T & _) Hj Uj H8 Ho [S1 S2 S3 S4] i Hi Ne.
  assert (E1 : keyat (tab g) i = keyat (tab f) i) by exact (like_key c OK _ _ i S2 Hi).
  assert (E2 : s_pos (tab g) i = s_pos (tab f) i) by exact (like_pos c OK _ _ i S2 Hi).
  assert (E3 : s_size (tab g) i = s_size (tab f) i) by exact (like_size c OK _ _ i S2 Hi).
  split; [unfold used; apply key_same in E1; destruct E1 as [-> _]; tauto|]. split; [exact E1|]. split; [exact E2|].
  intro U. apply content_same; [exact E2|exact E3|]. pose proof (to_pos c _ T i Hi U) as Hq. pose proof (to_pos c _ T j Hj Uj) as Hqj.
  pose proof (to_size c _ T i Hi U) as Hs. assert (0 <= zlen d) by (unfold zlen; lia).
  intros a Ha. apply S4; [apply (buf_low c OK); lia|]. intro R.
  assert (Nq : s_pos (tab f) i <> s_pos (tab f) j) by (intro E; apply Ne; apply (to_upos c _ T); assumption).
  refine (buf_disjoint c _ _ a (buf (s_pos (tab f) i) + a - buf (s_pos (tab f) j)) _ _ Nq _ _ _); lia.
Qed.

Lemma step_rel : forall f g hs s i j k d a h, srel f hs s -> vault_ok g -> synced g -> 0 <= j < NS -> key_ok k ->
  others f g j -> keyat (tab g) j = k -> content g j = d ->
  (used (tab f) j -> keyat (tab f) j = k /\ s_pos (tab g) j = s_pos (tab f) j) ->
  (forall i, 0 <= i < NS -> i <> j -> keyat (tab f) i <> k) ->
  (i < MAX_OPEN)%nat -> a_key a = k -> hok g (Some a) h ->
  (forall i' a', i' <> i -> nth i' (v_open s) None = Some a' -> a_key a' = k -> a_ro a' = true) ->
  srel g (set_nth hs i h) (mkV (vset (v_objs s) k d) (set_nth (v_open s) i (Some a))).
Proof.
  intros f g hs s i j k d a h [Sv Ss Sr Sh Sl Sx] Vg Sg Hj K O Ek Ed Uf Nk Hi Ea Hh Ro.
  assert (Ug : used (tab g) j) by (apply (key_used _ _ k); assumption).
  split; cbn [v_objs v_open].
  - exact Vg.
  - exact Sg.
  - apply (rep_set f g (v_objs s) j k d); try assumption.
    + intros i' Hi' Ne. destruct (O i' Hi' Ne) as (A1 & A2 & A3 & A4). auto.
    + intros i' Hi' Ne _. apply Nk; assumption.
    + intro U. apply Uf, U.
  - apply (forall2_set (hok f) (hok g) _ _ i (Some a) h None nohandle Sh); [|exact Hh].
    intros i' Ne Hl Hok. apply (hok_keep f g); [exact Hok| |].
    + intros j' Hj' U. destruct (Z.eq_dec j' j) as [ -> |Nj].
      * destruct (Uf U) as [F1 F2]. split; [congruence|exact F2].
      * destruct (O j' Hj' Nj) as (A1 & A2 & A3 & A4). auto.
    + intros a' j' Ea' Ra Hj' U E. destruct (Z.eq_dec j' j) as [ -> |Nj].
      * destruct (Uf U) as [F1 _]. rewrite (Ro i' a' Ne Ea') in Ra by congruence. discriminate.
      * destruct (O j' Hj' Nj) as (A1 & A2 & A3 & A4). rewrite A4 by exact U. reflexivity.
  - rewrite set_nth_length. exact Sl.
  - apply excl_set; [rewrite Sl; exact Hi|exact Sx|]. intros _ i' a' Ne N E. apply (Ro i' a' Ne N). congruence.
Qed.

Lemma content_resized : forall f g j n, 8 <= n <= OSZ c -> 0 <= j < NS -> used (tab f) j -> table_ok (tab f) -> resized c f g j n ->
  s_pos (tab g) j = s_pos (tab f) j /\ keyat (tab g) j = keyat (tab f) j /\
  content g j = rdl f (buf (s_pos (tab f) j) + 8) (Z.to_nat (n - 8)).
Proof.
  intros f g j n Hn Hj U T [R1 R2 R3].
  assert (H31 : OSZ c < 2 ^ 31) by apply OK.
  assert (E1 : keyat (tab g) j = keyat (tab f) j) by (rewrite (like_key c OK _ _ j R2 Hj); apply resize_key).
  assert (E2 : s_pos (tab g) j = s_pos (tab f) j) by (rewrite (like_pos c OK _ _ j R2 Hj); apply resize_pos).
  assert (E3 : s_size (tab g) j = n).
  { rewrite (like_size c OK _ _ j R2 Hj). rewrite resize_size, Z.eqb_refl by lia. reflexivity. }
  split; [exact E2|]. split; [exact E1|]. unfold content. rewrite E2, E3. apply rdl_ext.
  intros a Ha. apply R3. rewrite <- Z.add_assoc. apply (buf_low c OK); [apply (to_pos c _ T); assumption|lia].
Qed.

Lemma unique_other : forall s j i, table_ok s -> 0 <= j < NS -> 0 <= i < NS -> used s j -> i <> j -> keyat s i <> keyat s j.
Proof. intros s j i T Hj Hi U Ne E. apply Ne. symmetry. apply (to_ukey c _ T); try assumption. congruence. Qed.

(** Truncating and handing out a handle for writing. *)
Lemma finish_open : forall f g hs s i j k, srel f hs s -> key_ok k -> no_writer s k -> (i < MAX_OPEN)%nat ->
  vault_ok g -> kept f k g -> 0 <= j < NS -> keyat (tab g) j = k -> others f g j ->
  (used (tab f) j -> keyat (tab f) j = k /\ s_pos (tab g) j = s_pos (tab f) j) ->
  (forall i, 0 <= i < NS -> i <> j -> keyat (tab f) i <> k) ->
  wps (update_store_size c (hdr j) 8 ;; Ret (Opened i, set_nth hs i (mkH true false (Some (buf (s_pos (tab g) j))) (Some (hdr j)) 8)))
    (fun r h => fst r = Opened i /\
      srel h (snd r) (mkV (vset (v_objs s) k []) (set_nth (v_open s) i (Some (mkA k false 0))))) (mid f k) g.
Proof.
  intros f g hs s i j k R K Nw Hi Vg Kg Hj Ek O Uf Nk. pose proof (sr_ok _ _ _ R) as Vf. assert (H8 : 8 <= OSZ c) by apply OK.
  assert (Ug : used (tab g) j) by (apply (key_used _ _ k); assumption). pose proof Vg as (_ & Tg & _).
  apply wps_bind. apply (update_size_spec c OK f k); try assumption; [apply Vf|lia|].
  intros h Rs Vh Sh. cbn [wps fst snd].
  destruct (content_resized g h j 8 (conj (Z.le_refl 8) H8) Hj Ug Tg Rs) as (E1 & E2 & E3).
  split.
  - left. split; [apply Rs|]. destruct Kg as (_ & Tk & Dk). split.
    + apply (like_tkept c OK f k (resize (tab g) j 8)); [apply Rs|]. destruct Tk as [M Tk]. split.
      * unfold resize. rewrite word_put32_out by (unfold sl; lia). exact M.
      * intros i' Hi' Sf. pose proof (kept_slot c f k (tab g) i' (conj M Tk) Hi' Sf) as Ei.
        assert (Ne : i' <> j). { intros -> . destruct Sf as (_ & Nk' & _). congruence. }
        destruct (Tk i' Hi' Sf) as [K1 K2]. split.
        -- intros a Ha. rewrite resize_out by (unfold sl; lia). apply K1. exact Ha.
        -- intros i2 Hi2. rewrite resize_key. apply K2. exact Hi2.
    + apply (dkept_low c OK f k g); [apply Vf|exact Dk|apply Rs].
  - split; [reflexivity|]. apply (step_rel f h hs s i j); try assumption.
    + apply (others_trans f g); [exact O|]. apply (others_resized g h j 8); try assumption; lia.
    + congruence.
    + intro U. destruct (Uf U). split; congruence.
    + reflexivity.
    + split; [reflexivity|]. split; [reflexivity|]. split; [exact K|]. cbn [a_off a_key a_ro h_off h_hdr h_buf].
      split; [lia|]. split; [reflexivity|]. exists j. rewrite E1. split; [exact Hj|]. split; [congruence|]. split; [reflexivity|]. split; [reflexivity|].
      intros _. rewrite E3. reflexivity.
    + intros i' a' _ N E. apply (Nw i' a' N E).
Qed.

Lemma open_spec : forall f hs s k ro, srel f hs s -> key_ok k -> (ro = false -> no_writer s k) ->
  wps (store_open c k ro hs)
    (fun r g => fst (spec_call (items c) (room c) (OpOpen k ro) s) = ROpen (fst r) /\
                srel g (snd r) (snd (spec_call (items c) (room c) (OpOpen k ro) s))) (mid f k) f.
Proof.
  intros f hs s k ro R K Nw. pose proof R as [Sv Ss Sr Sh Sl Sx]. pose proof Sv as (Bf & T & D).
  assert (Kf : kept f k f) by (apply kept_self; assumption).
  unfold store_open, spec_call. rewrite (free_agree f _ _ Sh).
  destruct (free_slot (v_open s)) as [i|] eqn:Fi; [|cbn [wps fst snd]; split; [left; exact Kf|split; [reflexivity|exact R]]].
  destruct (free_slot_none _ _ Fi) as [Hi Ni]. rewrite Sl in Hi.
  apply wps_bind. apply check_vault_ok; [rewrite magic_at; apply T|left; exact Kf|]. apply wps_bind.
  destruct (vget (v_objs s) k) as [d|] eqn:G.
  - destruct (rep_get f _ k d Sr G) as (j & Hj & U & Ek & Ed). destruct (D j Hj U) as [D1 D2].
    pose proof (to_pos c _ T j Hj U) as Hp.
    assert (Fst : forall i, 0 <= i < j -> keyat (tab f) i <> k) by (rewrite <- Ek; apply (unique_first c); assumption).
    apply (buffer_hit c OK f k j); try assumption; [left; exact Kf|]. cbn [wps].
    rewrite (find_hit c OK f k j Hj Ek Fst). destruct ro.
    + cbn [bind wps fst snd]. split; [left; exact Kf|]. split; [reflexivity|].
      split; cbn [v_objs v_open]; [exact Sv|exact Ss|exact Sr| |rewrite set_nth_length; exact Sl|].
      * apply (forall2_set (hok f) (hok f) _ _ i _ _ None nohandle Sh); [intros; assumption|].
        split; [reflexivity|]. split; [reflexivity|]. split; [exact K|]. cbn [a_off a_key a_ro h_off h_hdr h_buf].
        split; [destruct OK as (_ & _ & _ & _ & H8 & _); lia|]. split; [reflexivity|]. exists j.
        split; [exact Hj|]. split; [exact Ek|]. split; [reflexivity|]. split; [reflexivity|discriminate].
      * apply excl_set; [rewrite Sl; exact Hi|exact Sx|]. cbn [a_ro]. discriminate.
    + eapply wps_post; [apply (finish_open f f hs s i j k); try assumption; try (apply Nw; reflexivity)|].
      * intros i' Hi' Ne. split; [tauto|]. auto.
      * auto.
      * intros i' Hi' Ne. rewrite <- Ek. apply unique_other; assumption.
      * intros [r1 r2] g _ [E S']. cbn [fst snd] in *. subst r1. split; [reflexivity|exact S'].
  - assert (Nk : forall i, 0 <= i < NS -> keyat (tab f) i <> k) by exact (rep_absent f _ k Sr K G).
    apply (buffer_miss c OK); try assumption; [left; exact Kf|]. destruct ro.
    + cbn [wps fst snd]. split; [left; exact Kf|]. split; [reflexivity|exact R].
    + apply wps_bind. apply (create_spec c OK f k); try assumption.
      * intro Full. pose proof (full_items f _ T Sr Full) as L. rewrite (proj2 (Nat.ltb_ge _ _)) by exact L.
        cbn [wps fst snd]. split; [left; exact Kf|]. split; [reflexivity|].
        split; [exact Sv|exact Ss|exact Sr| |exact Sl|exact Sx].
        rewrite <- (set_nth_same (v_open s) i None). apply (forall2_set (hok f) (hok f) _ _ i _ _ None nohandle Sh); [intros; assumption|].
        pose proof (forall2_nth (hok f) _ _ i None nohandle Sh) as Hn. rewrite Sl in Hn. specialize (Hn Hi). rewrite Ni in *. destruct Hn as [Hn1 _].
        split; [exact Hn1|reflexivity].
      * intros j p g Hj Hp Nu Nb Cr Vg Kg. pose proof (free_items f _ j p T Sr Hj Nu Hp Nb) as L.
        rewrite (proj2 (Nat.ltb_lt _ _)) by exact L.
        pose proof Vg as (Bg & Tg & Dg).
        assert (Eg : keyat (tab g) j = k).
        { rewrite (like_key c OK _ _ j (cr_tab _ _ _ _ _ _ Cr) Hj). apply (claim_key c OK); assumption. }
        assert (Ug : used (tab g) j) by (apply (key_used _ _ k); assumption). destruct (Dg j Hj Ug) as [D1 D2].
        apply wps_bind. apply (buffer_hit c OK g k j); try assumption.
        -- rewrite <- Eg. apply (unique_first c); assumption.
        -- apply (to_pos c _ Tg); assumption.
        -- left. exact Kg.
        -- eapply wps_post; [apply (finish_open f g hs s i j k); try assumption; try (apply Nw; reflexivity)|].
           ++ apply (others_created f g j p k); assumption.
           ++ intro U. contradiction.
           ++ intros i' Hi' _. apply Nk. exact Hi'.
           ++ intros [r1 r2] g2 _ [E S']. cbn [fst snd] in *. subst r1. split; [reflexivity|exact S'].
Qed.

Lemma rdl_as : forall (l : list Z) f a, (forall i, 0 <= i < zlen l -> f (a + i) = nth (Z.to_nat i) l 0) -> rdl f a (length l) = l.
Proof.
  induction l as [|x l IH]; intros f a H; [reflexivity|]. cbn [length rdl]. f_equal.
  - rewrite <- (Z.add_0_r a). rewrite H by (unfold zlen; cbn [length]; lia). reflexivity.
  - apply IH. intros i Hi. rewrite <- Z.add_assoc. rewrite H by (unfold zlen in *; cbn [length]; lia).
    replace (Z.to_nat (1 + i)) with (S (Z.to_nat i)) by lia. reflexivity.
Qed.

Lemma handle_at : forall f hs s i, srel f hs s -> (i < MAX_OPEN)%nat -> hok f (nth i (v_open s) None) (nth i hs nohandle).
Proof. intros f hs s i R Hi. apply (forall2_nth (hok f)); [apply R|]. rewrite (sr_len _ _ _ R). exact Hi. Qed.

Lemma close_spec : forall f hs s i, srel f hs s -> srel f (store_close i hs) (snd (spec_call (items c) (room c) (OpClose i) s)).
Proof.
  intros f hs s i R. pose proof R as [Sv Ss Sr Sh Sl Sx]. cbn [spec_call snd]. unfold store_close.
  split; cbn [v_objs v_open]; [exact Sv|exact Ss|exact Sr| |rewrite set_nth_length; exact Sl|apply excl_close; exact Sx].
  apply (forall2_set (hok f) (hok f) _ _ i _ _ None nohandle Sh); [intros; assumption|]. split; reflexivity.
Qed.

Lemma read_spec : forall f hs s i len k, srel f hs s -> (i < MAX_OPEN)%nat -> 0 <= len < 2 ^ 31 ->
  wps (store_read c i len hs)
    (fun r g => g = f /\ fst (spec_call (items c) (room c) (OpRead i len) s) = RRead (fst (fst r)) (snd (fst r)) /\
                srel g (snd r) (snd (spec_call (items c) (room c) (OpRead i len) s))) (mid f k) f.
Proof.
  intros f hs s i len k R Hi Hl. pose proof R as [Sv Ss Sr Sh Sl Sx]. pose proof Sv as (Bf & T & D).
  assert (Kf : mid f k f) by (left; apply kept_self; assumption).
  pose proof (handle_at f hs s i R Hi) as H. cbn [spec_call]. unfold store_read.
  destruct (nth i (v_open s) None) as [a|] eqn:Na; [|destruct H as [_ ->]; cbn [wps fst snd]; split; [exact Kf|]; split; [reflexivity|]; split; [reflexivity|exact R]].
  destruct H as (H1 & H2 & H3 & H4 & H5 & j & Hj & E1 & E2 & E3 & E4). rewrite E2, E3. cbn [wps].
  assert (U : used (tab f) j) by (apply (key_used _ _ (a_key a)); assumption).
  pose proof (rep_at f _ j Sr Hj U) as G. rewrite E1 in G. rewrite G. rewrite size_at, H5.
  pose proof (to_size c _ T j Hj U) as Hs. assert (H31 : OSZ c < 2 ^ 31) by apply OK.
  rewrite (proj2 (Z.ltb_ge (OSZ c) (s_size (tab f) j))) by lia.
  set (n := s_size (tab f) j) in *. set (o := a_off a) in *.
  set (l := firstn (Z.to_nat len) (skipn o (content f j))).
  assert (Lc : length (content f j) = Z.to_nat (n - 8)) by apply length_rdl.
  assert (Ll : length l = Nat.min (Z.to_nat len) (Z.to_nat (n - 8) - o)) by (unfold l; rewrite firstn_length, skipn_length, Lc; reflexivity).
  assert (Same : length l = O -> srel f hs (mkV (v_objs s) (set_nth (v_open s) i (Some (mkA (a_key a) (a_ro a) (o + length l)))))).
  { intro Z0. rewrite Z0, Nat.add_0_r. unfold o. destruct s as [ob op]. cbn [v_objs v_open] in *.
    assert (Es : set_nth op i (Some (mkA (a_key a) (a_ro a) (a_off a))) = op).
    { destruct a as [ak ar ao]. cbn [a_key a_ro a_off]. rewrite <- Na. apply set_nth_same. }
    rewrite Es. exact R. }
  assert (Nil : length l = O -> l = []) by (intro Z0; apply length_zero_iff_nil; exact Z0).
  destruct (Z.leb_spec n (8 + Z.of_nat o)) as [Eof|Av].
  - assert (Z0 : length l = O) by lia. cbn [wps fst snd]. split; [exact Kf|]. split; [reflexivity|].
    split; [rewrite (Nil Z0); reflexivity|apply Same, Z0].
  - rewrite Z.mod_small by lia.
    set (m := if n <? 8 + Z.of_nat o + len then n - (8 + Z.of_nat o) else len).
    assert (Em : m = Z.of_nat (length l)) by (unfold m; destruct (Z.ltb_spec n (8 + Z.of_nat o + len)); lia).
    destruct (Z.ltb_spec 0 m) as [Pos|Zero].
    + assert (El : rdl f (buf (s_pos (tab f) j) + (8 + Z.of_nat o)) (Z.to_nat m) = l).
      { rewrite Em, Nat2Z.id. unfold l at 2. unfold content.
        assert (Sub : skipn o (rdl f (buf (s_pos (tab f) j) + 8) (Z.to_nat (s_size (tab f) j - 8))) =
                      rdl f (buf (s_pos (tab f) j) + (8 + Z.of_nat o)) (Z.to_nat (n - 8) - o)).
        { fold n. replace (Z.to_nat (n - 8)) with (o + (Z.to_nat (n - 8) - o))%nat at 1 by lia. rewrite rdl_app.
          rewrite skipn_app, skipn_all2 by (rewrite length_rdl; lia). rewrite length_rdl, Nat.sub_diag. cbn [skipn app].
          rewrite <- Z.add_assoc. reflexivity. }
        rewrite Sub. destruct (Nat.le_gt_cases (Z.to_nat len) (Z.to_nat (n - 8) - o)) as [L1|L1].
        - rewrite rdl_firstn by exact L1. f_equal. lia.
        - rewrite firstn_all2 by (rewrite length_rdl; lia). f_equal. lia. }
      cbn [wps fst snd]. split; [exact Kf|]. split; [reflexivity|]. rewrite El. split; [rewrite Em; reflexivity|].
      split; cbn [v_objs v_open]; [exact Sv|exact Ss|exact Sr| |rewrite set_nth_length; exact Sl|].
      * apply (forall2_set (hok f) (hok f) _ _ i _ _ None nohandle Sh); [intros; assumption|].
        split; [exact H1|]. split; [exact H2|]. split; [exact H3|]. cbn [a_off a_key a_ro h_off h_hdr h_buf].
        split; [lia|]. split; [lia|]. exists j. split; [exact Hj|]. split; [exact E1|]. split; [reflexivity|]. split; [reflexivity|].
        intro Ro. specialize (E4 Ro). exfalso. fold o in E4. lia.
      * apply excl_set; [rewrite Sl; exact Hi|exact Sx|]. cbn [a_ro a_key]. intros Ro i' a' Ne N E.
        destruct (a_ro a') eqn:Ra; [reflexivity|]. exfalso. apply Ne. apply (Sx i' i a' a); assumption.
    + assert (Z0 : length l = O) by lia. cbn [wps fst snd]. split; [exact Kf|]. split; [reflexivity|].
      split; [rewrite (Nil Z0), Em, Z0; reflexivity|apply Same, Z0].
Qed.

Lemma write_spec : forall f hs s i data a, srel f hs s -> (i < MAX_OPEN)%nat -> all_bytes data -> zlen data < 2 ^ 31 ->
  nth i (v_open s) None = Some a -> a_ro a = false ->
  wps (store_write c i data hs)
    (fun r g => fst (spec_call (items c) (room c) (OpWrite i data) s) = RWrote (fst r) /\
                srel g (snd r) (snd (spec_call (items c) (room c) (OpWrite i data) s))) (mid f (a_key a)) f.
Proof.
  intros f hs s i data a R Hi Bd Hd Na Ro. pose proof R as [Sv Ss Sr Sh Sl Sx]. pose proof Sv as (Bf & T & D).
  set (k := a_key a). assert (Kf : kept f k f) by (apply kept_self; assumption).
  pose proof (handle_at f hs s i R Hi) as H. rewrite Na in H.
  destruct H as (H1 & H2 & H3 & H4 & H5 & j & Hj & E1 & E2 & E3 & E4). specialize (E4 Ro).
  assert (U : used (tab f) j) by (apply (key_used _ _ (a_key a)); assumption).
  pose proof (rep_at f _ j Sr Hj U) as G. rewrite E1 in G.
  pose proof (to_size c _ T j Hj U) as Hs. assert (H31 : OSZ c < 2 ^ 31) by apply OK.
  assert (Lc : length (content f j) = Z.to_nat (s_size (tab f) j - 8)) by apply length_rdl.
  assert (Es : s_size (tab f) j = 8 + Z.of_nat (a_off a)) by lia.
  cbn [spec_call]. rewrite Na, Ro, G. unfold store_write. rewrite E2, E3, H2, Ro. cbn [wps]. rewrite size_at, H5.
  rewrite (proj2 (Z.ltb_ge (OSZ c) (s_size (tab f) j))) by lia.
  set (off := 8 + Z.of_nat (a_off a)) in *.
  set (len := if OSZ c <? zlen data + off then OSZ c - off else zlen data).
  assert (Hlen : 0 <= len <= zlen data /\ off + len <= OSZ c /\ len = Z.min (zlen data) (OSZ c - off)).
  { unfold len, zlen in *. destruct (Z.ltb_spec (OSZ c) (Z.of_nat (length data) + off)); lia. }
  destruct Hlen as (L1 & L2 & L3). rewrite (proj2 (Z.ltb_ge len 0)) by lia.
  set (l := firstn (room c - length (content f j)) data).
  assert (El : firstn (Z.to_nat len) data = l).
  { unfold l, room. replace (Z.to_nat (OSZ c - 8) - length (content f j))%nat with (Z.to_nat (OSZ c - off)) by lia.
    unfold zlen in *. destruct (Nat.le_gt_cases (length data) (Z.to_nat (OSZ c - off))) as [X|X].
    - rewrite !firstn_all2 by lia. reflexivity.
    - f_equal. lia. }
  assert (Zl : zlen l = len) by (rewrite <- El; unfold zlen in *; rewrite firstn_length; lia).
  pose proof (to_pos c _ T j Hj U) as Hp.
  apply wps_bind.
  apply (write_loop_spec c OK f k f j off data len); try assumption; [right; exists j; auto|lia|].
  intros g St Vg Kg. rewrite El in St. pose proof Vg as (Bg & Tg & Dg).
  assert (Eg : keyat (tab g) j = k) by (rewrite (like_key c OK _ _ j (st_tab _ _ _ _ _ _ St) Hj); exact E1).
  assert (Ep : s_pos (tab g) j = s_pos (tab f) j) by exact (like_pos c OK _ _ j (st_tab _ _ _ _ _ _ St) Hj).
  assert (Ug : used (tab g) j) by (apply (key_used _ _ k); assumption).
  assert (Mx : 8 <= off + len <= OSZ c) by lia.
  apply wps_bind. replace ((s_size (tab f) j + len) mod 2 ^ 32) with (off + len) by (rewrite Z.mod_small; lia).
  apply (update_size_spec c OK f k); try assumption.
  intros h Rs Vh Sh'. cbn [wps fst snd].
  destruct (content_resized g h j (off + len) Mx Hj Ug Tg Rs) as (F1 & F2 & F3).
  assert (Ec : content h j = content f j ++ l).
  { rewrite F3, Ep. replace (Z.to_nat (off + len - 8)) with (length (content f j) + length l)%nat by (unfold zlen in Zl; lia).
    rewrite rdl_app. f_equal.
    - rewrite Lc. unfold content. apply rdl_ext. intros b Hb. apply (st_out _ _ _ _ _ _ St).
      + rewrite <- Z.add_assoc. apply (buf_low c OK); lia.
      + lia.
    - apply rdl_as. intros b Hb. rewrite <- (st_in _ _ _ _ _ _ St b Hb). f_equal. lia. }
  split.
  - left. split; [apply Rs|]. pose proof Kg as (_ & Tk & Dk). split.
    + apply (like_tkept c OK f k (resize (tab g) j (off + len))); [apply Rs|]. destruct Tk as [M Tk]. split.
      * unfold resize. rewrite word_put32_out by (unfold sl; lia). exact M.
      * intros i' Hi' Sf. pose proof (kept_slot c f k (tab g) i' (conj M Tk) Hi' Sf) as Ei.
        assert (Ne : i' <> j). { intros -> . destruct Sf as (_ & Nk' & _). congruence. }
        destruct (Tk i' Hi' Sf) as [K1 K2]. split.
        -- intros b Hb. rewrite resize_out by (unfold sl; lia). apply K1. exact Hb.
        -- intros i2 Hi2. rewrite resize_key. apply K2. exact Hi2.
    + apply (dkept_low c OK f k g); [exact T|exact Dk|apply Rs].
  - split; [rewrite Zl; reflexivity|].
    apply (step_rel f h hs s i j k (content f j ++ l)); try assumption.
    + apply (others_trans f g).
      * apply (others_stored f g j off l); try assumption; lia.
      * apply (others_resized g h j (off + len)); try assumption; lia.
    + congruence.
    + intros _. split; [exact E1|congruence].
    + intros i' Hi' Ne. unfold k. rewrite <- E1. apply unique_other; assumption.
    + reflexivity.
    + split; [exact H1|]. split; [reflexivity|]. split; [exact H3|]. cbn [a_off a_key a_ro h_off h_hdr h_buf].
      unfold zlen in Zl. split; [lia|]. split; [lia|]. exists j. rewrite F1, Ep. split; [exact Hj|]. split; [unfold k in *; congruence|].
      split; [reflexivity|]. split; [reflexivity|]. intros _. rewrite Ec, app_length. reflexivity.
    + intros i' a' Ne N E. destruct (a_ro a') eqn:Ra; [reflexivity|]. exfalso. apply Ne. apply (Sx i' i a' a); assumption.
Qed.

End Vault.
