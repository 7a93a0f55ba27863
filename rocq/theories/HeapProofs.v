(** Proofs about the allocator. *)
From Coq Require Import Permutation.
From Verif Require Import Base HeapModel HeapSpec.

(** What the pool considers live. *)
Fixpoint used_list (p : pool) : ledger :=
  match p with
  | [] => []
  | s :: r => if s_used s then (s_addr s, s_size s) :: used_list r else used_list r
  end.

Lemma used_app : forall p q, used_list (p ++ q) = used_list p ++ used_list q.
Proof. induction p as [|s p IH]; intro q; cbn [used_list app]; [reflexivity|]. rewrite IH. destruct (s_used s); reflexivity. Qed.

Lemma used_in : forall p x, In x (used_list p) <-> exists s, In s p /\ s_used s = true /\ x = (s_addr s, s_size s).
Proof.
  induction p as [|s p IH]; intro x; cbn [used_list].
  - split; [contradiction|intros (s & [] & _)].
  - split.
    + intro H. destruct (s_used s) eqn:E; [destruct H as [H|H]|].
      * exists s. split; [left; reflexivity|]. auto.
      * apply IH in H as (t & A & B). exists t. split; [right; exact A|exact B].
      * apply IH in H as (t & A & B). exists t. split; [right; exact A|exact B].
    + intros (t & [A|A] & B & C).
      * subst t. rewrite B. left. auto.
      * assert (In x (used_list p)) by (apply IH; exists t; auto). destruct (s_used s); [right|]; assumption.
Qed.

Lemma xmalloc_cases : forall n p a p', xmalloc n p = (a, p') ->
  (a = 0 /\ p' = p /\ forall s, In s p -> s_size s = n -> s_used s = true) \/
  (exists p1 s p2, p = p1 ++ s :: p2 /\ p' = p1 ++ use s true :: p2 /\ s_size s = n /\ s_used s = false /\ a = s_addr s).
Proof.
  intros n p. induction p as [|s p IH]; intros a p' H; cbn [xmalloc] in H.
  - injection H as <- <-. left. split; [reflexivity|]. split; [reflexivity|]. intros s [].
  - destruct ((n =? s_size s) && negb (s_used s)) eqn:E.
    + injection H as <- <-. apply andb_prop in E as (E1 & E2). apply Z.eqb_eq in E1. apply negb_true_iff in E2.
      right. exists [], s, p. auto.
    + destruct (xmalloc n p) as [b q] eqn:EX. injection H as <- <-. destruct (IH b q eq_refl) as [(A & B & C)|(p1 & t & p2 & A & B & C)].
      * left. split; [exact A|]. split; [congruence|]. intros t [T|T] Hs; [|apply C; assumption]. subst t.
        apply andb_false_iff in E as [E|E]; [apply Z.eqb_neq in E; congruence|apply negb_false_iff in E; exact E].
      * right. exists (s :: p1), t, p2. subst. auto.
Qed.

Lemma xfree_cases : forall ptr p,
  (xfree ptr p = p /\ forall s, In s p -> s_used s = true -> s_addr s <> ptr) \/
  (exists p1 s p2, p = p1 ++ s :: p2 /\ xfree ptr p = p1 ++ use s false :: p2 /\ s_used s = true /\ s_addr s = ptr).
Proof.
  intros ptr p. induction p as [|s p IH]; cbn [xfree].
  - left. split; [reflexivity|intros s []].
  - destruct ((ptr =? s_addr s) && s_used s) eqn:E.
    + apply andb_prop in E as (E1 & E2). apply Z.eqb_eq in E1. right. exists [], s, p. auto.
    + destruct IH as [(A & B)|(p1 & t & p2 & A & B & C)].
      * left. split; [congruence|]. intros t [T|T] Ht; [|apply B; assumption]. subst t.
        apply andb_false_iff in E as [E|E]; [apply Z.eqb_neq in E; congruence|congruence].
      * right. exists (s :: p1), t, p2. subst. rewrite B. auto.
Qed.

(** Changing the mark of a slot keeps the layout. *)
Definition same_layout (p q : pool) : Prop := map (fun s => (s_addr s, s_size s, s_room s)) p = map (fun s => (s_addr s, s_size s, s_room s)) q.

Lemma layout_use : forall p1 s p2 b, same_layout (p1 ++ s :: p2) (p1 ++ use s b :: p2).
Proof. intros. unfold same_layout. rewrite !map_app. reflexivity. Qed.

Lemma layout_in : forall p q s, same_layout p q -> In s q -> exists t, In t p /\ s_addr t = s_addr s /\ s_size t = s_size s /\ s_room t = s_room s.
Proof.
  intros p q s H I. apply (in_map (fun s => (s_addr s, s_size s, s_room s))) in I. rewrite <- H in I. apply in_map_iff in I as (t & E & I).
  exists t. injection E as E1 E2 E3. auto.
Qed.

Lemma placed_apart : forall p, placed p -> forall s t, In s p -> In t p -> s_addr s <> s_addr t -> apart (s_addr s) (s_room s) (s_addr t) (s_room t).
Proof.
  induction p as [|x p IH]; intros H s t Hs Ht N; [contradiction|]. destruct H as (_ & F & P). rewrite Forall_forall in F. destruct Hs as [Hs|Hs], Ht as [Ht|Ht].
  - congruence.
  - subst x. apply (F t Ht).
  - subst x. destruct (F s Hs) as (A & _). unfold apart in *. lia.
  - apply (IH P); assumption.
Qed.

Lemma placed_inj : forall p, placed p -> NoDup (map s_addr p).
Proof.
  induction p as [|x p IH]; intros H; [constructor|]. destruct H as (_ & F & P). cbn [map]. constructor; [|apply IH; exact P].
  intro I. apply in_map_iff in I as (t & E & I). rewrite Forall_forall in F. destruct (F t I) as (_ & N). congruence.
Qed.

Lemma placed_pos : forall p s, placed p -> In s p -> 0 < s_addr s.
Proof. induction p as [|x p IH]; intros s H I; [contradiction|]. destruct H as (A & _ & P). destruct I as [ <- |I]; [exact A|apply IH; assumption]. Qed.

(** The invariant. *)
Definition inv (p0 : pool) (s : ledger * pool) : Prop :=
  same_layout p0 (snd s) /\ Permutation (fst s) (used_list (snd s)) /\ NoDup (map fst (fst s)).

Lemma used_nodup : forall p0 p, placed p0 -> same_layout p0 p -> NoDup (map fst (used_list p)).
Proof.
  intros p0 p P L. assert (N : NoDup (map s_addr p)).
  { replace (map s_addr p) with (map s_addr p0); [apply placed_inj; exact P|].
    assert (E : forall q, map s_addr q = map (fun x => fst (fst x)) (map (fun s => (s_addr s, s_size s, s_room s)) q)) by (intro q; rewrite map_map; reflexivity).
    rewrite !E. f_equal. exact L. }
  clear L. induction p as [|s p IH]; [constructor|]. cbn [map] in N. inversion N as [|? ? N1 N2]; subst. cbn [used_list].
  destruct (s_used s); [|apply IH; exact N2]. cbn [map fst]. constructor; [|apply IH; exact N2].
  intro I. apply N1. apply in_map_iff in I as (x & E & I). apply used_in in I as (t & T & _ & ->). cbn [fst] in E. rewrite <- E. apply in_map. exact T.
Qed.

Lemma drop_perm : forall l ptr n r, NoDup (map fst l) -> Permutation l ((ptr, n) :: r) -> Permutation (drop ptr l) r.
Proof.
  intros l ptr n r N P. assert (I : In (ptr, n) l) by (apply (Permutation_in _ (Permutation_sym P)); left; reflexivity).
  assert (D : Permutation l ((ptr, n) :: drop ptr l)).
  { clear P. induction l as [|x l IH]; [contradiction|]. cbn [drop]. cbn [map] in N. inversion N as [|? ? N1 N2]; subst. destruct (Z.eqb_spec (fst x) ptr) as [E|E].
    - destruct I as [I|I]; [subst x; reflexivity|]. exfalso. apply N1. rewrite E. change ptr with (fst (ptr, n)). apply in_map. exact I.
    - destruct I as [I|I]; [subst x; cbn in E; congruence|]. rewrite (IH N2 I) at 1. apply perm_swap. }
  apply (Permutation_cons_inv (a := (ptr, n))). rewrite <- D. exact P.
Qed.

Lemma drop_none : forall l ptr, (forall x, In x l -> fst x <> ptr) -> drop ptr l = l.
Proof.
  induction l as [|x l IH]; intros ptr H; [reflexivity|]. cbn [drop]. destruct (Z.eqb_spec (fst x) ptr) as [E|E]; [exfalso; apply (H x); [left; reflexivity|exact E]|].
  rewrite IH; [reflexivity|]. intros y I. apply H. right. exact I.
Qed.

Lemma inv_step : forall p0 o s, placed p0 -> inv p0 s -> inv p0 (step o s).
Proof.
  intros p0 o (l, p) P (L & Pm & N). cbn [fst snd] in *. destruct o as [n|ptr]; cbn [step fst snd].
  - destruct (xmalloc n p) as [a p'] eqn:E. destruct (xmalloc_cases n p a p' E) as [(A & B & _)|(p1 & s & p2 & A & B & S & U & ->)].
    + subst. cbn [Z.eqb]. split; [exact L|split; [exact Pm|exact N]].
    + assert (L' : same_layout p0 p') by (unfold same_layout in *; rewrite L; subst; apply layout_use).
      assert (Pos : 0 < s_addr s).
      { destruct (layout_in p0 p s L) as (t & T & Ea & _); [subst; apply in_or_app; right; left; reflexivity|]. rewrite <- Ea. apply (placed_pos p0); assumption. }
      destruct (Z.eqb_spec (s_addr s) 0) as [|_]; [lia|]. unfold inv. cbn [fst snd].
      assert (Pm' : Permutation ((s_addr s, n) :: l) (used_list p')).
      { subst p' p. rewrite used_app in *. cbn [used_list use s_used s_addr s_size] in *. rewrite U in Pm. rewrite S. rewrite <- Permutation_middle. constructor. exact Pm. }
      split; [exact L'|]. split; [exact Pm'|]. pose proof (used_nodup p0 p' P L') as ND.
      apply (Permutation_NoDup (l := map fst (used_list p'))); [|exact ND]. apply Permutation_map, Permutation_sym, Pm'.
  - unfold inv. cbn [fst snd]. destruct (xfree_cases ptr p) as [(A & B)|(p1 & s & p2 & A & B & U & Ea)].
    + rewrite A, drop_none; [split; [exact L|split; [exact Pm|exact N]]|]. intros x I. apply (Permutation_in _ Pm) in I. apply used_in in I as (s & I & U & ->). apply B; assumption.
    + rewrite B. split; [unfold same_layout in *; rewrite L; subst; apply layout_use|].
      assert (D : Permutation (drop ptr l) (used_list (p1 ++ use s false :: p2))).
      { apply (drop_perm l ptr (s_size s)); [exact N|]. rewrite Pm, A. rewrite !used_app. cbn [used_list use s_used]. rewrite U, <- Ea. apply Permutation_sym, Permutation_middle. }
      split; [exact D|]. apply (Permutation_NoDup (l := map fst (used_list (p1 ++ use s false :: p2)))); [apply Permutation_map, Permutation_sym, D|].
      apply (used_nodup p0); [exact P|]. unfold same_layout in *. rewrite L; subst; apply layout_use.
Qed.

Lemma unused_none : forall p, unused p -> used_list p = [].
Proof. induction p as [|s p IH]; intro H; [reflexivity|]. inversion H as [|? ? A B]; subst. cbn [used_list]. rewrite A. apply IH. exact B. Qed.

Lemma inv_history : forall p0 os, placed p0 -> unused p0 -> inv p0 (history os ([], p0)).
Proof.
  intros p0 os P U. unfold history. assert (I : inv p0 ([], p0)).
  { split; [reflexivity|]. split; [cbn [fst snd]; rewrite unused_none by exact U; constructor|constructor]. }
  assert (G : forall os s, inv p0 s -> inv p0 (fold_left (fun s o => step o s) os s)).
  { clear os I. induction os as [|o os IH]; intros s I; [exact I|]. cbn [fold_left]. apply IH. apply inv_step; assumption. }
  apply G. exact I.
Qed.

Lemma live_slot : forall p0 l p a n, inv p0 (l, p) -> In (a, n) l ->
  exists s, In s p0 /\ s_addr s = a /\ s_size s = n.
Proof.
  intros p0 l p a n (L & Pm & _) I. cbn [fst snd] in *. apply (Permutation_in _ Pm) in I. apply used_in in I as (s & I & _ & E). injection E as -> ->.
  destruct (layout_in p0 p s L I) as (t & T & A & B & _). exists t. auto.
Qed.

Lemma inv_disjoint : forall p0 l p, placed p0 -> fits p0 -> inv p0 (l, p) -> disjoint l.
Proof.
  intros p0 l p P F I. assert (M : forall a n, In (a, n) l -> exists s, In s p0 /\ s_addr s = a /\ s_size s = n) by (intros; apply (live_slot p0 l p); assumption).
  destruct I as (_ & _ & N). cbn [fst] in N. clear p. induction l as [|(a, n) l IH]; [exact Logic.I|]. cbn [map fst] in N. inversion N as [|? ? N1 N2]; subst. split.
  - apply Forall_forall. intros (b, m) Hb. cbn [fst snd]. destruct (M a n) as (s & S1 & S2 & S3); [left; reflexivity|]. destruct (M b m) as (t & T1 & T2 & T3); [right; exact Hb|].
    assert (NE : s_addr s <> s_addr t) by (rewrite S2, T2; intro E; apply N1; rewrite E; change b with (fst (b, m)); apply in_map; exact Hb).
    pose proof (placed_apart p0 P s t S1 T1 NE) as AP. unfold fits in F. rewrite Forall_forall in F. pose proof (F s S1). pose proof (F t T1). unfold apart in *. lia.
  - apply IH; [exact N2|intros; apply M; right; assumption].
Qed.
