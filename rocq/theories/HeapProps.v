(** Properties of the crypto heap: C33. *)
From Coq Require Import Permutation.
From Verif Require Import Base HeapModel HeapSpec HeapProofs.

(** After any history of allocations and frees (of any pointers), live allocations do not
    overlap. *)
Theorem C33_disjoint : forall p os, placed p -> fits p -> unused p -> disjoint (fst (history os ([], p))).
Proof.
  intros p os P F U. destruct (history os ([], p)) as [l q] eqn:E. apply (inv_disjoint p l q P F). rewrite <- E. apply inv_history; assumption.
Qed.
Print Assumptions C33_disjoint.

(** Every live allocation starts at the beginning of a buffer with room for the requested
    size. *)
Theorem C33_size : forall p os a n, placed p -> fits p -> unused p -> In (a, n) (fst (history os ([], p))) ->
  exists s, In s p /\ s_addr s = a /\ s_size s = n /\ n <= s_room s.
Proof.
  intros p os a n P F U I. destruct (history os ([], p)) as [l q] eqn:E. destruct (live_slot p l q a n) as (s & A & B & C).
  - rewrite <- E. apply inv_history; assumption.
  - exact I.
  - exists s. split; [exact A|]. split; [exact B|]. split; [exact C|]. unfold fits in F. rewrite Forall_forall in F. rewrite <- C. apply F. exact A.
Qed.
Print Assumptions C33_size.

(** A request succeeds exactly if some buffer of that size is not live, and then hands out
    such a buffer. *)
Theorem C33_malloc : forall p os n l q a q', placed p -> unused p -> history os ([], p) = (l, q) -> xmalloc n q = (a, q') ->
  (a <> 0 -> (exists s, In s p /\ s_addr s = a /\ s_size s = n) /\ ~ In a (map fst l)) /\
  (a = 0 -> forall s, In s p -> s_size s = n -> In (s_addr s, n) l).
Proof.
  intros p os n l q a q' P U H X. pose proof (inv_history p os P U) as (L & Pm & N). rewrite H in *. cbn [fst snd] in *.
  destruct (xmalloc_cases n q a q' X) as [(A & _ & C)|(p1 & s & p2 & A & B & C & D & E)].
  - split; [congruence|]. intros _ s Hs Hn. destruct (layout_in q p s (eq_sym L) Hs) as (t & T & E1 & E2 & _).
    apply (Permutation_in _ (Permutation_sym Pm)). apply used_in. exists t. split; [exact T|]. split; [apply C; [exact T|congruence]|congruence].
  - assert (Hq : In s q) by (subst q; apply in_or_app; right; left; reflexivity).
    assert (Hp : exists t, In t p /\ s_addr t = s_addr s /\ s_size t = s_size s /\ s_room t = s_room s) by (apply (layout_in p q); assumption).
    destruct Hp as (t & T & T1 & T2 & _). split.
    + intros _. split; [exists t; subst a; auto; split; [exact T|split; congruence]|].
      intro I. apply in_map_iff in I as (x & Ex & I). apply (Permutation_in _ Pm) in I. apply used_in in I as (u & Hu & Uu & ->). cbn [fst] in Ex.
      assert (us : u = s).
      { assert (ND : NoDup (map s_addr q)).
        { replace (map s_addr q) with (map s_addr p); [apply placed_inj; exact P|].
          assert (M : forall r, map s_addr r = map (fun x => fst (fst x)) (map (fun s => (s_addr s, s_size s, s_room s)) r)) by (intro r; rewrite map_map; reflexivity).
          rewrite !M. f_equal. exact L. }
        assert (Eu : s_addr u = s_addr s) by congruence. clear -ND Hu Hq Eu. induction q as [|x q IH]; [contradiction|]. cbn [map] in ND. inversion ND as [|? ? N1 N2]; subst.
        destruct Hu as [Hu|Hu], Hq as [Hq|Hq]; subst; auto.
        - exfalso. apply N1. rewrite Eu. apply in_map. exact Hq.
        - exfalso. apply N1. rewrite <- Eu. apply in_map. exact Hu. }
      subst u. congruence.
    + intro Z0. exfalso. subst a. pose proof (placed_pos p t P T). lia.
Qed.
Print Assumptions C33_malloc.

(** A freed buffer can be allocated again. *)
Theorem C33_reuse : forall p os a n, placed p -> unused p -> In (a, n) (fst (history os ([], p))) ->
  fst (xmalloc n (snd (history (os ++ [Free a]) ([], p)))) <> 0.
Proof.
  intros p os a n P U I E. destruct (xmalloc n (snd (history (os ++ [Free a]) ([], p)))) as [b q'] eqn:X. cbn [fst] in E. subst b.
  destruct (history (os ++ [Free a]) ([], p)) as [l q] eqn:H. cbn [snd] in X.
  destruct (C33_malloc p (os ++ [Free a]) n l q 0 q' P U H X) as (_ & F). specialize (F eq_refl).
  destruct (history os ([], p)) as [l0 q0] eqn:H0. cbn [fst] in I. destruct (live_slot p l0 q0 a n) as (s & S1 & S2 & S3); [rewrite <- H0; apply inv_history; assumption|exact I|].
  specialize (F s S1 S3). rewrite S2 in F. unfold history in H. rewrite fold_left_app in H. change (fold_left (fun s o => step o s) os ([], p)) with (history os ([], p)) in H.
  rewrite H0 in H. cbn [fold_left step fst snd] in H. injection H as HL _. subst l.
  pose proof (inv_history p os P U) as (_ & _ & N). rewrite H0 in N. cbn [fst] in N. clear -N I F. induction l0 as [|x l IH]; [contradiction|]. cbn [map] in N. inversion N as [|? ? N1 N2]; subst.
  cbn [drop] in F. destruct (Z.eqb_spec (fst x) a) as [Ex|Ex].
  - apply N1. rewrite Ex. change a with (fst (a, n)). apply in_map. exact F.
  - destruct F as [F|F]; [subst x; cbn in Ex; congruence|]. destruct I as [I|I]; [subst x; cbn in Ex; congruence|]. apply IH; assumption.
Qed.
Print Assumptions C33_reuse.

(** Freeing a pointer that is not live, or twice, changes nothing. *)
Theorem C33_stray_free : forall p os a, placed p -> unused p -> ~ In a (map fst (fst (history os ([], p)))) ->
  history (os ++ [Free a]) ([], p) = history os ([], p).
Proof.
  intros p os a P U NI. unfold history. rewrite fold_left_app. change (fold_left (fun s o => step o s) os ([], p)) with (history os ([], p)).
  pose proof (inv_history p os P U) as (L & Pm & N). destruct (history os ([], p)) as [l q]. cbn [fst snd fold_left step] in *. f_equal.
  - apply drop_none. intros x I E. apply NI. rewrite <- E. apply in_map. exact I.
  - destruct (xfree_cases a q) as [(A & _)|(p1 & s & p2 & A & _ & B & C)]; [exact A|]. exfalso. apply NI.
    assert (I : In (s_addr s, s_size s) l) by (apply (Permutation_in _ (Permutation_sym Pm)); apply used_in; exists s; split; [subst q; apply in_or_app; right; left; reflexivity|auto]).
    rewrite <- C. change (s_addr s) with (fst (s_addr s, s_size s)). apply in_map. exact I.
Qed.
Print Assumptions C33_stray_free.

(** ** The pools of the supported builds *)

Lemma make_fits : forall bs place, Forall (fun b => snd b <= fst b) bs -> fits (make_pool bs place).
Proof.
  intros bs place. unfold make_pool, fits. generalize 0%nat. induction bs as [|b bs IH]; intros k H; [constructor|]. inversion H as [|? ? A B]; subst.
  cbn [length seq combine map]. constructor; [exact A|apply IH; exact B].
Qed.
Lemma make_unused : forall bs place, unused (make_pool bs place).
Proof.
  intros bs place. unfold make_pool, unused. generalize 0%nat. induction bs as [|b bs IH]; intros k; [constructor|]. cbn [length seq combine map]. constructor; [reflexivity|apply IH].
Qed.

(** These pools are sane wherever the linker puts their buffers. *)
Theorem C33_pools : forall place g w mi mr pt b0 b1 bs,
  In bs [ecc256_asm; ecc384_asm; ecc521_asm; ed25519; ed448 g; rsa_asm w; rsa_c w; rsa_tfm mi mr; ecc_tfm mi pt mr b0 b1] ->
  fits (make_pool bs place) /\ unused (make_pool bs place).
Proof.
  intros place g w mi mr pt b0 b1 bs H. split; [|apply make_unused]. apply make_fits.
  assert (S : forall l : list Z, Forall (fun b : buf => snd b <= fst b) (map (fun x => (x, x)) l)).
  { intro l. apply Forall_forall. intros x I. apply in_map_iff in I as (y & <- & _). cbn [fst snd]. lia. }
  assert (R : forall x n, Forall (fun b : buf => snd b <= fst b) (repeat (x, x) n)).
  { intros x n. apply Forall_forall. intros y I. apply repeat_spec in I. subst y. cbn [fst snd]. lia. }
  assert (C : forall (b : buf) l, snd b <= fst b -> Forall (fun b : buf => snd b <= fst b) l -> Forall (fun b : buf => snd b <= fst b) (b :: l)) by (intros; constructor; assumption).
  assert (Nl : Forall (fun b : buf => snd b <= fst b) []) by constructor.
  cbn [In] in H. repeat (destruct H as [ <- |H]); [| | | | | | | | |contradiction];
    unfold ecc256_asm, ecc384_asm, ecc521_asm, sp_ecc_asm, ed25519, ed448, rsa_asm, rsa_c, rsa_tfm, ecc_tfm, sha_256_buf;
    repeat (apply C; [cbn [fst snd]; lia|] || (apply Forall_app; split) || apply S || apply R || exact Nl).
Qed.
Print Assumptions C33_pools.

(** Buffers laid out one after the other. *)
Fixpoint after (bs : list buf) (a : Z) (i : nat) : Z :=
  match bs, i with
  | b :: r, S j => after r (a + fst b) j
  | _, _ => a
  end.

Fixpoint placedb (p : pool) : bool :=
  match p with
  | [] => true
  | s :: r => (0 <? s_addr s) && forallb (fun t => ((s_addr s + s_room s <=? s_addr t) || (s_addr t + s_room t <=? s_addr s)) && negb (s_addr s =? s_addr t)) r && placedb r
  end.
Lemma placedb_ok : forall p, placedb p = true -> placed p.
Proof.
  induction p as [|s p IH]; intro H; [exact Logic.I|]. cbn [placedb] in H. apply andb_prop in H as (H & H3). apply andb_prop in H as (H1 & H2).
  split; [apply Z.ltb_lt; exact H1|]. split; [|apply IH; exact H3]. apply Forall_forall. intros t I. rewrite forallb_forall in H2. specialize (H2 t I).
  apply andb_prop in H2 as (A & B). apply negb_true_iff, Z.eqb_neq in B. split; [|exact B]. apply orb_prop in A as [A|A]; apply Z.leb_le in A; [left|right]; exact A.
Qed.

Example C33_hyps :
  let p := make_pool ecc256_asm (after ecc256_asm 536870912) in
  placed p /\ fits p /\ unused p /\
  fst (history [Malloc 392; Malloc 256; Malloc 392; Malloc 392; Free 536871240; Malloc 392] ([], p)) =
    [(536871240, 392); (536871632, 392); (536870912, 256)].
Proof.
  cbv zeta. split.
  - apply placedb_ok. vm_compute. reflexivity.
  - split; [apply (proj1 (C33_pools _ 0 0 0 0 0 0 [] ecc256_asm ltac:(left; reflexivity)))|]. split; [apply make_unused|]. vm_compute. reflexivity.
Qed.

Fixpoint disjointb (l : ledger) : bool :=
  match l with
  | [] => true
  | x :: r => forallb (fun y => (fst x + snd x <=? fst y) || (fst y + snd y <=? fst x)) r && disjointb r
  end.
Lemma disjointb_ok : forall l, disjoint l -> disjointb l = true.
Proof.
  induction l as [|x l IH]; intro H; [reflexivity|]. destruct H as (F & D). cbn [disjointb]. apply andb_true_intro. split; [|apply IH; exact D].
  apply forallb_forall. intros y I. rewrite Forall_forall in F. destruct (F y I) as [A|A]; apply Z.leb_le in A; rewrite A; [reflexivity|apply orb_true_r].
Qed.

(** In the SP builds in C the table claims 3 points for a buffer of 2: an allocation can
    overlap another one, wherever the linker puts something behind that buffer. *)
Theorem C33_ecc_c_refuted : forall bs, In bs [ecc256_c; ecc384_c; ecc521_c] ->
  exists os, let p := make_pool bs (after bs 536870912) in placed p /\ unused p /\ ~ disjoint (fst (history os ([], p))).
Proof.
  intros bs H. cbn [In] in H. assert (P : forall b, b = bs -> placed (make_pool b (after b 536870912))).
  { intros b ->. apply placedb_ok. repeat (destruct H as [ <- |H]); [vm_compute; reflexivity ..|contradiction]. }
  repeat (destruct H as [ <- |H]); [exists [Malloc (220 * 3); Malloc (4 * (2 * 9 * 6))]|exists [Malloc (364 * 3); Malloc (4 * (2 * 15 * 6))]|exists [Malloc (508 * 3); Malloc (4 * (2 * 21 * 6))]|contradiction];
    cbv zeta; (split; [apply P; reflexivity|]); (split; [apply make_unused|]); intro D; apply disjointb_ok in D; revert D; vm_compute; discriminate.
Qed.
Print Assumptions C33_ecc_c_refuted.
