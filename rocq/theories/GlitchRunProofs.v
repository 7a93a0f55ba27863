(** Lemmas for C75 - C77: the version check as a whole, signed comparisons, executions of
    the checks without a fault. *)
From Verif Require Import Base BaseLemmas GlitchSpec GlitchModel GlitchProofs GlitchCodeProofs
  GlitchVersionProofs.
Local Ltac Zify.zify_post_hook ::= idtac.

Lemma version_bound : forall fb ver c1 c2 k s t,
  fb <> 1 -> g (ver 0) (ver 1) = true -> pc s = 0%nat ->
  skipping (next (verify_version_allowed fb ver c1 c2)) (skip (verify_version_allowed fb ver c1 c2)) k s t ->
  ended (verify_version_allowed fb ver c1 c2) t -> (2 <= k)%nat.
Proof.
  intros fb ver c1 c2 k s t FB G P R E.
  assert (H : (vv_cost ver s <= k + vv_cost ver t)%nat).
  { eapply cost_bound; [| |exact R].
    - intros u. unfold next. destruct (nth_error _ (pc u)) as [x|] eqn:X; [|lia].
      apply (version_step fb ver c1 c2 _ _ u FB G X eq_refl).
    - intros u. unfold skip. destruct (nth_error _ (pc u)) as [x|] eqn:X; [|lia].
      apply (version_step fb ver c1 c2 _ _ u FB G X eq_refl). }
  unfold vv_cost in H. rewrite P in H. unfold ended in E. change (length _) with 104%nat in E.
  rewrite (nth_overflow (safe2 ver) ff (n := pc t)) in H by (change (length _) with 104%nat; exact E).
  rewrite (nth_overflow (safe1 ver) ff (n := pc t)) in H by (change (length _) with 104%nat; exact E).
  cbn [nth app safe2] in H. unfold tt, ff in H. lia.
Qed.

(** The flags of a comparison, N = V, order two words as signed numbers. *)
Lemma top_signed : forall x, 0 <= x < 2 ^ 32 -> top x = (2 ^ 31 <=? x).
Proof.
  intros x X. unfold top. rewrite Z.testbit_odd, Z.shiftr_div_pow2 by lia.
  change (2 ^ 32) with 4294967296 in X. change (2 ^ 31) with 2147483648.
  destruct (2147483648 <=? x) eqn:E.
  - apply Z.leb_le in E. replace (x / 2147483648) with 1; [reflexivity|].
    apply (Z.div_unique x 2147483648 1 (x - 2147483648)); lia.
  - apply Z.leb_gt in E. rewrite Z.div_small by lia. reflexivity.
Qed.

Lemma ge_signed : forall a b, 0 <= a < 2 ^ 32 -> 0 <= b < 2 ^ 32 -> g a b = (signed b <=? signed a).
Proof.
  intros a b A B. unfold g, sub_n, sub_v.
  assert (M : 0 <= (a - b) mod 2 ^ 32 < 2 ^ 32) by (apply Z.mod_pos_bound; lia).
  rewrite top_signed by exact M.
  change (2 ^ 32) with 4294967296 in *. change (2 ^ 31) with 2147483648 in *.
  assert (D : (a - b) mod 4294967296 = a - b \/ (a - b) mod 4294967296 = a - b + 4294967296).
  { destruct (Z.le_gt_cases b a).
    - left. apply Z.mod_small. lia.
    - right. replace (a - b) with (a - b + 4294967296 + (-1) * 4294967296) at 1 by lia.
      rewrite Z.mod_add by lia. apply Z.mod_small. lia. }
  unfold signed. change (2 ^ 32) with 4294967296 in *. change (2 ^ 31) with 2147483648 in *.
  set (m := (a - b) mod 4294967296) in *. clearbody m.
  destruct (a <? 2147483648) eqn:E1, (b <? 2147483648) eqn:E2, (m <? 2147483648) eqn:E3,
    (2147483648 <=? m) eqn:E4; try (exfalso; lia);
    match goal with |- context [negb (?x =? ?y)] => destruct (x =? y) eqn:E5 end; cbn [negb eqb];
    symmetry; first [apply Z.leb_le; lia | apply Z.leb_gt; lia | exfalso; lia].
Qed.

(** *** Executions with a given list of faults *)
Fixpoint run (code : list instr) (faults : list bool) (s : cpu) : cpu :=
  match faults with
  | [] => s
  | f :: l => run code l (if f then skip code s else next code s)
  end.

Definition count (l : list bool) : nat := length (filter (fun b => b) l).

Lemma run_skipping : forall code l s, skipping (next code) (skip code) (count l) s (run code l s).
Proof.
  intros code l. induction l as [|[|] l IH]; intros s.
  - constructor.
  - change (count (true :: l)) with (S (count l)). apply sk_skip. apply IH.
  - change (count (false :: l)) with (count l). apply sk_run. apply IH.
Qed.

(** [n] instructions without a fault. *)
Definition calm (n : nat) : list bool := repeat false n.

Lemma count_calm : forall n, count (calm n) = 0%nat.
Proof. induction n as [|n IH]; [reflexivity|exact IH]. Qed.

Definition passes (code : list instr) (P : cpu -> Prop) (s : cpu) : Prop :=
  exists t, skipping (next code) (skip code) 0 s t /\ ended code t /\ P t.

Lemma passes_step : forall code P s, passes code P (next code s) -> passes code P s.
Proof. intros code P s (t & R & E). exists t. split; [apply sk_run, R|exact E]. Qed.

Lemma passes_end : forall code (P : cpu -> Prop) s, ended code s -> P s -> passes code P s.
Proof. intros code P s E H. exists s. split; [constructor|split; assumption]. Qed.

Lemma passes_at : forall code P s i,
  nth_error code (pc s) = Some i -> passes code P (exec (length code) s i) -> passes code P s.
Proof. intros code P s i N H. apply passes_step. unfold next. rewrite N. exact H. Qed.

Ltac one :=
  eapply passes_at; [reflexivity|];
  unfold version_call;
  cbn [exec goto put flags pc size get holds zf nf vf target set_nz negb with_cell with_ret with_tmp
       with_confirmed r0 r1 r2 r4 r5 r6 r7 cell ret tmp confirmed Nat.add].

(** VERIFY_VERSION_ALLOWED for a newer version. *)
Lemma version_passes : forall fb ver c1 c2 s,
  pc s = 0%nat -> fb <> 1 -> g (ver 0) (ver 1) = false ->
  passes (verify_version_allowed fb ver c1 c2) (fun _ => True) s.
Proof.
  intros fb ver c1 c2 s P FB G. destruct s as [p a0 a1 a2 a4 a5 a6 a7 z nn vv c r w f]. cbn [pc] in P. subst p.
  assert (F1 : (fb =? 1) = false) by (apply Z.eqb_neq; exact FB).
  unfold g in G.
  do 13 one. rewrite F1. one. do 15 one. rewrite Z.eqb_refl. cbn [negb].
  do 7 (one; rewrite ?Z.eqb_refl; cbn [negb]).
  do 15 one. rewrite Z.eqb_refl. cbn [negb].
  do 7 (one; rewrite ?Z.eqb_refl; cbn [negb]).
  do 3 one.
  do 8 (one; rewrite ?G).
  one. apply passes_end; [vm_compute; lia|exact I].
Qed.

(** ... and for a fallback. *)
Lemma version_passes_fallback : forall ver c1 c2 s,
  pc s = 0%nat -> passes (verify_version_allowed 1 ver c1 c2) (fun _ => True) s.
Proof.
  intros ver c1 c2 s P. destruct s as [p a0 a1 a2 a4 a5 a6 a7 z nn vv c r w f]. cbn [pc] in P. subst p.
  do 20 one. apply passes_end; [vm_compute; lia|exact I].
Qed.

(** CONFIRM_MASK_VALID for a permitted partition. *)
Lemma mask_passes : forall id mask s,
  pc s = 0%nat -> 0 <= id < 16 -> Z.testbit mask id = true ->
  passes (confirm_mask_valid id mask) (fun _ => True) s.
Proof.
  intros id mask s P ID T. destruct s as [p a0 a1 a2 a4 a5 a6 a7 z nn vv c r w f]. cbn [pc] in P. subst p.
  assert (L : Z.land id 15 = id).
  { change 15 with (Z.ones 4). rewrite Z.land_ones by lia. apply Z.mod_small. lia. }
  pose proof (shift_one id ID) as SH.
  assert (A : Z.land (2 ^ id) mask = 2 ^ id).
  { apply Z.bits_inj'. intros i I. rewrite Z.land_spec, Z.pow2_bits_eqb by lia.
    destruct (id =? i) eqn:E; [|reflexivity]. apply Z.eqb_eq in E. subst i. rewrite T. reflexivity. }
  do 2 one. rewrite L.
  do 3 (do 3 one; rewrite SH; one; rewrite A; do 2 one; rewrite SH; one; rewrite Z.eqb_refl; one).
  apply passes_end; [vm_compute; lia|exact I].
Qed.

(** VERIFY_FN for a good signature. *)
Lemma verify_passes : forall arg c1 c2 s,
  pc s = 0%nat -> passes (verify_fn arg 0 1 c1 c2) (fun t => confirmed t = true) s.
Proof.
  intros arg c1 c2 s P. destruct s as [p a0 a1 a2 a4 a5 a6 a7 z nn vv c r w f]. cbn [pc] in P. subst p.
  do 27 (one; cbn [Z.eqb Pos.eqb negb]). apply passes_end; [vm_compute; lia|reflexivity].
Qed.

(** RSA_VERIFY_HASH for the right digest. *)
Lemma hash_passes : forall digest c1 c2 s,
  pc s = 0%nat -> passes (rsa_verify_hash digest 0 0 c1 c2) (fun t => confirmed t = true) s.
Proof.
  intros digest c1 c2 s P. destruct s as [p a0 a1 a2 a4 a5 a6 a7 z nn vv c r w f]. cbn [pc] in P. subst p.
  do 25 (one; cbn [Z.eqb Pos.eqb negb]). apply passes_end; [vm_compute; lia|reflexivity].
Qed.

(** RSA_VERIFY_FN. *)
Lemma rsa_passes : forall arg rc c1 c2 size s,
  pc s = 0%nat ->
  passes (rsa_verify_fn arg rc c1 c2 size) (fun t => ret t = if g rc size then rc else -1) s.
Proof.
  intros arg rc c1 c2 size s P. destruct s as [p a0 a1 a2 a4 a5 a6 a7 z nn vv c r w f]. cbn [pc] in P. subst p.
  destruct (g rc size) eqn:G; unfold g in G.
  - do 11 one. do 8 (one; rewrite ?G; cbn [negb]). one. apply passes_end; [vm_compute; lia|reflexivity].
  - do 11 one. do 2 (one; rewrite ?G; cbn [negb]). apply passes_end; [vm_compute; lia|reflexivity].
Qed.
