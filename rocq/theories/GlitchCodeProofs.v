(** Lemmas for C75 - C77: the straight-line checks. *)
From Verif Require Import Base BaseLemmas GlitchSpec GlitchModel GlitchProofs.
Local Ltac Zify.zify_post_hook ::= idtac.

(** Bounds for a table with one entry for each halfword of the code. *)
Definition look (tab : list (cpu -> nat)) (fin : cpu -> nat) (s : cpu) : nat := nth (pc s) tab fin s.

Lemma table_bound : forall code tab fin,
  length tab = length code ->
  (forall i x s, nth_error code i = Some x -> pc s = i ->
    (look tab fin s <= look tab fin (exec (length code) s x))%nat /\
    (look tab fin s <= S (look tab fin (goto s (pc s + size x))))%nat) ->
  forall k s t, skipping (next code) (skip code) k s t -> (look tab fin s <= k + look tab fin t)%nat.
Proof.
  intros code tab fin L H k s t R. eapply cost_bound; [| |exact R].
  - intros u. unfold next. destruct (nth_error code (pc u)) as [x|] eqn:X; [|lia].
    apply (H _ _ u X eq_refl).
  - intros u. unfold skip. destruct (nth_error code (pc u)) as [x|] eqn:X; [|lia].
    apply (H _ _ u X eq_refl).
Qed.

Lemma look_end : forall code tab fin s, length tab = length code -> ended code s -> look tab fin s = fin s.
Proof.
  intros code tab fin s L E. unfold look. rewrite nth_overflow; [reflexivity|]. unfold ended in E. lia.
Qed.

Definition none (s : cpu) : nat := 0%nat.

(** *** wolfBoot_panic *)
Definition const (n : nat) (s : cpu) : nat := n.
Definition panic_tab : list (cpu -> nat) := [const 5; const 4; const 3; const 2; const 1]%nat.

Lemma panic_bound : forall k s t, pc s = 0%nat ->
  skipping (next panic) (skip panic) k s t -> ended panic t -> (5 <= k)%nat.
Proof.
  intros k s t P R E.
  pose proof (table_bound panic panic_tab none eq_refl) as B.
  assert (H : (look panic_tab none s <= k + look panic_tab none t)%nat).
  { apply B; [|exact R]. intros i x u N U. unfold look. destruct u as [p a0 a1 a2 a4 a5 a6 a7 z nn vv c r w f].
    cbn [pc] in U. subst p.
    do 5 (destruct i as [|i]; [at_instr N x; cbn; unfold const, none; lia|]). destruct i; discriminate N. }
  rewrite (look_end panic _ _ t) in H by (reflexivity || exact E). unfold look in H. rewrite P in H.
  cbn in H. unfold const, none in H. lia.
Qed.

(** *** VERIFY_FN *)
Definition e0 (b : bool) (n : nat) : nat := if b then 0%nat else n.

Section Verify.
  Variables (arg rc res c1 c2 : Z).
  Definition vf_done (s : cpu) : nat := e0 (confirmed s) 8.
  Definition vf_sum (a0 c : Z) : nat := (e0 (a0 =? 0)%Z 4 + e0 (c =? 1)%Z 4)%nat.
  Definition vf_call (a0 c : Z) : nat := Nat.min (vf_sum rc res) (1 + vf_sum a0 c).
  Definition vf_arg (a0 c : Z) : nat := Nat.min (vf_call arg c) (1 + vf_call a0 c).
  Definition vf_mov (left : nat) (s : cpu) : nat :=
    e0 (confirmed s) (Nat.min (vf_arg 50 (cell s)) (left + vf_arg (r0 s) (cell s))).
  Definition vf_cmp (n : nat) (s : cpu) : nat :=
    e0 (confirmed s) (e0 (r0 s =? 0)%Z n + e0 (cell s =? 1)%Z 4).
  Definition vf_bne (n : nat) (s : cpu) : nat :=
    e0 (confirmed s) (e0 (r0 s =? 0)%Z (if zf s then n - 1 else n) + e0 (cell s =? 1)%Z 4).
  Definition vf_ldr (n : nat) (s : cpu) : nat := e0 (confirmed s) (e0 (cell s =? 1)%Z n).
  Definition vf_cmp2 (n : nat) (s : cpu) : nat :=
    e0 (confirmed s) (e0 (cell s =? 1)%Z (if (r2 s =? 1)%Z then n - 1 else n)).
  Definition vf_bne2 (n : nat) (s : cpu) : nat :=
    e0 (confirmed s) (e0 (cell s =? 1)%Z (if zf s then n - 1 else n)).

  Definition vf_tab : list (cpu -> nat) :=
    [vf_mov 3; none; vf_mov 2; none; vf_mov 1; none;
     (fun s => e0 (confirmed s) (vf_arg (r0 s) (cell s)));
     (fun s => e0 (confirmed s) (vf_call (r0 s) (cell s))); none;
     vf_cmp 4; vf_bne 4; vf_cmp 3; vf_bne 3; vf_cmp 2; vf_bne 2; vf_cmp 1; vf_bne 1;
     vf_ldr 4; vf_cmp2 4; vf_bne2 4; vf_ldr 3; vf_cmp2 3; vf_bne2 3;
     vf_ldr 2; vf_cmp2 2; vf_bne2 2; vf_ldr 1; vf_cmp2 1; vf_bne2 1;
     none; none; vf_done].

  Lemma verify_bound : forall k s t,
    arg <> 0 -> rc <> 0 \/ res <> 1 -> pc s = 0%nat -> cell s <> 1 -> confirmed s = false ->
    skipping (next (verify_fn arg rc res c1 c2)) (skip (verify_fn arg rc res c1 c2)) k s t ->
    ended (verify_fn arg rc res c1 c2) t -> confirmed t = true -> (4 <= k)%nat.
  Proof.
    intros k s t A RC P CE CF R E F.
    pose proof (table_bound (verify_fn arg rc res c1 c2) vf_tab vf_done eq_refl) as B.
    assert (H : (look vf_tab vf_done s <= k + look vf_tab vf_done t)%nat).
    { apply B; [|exact R]. clear - A. intros i x u N U. unfold look.
      destruct u as [p a0 a1 a2 a4 a5 a6 a7 z nn vv c r w f]. cbn [pc] in U. subst p.
      do 32 (destruct i as [|i]; [at_instr N x;
        cbn [pc nth vf_tab Nat.add]; cbv [vf_mov vf_arg vf_call vf_sum vf_cmp vf_bne vf_ldr vf_cmp2 vf_bne2 vf_done none];
        split;
        repeat match goal with
        | |- context [if ?b then _ else _] => is_var b; destruct b
        | |- context [if negb ?b then _ else _] => is_var b; destruct b; cbn [negb]
        end;
        cbn [pc nth vf_tab Nat.add confirmed r0 r2 cell zf with_cell with_confirmed];
        cbv [vf_mov vf_arg vf_call vf_sum vf_cmp vf_bne vf_ldr vf_cmp2 vf_bne2 vf_done none];
        cbn [confirmed r0 r2 cell zf]; unfold e0;
        repeat match goal with |- context [if ?b then _ else _] => destruct b eqn:? end; lia
        |]).
      destruct i; discriminate N. }
    rewrite (look_end (verify_fn arg rc res c1 c2) _ _ t) in H by (reflexivity || exact E).
    unfold vf_done, e0 in H. rewrite F in H. unfold look in H. rewrite P in H. cbn [nth vf_tab] in H.
    unfold vf_mov, vf_arg, vf_call, vf_sum, e0 in H. rewrite CF in H.
    rewrite (proj2 (Z.eqb_neq _ _) A), (proj2 (Z.eqb_neq _ _) CE) in H.
    destruct (rc =? 0) eqn:E1, (res =? 1) eqn:E2; lia.
  Qed.
End Verify.

Ltac both_ways :=
  repeat match goal with
  | |- context [if ?b then _ else _] => is_var b; destruct b
  | |- context [if negb ?b then _ else _] => is_var b; destruct b; cbn [negb]
  end.

(** *** RSA_VERIFY_HASH *)
Section Hash.
  Variables (digest d1 d2 c1 c2 : Z).
  Definition rh_done (s : cpu) : nat := e0 (confirmed s) 8.
  Definition rh_call2 (a0 : Z) : nat := Nat.min (e0 (d2 =? 0)%Z 4) (1 + e0 (a0 =? 0)%Z 4).
  Definition rh_arg2 (a0 : Z) : nat := Nat.min (rh_call2 digest) (1 + rh_call2 a0).
  Definition rh_sum (a0 : Z) : nat := (e0 (a0 =? 0)%Z 4 + rh_arg2 a0)%nat.
  Definition rh_call (a0 : Z) : nat := Nat.min (rh_sum d1) (1 + rh_sum a0).
  Definition rh_arg (a0 : Z) : nat := Nat.min (rh_call digest) (1 + rh_call a0).
  Definition rh_mov (left : nat) (s : cpu) : nat :=
    e0 (confirmed s) (Nat.min (rh_arg 50) (left + rh_arg (r0 s))).
  Definition rh_cmp (n : nat) (s : cpu) : nat := e0 (confirmed s) (e0 (r0 s =? 0)%Z n + rh_arg2 (r0 s)).
  Definition rh_bne (n : nat) (s : cpu) : nat :=
    e0 (confirmed s) (e0 (r0 s =? 0)%Z (if zf s then n - 1 else n) + rh_arg2 (r0 s)).
  Definition rh_cmp2 (n : nat) (s : cpu) : nat := e0 (confirmed s) (e0 (r0 s =? 0)%Z n).
  Definition rh_bne2 (n : nat) (s : cpu) : nat :=
    e0 (confirmed s) (e0 (r0 s =? 0)%Z (if zf s then n - 1 else n)).

  Definition rh_tab : list (cpu -> nat) :=
    [rh_mov 3; none; rh_mov 2; none; rh_mov 1; none;
     (fun s => e0 (confirmed s) (rh_arg (r0 s))); (fun s => e0 (confirmed s) (rh_call (r0 s))); none;
     rh_cmp 4; rh_bne 4; rh_cmp 3; rh_bne 3; rh_cmp 2; rh_bne 2; rh_cmp 1; rh_bne 1;
     (fun s => e0 (confirmed s) (rh_arg2 (r0 s))); (fun s => e0 (confirmed s) (rh_call2 (r0 s))); none;
     rh_cmp2 4; rh_bne2 4; rh_cmp2 3; rh_bne2 3; rh_cmp2 2; rh_bne2 2; rh_cmp2 1; rh_bne2 1;
     none; none; rh_done].

  Lemma hash_bound : forall k s t,
    digest <> 0 -> d1 <> 0 -> d2 <> 0 -> pc s = 0%nat -> confirmed s = false ->
    skipping (next (rsa_verify_hash digest d1 d2 c1 c2)) (skip (rsa_verify_hash digest d1 d2 c1 c2)) k s t ->
    ended (rsa_verify_hash digest d1 d2 c1 c2) t -> confirmed t = true -> (7 <= k)%nat.
  Proof.
    intros k s t A D1 D2 P CF R E F.
    pose proof (table_bound (rsa_verify_hash digest d1 d2 c1 c2) rh_tab rh_done eq_refl) as B.
    assert (H : (look rh_tab rh_done s <= k + look rh_tab rh_done t)%nat).
    { apply B; [|exact R]. clear - A. intros i x u N U. unfold look.
      destruct u as [p a0 a1 a2 a4 a5 a6 a7 z nn vv c r w f]. cbn [pc] in U. subst p.
      do 31 (destruct i as [|i]; [at_instr N x;
        cbn [pc nth rh_tab Nat.add];
        split; both_ways;
        cbn [pc nth rh_tab Nat.add confirmed r0 r2 cell zf with_cell with_confirmed];
        cbv [rh_mov rh_arg rh_call rh_sum rh_cmp rh_bne rh_arg2 rh_call2 rh_cmp2 rh_bne2 rh_done none];
        cbn [confirmed r0 r2 cell zf]; unfold e0;
        repeat match goal with |- context [if ?b then _ else _] => destruct b eqn:? end; lia
        |]).
      destruct i; discriminate N. }
    rewrite (look_end (rsa_verify_hash digest d1 d2 c1 c2) _ _ t) in H by (reflexivity || exact E).
    unfold rh_done, e0 in H. rewrite F in H. unfold look in H. rewrite P in H. cbn [nth rh_tab] in H.
    unfold rh_mov, rh_arg, rh_call, rh_sum, rh_arg2, rh_call2, e0 in H. rewrite CF in H.
    rewrite (proj2 (Z.eqb_neq _ _) A), (proj2 (Z.eqb_neq _ _) D1), (proj2 (Z.eqb_neq _ _) D2) in H.
    destruct (r0 s =? 0) eqn:E1; cbn in H; lia.
  Qed.
End Hash.

(** *** CONFIRM_MASK_VALID *)
Definition refused_id (mask x : Z) : bool := (0 <=? x) && (x <? 16) && negb (Z.testbit mask x).

Section Mask.
  Variables (id mask : Z).
  Definition mk_ideal (q : nat) (s : cpu) : bool :=
    match q with
    | 0%nat => true
    | 1%nat => r0 s =? mask
    | 2%nat => (r0 s =? mask) && (r2 s =? 1)
    | 3%nat => (r0 s =? mask) && (r2 s =? 2 ^ r1 s)
    | 4%nat => r2 s =? 0
    | 5%nat => (r2 s =? 0) && (r0 s =? 1)
    | 6%nat => (r2 s =? 0) && (r0 s =? 2 ^ r1 s)
    | _ => negb (zf s)
    end.
  Definition mk_round (n q : nat) (s : cpu) : nat :=
    if refused_id mask (r1 s) then (n - 1 + if mk_ideal q s then 1 else 0)%nat else 0%nat.
  Definition mk_and (x : Z) : nat :=
    if refused_id mask (Z.land x 15) then (if refused_id mask x then 3 else 1)%nat else 0%nat.

  Definition mk_tab : list (cpu -> nat) :=
    [(fun s => Nat.min (mk_and id) (1 + mk_and (r1 s))); (fun s => mk_and (r1 s)); none;
     mk_round 3 0; mk_round 3 1; mk_round 3 2; mk_round 3 3; mk_round 3 4; mk_round 3 5; mk_round 3 6; mk_round 3 7;
     mk_round 2 0; mk_round 2 1; mk_round 2 2; mk_round 2 3; mk_round 2 4; mk_round 2 5; mk_round 2 6; mk_round 2 7;
     mk_round 1 0; mk_round 1 1; mk_round 1 2; mk_round 1 3; mk_round 1 4; mk_round 1 5; mk_round 1 6; mk_round 1 7].

  Lemma refused_range : forall x, refused_id mask x = true -> 0 <= x < 16 /\ Z.testbit mask x = false.
  Proof.
    intros x X. unfold refused_id in X. apply andb_true_iff in X. destruct X as [X X3].
    apply andb_true_iff in X. destruct X as [X1 X2]. apply negb_true_iff in X3. split; [lia|exact X3].
  Qed.

  Lemma shift_one : forall x, 0 <= x < 16 -> Z.shiftl 1 (x mod 256) mod 2 ^ 32 = 2 ^ x.
  Proof.
    intros x X. rewrite (Z.mod_small x) by lia. rewrite Z.shiftl_1_l. apply Z.mod_small.
    split; [apply Z.pow_nonneg; lia|]. apply Z.pow_lt_mono_r; lia.
  Qed.

  Lemma and_pow : forall x, 0 <= x < 16 -> Z.testbit mask x = false -> Z.land (2 ^ x) mask = 0.
  Proof.
    intros x X T. apply Z.bits_inj'. intros i I. rewrite Z.land_spec, Z.bits_0, Z.pow2_bits_eqb by lia.
    destruct (x =? i) eqn:E; [|reflexivity]. apply Z.eqb_eq in E. subst i. exact T.
  Qed.

  Lemma land_range : forall x, 0 <= Z.land x 15 < 16.
  Proof. intros x. change 15 with (Z.ones 4). rewrite Z.land_ones by lia. apply Z.mod_pos_bound. lia. Qed.

  Lemma mask_step : forall i x u, nth_error (confirm_mask_valid id mask) i = Some x -> pc u = i ->
    (look mk_tab none u <= look mk_tab none (exec (length (confirm_mask_valid id mask)) u x))%nat /\
    (look mk_tab none u <= S (look mk_tab none (goto u (pc u + size x))))%nat.
  Proof.
    intros i x u N U. unfold look.
    destruct u as [p a0 a1 a2 a4 a5 a6 a7 z nn vv c r w f]. cbn [pc] in U. subst p.
    do 3 (destruct i as [|i]; [at_instr N x; cbn [pc nth mk_tab Nat.add r1 Nat.mul];
      cbv [mk_and mk_round mk_ideal none]; cbn [r1];
      try (destruct (refused_id mask (Z.land a1 15)) eqn:Q1);
      try (destruct (refused_id mask a1) eqn:Q2);
      try (destruct (refused_id mask (Z.land id 15)) eqn:Q3);
      try (destruct (refused_id mask id) eqn:Q4); lia|]).
    do 24 (destruct i as [|i]; [at_instr N x; cbn [pc nth mk_tab Nat.add];
      cbv [mk_round mk_ideal none]; cbn [r0 r1 r2 zf];
      (destruct (refused_id mask a1) eqn:Q1;
       [|split; both_ways; cbn [nth mk_tab pc]; cbv [mk_round mk_ideal none]; cbn [r1]; lia]);
      destruct (refused_range _ Q1) as [A1 B1];
      pose proof (shift_one _ A1) as SH; pose proof (and_pow _ A1 B1) as LA;
      assert (PN : 2 ^ a1 <> 0) by (apply Z.pow_nonzero; lia);
      split; both_ways; cbn [nth mk_tab pc Nat.sub]; cbv [mk_round mk_ideal none]; cbn [r0 r1 r2 zf negb];
      rewrite ?Q1;
      repeat match goal with
      | |- context [andb (?y =? ?z)%Z ?b] => destruct (Z.eqb_spec y z); subst; cbn [andb]
      | |- context [if (?y =? ?z)%Z then _ else _] => destruct (Z.eqb_spec y z); subst
      end;
      rewrite ?(proj2 (Z.eqb_neq _ _) PN); cbn [negb];
      first [lia | exfalso; congruence]
      |]).
    destruct i; discriminate N.
  Qed.

  Lemma mask_bound : forall k s t, pc s = 0%nat ->
    skipping (next (confirm_mask_valid id mask)) (skip (confirm_mask_valid id mask)) k s t ->
    ended (confirm_mask_valid id mask) t ->
    (Nat.min (mk_and id) (1 + mk_and (r1 s)) <= k)%nat.
  Proof.
    intros k s t P R E.
    pose proof (table_bound (confirm_mask_valid id mask) mk_tab none eq_refl mask_step _ _ _ R) as H.
    rewrite (look_end (confirm_mask_valid id mask) _ _ t) in H by (reflexivity || exact E).
    unfold look in H. rewrite P in H. cbn [nth mk_tab] in H. unfold none in H. lia.
  Qed.
End Mask.
