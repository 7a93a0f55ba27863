(** Lemmas for C75 - C77: lower bounds for the number of skipped instructions. *)
From Verif Require Import Base BaseLemmas GlitchSpec GlitchModel.
Local Ltac Zify.zify_post_hook ::= idtac.

(** *** A cost that no instruction lowers and a skip lowers by at most one *)
Lemma cost_bound : forall code (cost : cpu -> nat),
  (forall s, (cost s <= cost (next code s))%nat) ->
  (forall s, (cost s <= S (cost (skip code s)))%nat) ->
  forall k s t, skipping (next code) (skip code) k s t -> (cost s <= k + cost t)%nat.
Proof.
  intros code cost N K k s t R. induction R as [s|k s t R IH|k s t R IH].
  - lia.
  - specialize (N s). lia.
  - specialize (K s). lia.
Qed.

(** *** One check among others *)

Definition no_raw (code : list instr) (j : nat) : bool :=
  match nth_error code j with Some Raw => false | _ => true end.

(** Instruction [i] of [code] goes on inside the code or right behind it, and not to the
    middle of an instruction. *)
Definition goes_on (code : list instr) (j : nat) : bool := (j <=? length code)%nat && no_raw code j.

Definition confined_at (Q : Z -> bool) (code : list instr) (i : nat) (x : instr) : bool :=
  match x with
  | Raw => true
  | Br _ t => goes_on code (target i t) && goes_on code (i + size x)
  | MovV R0 v => Q v && goes_on code (i + size x)
  | MovI R2 _ | MovV R2 _ | CmpI _ _ | CmpR _ _ | CmpW _ _ | LsrI R2 _ _ => goes_on code (i + size x)
  | _ => false
  end.

Definition confined (Q : Z -> bool) (code : list instr) : Prop :=
  forall i x, nth_error code i = Some x -> confined_at Q code i x = true.

Section Block.
  Variables (pre blk post : list instr) (Q : Z -> bool) (full : nat) (bc : nat -> cpu -> nat).
  Hypothesis C : confined Q pre.
  Let code := pre ++ blk ++ post.
  Let n := length pre.
  Hypothesis blk_some : blk <> [].

  Definition cost (s : cpu) : nat :=
    if (pc s <? n)%nat then (if no_raw pre (pc s) && Q (r0 s) then full else 0)%nat
    else if (pc s <? n + length blk)%nat then bc (pc s - n) s
    else 0%nat.

  Hypothesis enter : forall s, Q (r0 s) = true -> (full <= bc 0 s)%nat.
  Hypothesis step_in : forall s o i, pc s = (n + o)%nat -> nth_error blk o = Some i ->
    (bc o s <= cost (exec (length code) s i))%nat /\ (bc o s <= S (cost (goto s (pc s + size i)%nat)))%nat.

  Lemma blk_pos : (0 < length blk)%nat.
  Proof. destruct blk; [congruence|cbn; lia]. Qed.

  Lemma nth_pre : forall p, (p < n)%nat -> nth_error code p = nth_error pre p.
  Proof. intros p P. unfold code. apply nth_error_app1. exact P. Qed.

  Lemma nth_blk : forall o, (o < length blk)%nat -> nth_error code (n + o) = nth_error blk o.
  Proof.
    intros o O. unfold code. rewrite nth_error_app2 by (unfold n; lia).
    replace (n + o - length pre)%nat with o by (unfold n; lia). apply nth_error_app1. exact O.
  Qed.

  Lemma land_pre : forall s j, goes_on pre j = true -> pc s = j -> Q (r0 s) = true ->
    (full <= cost s)%nat.
  Proof.
    intros s j G P HQ. unfold goes_on in G. apply andb_true_iff in G. destruct G as [G1 G2].
    apply Nat.leb_le in G1. unfold cost. rewrite P.
    destruct (j <? n)%nat eqn:E.
    - rewrite G2, HQ. cbn [andb]. lia.
    - apply Nat.ltb_ge in E. unfold n in E. assert (j = n) by (unfold n; lia). subst j.
      pose proof blk_pos. rewrite (proj2 (Nat.ltb_lt _ _)) by lia.
      replace (pc s - n)%nat with 0%nat by lia.
      apply enter, HQ.
  Qed.

  Lemma pc_goto : forall s p, pc (goto s p) = p.
  Proof. intros [] p. reflexivity. Qed.
  Lemma r0_goto : forall s p, r0 (goto s p) = r0 s.
  Proof. intros [] p. reflexivity. Qed.

  Lemma block_cost : forall k s t,
    skipping (next code) (skip code) k s t -> ended code t -> (cost s <= k)%nat.
  Proof.
    intros k s t R E.
    assert (B : (cost s <= k + cost t)%nat).
    { eapply cost_bound; [| |exact R].
      - intros u. unfold next.
        destruct (Nat.lt_ge_cases (pc u) n) as [L|L].
        + rewrite nth_pre by exact L.
          destruct (nth_error pre (pc u)) as [x|] eqn:X; [|lia].
          pose proof (C _ _ X) as F.
          unfold cost at 1. rewrite (proj2 (Nat.ltb_lt _ _)) by exact L. unfold no_raw at 1. rewrite X.
          destruct (Q (r0 u)) eqn:HQ; [|destruct x; cbn [andb]; lia].
          destruct x; cbn [confined_at] in F; try discriminate F; cbn [andb]; try lia;
            try (destruct d; try discriminate F);
            try match type of F with andb _ _ = true => apply andb_true_iff in F; destruct F as [F1 F2] end;
            try (eapply land_pre; [first [eassumption|exact F]|destruct u; reflexivity|
                   destruct u; cbn in *; assumption]).
          cbn [exec]. destruct (holds c u).
          * eapply land_pre; [exact F1|apply pc_goto|rewrite r0_goto; exact HQ].
          * eapply land_pre; [exact F2|apply pc_goto|rewrite r0_goto; exact HQ].
        + destruct (Nat.lt_ge_cases (pc u) (n + length blk)) as [M|M].
          * assert (P : pc u = (n + (pc u - n))%nat) by lia.
            rewrite P, nth_blk by lia.
            destruct (nth_error blk (pc u - n)) as [x|] eqn:X.
            -- unfold cost at 1. rewrite (proj2 (Nat.ltb_ge _ _)) by exact L.
               rewrite (proj2 (Nat.ltb_lt _ _)) by exact M. apply (step_in u _ _ P X).
            -- apply nth_error_None in X. lia.
          * unfold cost at 1. rewrite (proj2 (Nat.ltb_ge _ _)) by exact L.
            rewrite (proj2 (Nat.ltb_ge _ _)) by exact M. lia.
      - intros u. unfold skip.
        destruct (Nat.lt_ge_cases (pc u) n) as [L|L].
        + rewrite nth_pre by exact L.
          destruct (nth_error pre (pc u)) as [x|] eqn:X; [|lia].
          pose proof (C _ _ X) as F.
          unfold cost at 1. rewrite (proj2 (Nat.ltb_lt _ _)) by exact L. unfold no_raw at 1. rewrite X.
          destruct (Q (r0 u)) eqn:HQ; [|destruct x; cbn [andb]; lia].
          apply le_S.
          destruct x; cbn [confined_at] in F; try discriminate F; cbn [andb]; try lia;
            try (destruct d; try discriminate F);
            try match type of F with andb _ _ = true => apply andb_true_iff in F; destruct F as [F1 F2] end;
            (eapply land_pre; [first [eassumption|exact F]|apply pc_goto|rewrite r0_goto; exact HQ]).
        + destruct (Nat.lt_ge_cases (pc u) (n + length blk)) as [M|M].
          * assert (P : pc u = (n + (pc u - n))%nat) by lia.
            rewrite P, nth_blk by lia.
            destruct (nth_error blk (pc u - n)) as [x|] eqn:X.
            -- rewrite <- P. unfold cost at 1. rewrite (proj2 (Nat.ltb_ge _ _)) by exact L.
               rewrite (proj2 (Nat.ltb_lt _ _)) by exact M. apply (step_in u _ _ P X).
            -- apply nth_error_None in X. lia.
          * unfold cost at 1. rewrite (proj2 (Nat.ltb_ge _ _)) by exact L.
            rewrite (proj2 (Nat.ltb_ge _ _)) by exact M. lia. }
    unfold ended in E. unfold code in E. rewrite !app_length in E. fold n in E.
    unfold cost at 2 in B.
    rewrite (proj2 (Nat.ltb_ge _ _)) in B by lia. rewrite (proj2 (Nat.ltb_ge _ _)) in B by lia. lia.
  Qed.
End Block.

(** *** The blocks of the final check *)

Lemma cost_in : forall pre blk Q full bc s o, pc s = (length pre + o)%nat -> (o < length blk)%nat ->
  cost pre blk Q full bc s = bc o s.
Proof.
  intros pre blk Q full bc s o P O. unfold cost. rewrite P.
  rewrite (proj2 (Nat.ltb_ge _ _)) by lia. rewrite (proj2 (Nat.ltb_lt _ _)) by lia.
  f_equal. lia.
Qed.

(** Remaining pairs of a comparison that fails and a branch; [z]: the zero flag. *)
Definition pairs (z : bool) (o : nat) : nat :=
  match o with
  | 0 => 4 | 1 => if z then 3 else 4
  | 2 => 3 | 3 => if z then 2 else 3
  | 4 => 2 | 5 => if z then 1 else 2
  | 6 => 1 | 7 => if z then 0 else 1
  | _ => 0
  end%nat.

Definition flag_cost (o : nat) (s : cpu) : nat :=
  match o with
  | 0 | 2 => 4
  | 4 => 4
  | 6 => if (r2 s =? 1)%Z then 3 else 4
  | 8 => if (r2 s =? 1)%Z then 2 else 4
  | 10 => if (r2 s =? 1)%Z then 1 else 4
  | 1 | 3 | 5 | 7 | 9 => 0
  | _ => if (r2 s =? 1)%Z then 0 else pairs (zf s) (o - 11)
  end%nat.

(** Work out the cost of a state whose place in the block is known. *)
Ltac place :=
  match goal with
  | |- context [cost ?pre ?blk ?Q ?full ?bc ?s] =>
      let go k := (rewrite (cost_in pre blk Q full bc s k) by (cbn [pc length app]; first [reflexivity | lia | cbn; lia])) in
      first [ go 0%nat | go 1%nat | go 2%nat | go 3%nat | go 4%nat | go 5%nat | go 6%nat | go 7%nat
            | go 8%nat | go 9%nat | go 10%nat | go 11%nat | go 12%nat | go 13%nat | go 14%nat
            | go 15%nat | go 16%nat | go 17%nat | go 18%nat | go 19%nat | go 20%nat | go 21%nat | go 22%nat ]
  end.

(** Run the instruction [N] says is the next one. *)
Ltac at_instr N i :=
  cbn in N; apply (f_equal (fun q => match q with Some y => y | None => i end)) in N; subst i;
  cbn [exec goto put flags pc size get holds zf target set_nz negb].

Ltac weigh tab :=
  repeat match goal with
  | |- context [if ?b then _ else _] => is_var b; destruct b
  | |- context [if negb ?b then _ else _] => is_var b; destruct b; cbn [negb]
  end;
  try place; cbn [tab pairs r0 r2 zf Nat.sub];
  repeat match goal with |- context [if ?b then _ else _] => destruct b eqn:? end; cbn [pairs] in *;
  lia.

Lemma flag_block : forall pre post v k s t,
  confined (fun _ => true) pre -> v <> 1 -> pc s = 0%nat -> no_raw (pre ++ check_flag v) 0 = true ->
  skipping (next (pre ++ check_flag v ++ post)) (skip (pre ++ check_flag v ++ post)) k s t ->
  ended (pre ++ check_flag v ++ post) t -> (4 <= k)%nat.
Proof.
  intros pre post v k s t C V P0 F0 R E.
  eapply Nat.le_trans; [|eapply (block_cost pre (check_flag v) post (fun _ => true) 4 flag_cost)];
    [|exact C|discriminate| | |exact R|exact E].
  - unfold cost. rewrite P0. destruct pre as [|x l].
    + cbn. lia.
    + cbn [length Nat.ltb Nat.leb]. unfold no_raw in *. cbn [nth_error app] in *. rewrite F0. cbn. lia.
  - intros u _. cbn. lia.
  - intros u o i P N. destruct u as [p a0 a1 a2 a4 a5 a6 a7 z nn vv c r w f]. cbn [pc] in P. subst p.
    assert (V1 : (v =? 1) = false) by (apply Z.eqb_neq; exact V).
    do 19 (destruct o as [|o]; [at_instr N i; split; weigh flag_cost|]).
    cbn in N. destruct o; discriminate N.
Qed.

Definition word_range (x : Z) : bool := (0 <=? x) && (x <? 2 ^ 32).
Definition is_not1 (x : Z) : bool := (x + (2 ^ 32 - 0xFFFFFFFE)) mod 2 ^ 32 =? 0.

(** The same for a 32-bit comparison: offset 4 is the second half of the second one. *)
Definition wide_pairs (z : bool) (o : nat) : nat :=
  match o with
  | 0 => 4 | 2 => if z then 3 else 4
  | 3 => 3 | 4 => 2 | 5 => if z then 2 else 3
  | 6 => 2 | 8 => if z then 1 else 2
  | 9 => 1 | 11 => if z then 0 else 1
  | _ => 0
  end%nat.

Definition not_cost (o : nat) (s : cpu) : nat :=
  if word_range (r0 s) then
  match o with
  | 0 | 2 | 4 => 4
  | 6 => if is_not1 (r2 s) then 3 else 4
  | 8 => if is_not1 (r2 s) then 2 else 4
  | 10 => if is_not1 (r2 s) then 1 else 4
  | 1 | 3 | 5 | 7 | 9 => 0
  | _ => if is_not1 (r2 s) then 0 else wide_pairs (zf s) (o - 11)
  end%nat
  else 0%nat.

Lemma small_not_not1 : forall x, 0 <= x < 2 ^ 32 - 2 -> is_not1 x = false.
Proof.
  intros x X. unfold is_not1. apply Z.eqb_neq. change (2 ^ 32 - 0xFFFFFFFE) with 2.
  rewrite Z.mod_small; lia.
Qed.

Lemma nibble_not1 : forall x, word_range x = true -> is_not1 (Z.shiftr x 28) = false.
Proof.
  intros x X. unfold word_range in X. apply andb_true_iff in X. destruct X as [X1 X2].
  apply Z.leb_le in X1. apply Z.ltb_lt in X2. apply small_not_not1.
  rewrite Z.shiftr_div_pow2 by lia.
  assert (0 <= x / 2 ^ 28 < 16).
  { split; [apply Z.div_pos; lia|]. apply Z.div_lt_upper_bound; lia. }
  change (2 ^ 32) with 4294967296. lia.
Qed.

Ltac weigh_not N0 N1 NV :=
  repeat match goal with
  | |- context [if ?b then _ else _] => is_var b; destruct b
  | |- context [if negb ?b then _ else _] => is_var b; destruct b; cbn [negb]
  end;
  try place; unfold not_cost; cbn [wide_pairs r0 r2 zf Nat.sub];
  (match goal with |- context [word_range ?x] => destruct (word_range x) eqn:? end;
  [rewrite ?N0, ?NV; try (rewrite N1 by assumption);
   change ((?x + (2 ^ 32 - 0xFFFFFFFE)) mod 2 ^ 32 =? 0) with (is_not1 x);
   repeat match goal with |- context [if ?b then _ else _] => destruct b eqn:? end; cbn [wide_pairs] in *;
   try lia
  |lia]).

Lemma not_block : forall pre post v k s t,
  confined word_range pre -> 0 <= v < 2 ^ 32 -> v <> 0xFFFFFFFE -> pc s = 0%nat ->
  word_range (r0 s) = true -> no_raw (pre ++ check_not v) 0 = true ->
  skipping (next (pre ++ check_not v ++ post)) (skip (pre ++ check_not v ++ post)) k s t ->
  ended (pre ++ check_not v ++ post) t -> (4 <= k)%nat.
Proof.
  intros pre post v k s t C VR V P0 Q0 F0 R E.
  eapply Nat.le_trans; [|eapply (block_cost pre (check_not v) post word_range 4 not_cost)];
    [|exact C|discriminate| | |exact R|exact E].
  - destruct pre as [|x l].
    + rewrite (cost_in [] _ _ _ _ _ 0) by (rewrite ?P0; cbn; lia). unfold not_cost. rewrite Q0. lia.
    + unfold cost. rewrite P0. cbn [length Nat.ltb Nat.leb]. unfold no_raw in *. cbn [nth_error app] in *. rewrite F0, Q0. cbn. lia.
  - intros u Q1. unfold not_cost. rewrite Q1. lia.
  - intros u o i P N. destruct u as [p a0 a1 a2 a4 a5 a6 a7 z nn vv c r w f]. cbn [pc] in P. subst p.
    assert (NV : is_not1 v = false).
    { unfold is_not1. apply Z.eqb_neq. change (2 ^ 32 - 0xFFFFFFFE) with 2. change (2 ^ 32) with 4294967296 in *.
      destruct (Z.eq_dec v 4294967295) as [->|]; [vm_compute; discriminate|].
      rewrite Z.mod_small; lia. }
    assert (N0 : is_not1 0 = false) by reflexivity.
    pose proof nibble_not1 as N1.
    do 23 (destruct o as [|o]; [at_instr N i; split; weigh_not N0 N1 NV|]).
    cbn in N. destruct o; discriminate N.
Qed.

Definition at_r0 (want a2 a0 : Z) : nat :=
  Nat.min (if (a2 =? want)%Z then 0 else 4) (1 + if (a2 =? a0)%Z then 0 else 4).
Definition at_r2 (v want a2 a0 : Z) : nat := Nat.min (at_r0 want v a0) (1 + at_r0 want a2 a0).
Definition at_zero (v want : Z) (left : nat) (a2 a0 : Z) : nat :=
  Nat.min 4 (Nat.min (at_r2 v want 0 a0) (left + at_r2 v want a2 a0)).

Definition canary_cost (v want : Z) (o : nat) (s : cpu) : nat :=
  match o with
  | 0 => at_zero v want 5 (r2 s) (r0 s)
  | 2 => at_zero v want 4 (r2 s) (r0 s)
  | 4 => at_zero v want 3 (r2 s) (r0 s)
  | 6 => at_zero v want 2 (r2 s) (r0 s)
  | 8 => at_zero v want 1 (r2 s) (r0 s)
  | 10 => at_r2 v want (r2 s) (r0 s)
  | 11 => at_r0 want (r2 s) (r0 s)
  | 1 | 3 | 5 | 7 | 9 => 0
  | _ => if (r2 s =? r0 s)%Z then 0 else pairs (zf s) (o - 12)
  end%nat.

Ltac weigh_canary :=
  repeat match goal with
  | |- context [if ?b then _ else _] => is_var b; destruct b
  | |- context [if negb ?b then _ else _] => is_var b; destruct b; cbn [negb]
  end;
  try place; cbn [canary_cost pairs r0 r2 zf Nat.sub]; unfold at_zero, at_r2, at_r0;
  repeat match goal with |- context [if ?b then _ else _] => destruct b eqn:? end; cbn [pairs] in *;
  lia.

Lemma canary_block : forall Q full pre post v want k s t,
  confined Q pre -> (forall u, Q (r0 u) = true -> (full <= canary_cost v want 0 u)%nat) ->
  pc s = 0%nat -> Q (r0 s) = true -> no_raw (pre ++ check_canary v want) 0 = true ->
  skipping (next (pre ++ check_canary v want ++ post)) (skip (pre ++ check_canary v want ++ post)) k s t ->
  ended (pre ++ check_canary v want ++ post) t -> (full <= k)%nat.
Proof.
  intros Q full pre post v want k s t C F P0 Q0 F0 R E.
  eapply Nat.le_trans; [|eapply (block_cost pre (check_canary v want) post Q full (canary_cost v want))];
    [|exact C|discriminate|exact F| |exact R|exact E].
  - destruct pre as [|x l].
    + rewrite (cost_in [] _ _ _ _ _ 0) by (rewrite ?P0; cbn; lia). apply F, Q0.
    + unfold cost. rewrite P0. cbn [length Nat.ltb Nat.leb]. unfold no_raw in *. cbn [nth_error app] in *.
      rewrite F0, Q0. cbn. lia.
  - intros u o i P N. destruct u as [p a0 a1 a2 a4 a5 a6 a7 z nn vv c r w f]. cbn [pc] in P. subst p.
    clear F C E R F0.
    do 20 (destruct o as [|o]; [at_instr N i; split; weigh_canary|]).
    cbn in N. destruct o; discriminate N.
Qed.

(** *** The code in front of a block is confined *)
Lemma confined_by : forall Q code,
  forallb (fun i => match nth_error code i with Some x => confined_at Q code i x | None => true end)
    (seq 0 (length code)) = true -> confined Q code.
Proof.
  intros Q code H i x X. rewrite forallb_forall in H.
  assert (L : (i < length code)%nat) by (apply nth_error_Some; rewrite X; discriminate).
  specialize (H i). rewrite X in H. apply H, in_seq. lia.
Qed.
