(** Lemmas for C77: the version check, and executions without a fault. *)
From Verif Require Import Base BaseLemmas GlitchSpec GlitchModel GlitchProofs GlitchCodeProofs.
Local Ltac Zify.zify_post_hook ::= idtac.

Definition g (a b : Z) : bool := eqb (sub_n a b) (sub_v a b).

Section Version.
  Variables (fb : Z) (ver : Z -> Z) (c1 c2 : Z).
  Let cur := ver 0.
  Let upd := ver 1.

  (** What is known of a state from which the code cannot pass without a skip ([safe1]), and
      of one that takes two ([safe2]). *)
  Definition pr := cpu -> bool.
  Definition tt : pr := fun _ => true.
  Definition ff : pr := fun _ => false.
  Definition wide (p : pr) : list pr := [p; ff].
  Definition wides (n : nat) (p : pr) : list pr := concat (repeat (wide p) n).

  Definition G45 (s : cpu) := g (r4 s) (r5 s).
  Definition G67 (s : cpu) := g (r6 s) (r7 s).
  Definition fl (s : cpu) := eqb (nf s) (vf s).

  Definition eq_pairs1 (eqn : pr) (x : pr) : list pr :=
    let c s := negb (eqn s) || x s in
    let b s := negb (zf s) || negb (eqn s) || x s in
    [c; b; c; b; c; b; c; fun s => negb (zf s) || x s].
  Definition eq_pairs2 (eqn : pr) (x : pr) : list pr :=
    let c s := eqn s && x s in
    let b s := zf s && eqn s && x s in
    [c; b; c; b; c; b; c; b].

  Definition X1 (s : cpu) := G45 s || G67 s.
  Definition X2 (s : cpu) := G45 s && G67 s.
  Definition Y1 (s : cpu) := g cur (r5 s) || g cur (r7 s).
  Definition Y2 (s : cpu) := g cur (r5 s) && g cur (r7 s).

  Definition safe1 : list pr :=
    [tt] ++ wides 10 tt ++ [tt] ++
    [(fun s => negb (r0 s =? 1)); (fun s => negb (zf s) || negb (r0 s =? 1));
     (fun s => negb (r0 s =? 1)); (fun s => negb (zf s) || negb (r0 s =? 1));
     (fun s => negb (r0 s =? 1)); (fun s => negb (zf s)); ff] ++
    wides 3 tt ++ wide tt ++ [tt; tt; tt] ++
    wides 3 tt ++
    wide (fun s => negb (r5 s =? ver (r0 s)) || g cur (r5 s) || g cur (ver (r0 s))) ++
    repeat (fun s => negb (r5 s =? r0 s) || g cur (r5 s) || g cur (r0 s)) 3 ++
    eq_pairs1 (fun s => r5 s =? r7 s) Y1 ++
    wides 3 Y1 ++
    wide (fun s => negb (ver (r0 s) =? cur) || g (ver (r0 s)) (r5 s) || g cur (r7 s)) ++
    repeat (fun s => negb (r0 s =? cur) || g (r0 s) (r5 s) || g cur (r7 s)) 3 ++
    wides 3 (fun s => negb (r4 s =? cur) || G45 s || g cur (r7 s)) ++
    wide (fun s => negb (r4 s =? ver (r0 s)) || G45 s || g (ver (r0 s)) (r7 s)) ++
    repeat (fun s => negb (r4 s =? r0 s) || G45 s || g (r0 s) (r7 s)) 3 ++
    eq_pairs1 (fun s => r4 s =? r6 s) X1 ++
    wides 3 X1 ++
    [X1; (fun s => fl s || X1 s); X1; (fun s => fl s || X1 s); X1; (fun s => fl s || G67 s); G67; fl] ++
    [ff].

  Definition safe2 : list pr :=
    [tt] ++ wide tt ++ wides 9 (fun s => negb (r0 s =? 1)) ++ [fun s => negb (r0 s =? 1)] ++
    [(fun s => negb (r0 s =? 1)); (fun s => negb (zf s) && negb (r0 s =? 1)); ff; ff; ff; ff; ff] ++
    wides 3 tt ++ wide (fun s => (ver (r0 s) =? upd) && g cur (ver (r0 s))) ++
    repeat (fun s => (r0 s =? upd) && g cur (r0 s)) 3 ++
    wides 3 (fun s => (r5 s =? upd) && g cur (r5 s)) ++
    wide (fun s => (r5 s =? ver (r0 s)) && g cur (r5 s) && g cur (ver (r0 s))) ++
    repeat (fun s => (r5 s =? r0 s) && g cur (r5 s) && g cur (r0 s)) 3 ++
    eq_pairs2 (fun s => r5 s =? r7 s) Y2 ++
    wides 3 Y2 ++
    wide (fun s => (ver (r0 s) =? cur) && g (ver (r0 s)) (r5 s) && g cur (r7 s)) ++
    repeat (fun s => (r0 s =? cur) && g (r0 s) (r5 s) && g cur (r7 s)) 3 ++
    wides 3 (fun s => (r4 s =? cur) && G45 s && g cur (r7 s)) ++
    wide (fun s => (r4 s =? ver (r0 s)) && G45 s && g (ver (r0 s)) (r7 s)) ++
    repeat (fun s => (r4 s =? r0 s) && G45 s && g (r0 s) (r7 s)) 3 ++
    eq_pairs2 (fun s => r4 s =? r6 s) X2 ++
    wides 3 X2 ++
    [X2; (fun s => fl s && X2 s); ff; ff; ff; ff; ff; ff] ++
    [ff].

  Definition vv_cost (s : cpu) : nat :=
    if nth (pc s) safe2 ff s then 2%nat else if nth (pc s) safe1 ff s then 1%nat else 0%nat.

  Lemma version_step : forall i x u,
    fb <> 1 -> g cur upd = true ->
    nth_error (verify_version_allowed fb ver c1 c2) i = Some x -> pc u = i ->
    (vv_cost u <= vv_cost (exec (length (verify_version_allowed fb ver c1 c2)) u x))%nat /\
    (vv_cost u <= S (vv_cost (goto u (pc u + size x))))%nat.
  Proof.
    intros i x u FB GC N U. unfold vv_cost.
    destruct u as [p a0 a1 a2 a4 a5 a6 a7 z nn vv c r w f]. cbn [pc] in U. subst p.
    unfold verify_version_allowed, version_call in N.
    assert (F1 : (fb =? 1) = false) by (apply Z.eqb_neq; exact FB).
    assert (CC : (cur =? cur) = true) by apply Z.eqb_refl.
    assert (UU : (upd =? upd) = true) by apply Z.eqb_refl.
    assert (Z1 : (0 =? 1) = false) by reflexivity.
    do 104 (destruct i as [|i]; [at_instr N x; cbn [nf vf];
      fold (g a4 a5) (g a6 a7); fold cur upd;
      split; destruct z; cbn [negb];
      try match goal with |- context [if eqb nn vv then _ else _] => destruct (eqb nn vv) eqn:EF end;
      cbn [pc nth app safe1 safe2 wides wide concat repeat eq_pairs1 eq_pairs2 Nat.add Nat.sub target tt ff
           r0 r4 r5 r6 r7 zf nf vf with_cell X1 X2 Y1 Y2];
      cbv [tt ff X1 X2 Y1 Y2 G45 G67 fl]; cbn [r0 r4 r5 r6 r7 zf nf vf];
      fold (g a4 a5) (g a6 a7); fold cur upd;
      rewrite ?F1, ?CC, ?UU, ?GC, ?EF; cbn [negb andb orb];
      repeat match goal with |- context [?y =? ?q] => destruct (y =? q) end;
      repeat match goal with |- context [g ?y ?q] => destruct (g y q) end;
      repeat match goal with |- context [eqb ?y ?q] => destruct (eqb y q) end;
      repeat match goal with |- context [if ?b then _ else _] => is_var b; destruct b end;
      cbn [negb andb orb]; try lia
      |]).
    destruct i; discriminate N.
  Qed.
End Version.
