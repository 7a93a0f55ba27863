(** Theorems about the factory image tool: C82. *)
From Verif Require Import Base BaseLemmas BinModel BinSpec BinProofs.
From Coq Require Import Permutation.
Local Ltac Zify.zify_post_hook ::= idtac.

(** Whatever order the parts are given in and [qsort] leaves for equal addresses: a file that
    is made has every part at its address, the fill byte everywhere else, and nothing in
    front of the first or behind the last part. *)
Theorem C82_layout : forall es es' out, sorted_of es es' -> (forall e, In e es -> in_range e) -> close es ->
  assemble es' = Made out -> factory es out.
Proof. exact made_factory. Qed.
Print Assumptions C82_layout.

(** No file is made exactly if two parts overlap. *)
Theorem C82_overlap : forall es es', es <> [] -> sorted_of es es' -> (forall e, In e es -> in_range e /\ p_data e <> []) -> close es ->
  (assemble es' = Refused <-> ~ apart es) /\ (apart es <-> exists out, assemble es' = Made out).
Proof.
  intros es es' Hne Hs HR HC. pose proof Hs as (P & As).
  assert (HR1 : forall e, In e es -> in_range e) by (intros e He; apply HR, He).
  assert (HR' : forall e, In e es' -> in_range e /\ p_data e <> []).
  { intros e He. apply HR. eapply Permutation_in; [apply Permutation_sym, P|exact He]. }
  pose proof (no_overlap_apart es' HR' As) as N. pose proof (assemble_total es es' Hs HR1 HC) as T.
  assert (AP : apart es <-> apart es') by (split; apply apart_perm; [exact P|apply Permutation_sym, P]).
  rewrite AP, <- N. unfold assemble in *. destruct (no_overlap es').
  - destruct es' as [|e r]; [apply Permutation_sym, Permutation_nil in P; congruence|].
    destruct (add_parts (p_addr e, []) (e :: r)) as [(t, out)|]; [|congruence].
    split; [split; [discriminate|intro H; exfalso; apply H; reflexivity]|]. split; eauto.
  - split; [split; [discriminate|reflexivity]|]. split; [discriminate|]. intros (out & E). discriminate E.
Qed.
Print Assumptions C82_overlap.

(** *** Addresses as text *)

(** A hexadecimal number after "0x" and a decimal number are read as what they say. *)
Theorem C82_hex : forall ds, ds <> [] -> (forall d, In d ds -> 0 <= d < 16) -> value 16 ds < 2 ^ 63 ->
  strtol (48 :: 120 :: map hex_digit ds) = (value 16 ds, []) /\ address_arg (48 :: 120 :: map hex_digit ds) = value 16 ds.
Proof.
  intros ds Hne Hd Hv. assert (V0 : 0 <= value 16 ds) by (apply value_nn; [lia|lia|intros d K; apply Hd in K; lia]).
  assert (E : strtol (48 :: 120 :: map hex_digit ds) = (value 16 ds, [])).
  { destruct ds as [|d r]; [congruence|]. unfold strtol. cbn [map skip_blank]. change (is_blank 48) with false. cbn iota.
    cbn [number]. change ((120 =? 120) || (120 =? 88)) with true. cbn [andb].
    pose proof (digits_all 16 [d] 0 [] ltac:(intros x [<-|[]]; apply Hd; left; reflexivity) ltac:(lia) I) as D1.
    cbn [map app digits] in D1. destruct (digit_of (hex_digit d) <? 16) eqn:L.
    - pose proof (digits_all 16 (d :: r) 0 [] Hd ltac:(lia) I) as D. rewrite app_nil_r in D. cbn [map] in D. rewrite D.
      fold (value 16 (d :: r)). unfold clamp. f_equal.
      change LONG_HI with 9223372036854775807 in *. change (2 ^ 63) with 9223372036854775808 in Hv. lia.
    - discriminate D1. }
  split; [exact E|]. unfold address_arg. rewrite E. cbn [fst]. apply Z.mod_small.
  change SZ_MAX with 18446744073709551616. change (2 ^ 63) with 9223372036854775808 in Hv. lia.
Qed.
Print Assumptions C82_hex.

Theorem C82_decimal : forall d ds, 1 <= d <= 9 -> (forall x, In x ds -> 0 <= x < 10) -> value 10 (d :: ds) < 2 ^ 63 ->
  strtol (map hex_digit (d :: ds)) = (value 10 (d :: ds), []) /\ address_arg (map hex_digit (d :: ds)) = value 10 (d :: ds).
Proof.
  intros d ds Hd1 Hd Hv.
  assert (Hall : forall x, In x (d :: ds) -> 0 <= x < 10) by (intros x [<-|Hx]; [lia|apply Hd, Hx]).
  assert (V0 : 0 <= value 10 (d :: ds)) by (apply value_nn; [lia|lia|intros x K; apply Hall in K; lia]).
  assert (E : strtol (map hex_digit (d :: ds)) = (value 10 (d :: ds), [])).
  { pose proof (digits_all 10 (d :: ds) 0 [] Hall ltac:(lia) I) as D. rewrite app_nil_r in D.
    assert (Dd : d = 1 \/ d = 2 \/ d = 3 \/ d = 4 \/ d = 5 \/ d = 6 \/ d = 7 \/ d = 8 \/ d = 9) by lia.
    assert (N : strtol (map hex_digit (d :: ds)) =
      (clamp (fst (digits 10 0 (map hex_digit (d :: ds)))), snd (digits 10 0 (map hex_digit (d :: ds))))).
    { cbn [map]. destruct Dd as [ -> |[ -> |[ -> |[ -> |[ -> |[ -> |[ -> |[ -> | -> ]]]]]]]];
        unfold strtol; cbn [skip_blank];
        match goal with |- context [hex_digit ?k] => let v := eval vm_compute in (hex_digit k) in change (hex_digit k) with v end;
        match goal with |- context [is_blank ?k] => change (is_blank k) with false end; cbn iota;
        cbn [number]; match goal with |- context [digit_of ?k <? 10] => change (digit_of k <? 10) with true end; cbn iota;
        destruct (digits 10 0 _); reflexivity. }
    rewrite N, D. cbn [fst snd]. fold (value 10 (d :: ds)). f_equal. unfold clamp.
    change LONG_HI with 9223372036854775807 in *. change (2 ^ 63) with 9223372036854775808 in Hv. lia. }
  split; [exact E|]. unfold address_arg. rewrite E. cbn [fst]. apply Z.mod_small.
  change SZ_MAX with 18446744073709551616. change (2 ^ 63) with 9223372036854775808 in Hv. lia.
Qed.
Print Assumptions C82_decimal.

(** *** Concrete cases *)

Definition bl : part_in := mkPart 4096 [1; 2; 3].
Definition app1 : part_in := mkPart 4102 [7; 8].
Definition app2 : part_in := mkPart 4099 [5].

Example C82_hyps : sorted_of [app1; bl; app2] [bl; app2; app1] /\ (forall e, In e [app1; bl; app2] -> in_range e /\ p_data e <> []) /\
  close [app1; bl; app2] /\ apart [app1; bl; app2] /\ assemble [bl; app2; app1] = Made [1; 2; 3; 5; 255; 255; 7; 8].
Proof.
  split; [split|].
  - apply (Permutation_cons_append [bl; app2] app1).
  - cbn. repeat split; intros e H; repeat destruct H as [<-|H]; try contradiction; cbn; lia.
  - split; [intros e H; repeat destruct H as [<-|H]; try contradiction; (split; [split; vm_compute; (reflexivity || discriminate)|discriminate])|].
    split.
    + intros e H. repeat destruct H as [<-|H]; try contradiction.
      * right. exists app2. split; [right; right; left; reflexivity|]. split; vm_compute; reflexivity.
      * left. split; [exists bl; split; [right; left; reflexivity|reflexivity]|].
        intros e H. repeat destruct H as [<-|H]; try contradiction; cbn; lia.
      * right. exists bl. split; [right; left; reflexivity|]. split; vm_compute; reflexivity.
    + split; [|vm_compute; reflexivity].
      repeat constructor; intros a; unfold covers; cbn; lia.
Qed.

(** A gap of [INT_MAX] bytes or more is not filled: the tool reports success, and the second
    part follows the first one directly.  (The two parts may be in internal flash at
    0x08000000 and in external flash at 0x90000000.) *)
Theorem C82_gap_refuted : exists es out, es <> [] /\ sorted_of es es /\ (forall e, In e es -> in_range e /\ p_data e <> []) /\
  apart es /\ assemble es = Made out /\ ~ factory es out.
Proof.
  set (e1 := mkPart 0x08000000 [1; 2; 3]). set (e2 := mkPart 0x90000000 [7; 8]).
  exists [e1; e2], [1; 2; 3; 7; 8].
  assert (R1 : in_range e1) by (split; vm_compute; (reflexivity || discriminate)).
  assert (R2 : in_range e2) by (split; vm_compute; (reflexivity || discriminate)).
  split; [discriminate|]. split.
  { split; [apply Permutation_refl|]. cbn. repeat split; intros e H; repeat destruct H as [<-|H]; try contradiction; cbn; lia. }
  split. { intros e [<-|[<-|[]]]; (split; [assumption|discriminate]). }
  split. { repeat constructor; intros a; unfold covers; cbn; lia. }
  split.
  - assert (A1 : add_part (p_addr e1, []) e1 = Some (0x08000003, [1; 2; 3])).
    { rewrite add_part_spec; [|exact R1|cbn; lia|rewrite Z.sub_diag; reflexivity]. rewrite Z.sub_diag. reflexivity. }
    assert (A2 : add_part (0x08000003, [1; 2; 3]) e2 = Some (0x08000005, [1; 2; 3; 7; 8])).
    { rewrite add_part_far; [reflexivity|exact R2|lia|vm_compute; discriminate]. }
    unfold assemble. change (no_overlap [e1; e2]) with true. cbn iota. cbn [add_parts]. rewrite A1, A2. reflexivity.
  - intros (b & t & ((eb & Hb1 & Hb2) & Hb3) & (_ & Ht) & Hl & _).
    pose proof (Hb3 e1 (or_introl eq_refl)) as L1. pose proof (Ht e2 (or_intror (or_introl eq_refl))) as L2.
    unfold zlen in *. cbn in L1, L2, Hl. lia.
Qed.
Print Assumptions C82_gap_refuted.

(** Text that is not a number is taken for the number in front, or for 0; only a message says
    so.  Here "8OOO" (with letters) gives 8, and "ROM" gives 0.  A leading 0 means octal. *)
Theorem C82_text_refuted : address_arg [56; 79; 79; 79] = 8 /\ address_arg [82; 79; 77] = 0 /\ address_arg [48; 49; 48; 48; 48] = 512.
Proof. repeat split; vm_compute; reflexivity. Qed.
Print Assumptions C82_text_refuted.
