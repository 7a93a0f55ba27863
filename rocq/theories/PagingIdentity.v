(** The identity mapping: contents of the tables, translations, sanity. *)
From Verif Require Import Base PagingSpec PagingModel PagingProofs PagingMap.

Definition hit (a e0 i n : Z) : bool :=
  (e0 + 8 * i <=? a) && (a <? e0 + 8 * (i + n)) && ((a - e0) mod 8 =? 0).

Lemma link_loop_val n : forall m i e0 p0, 0 <= i -> 0 <= p0 -> p0 mod 4096 = 0 ->
  p0 + (i + Z.of_nat n) * 4096 <= 2 ^ 40 ->
  (forall j, i <= j < i + Z.of_nat n -> m (e0 + 8 * j) = 0) ->
  forall a, link_loop n m i e0 p0 a =
    if hit a e0 i (Z.of_nat n) then p0 + (a - e0) / 8 * 4096 + 3 else m a.
Proof.
  induction n as [|n IH]; intros m i e0 p0 I P A B Z0 a.
  - cbn [link_loop]. replace (hit a e0 i (Z.of_nat 0)) with false by (unfold hit; lia). reflexivity.
  - cbn [link_loop].
    assert (SE : forall x, setup_entry m (e0 + 8 * i) (p0 + i * 4096) x =
                 if x =? e0 + 8 * i then p0 + i * 4096 + 3 else m x).
    { apply setup_entry_val; [apply Z0; lia| |lia].
      change (2 ^ 40) with 1099511627776 in B. change (2 ^ 64) with 18446744073709551616. lia. }
    rewrite IH; [|lia|lia|exact A|lia|].
    + rewrite SE. unfold hit.
      destruct (Z.eqb_spec a (e0 + 8 * i)) as [ -> |N].
      * replace ((e0 + 8 * (i + 1) <=? e0 + 8 * i)) with false by lia. cbn [andb].
        replace ((e0 + 8 * i <=? e0 + 8 * i) && (e0 + 8 * i <? e0 + 8 * (i + Z.of_nat (S n))) &&
                 ((e0 + 8 * i - e0) mod 8 =? 0)) with true by lia.
        replace ((e0 + 8 * i - e0) / 8) with i by lia. reflexivity.
      * replace ((e0 + 8 * i <=? a) && (a <? e0 + 8 * (i + Z.of_nat (S n))) && ((a - e0) mod 8 =? 0))
          with ((e0 + 8 * (i + 1) <=? a) && (a <? e0 + 8 * (i + 1 + Z.of_nat n)) && ((a - e0) mod 8 =? 0))
          by lia. reflexivity.
    + intros j J. rewrite SE. replace (e0 + 8 * j =? e0 + 8 * i) with false by lia. apply Z0. lia.
Qed.

Lemma u32_page j : u32 (Z.shiftl j 21) mod 4096 = 0 /\ 0 <= u32 (Z.shiftl j 21) < 2 ^ 32.
Proof.
  unfold u32. rewrite Z.shiftl_mul_pow2 by lia. change (2 ^ 32) with 4294967296.
  change (2 ^ 21) with 2097152. lia.
Qed.

Lemma leaf_loop_val n : forall m i e0, 0 <= i ->
  (forall j, i <= j < i + Z.of_nat n -> m (e0 + 8 * j) = 0) ->
  forall a, leaf_loop n m i e0 a =
    if hit a e0 i (Z.of_nat n) then u32 (Z.shiftl ((a - e0) / 8) 21) + 131 else m a.
Proof.
  induction n as [|n IH]; intros m i e0 I Z0 a.
  - cbn [leaf_loop]. replace (hit a e0 i (Z.of_nat 0)) with false by (unfold hit; lia). reflexivity.
  - cbn [leaf_loop].
    assert (SE : forall x, set_ps (setup_entry m (e0 + 8 * i) (u32 (Z.shiftl i 21))) (e0 + 8 * i) x =
                 if x =? e0 + 8 * i then u32 (Z.shiftl i 21) + 131 else m x).
    { destruct (u32_page i) as (U1 & U2). apply leaf_val; [apply Z0; lia| |exact U1].
      change (2 ^ 32) with 4294967296 in U2. change (2 ^ 64) with 18446744073709551616. lia. }
    rewrite IH; [|lia|].
    + rewrite SE. unfold hit.
      destruct (Z.eqb_spec a (e0 + 8 * i)) as [ -> |N].
      * replace ((e0 + 8 * (i + 1) <=? e0 + 8 * i)) with false by lia. cbn [andb].
        replace ((e0 + 8 * i <=? e0 + 8 * i) && (e0 + 8 * i <? e0 + 8 * (i + Z.of_nat (S n))) &&
                 ((e0 + 8 * i - e0) mod 8 =? 0)) with true by lia.
        replace ((e0 + 8 * i - e0) / 8) with i by lia. reflexivity.
      * replace ((e0 + 8 * i <=? a) && (a <? e0 + 8 * (i + Z.of_nat (S n))) && ((a - e0) mod 8 =? 0))
          with ((e0 + 8 * (i + 1) <=? a) && (a <? e0 + 8 * (i + 1 + Z.of_nat n)) && ((a - e0) mod 8 =? 0))
          by lia. reflexivity.
    + intros j J. rewrite SE. replace (e0 + 8 * j =? e0 + 8 * i) with false by lia. apply Z0. lia.
Qed.

Lemma needed_small top level : 0 <= top <= 2 ^ 32 -> 2 <= level <= 4 ->
  needed_entries top level = top / 2 ^ (9 * level + 3) + 1.
Proof.
  intros B L. unfold needed_entries. rewrite Z.shiftr_div_pow2 by lia.
  change 4095 with (Z.ones 12). rewrite Z.land_ones by lia. rewrite Z.mod_small; [reflexivity|].
  assert (P : 0 < 2 ^ (9 * level + 3)) by (apply Z.pow_pos_nonneg; lia).
  split; [apply Z.div_pos; lia|]. apply Z.div_lt_upper_bound; [exact P|].
  apply Z.le_lt_trans with (2 ^ 32); [lia|]. rewrite <- Z.pow_add_r by lia. apply Z.pow_lt_mono_r; lia.
Qed.

Section Identity.
Context (m : memory) (top pt : Z).
Context (TOP : 0 <= top <= 2 ^ 32).
Context (PT0 : 0 <= pt) (PTA : pt mod 4096 = 0) (PTH : pt + 28672 <= 2 ^ 32).
Context (ZERO : forall a, pt <= a < pt + 28672 -> m a = 0).

Let n3 := top / 1073741824 + 1.
Let n2 := top / 2097152 + 1.

Definition result : memory := fst (x86_paging_build_identity_mapping 7 m top pt).

Lemma counts : 1 <= n3 <= 5 /\ 1 <= n2 <= 2049 /\ n2 <= 512 * n3.
Proof using TOP PT0 PTA PTH ZERO. subst n3 n2. change (2 ^ 32) with 4294967296 in TOP. lia. Qed.

Lemma build_eq : x86_paging_build_identity_mapping 7 m top pt =
  (leaf_loop (Z.to_nat n2)
     (link_loop (Z.to_nat n3) (link_loop 1 m 0 pt (pt + 4096)) 0 (pt + 4096) (pt + 8192)) 0 (pt + 8192), 0).
Proof using TOP PT0 PTA PTH ZERO.
  unfold x86_paging_build_identity_mapping. rewrite !needed_small by (exact TOP || lia).
  change (2 ^ (9 * 4 + 3)) with 549755813888. change (2 ^ (9 * 3 + 3)) with 1073741824.
  change (2 ^ (9 * 2 + 3)) with 2097152.
  assert (E : top / 549755813888 = 0) by (change (2 ^ 32) with 4294967296 in TOP; lia).
  rewrite E. cbn [Z.add]. fold n3 n2. pose proof counts as C.
  replace (n3 + 1 + 1 >? 7) with false by (symmetry; rewrite Z.gtb_ltb; apply Z.ltb_ge; lia).
  replace (pt + 4096 + 1 * 4096) with (pt + 8192) by lia.
  change (Z.to_nat 1) with 1%nat. reflexivity.
Qed.

Lemma result_val a : result a =
  if hit a (pt + 8192) 0 n2 then u32 (Z.shiftl ((a - (pt + 8192)) / 8) 21) + 131
  else if hit a (pt + 4096) 0 n3 then pt + 8192 + (a - (pt + 4096)) / 8 * 4096 + 3
  else if a =? pt then pt + 4096 + 3
  else m a.
Proof using TOP PT0 PTA PTH ZERO.
  unfold result. rewrite build_eq. cbn [fst]. pose proof counts as C.
  change (2 ^ 32) with 4294967296 in *.
  assert (L1 : forall x, link_loop 1 m 0 pt (pt + 4096) x = if x =? pt then pt + 4096 + 3 else m x).
  { intro x. rewrite link_loop_val; [| lia | lia | lia | |].
    - unfold hit. destruct (Z.eqb_spec x pt) as [ -> |N].
      + replace ((pt + 8 * 0 <=? pt) && (pt <? pt + 8 * (0 + Z.of_nat 1)) && ((pt - pt) mod 8 =? 0)) with true by lia.
        replace ((pt - pt) / 8) with 0 by lia. lia.
      + replace ((pt + 8 * 0 <=? x) && (x <? pt + 8 * (0 + Z.of_nat 1)) && ((x - pt) mod 8 =? 0)) with false by lia.
        reflexivity.
    - change (2 ^ 40) with 1099511627776. lia.
    - intros j J. apply ZERO. lia. }
  assert (L2 : forall x, link_loop (Z.to_nat n3) (link_loop 1 m 0 pt (pt + 4096)) 0 (pt + 4096) (pt + 8192) x =
     if hit x (pt + 4096) 0 n3 then pt + 8192 + (x - (pt + 4096)) / 8 * 4096 + 3
     else if x =? pt then pt + 4096 + 3 else m x).
  { intro x. rewrite link_loop_val; [| lia | lia | lia | |].
    - rewrite Z2Nat.id by lia. rewrite L1. reflexivity.
    - change (2 ^ 40) with 1099511627776. lia.
    - intros j J. rewrite L1. replace (pt + 4096 + 8 * j =? pt) with false by lia. apply ZERO. lia. }
  rewrite leaf_loop_val; [|lia|].
  - rewrite Z2Nat.id by lia. rewrite L2. reflexivity.
  - intros j J. rewrite L2.
    replace (hit (pt + 8192 + 8 * j) (pt + 4096) 0 n3) with false by (unfold hit; lia).
    replace (pt + 8192 + 8 * j =? pt) with false by lia. apply ZERO. lia.
Qed.

Lemma result_frame a : ~ (pt <= a < pt + 28672) -> result a = m a.
Proof using TOP PT0 PTA PTH ZERO.
  intro N. rewrite result_val. pose proof counts as C.
  replace (hit a (pt + 8192) 0 n2) with false by (unfold hit; lia).
  replace (hit a (pt + 4096) 0 n3) with false by (unfold hit; lia).
  replace (a =? pt) with false by lia. reflexivity.
Qed.

(** the three kinds of tables *)
Lemma slot0 va : result (slot 0 pt va) = if index 0 va =? 0 then pt + 4096 + 3 else 0.
Proof using TOP PT0 PTA PTH ZERO.
  rewrite result_val. pose proof (index_bound 0 va) as I. unfold slot. pose proof counts as C.
  replace (hit (pt + 8 * index 0 va) (pt + 8192) 0 n2) with false by (unfold hit; lia).
  replace (hit (pt + 8 * index 0 va) (pt + 4096) 0 n3) with false by (unfold hit; lia).
  replace (pt + 8 * index 0 va =? pt) with (index 0 va =? 0) by lia.
  destruct (index 0 va =? 0); [reflexivity|]. apply ZERO. lia.
Qed.

Lemma slot1 va : result (slot 1 (pt + 4096) va) =
  if index 1 va <? n3 then pt + 8192 + index 1 va * 4096 + 3 else 0.
Proof using TOP PT0 PTA PTH ZERO.
  rewrite result_val. pose proof (index_bound 1 va) as I. unfold slot. pose proof counts as C.
  replace (hit (pt + 4096 + 8 * index 1 va) (pt + 8192) 0 n2) with false by (unfold hit; lia).
  replace (hit (pt + 4096 + 8 * index 1 va) (pt + 4096) 0 n3) with (index 1 va <? n3) by (unfold hit; lia).
  replace ((pt + 4096 + 8 * index 1 va - (pt + 4096)) / 8) with (index 1 va) by lia.
  destruct (index 1 va <? n3); [reflexivity|].
  replace (pt + 4096 + 8 * index 1 va =? pt) with false by lia. apply ZERO. lia.
Qed.

Lemma slot2 va : index 1 va < n3 -> result (slot 2 (pt + 8192 + index 1 va * 4096) va) =
  if 512 * index 1 va + index 2 va <? n2
  then u32 (Z.shiftl (512 * index 1 va + index 2 va) 21) + 131 else 0.
Proof using TOP PT0 PTA PTH ZERO.
  intro L. rewrite result_val. pose proof (index_bound 1 va) as I1. pose proof (index_bound 2 va) as I2.
  unfold slot. pose proof counts as C.
  set (a := pt + 8192 + index 1 va * 4096 + 8 * index 2 va).
  replace (hit a (pt + 8192) 0 n2) with (512 * index 1 va + index 2 va <? n2) by (subst a; unfold hit; lia).
  replace (hit a (pt + 4096) 0 n3) with false by (subst a; unfold hit; lia).
  replace ((a - (pt + 8192)) / 8) with (512 * index 1 va + index 2 va) by (subst a; lia).
  destruct (512 * index 1 va + index 2 va <? n2); [reflexivity|].
  replace (a =? pt) with false by (subst a; lia). apply ZERO. subst a. lia.
Qed.

Lemma pt_small p : pt <= p < pt + 28672 -> 0 <= p < 2 ^ 52.
Proof using TOP PT0 PTA PTH ZERO. change (2 ^ 32) with 4294967296 in PTH. change (2 ^ 52) with 4503599627370496. lia. Qed.

Lemma tab1 va : table result pt 1 va = if index 0 va =? 0 then Some (pt + 4096) else None.
Proof using TOP PT0 PTA PTH ZERO.
  cbn [table]. rewrite slot0. destruct (index 0 va =? 0); [|reflexivity].
  destruct (flags3 (pt + 4096) ltac:(lia)) as (F1 & F2 & F3). rewrite F1, F3. cbn [andb negb].
  f_equal. apply page_entry; [apply pt_small; lia|lia|change (2 ^ 12) with 4096; lia|lia].
Qed.

Lemma tab2 va : table result pt 2 va =
  if (index 0 va =? 0) && (index 1 va <? n3) then Some (pt + 8192 + index 1 va * 4096) else None.
Proof using TOP PT0 PTA PTH ZERO.
  change (table result pt 2 va) with
    (match table result pt 1 va with
     | None => None
     | Some t => let e := result (slot 1 t va) in
       if present e && negb (large e && (1 <=? 1)%nat) then Some (page 12 e) else None
     end).
  rewrite tab1. destruct (index 0 va =? 0); [|reflexivity]. cbv zeta. rewrite slot1. cbn [andb].
  pose proof (index_bound 1 va) as I. pose proof counts as C.
  destruct (Z.ltb_spec (index 1 va) n3); [|reflexivity].
  destruct (flags3 (pt + 8192 + index 1 va * 4096) ltac:(lia)) as (F1 & F2 & F3). rewrite F1, F3. cbn [andb negb].
  f_equal. apply page_entry; [apply pt_small; lia|lia|change (2 ^ 12) with 4096; lia|lia].
Qed.

Lemma tab3 va : table result pt 3 va = None.
Proof using TOP PT0 PTA PTH ZERO.
  change (table result pt 3 va) with
    (match table result pt 2 va with
     | None => None
     | Some t => let e := result (slot 2 t va) in
       if present e && negb (large e && (1 <=? 2)%nat) then Some (page 12 e) else None
     end).
  rewrite tab2. destruct (index 0 va =? 0); [|reflexivity]. cbn [andb].
  destruct (Z.ltb_spec (index 1 va) n3); [|reflexivity]. cbv zeta. rewrite slot2 by assumption.
  destruct (512 * index 1 va + index 2 va <? n2); [|reflexivity].
  destruct (u32_page (512 * index 1 va + index 2 va)) as (U1 & U2).
  destruct (flags131 _ U1) as (F1 & F2 & F3). rewrite F1, F3. reflexivity.
Qed.

Lemma canonical_index va : canonical va ->
  (index 0 va =? 0) && (index 1 va <? n3) && (512 * index 1 va + index 2 va <? n2) = (va / 2097152 <? n2) /\
  (index 0 va = 0 -> 512 * index 1 va + index 2 va = va / 2097152).
Proof using TOP PT0 PTA PTH ZERO.
  intro C. pose proof counts as K. unfold canonical in C.
  change (2 ^ 47) with 140737488355328 in C. change (2 ^ 64) with 18446744073709551616 in C.
  assert (I0 : index 0 va = (va / 549755813888) mod 512) by reflexivity.
  assert (I1 : index 1 va = (va / 1073741824) mod 512) by reflexivity.
  assert (I2 : index 2 va = (va / 2097152) mod 512) by reflexivity.
  assert (Q : index 0 va = 0 -> 512 * index 1 va + index 2 va = va / 2097152) by (rewrite I0, I1, I2; lia).
  split; [|exact Q]. pose proof (index_bound 1 va). pose proof (index_bound 2 va).
  destruct (Z.eqb_spec (index 0 va) 0) as [Z0|NZ]; cbn [andb].
  - specialize (Q Z0). lia.
  - symmetry. apply Z.ltb_ge. rewrite I0 in NZ. lia.
Qed.

Lemma translate_result va : canonical va -> translate result pt va =
  if va / 2097152 <? n2 then Some (u32 (va / 2097152 * 2097152) + va mod 2097152, true) else None.
Proof using TOP PT0 PTA PTH ZERO.
  intro C. destruct (canonical_index va C) as (E & Q). rewrite <- E. clear E.
  rewrite translate_entries. unfold entry.
  change (table result pt 0 va) with (Some pt). cbv iota. rewrite slot0.
  destruct (Z.eqb_spec (index 0 va) 0) as [Z0|]; cbn [andb]; [|reflexivity].
  specialize (Q Z0).
  destruct (flags3 (pt + 4096) ltac:(lia)) as (F1 & F2 & F3). rewrite F1. cbn [negb].
  rewrite tab1, Z0, Z.eqb_refl, slot1.
  pose proof (index_bound 1 va) as I. pose proof counts as K.
  destruct (Z.ltb_spec (index 1 va) n3) as [L|]; cbn [andb]; [|reflexivity].
  destruct (flags3 (pt + 8192 + index 1 va * 4096) ltac:(lia)) as (G1 & G2 & G3). rewrite G1, G3. cbn [negb].
  rewrite tab2, Z0, Z.eqb_refl. replace (index 1 va <? n3) with true by lia. cbn [andb].
  rewrite slot2 by exact L.
  destruct (Z.ltb_spec (512 * index 1 va + index 2 va) n2) as [M|]; [|reflexivity].
  rewrite Q. destruct (u32_page (va / 2097152)) as (U1 & U2).
  destruct (flags131 _ U1) as (H1 & H2 & H3). rewrite H1, H2, H3, F2, G2. cbn [negb andb].
  rewrite page_entry; [| |lia| |lia].
  - rewrite Z.shiftl_mul_pow2 by lia. reflexivity.
  - change (2 ^ 32) with 4294967296 in U2. change (2 ^ 52) with 4503599627370496. lia.
  - unfold u32. rewrite Z.shiftl_mul_pow2 by lia. change (2 ^ 32) with 4294967296. change (2 ^ 21) with 2097152. lia.
Qed.

Lemma sane_result lo hi : (hi <= pt \/ pt + 28672 <= lo) -> sane result pt lo hi.
Proof using TOP PT0 PTA PTH ZERO.
  intro D. pose proof counts as K.
  constructor.
  - intros k va t J T. cbv zeta.
    pose proof (index_bound 1 va) as I.
    destruct k as [|[|[|[|]]]]; [| | | |lia].
    + cbn [table] in T. injection T as <-. rewrite slot0. destruct (index 0 va =? 0); [right|left; reflexivity].
      destruct (flags3 (pt + 4096) ltac:(lia)) as (F1 & F2 & F3).
      split; [replace (pt + 4096 + 3) with (pt + 4099) by lia; apply pt_small; lia|].
      split; [exact F1|]. split; [exact F2|]. intros _; exact F3.
    + rewrite tab1 in T. destruct (index 0 va =? 0); [|discriminate]. injection T as <-. rewrite slot1.
      destruct (Z.ltb_spec (index 1 va) n3); [right|left; reflexivity].
      destruct (flags3 (pt + 8192 + index 1 va * 4096) ltac:(lia)) as (F1 & F2 & F3).
      split; [apply pt_small; lia|].
      split; [exact F1|]. split; [exact F2|]. intros _; exact F3.
    + rewrite tab2 in T. destruct (index 0 va =? 0); [|discriminate]. cbn [andb] in T.
      destruct (Z.ltb_spec (index 1 va) n3); [|discriminate]. injection T as <-. rewrite slot2 by assumption.
      destruct (512 * index 1 va + index 2 va <? n2); [right|left; reflexivity].
      destruct (u32_page (512 * index 1 va + index 2 va)) as (U1 & U2).
      destruct (flags131 _ U1) as (F1 & F2 & F3).
      split; [change (2 ^ 32) with 4294967296 in U2; change (2 ^ 52) with 4503599627370496; lia|].
      split; [exact F1|]. split; [exact F2|]. intro; discriminate.
    + rewrite tab3 in T. discriminate.
  - intros k va t J T. pose proof (index_bound 1 va) as I.
    destruct k as [|[|[|[|]]]]; [| | | |lia].
    + cbn [table] in T. injection T as <-. lia.
    + rewrite tab1 in T. destruct (index 0 va =? 0); [|discriminate]. injection T as <-. lia.
    + rewrite tab2 in T. destruct (index 0 va =? 0); [|discriminate]. cbn [andb] in T.
      destruct (Z.ltb_spec (index 1 va) n3); [|discriminate]. injection T as <-. lia.
    + rewrite tab3 in T. discriminate.
  - assert (G : forall k va t, (k < 4)%nat -> table result pt k va = Some t ->
      (k = 0%nat /\ t = pt) \/ (k = 1%nat /\ t = pt + 4096 /\ index 0 va = 0) \/
      (k = 2%nat /\ t = pt + 8192 + index 1 va * 4096 /\ index 0 va = 0)).
    { intros k va t J T. destruct k as [|[|[|[|]]]]; [| | | |lia].
      - cbn [table] in T. injection T as <-. auto.
      - rewrite tab1 in T. destruct (Z.eqb_spec (index 0 va) 0); [|discriminate]. injection T as <-. auto.
      - rewrite tab2 in T. destruct (Z.eqb_spec (index 0 va) 0); [|discriminate]. cbn [andb] in T.
        destruct (index 1 va <? n3); [|discriminate]. injection T as <-. auto.
      - rewrite tab3 in T. discriminate. }
    intros k va k' va' t J J' T T'.
    pose proof (index_bound 1 va) as I. pose proof (index_bound 1 va') as I'.
    assert (P0 : prefix 0 va = prefix 0 va') by (unfold prefix; rewrite !Z.mod_1_r; reflexivity).
    destruct (G _ _ _ J T) as [(-> & A)|[(-> & A & B)|(-> & A & B)]];
      destruct (G _ _ _ J' T') as [(-> & A')|[(-> & A' & B')|(-> & A' & B')]]; try lia;
      (split; [reflexivity|]).
    + rewrite !(prefix_step 0) by lia. rewrite P0, B, B'. reflexivity.
    + rewrite !(prefix_step 1), !(prefix_step 0) by lia. rewrite P0, B, B'.
      assert (index 1 va = index 1 va') by lia. congruence.
Qed.
End Identity.
