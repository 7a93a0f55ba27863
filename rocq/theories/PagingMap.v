(** Mapping one page: what happens to the tables and to every translation. *)
From Verif Require Import Base PagingSpec PagingModel PagingProofs.

Lemma slot_in k t va : in_page t (slot k t va).
Proof. unfold in_page, slot. pose proof (index_bound k va). lia. Qed.

Lemma slot_inj k t va k' t' va' : t mod 4096 = 0 -> t' mod 4096 = 0 ->
  slot k t va = slot k' t' va' -> t = t' /\ index k va = index k' va'.
Proof.
  unfold slot. intros A B E. pose proof (index_bound k va). pose proof (index_bound k' va'). lia.
Qed.

(** the memory after a new table at [lo] is hung into the empty slot [e] *)
Definition grown (m : memory) (e lo : Z) : memory := clear_page (setup_entry m e lo) lo.

Section Grow.
Context (m : memory) (r lo hi : Z).
Context (SANE : sane m r lo hi).
Context (LO : 0 <= lo) (AL : lo mod 4096 = 0) (FREE : lo + 4096 <= hi) (HI : hi <= 2 ^ 52).
Context (k : nat) (va t : Z) (K : (k < 3)%nat) (T : table m r k va = Some t).
Context (E0 : m (slot k t va) = 0).
Let e := slot k t va.
Let m' := grown m e lo.

Lemma grown_val a : m' a = if (lo <=? a) && (a <? lo + 4096) then 0
                           else if a =? e then lo + 3 else m a.
Proof using SANE LO AL FREE HI K T E0.
  subst m' e. unfold grown, clear_page. rewrite setup_entry_val.
  - reflexivity.
  - exact E0.
  - clear - LO FREE HI. change (2 ^ 52) with 4503599627370496 in HI.
    change (2 ^ 64) with 18446744073709551616. lia.
  - exact AL.
Qed.

Lemma old_slot j s va' : (j < 4)%nat -> table m r j va' = Some s ->
  m' (slot j s va') =
  if (j =? k)%nat && (prefix (S k) va' =? prefix (S k) va) then lo + 3 else m (slot j s va').
Proof using SANE LO AL FREE HI K T E0.
  intros J Tb. rewrite grown_val.
  destruct (sane_page _ _ _ _ SANE j va' s J Tb) as (B & A & O).
  destruct (sane_page _ _ _ _ SANE k va t ltac:(lia) T) as (B' & A' & O').
  pose proof (slot_in j s va') as I. unfold in_page in I.
  replace ((lo <=? slot j s va') && (slot j s va' <? lo + 4096)) with false by lia.
  subst e. destruct (Z.eqb_spec (slot j s va') (slot k t va)) as [Q|Q].
  - destruct (slot_inj _ _ _ _ _ _ A A' Q) as (X & Y).
    assert (X' : table m r k va = Some s) by (rewrite X; exact T).
    destruct (sane_once _ _ _ _ SANE j va' k va s J ltac:(lia) Tb X') as (U & V).
    subst j. rewrite Nat.eqb_refl, !prefix_step by lia. rewrite V, Y, Z.eqb_refl. reflexivity.
  - destruct (Nat.eqb_spec j k) as [ -> |]; [|reflexivity]. cbn [andb].
    destruct (Z.eqb_spec (prefix (S k) va') (prefix (S k) va)) as [P|]; [|reflexivity].
    exfalso. apply Q. destruct (prefix_split k va' va ltac:(lia) P) as (P1 & P2).
    rewrite (table_prefix m r k va' va ltac:(lia) P1) in Tb.
    assert (s = t) by congruence. subst s. unfold slot. rewrite P2. reflexivity.
Qed.

Lemma new_slot j va' : m' (slot j lo va') = 0.
Proof using SANE LO AL FREE HI K T E0.
  rewrite grown_val. pose proof (slot_in j lo va') as I. unfold in_page in I.
  replace ((lo <=? slot j lo va') && (slot j lo va' <? lo + 4096)) with true by lia. reflexivity.
Qed.

(** below the new table nothing *)
Definition under (j : nat) (va' : Z) : bool := (S k <=? j)%nat && (prefix (S k) va' =? prefix (S k) va).

Lemma table_grown j va' : (j <= 3)%nat ->
  table m' r j va' = if under j va' then (if (j =? S k)%nat then Some lo else None)
                     else table m r j va'.
Proof using SANE LO AL FREE HI K T E0.
  induction j as [|j IH]; intro J; [reflexivity|].
  cbn [table]. rewrite IH by lia. clear IH. unfold under.
  destruct (Z.eqb_spec (prefix (S k) va') (prefix (S k) va)) as [P|P].
  - rewrite !andb_true_r. destruct (Nat.leb_spec (S k) j).
    + replace (S k <=? S j)%nat with true by (symmetry; apply Nat.leb_le; lia).
      replace (S j =? S k)%nat with false by (symmetry; apply Nat.eqb_neq; lia).
      destruct (Nat.eqb_spec j (S k)); [|reflexivity].
      rewrite new_slot. reflexivity.
    + destruct (table m r j va') as [s|] eqn:Tb.
      * rewrite (old_slot j s va') by (lia || exact Tb). rewrite P, Z.eqb_refl, andb_true_r.
        destruct (Nat.eqb_spec j k) as [ -> |N].
        -- rewrite Nat.leb_refl, Nat.eqb_refl. destruct (flags3 lo AL) as (F1 & F2 & F3).
           rewrite F1, F3. cbn [andb negb]. f_equal.
           apply page_entry; [|lia|exact AL|lia]. clear - LO FREE HI.
           change (2 ^ 52) with 4503599627370496 in *. lia.
        -- replace (S k <=? S j)%nat with false by (symmetry; apply Nat.leb_gt; lia). reflexivity.
      * destruct (Nat.leb_spec (S k) (S j)); [|reflexivity].
        assert (j = k) by lia. subst j. exfalso.
        rewrite (table_prefix m r k va' va) in Tb; [|lia|].
        -- clear - Tb T. rewrite Tb in T. discriminate.
        -- apply (prefix_split k); [lia|exact P].
  - rewrite !andb_false_r. destruct (table m r j va') as [s|] eqn:Tb; [|reflexivity].
    rewrite (old_slot j s va') by (lia || exact Tb).
    replace (prefix (S k) va' =? prefix (S k) va) with false by (symmetry; apply Z.eqb_neq; exact P).
    rewrite andb_false_r. reflexivity.
Qed.

Lemma entry_grown j va' : (j <= 3)%nat ->
  entry m' r j va' = if (k <=? j)%nat && (prefix (S k) va' =? prefix (S k) va)
    then (if (j =? k)%nat then Some (lo + 3) else if (j =? S k)%nat then Some 0 else None)
    else entry m r j va'.
Proof using SANE LO AL FREE HI K T E0.
  intro J. unfold entry. rewrite table_grown by exact J. unfold under.
  destruct (Z.eqb_spec (prefix (S k) va') (prefix (S k) va)) as [P|P].
  - rewrite !andb_true_r. destruct (Nat.leb_spec (S k) j).
    + replace (k <=? j)%nat with true by (symmetry; apply Nat.leb_le; lia).
      replace (j =? k)%nat with false by (symmetry; apply Nat.eqb_neq; lia).
      destruct (Nat.eqb_spec j (S k)); [|reflexivity]. rewrite new_slot. reflexivity.
    + destruct (Nat.leb_spec k j).
      * assert (j = k) by lia. subst j. rewrite Nat.eqb_refl.
        assert (Tb : table m r k va' = Some t).
        { rewrite (table_prefix m r k va' va); [exact T|lia|]. apply (prefix_split k); [lia|exact P]. }
        rewrite Tb, (old_slot k t va') by (lia || exact Tb).
        rewrite Nat.eqb_refl, P, Z.eqb_refl. reflexivity.
      * destruct (table m r j va') as [s|] eqn:Tb; [|reflexivity].
        rewrite (old_slot j s va') by (lia || exact Tb).
        replace (j =? k)%nat with false by (symmetry; apply Nat.eqb_neq; lia). reflexivity.
  - rewrite !andb_false_r. destruct (table m r j va') as [s|] eqn:Tb; [|reflexivity].
    rewrite (old_slot j s va') by (lia || exact Tb).
    replace (prefix (S k) va' =? prefix (S k) va) with false by (symmetry; apply Z.eqb_neq; exact P).
    rewrite andb_false_r. reflexivity.
Qed.

Lemma translate_grown va' : translate m' r va' = translate m r va'.
Proof using SANE LO AL FREE HI K T E0.
  destruct (Z.eqb_spec (prefix (S k) va') (prefix (S k) va)) as [P|P].
  - assert (Z0 : entry m r k va' = Some 0).
    { unfold entry. destruct (prefix_split k va' va ltac:(lia) P) as (P1 & P2).
      rewrite (table_prefix m r k va' va ltac:(lia) P1), T. unfold slot. rewrite P2.
      unfold slot in E0. rewrite E0. reflexivity. }
    assert (Q : forall j, (j <= 3)%nat -> entry m' r j va' =
      if (k <=? j)%nat then (if (j =? k)%nat then Some (lo + 3) else if (j =? S k)%nat then Some 0 else None)
      else entry m r j va').
    { intros j J. rewrite entry_grown by exact J. rewrite P, Z.eqb_refl, andb_true_r. reflexivity. }
    destruct (flags3 lo AL) as (F1 & F2 & F3).
    rewrite !translate_entries, !Q by lia.
    destruct k as [|[|[|]]]; [| | |lia]; cbn [Nat.leb Nat.eqb];
      rewrite Z0; change (present 0) with false; rewrite ?F1, ?F3; cbn [negb]; reflexivity.
  - apply translate_ext; [reflexivity|]. intros j J. rewrite entry_grown by lia.
    replace (prefix (S k) va' =? prefix (S k) va) with false by (symmetry; apply Z.eqb_neq; exact P).
    rewrite andb_false_r. reflexivity.
Qed.

Lemma sane_grown : sane m' r (lo + 4096) hi.
Proof using SANE LO AL FREE HI K T E0.
  constructor.
  - intros j va' s J Tb. cbv zeta. rewrite table_grown in Tb by lia.
    destruct (under j va').
    + destruct (j =? S k)%nat; [|discriminate]. injection Tb as <-. left. apply new_slot.
    + rewrite (old_slot j s va' J Tb).
      destruct ((j =? k)%nat && (prefix (S k) va' =? prefix (S k) va)).
      * right. destruct (flags3 lo AL) as (F1 & F2 & F3).
        split; [|split; [exact F1|split; [exact F2|intros _; exact F3]]].
        clear - LO FREE HI AL. change (2 ^ 52) with 4503599627370496 in *. lia.
      * exact (sane_entry _ _ _ _ SANE j va' s J Tb).
  - intros j va' s J Tb. rewrite table_grown in Tb by lia.
    destruct (under j va').
    + destruct (j =? S k)%nat; [|discriminate]. injection Tb as <-. clear - LO AL. lia.
    + destruct (sane_page _ _ _ _ SANE j va' s J Tb) as (A & B & C). clear - A B C. lia.
  - intros j va1 j' va2 s J J' S1 S2. rewrite table_grown in S1, S2 by lia.
    destruct (under j va1) eqn:U1, (under j' va2) eqn:U2.
    + unfold under in U1, U2. destruct (Nat.eqb_spec j (S k)); [|discriminate].
      destruct (Nat.eqb_spec j' (S k)); [|discriminate]. subst j j'. split; [reflexivity|].
      apply andb_prop in U1, U2. destruct U1 as [_ U1], U2 as [_ U2]. apply Z.eqb_eq in U1, U2. congruence.
    + destruct (j =? S k)%nat; [|discriminate]. injection S1 as <-.
      destruct (sane_page _ _ _ _ SANE j' va2 lo J' S2) as (_ & _ & C). clear - C FREE. lia.
    + destruct (j' =? S k)%nat; [|discriminate]. injection S2 as <-.
      destruct (sane_page _ _ _ _ SANE j va1 lo J S1) as (_ & _ & C). clear - C FREE. lia.
    + exact (sane_once _ _ _ _ SANE j va1 j' va2 s J J' S1 S2).
Qed.

Lemma frame_grown a : ~ (lo <= a < hi) -> (forall j va' s, (j < 4)%nat -> table m r j va' = Some s -> ~ in_page s a) ->
  m' a = m a.
Proof using SANE LO AL FREE HI K T E0.
  intros NI NT. rewrite grown_val. replace ((lo <=? a) && (a <? lo + 4096)) with false by lia.
  destruct (Z.eqb_spec a e) as [ -> |]; [|reflexivity]. exfalso. subst e.
  apply (NT k va t); [lia|exact T|apply slot_in].
Qed.
End Grow.


(** the table at step [S j] comes from a present, writable entry *)
Lemma table_up m r lo hi (SANE : sane m r lo hi) j va' s : (j < 3)%nat -> table m r (S j) va' = Some s ->
  exists x, entry m r j va' = Some x /\ present x = true /\ writable x = true /\
            (1 <= j -> large x = false)%nat.
Proof.
  intros J Tb. cbn [table] in Tb. destruct (table m r j va') as [u|] eqn:U; [|discriminate].
  destruct (sane_entry _ _ _ _ SANE j va' u ltac:(lia) U) as [Z0|(_ & P & W & _)].
  - rewrite Z0 in Tb. discriminate.
  - exists (m (slot j u va')). unfold entry. rewrite U. split; [reflexivity|]. split; [exact P|].
    split; [exact W|]. intro L. rewrite P in Tb. replace (1 <=? j)%nat with true in Tb by (symmetry; apply Nat.leb_le; exact L).
    rewrite andb_true_r in Tb. cbn [andb] in Tb. destruct (large (m (slot j u va'))); [discriminate|reflexivity].
Qed.

Lemma table_down m r j va' s : (j < 3)%nat -> table m r (S j) va' = Some s -> exists u, table m r j va' = Some u.
Proof.
  intros J Tb. cbn [table] in Tb. destruct (table m r j va') as [u|]; [eexists; reflexivity|discriminate].
Qed.

(** ** Filling a slot of a last-level table *)
Section Fill.
Context (m : memory) (r lo hi : Z).
Context (SANE : sane m r lo hi).
Context (va t : Z) (T : table m r 3 va = Some t).
Context (E0 : m (slot 3 t va) = 0).
Context (pa : Z) (PA : 0 <= pa) (PH : pa + 4096 <= 2 ^ 52) (AL : pa mod 4096 = 0).
Let e := slot 3 t va.
Let m' := setup_entry m e pa.

Lemma filled_val a : m' a = if a =? e then pa + 3 else m a.
Proof using SANE T E0 PA PH AL.
  subst m' e. apply setup_entry_val; [exact E0| |exact AL].
  clear - PA PH. change (2 ^ 52) with 4503599627370496 in *.
  change (2 ^ 64) with 18446744073709551616. lia.
Qed.

Lemma fill_slot j s va' : (j < 4)%nat -> table m r j va' = Some s ->
  m' (slot j s va') =
  if (j =? 3)%nat && (prefix 4 va' =? prefix 4 va) then pa + 3 else m (slot j s va').
Proof using SANE T E0 PA PH AL.
  intros J Tb. rewrite filled_val.
  destruct (sane_page _ _ _ _ SANE j va' s J Tb) as (B & A & O).
  destruct (sane_page _ _ _ _ SANE 3%nat va t ltac:(lia) T) as (B' & A' & O').
  subst e. destruct (Z.eqb_spec (slot j s va') (slot 3 t va)) as [Q|Q].
  - destruct (slot_inj _ _ _ _ _ _ A A' Q) as (X & Y).
    assert (X' : table m r 3 va = Some s) by (rewrite X; exact T).
    destruct (sane_once _ _ _ _ SANE j va' 3%nat va s J ltac:(lia) Tb X') as (U & V).
    subst j. rewrite Nat.eqb_refl, !(prefix_step 3) by lia. rewrite V, Y, Z.eqb_refl. reflexivity.
  - destruct (Nat.eqb_spec j 3) as [ -> |]; [|reflexivity]. cbn [andb].
    destruct (Z.eqb_spec (prefix 4 va') (prefix 4 va)) as [P|]; [|reflexivity].
    exfalso. apply Q. destruct (prefix_split 3 va' va ltac:(lia) P) as (P1 & P2).
    rewrite (table_prefix m r 3 va' va ltac:(lia) P1) in Tb.
    assert (s = t) by congruence. subst s. unfold slot. rewrite P2. reflexivity.
Qed.

Lemma table_filled j va' : (j <= 3)%nat -> table m' r j va' = table m r j va'.
Proof using SANE T E0 PA PH AL.
  induction j as [|j IH]; intro J; [reflexivity|]. cbn [table]. rewrite IH by lia.
  destruct (table m r j va') as [s|] eqn:Tb; [|reflexivity].
  rewrite (fill_slot j s va') by (lia || exact Tb).
  replace (j =? 3)%nat with false by (symmetry; apply Nat.eqb_neq; lia). reflexivity.
Qed.

Lemma entry_filled j va' : (j <= 3)%nat ->
  entry m' r j va' = if (j =? 3)%nat && (prefix 4 va' =? prefix 4 va) then Some (pa + 3)
                     else entry m r j va'.
Proof using SANE T E0 PA PH AL.
  intro J. unfold entry. rewrite table_filled by exact J.
  destruct (table m r j va') as [s|] eqn:Tb.
  - rewrite (fill_slot j s va') by (lia || exact Tb).
    destruct ((j =? 3)%nat && (prefix 4 va' =? prefix 4 va)); reflexivity.
  - destruct (Nat.eqb_spec j 3) as [ -> |]; [|reflexivity]. cbn [andb].
    destruct (Z.eqb_spec (prefix 4 va') (prefix 4 va)) as [P|]; [|reflexivity].
    exfalso. rewrite (table_prefix m r 3 va' va) in Tb; [|lia|].
    + clear - Tb T. rewrite Tb in T. discriminate.
    + apply (prefix_split 3); [lia|exact P].
Qed.

Lemma sane_filled : sane m' r lo hi.
Proof using SANE T E0 PA PH AL.
  constructor.
  - intros j va' s J Tb. cbv zeta. rewrite table_filled in Tb by lia.
    rewrite (fill_slot j s va' J Tb).
    destruct (Nat.eqb_spec j 3) as [ -> |]; cbn [andb].
    + destruct (prefix 4 va' =? prefix 4 va).
      * right. destruct (flags3 pa AL) as (F1 & F2 & F3).
        split; [|split; [exact F1|split; [exact F2|intro; discriminate]]].
        clear - PA PH AL. change (2 ^ 52) with 4503599627370496 in *. lia.
      * exact (sane_entry _ _ _ _ SANE 3%nat va' s J Tb).
    + exact (sane_entry _ _ _ _ SANE j va' s J Tb).
  - intros j va' s J Tb. rewrite table_filled in Tb by lia. exact (sane_page _ _ _ _ SANE j va' s J Tb).
  - intros j va1 j' va2 s J J' S1 S2. rewrite table_filled in S1, S2 by lia.
    exact (sane_once _ _ _ _ SANE j va1 j' va2 s J J' S1 S2).
Qed.

Lemma frame_filled a : (forall j va' s, (j < 4)%nat -> table m r j va' = Some s -> ~ in_page s a) ->
  m' a = m a.
Proof using SANE T E0 PA PH AL.
  intros NT. rewrite filled_val.
  destruct (Z.eqb_spec a e) as [ -> |]; [|reflexivity]. exfalso. subst e.
  apply (NT 3%nat va t); [lia|exact T|apply slot_in].
Qed.

Lemma translate_filled va' : translate m' r va' =
  if prefix 4 va' =? prefix 4 va then Some (pa + va' mod 4096, true) else translate m r va'.
Proof using SANE T E0 PA PH AL.
  destruct (Z.eqb_spec (prefix 4 va') (prefix 4 va)) as [P|P].
  - assert (T' : table m r 3 va' = Some t).
    { rewrite (table_prefix m r 3 va' va); [exact T|lia|]. apply (prefix_split 3); [lia|exact P]. }
    destruct (table_up _ _ _ _ SANE 2 va' t ltac:(lia) T') as (x2 & X2 & P2 & W2 & L2).
    destruct (table_down m r 2 va' t ltac:(lia) T') as (t2 & T2).
    destruct (table_up _ _ _ _ SANE 1 va' t2 ltac:(lia) T2) as (x1 & X1 & P1 & W1 & L1).
    destruct (table_down m r 1 va' t2 ltac:(lia) T2) as (t1 & T1).
    destruct (table_up _ _ _ _ SANE 0 va' t1 ltac:(lia) T1) as (x0 & X0 & P0 & W0 & _).
    destruct (flags3 pa AL) as (F1 & F2 & F3).
    rewrite translate_entries, !entry_filled by lia. rewrite P, Z.eqb_refl. cbn [Nat.eqb andb].
    rewrite X0, X1, X2, P0, P1, P2, W0, W1, W2, L1, L2, F1, F2 by lia. cbn [negb andb].
    rewrite page_entry; [reflexivity| |lia|exact AL|lia].
    clear - PA PH. lia.
  - apply translate_ext; [reflexivity|]. intros j J. rewrite entry_filled by lia.
    replace (prefix 4 va' =? prefix 4 va) with false by (symmetry; apply Z.eqb_neq; exact P).
    rewrite andb_false_r. reflexivity.
Qed.
End Fill.
