(** Lemmas about page-table entries and about one page-mapping step. *)
From Verif Require Import Base PagingSpec PagingModel.

(** ** Bits *)
Lemma land_mask x : Z.land x PAGE_MASK = (x mod 2 ^ 64) / 4096 * 4096.
Proof.
  unfold PAGE_MASK.
  replace (2 ^ 64 - 4096) with (Z.shiftl (Z.ones 52) 12) by reflexivity.
  replace ((x mod 2 ^ 64) / 4096 * 4096) with (Z.shiftl (Z.shiftr (Z.land x (Z.ones 64)) 12) 12).
  - apply Z.bits_inj'. intros n Hn.
    rewrite Z.land_spec. destruct (Z.ltb_spec n 12) as [L|L].
    + rewrite !Z.shiftl_spec_low by lia. apply andb_false_r.
    + rewrite !Z.shiftl_spec by lia. rewrite Z.shiftr_spec by lia.
      replace (n - 12 + 12) with n by lia. rewrite Z.land_spec. f_equal.
      destruct (Z.ltb_spec n 64).
      * rewrite !Z.ones_spec_low by lia. reflexivity.
      * rewrite !Z.ones_spec_high by lia. reflexivity.
  - rewrite Z.land_ones by lia. rewrite Z.shiftl_mul_pow2, Z.shiftr_div_pow2 by lia. reflexivity.
Qed.

Lemma mask_id x : 0 <= x < 2 ^ 64 -> x mod 4096 = 0 -> Z.land x PAGE_MASK = x.
Proof. intros B A. rewrite land_mask, (Z.mod_small x) by lia. lia. Qed.

Lemma testbit_low p n : p mod 4096 = 0 -> 0 <= n < 12 -> Z.testbit p n = false.
Proof.
  intros A B. apply Z.testbit_false; [lia|].
  replace p with ((p / 4096 * 2 ^ (12 - n - 1)) * 2 * 2 ^ n).
  - rewrite Z.div_mul by (apply Z.pow_nonzero; lia). apply Z.mod_mul. lia.
  - replace (p / 4096 * 2 ^ (12 - n - 1) * 2 * 2 ^ n) with (p / 4096 * (2 ^ (12 - n - 1) * 2 ^ 1 * 2 ^ n))
      by (change (2 ^ 1) with 2; ring).
    rewrite <- !Z.pow_add_r by lia. replace (12 - n - 1 + 1 + n) with 12 by lia.
    change (2 ^ 12) with 4096. lia.
Qed.

Lemma lor_low p c : p mod 4096 = 0 -> 0 <= c < 4096 -> Z.lor p c = p + c.
Proof.
  intros A B.
  assert (L : Z.land p c = 0).
  { apply Z.bits_inj'. intros n Hn. rewrite Z.land_spec, Z.bits_0.
    destruct (Z.ltb_spec n 12).
    - rewrite (testbit_low p n) by lia. reflexivity.
    - rewrite (Z.bits_above_log2 c n); [apply andb_false_r|lia|].
      destruct (Z.eq_dec c 0) as [ -> |]; [cbn; lia|].
      apply Z.log2_lt_pow2; [lia|]. apply Z.lt_le_trans with (2 ^ 12); [change (2 ^ 12) with 4096; lia|].
      apply Z.pow_le_mono_r; lia. }
  rewrite Z.add_nocarry_lxor by exact L. symmetry. apply Z.bits_inj'. intros n Hn.
  rewrite Z.lor_spec, Z.lxor_spec.
  assert (E : Z.testbit (Z.land p c) n = false) by (rewrite L; apply Z.bits_0).
  rewrite Z.land_spec in E. destruct (Z.testbit p n), (Z.testbit c n); cbn in *; congruence.
Qed.

Lemma bit_add p c n : p mod 4096 = 0 -> 0 <= c < 4096 -> 0 <= n < 12 ->
  Z.testbit (p + c) n = Z.testbit c n.
Proof.
  intros A B C. rewrite <- lor_low by assumption. rewrite Z.lor_spec, testbit_low by assumption.
  reflexivity.
Qed.

(** an entry for the page at [p] with flags [c] *)
Lemma page_entry p c n : 0 <= p < 2 ^ 52 -> 12 <= n <= 52 -> p mod 2 ^ n = 0 -> 0 <= c < 4096 ->
  page n (p + c) = p.
Proof.
  intros B N A C. unfold page.
  assert (P : 4096 * 2 ^ (n - 12) = 2 ^ n)
    by (change 4096 with (2 ^ 12); rewrite <- Z.pow_add_r by lia; f_equal; lia).
  assert (Q : 2 ^ n * 2 ^ (52 - n) = 2 ^ 52)
    by (rewrite <- Z.pow_add_r by lia; f_equal; lia).
  assert (0 < 2 ^ (n - 12)) by (apply Z.pow_pos_nonneg; lia).
  assert (0 < 2 ^ (52 - n)) by (apply Z.pow_pos_nonneg; lia).
  set (w := 2 ^ n) in *. set (u := 2 ^ (n - 12)) in *. set (v := 2 ^ (52 - n)) in *.
  change (2 ^ 52) with 4503599627370496 in *.
  assert (W : 4096 <= w) by nia.
  assert (Hp : p = w * (p / w)) by (pose proof (Z_div_mod_eq_full p w); lia).
  assert (p / w < v) by (apply Z.div_lt_upper_bound; lia).
  rewrite Z.mod_small by nia.
  replace ((p + c) / w) with (p / w); [lia|].
  apply Z.div_unique with c; lia.
Qed.

Lemma flags3 p : p mod 4096 = 0 ->
  present (p + 3) = true /\ writable (p + 3) = true /\ large (p + 3) = false.
Proof.
  intro A. unfold present, writable, large. rewrite !bit_add by lia. repeat split.
Qed.

Lemma flags131 p : p mod 4096 = 0 ->
  present (p + 131) = true /\ writable (p + 131) = true /\ large (p + 131) = true.
Proof.
  intro A. unfold present, writable, large. rewrite !bit_add by lia. repeat split.
Qed.

(** ** Entries *)
Lemma setup_entry_val m e p : m e = 0 -> 0 <= p < 2 ^ 64 -> p mod 4096 = 0 ->
  forall a, setup_entry m e p a = if a =? e then p + 3 else m a.
Proof.
  intros Z0 B A a. unfold setup_entry, set_rw, set_present, set_pfn, upd.
  rewrite Z.eqb_refl. rewrite Z0. destruct (a =? e); [|reflexivity].
  rewrite mask_id by assumption. rewrite Z.lor_0_l.
  rewrite (lor_low p 1) by lia.
  assert (E : Z.lor (p + 1) 2 = p + 3).
  { rewrite <- (lor_low p 1) by lia. rewrite <- Z.lor_assoc. change (Z.lor 1 2) with 3.
    apply lor_low; lia. }
  exact E.
Qed.

Lemma leaf_val m e p : m e = 0 -> 0 <= p < 2 ^ 64 -> p mod 4096 = 0 ->
  forall a, set_ps (setup_entry m e p) e a = if a =? e then p + 131 else m a.
Proof.
  intros Z0 B A a. unfold set_ps, upd. rewrite !(setup_entry_val m e p Z0 B A).
  rewrite Z.eqb_refl. destruct (a =? e) eqn:E; [|reflexivity].
  rewrite <- (lor_low p 3) by lia. rewrite <- Z.lor_assoc. change (Z.lor 3 128) with 131.
  apply lor_low; lia.
Qed.

Lemma index_bound k va : 0 <= index k va < 512.
Proof. unfold index. apply Z.mod_pos_bound. lia. Qed.

Lemma get_entry_ptr_slot k va t : (k < 4)%nat ->
  get_entry_ptr va t (4 - Z.of_nat k) = slot k t va.
Proof.
  intro K. unfold get_entry_ptr, slot, index. f_equal. f_equal.
  change 511 with (Z.ones 9). rewrite Z.land_ones by lia. change (2 ^ 9) with 512. f_equal.
  rewrite Z.shiftr_div_pow2 by lia. f_equal. f_equal. lia.
Qed.

(** ** Prefixes *)
Lemma prefix_step k va : (k < 4)%nat -> prefix (S k) va = 512 * prefix k va + index k va.
Proof.
  intro K. unfold prefix, index.
  replace (48 - 9 * Z.of_nat (S k)) with (39 - 9 * Z.of_nat k) by lia.
  replace (48 - 9 * Z.of_nat k) with (39 - 9 * Z.of_nat k + 9) by lia.
  replace (9 * Z.of_nat (S k)) with (9 + 9 * Z.of_nat k) by lia.
  set (q := 39 - 9 * Z.of_nat k). assert (0 <= q) by lia.
  rewrite (Z.pow_add_r 2 q 9), (Z.pow_add_r 2 9 (9 * Z.of_nat k)) by lia. change (2 ^ 9) with 512.
  rewrite <- Z.div_div by (try apply Z.pow_nonzero; lia).
  rewrite Z.rem_mul_r by (try apply Z.pow_nonzero; try apply Z.pow_pos_nonneg; lia).
  lia.
Qed.

Lemma prefix_bound k va : (k <= 5)%nat -> 0 <= prefix k va < 2 ^ (9 * Z.of_nat k).
Proof. intros. unfold prefix. apply Z.mod_pos_bound. apply Z.pow_pos_nonneg; lia. Qed.

Lemma prefix_split k va va' : (k < 4)%nat ->
  prefix (S k) va = prefix (S k) va' -> prefix k va = prefix k va' /\ index k va = index k va'.
Proof.
  intros K E. rewrite !prefix_step in E by exact K.
  pose proof (index_bound k va). pose proof (index_bound k va'). lia.
Qed.

Lemma prefix_mono j k va va' : (j <= k)%nat -> (k <= 4)%nat ->
  prefix k va = prefix k va' -> prefix j va = prefix j va'.
Proof.
  intro L. induction L as [|k L IH]; [auto|].
  intros K E. apply IH; [lia|]. apply (prefix_split k); [lia|exact E].
Qed.

Lemma table_prefix m r k va va' : (k <= 4)%nat ->
  prefix k va = prefix k va' -> table m r k va = table m r k va'.
Proof.
  induction k as [|k IH]; intros K E; [reflexivity|].
  destruct (prefix_split k va va') as [P I]; [lia|exact E|].
  cbn [table]. rewrite IH by (lia || assumption). destruct (table m r k va') as [t|]; [|reflexivity].
  unfold slot. rewrite I. reflexivity.
Qed.

(** ** The entry consulted at each step *)
Definition entry (m : memory) (r : Z) (k : nat) (va : Z) : option Z :=
  match table m r k va with Some t => Some (m (slot k t va)) | None => None end.

Definition pres (o : option Z) : bool := match o with Some e => present e | None => false end.

Lemma translate_entries m r va : translate m r va =
  match entry m r 0 va with
  | None => None
  | Some e4 => if negb (present e4) then None else
    match entry m r 1 va with
    | None => None
    | Some e3 => if negb (present e3) then None else
      if large e3 then Some (page 30 e3 + va mod 2 ^ 30, writable e4 && writable e3) else
      match entry m r 2 va with
      | None => None
      | Some e2 => if negb (present e2) then None else
        if large e2 then
          Some (page 21 e2 + va mod 2 ^ 21, writable e4 && writable e3 && writable e2) else
        match entry m r 3 va with
        | None => None
        | Some e1 => if negb (present e1) then None else
          Some (page 12 e1 + va mod 2 ^ 12,
                writable e4 && writable e3 && writable e2 && writable e1)
        end
      end
    end
  end.
Proof.
  unfold translate, entry. cbn [table].
  set (e4 := m (slot 0 r va)). destruct (present e4); cbn [negb andb]; [|reflexivity].
  replace (large e4 && (1 <=? 0)%nat) with false by (destruct (large e4); reflexivity). cbn [negb].
  set (e3 := m (slot 1 (page 12 e4) va)). destruct (present e3); cbn [negb andb]; [|reflexivity].
  change (1 <=? 1)%nat with true. rewrite andb_true_r.
  destruct (large e3); cbn [negb]; [reflexivity|].
  set (e2 := m (slot 2 (page 12 e3) va)). destruct (present e2); cbn [negb andb]; [|reflexivity].
  change (1 <=? 2)%nat with true. rewrite andb_true_r.
  destruct (large e2); cbn [negb]; reflexivity.
Qed.

Lemma entry_prefix m r k va va' : (k < 4)%nat -> prefix (S k) va = prefix (S k) va' ->
  entry m r k va = entry m r k va'.
Proof.
  intros K E. destruct (prefix_split k va va' K E) as [P I]. unfold entry.
  rewrite (table_prefix m r k va va') by (lia || assumption). unfold slot. rewrite I. reflexivity.
Qed.

Lemma translate_ext m m' r va va' :
  va mod 2 ^ 30 = va' mod 2 ^ 30 ->
  (forall k, (k < 4)%nat -> entry m r k va = entry m' r k va') ->
  translate m r va = translate m' r va'.
Proof.
  intros M H. rewrite !translate_entries. rewrite !H by lia.
  assert (M1 : va mod 2 ^ 21 = va' mod 2 ^ 21).
  { change (2 ^ 30) with (2 ^ 21 * 512) in M. change (2 ^ 21) with 2097152 in *. lia. }
  assert (M2 : va mod 2 ^ 12 = va' mod 2 ^ 12).
  { change (2 ^ 21) with (2 ^ 12 * 512) in M1. change (2 ^ 12) with 4096 in *. lia. }
  rewrite M, M1, M2. reflexivity.
Qed.
