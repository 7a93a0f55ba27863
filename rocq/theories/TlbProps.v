(** C90: translations on PowerPC. *)
From Verif Require Import Base TlbModel TlbSpec.

Lemma lor_page p c : 0 <= c < 4096 -> 0 <= p < 2 ^ 32 -> Z.lor (Z.land p 0xFFFFF000) c = p / 4096 * 4096 + c.
Proof.
  intros C P.
  assert (L : Z.land p 0xFFFFF000 = p / 4096 * 4096).
  { change 4096 with (2 ^ 12). rewrite <- Z.shiftr_div_pow2, <- Z.shiftl_mul_pow2 by lia.
    rewrite <- Z.ldiff_ones_r by lia. apply Z.bits_inj'. intros n N.
    rewrite Z.land_spec, Z.ldiff_spec. rewrite Z.testbit_ones_nonneg by lia.
    destruct (Z_lt_dec n 32) as [Lt|Ge].
    - f_equal. assert (X : forallb (fun k => Bool.eqb (Z.testbit 0xFFFFF000 (Z.of_nat k)) (negb (Z.of_nat k <? 12))) (seq 0 32) = true) by reflexivity.
      rewrite forallb_forall in X. specialize (X (Z.to_nat n)). rewrite Z2Nat.id in X by lia.
      apply eqb_prop, X, in_seq. lia.
    - assert (Z.testbit p n = false) as ->; [|reflexivity].
      destruct (Z.eq_dec p 0) as [->|NZ]; [apply Z.testbit_0_l|].
      apply Z.bits_above_log2; [lia|]. apply Z.log2_lt_pow2; [lia|].
      apply Z.lt_le_trans with (2 ^ 32); [lia|apply Z.pow_le_mono_r; lia]. }
  rewrite L. assert (D : Z.land (p / 4096 * 4096) c = 0); [|now rewrite <- Z.lxor_lor, <- Z.add_nocarry_lxor by exact D].
  apply Z.bits_inj'. intros n N. rewrite Z.land_spec, Z.bits_0.
  destruct (Z_lt_dec n 12) as [Lt|Ge].
  - change 4096 with (2 ^ 12). rewrite Z.mul_pow2_bits_low by lia. reflexivity.
  - assert (Z.testbit c n = false) as ->; [|apply andb_false_r].
    destruct (Z.eq_dec c 0) as [->|NZ]; [apply Z.testbit_0_l|].
    apply Z.bits_above_log2; [lia|]. apply Z.log2_lt_pow2; [lia|].
    apply Z.lt_le_trans with (2 ^ 12); [lia|apply Z.pow_le_mono_r; lia].
Qed.

Lemma bits_page p c : 0 <= c < 4096 -> 0 <= p < 2 ^ 32 ->
  bits (p / 4096 * 4096 + c) 12 20 = p / 4096.
Proof.
  intros C P. unfold bits. change (2 ^ 12) with 4096. rewrite Z.div_add_l, (Z.div_small c), Z.add_0_r by lia.
  apply Z.mod_small. split; [apply Z.div_pos; lia|apply Z.div_lt_upper_bound; lia].
Qed.

Lemma bits_low p c n : 0 <= n <= 12 -> 0 <= c < 2 ^ n -> bits (p / 4096 * 4096 + c) 0 n = c.
Proof.
  intros N C. unfold bits. change (2 ^ 0) with 1. rewrite Z.div_1_r.
  replace (p / 4096 * 4096) with (p / 4096 * 2 ^ (12 - n) * 2 ^ n)
    by (rewrite <- Z.mul_assoc, <- Z.pow_add_r by lia; replace (12 - n + n) with 12 by ring; reflexivity).
  rewrite Z.add_comm, Z.mod_add by lia. apply Z.mod_small, C.
Qed.

Lemma range_list x n : 0 <= x < Z.of_nat n -> In x (map Z.of_nat (seq 0 n)).
Proof. intros R. apply in_map_iff. exists (Z.to_nat x). split; [lia|]. apply in_seq. lia. Qed.

(** The second register, for every value of its fields. *)
Lemma mas1_fields e ip ts n : 0 <= ip < 2 -> 0 <= ts < 2 -> 0 <= n < (if e : bool then 32 else 16) ->
  let r := BOOKE_MAS1 e 1 ip 0 ts n in
  bits r 31 1 = 1 /\ bits r 30 1 = ip /\ bits r 16 14 = 0 /\ bits r 12 1 = ts /\
  (if e then bits r 7 5 else bits r 8 4) = n.
Proof.
  intros IP TS N r.
  assert (X : forallb (fun ip => forallb (fun ts => forallb (fun n =>
     let r := BOOKE_MAS1 e 1 ip 0 ts n in
     (bits r 31 1 =? 1) && (bits r 30 1 =? ip) && (bits r 16 14 =? 0) && (bits r 12 1 =? ts) &&
     ((if e then bits r 7 5 else bits r 8 4) =? n))
       (map Z.of_nat (seq 0 (if e then 32 else 16)))) (map Z.of_nat (seq 0 2))) (map Z.of_nat (seq 0 2)) = true)
    by (destruct e; vm_compute; reflexivity).
  rewrite forallb_forall in X. specialize (X ip (range_list ip 2 IP)).
  rewrite forallb_forall in X. specialize (X ts (range_list ts 2 TS)).
  rewrite forallb_forall in X. specialize (X n (range_list n (if e then 32 else 16)%nat ltac:(destruct e; lia))).
  cbn zeta in X. fold r in X. rewrite !andb_true_iff, !Z.eqb_eq in X. tauto.
Qed.

Lemma mas0_fields t k : 0 <= t < 4 -> 0 <= k < 256 ->
  bits (BOOKE_MAS0 t k 0) 28 2 = t /\ bits (BOOKE_MAS0 t k 0) 16 12 = k.
Proof.
  intros T K.
  assert (X : forallb (fun t => forallb (fun k => (bits (BOOKE_MAS0 t k 0) 28 2 =? t) && (bits (BOOKE_MAS0 t k 0) 16 12 =? k))
     (map Z.of_nat (seq 0 256))) (map Z.of_nat (seq 0 4)) = true) by (vm_compute; reflexivity).
  rewrite forallb_forall in X. specialize (X t (range_list t 4 T)).
  rewrite forallb_forall in X. specialize (X k (range_list k 256 K)).
  rewrite andb_true_iff, !Z.eqb_eq in X. exact X.
Qed.

(** C90: the entry asked for is written, and it translates exactly the addresses of the page asked for,
    to the physical page asked for, with the permissions and attributes asked for. *)
Theorem C90_mapping e tlb esel epn rpn urpn perms wimge ts tsize iprot :
  0 <= tlb < 4 -> 0 <= esel < 256 -> 0 <= epn < 2 ^ 32 -> 0 <= rpn < 2 ^ 32 -> 0 <= urpn ->
  0 <= perms < 64 -> 0 <= wimge < 32 -> 0 <= ts < 2 -> size_code e tsize -> 0 <= iprot < 2 ->
  epn mod size_of e tsize = 0 -> rpn mod size_of e tsize = 0 ->
  let m := set_tlb e tlb esel epn rpn urpn perms wimge ts tsize iprot in
  selected m = (tlb, esel) /\ permissions m = perms /\ attributes m = wimge /\
  space m = ts /\ process m = 0 /\ protected m = (iprot =? 1) /\
  forall ea, 0 <= ea < 2 ^ 32 ->
    translates e m ea =
      if (epn <=? ea) && (ea <? epn + size_of e tsize) then Some (urpn * 2 ^ 32 + rpn + (ea - epn)) else None.
Proof.
  intros T K EP RP U PM W TS SC IP AE AR m.
  destruct (mas0_fields tlb esel T K) as (F1 & F2).
  assert (NB : 0 <= tsize < (if e then 32 else 16)) by (destruct e; cbn in *; lia).
  destruct (mas1_fields e iprot ts tsize IP TS NB) as (V & PR & TD & SP & TSZ). cbn zeta in *.
  assert (M2 : mas2 m = epn / 4096 * 4096 + wimge) by (apply lor_page; lia).
  assert (M3 : mas3 m = rpn / 4096 * 4096 + perms).
  { change (mas3 m) with (Z.lor (Z.lor (Z.land rpn 0xFFFFF000) 0) perms). rewrite Z.lor_0_r. apply lor_page; lia. }
  split. { unfold selected. cbn [m set_tlb mas0]. now rewrite F1, F2. }
  split. { unfold permissions. rewrite M3. apply bits_low; [lia|]. change (2 ^ 6) with 64. exact PM. }
  split. { unfold attributes. rewrite M2. apply bits_low; [lia|]. change (2 ^ 5) with 32. exact W. }
  split. { exact SP. } split. { exact TD. }
  split. { unfold protected. cbn [m set_tlb mas1]. now rewrite PR. }
  intros ea EA. unfold translates.
  assert (PS : page_size e m = size_of e tsize).
  { unfold page_size, size_of. cbn [m set_tlb mas1]. destruct e; now rewrite TSZ. }
  rewrite PS. assert (valid m = true) as -> by (unfold valid; cbn [m set_tlb mas1]; now rewrite V).
  rewrite M2, M3, !bits_page by lia. change (mas7 m) with urpn.
  assert (S1 : exists a, 0 <= a <= 20 /\ size_of e tsize = 2 ^ a * 4096 /\ 2 ^ 32 = 2 ^ (20 - a) * (2 ^ a * 4096)).
  { destruct e; cbn [size_of size_code] in *.
    - exists (tsize - 2). split; [lia|]. change 4096 with (2 ^ 12). rewrite <- !Z.pow_add_r by lia. split; f_equal; lia.
    - exists (2 * tsize - 2). split; [lia|]. change 4096 with (2 ^ 12). rewrite <- !Z.pow_add_r by lia. split; f_equal; lia. }
  destruct S1 as (a & RA & SA & BIG).
  assert (P2 : 0 < 2 ^ a) by (apply Z.pow_pos_nonneg; lia).
  set (s := size_of e tsize) in *. clearbody s. set (t := 2 ^ (20 - a)) in BIG. clearbody t.
  rewrite <- SA in BIG. assert (SP0 : 0 < s) by lia.
  apply Z.mod_divide in AE; [|lia]. apply Z.mod_divide in AR; [|lia].
  destruct AE as (x & ->), AR as (y & ->).
  assert (PG : forall z, z * s / 4096 * 4096 = z * s).
  { intros z. rewrite SA, Z.mul_assoc, Z.div_mul by lia. reflexivity. }
  rewrite !PG, Z.div_mul by lia. cbn [andb].
  replace (urpn * 2 ^ 32 + y * s) with ((urpn * t + y) * s) by (rewrite BIG; ring).
  rewrite Z.div_mul by lia.
  pose proof (Z.div_mod ea s ltac:(lia)) as D. pose proof (Z.mod_pos_bound ea s SP0) as B.
  destruct (Z.eqb_spec (ea / s) x) as [E|NE].
  - assert ((x * s <=? ea) = true) as -> by (apply Z.leb_le; nia).
    assert ((ea <? x * s + s) = true) as -> by (apply Z.ltb_lt; nia). cbn [andb].
    apply f_equal. rewrite E in D. lia.
  - destruct (Z.leb_spec (x * s) ea), (Z.ltb_spec ea (x * s + s)); cbn [andb]; try reflexivity.
    exfalso. apply NE. symmetry. apply Z.div_unique with (r := ea - x * s); [left|]; lia.
Qed.

(** 256 MB of flash at 0xE0000000 with the high bits 0xF, cache-inhibited and guarded. *)
Example C90_ex :
  translates false (set_tlb false 1 1 0xE0000000 0xE0000000 0xF 21 10 0 9 1) 0xE1234567 = Some 0xFE1234567 /\
  translates true (set_tlb true 1 1 0xE0000000 0xE0000000 0xF 21 10 0 18 1) 0xF0000000 = None /\
  size_of false 9 = 256 * 1024 * 1024 /\ size_of true 18 = 256 * 1024 * 1024.
Proof. vm_compute. repeat split. Qed.

(** A disabled entry translates nothing. *)
Theorem C90_disabled e esel : 0 <= esel < 256 ->
  selected (disable_tlb1 esel) = (1, esel) /\ forall ea, translates e (disable_tlb1 esel) ea = None.
Proof.
  intros K. split; [|reflexivity]. unfold selected. cbn [disable_tlb1 mas0].
  destruct (mas0_fields 1 esel ltac:(lia) K) as (-> & ->). reflexivity.
Qed.

(** C90 is false of pages that are not on a multiple of their size: the addresses translated begin below the
    address asked for, and some asked for are not translated. *)
Theorem C90_unaligned_refuted :
  let m := set_tlb false 1 3 0x80100000 0x80100000 0 21 0 0 6 1 in
  size_of false 6 = 4 * 1024 * 1024 /\
  translates false m 0x80000000 = Some 0x80000000 /\ translates false m 0x80400000 = None.
Proof. vm_compute. repeat split. Qed.

Print Assumptions C90_mapping.
Print Assumptions C90_disabled.
Print Assumptions C90_unaligned_refuted.
