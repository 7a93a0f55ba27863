(** Lemmas for PciProps: configuration access. *)
From Verif Require Import Base BaseLemmas PciSpec PciModel.
Local Ltac Zify.zify_post_hook ::= idtac.

(** * Bits *)

Lemma testbit_field : forall v p n i, 0 <= p -> 0 <= n -> 0 <= i ->
  Z.testbit (field v p n) i = (i <? n) && Z.testbit v (p + i).
Proof.
  intros v p n i P N I. unfold field. rewrite Z.land_spec, Z.shiftr_spec by lia.
  rewrite (Z.add_comm i p). destruct (Z.ltb_spec i n) as [L|L].
  - rewrite Z.ones_spec_low by lia. rewrite andb_true_r. reflexivity.
  - rewrite Z.ones_spec_high by lia. rewrite andb_false_r. reflexivity.
Qed.

Lemma field_div : forall v p n, 0 <= p -> 0 <= n -> field v p n = v / 2 ^ p mod 2 ^ n.
Proof. intros. unfold field. rewrite Z.land_ones, Z.shiftr_div_pow2 by lia. reflexivity. Qed.

Lemma field_bound : forall v p n, 0 <= p -> 0 <= n -> 0 <= field v p n < 2 ^ n.
Proof. intros. rewrite field_div by lia. apply Z.mod_pos_bound. apply Z.pow_pos_nonneg; lia. Qed.

Lemma testbit_high : forall v n i, 0 <= n -> 0 <= v < 2 ^ n -> n <= i -> Z.testbit v i = false.
Proof.
  intros v n i N V I. destruct (Z.eq_dec v 0) as [-> |]; [apply Z.bits_0|].
  apply Z.bits_above_log2; [lia|]. apply Z.log2_lt_pow2; [lia|].
  apply Z.lt_le_trans with (2 ^ n); [lia|apply Z.pow_le_mono_r; lia].
Qed.

(** A mask of the bits from [a] to [b - 1]. *)
Lemma testbit_range : forall a b i, 0 <= a <= b -> 0 <= i -> Z.testbit (2 ^ b - 2 ^ a) i = (a <=? i) && (i <? b).
Proof.
  intros a b i AB I. replace (2 ^ b - 2 ^ a) with (Z.shiftl (Z.ones (b - a)) a).
  2:{ rewrite Z.shiftl_mul_pow2 by lia. rewrite Z.ones_equiv. rewrite <- Z.sub_1_r. rewrite Z.mul_sub_distr_r, <- Z.pow_add_r by lia.
      replace (b - a + a) with b by lia. lia. }
  rewrite Z.shiftl_spec by lia. destruct (Z.leb_spec a i) as [L|L]; cbn [andb].
  - destruct (Z.ltb_spec i b) as [L2|L2].
    + apply Z.ones_spec_low. lia.
    + apply Z.ones_spec_high. lia.
  - apply Z.testbit_neg_r. lia.
Qed.

Lemma testbit_merge : forall k o v i, 0 <= i -> Z.testbit (merge k o v) i = if Z.testbit k i then Z.testbit v i else Z.testbit o i.
Proof.
  intros k o v i I. unfold merge. rewrite Z.lor_spec, Z.ldiff_spec, Z.land_spec.
  destruct (Z.testbit k i); cbn [negb]; rewrite ?andb_true_r, ?andb_false_r, ?orb_false_r; reflexivity.
Qed.

Lemma bits_small : forall v n, 0 <= n -> 0 <= v -> (forall i, n <= i -> Z.testbit v i = false) -> v < 2 ^ n.
Proof.
  intros v n N V H. destruct (Z.lt_ge_cases v (2 ^ n)) as [L|L]; [exact L|exfalso].
  assert (P : 0 < 2 ^ n) by (apply Z.pow_pos_nonneg; lia).
  assert (X : n <= Z.log2 v) by (apply (proj1 (Z.log2_le_pow2 v n ltac:(lia))); exact L).
  specialize (H _ X). rewrite Z.bit_log2 in H by lia. discriminate.
Qed.

Lemma merge_bound : forall k o v n, 0 <= n -> 0 <= o < 2 ^ n -> 0 <= k < 2 ^ n -> 0 <= v -> 0 <= merge k o v < 2 ^ n.
Proof.
  intros k o v n N O K V.
  assert (NN : 0 <= merge k o v).
  { unfold merge. apply Z.lor_nonneg. split; [apply Z.ldiff_nonneg; left; lia|apply Z.land_nonneg; left; lia]. }
  split; [exact NN|]. apply bits_small; [lia|exact NN|]. intros i I. rewrite testbit_merge by lia.
  rewrite (testbit_high k n i) by lia. apply (testbit_high o n i); lia.
Qed.

Lemma merge_0 : forall o v, merge 0 o v = o.
Proof. intros. unfold merge. rewrite Z.ldiff_0_r, Z.land_0_r, Z.lor_0_r. reflexivity. Qed.

Lemma merge_same : forall k o, merge k o o = o.
Proof. intros. apply Z.bits_inj'. intros i I. rewrite testbit_merge by lia. destruct (Z.testbit k i); reflexivity. Qed.

(** [lor] of a multiple of [2^n] and something below. *)
Lemma lor_add : forall a b n, 0 <= n -> 0 <= b < 2 ^ n -> a mod 2 ^ n = 0 -> Z.lor a b = a + b.
Proof.
  intros a b n N B A. rewrite <- Z.lxor_lor, <- Z.add_nocarry_lxor; try reflexivity.
  all: apply Z.bits_inj'; intros i I; rewrite Z.land_spec, Z.bits_0; destruct (Z.ltb_spec i n) as [L|L].
  1,3: replace a with (a / 2 ^ n * 2 ^ n) by (pose proof (Z.div_mod a (2 ^ n) ltac:(pose proof (Z.pow_pos_nonneg 2 n); lia)); lia);
     rewrite <- Z.shiftl_mul_pow2, Z.shiftl_spec, Z.testbit_neg_r by lia; reflexivity.
  all: rewrite (testbit_high b n i) by lia; apply andb_false_r.
Qed.

(** A register with contiguous writable bits. *)
Lemma merge_range : forall a b o v, 0 <= a <= b -> 0 <= v < 2 ^ b -> 0 <= o ->
  merge (2 ^ b - 2 ^ a) o v = o / 2 ^ b * 2 ^ b + v / 2 ^ a * 2 ^ a + o mod 2 ^ a.
Proof.
  intros a b o v AB V O.
  assert (PA : 0 < 2 ^ a) by (apply Z.pow_pos_nonneg; lia). assert (PB : 0 < 2 ^ b) by (apply Z.pow_pos_nonneg; lia).
  assert (E : o / 2 ^ b * 2 ^ b + v / 2 ^ a * 2 ^ a + o mod 2 ^ a =
              Z.lor (Z.shiftl (Z.shiftr o b) b) (Z.lor (Z.shiftl (Z.shiftr v a) a) (Z.land o (Z.ones a)))).
  { rewrite !Z.shiftl_mul_pow2, !Z.shiftr_div_pow2, Z.land_ones by lia.
    pose proof (Z.mod_pos_bound o (2 ^ a) PA) as OM.
    rewrite (lor_add (v / 2 ^ a * 2 ^ a) (o mod 2 ^ a) a) by first [lia | apply Z.mod_mul; lia].
    assert (Q : 0 <= v / 2 ^ a * 2 ^ a + o mod 2 ^ a < 2 ^ b).
    { pose proof (Z.div_mod v (2 ^ a) ltac:(lia)) as DV. pose proof (Z.mod_pos_bound v (2 ^ a) PA) as VM.
      assert (V0 : 0 <= v / 2 ^ a) by (apply Z.div_pos; lia).
      replace (2 ^ b) with (2 ^ (b - a) * 2 ^ a) in * by (rewrite <- Z.pow_add_r by lia; f_equal; lia).
      assert (V1 : v / 2 ^ a < 2 ^ (b - a)) by (apply Z.div_lt_upper_bound; [lia|rewrite Z.mul_comm; lia]).
      assert (V2 : (v / 2 ^ a + 1) * 2 ^ a <= 2 ^ (b - a) * 2 ^ a) by (apply Z.mul_le_mono_nonneg_r; lia).
      rewrite Z.mul_add_distr_r in V2. split; [apply Z.add_nonneg_nonneg; [apply Z.mul_nonneg_nonneg|]; lia|lia]. }
    rewrite (lor_add (o / 2 ^ b * 2 ^ b) _ b) by first [lia | apply Z.mod_mul; lia]. lia. }
  rewrite E. apply Z.bits_inj'. intros i I. rewrite testbit_merge, testbit_range, !Z.lor_spec, !Z.shiftl_spec, Z.land_spec by lia.
  destruct (Z.leb_spec a i) as [LA|LA]; destruct (Z.ltb_spec i b) as [LB|LB]; cbn [andb]; try lia.
  - rewrite (Z.testbit_neg_r _ (i - b)) by lia. rewrite Z.ones_spec_high by lia. rewrite andb_false_r, orb_false_r. cbn [orb].
    rewrite Z.shiftr_spec by lia. f_equal. lia.
  - rewrite (Z.shiftr_spec o), (Z.shiftr_spec v) by lia. replace (i - b + b) with i by lia. replace (i - a + a) with i by lia.
    rewrite (testbit_high v b i) by lia. rewrite Z.ones_spec_high by lia. rewrite andb_false_r, !orb_false_r. reflexivity.
  - rewrite (Z.testbit_neg_r _ (i - b)), (Z.testbit_neg_r _ (i - a)) by lia. rewrite Z.ones_spec_low by lia. rewrite andb_true_r. reflexivity.
Qed.

(** * Access *)

Lemma land_low : forall v n, 0 <= n -> 0 <= v < 2 ^ n -> Z.land v (2 ^ n - 1) = v.
Proof. intros v n N V. replace (2 ^ n - 1) with (Z.ones n) by (rewrite Z.ones_equiv; lia). rewrite Z.land_ones by lia. apply Z.mod_small. lia. Qed.

Lemma u32_id : forall v, 0 <= v < 2 ^ 32 -> u32 v = v.
Proof. intros v V. apply Z.mod_small. exact V. Qed.

Lemma mod_0_mul : forall a n k, 0 <= k <= n -> a mod 2 ^ n = 0 -> a mod 2 ^ k = 0.
Proof.
  intros a n k K A. apply Z.mod_divide; [pose proof (Z.pow_pos_nonneg 2 k); lia|].
  apply Z.divide_trans with (2 ^ n); [exists (2 ^ (n - k)); rewrite <- Z.pow_add_r by lia; f_equal; lia|].
  apply Z.mod_divide; [pose proof (Z.pow_pos_nonneg 2 n); lia|exact A].
Qed.

Lemma ecam_address_eq : forall base b d f off, 0 <= base -> base mod 2 ^ 28 = 0 -> base + 2 ^ 28 <= 2 ^ 32 -> slot_ok b d f off ->
  ecam_address base b d f off = base + b * 2 ^ 20 + d * 2 ^ 15 + f * 2 ^ 12 + off.
Proof.
  intros base b d f off B0 B1 B2 (HB & HD & HF & HO). unfold ecam_address.
  change 255 with (2 ^ 8 - 1). change 31 with (2 ^ 5 - 1). change 7 with (2 ^ 3 - 1). change 4095 with (2 ^ 12 - 1).
  rewrite !land_low by (change (2 ^ 8) with 256; change (2 ^ 5) with 32; change (2 ^ 3) with 8; change (2 ^ 12) with 4096; lia).
  rewrite !Z.shiftl_mul_pow2 by lia.
  assert (M20 : (base + b * 2 ^ 20) mod 2 ^ 20 = 0).
  { rewrite Z.mod_add by lia. apply (mod_0_mul base 28); [lia|exact B1]. }
  rewrite (lor_add _ (d * 2 ^ 15) 20) by (change (2 ^ 20) with 1048576 in *; change (2 ^ 15) with 32768; lia || exact M20).
  assert (M15 : (base + b * 2 ^ 20 + d * 2 ^ 15) mod 2 ^ 15 = 0).
  { rewrite Z.mod_add by lia. apply (mod_0_mul _ 20); [lia|exact M20]. }
  rewrite (lor_add _ (f * 2 ^ 12) 15) by (change (2 ^ 15) with 32768 in *; change (2 ^ 12) with 4096; lia || exact M15).
  assert (M12 : (base + b * 2 ^ 20 + d * 2 ^ 15 + f * 2 ^ 12) mod 2 ^ 12 = 0).
  { rewrite Z.mod_add by lia. apply (mod_0_mul _ 15); [lia|exact M15]. }
  rewrite (lor_add _ off 12) by (change (2 ^ 12) with 4096 in *; lia || exact M12).
  apply u32_id. change (2 ^ 20) with 1048576 in *. change (2 ^ 15) with 32768 in *. change (2 ^ 12) with 4096 in *. change (2 ^ 28) with 268435456 in *. change (2 ^ 32) with 4294967296 in *. lia.
Qed.

Lemma div_unique_range : forall a q n, 0 < n -> q * n <= a < q * n + n -> a / n = q.
Proof. intros a q n N H. symmetry. apply (Z.div_unique a n q (a - q * n)); [left; lia|lia]. Qed.

Lemma ecam_decode : forall base b d f off, slot_ok b d f off ->
  let a := base + b * 2 ^ 20 + d * 2 ^ 15 + f * 2 ^ 12 + off in
  ecam_bus base a = b /\ ecam_dev base a = d /\ ecam_fun base a = f /\ ecam_reg base a = off / 4.
Proof.
  intros base b d f off (HB & HD & HF & HO) a. unfold ecam_bus, ecam_dev, ecam_fun, ecam_reg, a.
  replace (base + b * 2 ^ 20 + d * 2 ^ 15 + f * 2 ^ 12 + off - base) with (b * 1048576 + d * 32768 + f * 4096 + off)
    by (change (2 ^ 20) with 1048576; change (2 ^ 15) with 32768; change (2 ^ 12) with 4096; lia).
  change (2 ^ 20) with 1048576. change (2 ^ 15) with 32768. change (2 ^ 12) with 4096.
  split; [apply div_unique_range; lia|]. split; [|split].
  - rewrite (div_unique_range _ (b * 32 + d)) by lia. rewrite Z.add_comm, Z.mod_add by lia. apply Z.mod_small. lia.
  - rewrite (div_unique_range _ (b * 256 + d * 8 + f)) by lia. replace (b * 256 + d * 8 + f) with (f + (b * 32 + d) * 8) by lia. rewrite Z.mod_add by lia. apply Z.mod_small. lia.
  - replace (b * 1048576 + d * 32768 + f * 4096 + off) with (off + (b * 256 + d * 8 + f) * 4096) by lia. rewrite Z.mod_add by lia.
    rewrite (Z.mod_small off) by lia. reflexivity.
Qed.

(** Port addresses, in fields. *)
Lemma io_address_eq : forall b d f off, 0 <= b < 256 -> 0 <= d < 32 -> 0 <= f < 8 -> 0 <= off ->
  io_address b d f off = 2 ^ 31 + field off 8 4 * 2 ^ 24 + b * 2 ^ 16 + d * 2 ^ 11 + f * 2 ^ 8 + off mod 256.
Proof.
  intros b d f off HB HD HF HO. unfold io_address.
  pose proof (field_bound off 8 4 ltac:(lia) ltac:(lia)) as FB. change (2 ^ 4) with 16 in FB.
  assert (E1 : Z.land off 3840 = field off 8 4 * 2 ^ 8).
  { rewrite <- Z.shiftl_mul_pow2 by lia. apply Z.bits_inj'. intros i I. rewrite Z.land_spec, Z.shiftl_spec by lia.
    change 3840 with (2 ^ 12 - 2 ^ 8). rewrite testbit_range by lia. destruct (Z.leb_spec 8 i).
    - rewrite testbit_field by lia. replace (8 + (i - 8)) with i by lia.
      destruct (Z.ltb_spec i 12), (Z.ltb_spec (i - 8) 4); try lia; cbn [andb]; rewrite ?andb_true_r, ?andb_false_r; reflexivity.
    - rewrite (Z.testbit_neg_r _ (i - 8)) by lia. rewrite andb_false_r. reflexivity. }
  rewrite E1. change 255 with (Z.ones 8). rewrite (Z.land_ones off 8) by lia. change (2 ^ 8) with 256.
  pose proof (Z.mod_pos_bound off 256 ltac:(lia)) as OB.
  rewrite !Z.shiftl_mul_pow2 by lia. generalize dependent (field off 8 4). intros x FB E1. clear E1.
  generalize dependent (off mod 256). intros y OB.
  change (2 ^ 31) with 2147483648. change (2 ^ 24) with 16777216. change (2 ^ 16) with 65536. change (2 ^ 11) with 2048. change (2 ^ 8) with 256.
  (* order the fields by position *)
  assert (R : Z.lor (Z.lor (Z.lor (Z.lor (Z.lor 2147483648 (b * 65536)) (d * 2048)) (f * 256)) (x * 256 * 65536)) y
            = Z.lor (Z.lor (Z.lor (Z.lor (Z.lor 2147483648 (x * 256 * 65536)) (b * 65536)) (d * 2048)) (f * 256)) y).
  { f_equal. rewrite <- !Z.lor_assoc. f_equal. rewrite (Z.lor_comm (x * 256 * 65536)). rewrite <- !Z.lor_assoc. reflexivity. }
  rewrite R.
  rewrite (lor_add 2147483648 (x * 256 * 65536) 28) by (change (2 ^ 28) with 268435456; lia || reflexivity).
  rewrite (lor_add _ (b * 65536) 24) by (change (2 ^ 24) with 16777216; first [lia | replace (2147483648 + x * 256 * 65536) with (0 + (128 + x) * 16777216) by lia; rewrite Z.mod_add by lia; reflexivity]).
  rewrite (lor_add _ (d * 2048) 16) by (change (2 ^ 16) with 65536; first [lia | replace (2147483648 + x * 256 * 65536 + b * 65536) with (0 + (32768 + x * 256 + b) * 65536) by lia; rewrite Z.mod_add by lia; reflexivity]).
  rewrite (lor_add _ (f * 256) 11) by (change (2 ^ 11) with 2048; first [lia | replace (2147483648 + x * 256 * 65536 + b * 65536 + d * 2048) with (0 + (1048576 + x * 8192 + b * 32 + d) * 2048) by lia; rewrite Z.mod_add by lia; reflexivity]).
  rewrite (lor_add _ y 8) by (change (2 ^ 8) with 256; first [lia | replace (2147483648 + x * 256 * 65536 + b * 65536 + d * 2048 + f * 256) with (0 + (8388608 + x * 65536 + b * 256 + d * 8 + f) * 256) by lia; rewrite Z.mod_add by lia; reflexivity]).
  rewrite u32_id by (change (2 ^ 32) with 4294967296; lia). lia.
Qed.

Lemma io_decode : forall b d f x y, 0 <= b < 256 -> 0 <= d < 32 -> 0 <= f < 8 -> 0 <= x < 16 -> 0 <= y < 256 ->
  let a := 2 ^ 31 + x * 2 ^ 24 + b * 2 ^ 16 + d * 2 ^ 11 + f * 2 ^ 8 + y in
  Z.testbit a 31 = true /\ field a 16 8 = b /\ field a 11 5 = d /\ field a 8 3 = f /\ field a 2 6 = y / 4 /\ field a 24 4 = x.
Proof.
  intros b d f x y HB HD HF HX HY a.
  assert (E : a = 2147483648 + x * 16777216 + b * 65536 + d * 2048 + f * 256 + y) by (unfold a; change (2 ^ 31) with 2147483648; change (2 ^ 24) with 16777216; change (2 ^ 16) with 65536; change (2 ^ 11) with 2048; change (2 ^ 8) with 256; lia).
  rewrite E. clear a E. rewrite !field_div by lia.
  change (2 ^ 24) with 16777216. change (2 ^ 16) with 65536. change (2 ^ 11) with 2048. change (2 ^ 8) with 256. change (2 ^ 5) with 32. change (2 ^ 3) with 8. change (2 ^ 2) with 4. change (2 ^ 6) with 64. change (2 ^ 4) with 16.
  split.
  { rewrite Z.testbit_odd, Z.shiftr_div_pow2 by lia. change (2 ^ 31) with 2147483648. rewrite (div_unique_range _ 1) by lia. reflexivity. }
  split; [rewrite (div_unique_range _ (32768 + x * 256 + b)) by lia; replace (32768 + x * 256 + b) with (b + (128 + x) * 256) by lia; rewrite Z.mod_add by lia; apply Z.mod_small; lia|].
  split; [rewrite (div_unique_range _ (1048576 + x * 8192 + b * 32 + d)) by lia; replace (1048576 + x * 8192 + b * 32 + d) with (d + (32768 + x * 256 + b) * 32) by lia; rewrite Z.mod_add by lia; apply Z.mod_small; lia|].
  split; [rewrite (div_unique_range _ (8388608 + x * 65536 + b * 256 + d * 8 + f)) by lia; replace (8388608 + x * 65536 + b * 256 + d * 8 + f) with (f + (1048576 + x * 8192 + b * 32 + d) * 8) by lia; rewrite Z.mod_add by lia; apply Z.mod_small; lia|].
  pose proof (Z.div_mod y 4 ltac:(lia)) as DM. pose proof (Z.mod_pos_bound y 4 ltac:(lia)) as MB.
  split; [rewrite (div_unique_range _ (536870912 + x * 4194304 + b * 16384 + d * 512 + f * 64 + y / 4)) by lia; replace (536870912 + x * 4194304 + b * 16384 + d * 512 + f * 64 + y / 4) with (y / 4 + (8388608 + x * 65536 + b * 256 + d * 8 + f) * 64) by lia; rewrite Z.mod_add by lia; apply Z.mod_small; lia|].
  rewrite (div_unique_range _ (128 + x)) by lia. replace (128 + x) with (x + 8 * 16) by lia. rewrite Z.mod_add by lia. apply Z.mod_small. lia.
Qed.

Lemma land_not3 : forall a, 0 <= a < 2 ^ 32 -> Z.land a (not32 3) = a / 4 * 4.
Proof.
  intros a A. change (not32 3) with (2 ^ 32 - 2 ^ 2). change (a / 4 * 4) with (a / 2 ^ 2 * 2 ^ 2).
  rewrite <- Z.shiftl_mul_pow2, <- Z.shiftr_div_pow2 by lia. apply Z.bits_inj'. intros i I.
  rewrite Z.land_spec, testbit_range, Z.shiftl_spec by lia. destruct (Z.leb_spec 2 i).
  - rewrite Z.shiftr_spec by lia. replace (i - 2 + 2) with i by lia. cbn [andb]. destruct (Z.ltb_spec i 32); [apply andb_true_r|].
    rewrite (testbit_high a 32 i) by lia. reflexivity.
  - rewrite (Z.testbit_neg_r _ (i - 2)) by lia. apply andb_false_r.
Qed.

Lemma land_3 : forall a, Z.land a 3 = a mod 4.
Proof. intros. change 3 with (Z.ones 2). rewrite Z.land_ones by lia. reflexivity. Qed.

Lemma land_1 : forall a, Z.land a 1 = a mod 2.
Proof. intros. change 1 with (Z.ones 1). rewrite Z.land_ones by lia. reflexivity. Qed.

Lemma u8_id : forall v, 0 <= v < 256 -> u8 v = v.
Proof. intros v V. apply Z.mod_small. exact V. Qed.

Section Access.
Context (m : machine) (mc : mech) (OK : mech_ok mc).

Lemma ecam_mod4 : forall base b d f off, base mod 2 ^ 28 = 0 -> (base + b * 2 ^ 20 + d * 2 ^ 15 + f * 2 ^ 12 + off) mod 4 = off mod 4.
Proof.
  intros base b d f off B. pose proof (Z.div_mod base (2 ^ 28) ltac:(lia)) as D. rewrite B in D. rewrite D.
  replace (2 ^ 28 * (base / 2 ^ 28) + 0 + b * 2 ^ 20 + d * 2 ^ 15 + f * 2 ^ 12 + off) with
    (off + (2 ^ 26 * (base / 2 ^ 28) + b * 2 ^ 18 + d * 2 ^ 13 + f * 2 ^ 10) * 4) by (generalize (base / 2 ^ 28); intro; change (2 ^ 28) with 268435456; change (2 ^ 26) with 67108864; change (2 ^ 20) with 1048576; change (2 ^ 18) with 262144; change (2 ^ 15) with 32768; change (2 ^ 13) with 8192; change (2 ^ 12) with 4096; change (2 ^ 10) with 1024; lia).
  apply Z.mod_add. lia.
Qed.

Lemma field_small : forall off, 0 <= off < 256 -> field off 8 4 = 0.
Proof. intros. rewrite field_div by lia. change (2 ^ 8) with 256. rewrite Z.div_small by lia. reflexivity. Qed.

Lemma div4_bound : forall off, 0 <= off < 256 -> 0 <= off / 4 < 64.
Proof. intros. split; [apply Z.div_pos; lia|apply Z.div_lt_upper_bound; lia]. Qed.

Lemma port_read_eq : forall st b d f x y, 0 <= b < 256 -> 0 <= d < 32 -> 0 <= f < 8 -> 0 <= x < 16 -> 0 <= y < 256 ->
  port_read m st false (2 ^ 31 + x * 2 ^ 24 + b * 2 ^ 16 + d * 2 ^ 11 + f * 2 ^ 8 + y) = reg_read m st b d f (y / 4).
Proof.
  intros st b d f x y HB HD HF HX HY. destruct (io_decode b d f x y HB HD HF HX HY) as (T & E1 & E2 & E3 & E4 & _).
  unfold port_read, port_reg. rewrite T, E1, E2, E3, E4. rewrite Z.add_0_r. reflexivity.
Qed.

Lemma port_write_eq : forall st b d f x y v, 0 <= b < 256 -> 0 <= d < 32 -> 0 <= f < 8 -> 0 <= x < 16 -> 0 <= y < 256 ->
  port_write m st false (2 ^ 31 + x * 2 ^ 24 + b * 2 ^ 16 + d * 2 ^ 11 + f * 2 ^ 8 + y) v = reg_write m st b d f (y / 4) (2 ^ 32 - 1) v.
Proof.
  intros st b d f x y v HB HD HF HX HY. destruct (io_decode b d f x y HB HD HF HX HY) as (T & E1 & E2 & E3 & E4 & _).
  unfold port_write, port_reg. rewrite T, E1, E2, E3, E4. rewrite Z.add_0_r. reflexivity.
Qed.

Lemma read32_ok : forall st b d f off, slot_ok b d f off -> off mod 4 = 0 ->
  pci_config_read32 m mc st b d f off = reg_read m st b d f (off / 4).
Proof.
  intros st b d f off SL O4. pose proof SL as (HB & HD & HF & HO). unfold pci_config_read32. rewrite u8_id by lia. destruct mc as [base|ext].
  - destruct OK as (B0 & B1 & B2). rewrite ecam_address_eq by assumption. unfold ecam_read.
    rewrite ecam_mod4 by exact B1. rewrite O4. cbn [Z.mul Z.eqb].
    destruct (ecam_decode base b d f off SL) as (E1 & E2 & E3 & E4). rewrite E1, E2, E3, E4. reflexivity.
  - cbn [mech_ok] in OK. rewrite OK. unfold io_read32. rewrite io_address_eq by lia. rewrite field_small by lia.
    rewrite (Z.mod_small off) by lia. rewrite port_read_eq by lia. reflexivity.
Qed.

Lemma write32_ok : forall st b d f off v, slot_ok b d f off -> off mod 4 = 0 ->
  pci_config_write32 m mc st b d f off v = reg_write m st b d f (off / 4) (2 ^ 32 - 1) v.
Proof.
  intros st b d f off v SL O4. pose proof SL as (HB & HD & HF & HO). unfold pci_config_write32. rewrite u8_id by lia. destruct mc as [base|ext].
  - destruct OK as (B0 & B1 & B2). rewrite ecam_address_eq by assumption. unfold ecam_write.
    rewrite ecam_mod4 by exact B1. rewrite O4. cbn [Z.mul Z.eqb].
    destruct (ecam_decode base b d f off SL) as (E1 & E2 & E3 & E4). rewrite E1, E2, E3, E4. reflexivity.
  - cbn [mech_ok] in OK. rewrite OK. unfold io_write32. rewrite io_address_eq by lia. rewrite field_small by lia.
    rewrite (Z.mod_small off) by lia. rewrite port_write_eq by lia. reflexivity.
Qed.

(** The register a 16-bit access is made of. *)
Lemma io_addr4 : forall b d f off, slot_ok b d f off -> let a := io_address b d f off in
  0 <= a < 2 ^ 32 /\ a mod 4 = off mod 4 /\ a mod 2 = off mod 2 /\ exists x, 0 <= x < 16 /\
  io_address b d f (a / 4 * 4) = 2 ^ 31 + x * 2 ^ 24 + b * 2 ^ 16 + d * 2 ^ 11 + f * 2 ^ 8 + off / 4 * 4.
Proof.
  intros b d f off (HB & HD & HF & HO) a. unfold a. rewrite io_address_eq by lia. rewrite field_small by lia. rewrite (Z.mod_small off 256) by lia.
  set (q := 8388608 + b * 256 + d * 8 + f).
  replace (2 ^ 31 + 0 * 2 ^ 24 + b * 2 ^ 16 + d * 2 ^ 11 + f * 2 ^ 8 + off) with (off + q * 256)
    by (unfold q; change (2 ^ 31) with 2147483648; change (2 ^ 16) with 65536; change (2 ^ 11) with 2048; change (2 ^ 8) with 256; lia).
  assert (QB : 0 <= q * 256 /\ q * 256 + 256 <= 2 ^ 32) by (unfold q; change (2 ^ 32) with 4294967296; lia). clearbody q.
  split; [lia|]. split; [replace (off + q * 256) with (off + (q * 64) * 4) by lia; apply Z.mod_add; lia|].
  split; [replace (off + q * 256) with (off + (q * 128) * 2) by lia; apply Z.mod_add; lia|].
  assert (D4 : (off + q * 256) / 4 * 4 = off / 4 * 4 + q * 256) by (replace (off + q * 256) with (off + (q * 64) * 4) by lia; rewrite Z.div_add by lia; lia).
  rewrite D4. exists (field (off / 4 * 4 + q * 256) 8 4). split; [apply (field_bound _ 8 4); lia|].
  pose proof (div4_bound off HO) as DB. rewrite io_address_eq by lia. rewrite Z.mod_add by lia. rewrite (Z.mod_small (off / 4 * 4)) by lia. reflexivity.
Qed.

Lemma ecam_addr4 : forall base b d f off, mech_ok (Ecam base) -> slot_ok b d f off -> let a := ecam_address base b d f off in
  0 <= a < 2 ^ 32 /\ a mod 4 = off mod 4 /\ a / 4 * 4 = base + b * 2 ^ 20 + d * 2 ^ 15 + f * 2 ^ 12 + off / 4 * 4.
Proof.
  intros base b d f off (B0 & B1 & B2) SL a. unfold a. rewrite ecam_address_eq by assumption. split.
  - destruct SL as (HB & HD & HF & HO). change (2 ^ 20) with 1048576. change (2 ^ 15) with 32768. change (2 ^ 12) with 4096. change (2 ^ 28) with 268435456 in *. change (2 ^ 32) with 4294967296 in *. lia.
  - pose proof (ecam_mod4 base b d f off B1) as E. split; [exact E|].
    pose proof (Z.div_mod (base + b * 2 ^ 20 + d * 2 ^ 15 + f * 2 ^ 12 + off) 4 ltac:(lia)) as D1. rewrite E in D1.
    pose proof (Z.div_mod off 4 ltac:(lia)) as D2. lia.
Qed.

Lemma slot_ok_4 : forall b d f off, slot_ok b d f off -> slot_ok b d f (off / 4 * 4).
Proof. intros b d f off (HB & HD & HF & HO). pose proof (div4_bound off HO). unfold slot_ok. repeat split; lia. Qed.

Lemma ecam_rw4 : forall base b d f off, mech_ok (Ecam base) -> slot_ok b d f off ->
  let a := base + b * 2 ^ 20 + d * 2 ^ 15 + f * 2 ^ 12 + off / 4 * 4 in
  (forall st, ecam_read m st base a = reg_read m st b d f (off / 4)) /\
  (forall st v, ecam_write m st base a v = reg_write m st b d f (off / 4) (2 ^ 32 - 1) v).
Proof.
  intros base b d f off (B0 & B1 & B2) SL a. unfold a. apply slot_ok_4 in SL.
  destruct (ecam_decode base b d f (off / 4 * 4) SL) as (E1 & E2 & E3 & E4). rewrite Z.div_mul in E4 by lia.
  split; intros; unfold ecam_read, ecam_write; rewrite ecam_mod4 by exact B1; rewrite Z.mod_mul by lia; cbn [Z.mul Z.eqb];
    rewrite E1, E2, E3, E4; reflexivity.
Qed.

Lemma mod2_of_4 : forall off, off mod 4 = 0 \/ off mod 4 = 2 -> off mod 2 = 0.
Proof.
  intros off H. pose proof (Z.div_mod off 4 ltac:(lia)) as D. rewrite D. destruct H as [-> | ->].
  - replace (4 * (off / 4) + 0) with (0 + (2 * (off / 4)) * 2) by lia. rewrite Z.mod_add by lia. reflexivity.
  - replace (4 * (off / 4) + 2) with (0 + (2 * (off / 4) + 1) * 2) by lia. rewrite Z.mod_add by lia. reflexivity.
Qed.

Lemma read16_ok : forall st b d f off, slot_ok b d f off -> off mod 4 = 0 \/ off mod 4 = 2 ->
  pci_config_read16 m mc st b d f off =
    if off mod 4 =? 0 then Z.land (reg_read m st b d f (off / 4)) 65535 else Z.shiftr (reg_read m st b d f (off / 4)) 16.
Proof.
  intros st b d f off SL O2. pose proof SL as (HB & HD & HF & HO). unfold pci_config_read16. rewrite u8_id by lia. destruct mc as [base|ext].
  - destruct (ecam_addr4 base b d f off OK SL) as (A0 & A1 & A2). rewrite land_not3 by exact A0. rewrite A2, land_3, A1.
    destruct (ecam_rw4 base b d f off OK SL) as (R & _). rewrite R. reflexivity.
  - cbn [mech_ok] in OK. rewrite OK. destruct (io_addr4 b d f off SL) as (A0 & A1 & A2 & x & X & A3).
    rewrite land_1, A2, (mod2_of_4 off O2). cbn [Z.eqb negb]. rewrite land_not3 by exact A0. unfold io_read32. rewrite A3, land_3, A1.
    pose proof (div4_bound off HO). rewrite port_read_eq by lia. rewrite Z.div_mul by lia. reflexivity.
Qed.

Lemma write16_ok : forall st b d f off v, slot_ok b d f off -> off mod 4 = 0 \/ off mod 4 = 2 ->
  pci_config_write16 m mc st b d f off v =
    reg_write m st b d f (off / 4) (2 ^ 32 - 1)
      (if off mod 4 =? 0 then Z.lor (Z.land (reg_read m st b d f (off / 4)) 4294901760) v
       else Z.lor (Z.land (reg_read m st b d f (off / 4)) 65535) (u32 (Z.shiftl v 16))).
Proof.
  intros st b d f off v SL O2. pose proof SL as (HB & HD & HF & HO). unfold pci_config_write16. rewrite u8_id by lia. destruct mc as [base|ext].
  - destruct (ecam_addr4 base b d f off OK SL) as (A0 & A1 & A2). rewrite land_not3 by exact A0. rewrite A2, land_3, A1.
    destruct (ecam_rw4 base b d f off OK SL) as (R & W). rewrite R, W. reflexivity.
  - cbn [mech_ok] in OK. rewrite OK. destruct (io_addr4 b d f off SL) as (A0 & A1 & A2 & x & X & A3).
    rewrite land_1, A2, (mod2_of_4 off O2). cbn [Z.eqb negb]. rewrite land_not3 by exact A0. unfold io_read32, io_write32. rewrite A3, land_3, A1.
    pose proof (div4_bound off HO). rewrite port_read_eq, port_write_eq by lia. rewrite !Z.div_mul by lia. reflexivity.
Qed.

Lemma align_down_4 : forall off, 0 <= off < 256 -> align_down off 4 = off / 4 * 4.
Proof. intros. unfold align_down. change (4 - 1) with 3. apply land_not3. change (2 ^ 32) with 4294967296. lia. Qed.

Lemma write8_ok : forall st b d f off v, slot_ok b d f off ->
  pci_config_write8 m mc st b d f off v =
    reg_write m st b d f (off / 4) (2 ^ 32 - 1)
      (Z.lor (Z.land (reg_read m st b d f (off / 4)) (not32 (u32 (Z.shiftl 255 (off mod 4 * 8))))) (u32 (Z.shiftl v (off mod 4 * 8)))).
Proof.
  intros st b d f off v SL. pose proof SL as (HB & HD & HF & HO). unfold pci_config_write8. rewrite align_down_4 by lia. rewrite land_3.
  pose proof (slot_ok_4 b d f off SL) as S4. assert (M4 : off / 4 * 4 mod 4 = 0) by (apply Z.mod_mul; lia).
  rewrite read32_ok, write32_ok by assumption. rewrite Z.div_mul by lia. reflexivity.
Qed.

Lemma read8_ok : forall st b d f off, slot_ok b d f off ->
  pci_config_read8 m mc st b d f off = Z.shiftr (Z.land (reg_read m st b d f (off / 4)) (u32 (Z.shiftl 255 (off mod 4 * 8)))) (off mod 4 * 8).
Proof.
  intros st b d f off SL. pose proof SL as (HB & HD & HF & HO). unfold pci_config_read8. rewrite align_down_4 by lia. rewrite land_3.
  pose proof (slot_ok_4 b d f off SL) as S4. assert (M4 : off / 4 * 4 mod 4 = 0) by (apply Z.mod_mul; lia).
  rewrite read32_ok by assumption. rewrite Z.div_mul by lia. reflexivity.
Qed.

End Access.
