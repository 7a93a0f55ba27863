(** C89: the MultiProcessor table. *)
From Verif Require Import Base MptModel MptSpec.

Lemma total_app a b : total (a ++ b) = total a + total b.
Proof. induction a as [|x a IH]; cbn [app total fold_right]; [reflexivity|]. unfold total in *. cbn [fold_right] in *. rewrite IH. ring. Qed.

Lemma sum8_total l : forall c, 0 <= c < 256 -> sum8 c l = (c + total l) mod 256 /\ 0 <= sum8 c l < 256.
Proof.
  induction l as [|b l IH]; intros c R; cbn [sum8].
  - unfold total. cbn [fold_right]. rewrite Z.add_0_r, Z.mod_small; auto.
  - destruct (IH ((c + b) mod 256)) as (E & B); [apply Z.mod_pos_bound; lia|].
    split; [|exact B]. rewrite E. change (total (b :: l)) with (b + total l).
    rewrite Z.add_mod_idemp_l by lia. f_equal. ring.
Qed.

Lemma negate_zero s x : 0 <= s < 256 -> x mod 256 = s -> (x + negate s) mod 256 = 0.
Proof.
  intros R E. unfold negate. rewrite Z.add_mod_idemp_r by lia.
  pose proof (Z.div_mod x 256 ltac:(lia)) as D. rewrite E in D. rewrite D.
  destruct (s <? 128).
  - replace (256 * (x / 256) + s + - s) with ((x / 256) * 256) by ring. apply Z.mod_mul. lia.
  - replace (256 * (x / 256) + s + - (s - 256)) with ((x / 256 + 1) * 256) by ring. apply Z.mod_mul. lia.
Qed.

Lemma number_field n : forall v, 0 <= v < 256 ^ Z.of_nat n -> number (field n v) = v.
Proof.
  induction n as [|n IH]; intros v R; cbn [field number].
  - change (256 ^ Z.of_nat 0) with 1 in R. lia.
  - rewrite IH; [pose proof (Z.div_mod v 256); lia|].
    rewrite Nat2Z.inj_succ, Z.pow_succ_r in R by lia.
    split; [apply Z.div_pos; lia|apply Z.div_lt_upper_bound; lia].
Qed.

Lemma field_length n : forall v, length (field n v) = n.
Proof. induction n as [|n IH]; intros v; cbn [field length]; [reflexivity|]. now rewrite IH. Qed.

Lemma nth_map_seq (g : nat -> Z) n j : (j < n)%nat -> nth j (map g (seq 0 n)) 0 = g j.
Proof.
  intros J. rewrite (nth_indep _ 0 (g 0%nat)) by (rewrite map_length, seq_length; lia).
  rewrite map_nth, seq_nth by lia. reflexivity.
Qed.

(** Reading the table back. *)
Lemma read_part t i v s m k n : (k + n <= length (table_bytes t i v s))%nat ->
  read (mptable_setup t i v s m) (0x100 + Z.of_nat k) n = firstn n (skipn k (table_bytes t i v s)).
Proof.
  unfold mptable_setup. generalize (table_bytes t i v s) as l. intros l H.
  apply nth_ext with (d := 0) (d' := 0).
  - unfold read. rewrite map_length, seq_length, firstn_length, skipn_length. lia.
  - intros j J. unfold read in *. rewrite map_length, seq_length in J.
    rewrite nth_map_seq by lia. unfold MPTABLE_LOAD_BASE.
    assert ((0x100 <=? 0x100 + Z.of_nat k + Z.of_nat j) = true) as -> by (apply Z.leb_le; lia).
    assert ((0x100 + Z.of_nat k + Z.of_nat j <? 0x100 + Z.of_nat (length l)) = true) as -> by (apply Z.ltb_lt; lia).
    cbn [andb]. replace (Z.to_nat (0x100 + Z.of_nat k + Z.of_nat j - 0x100)) with (k + j)%nat by lia.
    transitivity (nth j (skipn k l) 0).
    + clear. revert l. induction k as [|k IH]; intros l; [reflexivity|]. destruct l; [now destruct j|]. cbn [Nat.add nth skipn]. apply IH.
    + clear -J. revert J. generalize (skipn k l) as q. revert j. induction n as [|n IH]; intros j q J; [lia|].
      destruct q; [now destruct j|]. destruct j; [reflexivity|]. cbn [nth firstn]. apply IH. lia.
Qed.

Lemma parse_cpu id ver flags sign rest n : 0 <= id < 256 -> 0 <= ver < 256 -> 0 <= sign < 2 ^ 32 ->
  entries (S n) (cpu_bytes id ver flags sign ++ rest) = option_map (cons (Processor id ver flags sign 0)) (entries n rest).
Proof.
  intros I V G. unfold cpu_bytes. rewrite (Z.mod_small id), (Z.mod_small ver) by assumption.
  pose proof (number_field 4 sign G) as N.
  cbn [field app] in *. cbn [entries]. rewrite N. reflexivity.
Qed.

(** The general statement. *)
Definition sized (t : target) : Prop :=
  length (t_oem t) = 8%nat /\ length (t_product t) = 12%nat /\ (1 <= t_cpus t <= 100)%nat /\
  (length (t_rest t) <= 1000)%nat /\ Forall (fun e => length e = 8%nat) (t_rest t).

Lemma concat_length8 l n : Forall (fun e : list Z => length e = n) l -> length (concat l) = (n * length l)%nat.
Proof. induction 1 as [|e l H F IH]; cbn [concat length]; [lia|]. rewrite app_length, IH. lia. Qed.

Lemma entries_len t i v s : sized t ->
  length (entries_bytes t i v s) = (20 * t_cpus t + 8 * length (t_rest t))%nat.
Proof.
  intros (_ & _ & C & _ & F). unfold entries_bytes, cpus_bytes. rewrite !app_length, (concat_length8 _ _ F).
  rewrite (concat_length8 _ 20).
  - rewrite map_length, seq_length. change (length (cpu_bytes _ _ _ _)) with 20%nat. lia.
  - apply Forall_forall. intros e H. apply in_map_iff in H. destruct H as (k & <- & _). reflexivity.
Qed.

Lemma header_len len c o p : length o = 8%nat -> length p = 12%nat -> length (header_bytes len c o p) = 44%nat.
Proof. intros O P. unfold header_bytes. rewrite !app_length, O, P, !field_length. reflexivity. Qed.

Lemma header_total len c o p : total (header_bytes len c o p) = total (header_bytes len 0 o p) + c.
Proof.
  unfold header_bytes. rewrite !total_app.
  change (total [1; c]) with (1 + (c + 0)). change (total [1; 0]) with (1 + (0 + 0)). ring.
Qed.

Lemma float_total r c : total (float_bytes r c) = total (float_bytes r 0) + c.
Proof.
  unfold float_bytes. rewrite !total_app. unfold total. cbn [fold_right]. ring.
Qed.

Lemma table_describes t i v s m es : sized t -> 0 <= i < 2 ^ 32 -> 0 <= v < 2 ^ 32 -> 0 <= s < 2 ^ 32 ->
  (exists fuel, entries fuel (entries_bytes t i v s) = Some es) ->
  describes (mptable_setup t i v s m) 0x100 es /\ length (table_bytes t i v s) = (16 + Z.to_nat (base_table_len t))%nat /\
  entry_count (mptable_setup t i v s m) 0x100 = 0.
Proof.
  intros SZ I V G P. pose proof (entries_len t i v s SZ) as EL. destruct SZ as (O & PR & C & RL & F).
  set (e := entries_bytes t i v s) in *.
  set (len := base_table_len t).
  set (c1 := negate (sum8 0 (header_bytes len 0 (t_oem t) (t_product t) ++ e))).
  set (c0 := negate (sum8 0 (float_bytes (t_rev t) 0))).
  assert (TB : table_bytes t i v s = float_bytes (t_rev t) c0 ++ header_bytes len c1 (t_oem t) (t_product t) ++ e) by reflexivity.
  assert (HL : length (header_bytes len c1 (t_oem t) (t_product t)) = 44%nat) by now apply header_len.
  assert (FL : length (float_bytes (t_rev t) c0) = 16%nat) by reflexivity.
  assert (LEN : Z.to_nat len = (44 + length e)%nat) by (unfold len, base_table_len; lia).
  assert (TL : length (table_bytes t i v s) = (16 + Z.to_nat len)%nat) by (rewrite TB, !app_length, FL, HL; lia).
  assert (LB : 0 <= len < 256 ^ Z.of_nat 2) by (change (256 ^ Z.of_nat 2) with 65536; unfold len, base_table_len; lia).
  set (mm := mptable_setup t i v s m).
  assert (R : forall k n, (k + n <= 16 + Z.to_nat len)%nat -> read mm (0x100 + Z.of_nat k) n = firstn n (skipn k (table_bytes t i v s))).
  { intros k n H. apply read_part. lia. }
  assert (A : number (read mm (0x100 + 4) 4) = 0x110).
  { change (0x100 + 4) with (0x100 + Z.of_nat 4). rewrite R by lia. rewrite TB. reflexivity. }
  assert (SK : skipn 16 (table_bytes t i v s) = header_bytes len c1 (t_oem t) (t_product t) ++ e).
  { rewrite TB, <- FL, skipn_app, skipn_all, Nat.sub_diag. reflexivity. }
  assert (SZ0 : 0 <= 0 < 256) by lia.
  assert (LN : number (read mm (0x110 + 4) 2) = len).
  { change (0x110 + 4) with (0x100 + Z.of_nat 20). rewrite R by lia. rewrite TB.
    change (number (field 2 len) = len). now apply number_field. }
  split; [|split; [exact TL|]].
  - unfold describes. rewrite A, LN. cbn zeta. split; [reflexivity|]. split.
    { change 0x100 with (0x100 + Z.of_nat 0). rewrite R by lia. rewrite TB. reflexivity. }
    split.
    { assert (X : read mm (0x100 + Z.of_nat 8) 1 = [1]) by (rewrite R by lia; rewrite TB; reflexivity).
      change (0x100 + Z.of_nat 8) with (0x100 + 8) in X. unfold read in X. cbn [seq map] in X.
      change (Z.of_nat 0) with 0 in X. rewrite Z.add_0_r in X. congruence. }
    split.
    { change 0x100 with (0x100 + Z.of_nat 0). rewrite R by lia. rewrite TB.
      change (skipn 0 ?x) with x. rewrite <- FL, firstn_app, firstn_all, Nat.sub_diag, firstn_O, app_nil_r.
      rewrite float_total. destruct (sum8_total (float_bytes (t_rev t) 0) 0 SZ0) as (S8 & B8).
      apply negate_zero; [exact B8|]. now rewrite S8. }
    split.
    { change 0x110 with (0x100 + Z.of_nat 16). rewrite R by lia. rewrite SK. reflexivity. }
    split.
    { change 0x110 with (0x100 + Z.of_nat 16). rewrite R by lia. rewrite SK, LEN, firstn_all2 by (rewrite app_length, HL; lia).
      rewrite total_app, header_total.
      destruct (sum8_total (header_bytes len 0 (t_oem t) (t_product t) ++ e) 0 SZ0) as (S8 & B8).
      replace (total (header_bytes len 0 (t_oem t) (t_product t)) + c1 + total e)
        with (total (header_bytes len 0 (t_oem t) (t_product t) ++ e) + c1) by (rewrite total_app; ring).
      apply negate_zero; [exact B8|]. now rewrite S8. }
    { change (0x110 + 44) with (0x100 + Z.of_nat (16 + 44)). rewrite R by lia.
      assert (SK2 : skipn (16 + 44) (table_bytes t i v s) = e).
      { rewrite TB, app_assoc. rewrite <- FL at 1. rewrite <- HL at 1. rewrite <- app_length, skipn_app, skipn_all, Nat.sub_diag. reflexivity. }
      rewrite SK2, LEN, firstn_all2 by lia. exact P. }
  - unfold entry_count. rewrite A. change (0x110 + 34) with (0x100 + Z.of_nat 50). rewrite R by lia.
    rewrite TB. rewrite skipn_app, FL. change (skipn 50 (float_bytes (t_rev t) c0)) with (@nil Z).
    change (50 - 16)%nat with 34%nat. unfold header_bytes.
    destruct (t_oem t) as [|o0 [|o1 [|o2 [|o3 [|o4 [|o5 [|o6 [|o7 [|]]]]]]]]]; try discriminate O.
    destruct (t_product t) as [|p0 [|p1 [|p2 [|p3 [|p4 [|p5 [|p6 [|p7 [|p8 [|p9 [|p10 [|p11 [|]]]]]]]]]]]]]; try discriminate PR.
    reflexivity.
Qed.

Lemma shift_byte i : 0 <= i < 2 ^ 32 -> Z.shiftr i 24 = i / 2 ^ 24 /\ 0 <= i / 2 ^ 24 < 256.
Proof.
  intros R. rewrite Z.shiftr_div_pow2 by lia. split; [reflexivity|].
  split; [apply Z.div_pos; lia|apply Z.div_lt_upper_bound; lia].
Qed.

Lemma land_byte v : Z.land v 0xff = v mod 256.
Proof. change 0xff with (Z.ones 8). now rewrite Z.land_ones by lia. Qed.

(** C89, the table of the Kontron board: whatever the registers, an operating system that reads the table
    finds the boot processor with its identifier, three more processors and the devices, with correct
    checksums; the rest of memory is not changed. *)
Theorem C89_kontron i v s m : 0 <= i < 2 ^ 32 -> 0 <= v < 2 ^ 32 -> 0 <= s < 2 ^ 32 ->
  let m' := mptable_setup kontron i v s m in
  describes m' 0x100
    ([Processor (i / 2 ^ 24) (v mod 256) 3 s 0; Processor 2 (v mod 256) 1 s 0; Processor 4 (v mod 256) 1 s 0;
      Processor 6 (v mod 256) 1 s 0] ++ kontron_devices) /\
  (forall a, ~ 0x100 <= a < 0x100 + 300 -> m' a = m a).
Proof.
  intros I V G m'. destruct (shift_byte i I) as (SH & SB).
  assert (VB : 0 <= v mod 256 < 256) by (apply Z.mod_pos_bound; lia).
  destruct (table_describes kontron i v s m
    ([Processor (i / 2 ^ 24) (v mod 256) 3 s 0; Processor 2 (v mod 256) 1 s 0; Processor 4 (v mod 256) 1 s 0;
      Processor 6 (v mod 256) 1 s 0] ++ kontron_devices)) as (D & L & _); try assumption.
  - unfold sized. repeat split; try (cbn; lia). repeat constructor.
  - exists 30%nat. unfold entries_bytes, cpus_bytes, other_cpu. rewrite SH, land_byte.
    cbn [t_cpus kontron Nat.sub seq map concat]. rewrite <- !app_assoc.
    rewrite !parse_cpu by (try assumption; lia). cbn [app].
    change (entries 26 (concat (t_rest kontron))) with (Some kontron_devices). reflexivity.
  - split; [exact D|]. intros a N. unfold m', mptable_setup. rewrite L.
    change (Z.of_nat (16 + Z.to_nat (base_table_len kontron))) with 300. unfold MPTABLE_LOAD_BASE.
    destruct (Z.leb_spec 0x100 a), (Z.ltb_spec a (0x100 + 300)); cbn [andb]; try reflexivity; lia.
Qed.

(** C89, the table for QEMU. *)
Theorem C89_qemu i v s m : 0 <= i < 2 ^ 32 -> 0 <= v < 2 ^ 32 -> 0 <= s < 2 ^ 32 ->
  let m' := mptable_setup qemu i v s m in
  describes m' 0x100 (Processor (i / 2 ^ 24) (v mod 256) 3 s 0 :: qemu_devices) /\
  (forall a, ~ 0x100 <= a < 0x100 + 224 -> m' a = m a).
Proof.
  intros I V G m'. destruct (shift_byte i I) as (SH & SB).
  assert (VB : 0 <= v mod 256 < 256) by (apply Z.mod_pos_bound; lia).
  destruct (table_describes qemu i v s m (Processor (i / 2 ^ 24) (v mod 256) 3 s 0 :: qemu_devices)) as (D & L & _); try assumption.
  - unfold sized. repeat split; try (cbn; lia). repeat constructor.
  - exists 30%nat. unfold entries_bytes, cpus_bytes. rewrite SH, land_byte.
    cbn [t_cpus qemu Nat.sub seq map concat]. rewrite <- !app_assoc.
    rewrite !parse_cpu by (try assumption; lia). cbn [app].
    change (entries 29 (concat (t_rest qemu))) with (Some qemu_devices). reflexivity.
  - split; [exact D|]. intros a N. unfold m', mptable_setup. rewrite L.
    change (Z.of_nat (16 + Z.to_nat (base_table_len qemu))) with 224. unfold MPTABLE_LOAD_BASE.
    destruct (Z.leb_spec 0x100 a), (Z.ltb_spec a (0x100 + 224)); cbn [andb]; try reflexivity; lia.
Qed.

Example C89_ex : 0 <= 0x05000000 < 2 ^ 32 /\ 0x05000000 / 2 ^ 24 = 5 /\
  mptable_setup kontron 0x05000000 0x60015 0x806c1 (fun _ => 0) (0x110 + 44 + 1) = 5.
Proof. vm_compute. repeat split; discriminate. Qed.

(** C89 is false of the number of entries in the header: it is 0. *)
Theorem C89_count_refuted i v s m : 0 <= i < 2 ^ 32 -> 0 <= v < 2 ^ 32 -> 0 <= s < 2 ^ 32 ->
  entry_count (mptable_setup kontron i v s m) 0x100 = 0 /\ entry_count (mptable_setup qemu i v s m) 0x100 = 0.
Proof.
  intros I V G.
  assert (K : forall t, sized t -> (exists es fuel, entries fuel (entries_bytes t i v s) = Some es) ->
              entry_count (mptable_setup t i v s m) 0x100 = 0).
  { intros t Z0 (es & X). now destruct (table_describes t i v s m es Z0 I V G X) as (_ & _ & Q). }
  destruct (shift_byte i I) as (SH & SB).
  assert (VB : 0 <= v mod 256 < 256) by (apply Z.mod_pos_bound; lia).
  split; apply K.
  - unfold sized. repeat split; try (cbn; lia). repeat constructor.
  - eexists. exists 30%nat. unfold entries_bytes, cpus_bytes, other_cpu. rewrite SH, land_byte.
    cbn [t_cpus kontron Nat.sub seq map concat]. rewrite <- !app_assoc.
    rewrite !parse_cpu by (try assumption; lia). cbn [app].
    change (entries 26 (concat (t_rest kontron))) with (Some kontron_devices). reflexivity.
  - unfold sized. repeat split; try (cbn; lia). repeat constructor.
  - eexists. exists 30%nat. unfold entries_bytes, cpus_bytes. rewrite SH, land_byte.
    cbn [t_cpus qemu Nat.sub seq map concat]. rewrite <- !app_assoc.
    rewrite !parse_cpu by (try assumption; lia). cbn [app].
    change (entries 29 (concat (t_rest qemu))) with (Some qemu_devices). reflexivity.
Qed.

(** C89 is false of unique identifiers: on the Kontron board the I/O APIC has the identifier of the second
    processor, and for QEMU that of the boot processor when that is 0. *)
Theorem C89_ids_refuted v s m : 0 <= v < 2 ^ 32 -> 0 <= s < 2 ^ 32 ->
  (forall i, 0 <= i < 2 ^ 32 ->
     exists es, describes (mptable_setup kontron i v s m) 0x100 es /\ ~ NoDup (ids es)) /\
  (exists es, describes (mptable_setup qemu 0 v s m) 0x100 es /\ ~ NoDup (ids es)).
Proof.
  intros V G. split.
  - intros i I. eexists. split; [apply C89_kontron; assumption|].
    cbn [ids flat_map app kontron_devices]. intros N. inversion_clear N as [|? ? _ N1].
    inversion_clear N1 as [|? ? Q _]. apply Q. right. right. now left.
  - eexists. split; [apply C89_qemu; try assumption; lia|]. change (0 / 2 ^ 24) with 0.
    cbn [ids flat_map app qemu_devices]. intros N. inversion_clear N as [|? ? Q _]. apply Q. now left.
Qed.

(** C89 is false of the wiring of the Kontron board: interrupt 9 is described twice, as active high and
    level-triggered and with the defaults of the bus. *)
Theorem C89_twice_refuted i v s m : 0 <= i < 2 ^ 32 -> 0 <= v < 2 ^ 32 -> 0 <= s < 2 ^ 32 ->
  exists es, describes (mptable_setup kontron i v s m) 0x100 es /\
    In (Interrupt 0 13 1 9 2 9) es /\ In (Interrupt 0 0 1 9 2 9) es.
Proof.
  intros I V G. eexists. split; [apply C89_kontron; assumption|].
  split; apply in_or_app; right; cbn; tauto.
Qed.

Print Assumptions C89_kontron.
Print Assumptions C89_qemu.
Print Assumptions C89_count_refuted.
Print Assumptions C89_ids_refuted.
Print Assumptions C89_twice_refuted.
