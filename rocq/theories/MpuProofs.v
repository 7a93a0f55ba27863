(** Proofs about the memory protection of the bootloader. *)
From Verif Require Import Base BaseLemmas MpuSpec MpuModel.
Local Ltac Zify.zify_post_hook ::= idtac.

Lemma skip_off : forall u n k a, (k <= n)%nat -> (forall r, Z.of_nat k <= r -> Z.testbit (u_rasr u r) 0 = false) ->
  attributes u n a = attributes u k a.
Proof.
  intros u n k a L H. induction n as [|n IH]; [replace k with O by lia; reflexivity|].
  destruct (Nat.eq_dec k (S n)) as [->|N]; [reflexivity|]. cbn [attributes]. unfold applies at 1. rewrite H by lia. cbn [andb]. apply IH. lia.
Qed.

Lemma applies_plain : forall rbar rasr a, Z.testbit rasr 0 = true -> (rasr / 256) mod 256 = 0 ->
  applies rbar rasr a = (a / 2 ^ log_size rasr =? rbar / 2 ^ log_size rasr).
Proof.
  intros rbar rasr a E S. unfold applies. rewrite E.
  replace (Z.testbit rasr (8 + (a / 2 ^ (log_size rasr - 3)) mod 8)) with false; [cbn [andb negb]; apply andb_true_r|].
  pose proof (Z.mod_pos_bound (a / 2 ^ (log_size rasr - 3)) 8 ltac:(lia)) as B. set (j := _ mod 8) in *. clearbody j.
  symmetry. replace (8 + j) with (j + 8) by lia. rewrite <- (Z.div_pow2_bits rasr 8 j) by lia. change (2 ^ 8) with 256.
  rewrite <- (Z.mod_pow2_bits_low (rasr / 256) 8 j) by lia. change (2 ^ 8) with 256. rewrite S. apply Z.testbit_0_l.
Qed.

(** The attribute words. *)
Definition A0 : Z := 0x1107003F.
Definition A1 (n : Z) : Z := if n <=? 0x2000 then 0x01070019 else if n <=? 0x4000 then 0x0107001B else if n <=? 0x8000 then 0x0107001D else 0x0107001F.
Definition A2 (rc : bool) : Z := if rc then 0x0107001F else 0x1107001F.
Definition A5 : Z := 0x11050039.
Definition A6 : Z := 0x1105003B.
Definition A7 : Z := 0x11050037.

Lemma set_rasr : forall r v x u i, Z.testbit v 4 = false -> u_rasr (mpu_setattr r x (mpu_setaddr r v u)) i = if i =? r then x else u_rasr u i.
Proof. intros r v x u i H. unfold mpu_setattr, mpu_setaddr, write_rbar, write_rasr, write_rnr. cbn [u_rnr u_rbar u_rasr]. reflexivity. Qed.
Lemma set_rbar : forall r v x u i, Z.testbit v 4 = false -> u_rbar (mpu_setattr r x (mpu_setaddr r v u)) i = if i =? r then v else u_rbar u i.
Proof. intros r v x u i H. unfold mpu_setattr, mpu_setaddr, write_rbar, write_rasr, write_rnr. cbn [u_rnr u_rbar u_rasr]. rewrite H. reflexivity. Qed.
Lemma set_regions : forall r v x u, u_regions (mpu_setattr r x (mpu_setaddr r v u)) = u_regions u.
Proof. reflexivity. Qed.

Section Mpu.
Context (l : link) (u : unit_) (Fr : fresh_unit u) (N8 : (8 <= u_regions u)%nat).
Let n := L_stored_data l - L_start_text l.
Context (T0 : 0 <= L_start_text l) (Tn : 0 <= n <= 0x10000) (B1 : Z.testbit (L_start_text l) 4 = false) (B2 : Z.testbit (L_start_data l) 4 = false).

Lemma init_value : exists u', mpu_init l u false = (u', true) /\ u_ctrl u' = 1 /\ u_regions u' = u_regions u /\
  u_rasr u' 0 = A0 /\ u_rasr u' 1 = A1 n /\ u_rasr u' 2 = A2 (L_ram_code l) /\ u_rasr u' 5 = A5 /\ u_rasr u' 6 = A6 /\ u_rasr u' 7 = A7 /\
  u_rbar u' 0 = 0 /\ u_rbar u' 1 = L_start_text l /\ u_rbar u' 2 = L_start_data l /\ u_rbar u' 5 = 0x40000000 /\ u_rbar u' 6 = 0xA0000000 /\ u_rbar u' 7 = 0xE0000000 /\
  (forall r, r = 3 \/ r = 4 \/ 8 <= r -> u_rasr u' r = u_rasr u r).
Proof.
  unfold mpu_init. cbv zeta. fold n. rewrite (Z.mod_small n (2 ^ 32)) by lia.
  destruct (u_regions u) as [|m] eqn:Em; [lia|].
  assert (Es : exists z, mpusize n = z /\ z <> MPUSIZE_ERR /\ ors [z; MPU_RASR_ENABLE; MPU_RASR_ATTR_SCB; MPU_RASR_ATTR_AP_PRW_UNO] = A1 n).
  { eexists. split; [reflexivity|]. unfold mpusize, A1. change (8 * 1024) with 0x2000. change (16 * 1024) with 0x4000. change (32 * 1024) with 0x8000. change (64 * 1024) with 0x10000.
    destruct (n <=? 0x2000); [split; [discriminate|reflexivity]|]. destruct (n <=? 0x4000); [split; [discriminate|reflexivity]|].
    destruct (n <=? 0x8000); [split; [discriminate|reflexivity]|]. rewrite (proj2 (Z.leb_le n 0x10000)) by lia. split; [discriminate|reflexivity]. }
  destruct Es as (z & -> & Nz & Ez). rewrite (proj2 (Z.eqb_neq _ _) Nz), Ez. clear Ez Nz z.
  unfold mpu_on. rewrite !set_regions, Em. eexists. split; [reflexivity|]. unfold write_ctrl. cbn [u_ctrl u_regions u_rasr u_rbar].
  split; [reflexivity|]. split; [rewrite !set_regions; exact Em|].
  repeat rewrite set_rasr by (first [exact B1|exact B2|reflexivity]). repeat rewrite set_rbar by (first [exact B1|exact B2|reflexivity]).
  cbn [Z.eqb Pos.eqb]. do 2 (split; [reflexivity|]). split; [unfold A2; destruct (L_ram_code l); reflexivity|]. do 9 (split; [reflexivity|]).
  intros r Hr. repeat rewrite set_rasr by (first [exact B1|exact B2|reflexivity]). repeat rewrite (proj2 (Z.eqb_neq r _)) by lia. reflexivity.
Qed.

Lemma rounded_log : 2 ^ log_size (A1 n) = rounded n.
Proof. unfold A1, rounded. destruct (n <=? 0x2000); [reflexivity|]. destruct (n <=? 0x4000); [reflexivity|]. destruct (n <=? 0x8000); reflexivity. Qed.

Lemma attributes_init : forall u', mpu_init l u false = (u', true) -> enabled u' = true /\ u_ctrl u' = 1 /\ forall a, 0 <= a < 2 ^ 32 ->
  attributes u' (u_regions u') a = Some
   (if a / 2 ^ 28 =? 14 then A7 else if a / 2 ^ 30 =? 2 then A6 else if a / 2 ^ 29 =? 2 then A5 else
    if a / 2 ^ 16 =? L_start_data l / 2 ^ 16 then A2 (L_ram_code l) else if a / rounded n =? L_start_text l / rounded n then A1 n else A0).
Proof.
  intros u' E. destruct init_value as (u1 & E1 & Hc & Hn & R0 & R1 & R2 & R5 & R6 & R7 & S0 & S1 & S2 & S5 & S6 & S7 & Oth).
  assert (u1 = u') as -> by congruence. unfold enabled. rewrite Hc. split; [reflexivity|]. split; [reflexivity|]. intros a Ha.
  destruct Fr as [_ Off]. rewrite (skip_off u' _ 8); [|rewrite Hn; exact N8|intros r Hr; rewrite Oth by lia; apply Off].
  cbn [attributes]. change (Z.of_nat 7) with 7. change (Z.of_nat 6) with 6. change (Z.of_nat 5) with 5. change (Z.of_nat 4) with 4. change (Z.of_nat 3) with 3.
  change (Z.of_nat 2) with 2. change (Z.of_nat 1) with 1. change (Z.of_nat 0) with 0. rewrite R0, R1, R2, R5, R6, R7, S0, S1, S2, S5, S6, S7.
  rewrite (applies_plain _ A7) by reflexivity. change (log_size A7) with 28. change (0xE0000000 / 2 ^ 28) with 14. destruct (a / 2 ^ 28 =? 14); [reflexivity|].
  rewrite (applies_plain _ A6) by reflexivity. change (log_size A6) with 30. change (0xA0000000 / 2 ^ 30) with 2. destruct (a / 2 ^ 30 =? 2); [reflexivity|].
  rewrite (applies_plain _ A5) by reflexivity. change (log_size A5) with 29. change (0x40000000 / 2 ^ 29) with 2. destruct (a / 2 ^ 29 =? 2); [reflexivity|].
  unfold applies at 1. rewrite Oth, Off by lia. cbn [andb]. unfold applies at 1. rewrite Oth, Off by lia. cbn [andb].
  rewrite (applies_plain _ (A2 _)) by (unfold A2; destruct (L_ram_code l); reflexivity).
  replace (log_size (A2 (L_ram_code l))) with 16 by (unfold A2; destruct (L_ram_code l); reflexivity).
  destruct (a / 2 ^ 16 =? _); [reflexivity|].
  rewrite (applies_plain _ (A1 n)) by (unfold A1; destruct (n <=? 0x2000); [reflexivity|]; destruct (n <=? 0x4000); [reflexivity|]; destruct (n <=? 0x8000); reflexivity).
  rewrite rounded_log. destruct (a / rounded n =? _); [reflexivity|].
  rewrite (applies_plain _ A0) by reflexivity. change (log_size A0) with 32. rewrite Z.div_small by lia. reflexivity.
Qed.
End Mpu.

Lemma rounded_cases : forall n, rounded n = 0x2000 \/ rounded n = 0x4000 \/ rounded n = 0x8000 \/ rounded n = 0x10000.
Proof. intro n. unfold rounded. destruct (n <=? 0x2000); [auto|]. destruct (n <=? 0x4000); [auto|]. destruct (n <=? 0x8000); auto. Qed.
Lemma rounded_room : forall n, n <= 0x10000 -> n <= rounded n.
Proof.
  intros n H. unfold rounded. destruct (Z.leb_spec n 0x2000); [lia|]. destruct (Z.leb_spec n 0x4000); [lia|]. destruct (Z.leb_spec n 0x8000); lia.
Qed.

Lemma block : forall a b k, 0 < k -> (a / k =? b / k) = true <-> b / k * k <= a < b / k * k + k.
Proof.
  intros a b k K. rewrite Z.eqb_eq. split.
  - intro E. rewrite <- E. pose proof (Z.div_mod a k ltac:(lia)). pose proof (Z.mod_pos_bound a k K). lia.
  - intros [H1 H2]. symmetry. apply (Z.div_unique a k (b / k) (a - b / k * k)); lia.
Qed.
Lemma block_at : forall a q k, 0 < k -> (a / k =? q) = true <-> q * k <= a < q * k + k.
Proof. intros a q k K. pose proof (block a (q * k) k K) as H. rewrite Z.div_mul in H by lia. exact H. Qed.
Lemma aligned_base : forall b k, 0 < k -> b mod k = 0 -> b / k * k = b.
Proof. intros b k K H. pose proof (Z.div_mod b k ltac:(lia)). lia. Qed.
Lemma aligned_bit4 : forall b n, b mod rounded n = 0 -> Z.testbit b 4 = false.
Proof.
  intros b n H. assert (H32 : b mod 2 ^ 5 = 0).
  { pose proof (aligned_base b (rounded n)) as A. destruct (rounded_cases n) as [E|[E|[E|E]]]; rewrite E in *; specialize (A ltac:(lia) H); rewrite <- A.
    - replace (b / 8192 * 8192) with (b / 8192 * 256 * 2 ^ 5) by lia. apply Z.mod_mul. lia.
    - replace (b / 16384 * 16384) with (b / 16384 * 512 * 2 ^ 5) by lia. apply Z.mod_mul. lia.
    - replace (b / 32768 * 32768) with (b / 32768 * 1024 * 2 ^ 5) by lia. apply Z.mod_mul. lia.
    - replace (b / 65536 * 65536) with (b / 65536 * 2048 * 2 ^ 5) by lia. apply Z.mod_mul. lia. }
  rewrite <- (Z.mod_pow2_bits_low b 5 4) by lia. rewrite H32. apply Z.testbit_0_l.
Qed.
