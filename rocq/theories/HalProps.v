(** C71 - C74: the on-chip flash drivers. *)
From Verif Require Import Base BaseLemmas HalSpec HalModel HalProofs HalWriteProofs
  HalWrite2Proofs HalEraseProofs.

(** Flash contents for the examples: erased, and erased but for one cell. *)
Definition fresh_flash : mem := fun _ => 255.
Definition used_at (p v : Z) : mem := fun x => if x =? p then v else 255.

Lemma fresh_clears : forall a d, Forall (fun b => 0 <= b < 256) d -> clears fresh_flash a d.
Proof.
  intros a d B x X. unfold fresh_flash. rewrite Z.land_comm. change 255 with (Z.ones 8).
  rewrite Z.land_ones by lia. apply Z.mod_small. change (2 ^ 8) with 256.
  rewrite patch_in by exact X. rewrite Forall_forall in B. apply B, nth_In.
  unfold zlen in X. lia.
Qed.
Ltac bytes_fit := apply fresh_clears; repeat (constructor; [lia|]); constructor.

(** ** C71: drivers that store every request *)

(** STM32F4, STM32F7. *)
Theorem C71_byte_writes : forall m a d, clears m a d -> written (f4_write m a d) m a d.
Proof.
  intros m a d C. eexists. split; [reflexivity|].
  eapply same_trans; [apply f4_loop|apply nor_clears, C].
Qed.
Example C71_byte_writes_ex : clears fresh_flash 1001 [1; 2; 3].
Proof. bytes_fit. Qed.

(** LPC546xx. *)
Theorem C71_page_writes : forall ps m a d, 0 < ps -> 0 <= a -> clears m a d ->
  written (lpc_write ps m a d) m a d.
Proof. exact lpc_write_ok. Qed.
Example C71_page_writes_ex :
  0 < 4 /\ 0 <= 1003 /\ clears fresh_flash 1003 [1; 2; 3; 4; 5; 6; 7].
Proof. split; [lia|]. split; [lia|]. bytes_fit. Qed.

(** RX: from the start of a block on, any length. *)
Theorem C71_block_writes : forall u m a d, 0 < u -> a mod u = 0 -> clears m a d ->
  written (rx_write u m a d) m a d.
Proof.
  intros u m a d U A C.
  destruct (rx_loop_ok u a d U A (S (length d)) m 0) as (m' & Em & S');
    [lia|apply Z.mod_0_l; lia|unfold zlen; lia|lia|].
  exists m'. split; [exact Em|]. rewrite Z.add_0_r in S'.
  eapply same_trans; [exact S'|]. apply nor_clears, C.
Qed.
Example C71_block_writes_ex : 0 < 4 /\ 1000 mod 4 = 0 /\ clears fresh_flash 1000 [1; 2; 3; 4; 5].
Proof. split; [lia|]. split; [reflexivity|]. bytes_fit. Qed.

(** STM32F1 reads back: whatever the controller does with a half-word, 0 is returned only when
    the bytes are there; nothing outside them changed then. *)
Theorem C71_checked_writes : forall prog m a d,
  (forall m p lo hi x, x <> p -> x <> p + 1 -> prog m p lo hi x = m x) ->
  exists m' r, f1_write prog m a d = Val (m', r) /\ (r = 0 \/ r = -1) /\
    (r = 0 -> same m' (patch m a d)).
Proof. exact f1_write_sound. Qed.
(** A controller that does nothing. *)
Example C71_checked_writes_ex :
  (forall (m : mem) (p lo hi x : Z), x <> p -> x <> p + 1 -> (fun (m : mem) (_ _ _ : Z) => m) m p lo hi x = m x)
  /\ f1_write (fun m _ _ _ => m) fresh_flash 134217729 [1; 2; 3] = Val (fresh_flash, -1).
Proof. split; [intros; reflexivity|reflexivity]. Qed.

(** And on erased flash it works. *)
Theorem C71_checked_writes_work : forall prog m a d,
  (forall m p lo hi x, x <> p -> x <> p + 1 -> prog m p lo hi x = m x) ->
  (forall m p lo hi, m p = 255 -> m (p + 1) = 255 ->
     prog m p lo hi p = lo /\ prog m p lo hi (p + 1) = hi) ->
  0 < zlen d -> 134217728 <= a -> a + zlen d <= 134217728 + 131072 ->
  blank m (a - a mod 2) (a mod 2 + zlen d + 1) ->
  written (f1_write prog m a d) m a d.
Proof.
  intros prog m a d O T L LO HI B. apply f1_write_ok; [exact O|exact T| |exact B].
  unfold f1_valid. no (zlen d <=? 0). no (131072 <? zlen d). no (a <? 134217728).
  no (134217728 + 131072 <=? a). no (134217728 + 131072 <? a + zlen d). reflexivity.
Qed.
Example C71_checked_writes_work_ex :
  let prog := fun (m : mem) p lo hi x => if x =? p then lo else if x =? p + 1 then hi else m x in
  (forall m p lo hi x, x <> p -> x <> p + 1 -> prog m p lo hi x = m x) /\
  (forall m p lo hi, m p = 255 -> m (p + 1) = 255 ->
     prog m p lo hi p = lo /\ prog m p lo hi (p + 1) = hi) /\
  blank fresh_flash (134217729 - 134217729 mod 2) (134217729 mod 2 + zlen [1; 2; 3] + 1).
Proof.
  split; [|split].
  - intros m p lo hi x X1 X2. cbv beta. no (x =? p). no (x =? p + 1). reflexivity.
  - intros m p lo hi _ _. cbv beta. yes (p =? p). no (p + 1 =? p). yes (p + 1 =? p + 1).
    split; reflexivity.
  - intros x _. reflexivity.
Qed.

(** ** C72: drivers that work by words *)

(** nRF52, nRF5340, STM32L0: one byte, or aligned words and at most one byte more. *)
Theorem C72_word_writes_partial : forall m a da d, clears m a d ->
  zlen d <= 1 \/ (a mod 4 = 0 /\ da mod 4 = 0 /\ zlen d mod 4 <= 1) ->
  written (nrf_write m a da d) m a d.
Proof. exact nrf_ok. Qed.
Example C72_word_writes_partial_ex : clears fresh_flash 1000 [1; 2; 3; 4; 5] /\
  (zlen [1; 2; 3; 4; 5] <= 1 \/ (1000 mod 4 = 0 /\ 2000 mod 4 = 0 /\ zlen [1; 2; 3; 4; 5] mod 4 <= 1)).
Proof.
  split; [bytes_fit|]. right. split; [reflexivity|]. split; [reflexivity|]. vm_compute. discriminate.
Qed.
(** Every other request makes an unaligned store. *)
Theorem C72_word_writes_refuted : forall m a da d,
  1 < zlen d -> ~ (a mod 4 = 0 /\ da mod 4 = 0 /\ zlen d mod 4 <= 1) ->
  nrf_write m a da d = UB.
Proof. exact nrf_bad. Qed.
Example C72_word_writes_refuted_ex : 1 < zlen [1; 2] /\
  ~ (1000 mod 4 = 0 /\ 2000 mod 4 = 0 /\ zlen [1; 2] mod 4 <= 1).
Proof. split; [reflexivity|]. intros (_ & _ & H). vm_compute in H. apply H. reflexivity. Qed.

(** STM32WB, STM32L4 (and, with addresses it does not expect, STM32G0 and STM32C0): on erased
    double words. *)
Theorem C72_double_word_writes_partial : forall lo hi m a da d,
  (a mod 8 = 0 /\ (da mod 8 <> 0 \/ zlen d mod 8 <= 3)) \/
  (a mod 8 <> 0 /\ a mod 8 + zlen d <= 8) ->
  lo <= a / 8 * 8 -> (a + zlen d + 7) / 8 * 8 <= hi ->
  blank m (a / 8 * 8) ((a + zlen d + 7) / 8 * 8 - a / 8 * 8) ->
  written (dw_write lo hi 0 m a da d) m a d.
Proof.
  intros lo hi m a da d H LO HI B.
  destruct d as [|b d'] eqn:D.
  { exists m. split; [reflexivity|]. apply same_sym, patch_nil. }
  rewrite <- D in *. assert (L0 : 0 < zlen d) by (rewrite D; unfold zlen; cbn [length]; lia).
  clear D. destruct H as [[A H]|[A H]].
  - assert (Q : a / 8 * 8 = a) by lia.
    assert (R : a + (zlen d + 7) / 8 * 8 = (a + zlen d + 7) / 8 * 8) by lia.
    destruct (dw_loop_ok lo hi a da d A H ltac:(lia) ltac:(lia) (S (length d)) m 0)
      as (m' & Em & S'); [lia|left; reflexivity|unfold zlen; lia|lia| |].
    + rewrite Z.add_0_r, Z.sub_0_r. rewrite Q in B. eapply blank_sub; [exact B|lia|lia].
    + exists m'. split; [exact Em|]. rewrite Z.add_0_r in S'. exact S'.
  - eexists. split; [apply dw_single; try lia|].
    eapply same_trans; [apply ecc_rmw; [lia|lia|eapply blank_sub; [exact B|lia|lia]]|].
    replace (a / 8 * 8 + a mod 8) with a by lia. apply same_refl.
Qed.
Example C72_double_word_writes_partial_ex :
  (1000 mod 8 = 0 /\ (2001 mod 8 <> 0 \/ zlen [1; 2; 3; 4; 5; 6; 7; 8; 9; 10; 11; 12; 13] mod 8 <= 3)) /\
  blank fresh_flash 1000 16.
Proof. split; [split; [reflexivity|left; vm_compute; discriminate]|intros x _; reflexivity]. Qed.

(** Address and buffer aligned, the last four to seven bytes: the read goes past the buffer. *)
Theorem C72_double_word_overread_refuted : forall lo hi m a da d,
  a mod 8 = 0 -> da mod 8 = 0 -> 3 < zlen d mod 8 -> lo <= a -> a + zlen d <= hi ->
  dw_write lo hi 0 m a da d = UB.
Proof.
  intros lo hi m a da d A D L LO HI.
  assert (0 < zlen d).
  { pose proof (zlen_nonneg d). destruct (Z.eq_dec (zlen d) 0) as [E|E]; [|lia].
    rewrite E in L. change (0 mod 8) with 0 in L. lia. }
  apply (dw_overrun lo hi a da d A D L LO HI); [lia|reflexivity|unfold zlen; lia].
Qed.
Example C72_double_word_overread_refuted_ex : 1000 mod 8 = 0 /\ 2000 mod 8 = 0 /\
  3 < zlen [1; 2; 3; 4] mod 8.
Proof. repeat split; reflexivity. Qed.

(** Address and buffer equally odd, with more than the rest of the first double word to write:
    the second store goes to an address that is no multiple of 8. *)
Theorem C72_double_word_odd_refuted : forall lo hi m a da d,
  a mod 4 <> 0 -> da mod 8 = a mod 8 -> 8 - a mod 8 + 3 < zlen d ->
  dw_write lo hi 0 m a da d = UB.
Proof.
  intros lo hi m a da d A D L. pose proof (Z.mod_pos_bound a 8 ltac:(lia)) as R.
  assert (Q : a mod 8 mod 4 <> 0) by lia.
  unfold dw_write. destruct (length d) as [|k] eqn:E; [unfold zlen in L; rewrite E in L; lia|].
  cbn [dw_write_loop]. rewrite !Z.add_0_r, Z.sub_0_r.
  destruct (Z.ltb_spec 0 (zlen d)) as [_|]; [|lia].
  destruct (Z.eqb_spec (a mod 8) 0) as [Z0|_]; [rewrite Z0 in Q; exfalso; apply Q; reflexivity|].
  cbn [andb]. rewrite andb_false_r. rewrite Z.min_l by lia.
  destruct (grab d 0 (8 - a mod 8)) as [v| |] eqn:E1; cbn [obind]; [|reflexivity|].
  2:{ unfold grab in E1. destruct (_ && _); discriminate. }
  match goal with |- context [dword_at lo hi m ?p ?w] => destruct (dword_at lo hi m p w) as [m'| |] eqn:E2 end; cbn [obind]; [|reflexivity|].
  2:{ unfold dword_at, store_ecc in E2. destruct (_ && _); [destruct (_ =? _)|]; discriminate. }
  rewrite Z.add_0_l. set (n := 8 - a mod 8) in *.
  destruct (Z.ltb_spec n (zlen d)) as [_|]; [|lia]. destruct (Z.ltb_spec 3 (zlen d - n)) as [_|]; [|lia].
  destruct (Z.eqb_spec ((a + n) mod 8) 0) as [_|N]; [|exfalso; apply N; unfold n; lia].
  destruct (Z.eqb_spec ((da + n) mod 8) 0) as [_|N]; [|exfalso; apply N; unfold n; lia].
  cbn [andb]. destruct (grab d (4 * (n / 4)) 8) as [w| |] eqn:E3; cbn [obind]; [|reflexivity|].
  2:{ unfold grab in E3. destruct (_ && _); discriminate. }
  unfold dword_at, store_ecc.
  destruct (Z.eqb_spec ((a + 4 * (n / 4)) mod 8) 0) as [N|_]; [exfalso; unfold n in N; lia|].
  destruct (_ && _); reflexivity.
Qed.
Print Assumptions C72_double_word_odd_refuted.
Example C72_double_word_odd_refuted_ex : 1001 mod 4 <> 0 /\ 2001 mod 8 = 1001 mod 8 /\
  8 - 1001 mod 8 + 3 < zlen [1; 2; 3; 4; 5; 6; 7; 8; 9; 10; 11].
Proof. split; [vm_compute; discriminate|]. split; reflexivity. Qed.

(** STM32G0, STM32C0: the aligned branch adds the flash base to the address, the other does
    not.  So a program that passes absolute addresses stores past the flash, one that passes
    relative addresses stores below it. *)
Theorem C72_base_added_refuted : forall lo hi shift m a da d,
  0 < lo -> hi < lo + shift -> 0 < shift ->
  (lo <= a -> a mod 8 = 0 -> da mod 8 = 0 -> 4 <= zlen d -> dw_write lo hi shift m a da d = UB) /\
  (a + 8 <= lo -> a mod 8 <> 0 \/ da mod 8 <> 0 \/ zlen d <= 3 -> 0 < zlen d ->
   dw_write lo hi shift m a da d = UB).
Proof.
  intros lo hi shift m a da d LO HI SH. split.
  - intros A A8 D8 L. apply dw_shifted; lia.
  - intros A N L. apply dw_unshifted; [exact L|lia|exact N].
Qed.
Example C72_base_added_refuted_ex :
  0 < 134217728 /\ 134217728 + 131072 < 134217728 + 134217728 /\ 0 < 134217728.
Proof. lia. Qed.

(** A double word that is in use is left alone and 0 is returned. *)
Theorem C72_silent_refuted : forall lo hi shift m a da d x y,
  0 < zlen d -> a mod 8 + zlen d <= 8 -> a mod 8 <> 0 \/ da mod 8 <> 0 \/ zlen d <= 3 ->
  lo <= a / 8 * 8 -> a / 8 * 8 + 8 <= hi ->
  x / 8 = a / 8 -> m x <> 255 ->
  y / 8 = a / 8 -> patch m a d y <> 0 ->
  exists m', dw_write lo hi shift m a da d = Val (m', 0) /\ same m' m.
Proof.
  intros lo hi shift m a da d x y L0 L8 N LO HI X MX Y MY.
  eexists. split; [apply dw_single; assumption|].
  set (v := splice (bytes m (a / 8 * 8) 8) (a mod 8) d).
  assert (LV : length v = 8%nat).
  { assert (zlen v = 8) by (unfold v; rewrite zlen_splice; rewrite ?zlen_bytes; lia).
    unfold zlen in *. lia. }
  unfold ecc.
  replace (forallb (fun k => m (a / 8 * 8 + Z.of_nat k) =? 255) (seq 0 (length v))) with false.
  2: { symmetry. apply not_true_iff_false. intros F. rewrite forallb_forall in F.
       apply MX. specialize (F (Z.to_nat (x - a / 8 * 8))).
       rewrite Z2Nat.id in F by lia. replace (a / 8 * 8 + (x - a / 8 * 8)) with x in F by lia.
       apply Z.eqb_eq, F, in_seq. lia. }
  replace (forallb (Z.eqb 0) v) with false; [apply same_refl|].
  symmetry. apply not_true_iff_false. intros F. rewrite forallb_forall in F.
  apply MY.
  assert (E : patch m (a / 8 * 8) v y = patch m a d y).
  { unfold v. rewrite (patch_rmw m (a / 8 * 8) 8 (a mod 8) d) by lia.
    replace (a / 8 * 8 + a mod 8) with a by lia. reflexivity. }
  rewrite <- E. rewrite patch_in by (unfold zlen; lia).
  symmetry. apply Z.eqb_eq, F, nth_In. lia.
Qed.
(** The second flag of a double word. *)
Example C72_silent_refuted_ex :
  let m := used_at 1001 112 in
  1001 / 8 = 1000 / 8 /\ m 1001 <> 255 /\ 1001 / 8 = 1000 / 8 /\ patch m 1000 [16] 1001 <> 0.
Proof. repeat split; vm_compute; discriminate. Qed.

(** STM32L5, STM32U5, i.MX RT: whole units to erased flash. *)
Theorem C72_unit_writes_partial : forall u m a d, 0 < u -> a mod u = 0 -> zlen d mod u = 0 ->
  blank m a (zlen d) -> written (unit_write u m a d) m a d.
Proof.
  intros u m a d U A L B.
  destruct (unit_loop_ok u a d U A L (S (length d)) m 0) as (m' & Em & S');
    [lia|apply Z.mod_0_l; lia|unfold zlen; lia|lia| |].
  { rewrite Z.add_0_r, Z.sub_0_r. exact B. }
  exists m'. split; [exact Em|]. rewrite Z.add_0_r in S'. exact S'.
Qed.
Example C72_unit_writes_partial_ex :
  1000 mod 8 = 0 /\ zlen [1; 2; 3; 4; 5; 6; 7; 8] mod 8 = 0 /\ blank fresh_flash 1000 8.
Proof. split; [reflexivity|]. split; [reflexivity|]. intros x _. reflexivity. Qed.
(** Everything else reads past the buffer or stores at an unaligned address. *)
Theorem C72_unit_writes_refuted : forall u m a d, 0 < u -> 0 < zlen d ->
  a mod u <> 0 \/ zlen d mod u <> 0 -> unit_write u m a d = UB.
Proof.
  intros u m a d U L H.
  apply (unit_loop_bad u a d U H); [lia|apply Z.mod_0_l; lia|unfold zlen; lia].
Qed.
Example C72_unit_writes_refuted_ex : 0 < 8 /\ 0 < zlen [112] /\ (1000 mod 8 <> 0 \/ zlen [112] mod 8 <> 0).
Proof. split; [lia|]. split; [reflexivity|]. right. vm_compute. discriminate. Qed.

(** STM32H5. *)
Theorem C72_h5_writes_partial : forall m a d, a mod 8 = 0 -> zlen d mod 8 = 0 ->
  blank m a (zlen d) -> written (h5_write m a d) m a d.
Proof.
  intros m a d A L B.
  destruct (h5_loop_ok a d A L (S (length d)) m 0) as (m' & Em & S');
    [lia|reflexivity|unfold zlen; lia|lia| |].
  { rewrite Z.add_0_r, Z.sub_0_r. exact B. }
  exists m'. split; [exact Em|]. rewrite Z.add_0_r in S'. exact S'.
Qed.
Example C72_h5_writes_partial_ex :
  1000 mod 8 = 0 /\ zlen [1; 2; 3; 4; 5; 6; 7; 8] mod 8 = 0 /\ blank fresh_flash 1000 8.
Proof. split; [reflexivity|]. split; [reflexivity|]. intros x _. reflexivity. Qed.
Theorem C72_h5_writes_refuted : forall m a d, 0 < zlen d ->
  a mod 8 <> 0 \/ zlen d mod 8 <> 0 -> h5_write m a d = UB.
Proof.
  intros m a d L H. apply (h5_loop_bad a d H); [lia|reflexivity|unfold zlen; lia].
Qed.
Example C72_h5_writes_refuted_ex : 0 < zlen [112] /\ (1000 mod 8 <> 0 \/ zlen [112] mod 8 <> 0).
Proof. split; [reflexivity|]. right. vm_compute. discriminate. Qed.

(** Kinetis, MCXA: inside one unit, or whole units. *)
Theorem C72_kinetis_writes_partial : forall u m a d, 0 < u ->
  (forall x, 0 <= m x < 256) -> clears m a d ->
  a mod u + zlen d <= u \/ (a mod u = 0 /\ zlen d mod u = 0) ->
  written (kin_write u m a d) m a d.
Proof. intros u m a d U B C H. apply kin_ok; [exact U|intros x _; apply B|exact C|exact H]. Qed.
Example C72_kinetis_writes_partial_ex : (forall x, 0 <= fresh_flash x < 256) /\
  clears fresh_flash 1003 [1; 2] /\ 1003 mod 8 + zlen [1; 2] <= 8.
Proof. split; [intros x; unfold fresh_flash; lia|]. split; [bytes_fit|]. vm_compute. discriminate. Qed.
(** Whole units and a rest: the rest is taken from the start of the buffer. *)
Theorem C72_kinetis_rest_refuted : forall u m a d, 0 < u -> (forall x, 0 <= m x < 256) ->
  a mod u = 0 -> u < zlen d -> zlen d mod u <> 0 ->
  exists m', kin_write u m a d = Val (m', 0) /\
    same m' (nor m a (firstn (Z.to_nat (zlen d / u * u)) d ++ firstn (Z.to_nat (zlen d mod u)) d)).
Proof. intros u m a d U B A L N. apply kin_tail; try assumption. intros x _. apply B. Qed.
Example C72_kinetis_rest_refuted_ex :
  let d := [1; 2; 3; 4; 5; 6; 7; 8; 9; 10] in
  1000 mod 8 = 0 /\ 8 < zlen d /\ zlen d mod 8 <> 0 /\
  firstn (Z.to_nat (zlen d / 8 * 8)) d ++ firstn (Z.to_nat (zlen d mod 8)) d =
    [1; 2; 3; 4; 5; 6; 7; 8; 1; 2].
Proof. repeat split; try reflexivity. vm_compute. discriminate. Qed.
(** From the middle of one unit into the next: the part in the next one is not written. *)
Theorem C72_kinetis_cut_refuted : forall u m a d, 0 < u -> (forall x, 0 <= m x < 256) ->
  a mod u <> 0 -> u < a mod u + zlen d -> zlen d <= u ->
  exists m', kin_write u m a d = Val (m', 0) /\
    same m' (nor m a (firstn (Z.to_nat (u - a mod u)) d)).
Proof. intros u m a d U B A L N. apply kin_cut; try assumption. intros x _. apply B. Qed.
Example C72_kinetis_cut_refuted_ex :
  1006 mod 8 <> 0 /\ 8 < 1006 mod 8 + zlen [1; 2; 3; 4] /\ zlen [1; 2; 3; 4] <= 8.
Proof. repeat split; vm_compute; try reflexivity; discriminate. Qed.

(** MCXW. *)
Theorem C72_mcxw_writes_partial : forall m a da d, clears m a d ->
  a mod 16 + zlen d <= 16 \/ (a mod 16 = 0 /\ zlen d mod 16 = 0 /\ da mod 16 = 0) ->
  written (mcxw_write m a da d) m a d.
Proof. exact mcxw_ok. Qed.
Example C72_mcxw_writes_partial_ex : clears fresh_flash 1001 [1; 2] /\ 1001 mod 16 + zlen [1; 2] <= 16.
Proof. split; [bytes_fit|]. vm_compute. discriminate. Qed.
(** Aligned address, unaligned buffer, 32 bytes or more: a 16 byte buffer on the stack is
    overrun. *)
Theorem C72_mcxw_stack_refuted : forall m a da d, a mod 16 = 0 -> da mod 16 <> 0 ->
  32 <= zlen d -> mcxw_write m a da d = UB.
Proof. exact mcxw_smash. Qed.
Example C72_mcxw_stack_refuted_ex : 1600 mod 16 = 0 /\ 2004 mod 16 <> 0 /\ 32 <= zlen (repeat 7 32).
Proof. repeat split; vm_compute; discriminate. Qed.

(** HiFive1: exactly when the request ends in its first page or at the end of a page. *)
Theorem C72_hifive_writes_partial : forall ps m a d, 0 < ps -> clears m a d ->
  a mod ps + zlen d <= ps \/ (a mod ps + zlen d) mod ps = 0 ->
  written (hifive_write ps m a d) m a d.
Proof. exact hifive_ok. Qed.
Example C72_hifive_writes_partial_ex : clears fresh_flash 1003 [1; 2; 3; 4; 5; 6; 7; 8; 9] /\
  (1003 mod 4 + zlen [1; 2; 3; 4; 5; 6; 7; 8; 9]) mod 4 = 0.
Proof. split; [bytes_fit|]. reflexivity. Qed.
Theorem C72_hifive_writes_refuted : forall ps m a d, 0 < ps ->
  ps < a mod ps + zlen d -> (a mod ps + zlen d) mod ps <> 0 -> hifive_write ps m a d = UB.
Proof. exact hifive_bad. Qed.
Example C72_hifive_writes_refuted_ex : 4 < 1003 mod 4 + zlen [1; 2; 3] /\
  (1003 mod 4 + zlen [1; 2; 3]) mod 4 <> 0.
Proof. split; vm_compute; [reflexivity|discriminate]. Qed.

(** PSoC 6: one row; of several rows only the first is written, 0 is returned. *)
Theorem C72_psoc_writes_partial : forall row inflash m a d, 0 < row -> zlen d = row ->
  a mod row = 0 -> clears m a d -> written (psoc_write row inflash m a d) m a d.
Proof.
  intros row inflash m a d R L A C.
  destruct (psoc_rows row m a d R ltac:(lia) ltac:(rewrite L; apply Z.mod_same; lia) A)
    as (m' & Em & S').
  exists m'. split.
  - rewrite <- Em. unfold psoc_write. no (zlen d <? row). rewrite L, Z.eqb_refl.
    rewrite andb_false_r. reflexivity.
  - eapply same_trans; [exact S'|]. rewrite <- L. unfold zlen. rewrite Nat2Z.id, firstn_all.
    apply nor_clears, C.
Qed.
Example C72_psoc_writes_partial_ex : 0 < 4 /\ zlen [1; 2; 3; 4] = 4 /\ 1000 mod 4 = 0 /\
  clears fresh_flash 1000 [1; 2; 3; 4].
Proof. split; [lia|]. split; [reflexivity|]. split; [reflexivity|]. bytes_fit. Qed.
(** Less than a row is refused. *)
Theorem C72_psoc_short_writes : forall row inflash m a d, zlen d < row ->
  psoc_write row inflash m a d = Val (m, -1).
Proof. intros row inflash m a d L. unfold psoc_write. destruct (Z.ltb_spec (zlen d) row); [reflexivity|lia]. Qed.
Print Assumptions C72_psoc_short_writes.
Example C72_psoc_short_writes_ex : zlen [1; 2; 3] < 512. Proof. reflexivity. Qed.
Theorem C72_psoc_rows_refuted : forall row m a d, 0 < row -> row <= zlen d ->
  zlen d mod row = 0 -> a mod row = 0 ->
  exists m', psoc_write row false m a d = Val (m', 0) /\
    forall x, a + row <= x -> m' x = m x.
Proof.
  intros row m a d R L M A. destruct (psoc_rows row m a d R L M A) as (m' & Em & S').
  exists m'. split; [exact Em|]. intros x X. rewrite S'. apply nor_out.
  unfold zlen in *. rewrite firstn_length. lia.
Qed.
Example C72_psoc_rows_refuted_ex : 0 < 2 /\ 2 <= zlen [1; 2; 3; 4] /\ zlen [1; 2; 3; 4] mod 2 = 0 /\
  1000 mod 2 = 0.
Proof. repeat split; vm_compute; try reflexivity; discriminate. Qed.

(** SAM E51: aligned, or inside one word. *)
Theorem C72_same51_writes_partial : forall m a da d, clears m a d ->
  a mod 4 = 0 \/ a mod 4 + zlen d <= 4 -> written (same51_write m a da d) m a d.
Proof.
  intros m a da d C [A|L]; [|apply same51_single; assumption].
  destruct (same51_loop_ok a da d A (S (length d)) m 0) as (m' & Em & S');
    [lia|left; reflexivity|unfold zlen; lia|lia|].
  exists m'. split; [exact Em|]. rewrite Z.add_0_r in S'.
  eapply same_trans; [exact S'|]. apply nor_clears, C.
Qed.
Example C72_same51_writes_partial_ex : clears fresh_flash 1000 [1; 2; 3; 4; 5] /\ 1000 mod 4 = 0.
Proof. split; [bytes_fit|]. reflexivity. Qed.
Theorem C72_same51_writes_refuted : exists m a da d,
  clears m a d /\ ~ written (same51_write m a da d) m a d.
Proof.
  exists fresh_flash, 1003, 2000, [1; 2]. split; [bytes_fit|].
  intros (m' & E & S').
  assert (G : exists m2, same51_write fresh_flash 1003 2000 [1; 2] = Val (m2, 0) /\ m2 1004 = 255)
    by (eexists; split; reflexivity).
  destruct G as (m2 & E2 & V). rewrite E2 in E.
  assert (X : m2 = m') by congruence. subst m'. specialize (S' 1004). rewrite V in S'.
  vm_compute in S'. discriminate S'.
Qed.

(** TI Hercules: inside one block, or from the start of a block on. *)
Theorem C72_hercules_writes_partial : forall bs m a d, 0 < bs -> clears m a d ->
  a mod bs + zlen d <= bs \/ a mod bs = 0 -> written (ti_write bs m a d) m a d.
Proof. exact ti_ok. Qed.
Example C72_hercules_writes_partial_ex : clears fresh_flash 1000 [1; 2; 3; 4; 5; 6; 7; 8; 9] /\ 1000 mod 8 = 0.
Proof. split; [bytes_fit|]. reflexivity. Qed.
(** Otherwise a buffer on the stack is overrun, or the command leaves its block. *)
Theorem C72_hercules_writes_refuted : forall bs m a d, 0 < bs -> a mod bs <> 0 ->
  bs < a mod bs + zlen d -> ti_write bs m a d = UB.
Proof. exact ti_bad. Qed.
Example C72_hercules_writes_refuted_ex : 1001 mod 8 <> 0 /\ 8 < 1001 mod 8 + zlen (repeat 7 8).
Proof. split; vm_compute; [discriminate|reflexivity]. Qed.

(** T2080: nothing is written or erased, 0 is returned. *)
Theorem C72_t2080_refuted : forall m a d len,
  t2080_write m a d = Val (m, 0) /\ t2080_erase m a len = Val (m, 0).
Proof. intros. split; reflexivity. Qed.

(** ** C73: erasing *)

(** nRF5340, LPC546xx: every range. *)
Theorem C73_nrf5340 : forall ps fuel m a len, 0 < ps -> 0 <= a -> 0 < len ->
  a + len + ps <= 4294967296 -> len < (Z.of_nat fuel - 2) * ps ->
  erased (nrf5340_erase ps fuel m a len) m ps a len.
Proof. exact nrf5340_ok. Qed.
Example C73_nrf5340_ex : 0 < 4096 /\ 0 <= 5000 /\ 0 < 4096 /\
  5000 + 4096 + 4096 <= 4294967296 /\ 4096 < (Z.of_nat 4 - 2) * 4096.
Proof. cbn [Z.of_nat Pos.of_succ_nat Pos.succ]. lia. Qed.
Theorem C73_lpc : forall ss m a len, 0 < ss -> 0 < len -> erased (lpc_erase ss m a len) m ss a len.
Proof. exact lpc_erase_ok. Qed.
Example C73_lpc_ex : 0 < 32768 /\ 0 < 40000.
Proof. lia. Qed.

(** nRF52, HiFive1: from the start of a page on. *)
Theorem C73_nrf52_partial : forall ps fuel m a len, 0 < ps -> 0 <= a -> 0 < len ->
  a + len + ps <= 4294967296 -> len < (Z.of_nat fuel - 2) * ps -> a mod ps = 0 ->
  erased (nrf52_erase ps fuel m a len) m ps a len.
Proof.
  intros ps fuel m a len P A0 L IN F A.
  destruct (nrf52_spec ps fuel m a len P A0 L IN F) as (m' & Em & X).
  exists m'. split; [exact Em|]. intros x. rewrite X, pages_aligned by (try assumption; lia).
  reflexivity.
Qed.
Example C73_nrf52_partial_ex : 0 < 4096 /\ 0 <= 8192 /\ 0 < 5000 /\
  8192 + 5000 + 4096 <= 4294967296 /\ 5000 < (Z.of_nat 4 - 2) * 4096 /\ 8192 mod 4096 = 0.
Proof. cbn [Z.of_nat Pos.of_succ_nat Pos.succ]. repeat split; lia. Qed.
(** From the middle of a page the last page can be left out. *)
Theorem C73_nrf52_refuted : forall ps fuel m a len, 0 < ps -> 0 <= a -> 0 < len ->
  a + len + ps <= 4294967296 -> len < (Z.of_nat fuel - 2) * ps ->
  ps <= a mod ps + (len - 1) mod ps ->
  exists m', nrf52_erase ps fuel m a len = Val (m', 0) /\
    forall x, x / ps = (a + len - 1) / ps -> m' x = m x.
Proof.
  intros ps fuel m a len P A0 L IN F A.
  destruct (nrf52_spec ps fuel m a len P A0 L IN F) as (m' & Em & X).
  exists m'. split; [exact Em|]. intros x Hx. rewrite X, pages_missing; [reflexivity|exact P|lia| |exact Hx].
  replace (a + len - 1 - a) with (len - 1) by lia. exact A.
Qed.
Example C73_nrf52_refuted_ex : 0 < 4096 /\ 0 <= 8193 /\ 0 < 4096 /\
  8193 + 4096 + 4096 <= 4294967296 /\ 4096 < (Z.of_nat 4 - 2) * 4096 /\
  4096 <= 8193 mod 4096 + (4096 - 1) mod 4096.
Proof. cbn [Z.of_nat Pos.of_succ_nat Pos.succ]. repeat split; lia. Qed.
(** Erasing nothing at address 0 never returns and erases the whole flash. *)
Theorem C73_nrf52_nothing_refuted : forall ps fuel m, nrf52_erase ps fuel m 0 0 = NoFuel.
Proof.
  intros ps fuel m. unfold nrf52_erase. change (u32 (0 + 0 - 1)) with 4294967295.
  destruct (nrf52_never ps fuel m 0) as [H|H]; [exact H|lia].
Qed.

(** STM32L0, G0, C0, WB, L5, U5, H5: from the start of a page on, unless the range ends with the
    first byte of a page. *)
Theorem C73_stm32_partial : forall ps fuel m a len, 1 < ps -> 0 <= a -> 0 < len ->
  a + len + ps <= 4294967296 -> len < (Z.of_nat fuel - 2) * ps -> a mod ps = 0 ->
  len mod ps <> 1 ->
  erased (stm_erase ps fuel m a len) m ps a len.
Proof. intros. apply stm_ok; try assumption; lia. Qed.
Example C73_stm32_partial_ex : 1 < 2048 /\ 0 <= 4096 /\ 0 < 4096 /\
  4096 + 4096 + 2048 <= 4294967296 /\ 4096 < (Z.of_nat 5 - 2) * 2048 /\ 4096 mod 2048 = 0 /\
  4096 mod 2048 <> 1.
Proof.
  cbn [Z.of_nat Pos.of_succ_nat Pos.succ]. repeat split; lia.
Qed.
(** An empty range is refused. *)
Theorem C73_stm32_nothing : forall ps fuel m a, stm_erase ps fuel m a 0 = Val (m, -1).
Proof. reflexivity. Qed.
Print Assumptions C73_stm32_nothing.
Theorem C73_stm32_refuted : forall ps fuel m a len, 0 < ps -> 0 <= a -> 0 < len ->
  a + len + ps <= 4294967296 -> len < (Z.of_nat fuel - 2) * ps -> a mod ps = 0 ->
  len mod ps = 1 ->
  exists m', stm_erase ps fuel m a len = Val (m', 0) /\
    forall x, x / ps = (a + len - 1) / ps -> m' x = m x.
Proof. exact stm_one_more. Qed.
Example C73_stm32_refuted_ex : 0 < 2048 /\ 0 <= 4096 /\ 0 < 1 /\
  4096 + 1 + 2048 <= 4294967296 /\ 1 < (Z.of_nat 5 - 2) * 2048 /\ 4096 mod 2048 = 0 /\
  1 mod 2048 = 1.
Proof. cbn [Z.of_nat Pos.of_succ_nat Pos.succ]. repeat split; lia. Qed.

(** SAM E51, CC26x2, Kinetis. *)
Theorem C73_counting_partial : forall ps fuel m a len, 0 < ps -> 0 < len -> a mod ps = 0 ->
  len <= (Z.of_nat fuel - 1) * ps -> (0 < fuel)%nat ->
  erased (count_erase ps ps fuel m a len) m ps a len /\
  erased (kin_erase ps fuel m a len) m ps a len.
Proof.
  intros ps fuel m a len P L A F F0. split.
  - destruct (count_spec ps P fuel m a len F F0) as (m' & Em & X).
    exists m'. split; [exact Em|]. intros x. rewrite X, pages_aligned by (try assumption; lia).
    reflexivity.
  - apply kin_erase_ok; try assumption. lia.
Qed.
Example C73_counting_partial_ex : 0 < 8192 /\ 0 < 10000 /\ 16384 mod 8192 = 0 /\
  10000 <= (Z.of_nat 3 - 1) * 8192 /\ (0 < 3)%nat.
Proof. cbn [Z.of_nat Pos.of_succ_nat Pos.succ]. repeat split; lia. Qed.
(** Kinetis: erasing nothing erases a sector. *)
Theorem C73_kinetis_nothing_refuted : forall ps fuel m a, 0 < ps -> a mod ps = 0 -> (0 < fuel)%nat ->
  exists m', kin_erase ps fuel m a 0 = Val (m', 0) /\
    forall x, m' x = if x / ps =? a / ps then 255 else m x.
Proof. intros ps fuel m a P A F. apply kin_erase_nothing; try assumption. lia. Qed.
Example C73_kinetis_nothing_refuted_ex : 0 < 4096 /\ 8192 mod 4096 = 0 /\ (0 < 1)%nat.
Proof. repeat split; lia. Qed.

(** MCXW, SAMR21: however long the range, only its first sector is erased. *)
Theorem C73_stuck_refuted : forall ss m a len, 0 < ss -> 0 < len ->
  (forall fuel, len <= (Z.of_nat fuel - 1) * ss -> (0 < fuel)%nat ->
   exists m', mcxw_erase ss fuel m a len = Val (m', 0) /\
     forall x, m' x = if x / ss =? a / ss then 255 else m x) /\
  (forall polls m' r, samr_erase ss polls m a len = Val (m', r) ->
     r = 0 /\ forall x, m' x = if x / ss =? a / ss then 255 else m x).
Proof.
  intros ss m a len P L. split.
  - intros fuel F F0. unfold mcxw_erase.
    destruct (mcxw_loop_spec ss P fuel m (a - a mod ss) len F F0) as (m' & Em & X).
    exists m'. split; [exact Em|]. intros x. rewrite X.
    rewrite (proj2 (Z.ltb_lt 0 len) L). rewrite page_at by exact P.
    replace ((a - a mod ss) / ss) with (a / ss); [reflexivity|].
    symmetry. apply (proj1 (in_page ss (a - a mod ss) (a / ss) P)).
    pose proof (Z.div_mod a ss ltac:(lia)). lia.
  - intros polls m' r H. apply (samr_spec ss P) in H. destruct H as [R X].
    split; [exact R|]. intros x. rewrite X, (proj2 (Z.ltb_lt 0 len) L). apply page_at, P.
Qed.
Example C73_stuck_refuted_ex : 0 < 256 /\ 0 < 512 /\ 512 <= (Z.of_nat 3 - 1) * 256 /\
  exists m', samr_erase 256 [5; 3; 1] fresh_flash 1024 512 = Val (m', 0).
Proof. split; [lia|]. split; [lia|]. split; [lia|]. eexists. reflexivity. Qed.

(** PSoC 6: whole rows; a rest is not erased and 0 is returned. *)
Theorem C73_psoc_partial : forall row fuel m a len, 0 < row -> 0 < len -> len < 4294967296 ->
  len < Z.of_nat fuel * row -> a mod row = 0 -> len mod row = 0 ->
  erased (psoc_erase row fuel m a len) m row a len.
Proof.
  intros row fuel m a len P L U F A M. unfold psoc_erase. no (len =? 0).
  destruct (psoc_erase_spec row P fuel m a (a + len)) as (m' & Em & X); [lia..|].
  exists m'. split; [exact Em|]. intros x. rewrite X.
  pose proof (multiple_ge row len P L M).
  rewrite pages_aligned by (try assumption; lia).
  replace ((a + len - 1) / row) with ((a + len - row) / row); [reflexivity|].
  assert (Q : a + len = (a / row + len / row) * row) by (rewrite Z.mod_eq in A, M by lia; lia).
  transitivity (a / row + len / row - 1); [|symmetry].
  - rewrite Q, div_prev, Z.div_mul by lia. reflexivity.
  - apply in_page; [exact P|]. rewrite Q. lia.
Qed.
Example C73_psoc_partial_ex : 0 < 512 /\ 0 < 1024 /\ 1024 < 4294967296 /\
  1024 < Z.of_nat 3 * 512 /\ 2048 mod 512 = 0 /\ 1024 mod 512 = 0.
Proof. cbn [Z.of_nat Pos.of_succ_nat Pos.succ]. repeat split; lia. Qed.
Theorem C73_psoc_rest_refuted : forall row fuel m a len, 0 < row -> 0 < len -> len < 4294967296 ->
  len < Z.of_nat fuel * row -> a mod row = 0 -> len mod row <> 0 ->
  exists m', psoc_erase row fuel m a len = Val (m', 0) /\
    forall x, x / row = (a + len - 1) / row -> m' x = m x.
Proof.
  intros row fuel m a len P L U F A M. unfold psoc_erase. no (len =? 0).
  destruct (psoc_erase_spec row P fuel m a (a + len)) as (m' & Em & X); [lia..|].
  exists m'. split; [exact Em|]. intros x Hx. rewrite X.
  pose proof (Z.mod_pos_bound len row P) as MB.
  assert (Q : a = a / row * row) by (rewrite Z.mod_eq in A by lia; lia).
  pose proof (Z.div_mod len row ltac:(lia)) as DM.
  destruct (Z_lt_le_dec (a + len - row) a) as [S|G]; [rewrite pages_none by lia; reflexivity|].
  rewrite pages_aligned by (try assumption; lia). rewrite Hx.
  assert (E1 : (a + len - 1) / row = a / row + len / row) by (apply in_page; [exact P|]; lia).
  assert (E2 : (a + len - row) / row = a / row + len / row - 1) by (apply in_page; [exact P|]; lia).
  rewrite E1, E2. no (a / row + len / row <=? a / row + len / row - 1). rewrite andb_false_r. reflexivity.
Qed.
Example C73_psoc_rest_refuted_ex : 0 < 512 /\ 0 < 256 /\ 256 < 4294967296 /\
  256 < Z.of_nat 3 * 512 /\ 2048 mod 512 = 0 /\ 256 mod 512 <> 0.
Proof.
  cbn [Z.of_nat Pos.of_succ_nat Pos.succ]. repeat split; lia.
Qed.

(** STM32F1 reads back: whatever the controller makes of the command, 0 is returned only
    when the range is erased. *)
Theorem C73_checked : forall er fuel m a len m',
  (forall m a x, ~ a <= x < a + 1024 -> er m a x = m x) ->
  f1_erase er fuel m a len = Val (m', 0) ->
  same m' (wipe m a len) /\ 0 < len /\ len mod 1024 = 0 /\
  134217728 <= a /\ a + len <= 134217728 + 131072.
Proof.
  intros er fuel m a len m' ER H. unfold f1_erase in H.
  destruct (f1_valid a len) eqn:V; cbn [negb] in H;
    [|assert (X : (m, -1) = (m', 0)) by congruence; apply pair_equal_spec in X; lia].
  destruct (len mod 1024 =? 0) eqn:M; cbn [negb] in H;
    [|assert (X : (m, -1) = (m', 0)) by congruence; apply pair_equal_spec in X; lia].
  apply Z.eqb_eq in M. unfold f1_valid in V.
  apply andb_true_iff in V. destruct V as [V V3]. apply andb_true_iff in V. destruct V as [V1 V2].
  apply negb_true_iff in V1, V2, V3. apply orb_false_iff in V1, V2.
  destruct V1 as [V1 _]. destruct V2 as [V2 _].
  apply Z.leb_gt in V1. apply Z.ltb_ge in V2, V3.
  assert (Q : len = len / 1024 * 1024) by lia.
  rewrite Q in H. apply f1_erase_loop_sound in H; [|exact ER|lia]. rewrite <- Q in H.
  repeat split; try assumption; lia.
Qed.
Example C73_checked_ex :
  (forall m a x, ~ a <= x < a + 1024 -> wipe m a 1024 x = m x) /\
  exists m', f1_erase (fun m a => wipe m a 1024) 2 (used_at 134217730 7) 134217728 1024 = Val (m', 0).
Proof.
  split; [intros; apply wipe_out; assumption|].
  unfold f1_erase. change (f1_valid 134217728 1024) with true. cbn [negb].
  change (1024 mod 1024 =? 0) with true. cbn [negb].
  apply (f1_erase_loop_total _ (fun m a x => eq_refl) 2 _ 134217728 1); cbn [Z.of_nat Pos.of_succ_nat Pos.succ]; lia.
Qed.

(** STM32F4: every range inside the flash, for every growing table of sectors. *)
Theorem C73_sector_table : forall tab m a len, growing tab -> 0 < len ->
  0 <= a -> a + len <= 4294967296 ->
  nth 0 tab 0 <= a -> a + len <= nth (length tab - 1) tab 0 ->
  sectors_erased (f4_erase tab tab m a len) m tab a len.
Proof. exact f4_erase_ok. Qed.
Example C73_sector_table_ex : growing f4_table /\ nth 0 f4_table 0 <= 60000 /\
  60000 + 100000 <= nth (length f4_table - 1) f4_table 0.
Proof. cbn [growing f4_table]. repeat split; vm_compute; try reflexivity; discriminate. Qed.

(** STM32F7: the last entry but one of the table is wrong.  Erasing the last sector but one also
    erases the last one; a range inside it can leave it alone and erase the last one instead. *)
Theorem C73_f7_table_refuted :
  (forall m, exists m', f4_erase f7_table f7_sectors m 1572864 262144 = Val (m', 0) /\
     forall x, 1835008 <= x < 2097152 -> m' x = 255) /\
  (forall m a len, 0 < len -> 1622016 <= a -> a + len <= 1835008 ->
     exists m', f4_erase f7_table f7_sectors m a len = Val (m', 0) /\
       forall x, m' x = if (1835008 <=? x) && (x <? 2097152) then 255 else m x).
Proof.
  assert (G : growing f7_table) by (cbn [growing f7_table]; repeat split; lia).
  assert (GP : growing f7_sectors) by (cbn [growing f7_sectors]; repeat split; lia).
  split.
  - intros m. rewrite (f4_erase_eq f7_table f7_sectors m 1572864 262144 10 11 G);
      [|lia|lia|lia|split; [cbn [length f7_table]; lia|cbn [nth f7_table]; lia]..].
    eexists. split; [reflexivity|]. intros x X.
    rewrite erase_sectors_at; [|exact GP|cbn [length f7_sectors]; lia].
    cbn [nth f7_sectors Nat.add Nat.sub].
    yes (1572864 <=? x). yes (x <? 2097152). reflexivity.
  - intros m a len L LO HI. rewrite (f4_erase_eq f7_table f7_sectors m a len 11 11 G);
      [|lia|lia|lia|split; [cbn [length f7_table]; lia|cbn [nth f7_table]; lia]..].
    eexists. split; [reflexivity|]. intros x.
    rewrite erase_sectors_at; [|exact GP|cbn [length f7_sectors]; lia].
    reflexivity.
Qed.
Example C73_f7_table_refuted_ex : 0 < 4096 /\ 1622016 <= 1703936 /\ 1703936 + 4096 <= 1835008.
Proof. lia. Qed.

(** STM32H7, first bank. *)
Theorem C73_h7_partial : forall fuel m a len, 0 <= a -> 0 < len -> a + len <= 1048576 ->
  a mod 131072 = 0 -> len mod 131072 = 0 -> len < (Z.of_nat fuel - 1) * 131072 ->
  erased (h7_erase fuel m a len) m 131072 a len.
Proof.
  intros fuel m a len A0 L HI A M F. unfold h7_erase. no (len =? 0). rewrite u32_small by lia.
  destruct (h7_bank1 fuel m a (a + len - 1)) as (m' & Em & X);
    [exact A0|exact A|unfold h7_bank2; lia|unfold h7_sector; lia|lia|].
  exists m'. split; [exact Em|]. intros x. rewrite X.
  rewrite pages_aligned; [|reflexivity|exact A|lia]. unfold h7_sector.
  replace ((a + len - 1 - 1) / 131072) with ((a + len - 1) / 131072) by lia. reflexivity.
Qed.
Example C73_h7_partial_ex : 0 <= 131072 /\ 0 < 262144 /\ 131072 + 262144 <= 1048576 /\
  131072 mod 131072 = 0 /\ 262144 mod 131072 = 0 /\ 262144 < (Z.of_nat 4 - 1) * 131072.
Proof. cbn [Z.of_nat Pos.of_succ_nat Pos.succ]. repeat split; lia. Qed.
(** In the second bank only the first sector of the range is erased and 0 is returned. *)
Theorem C73_h7_bank2_refuted : forall fuel m a len, 1048576 <= a -> 1 < len -> a + len <= 2097152 ->
  (2 <= fuel)%nat ->
  exists m', h7_erase fuel m a len = Val (m', 0) /\
    forall x, m' x = if x / 131072 =? a / 131072 then 255 else m x.
Proof.
  intros fuel m a len A L HI F. unfold h7_erase. no (len =? 0). rewrite u32_small by lia.
  destruct fuel as [|[|f]]; [lia|lia|].
  apply (h7_bank2_one f m a (a + len - 1)); unfold h7_bank2; lia.
Qed.
Example C73_h7_bank2_refuted_ex : 1048576 <= 1048576 /\ 1 < 524288 /\ 1048576 + 524288 <= 2097152 /\
  (2 <= 2)%nat.
Proof. lia. Qed.

(** ** C74: the flags of the STM32H7 *)

Lemma h7_flag_ops : forall c m a da d e,
  (e = boot_at c + part_size c \/
   (e = update_at c + part_size c /\ in_flags (boot_at c + part_size c) a = false)) ->
  e mod 32 = 0 -> 0 < zlen d -> e - 32 <= a -> a + zlen d <= e ->
  h7_write c m a da d =
    Val ([Wipe (flags_page e) h7_sector;
          Prog (e - 32) (splice (bytes m (e - 32) 32) (a - (e - 32)) d)], 0).
Proof.
  intros c m a da d e W E L LO HI. unfold h7_write.
  destruct d as [|b d]; [change (zlen (@nil Z)) with 0 in L; lia|].
  set (dd := b :: d) in *. change (length dd) with (S (length d)). 
  assert (AM : a mod 32 = a - (e - 32)) by lia.
  assert (FL : in_flags e a = true).
  { unfold in_flags, flags_page, h7_sector. yes ((e - 1) / 131072 * 131072 <=? a). yes (a <? e).
    reflexivity. }
  remember (S (length d)) as f eqn:EF. cbn [h7_write_loop].
  yes (0 <? zlen dd). cbv iota. no (32 <? zlen dd - 0). cbn [andb]. rewrite !Z.add_0_r. cbv zeta.
  rewrite AM. replace (a - (a - (e - 32))) with (e - 32) by lia.
  replace (Z.min (32 - (a - (e - 32))) (zlen dd - 0)) with (zlen dd) by lia.
  destruct (grab_ok dd 0 (zlen dd)) as (E1 & Ln & A1); [lia..|]. rewrite E1. cbn [obind].
  rewrite whole_sub. rewrite Z.add_0_l. subst f.
  destruct W as [ -> |[ -> NB]].
  - rewrite FL. rewrite Z.eqb_refl. cbn [negb h7_write_loop]. no (zlen dd <? zlen dd). reflexivity.
  - rewrite NB, FL. rewrite Z.eqb_refl. cbn [negb h7_write_loop]. no (zlen dd <? zlen dd). reflexivity.
Qed.

(** When the write is done, the flag is set and the other flags in the last 32 bytes are kept. *)
Theorem C74_h7_flags_partial : forall c m a da d e,
  (e = boot_at c + part_size c \/
   (e = update_at c + part_size c /\ in_flags (boot_at c + part_size c) a = false)) ->
  e mod 32 = 0 -> 0 < zlen d -> e - 32 <= a -> a + zlen d <= e ->
  exists ops, h7_write c m a da d = Val (ops, 0) /\
    forall x, e - 32 <= x < e -> chip_run m ops x = patch m a d x.
Proof.
  intros c m a da d e W E L LO HI. eexists. split; [apply h7_flag_ops; eassumption|].
  intros x X. cbn [chip_run fold_left chip_step].
  assert (LV : zlen (splice (bytes m (e - 32) 32) (a - (e - 32)) d) = 32).
  { rewrite zlen_splice; rewrite ?zlen_bytes; lia. }
  rewrite ecc_blank.
  - pose proof (patch_rmw m (e - 32) 32 (a - (e - 32)) d ltac:(lia) ltac:(lia) x) as R.
    replace (e - 32 + (a - (e - 32))) with a in R by lia. rewrite <- R.
    rewrite !patch_in by lia. reflexivity.
  - rewrite LV. intros y Y. apply wipe_in. unfold flags_page, h7_sector. lia.
Qed.
Example C74_h7_flags_partial_ex :
  let e := boot_at h7_example + part_size h7_example in
  e mod 32 = 0 /\ e - 32 <= e - 5 /\ e - 5 + zlen [112] <= e.
Proof. vm_compute. repeat split; try reflexivity; discriminate. Qed.

(** But the sector is erased first: after a power failure in between every flag of the
    partition is gone, and when the write is done the rest of the sector is gone. *)
Theorem C74_h7_power_refuted : forall c m a da d e,
  (e = boot_at c + part_size c \/
   (e = update_at c + part_size c /\ in_flags (boot_at c + part_size c) a = false)) ->
  e mod 32 = 0 -> 0 < zlen d -> e - 32 <= a -> a + zlen d <= e ->
  exists o1 o2, h7_write c m a da d = Val ([o1; o2], 0) /\
    (forall x, e - 32 <= x < e -> chip_run m [o1] x = 255) /\
    (forall x, x / 131072 = (e - 1) / 131072 -> ~ e - 32 <= x < e ->
       chip_run m [o1; o2] x = 255).
Proof.
  intros c m a da d e W E L LO HI. do 2 eexists. split; [apply h7_flag_ops; eassumption|].
  split.
  - intros x X. cbn [chip_run fold_left chip_step]. apply wipe_in. unfold flags_page, h7_sector. lia.
  - intros x X N. cbn [chip_run fold_left chip_step].
    assert (LV : zlen (splice (bytes m (e - 32) 32) (a - (e - 32)) d) = 32).
    { rewrite zlen_splice; rewrite ?zlen_bytes; lia. }
    rewrite ecc_blank.
    + rewrite patch_out by lia. apply wipe_in. unfold flags_page, h7_sector. lia.
    + rewrite LV. intros y Y. apply wipe_in. unfold flags_page, h7_sector. lia.
Qed.
Example C74_h7_power_refuted_ex :
  let e := update_at h7_example + part_size h7_example in
  in_flags (boot_at h7_example + part_size h7_example) (e - 5) = false /\
  e mod 32 = 0 /\ e - 32 <= e - 5 /\ e - 5 + zlen [112] <= e.
Proof. vm_compute. repeat split; try reflexivity; discriminate. Qed.

(** With the shipped configuration the end of the boot partition shares its sector with the
    start of the update partition: setting a flag of the boot partition erases the first 64 KB
    of the update. *)
Theorem C74_h7_example_refuted : forall m a da d, 0 < zlen d -> 983008 <= a -> a + zlen d <= 983040 ->
  exists ops, h7_write h7_example m a da d = Val (ops, 0) /\
    forall x, update_at h7_example <= x < update_at h7_example + 65536 -> chip_run m ops x = 255.
Proof.
  intros m a da d L LO HI.
  destruct (C74_h7_power_refuted h7_example m a da d 983040) as (o1 & o2 & E & _ & H);
    [left; reflexivity|reflexivity|exact L|lia|exact HI|].
  exists [o1; o2]. split; [exact E|]. intros x X. cbn [update_at h7_example] in X. apply H; [|lia].
  change ((983040 - 1) / 131072) with 7. lia.
Qed.
Example C74_h7_example_refuted_ex : 0 < zlen [112] /\ 983008 <= 983035 /\ 983035 + zlen [112] <= 983040.
Proof. repeat split; vm_compute; try reflexivity; discriminate. Qed.

Print Assumptions C71_byte_writes.
Print Assumptions C71_page_writes.
Print Assumptions C71_block_writes.
Print Assumptions C71_checked_writes.
Print Assumptions C71_checked_writes_work.
Print Assumptions C72_word_writes_partial.
Print Assumptions C72_word_writes_refuted.
Print Assumptions C72_double_word_writes_partial.
Print Assumptions C72_double_word_overread_refuted.
Print Assumptions C72_base_added_refuted.
Print Assumptions C72_silent_refuted.
Print Assumptions C72_unit_writes_partial.
Print Assumptions C72_unit_writes_refuted.
Print Assumptions C72_h5_writes_partial.
Print Assumptions C72_h5_writes_refuted.
Print Assumptions C72_kinetis_writes_partial.
Print Assumptions C72_kinetis_rest_refuted.
Print Assumptions C72_kinetis_cut_refuted.
Print Assumptions C72_mcxw_writes_partial.
Print Assumptions C72_mcxw_stack_refuted.
Print Assumptions C72_hifive_writes_partial.
Print Assumptions C72_hifive_writes_refuted.
Print Assumptions C72_psoc_writes_partial.
Print Assumptions C72_psoc_rows_refuted.
Print Assumptions C72_same51_writes_partial.
Print Assumptions C72_same51_writes_refuted.
Print Assumptions C72_hercules_writes_partial.
Print Assumptions C72_hercules_writes_refuted.
Print Assumptions C72_t2080_refuted.
Print Assumptions C73_nrf5340.
Print Assumptions C73_lpc.
Print Assumptions C73_nrf52_partial.
Print Assumptions C73_nrf52_refuted.
Print Assumptions C73_nrf52_nothing_refuted.
Print Assumptions C73_stm32_partial.
Print Assumptions C73_stm32_refuted.
Print Assumptions C73_counting_partial.
Print Assumptions C73_kinetis_nothing_refuted.
Print Assumptions C73_stuck_refuted.
Print Assumptions C73_psoc_partial.
Print Assumptions C73_psoc_rest_refuted.
Print Assumptions C73_checked.
Print Assumptions C73_sector_table.
Print Assumptions C73_f7_table_refuted.
Print Assumptions C73_h7_partial.
Print Assumptions C73_h7_bank2_refuted.
Print Assumptions C74_h7_flags_partial.
Print Assumptions C74_h7_power_refuted.
Print Assumptions C74_h7_example_refuted.
