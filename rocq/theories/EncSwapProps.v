(** C40, C41: the swap when the update partition is encrypted and in external flash. *)
From Verif Require Import Base BaseLemmas HeaderModel Flash FlashLemmas CryptModel CryptSpec CryptProofs CryptProps EncSwapModel EncSwapSpec EncSwapProofs.
Local Ltac Zify.zify_post_hook ::= idtac.

Lemma lxor_twice : forall a b, Z.lxor (Z.lxor a b) b = a.
Proof. intros. rewrite Z.lxor_assoc, Z.lxor_nilpotent, Z.lxor_0_r. reflexivity. Qed.
Lemma plain_part : forall x, enc_ok x -> plain_from (X x) <= PSZ (X x).
Proof.
  intros x HX. pose proof HX as (((HB & _) & _ & _ & HS & _) & _). unfold plain_from.
  pose proof (Z.mul_div_le (SFO (X x) - EBS (EC (X x))) (EBS (EC (X x))) HB). lia.
Qed.

(** ** C40: one sector, with any number of interrupted attempts at each step *)

Theorem C40_sector_retries : forall x su sb k buf g t1, enc_ok x -> bytes2 g -> 0 <= k -> (k + 1) * SSZ (X x) <= plain_from (X x) ->
  only x ESwp k g t1 ->
  exists g1, copy_enc x EUpd ESwp su k buf t1 = Val g1 /\ only x ESwp k g g1 /\
  forall t2, only x EUpd k g1 t2 ->
  exists g2, copy_enc x EBoot EUpd sb k buf t2 = Val g2 /\ only x EUpd k g1 g2 /\
  forall t3, only x EBoot k g2 t3 ->
  exists g3, copy_enc x ESwp EBoot (SSZ (X x)) k buf t3 = Val g3 /\ swapped x k 1 su sb g g3.
Proof.
  intros x su sb k buf g t1 HX HB Hk HK (B1 & I1 & X1). pose proof (plain_part x HX) as PP.
  pose proof HX as (_ & _ & S0 & _ & _ & _ & HD & _). assert (KN : 0 <= k * SSZ (X x)) by (apply Z.mul_nonneg_nonneg; lia).
  destruct (copy_us x HX t1 B1 su k buf Hk ltac:(ql)) as (g1 & E1 & J1 & F1 & Y1 & W1).
  assert (O1 : only x ESwp k g g1).
  { split; [exact Y1|]. split; [congruence|]. intros a Ha. rewrite F1 by exact Ha. apply X1, Ha. }
  exists g1. split; [exact E1|]. split; [exact O1|].
  intros t2 (B2 & I2 & X2). destruct (copy_bu x HX t2 B2 sb k buf Hk HK) as (g2 & E2 & J2 & F2 & Y2 & W2).
  assert (O2 : only x EUpd k g1 g2).
  { split; [exact Y2|]. split; [congruence|]. intros a Ha. rewrite F2 by ql. apply X2, Ha. }
  exists g2. split; [exact E2|]. split; [exact O2|].
  intros t3 (B3 & I3 & X3). destruct (copy_sb x HX t3 B3 k buf Hk ltac:(ql)) as (g3 & E3 & J3 & F3 & Y3 & W3).
  exists g3. split; [exact E3|]. split; [exact Y3|]. split; [|split; [|split]].
  - intros a Ha. rewrite F3 by ql. rewrite X3 by ql. rewrite J2, I2, J1, I1. reflexivity.
  - intros a Ha Ha2. rewrite J3, I3. destruct O2 as (_ & _ & O2). rewrite O2 by exact Ha. destruct O1 as (_ & _ & O1). apply O1, Ha2.
  - intros i Hi Hs. replace i with (k * SSZ (X x) + (i - k * SSZ (X x))) by ring. rewrite W3 by ql. unfold upd_at. f_equal.
    unfold swap_raw. rewrite I3. destruct O2 as (_ & _ & O2). rewrite O2 by ql. change (extf g1 (SWP (X x) + (i - k * SSZ (X x)))) with (swap_raw x g1 (i - k * SSZ (X x))).
    rewrite W1 by ql. unfold upd_raw. apply X1. ql.
  - intros i Hi Hs. unfold upd_at, upd_raw. rewrite J3, I3. change (extf g2 (UPD (X x) + i)) with (upd_raw x g2 i).
    replace i with (k * SSZ (X x) + (i - k * SSZ (X x))) by ring. rewrite W2 by ql. rewrite lxor_twice. unfold boot_at. rewrite I2, J1, I1. reflexivity.
Qed.
Print Assumptions C40_sector_retries.

(** Erasing and writing the destination changes nothing else, so that an interrupted copy
    leaves an [only] state. *)
Theorem C40_interrupted : forall x p k pos b g, enc_ok x -> bytes2 g -> all_bytes b -> XFB x <= zlen b -> 0 <= k -> (k + 1) * SSZ (X x) <= plain_from (X x) ->
  0 <= pos -> pos + XFB x <= SSZ (X x) -> pos mod XFB x = 0 ->
  let off := match p with ESwp => 0 | _ => k * SSZ (X x) end in
  only x p k g (wb_erase x p off (SSZ (X x)) g) /\ exists g', wb_write x p (off + pos) b g = Val g' /\ only x p k g g'.
Proof.
  intros x p k pos b g HX (HB1 & HB2) Hb Hl Hk HK H0 HL Hm off. pose proof (plain_part x HX) as PP.
  pose proof HX as (HO & (HF & HC) & S0 & _ & FM & _ & HD & _). pose proof HO as (Lw & _). pose proof Lw as (HB & _). assert (KN : 0 <= k * SSZ (X x)) by (apply Z.mul_nonneg_nonneg; lia).
  assert (NB : forall i, is_byte (nth i b 0)).
  { intro i. destruct (Nat.lt_ge_cases i (length b)) as [L|L]; [|rewrite nth_overflow by exact L; unfold is_byte; lia].
    unfold all_bytes in Hb. rewrite Forall_forall in Hb. apply Hb, nth_In, L. }
  split.
  - subst off. destruct p; cbn [wb_erase only ebase intf extf]; (split; [split; cbn [intf extf]; first [assumption|apply bytes_erase; assumption]|]); (split; [reflexivity|]); intros a Ha; apply erase_out; ql.
  - subst off. destruct p; cbn [wb_write ebase].
    + eexists. split; [reflexivity|]. split; [split; [apply bytes_write; [exact HB1|intros; apply NB]|exact HB2]|]. split; [reflexivity|].
      cbn [intf]. intros a Ha. apply write_out. ql.
    + assert (PM : pos mod EBS (EC (X x)) = 0).
      { apply Z.mod_divide in Hm as (q & ->); [|ql]. apply mult_mod; assumption. }
      assert (AM : (k * SSZ (X x) + pos) mod EBS (EC (X x)) = 0) by (apply sum_mod; [exact HB|apply mult_mod; [exact HB|apply sect_mod; exact HX]|exact PM]).
      rewrite (enc_write_ok (X x) (extf g) (k * SSZ (X x) + pos) b (XFB x) HO ltac:(ql) AM ltac:(ql) FM ltac:(ql) Hl ltac:(ql) ltac:(ql)).
      cbn [obind]. eexists. split; [reflexivity|]. split; [split; [exact HB1|apply bytes_write; [exact HB2|]]|].
      { intros i Hi. destruct (Nat.lt_ge_cases (Z.to_nat i) (length (firstn (Z.to_nat (XFB x)) b))) as [L|L].
        - rewrite encrypted_nth by exact L. apply lxor_byte; [|apply stream_byte, Lw]. rewrite <- DualProofs.nth_firstn_lt by (rewrite firstn_length in L; lia). apply NB.
        - rewrite nth_overflow by (rewrite encrypted_length; exact L). unfold is_byte. lia. }
      split; [reflexivity|]. cbn [extf]. intros a Ha. apply write_out. ql.
    + pose proof (in_swap x (0 + pos) HX ltac:(ql)) as IS. unfold enc_write. rewrite IS. rewrite ext_write_ok by ql. cbn [obind]. eexists. split; [reflexivity|].
      split; [split; [exact HB1|apply bytes_write; [exact HB2|intros; apply NB]]|]. split; [reflexivity|]. cbn [extf]. intros a Ha. apply write_out. ql.
Qed.
Print Assumptions C40_interrupted.

(** ** C40: the whole image *)

Lemma only_refl : forall x p k g, bytes2 g -> only x p k g g.
Proof. intros x p k g H. split; [exact H|]. destruct p; (split; [reflexivity|intros; reflexivity]). Qed.

Theorem C40_sector : forall x su sb k buf g, enc_ok x -> bytes2 g -> 0 <= k -> (k + 1) * SSZ (X x) <= plain_from (X x) ->
  exists g', swap_sector x su sb k buf g = Val g' /\ swapped x k 1 su sb g g'.
Proof.
  intros x su sb k buf g HX HB Hk HK.
  destruct (C40_sector_retries x su sb k buf g g HX HB Hk HK (only_refl _ _ _ _ HB)) as (g1 & E1 & (B1 & _) & R1).
  destruct (R1 g1 (only_refl _ _ _ _ B1)) as (g2 & E2 & (B2 & _) & R2). destruct (R2 g2 (only_refl _ _ _ _ B2)) as (g3 & E3 & W).
  exists g3. unfold swap_sector. rewrite E1. cbn [obind]. rewrite E2. cbn [obind]. split; [exact E3|exact W].
Qed.
Print Assumptions C40_sector.

Theorem C40_image : forall n x su sb k buf g, enc_ok x -> bytes2 g -> 0 <= k -> (k + Z.of_nat n) * SSZ (X x) <= plain_from (X x) ->
  exists g', swap_sectors n x su sb k buf g = Val g' /\ swapped x k (Z.of_nat n) su sb g g'.
Proof.
  induction n as [|n IH]; intros x su sb k buf g HX HB Hk HK.
  - exists g. split; [reflexivity|]. cbn [Z.of_nat]. split; [exact HB|]. split; [intros a _; reflexivity|]. split; [intros a _ _; reflexivity|]. split; intros; lia.
  - pose proof (plain_part x HX) as PP. pose proof HX as (_ & _ & S0 & _ & _ & _ & HD & _). assert (KN : 0 <= k * SSZ (X x)) by (apply Z.mul_nonneg_nonneg; lia).
    rewrite Nat2Z.inj_succ in *. unfold Z.succ in *. assert (NN : 0 <= Z.of_nat n * SSZ (X x)) by (apply Z.mul_nonneg_nonneg; lia).
    assert (NN2 : Z.of_nat n * SSZ (X x) + k * SSZ (X x) + SSZ (X x) <= plain_from (X x)) by (replace (Z.of_nat n * SSZ (X x) + k * SSZ (X x) + SSZ (X x)) with ((k + (Z.of_nat n + 1)) * SSZ (X x)) by ring; exact HK).
    cbn [swap_sectors]. destruct (C40_sector x su sb k buf g HX HB Hk ltac:(ql)) as (g1 & E1 & B1 & A1 & X1 & U1 & V1). rewrite E1. cbn [obind].
    destruct (IH x su sb (k + 1) buf g1 HX B1 ltac:(lia) ltac:(ql)) as (g2 & E2 & B2 & A2 & X2 & U2 & V2). rewrite E2.
    exists g2. split; [reflexivity|]. split; [exact B2|]. split; [|split; [|split]].
    + intros a Ha. rewrite A2 by ql. apply A1. ql.
    + intros a Ha Hs. rewrite X2 by ql. apply X1; ql.
    + intros i Hi Hs. destruct (Z.lt_ge_cases i ((k + 1) * SSZ (X x))) as [L|L].
      * unfold boot_at. rewrite A2 by ql. apply U1; ql.
      * rewrite U2 by ql. unfold upd_at, upd_raw. rewrite X1 by ql. reflexivity.
    + intros i Hi Hs. destruct (Z.lt_ge_cases i ((k + 1) * SSZ (X x))) as [L|L].
      * unfold upd_at, upd_raw. rewrite X2 by ql. apply V1; ql.
      * rewrite V2 by ql. unfold boot_at. apply A1. ql.
Qed.
Print Assumptions C40_image.

(** The new image, stored encrypted, ends up in clear in the boot partition; the old one can
    be read back from the update partition. *)
Theorem C40_update : forall n x buf g new old cur, enc_ok x -> bytes2 g -> stores (X x) (extf g) 0 new -> old = rdl (intf g) (XBOOT x) (length old) ->
  zlen new <= Z.of_nat n * SSZ (X x) -> zlen old <= Z.of_nat n * SSZ (X x) -> Z.of_nat n * SSZ (X x) <= plain_from (X x) -> 0 < zlen old ->
  exists g', swap_sectors n x (zlen new - XHDR x) (zlen old - XHDR x) 0 buf g = Val g' /\
    rdl (intf g') (XBOOT x) (length new) = new /\ stores (X x) (extf g') 0 old /\
    dec_read (X x) true cur (extf g') (UPD (X x)) (zlen old) = Val (zlen old, old).
Proof.
  intros n x buf g new old cur HX HB HN HO LN LO HK OP. pose proof (plain_part x HX) as PP.
  destruct (C40_image n x (zlen new - XHDR x) (zlen old - XHDR x) 0 buf g HX HB ltac:(lia) HK) as (g' & E & _ & _ & _ & U & V).
  exists g'. split; [exact E|].
  assert (ST : stores (X x) (extf g') 0 old).
  { intros i Hi. specialize (V i ltac:(lia) ltac:(lia)). unfold upd_at, upd_raw, boot_at in V.
    replace (UPD (X x) + 0 + i) with (UPD (X x) + i) by ring. rewrite <- (lxor_twice (extf g' (UPD (X x) + i)) (stream (EC (X x)) i)).
    rewrite V. cbn [Z.add]. f_equal. rewrite HO. rewrite rdl_nth by (unfold zlen in Hi; lia). f_equal. lia. }
  split; [|split; [exact ST|]].
  - apply (nth_ext _ _ 0 0); [apply length_rdl|]. intros i Hi. rewrite length_rdl in Hi. rewrite rdl_nth by exact Hi.
    specialize (U (Z.of_nat i) ltac:(unfold zlen in *; lia) ltac:(unfold zlen in *; lia)). unfold boot_at, upd_at, upd_raw in U. rewrite U.
    specialize (HN (Z.of_nat i) ltac:(unfold zlen; lia)). rewrite Z.add_0_r in HN. rewrite HN. cbn [Z.add]. rewrite lxor_twice, Nat2Z.id. reflexivity.
  - pose proof HX as (EO & _). pose proof EO as ((HB2 & _) & _).
    pose proof (dec_read_ok (X x) cur (extf g') 0 (zlen old) EO ltac:(lia) ltac:(lia) ltac:(lia) (or_introl (Z.mod_0_l (EBS (EC (X x))) ltac:(lia)))) as D. rewrite Z.add_0_r in D. rewrite D. f_equal. f_equal.
    unfold ext_read. apply (nth_ext _ _ 0 0); [rewrite encrypted_length, length_rdl; unfold zlen; lia|]. intros i Hi. rewrite encrypted_length, length_rdl in Hi.
    rewrite encrypted_nth by (rewrite length_rdl; lia). rewrite rdl_nth by exact Hi.
    specialize (ST (Z.of_nat i) ltac:(unfold zlen in *; lia)). rewrite Z.add_0_r in ST. rewrite ST. cbn [Z.add]. rewrite Nat2Z.id. apply lxor_twice.
Qed.
Print Assumptions C40_update.

(** A build without backup copies the update straight to the boot partition. *)
Theorem C40_direct : forall x su k buf g, enc_ok x -> bytes2 g -> 0 <= k -> (k + 1) * SSZ (X x) <= plain_from (X x) ->
  exists g', copy_enc x EUpd EBoot su k buf g = Val g' /\ only x EBoot k g g' /\
    forall i, k * SSZ (X x) <= i < (k + 1) * SSZ (X x) -> i < su + XHDR x -> boot_at x g' i = upd_at x g i.
Proof.
  intros x su k buf g HX HB Hk HK. destruct (copy_ub x HX g HB su k buf Hk HK) as (g' & E & J & F & Y & W). exists g'. split; [exact E|].
  split; [split; [exact Y|]; split; [exact J|]; intros a Ha; apply F; ql|]. intros i Hi Hs.
  replace i with (k * SSZ (X x) + (i - k * SSZ (X x))) by ring. apply W; ql.
Qed.
Print Assumptions C40_direct.

(** Three sectors of 256 bytes; the new image is 500 bytes, the old one 600. *)
Definition demo_enc : encfg := {| X := demo_ext; XBOOT := 1024; XFB := 64; XHDR := 32 |}.
Lemma demo_enc_ok : enc_ok demo_enc.
Proof. split; [exact demo_ext_ok|]. cbn. lia. Qed.
Definition demo_new : list Z := demo_chunk 5 500.
Definition demo_old : list Z := demo_chunk 9 600.
Definition demo_store : store2 :=
  mkS (fun a => if inr 1024 600 a then (9 + 3 * (a - 1024)) mod 256 else 255)
      (fun a => if inr 4096 500 a then Z.lxor ((5 + 3 * (a - 4096)) mod 256) (stream (EC demo_ext) (a - 4096)) else 255).

Lemma nth_chunk : forall b n i, (i < n)%nat -> nth i (demo_chunk b n) 0 = (b + 3 * Z.of_nat i) mod 256.
Proof.
  intros b n i H. unfold demo_chunk. set (h := fun j => (b + 3 * Z.of_nat j) mod 256). rewrite (nth_indep _ 0 (h O)) by (rewrite map_length, seq_length; exact H).
  rewrite (map_nth h), seq_nth by exact H. reflexivity.
Qed.
Lemma demo_store_bytes : bytes2 demo_store.
Proof.
  split; intro a; cbn [intf extf demo_store].
  - destruct (inr 1024 600 a); [apply Z.mod_pos_bound; lia|unfold is_byte; lia].
  - destruct (inr 4096 500 a); [|unfold is_byte; lia]. apply lxor_byte; [apply Z.mod_pos_bound; lia|apply stream_byte, demo_ext_ok].
Qed.

Example C40_hyps :
  enc_ok demo_enc /\ bytes2 demo_store /\ stores (X demo_enc) (extf demo_store) 0 demo_new /\
  demo_old = rdl (intf demo_store) (XBOOT demo_enc) (length demo_old) /\
  zlen demo_new <= 3 * SSZ (X demo_enc) /\ zlen demo_old <= 3 * SSZ (X demo_enc) /\ 3 * SSZ (X demo_enc) <= plain_from (X demo_enc) /\
  match swap_sectors 3 demo_enc 468 568 0 [] demo_store with
  | Val g => (nth 499 (rdl (intf g) 1024 500) 0 =? nth 499 demo_new 0) && negb (extf g (4096 + 599) =? nth 599 demo_old 0)
  | _ => false
  end = true.
Proof.
  split; [exact demo_enc_ok|]. split; [exact demo_store_bytes|]. split.
  - intros i Hi. change (zlen demo_new) with 500 in Hi. unfold demo_new. rewrite nth_chunk by lia. cbn [extf demo_store X demo_enc UPD demo_ext].
    unfold inr. destruct (Z.leb_spec 4096 (4096 + 0 + i)); [|lia]. destruct (Z.ltb_spec (4096 + 0 + i) (4096 + 500)); [|lia]. cbn [andb].
    replace (4096 + 0 + i - 4096) with i by ring. rewrite Z2Nat.id by lia. reflexivity.
  - split; [vm_compute; reflexivity|]. split; [vm_compute; discriminate|]. split; [vm_compute; discriminate|]. split; [vm_compute; discriminate|]. vm_compute. reflexivity.
Qed.

(** ** C41: the sector saved before the flags are erased *)

(** What comes back is not what was saved: it has been "decrypted" although it was saved in
    clear. *)
Theorem C41_restored : forall x sb k key buf g, enc_ok x -> bytes2 g -> bytes key -> 0 <= k -> (k + 1) * SSZ (X x) <= PSZ (X x) ->
  exists g1 g3, save_restore x sb k key buf g = Val (g1, g3) /\
    forall i, k * SSZ (X x) <= i < (k + 1) * SSZ (X x) -> i < sb + XHDR x ->
      extf g1 (SWP (X x) + (i - k * SSZ (X x))) = boot_at x g i /\
      boot_at x g3 i = Z.lxor (boot_at x g i) (stream (EC (X x)) i).
Proof.
  intros x sb k key buf g HX HB HKey Hk HK. unfold save_restore.
  destruct (copy_bs x HX g HB sb k buf Hk) as (g1 & E1 & J1 & F1 & Y1 & W1). rewrite E1. cbn [obind]. cbv zeta.
  match goal with |- context [copy_enc x ESwp EBoot _ k buf ?q] => set (g2 := q) in * end.
  assert (B2 : bytes2 g2).
  { split; [intro a; cbn [g2 intf]; destruct (inr _ _ a); [apply HKey|apply Y1]|apply Y1]. }
  destruct (copy_sb x HX g2 B2 k buf Hk HK) as (g3 & E3 & J3 & F3 & Y3 & W3). rewrite E3. cbn [obind]. exists g1, g3. split; [reflexivity|].
  intros i Hi Hs. assert (Q : swap_raw x g1 (i - k * SSZ (X x)) = boot_at x g i) by (rewrite W1 by ql; f_equal; ring).
  split; [exact Q|]. replace i with (k * SSZ (X x) + (i - k * SSZ (X x))) at 1 by ring. rewrite W3 by ql.
  replace (k * SSZ (X x) + (i - k * SSZ (X x))) with i by ring. f_equal. exact Q.
Qed.
Print Assumptions C41_restored.

(** So an image that reaches the saved sector (here the last but one of a partition of four
    sectors) is damaged, and part of it is in clear on the external flash. *)
Theorem C41_restore_refuted : exists x sb k key g g1 g3, enc_ok x /\ bytes2 g /\ bytes key /\
  k * SSZ (X x) = PSZ (X x) - 2 * SSZ (X x) /\ sb + XHDR x <= PSZ (X x) - SSZ (X x) /\
  save_restore x sb k key [] g = Val (g1, g3) /\
  (exists i, k * SSZ (X x) <= i < sb + XHDR x /\ boot_at x g3 i <> boot_at x g i) /\
  (forall i, k * SSZ (X x) <= i < sb + XHDR x -> extf g1 (SWP (X x) + (i - k * SSZ (X x))) = boot_at x g i).
Proof.
  assert (BK : bytes (fun _ => 0)) by (intro; unfold is_byte; lia).
  destruct (C41_restored demo_enc 568 2 (fun _ => 0) [] demo_store demo_enc_ok demo_store_bytes BK ltac:(lia) ltac:(vm_compute; discriminate)) as (g1 & g3 & E & R).
  change (SSZ (X demo_enc)) with 256 in *. change (XHDR demo_enc) with 32 in *.
  exists demo_enc, 568, 2, (fun _ => 0), demo_store, g1, g3. change (SSZ (X demo_enc)) with 256. change (XHDR demo_enc) with 32. change (PSZ (X demo_enc)) with 1024.
  split; [exact demo_enc_ok|]. split; [exact demo_store_bytes|]. split; [exact BK|]. split; [lia|]. split; [lia|]. split; [exact E|]. split.
  - exists 512. split; [lia|]. rewrite (proj2 (R 512 ltac:(lia) ltac:(lia))). vm_compute. discriminate.
  - intros i Hi. apply R; lia.
Qed.
Print Assumptions C41_restore_refuted.

(** Old and new image are encrypted with the same keystream: whoever reads the external flash
    before and after the swap has the exclusive or of the two images. *)
Theorem C41_keystream_refuted : forall n x su sb buf g, enc_ok x -> bytes2 g -> Z.of_nat n * SSZ (X x) <= plain_from (X x) ->
  exists g', swap_sectors n x su sb 0 buf g = Val g' /\
    forall i, 0 <= i < Z.of_nat n * SSZ (X x) -> i < su + XHDR x -> i < sb + XHDR x ->
      Z.lxor (upd_raw x g i) (upd_raw x g' i) = Z.lxor (boot_at x g' i) (boot_at x g i).
Proof.
  intros n x su sb buf g HX HB HK. destruct (C40_image n x su sb 0 buf g HX HB ltac:(lia) HK) as (g' & E & _ & _ & _ & U & V).
  exists g'. split; [exact E|]. intros i Hi H1 H2. rewrite U by lia. rewrite <- V by lia. unfold upd_at.
  set (a := upd_raw x g i). set (b := upd_raw x g' i). set (s := stream (EC (X x)) i).
  rewrite Z.lxor_assoc, (Z.lxor_comm s), Z.lxor_assoc, Z.lxor_nilpotent, Z.lxor_0_r. reflexivity.
Qed.
Print Assumptions C41_keystream_refuted.
