(** The PCI properties C54, C55, C56. *)
From Coq Require Import Sorted.
From Verif Require Import Base BaseLemmas PciSpec PciModel PciProofs PciTree PciBars PciEnum PciBridge PciScan PciRun PciLoop PciFlat.
Local Ltac Zify.zify_post_hook ::= idtac.

(** * C54: configuration accesses *)

Lemma reg_read_bound : forall m st b d f r, sound m st -> 0 <= reg_read m st b d f r < 2 ^ 32.
Proof. intros m st b d f r S. unfold reg_read. destruct (target m st b d f) as [id|]; [apply S|]. change (2 ^ 32) with 4294967296. lia. Qed.

(** Reading 1, 2 or 4 bytes returns just these bytes of the function's registers (all ones if
    there is no such function). *)
Theorem C54_read : forall m mc st b d f off, mech_ok mc -> sound m st -> slot_ok b d f off ->
  pci_config_read8 m mc st b d f off = field (reg_read m st b d f (off / 4)) (8 * (off mod 4)) 8 /\
  (off mod 2 = 0 -> pci_config_read16 m mc st b d f off = field (reg_read m st b d f (off / 4)) (8 * (off mod 4)) 16) /\
  (off mod 4 = 0 -> pci_config_read32 m mc st b d f off = reg_read m st b d f (off / 4)).
Proof.
  intros m mc st b d f off OK S SL. pose proof (reg_read_bound m st b d f (off / 4) S) as RB. pose proof (Z.mod_pos_bound off 4 ltac:(lia)) as M4.
  split; [|split].
  - rewrite (read8_ok m mc OK) by exact SL. generalize dependent (reg_read m st b d f (off / 4)). intros v V. unfold field. rewrite (Z.mul_comm 8).
    replace (u32 (Z.shiftl 255 (off mod 4 * 8))) with (Z.shiftl (Z.ones 8) (off mod 4 * 8)).
    2:{ symmetry. apply u32_id. change (Z.ones 8) with 255. rewrite Z.shiftl_mul_pow2 by lia. change (2 ^ 32) with (256 * 2 ^ 24).
        pose proof (Z.pow_le_mono_r 2 (off mod 4 * 8) 24 ltac:(lia) ltac:(lia)). pose proof (pow2_pos (off mod 4 * 8) ltac:(lia)). lia. }
    rewrite Z.shiftr_land. rewrite Z.shiftr_shiftl_l by lia. rewrite Z.sub_diag, Z.shiftl_0_r. reflexivity.
  - intro E. assert (M2 : off mod 4 = 0 \/ off mod 4 = 2).
    { pose proof (Z.div_mod off 4 ltac:(lia)). pose proof (Z.div_mod off 2 ltac:(lia)). lia. }
    rewrite (read16_ok m mc OK) by assumption. destruct M2 as [M|M]; rewrite M; cbn [Z.eqb Z.mul Pos.mul]; unfold field; [reflexivity|].
    change (Z.ones 16) with (2 ^ 16 - 1). rewrite land_low; [reflexivity|lia|]. rewrite Z.shiftr_div_pow2 by lia. split; [apply Z.div_pos; lia|].
    apply Z.div_lt_upper_bound; [lia|]. change (2 ^ 16 * 2 ^ 16) with (2 ^ 32). lia.
  - intro E. apply (read32_ok m mc OK); assumption.
Qed.
Print Assumptions C54_read.

Lemma lanes_merge : forall w o v p n, 0 <= w < 2 ^ 32 -> 0 <= o < 2 ^ 32 -> 0 <= p -> 0 < n -> p + n <= 32 -> 0 <= v < 2 ^ n ->
  forall keep, (forall i, 0 <= i < 32 -> Z.testbit keep i = negb ((p <=? i) && (i <? p + n))) ->
  merge (Z.land w (2 ^ 32 - 1)) o (Z.lor (Z.land o keep) (Z.shiftl v p)) = merge (Z.land w (Z.shiftl (Z.ones n) p)) o (Z.shiftl v p).
Proof.
  intros w o v p n W O P N PN V keep K. rewrite (land_low w 32) by lia. apply Z.bits_inj'. intros i I. rewrite !testbit_merge by lia.
  rewrite Z.lor_spec, !Z.land_spec, !Z.shiftl_spec by lia. destruct (Z.ltb_spec i 32) as [L|L].
  2:{ rewrite (testbit_high w 32 i) by lia. reflexivity. }
  rewrite (K i) by lia. destruct (Z.testbit w i); cbn [andb]; [|reflexivity]. destruct (Z.leb_spec p i) as [L1|L1]; cbn [andb negb].
  - destruct (Z.ltb_spec i (p + n)) as [L2|L2]; cbn [negb].
    + rewrite Z.ones_spec_low by lia. rewrite andb_false_r. reflexivity.
    + rewrite Z.ones_spec_high by lia. rewrite (testbit_high v n (i - p)) by lia. rewrite andb_true_r, orb_false_r. reflexivity.
  - rewrite !(Z.testbit_neg_r _ (i - p)) by lia. rewrite andb_true_r, orb_false_r. reflexivity.
Qed.

(** Writing 1, 2 or 4 bytes changes just these bytes. *)
Theorem C54_write : forall m mc st b d f off v, mech_ok mc -> sound m st -> slot_ok b d f off -> 0 <= v ->
  (v < 2 ^ 8 -> pci_config_write8 m mc st b d f off v =
     reg_write m st b d f (off / 4) (Z.shiftl (Z.ones 8) (8 * (off mod 4))) (Z.shiftl v (8 * (off mod 4)))) /\
  (v < 2 ^ 16 -> off mod 2 = 0 -> pci_config_write16 m mc st b d f off v =
     reg_write m st b d f (off / 4) (Z.shiftl (Z.ones 16) (8 * (off mod 4))) (Z.shiftl v (8 * (off mod 4)))) /\
  (v < 2 ^ 32 -> off mod 4 = 0 -> pci_config_write32 m mc st b d f off v = reg_write m st b d f (off / 4) (2 ^ 32 - 1) v).
Proof.
  intros m mc st b d f off v OK S SL V0. pose proof (Z.mod_pos_bound off 4 ltac:(lia)) as M4.
  assert (J : off mod 4 = 0 \/ off mod 4 = 1 \/ off mod 4 = 2 \/ off mod 4 = 3) by lia.
  assert (SH : forall p n, 0 <= p -> 0 <= n -> p + n <= 32 -> v < 2 ^ n -> u32 (Z.shiftl v p) = Z.shiftl v p).
  { intros p n P N PN V. apply u32_id. rewrite Z.shiftl_mul_pow2 by lia. pose proof (pow2_pos p P). split; [apply Z.mul_nonneg_nonneg; lia|].
    apply Z.lt_le_trans with (2 ^ n * 2 ^ p); [apply Z.mul_lt_mono_pos_r; lia|]. rewrite <- Z.pow_add_r by lia. apply Z.pow_le_mono_r; lia. }
  split; [|split].
  - intro V. rewrite (write8_ok m mc OK) by exact SL. unfold reg_read, reg_write. destruct (target m st b d f) as [id|]; [|reflexivity]. f_equal.
    destruct (S id (off / 4)) as (SO & SW). rewrite (Z.mul_comm (off mod 4)). rewrite (SH _ 8) by lia. apply lanes_merge; try assumption; try lia.
    intros i I. rewrite testbit_not32; [|destruct J as [-> |[-> |[-> | ->]]]; vm_compute; split; congruence|lia].
    replace (i <? 32) with true by (symmetry; apply Z.ltb_lt; lia). cbn [andb]. f_equal.
    replace (u32 (Z.shiftl 255 (8 * (off mod 4)))) with (2 ^ (8 * (off mod 4) + 8) - 2 ^ (8 * (off mod 4))) by (destruct J as [-> |[-> |[-> | ->]]]; reflexivity).
    rewrite testbit_range by lia. reflexivity.
  - intros V E. assert (M2 : off mod 4 = 0 \/ off mod 4 = 2).
    { pose proof (Z.div_mod off 4 ltac:(lia)). pose proof (Z.div_mod off 2 ltac:(lia)). lia. }
    rewrite (write16_ok m mc OK) by assumption. unfold reg_read, reg_write. destruct (target m st b d f) as [id|]; [|reflexivity]. f_equal.
    destruct (S id (off / 4)) as (SO & SW). destruct M2 as [M|M]; rewrite M; cbn [Z.eqb Z.mul Pos.mul].
    + pose proof (lanes_merge (writable m id (off / 4)) (st id (off / 4)) v 0 16 SW SO ltac:(lia) ltac:(lia) ltac:(lia) ltac:(lia) 4294901760) as X. rewrite Z.shiftl_0_r in X. rewrite !Z.shiftl_0_r in *.
      apply X. intros i I. change 4294901760 with (2 ^ 32 - 2 ^ 16). rewrite testbit_range by lia. change (0 + 16) with 16. replace (0 <=? i) with true by (symmetry; apply Z.leb_le; lia).
      replace (i <? 32) with true by (symmetry; apply Z.ltb_lt; lia). rewrite andb_true_r. cbn [andb]. apply Z.leb_antisym.
    + rewrite (SH 16 16) by lia. apply lanes_merge; try assumption; try lia. intros i I. change 65535 with (Z.ones 16).
      destruct (Z.leb_spec 16 i); cbn [andb negb]; [rewrite Z.ones_spec_high by lia|rewrite Z.ones_spec_low by lia; reflexivity].
      replace (i <? 16 + 16) with true by (symmetry; apply Z.ltb_lt; lia). reflexivity.
  - intros V E. apply (write32_ok m mc OK); assumption.
Qed.
Print Assumptions C54_write.

(** The hypotheses hold: a device at 0:2.1 behind ECAM at 0xb0000000, with register 1 partly
    writable. *)
Definition small : machine := {| root := [Fn 1 2 1 []]; writable := fun _ r => if r =? 1 then 1287 else 0 |}.
Definition small_st : regs := fun _ r => if r =? 0 then 305419896 else if r =? 1 then 1048576 else 0.
Example C54_nonvacuous : mech_ok (Ecam 2952790016) /\ mech_ok (Ports false) /\ sound small small_st /\ slot_ok 0 2 1 2 /\
  pci_config_read16 small (Ecam 2952790016) small_st 0 2 1 2 = 4660 /\
  pci_config_read8 small (Ports false) small_st 0 2 1 1 = 86 /\
  pci_config_write16 small (Ports false) small_st 0 2 1 4 65535 1%nat 1 = 1048576 + 1287.
Proof.
  split; [vm_compute; repeat split; congruence|]. split; [reflexivity|]. split.
  { intros id r. unfold small_st, small, writable. destruct (r =? 0), (r =? 1); change (2 ^ 32) with 4294967296; lia. }
  split; [unfold slot_ok; lia|]. split; [reflexivity|]. split; reflexivity.
Qed.

(** With a host bridge that uses the high bits of the port address as register number, this
    is false: 16-bit accesses to functions other than number 0 reach another register, because
    the composed address is composed a second time. *)
Theorem C54_extended_refuted : ~ (forall m st b d f off, sound m st -> slot_ok b d f off -> off mod 2 = 0 ->
  pci_config_read16 m (Ports true) st b d f off = field (reg_read m st b d f (off / 4)) (8 * (off mod 4)) 16).
Proof.
  intro H. specialize (H {| root := [Fn 1 2 1 []]; writable := fun _ _ => 0 |} (fun _ r => if r =? 0 then 305419896 else 0) 0 2 1 2).
  assert (X : pci_config_read16 {| root := [Fn 1 2 1 []]; writable := fun _ _ => 0 |} (Ports true) (fun _ r => if r =? 0 then 305419896 else 0) 0 2 1 2 = 4660).
  { rewrite H; [reflexivity| |unfold slot_ok; lia|reflexivity]. intros id r. cbn [writable]. destruct (r =? 0); change (2 ^ 32) with 4294967296; lia. }
  vm_compute in X. discriminate X.
Qed.
Print Assumptions C54_extended_refuted.

(** The function that returns the address in a base address register takes it from the wrong
    register for all but the first. *)
Theorem C54_address_refuted : ~ (forall m mc st b d f bar id s, mech_ok mc -> sound m st -> slot_ok b d f 0 -> target m st b d f = Some id ->
  0 <= bar < 6 -> wired m st id bar (Mem s false false) -> pci_get_mmio_addr m mc st b d f bar = base_of st id bar (Mem s false false)).
Proof.
  intro H. specialize (H {| root := [Fn 1 2 0 []]; writable := fun _ r => if r =? 5 then 4294963200 else 0 |} (Ports false) (fun _ r => if r =? 5 then 2147483648 else 0) 0 2 0 1 1%nat 12).
  assert (X : pci_get_mmio_addr {| root := [Fn 1 2 0 []]; writable := fun _ r => if r =? 5 then 4294963200 else 0 |} (Ports false) (fun _ r => if r =? 5 then 2147483648 else 0) 0 2 0 1 = 2147483648).
  { rewrite H; [reflexivity|reflexivity| |unfold slot_ok; lia|reflexivity|lia|].
    - intros id r. cbn [writable]. destruct (r =? 5); change (2 ^ 32) with 4294967296; lia.
    - vm_compute. repeat split; congruence. }
  vm_compute in X. discriminate X.
Qed.
Print Assumptions C54_address_refuted.

(** * C55: enumeration *)

Definition start (mb ml pb pl iob : Z) : info :=
  {| mem := u32 mb; mem_limit := u32 (mb + (ml - 1)); io := iob; mem_pf := u32 pb; mem_pf_limit := u32 (pb + (pl - 1)); curr_bus := 0 |}.

Lemma pre_ok : forall m mc st, mech_ok mc ->
  (forall id r, (r <> 57 /\ r <> 21) \/ target m st 0 0 0 <> Some id -> pci_pre_enum m mc st id r = st id r) /\
  (forall id r, (forall r, 0 <= st id r < 2 ^ 32 /\ 0 <= writable m id r < 2 ^ 32) -> 0 <= pci_pre_enum m mc st id r < 2 ^ 32).
Proof.
  intros m mc st OK. unfold pci_pre_enum. rewrite !(read32_ok m mc OK), !(write32_ok m mc OK) by (unfold slot_ok; try reflexivity; repeat split; lia).
  change (228 / 4) with 57. change (84 / 4) with 21. set (v1 := Z.land _ _). destruct (target m st 0 0 0) as [id0|] eqn:T.
  2:{ assert (T0 : forall s, target m s 0 0 0 = None) by (intro; exact T). unfold reg_write. rewrite !T0. split; [reflexivity|]. intros id r H. apply H. }
  assert (T0 : forall s, target m s 0 0 0 = Some id0) by (intro; exact T). unfold reg_write. rewrite !T0.
  set (st1 := set_reg st id0 57 (merge (Z.land (writable m id0 57) (2 ^ 32 - 1)) (st id0 57) v1)). unfold reg_read. rewrite !T0.
  split.
  - intros id r H. unfold st1, set_reg. destruct (Nat.eqb_spec id id0) as [E|E]; cbn [andb]; [|reflexivity]. destruct H as [(H1 & H2)|H]; [|congruence].
    apply Z.eqb_neq in H1. apply Z.eqb_neq in H2. rewrite H1, H2. reflexivity.
  - intros id r H. unfold set_reg. destruct (Nat.eqb_spec id id0) as [E|E]; cbn [andb].
    2:{ unfold st1, set_reg. destruct (Nat.eqb_spec id id0); [congruence|]. apply H. }
    subst id. assert (B1 : forall r, 0 <= st1 id0 r < 2 ^ 32).
    { intro r'. unfold st1, set_reg. rewrite Nat.eqb_refl. cbn [andb]. destruct (r' =? 57); [|apply H]. rewrite (land_low _ 32) by (try lia; apply H). apply merge_bound; [lia|apply H|apply H|].
      unfold v1, reg_read. rewrite T. apply Z.land_nonneg. left. apply H. }
    destruct (r =? 21); [|apply B1]. rewrite (land_low _ 32) by (try lia; apply H). apply merge_bound; [lia|apply B1|apply H|]. apply Z.lor_nonneg. split; [apply B1|lia].
Qed.

Lemma fn_ok_pre : forall D m st st' x, (forall r, r <> 57 /\ r <> 21 -> st' (fid x) r = st (fid x) r) -> (forall r, 0 <= st' (fid x) r < 2 ^ 32) ->
  fn_ok D m st x -> fn_ok D m st' x.
Proof.
  intros D m st st' [id d f l] E B H. cbn [fid] in E, B. unfold fn_ok in *. destruct H as (H1 & H2 & H3 & H4 & H5 & H6 & H7 & H8).
  split; [exact H1|]. split; [exact H2|]. split; [intro r; split; [apply B|apply H3]|]. rewrite E by lia. split; [exact H4|]. split; [exact H5|]. split; [exact H6|]. split; [exact H7|].
  unfold header_type, subordinate in *. rewrite !E by lia. destruct (D id) as [bl|]; [|exact H8].
  destruct H8 as (A1 & A2 & A3 & A4 & A5). split; [exact A1|]. split; [exact A2|]. split; [exact A3|]. split; [exact A4|].
  intros n bd N. specialize (A5 n bd N). assert (n < 6)%nat by (rewrite <- A3; apply nth_error_Some; congruence). unfold wired in *. rewrite E by lia. exact A5.
Qed.

Lemma enum_do_ok : forall D m mc st mb ml pb pl iob depth, mech_ok mc -> conforming D m st -> enough D m mb ml pb pl iob -> (bridges D (root m) < depth)%nat ->
  exists st' i', pci_enum_do m mc depth st mb ml pb pl iob = Val (st', i') /\ done_fns D (pci_pre_enum m mc st) (start mb ml pb pl iob) (root m) st' i' /\
    mem (start mb ml pb pl iob) = mb /\ mem_pf (start mb ml pb pl iob) = pb /\
    (forall k, cursor (start mb ml pb pl iob) k + need D k (root m) <= match k with MemS => mb + ml - 1 | PfS => pb + pl - 1 | IoS => 65536 end).
Proof.
  intros D m mc st mb ml pb pl iob depth OK (ND & FO & BO & BL) (E1 & E2 & E3 & E4 & E5 & E6 & E7 & E8 & E9) DP.
  pose proof (need_nonneg D MemS (root m)) as NM. pose proof (need_nonneg D PfS (root m)) as NP. pose proof (need_nonneg D IoS (root m)) as NI.
  assert (I1 : start mb ml pb pl iob = {| mem := mb; mem_limit := mb + ml - 1; io := iob; mem_pf := pb; mem_pf_limit := pb + pl - 1; curr_bus := 0 |}).
  { unfold start. rewrite (u32_id mb), (u32_id pb), (u32_id (mb + (ml - 1))), (u32_id (pb + (pl - 1))) by lia. f_equal; lia. }
  destruct (pre_ok m mc st OK) as (P1 & P2). set (st0 := pci_pre_enum m mc st) in *.
  assert (P3 : forall x, st0 x 3 = st x 3) by (intro x; apply P1; left; lia).
  destruct (enum_bus_ok D m mc OK ND depth st0 (start mb ml pb pl iob) (root m) 0) as (st' & i' & E & DN); [|exact DP|].
  - rewrite I1. split; [apply op_here|]. split; [cbn [curr_bus]; lia|]. split; [apply incl_refl|]. split; [exact (bus_ok_frame st st0 _ P3 BO)|].
    split; [intros y Y; pose proof (FO y Y) as F; apply (fn_ok_pre D m st); [intros r R; apply P1; left; exact R| |exact F]|].
    { intro r. apply P2. destruct y as [id d f l]. apply F. }
    split; [intros id d f l I; exact (bus_ok_frame st st0 l P3 (BL id d f l I))|].
    split.
    { intros y Y H. assert (YA := in_all_self y _ Y). unfold subordinate. rewrite P1 by (left; lia). pose proof (FO y YA) as F. unfold header_type in H. rewrite P3 in H.
      pose proof (header_none D m st y F H) as DY. destruct y as [id d f l]. cbn [fid] in *. unfold fn_ok in F. rewrite DY in F. destruct F as (_ & _ & _ & _ & _ & _ & _ & _ & SY & _).
      unfold subordinate in SY. rewrite SY. cbn [curr_bus]. lia. }
    split; [unfold limits_ok; cbn [mem_limit mem_pf_limit]; lia|]. split; [|cbn [curr_bus]; lia].
    intros []; cbn [cursor roof limit mem mem_pf io mem_limit mem_pf_limit]; [lia|lia|]. change (2 ^ 16) with 65536 in E8. lia.
  - exists st', i'. split; [exact E|]. split; [exact DN|]. rewrite I1. split; [reflexivity|]. split; [reflexivity|]. intros []; cbn [cursor mem mem_pf io]; [lia|lia|]. change (2 ^ 16) with 65536 in E8. lia.
Qed.

Lemma conforming_tidy : forall D m st, conforming D m st -> tidy D (root m).
Proof.
  intros D m st (_ & FO & _) id d f l I DN. pose proof (FO _ I) as F. unfold fn_ok in F. destruct F as (_ & _ & _ & _ & _ & _ & _ & F). destruct (D id) as [bl|]; [|congruence]. destruct F as (_ & X & _). exact X.
Qed.

(** The enumeration ends. *)
Theorem C55_ends : forall D m mc st mb ml pb pl iob, mech_ok mc -> conforming D m st -> enough D m mb ml pb pl iob ->
  forall depth, (bridges D (root m) < depth)%nat -> exists st' i', pci_enum_do m mc depth st mb ml pb pl iob = Val (st', i').
Proof.
  intros D m mc st mb ml pb pl iob OK CO EN depth DP. destruct (enum_do_ok D m mc st mb ml pb pl iob depth OK CO EN DP) as (st' & i' & E & _). exists st', i'. exact E.
Qed.
Print Assumptions C55_ends.

(** Every region is aligned to its size, in the range given for its space, and regions of the
    same space do not overlap. *)
Theorem C55_regions : forall D m mc st mb ml pb pl iob, mech_ok mc -> conforming D m st -> enough D m mb ml pb pl iob ->
  forall depth st' i', (bridges D (root m) < depth)%nat -> pci_enum_do m mc depth st mb ml pb pl iob = Val (st', i') ->
  (forall x n k a b, In x (all_fns (root m)) -> region D st' (fid x) n k a b ->
     a mod (b - a) = 0 /\ match k with MemS => mb <= a /\ b < mb + ml | PfS => pb <= a /\ b < pb + pl | IoS => iob <= a /\ b <= 2 ^ 16 end) /\
  (forall x n x' n' k a b a' b', In x (all_fns (root m)) -> In x' (all_fns (root m)) -> (fid x, n) <> (fid x', n') ->
     region D st' (fid x) n k a b -> region D st' (fid x') n' k a' b' -> b <= a' \/ b' <= a).
Proof.
  intros D m mc st mb ml pb pl iob OK CO EN depth st' i' DP E. pose proof (conforming_tidy D m st CO) as TI. destruct (enum_do_ok D m mc st mb ml pb pl iob depth OK CO EN DP) as (s2 & i2 & E2 & DN & M1 & M2 & RM).
  assert (X : (s2, i2) = (st', i')) by congruence. apply pair_equal_spec in X. destruct X as (-> & ->). destruct DN as (_ & _ & _ & _ & CU & L & _).
  split.
  - intros x n k a b I R. destruct (laid_all D st' (root m) TI _ _ x L I) as (lo & hi & LX & IX). destruct x as [id d f l]. cbn [fid] in R.
    split; [exact (region_aligned D st' id d f l lo hi n k a b LX R)|]. destruct (region_extent D st' id d f l lo hi n k a b LX R) as (R1 & R2).
    specialize (IX k). specialize (CU k). specialize (RM k). destruct k; cbn [cursor] in *; [rewrite M1 in *; lia|rewrite M2 in *; lia|]. change (2 ^ 16) with 65536. change (io (start mb ml pb pl iob)) with iob in *. lia.
  - intros x n x' n' k a b a' b' I I' NE R R'. destruct (Nat.eq_dec (fid x) (fid x')) as [EQ|NQ].
    + destruct (laid_all D st' (root m) TI _ _ x L I) as (lo & hi & LX & IX). rewrite <- EQ in R'. destruct x as [id d f l]. cbn [fid] in *.
      destruct R as (bl & bd & D1 & N1 & K1 & -> & ->). destruct R' as (bl' & bd' & D2 & N2 & K2 & -> & ->). assert (bl' = bl) by congruence. subst bl'. rewrite laid_eq, D1 in LX.
      assert (NN : n <> n') by congruence. destruct (Nat.lt_ge_cases n n') as [LT|GE].
      * left. exact (bars_laid_apart bl st' id 0 lo hi n bd n' bd' k LX N1 N2 K1 K2 LT).
      * right. exact (bars_laid_apart bl st' id 0 lo hi n' bd' n bd k LX N2 N1 K2 K1 ltac:(lia)).
    + assert (DX : D (fid x) <> None) by (destruct R as (bl & _ & D1 & _); congruence). assert (DX' : D (fid x') <> None) by (destruct R' as (bl & _ & D1 & _); congruence).
      destruct x as [id d f l]. destruct x' as [id' d' f' l']. cbn [fid] in *. assert (l = []) by exact (TI _ _ _ _ I DX). assert (l' = []) by exact (TI _ _ _ _ I' DX'). subst l l'.
      destruct (apart_all D st' (root m) TI (Fn id d f []) (Fn id' d' f' []) (cursor (start mb ml pb pl iob)) (cursor i') I I') as (lo1 & hi1 & lo2 & hi2 & L1 & _ & L2 & _ & AP); [|  |exact L|].
      * rewrite fns_eq. intros [X|[]]. congruence.
      * rewrite fns_eq. intros [X|[]]. congruence.
      * destruct (region_extent _ _ _ _ _ _ _ _ _ _ _ _ L1 R) as (R1 & R2). destruct (region_extent _ _ _ _ _ _ _ _ _ _ _ _ L2 R') as (R3 & R4).
        destruct AP as [AP|AP]; specialize (AP k); lia.
Qed.
Print Assumptions C55_regions.

(** Each bridge forwards the memory regions of the functions behind it, with memory and bus
    mastering enabled, and no others; windows are in the given ranges, and those of bridges of
    which neither is behind the other do not overlap. *)
Theorem C55_windows : forall D m mc st mb ml pb pl iob, mech_ok mc -> conforming D m st -> enough D m mb ml pb pl iob ->
  forall depth st' i', (bridges D (root m) < depth)%nat -> pci_enum_do m mc depth st mb ml pb pl iob = Val (st', i') ->
  forall id d f l, In (Fn id d f l) (all_fns (root m)) -> D id = None -> forall k, k = MemS \/ k = PfS ->
  Z.testbit (st' id 1) 2 = true /\
  (forall y n a b, In y (all_fns l) -> region D st' (fid y) n k a b ->
     Z.testbit (st' id 1) 1 = true /\ forall z, a <= z < b -> in_window st' id k z) /\
  (forall y n a b, In y (all_fns (root m)) -> ~ In y (all_fns l) -> region D st' (fid y) n k a b -> forall z, a <= z < b -> ~ in_window st' id k z) /\
  (forall z, in_window st' id k z -> match k with MemS => mb <= z < mb + ml | _ => pb <= z < pb + pl end) /\
  (forall id' d' f' l', In (Fn id' d' f' l') (all_fns (root m)) -> D id' = None -> ~ In (Fn id' d' f' l') (fns (Fn id d f l)) -> ~ In (Fn id d f l) (fns (Fn id' d' f' l')) ->
     forall z, in_window st' id k z -> ~ in_window st' id' k z).
Proof.
  intros D m mc st mb ml pb pl iob OK CO EN depth st' i' DP E id d f l I DI k K. pose proof (conforming_tidy D m st CO) as TI.
  destruct (enum_do_ok D m mc st mb ml pb pl iob depth OK CO EN DP) as (s2 & i2 & E2 & DN & M1 & M2 & RM).
  assert (X : (s2, i2) = (st', i')) by congruence. apply pair_equal_spec in X. destruct X as (-> & ->). destruct DN as (_ & _ & _ & _ & CU & L & _).
  destruct (laid_all D st' (root m) TI _ _ _ L I) as (lo & hi & LX & IX). assert (NK : k <> IoS) by (destruct K; congruence).
  assert (WF : forall y n a b, region D st' (fid y) n k a b -> In y (all_fns (root m)) -> D (fid y) <> None) by (intros y n a b (bl & _ & D1 & _) _; congruence).
  split; [|split; [|split; [|split]]].
  - rewrite laid_eq, DI in LX. destruct LX as (_ & _ & _ & _ & _ & B & _). exact B.
  - intros y n a b Y R. assert (AB : a < b).
    { destruct R as (bl & bd & D1 & N1 & K1 & -> & ->). destruct CO as (_ & FO & _). assert (YR : In y (all_fns (root m))) by (apply (all_trans _ _ I); rewrite fns_eq; right; exact Y).
      pose proof (FO y YR) as F. destruct y as [idy dy fy ly]. cbn [fid] in *. unfold fn_ok in F. rewrite D1 in F. destruct F as (_ & _ & _ & _ & _ & _ & _ & _ & _ & _ & _ & WI). specialize (WI n bd N1).
      destruct WI as (_ & WI). destruct bd; try discriminate K1; cbn [size_of]; match goal with |- _ < _ + 2 ^ ?s => pose proof (pow2_pos s ltac:(destruct WI as (WI & _); lia)); lia end. }
    destruct (window_behind D st' id d f l lo hi k y n a b (tidy_behind D (root m) id d f l TI I) LX DI Y R AB NK) as (B1 & B2 & B3). split; [exact B3|]. intros z Z1. unfold in_window. lia.
  - intros y n a b Y NY R z Z1 W. assert (DY := WF y n a b R Y). destruct y as [idy dy fy ly]. cbn [fid] in *. assert (ly = []) by exact (TI _ _ _ _ Y DY). subst ly.
    destruct (apart_all D st' (root m) TI (Fn id d f l) (Fn idy dy fy []) (cursor (start mb ml pb pl iob)) (cursor i') I Y) as (lo1 & hi1 & lo2 & hi2 & L1 & _ & L2 & _ & AP); [| |exact L|].
    + rewrite fns_eq. intros [X|[]]. congruence.
    + rewrite fns_eq. intros [X|X]; [congruence|exact (NY X)].
    + destruct (region_extent _ _ _ _ _ _ _ _ _ _ _ _ L2 R) as (R1 & R2). pose proof (window_extent D st' id d f l lo1 hi1 k z L1 DI NK W). destruct AP as [AP|AP]; specialize (AP k); lia.
  - intros z W. pose proof (window_extent D st' id d f l lo hi k z LX DI NK W) as X. specialize (IX k). specialize (CU k). specialize (RM k).
    destruct k; cbn [cursor] in *; [rewrite M1 in *; lia|rewrite M2 in *; lia|congruence].
  - intros id' d' f' l' I' DI' N1 N2 z W W'.
    destruct (apart_all D st' (root m) TI (Fn id d f l) (Fn id' d' f' l') _ _ I I' N2 N1 L) as (lo1 & hi1 & lo2 & hi2 & L1 & _ & L2 & _ & AP).
    pose proof (window_extent D st' id d f l lo1 hi1 k z L1 DI NK W). pose proof (window_extent D st' id' d' f' l' lo2 hi2 k z L2 DI' NK W'). destruct AP as [AP|AP]; specialize (AP k); lia.
Qed.
Print Assumptions C55_windows.

(** Every bus has a number, under which its functions can be addressed. *)
Theorem C55_buses : forall D m mc st mb ml pb pl iob, mech_ok mc -> conforming D m st -> enough D m mb ml pb pl iob ->
  forall depth st' i', (bridges D (root m) < depth)%nat -> pci_enum_do m mc depth st mb ml pb pl iob = Val (st', i') ->
  (forall id d f l, In (Fn id d f l) (root m) -> target m st' 0 d f = Some id) /\
  (forall id d f l, In (Fn id d f l) (all_fns (root m)) -> D id = None -> 0 < secondary st' id <= 255 /\
     forall id' d' f' l', In (Fn id' d' f' l') l -> target m st' (secondary st' id) d' f' = Some id').
Proof.
  intros D m mc st mb ml pb pl iob OK CO EN depth st' i' DP E. pose proof (conforming_tidy D m st CO) as TI.
  destruct (enum_do_ok D m mc st mb ml pb pl iob depth OK CO EN DP) as (s2 & i2 & E2 & DN & _).
  assert (X : (s2, i2) = (st', i')) by congruence. apply pair_equal_spec in X. destruct X as (-> & ->). destruct DN as (_ & UN & _ & CB & _ & _ & NU).
  destruct CO as (ND & FO & BO & BL). destruct (pre_ok m mc st OK) as (P1 & _).
  assert (HD : headers D st' (root m)).
  { intros y Y. unfold header_type. rewrite (UN (fid y) 3) by (apply touched_3; right; reflexivity). rewrite P1 by (left; lia). pose proof (FO y Y) as F. destruct y as [id d f l]. cbn [fid]. unfold fn_ok in F.
    destruct F as (_ & _ & _ & _ & _ & _ & _ & F). destruct (D id); destruct F as (F & _); unfold header_type in F; rewrite F; split; congruence. }
  split.
  - intros id d f l I. unfold target. cbn [route Z.eqb]. rewrite (find_slot st (root m) id d f l BO I). reflexivity.
  - intros id d f l I DI. destruct EN as (_ & _ & _ & _ & _ & _ & _ & _ & E9).
    unfold all_fns in I. apply in_flat_map in I. destruct I as (z & Z1 & Z2).
    assert (I : In (Fn id d f l) (all_fns (root m))) by exact (in_all z _ Z1 _ Z2).
    assert (B : 0 < secondary st' id <= 255).
    { destruct (numbered_pick D st' (root m) _ _ z NU Z1) as (lz & hz & NZ & BZ). cbn [start curr_bus] in BZ, CB.
      pose proof (numbered_bounds D st' z (tidy_one D (root m) z TI Z1) lz hz ltac:(lia) NZ _ Z2 DI) as B. cbn [fid] in B. lia. }
    split; [exact B|]. intros id' d' f' l' I'. unfold target.
    destruct (route_numbered D st' 256 (root m) 0 0 (curr_bus i') id d f l TI HD ND NU ltac:(lia) I DI ltac:(change (Z.of_nat 256) with 256; lia)) as (_ & RT).
    rewrite RT. rewrite (find_slot st l id' d' f' l' (BL id d f l I) I'). reflexivity.
Qed.
Print Assumptions C55_buses.

(** Nothing else changes: of a device, the base address registers; of a bridge, the command
    register, the bus numbers, the two memory windows, and register 12; and of the function at
    0:0.0 the two registers [pci_pre_enum] is there for. *)
Theorem C55_unchanged : forall D m mc st mb ml pb pl iob, mech_ok mc -> conforming D m st -> enough D m mb ml pb pl iob ->
  forall depth st' i', (bridges D (root m) < depth)%nat -> pci_enum_do m mc depth st mb ml pb pl iob = Val (st', i') ->
  forall id r, (r <> 57 /\ r <> 21) \/ target m st 0 0 0 <> Some id ->
  match D id with Some _ => ~ (4 <= r < 10) | None => r <> 1 /\ r <> 6 /\ r <> 8 /\ r <> 9 /\ r <> 12 end ->
  st' id r = st id r.
Proof.
  intros D m mc st mb ml pb pl iob OK CO EN depth st' i' DP E id r R1 R2.
  destruct (enum_do_ok D m mc st mb ml pb pl iob depth OK CO EN DP) as (s2 & i2 & E2 & DN & _).
  assert (X : (s2, i2) = (st', i')) by congruence. apply pair_equal_spec in X. destruct X as (-> & ->). destruct DN as (_ & UN & _).
  destruct (pre_ok m mc st OK) as (P1 & _). rewrite UN; [apply P1; exact R1|]. unfold touched. destruct (D id); [exact R2|]. cbn [In]. lia.
Qed.
Print Assumptions C55_unchanged.

(** A machine with a host bridge, a bridge with a device of two functions behind it (memory of
    1 MB, prefetchable memory of 16 KB with 64-bit addresses, 256 ports; memory of 4 KB), and a
    device with 64 KB of memory. *)
Definition bar_mask (b : bar) : Z :=
  match b with NoBar => 0 | Mem s _ _ => 2 ^ 32 - 2 ^ s | Upper => 2 ^ 32 - 1 | Io s w => if w then 2 ^ 32 - 2 ^ s else 2 ^ 16 - 2 ^ s end.
Definition bar_type (b : bar) : Z :=
  match b with Mem _ pf w => (if w then 4 else 0) + (if pf then 8 else 0) | Io _ _ => 1 | _ => 0 end.
Definition dev_reg (l : list bar) (cmd head r : Z) : Z :=
  if r =? 0 then 305419896 else if r =? 1 then cmd else if r =? 3 then head * 2 ^ 16 else
  if r =? 4 then bar_type (nth 0 l NoBar) else if r =? 5 then bar_type (nth 1 l NoBar) else if r =? 6 then bar_type (nth 2 l NoBar) else
  if r =? 7 then bar_type (nth 3 l NoBar) else if r =? 8 then bar_type (nth 4 l NoBar) else if r =? 9 then bar_type (nth 5 l NoBar) else 0.
Definition dev_mask (l : list bar) (r : Z) : Z :=
  if r =? 1 then 1287 else
  if r =? 4 then bar_mask (nth 0 l NoBar) else if r =? 5 then bar_mask (nth 1 l NoBar) else if r =? 6 then bar_mask (nth 2 l NoBar) else
  if r =? 7 then bar_mask (nth 3 l NoBar) else if r =? 8 then bar_mask (nth 4 l NoBar) else if r =? 9 then bar_mask (nth 5 l NoBar) else 0.
Definition bridge_reg (r : Z) : Z := if r =? 0 then 305419897 else if r =? 3 then 2 ^ 16 else 0.
Definition bridge_mask (r : Z) : Z :=
  if r =? 1 then 1287 else if r =? 6 then 2 ^ 24 - 1 else if r =? 7 then 61680 else if (r =? 8) || (r =? 9) then 4293984240 else if r =? 12 then 2 ^ 32 - 1 else 0.

Definition D0 : description := fun id =>
  match id with
  | 1 => Some [NoBar; NoBar; NoBar; NoBar; NoBar; NoBar]
  | 3 => Some [Mem 20 false false; Mem 14 true true; Upper; Io 8 false; NoBar; NoBar]
  | 4 => Some [Mem 12 false false; NoBar; NoBar; NoBar; NoBar; NoBar]
  | 5 => Some [NoBar; NoBar; Mem 16 false false; NoBar; NoBar; NoBar]
  | _ => None
  end%nat.
Definition build (D : description) (l : list fn) : machine :=
  {| root := l; writable := fun id r => match D id with Some bl => dev_mask bl r | None => bridge_mask r end |}.
Definition reset (D : description) (cmd : Z) (multi : nat) : regs := fun id r =>
  match D id with Some bl => dev_reg bl cmd (if Nat.eqb id multi then 128 else 0) r | None => bridge_reg r end.
Definition m0 : machine := build D0 [Fn 1 0 0 []; Fn 2 1 0 [Fn 3 0 0 []; Fn 4 0 1 []]; Fn 5 2 0 []].
Definition st0 : regs := reset D0 0 3.

Lemma sorted_places : forall l, StronglySorted (fun x y => place x < place y) l -> forall p x q y t, l = p ++ x :: q ++ y :: t -> place x < place y.
Proof.
  intros l S. induction S as [|z l S IH F]; intros p x q y t E; [destruct p; discriminate E|]. destruct p as [|w p]; cbn [app] in E.
  - assert (z = x) by congruence. assert (l = q ++ y :: t) by congruence. subst. rewrite Forall_forall in F. apply F. apply in_or_app. right. left. reflexivity.
  - apply (IH p x q y t). congruence.
Qed.

Example C55_conforming : conforming D0 m0 st0.
Proof.
  assert (DB : forall bl cmd head, length bl = 6%nat -> Forall (fun b => 0 <= bar_mask b < 2 ^ 32) bl -> 0 <= cmd < 2 ^ 16 -> 0 <= head < 256 ->
    forall r, 0 <= dev_reg bl cmd head r < 2 ^ 32 /\ 0 <= dev_mask bl r < 2 ^ 32).
  { intros bl cmd head LB FB HC HH r. assert (BT : forall b, 0 <= bar_type b < 16) by (intros [| ? [] []| |]; cbn [bar_type]; lia).
    assert (BM : forall n, 0 <= bar_mask (nth n bl NoBar) < 2 ^ 32).
    { intro n. destruct (Nat.lt_ge_cases n (length bl)) as [L|L]; [exact (proj1 (Forall_forall _ _) FB _ (nth_In bl NoBar L))|]. rewrite nth_overflow by exact L. cbn [bar_mask]. change (2 ^ 32) with 4294967296. lia. }
    change (2 ^ 32) with 4294967296 in *. change (2 ^ 16) with 65536 in *. split.
    - unfold dev_reg. change (2 ^ 16) with 65536. repeat match goal with |- context [if ?c then _ else _] => destruct c end; try lia; match goal with |- context [bar_type ?b] => specialize (BT b); lia end.
    - unfold dev_mask. repeat match goal with |- context [if ?c then _ else _] => destruct c end; try lia; apply BM. }
  assert (BB : forall r, 0 <= bridge_reg r < 2 ^ 32 /\ 0 <= bridge_mask r < 2 ^ 32).
  { intro r. change (2 ^ 32) with 4294967296. split; [unfold bridge_reg|unfold bridge_mask]; change (2 ^ 16) with 65536; change (2 ^ 24 - 1) with 16777215; change (2 ^ 32 - 1) with 4294967295;
      repeat match goal with |- context [if ?c then _ else _] => destruct c end; lia. }
  split; [|split; [|split]].
  - repeat constructor; cbn; lia.
  - intros x X. cbn in X. destruct X as [<- |[<- |[<- |[<- |[<- |[]]]]]].
    all: unfold fn_ok, m0, st0, build, reset; cbn [writable D0 Nat.eqb].
    all: split; [lia|]; split; [lia|]; split.
    all: try (intro r; apply DB; [reflexivity|repeat (apply Forall_cons; [vm_compute; split; congruence|]); apply Forall_nil|vm_compute; split; congruence|lia]); try exact BB.
    all: split; [vm_compute; congruence|]; split; [reflexivity|]; split; [reflexivity|]; split; [reflexivity|].
    all: try (split; [reflexivity|]; split; [reflexivity|]; split; [reflexivity|]; split; [reflexivity|]; split; [reflexivity|]; split; reflexivity).
    all: split; [reflexivity|]; split; [reflexivity|]; split; [reflexivity|]; split; [reflexivity|].
    all: intros i b N; do 6 (destruct i as [|i]; [cbn [nth_error] in N; injection N as <-; vm_compute; repeat split; congruence|]); destruct i; discriminate N.
  - split; [apply sorted_places; repeat constructor; vm_compute; congruence|]. intros id d f l' I NF. cbn in I. exfalso. destruct I as [I|[I|[I|[]]]]; injection I as _ _ E; congruence.
  - intros id d f l I. cbn in I. destruct I as [I|[I|[I|[I|[I|[]]]]]]; injection I as <- <- <- <-; (split; [apply sorted_places; repeat constructor; vm_compute; congruence|]); intros id d f l' I NF; cbn in I.
    all: try (destruct I; fail). destruct I as [I|[I|[]]]; injection I as <- <- <- <-; [congruence|]. exists 3%nat, []. split; [left; reflexivity|reflexivity].
Qed.

Example C55_enough : enough D0 m0 2147483648 268435456 3221225472 16777216 8192 /\ (bridges D0 (root m0) < 2)%nat.
Proof. split; [vm_compute; repeat split; try congruence; lia|vm_compute; lia]. Qed.

(** What the enumeration makes of it. *)
Example C55_result : match pci_enum_do m0 (Ports false) 2 st0 2147483648 268435456 3221225472 16777216 8192 with
  | Val (st, _) =>
      st 3%nat 4 = 2147483648 /\ st 4%nat 4 = 2148532224 /\ st 5%nat 6 = 2149580800 /\ win_base st 2 MemS = 2147483648 /\ win_limit st 2 MemS = 2149580799 /\
      st 3%nat 5 = 3221225472 + 12 /\ win_base st 2 PfS = 3221225472 /\ secondary st 2 = 1 /\ subordinate st 2 = 1
  | _ => False
  end.
Proof. vm_compute. repeat split; reflexivity. Qed.

(** * C56: what does not fit *)

(** A machine with one device; its command register holds [cmd]. *)
Definition D1 (bl : list bar) : description := fun _ => Some bl.
Definition one (bl : list bar) : machine := build (D1 bl) [Fn 1 0 0 []].
Definition one_st (bl : list bar) (cmd : Z) : regs := reset (D1 bl) cmd 0.

Lemma one_conforming : forall bl cmd, length bl = 6%nat -> bars_ok bl = true -> 0 <= cmd < 2 ^ 16 ->
  (forall i b, nth_error bl i = Some b -> 0 <= bar_mask b < 2 ^ 32 /\ wired (one bl) (one_st bl cmd) 1 (Z.of_nat i) b) ->
  conforming (D1 bl) (one bl) (one_st bl cmd).
Proof.
  intros bl cmd LB BO HC H.
  assert (DB : forall r, 0 <= dev_reg bl cmd 0 r < 2 ^ 32 /\ 0 <= dev_mask bl r < 2 ^ 32).
  { intro r. assert (BT : forall b, 0 <= bar_type b < 16) by (intros [| ? [] []| |]; cbn [bar_type]; lia).
    assert (BM : forall n, 0 <= bar_mask (nth n bl NoBar) < 2 ^ 32).
    { intro n. destruct (Nat.lt_ge_cases n (length bl)) as [L|L]; [exact (proj1 (H n _ (nth_error_nth' bl NoBar L)))|]. rewrite nth_overflow by exact L. cbn [bar_mask]. change (2 ^ 32) with 4294967296. lia. }
    change (2 ^ 32) with 4294967296 in *. change (2 ^ 16) with 65536 in *. split.
    - unfold dev_reg. repeat match goal with |- context [if ?c then _ else _] => destruct c end; try lia; match goal with |- context [bar_type ?b] => specialize (BT b); lia end.
    - unfold dev_mask. repeat match goal with |- context [if ?c then _ else _] => destruct c end; try lia; apply BM. }
  split; [|split; [|split]].
  - repeat constructor. intros [].
  - intros x X. cbn in X. destruct X as [<- |[]]. unfold fn_ok. split; [lia|]. split; [lia|]. split; [exact DB|]. split; [vm_compute; congruence|]. split; [reflexivity|]. split; [reflexivity|]. split; [reflexivity|].
    unfold D1. split; [reflexivity|]. split; [reflexivity|]. split; [exact LB|]. split; [exact BO|]. intros i b N. exact (proj2 (H i b N)).
  - split; [apply sorted_places; repeat constructor|]. intros id d f l' I NF. cbn in I. exfalso. destruct I as [I|[]]. injection I as _ _ E. congruence.
  - intros id d f l I. cbn in I. destruct I as [I|[]]. injection I as <- <- <- <-. split; [apply sorted_places; repeat constructor|]. intros id d f l' [].
Qed.

Local Ltac one_ok := apply one_conforming; [reflexivity|reflexivity|change (2 ^ 16) with 65536; lia|
  intros i b N; do 6 (destruct i as [|i]; [cbn [nth_error] in N; injection N as <-; vm_compute; repeat split; congruence|]); destruct i; discriminate N].

(** A region that finds no room is not left where it was: the enabled device responds at the
    top of the 32-bit address space. *)
Theorem C56_unfit_refuted : ~ (forall D m mc st mb ml pb pl iob depth st' i', mech_ok mc -> conforming D m st ->
  0 <= mb -> 0 < ml -> mb + ml <= pb -> 0 < pl -> pb + pl <= 2 ^ 32 -> 0 <= iob < 2 ^ 16 -> (bridges D (root m) < depth)%nat ->
  pci_enum_do m mc depth st mb ml pb pl iob = Val (st', i') ->
  forall x n k a b, In x (all_fns (root m)) -> k = MemS \/ k = PfS -> Z.testbit (st' (fid x) 1) 1 = true -> region D st' (fid x) n k a b ->
  mb <= a < mb + ml \/ pb <= a < pb + pl \/ region D st (fid x) n k a b).
Proof.
  intro H. set (bl := [Mem 12 false false; Mem 28 false false; NoBar; NoBar; NoBar; NoBar]).
  assert (CO : conforming (D1 bl) (one bl) (one_st bl 2)) by (unfold bl; one_ok).
  specialize (H (D1 bl) (one bl) (Ports false) (one_st bl 2) 2147483648 16777216 3221225472 16777216 8192 1%nat).
  assert (R : match pci_enum_do (one bl) (Ports false) 1 (one_st bl 2) 2147483648 16777216 3221225472 16777216 8192 with
    | Val (st', _) => Z.testbit (st' 1%nat 1) 1 = true /\ st' 1%nat 5 = 4026531840 | _ => False end) by (vm_compute; split; reflexivity).
  destruct (pci_enum_do (one bl) (Ports false) 1 (one_st bl 2) 2147483648 16777216 3221225472 16777216 8192) as [[st' i']| |] eqn:E; try contradiction. destruct R as (R1 & R2).
  assert (RG : region (D1 bl) st' 1 1 MemS 4026531840 (4026531840 + 2 ^ 28)).
  { exists bl, (Mem 28 false false). split; [reflexivity|]. split; [reflexivity|]. split; [reflexivity|]. cbn [base_of size_of]. change (4 + Z.of_nat 1) with 5. rewrite R2. split; reflexivity. }
  specialize (H st' i' eq_refl CO ltac:(lia) ltac:(lia) ltac:(lia) ltac:(lia) ltac:(change (2 ^ 32) with 4294967296; lia) ltac:(change (2 ^ 16) with 65536; lia) ltac:(vm_compute; lia) eq_refl (Fn 1 0 0 []) 1%nat MemS _ _ ltac:(left; reflexivity) ltac:(left; reflexivity) R1 RG).
  destruct H as [H|[H|H]]; [lia|lia|]. destruct H as (bl' & bd & B1 & B2 & _ & B4 & _). assert (bl' = bl) by (unfold D1 in B1; congruence). subst bl'.
  assert (BD : bd = Mem 28 false false) by (unfold bl in B2; cbn [nth_error] in B2; congruence). subst bd. vm_compute in B4. discriminate B4.
Qed.
Print Assumptions C56_unfit_refuted.

(** The size of a region is not compared with the end of the range, so regions of the two kinds
    of memory can overlap although the ranges do not. *)
Theorem C56_overlap_refuted : ~ (forall D m mc st mb ml pb pl iob depth st' i', mech_ok mc -> conforming D m st ->
  0 <= mb -> 0 < ml -> mb + ml <= pb -> 0 < pl -> pb + pl <= 2 ^ 32 -> 0 <= iob < 2 ^ 16 -> (bridges D (root m) < depth)%nat ->
  pci_enum_do m mc depth st mb ml pb pl iob = Val (st', i') ->
  forall x n k a b x' n' k' a' b', In x (all_fns (root m)) -> In x' (all_fns (root m)) -> k <> IoS -> k' <> IoS -> (fid x, n) <> (fid x', n') ->
    region D st' (fid x) n k a b -> region D st' (fid x') n' k' a' b' -> b <= a' \/ b' <= a).
Proof.
  intro H. set (bl := [Mem 28 false false; Mem 12 true false; NoBar; NoBar; NoBar; NoBar]).
  assert (CO : conforming (D1 bl) (one bl) (one_st bl 2)) by (unfold bl; one_ok).
  specialize (H (D1 bl) (one bl) (Ports false) (one_st bl 2) 2147483648 16777216 2164260864 16777216 8192 1%nat).
  assert (R : match pci_enum_do (one bl) (Ports false) 1 (one_st bl 2) 2147483648 16777216 2164260864 16777216 8192 with
    | Val (st', _) => st' 1%nat 4 = 2147483648 /\ st' 1%nat 5 = 2164260864 + 8 | _ => False end) by (vm_compute; split; reflexivity).
  destruct (pci_enum_do (one bl) (Ports false) 1 (one_st bl 2) 2147483648 16777216 2164260864 16777216 8192) as [[st' i']| |] eqn:E; try contradiction. destruct R as (R1 & R2).
  assert (G1 : region (D1 bl) st' 1 0 MemS 2147483648 (2147483648 + 2 ^ 28)).
  { exists bl, (Mem 28 false false). split; [reflexivity|]. split; [reflexivity|]. split; [reflexivity|]. cbn [base_of size_of]. change (4 + Z.of_nat 0) with 4. rewrite R1. split; reflexivity. }
  assert (G2 : region (D1 bl) st' 1 1 PfS 2164260864 (2164260864 + 2 ^ 12)).
  { exists bl, (Mem 12 true false). split; [reflexivity|]. split; [reflexivity|]. split; [reflexivity|]. cbn [base_of size_of]. change (4 + Z.of_nat 1) with 5. rewrite R2. split; reflexivity. }
  specialize (H st' i' eq_refl CO ltac:(lia) ltac:(lia) ltac:(lia) ltac:(lia) ltac:(change (2 ^ 32) with 4294967296; lia) ltac:(change (2 ^ 16) with 65536; lia) ltac:(vm_compute; lia) eq_refl (Fn 1 0 0 []) 0%nat MemS _ _ (Fn 1 0 0 []) 1%nat PfS _ _
    ltac:(left; reflexivity) ltac:(left; reflexivity) ltac:(discriminate) ltac:(discriminate) ltac:(cbn [fid]; congruence) G1 G2).
  change (2 ^ 28) with 268435456 in H. change (2 ^ 12) with 4096 in H. lia.
Qed.
Print Assumptions C56_overlap_refuted.

(** Bridges do not forward the I/O ports of the functions behind them: the window is written to
    other registers. *)
Theorem C56_io_refuted : ~ (forall D m mc st mb ml pb pl iob depth st' i', mech_ok mc -> conforming D m st -> enough D m mb ml pb pl iob ->
  (bridges D (root m) < depth)%nat -> pci_enum_do m mc depth st mb ml pb pl iob = Val (st', i') ->
  forall id d f l y n a b, In (Fn id d f l) (all_fns (root m)) -> D id = None -> In y (all_fns l) -> region D st' (fid y) n IoS a b ->
  forall z, a <= z < b -> io_base st' id <= z <= io_limit st' id).
Proof.
  intro H. specialize (H D0 m0 (Ports false) st0 2147483648 268435456 3221225472 16777216 8192 2%nat).
  assert (R : match pci_enum_do m0 (Ports false) 2 st0 2147483648 268435456 3221225472 16777216 8192 with
    | Val (st', _) => st' 3%nat 7 = 8193 /\ st' 2%nat 7 = 0 | _ => False end) by (vm_compute; split; reflexivity).
  destruct (pci_enum_do m0 (Ports false) 2 st0 2147483648 268435456 3221225472 16777216 8192) as [[st' i']| |] eqn:E; try contradiction. destruct R as (R1 & R2).
  assert (G : region D0 st' 3 3 IoS 8192 (8192 + 2 ^ 8)).
  { exists [Mem 20 false false; Mem 14 true true; Upper; Io 8 false; NoBar; NoBar], (Io 8 false). split; [reflexivity|]. split; [reflexivity|]. split; [reflexivity|]. cbn [base_of size_of]. change (4 + Z.of_nat 3) with 7. rewrite R1. split; reflexivity. }
  destruct C55_enough as (EN & DP).
  specialize (H st' i' eq_refl C55_conforming EN DP eq_refl 2%nat 1 0 [Fn 3 0 0 []; Fn 4 0 1 []] (Fn 3 0 0 []) 3%nat _ _ ltac:(right; left; reflexivity) eq_refl ltac:(left; reflexivity) G 8192 ltac:(change (2 ^ 8) with 256; lia)).
  unfold io_limit in H. rewrite R2 in H. change (field 0 12 4 * 2 ^ 12 + (2 ^ 12 - 1)) with 4095 in H. lia.
Qed.
Print Assumptions C56_io_refuted.

(** A device with a region of 4 GB, which must be above the 32-bit address space, is moved to
    address 0 and left enabled. *)
Theorem C56_huge_refuted : ~ (forall m mc st mb ml pb pl iob depth st' i' id, mech_ok mc -> sound m st -> root m = [Fn id 0 0 []] -> header_type st id = 0 ->
  st id 4 = 4 -> writable m id 4 = 0 -> writable m id 5 = 2 ^ 32 - 1 -> 0 < st id 5 ->
  0 <= mb -> 0 < ml -> mb + ml <= pb -> 0 < pl -> pb + pl <= 2 ^ 32 -> 0 <= iob < 2 ^ 16 -> (0 < depth)%nat ->
  pci_enum_do m mc depth st mb ml pb pl iob = Val (st', i') -> st' id 4 + 2 ^ 32 * st' id 5 > 2 ^ 32 \/ Z.testbit (st' id 1) 1 = false).
Proof.
  intro H. set (m := {| root := [Fn 1 0 0 []]; writable := fun _ r => if r =? 5 then 2 ^ 32 - 1 else if r =? 1 then 1287 else 0 |}).
  set (st := fun (_ : nat) r => if r =? 0 then 305419896 else if r =? 1 then 2 else if r =? 4 then 4 else if r =? 5 then 1 else 0).
  specialize (H m (Ports false) st 2147483648 16777216 3221225472 16777216 8192 1%nat).
  assert (R : match pci_enum_do m (Ports false) 1 st 2147483648 16777216 3221225472 16777216 8192 with
    | Val (st', _) => st' 1%nat 4 = 4 /\ st' 1%nat 5 = 0 /\ st' 1%nat 1 = 2 | _ => False end) by (vm_compute; repeat split; reflexivity).
  destruct (pci_enum_do m (Ports false) 1 st 2147483648 16777216 3221225472 16777216 8192) as [[st' i']| |] eqn:E; try contradiction. destruct R as (R1 & R2 & R3).
  specialize (H st' i' 1%nat eq_refl). rewrite R1, R2, R3 in H.
  assert (X : 4 + 2 ^ 32 * 0 > 2 ^ 32 \/ Z.testbit 2 1 = false).
  { apply H; try reflexivity; try lia. 1:{ intros id r. unfold st, m, writable. repeat match goal with |- context [if ?c then _ else _] => destruct c end; change (2 ^ 32) with 4294967296; lia. } }
  destruct X as [X|X]; [vm_compute in X|]; discriminate X.
Qed.
Print Assumptions C56_huge_refuted.
