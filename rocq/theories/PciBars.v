(** Lemmas for PciProps: programming one function. *)
From Verif Require Import Base BaseLemmas PciSpec PciModel PciProofs PciTree.
Local Ltac Zify.zify_post_hook ::= idtac.

Lemma land_high : forall a n, 0 <= n <= 32 -> 0 <= a < 2 ^ 32 -> Z.land a (2 ^ 32 - 2 ^ n) = a / 2 ^ n * 2 ^ n.
Proof.
  intros a n N A. rewrite <- Z.shiftl_mul_pow2, <- Z.shiftr_div_pow2 by lia. apply Z.bits_inj'. intros i I.
  rewrite Z.land_spec, testbit_range, Z.shiftl_spec by lia. destruct (Z.leb_spec n i).
  - rewrite Z.shiftr_spec by lia. replace (i - n + n) with i by lia. cbn [andb]. destruct (Z.ltb_spec i 32); [apply andb_true_r|].
    rewrite (testbit_high a 32 i) by lia. reflexivity.
  - rewrite (Z.testbit_neg_r _ (i - n)) by lia. apply andb_false_r.
Qed.

Lemma pow2_pos : forall n, 0 <= n -> 0 < 2 ^ n.
Proof. intros. apply Z.pow_pos_nonneg; lia. Qed.

(** Rounding up to a multiple of a power of two. *)
Lemma round_up : forall c n, 0 <= n -> let v := (c + 2 ^ n - 1) / 2 ^ n * 2 ^ n in v mod 2 ^ n = 0 /\ c <= v < c + 2 ^ n.
Proof.
  intros c n N v. unfold v. pose proof (pow2_pos n N) as P. split; [apply Z.mod_mul; lia|].
  pose proof (Z.div_mod (c + 2 ^ n - 1) (2 ^ n) ltac:(lia)). pose proof (Z.mod_pos_bound (c + 2 ^ n - 1) (2 ^ n) P). lia.
Qed.

Lemma next_aligned_ok : forall c n lim, 0 <= n <= 31 -> 0 <= c -> c + 2 * 2 ^ n <= lim -> lim < 2 ^ 32 ->
  exists v, pci_enum_next_aligned32 c (2 ^ n) lim = Some v /\ v mod 2 ^ n = 0 /\ c <= v < c + 2 ^ n.
Proof.
  intros c n lim N C L LM. pose proof (pow2_pos n ltac:(lia)) as P.
  destruct (round_up c n ltac:(lia)) as (R1 & R2). set (v := (c + 2 ^ n - 1) / 2 ^ n * 2 ^ n) in *. exists v. split; [|split; assumption].
  assert (E : u32 (2 ^ n - 1) = 2 ^ n - 1) by (apply u32_id; lia).
  assert (EV : Z.land (c + (2 ^ n - 1)) (not32 (2 ^ n - 1)) = v).
  { unfold not32. rewrite E. replace (2 ^ 32 - 1 - (2 ^ n - 1)) with (2 ^ 32 - 2 ^ n) by lia. rewrite land_high by lia.
    unfold v. do 2 f_equal. lia. }
  unfold pci_enum_next_aligned32. rewrite E, EV.
  replace (v >? 4294967295) with false by (symmetry; rewrite Z.gtb_ltb; apply Z.ltb_ge; change (2 ^ 32) with 4294967296 in LM; lia).
  replace (v <? c) with false by (symmetry; apply Z.ltb_ge; lia).
  replace (v >=? lim) with false by (symmetry; rewrite Z.geb_leb; apply Z.leb_gt; lia). reflexivity.
Qed.

Lemma check_up_ok : forall c n lim, 0 <= n <= 31 -> 0 <= c -> c + 2 ^ n <= lim -> lim < 2 ^ 32 ->
  exists v, pci_align_check_up c (2 ^ n) lim = Some v /\ v mod 2 ^ n = 0 /\ c <= v < c + 2 ^ n.
Proof.
  intros c n lim N C L LM. pose proof (pow2_pos n ltac:(lia)) as P.
  destruct (round_up c n ltac:(lia)) as (R1 & R2). set (v := (c + 2 ^ n - 1) / 2 ^ n * 2 ^ n) in *. exists v. split; [|split; assumption].
  assert (E : u32 (2 ^ n - 1) = 2 ^ n - 1) by (apply u32_id; lia).
  assert (EV : align_up c (2 ^ n) = v).
  { unfold align_up, not32. rewrite E. rewrite u32_id by lia. replace (2 ^ 32 - 1 - (2 ^ n - 1)) with (2 ^ 32 - 2 ^ n) by lia. rewrite land_high by lia. reflexivity. }
  unfold pci_align_check_up. rewrite EV.
  replace (v <? c) with false by (symmetry; apply Z.ltb_ge; lia).
  replace (v >=? lim) with false by (symmetry; rewrite Z.geb_leb; apply Z.leb_gt; lia). reflexivity.
Qed.

Lemma land_sub15 : forall v k, Z.land 15 k = k -> Z.land v k = Z.land (v mod 16) k.
Proof.
  intros v k K. change (v mod 16) with (v mod 2 ^ 4). rewrite <- Z.land_ones by lia. rewrite <- Z.land_assoc. change (Z.ones 4) with 15. rewrite K. reflexivity.
Qed.

Lemma mod_add_pow : forall s n low, 0 <= n <= s -> 0 <= low < 2 ^ n -> s <= 32 -> (2 ^ 32 - 2 ^ s + low) mod 2 ^ n = low.
Proof.
  intros s n low N L S. replace (2 ^ 32 - 2 ^ s + low) with (low + (2 ^ (32 - n) - 2 ^ (s - n)) * 2 ^ n).
  2:{ rewrite Z.mul_sub_distr_r, <- !Z.pow_add_r by lia. replace (32 - n + n) with 32 by lia. replace (s - n + n) with s by lia. lia. }
  rewrite Z.mod_add by (pose proof (pow2_pos n); lia). apply Z.mod_small. lia.
Qed.

Lemma mod_add_pow16 : forall s n low, 0 <= n <= s -> 0 <= low < 2 ^ n -> s <= 16 -> (2 ^ 16 - 2 ^ s + low) mod 2 ^ n = low.
Proof.
  intros s n low N L S. replace (2 ^ 16 - 2 ^ s + low) with (low + (2 ^ (16 - n) - 2 ^ (s - n)) * 2 ^ n).
  2:{ rewrite Z.mul_sub_distr_r, <- !Z.pow_add_r by lia. replace (16 - n + n) with 16 by lia. replace (s - n + n) with s by lia. lia. }
  rewrite Z.mod_add by (pose proof (pow2_pos n); lia). apply Z.mod_small. lia.
Qed.

Lemma div_mul_of_mod : forall v n r, 0 < n -> v mod n = r -> v / n * n = v - r.
Proof. intros v n r N E. pose proof (Z.div_mod v n ltac:(lia)). lia. Qed.

(** Writing all ones to a base address register. *)
Lemma probe : forall s b o, 2 <= s <= b -> 0 <= o < 2 ^ b -> merge (2 ^ b - 2 ^ s) o (2 ^ 32 - 1) = if b =? 32 then 2 ^ 32 - 2 ^ s + o mod 2 ^ s else merge (2 ^ b - 2 ^ s) o (2 ^ 32 - 1).
Proof.
  intros s b o S O. destruct (Z.eqb_spec b 32) as [-> |]; [|reflexivity].
  rewrite merge_range by lia. rewrite (Z.div_small o) by lia.
  assert (X : (2 ^ 32 - 1) mod 2 ^ s = 2 ^ s - 1).
  { pose proof (mod_add_pow s s (2 ^ s - 1) ltac:(lia)) as Q. replace (2 ^ 32 - 2 ^ s + (2 ^ s - 1)) with (2 ^ 32 - 1) in Q by lia. apply Q; pose proof (pow2_pos s); lia. }
  rewrite (div_mul_of_mod _ _ _ (pow2_pos s ltac:(lia)) X). lia.
Qed.

Lemma probe32 : forall s o, 2 <= s <= 31 -> 0 <= o < 2 ^ 32 -> merge (2 ^ 32 - 2 ^ s) o (2 ^ 32 - 1) = 2 ^ 32 - 2 ^ s + o mod 2 ^ s.
Proof. intros s o S O. exact (probe s 32 o ltac:(lia) O). Qed.

Lemma merge_low : forall b k o v, 0 <= b -> 0 <= k < 2 ^ b -> merge k o v = merge k o (v mod 2 ^ b).
Proof.
  intros b k o v B K. apply Z.bits_inj'. intros i I. rewrite !testbit_merge by lia. destruct (Z.testbit k i) eqn:E; [|reflexivity].
  destruct (Z.ltb_spec i b); [rewrite Z.mod_pow2_bits_low by lia; reflexivity|]. rewrite (testbit_high k b i) in E by lia. discriminate.
Qed.

Lemma probe16 : forall s o, 2 <= s <= 15 -> 0 <= o < 2 ^ 16 -> merge (2 ^ 16 - 2 ^ s) o (2 ^ 32 - 1) = 2 ^ 16 - 2 ^ s + o mod 2 ^ s.
Proof.
  intros s o S O. pose proof (pow2_pos s ltac:(lia)) as P. assert (2 ^ s <= 2 ^ 15) by (apply Z.pow_le_mono_r; lia).
  rewrite (merge_low 16) by (change (2 ^ 15) with 32768 in *; change (2 ^ 16) with 65536; lia).
  change ((2 ^ 32 - 1) mod 2 ^ 16) with (2 ^ 16 - 1). rewrite merge_range by (change (2 ^ 16) with 65536 in *; lia). rewrite (Z.div_small o) by lia.
  assert (X : (2 ^ 16 - 1) mod 2 ^ s = 2 ^ s - 1).
  { pose proof (mod_add_pow16 s s (2 ^ s - 1) ltac:(lia)) as Q. replace (2 ^ 16 - 2 ^ s + (2 ^ s - 1)) with (2 ^ 16 - 1) in Q by lia. apply Q; lia. }
  rewrite (div_mul_of_mod _ _ _ P X). lia.
Qed.

(** Storing an address. *)
Lemma store_addr : forall s b o v, 2 <= s <= b -> 0 <= o < 2 ^ b -> 0 <= v < 2 ^ b -> v mod 2 ^ s = 0 ->
  merge (2 ^ b - 2 ^ s) o v = v + o mod 2 ^ s.
Proof.
  intros s b o v S O V M. rewrite merge_range by lia. rewrite (Z.div_small o) by lia.
  rewrite (div_mul_of_mod v _ _ (pow2_pos s ltac:(lia)) M). lia.
Qed.

Lemma base_value : forall s v low, 0 <= s -> 0 <= low < 2 ^ s -> v mod 2 ^ s = 0 -> (v + low) / 2 ^ s * 2 ^ s = v /\ (v + low) mod 2 ^ s = low.
Proof.
  intros s v low S L M. pose proof (pow2_pos s S) as P. pose proof (Z.div_mod v (2 ^ s) ltac:(lia)) as D. rewrite M in D.
  assert (E : (v + low) / 2 ^ s = v / 2 ^ s) by (symmetry; apply (Z.div_unique _ _ _ low); lia).
  split; [rewrite E; lia|]. rewrite Z.mod_eq by lia. rewrite E. lia.
Qed.

Definition wide (b : bar) : bool := match b with Mem _ _ w => w | _ => false end.

(** Upper bound for each space. *)
Definition roof (i : info) (k : space) : Z := match k with IoS => 65536 | _ => limit i k end.
Definition same_limits (i i' : info) : Prop := mem_limit i' = mem_limit i /\ mem_pf_limit i' = mem_pf_limit i.
Definition limits_ok (i : info) : Prop := mem_limit i < 2 ^ 32 /\ mem_pf_limit i < 2 ^ 32.

Lemma cursor_set : forall i k v, cursor (set_cursor i k v) k = v.
Proof. intros i [] v; reflexivity. Qed.
Lemma cursor_other : forall i k k' v, k <> k' -> cursor (set_cursor i k v) k' = cursor i k'.
Proof. intros i [] [] v N; try reflexivity; congruence. Qed.
Lemma limits_set : forall i k v, same_limits i (set_cursor i k v) /\ curr_bus (set_cursor i k v) = curr_bus i.
Proof. intros i [] v; repeat split; reflexivity. Qed.

Section Function.
Context (m : machine) (mc : mech) (OK : mech_ok mc) (b d f : Z) (id : nat).
Context (HB : 0 <= b < 256) (HD : 0 <= d < 32) (HF : 0 <= f < 8).
Context (WB : forall r, 0 <= writable m id r < 2 ^ 32).

(** The function stays at its place whatever is written to it. *)
Definition held (st : regs) : Prop := forall st', agree_off [id] st st' -> target m st' b d f = Some id.

Lemma held_next : forall st st', held st -> agree_off [id] st st' -> held st'.
Proof. intros st st' H A s' A'. apply H. exact (agree_trans _ _ _ _ A A'). Qed.

Lemma held_self : forall st, held st -> target m st b d f = Some id.
Proof. intros st H. apply H. apply agree_refl. Qed.

Lemma agree_set : forall st r v, agree_off [id] st (set_reg st id r v).
Proof.
  intros st r v x X r'. unfold set_reg. destruct (Nat.eqb_spec x id) as [-> |]; [|reflexivity]. exfalso. apply X. left. reflexivity.
Qed.

Lemma held_set : forall st r v, held st -> held (set_reg st id r v).
Proof. intros st r v H. apply (held_next st); [exact H|apply agree_set]. Qed.

Lemma set_same : forall st r v, set_reg st id r v id r = v.
Proof. intros. unfold set_reg. rewrite Nat.eqb_refl, Z.eqb_refl. reflexivity. Qed.
Lemma set_other : forall st r r' v, r' <> r -> set_reg st id r v id r' = st id r'.
Proof. intros. unfold set_reg. rewrite Nat.eqb_refl. destruct (Z.eqb_spec r' r); [congruence|reflexivity]. Qed.
Lemma set_off : forall st r v x r', x <> id -> set_reg st id r v x r' = st x r'.
Proof. intros. unfold set_reg. destruct (Nat.eqb_spec x id); [congruence|reflexivity]. Qed.

Lemma reg_read_held : forall st r, held st -> reg_read m st b d f r = st id r.
Proof. intros st r H. unfold reg_read. rewrite (held_self st H). reflexivity. Qed.

Lemma reg_write_held : forall st r lanes v, held st -> reg_write m st b d f r lanes v = set_reg st id r (merge (Z.land (writable m id r) lanes) (st id r) v).
Proof. intros st r lanes v H. unfold reg_write. rewrite (held_self st H). reflexivity. Qed.

Lemma full_lanes : forall r, Z.land (writable m id r) (2 ^ 32 - 1) = writable m id r.
Proof. intro r. apply land_low; [lia|apply WB]. Qed.

Lemma rd32 : forall st off, held st -> 0 <= off < 256 -> off mod 4 = 0 -> pci_config_read32 m mc st b d f off = st id (off / 4).
Proof. intros st off H O M. rewrite (read32_ok m mc OK) by (unfold slot_ok; try lia; repeat split; lia). apply reg_read_held. exact H. Qed.

Lemma wr32 : forall st off v, held st -> 0 <= off < 256 -> off mod 4 = 0 ->
  pci_config_write32 m mc st b d f off v = set_reg st id (off / 4) (merge (writable m id (off / 4)) (st id (off / 4)) v).
Proof. intros st off v H O M. rewrite (write32_ok m mc OK) by (unfold slot_ok; try lia; repeat split; lia). rewrite reg_write_held by exact H. rewrite full_lanes. reflexivity. Qed.

Lemma bar_off : forall i, 0 <= i <= 6 -> 0 <= 16 + i * 4 < 256 /\ (16 + i * 4) mod 4 = 0 /\ (16 + i * 4) / 4 = 4 + i.
Proof.
  intros i I. split; [lia|]. replace (16 + i * 4) with ((4 + i) * 4) by lia. split; [apply Z.mod_mul; lia|apply Z.div_mul; lia].
Qed.

Lemma rd_bar : forall st i, held st -> 0 <= i <= 6 -> pci_config_read32 m mc st b d f (16 + i * 4) = st id (4 + i).
Proof. intros st i H I. destruct (bar_off i I) as (A & B & C). rewrite rd32 by assumption. rewrite C. reflexivity. Qed.
Lemma wr_bar : forall st i v, held st -> 0 <= i <= 6 ->
  pci_config_write32 m mc st b d f (16 + i * 4) v = set_reg st id (4 + i) (merge (writable m id (4 + i)) (st id (4 + i)) v).
Proof. intros st i v H I. destruct (bar_off i I) as (A & B & C). rewrite wr32 by assumption. rewrite C. reflexivity. Qed.

(** No command bit is set. *)
Definition quiet (st : regs) : Prop := Z.land (st id 1) (writable m id 1) = 0.

Lemma merge_zero : forall k lanes o, Z.land o k = 0 -> merge (Z.land k lanes) o 0 = o.
Proof.
  intros k lanes o H. apply Z.bits_inj'. intros i I. rewrite testbit_merge, Z.land_spec, Z.bits_0 by lia.
  assert (X : Z.testbit (Z.land o k) i = false) by (rewrite H; apply Z.bits_0). rewrite Z.land_spec in X.
  destruct (Z.testbit k i); cbn [andb]; [|reflexivity]. rewrite andb_true_r in X. rewrite X. destruct (Z.testbit lanes i); reflexivity.
Qed.

(** Restoring an absent base address register writes zeros where nothing is. *)
Lemma restore_ok : forall st i, held st -> quiet st -> writable m id 0 = 0 -> writable m id 2 = 0 -> 0 <= i < 6 ->
  forall x r, pci_config_write32 m mc st b d f i 0 x r = st x r.
Proof.
  intros st i H Q W0 W2 I.
  assert (Z3 : forall s r lanes, (forall x r, s x r = st x r) -> held s -> r = 0 \/ r = 1 \/ r = 2 ->
     held (reg_write m s b d f r lanes 0) /\ forall x r', reg_write m s b d f r lanes 0 x r' = st x r').
  { intros s r lanes E HS R. rewrite reg_write_held by exact HS. split; [apply held_set; exact HS|]. intros x r'.
    unfold set_reg. destruct (Nat.eqb_spec x id) as [-> |]; [|apply E]. destruct (Z.eqb_spec r' r) as [-> |]; [|apply E]. cbn [andb].
    rewrite merge_zero; [apply E|]. rewrite E. destruct R as [-> |[-> | ->]]; [rewrite W0|exact Q|rewrite W2]; apply Z.land_0_r. }
  assert (R01 : i / 4 = 0 \/ i / 4 = 1).
  { assert (0 <= i / 4 < 2) by (split; [apply Z.div_pos; lia|apply Z.div_lt_upper_bound; lia]). lia. }
  assert (SL : slot_ok b d f i) by (unfold slot_ok; repeat split; lia).
  unfold pci_config_write32. rewrite u8_id by lia. destruct mc as [base|ext].
  - destruct OK as (B0 & B1 & B2). rewrite ecam_address_eq by assumption. unfold ecam_write. rewrite ecam_mod4 by exact B1.
    destruct (ecam_decode base b d f i SL) as (E1 & E2 & E3 & E4). rewrite E1, E2, E3, E4.
    destruct (8 * (i mod 4) =? 0).
    + apply (Z3 st (i / 4)); [reflexivity|exact H|lia].
    + rewrite !Z.shiftl_0_l, !Z.shiftr_0_l. change (u32 0) with 0.
      destruct (Z3 st (i / 4) (2 ^ 32 - 2 ^ (8 * (i mod 4))) ltac:(reflexivity) H ltac:(lia)) as (A1 & A2).
      apply (Z3 _ (i / 4 + 1)); [exact A2|exact A1|lia].
  - cbn [mech_ok] in OK. rewrite OK. unfold io_write32. rewrite io_address_eq by lia. rewrite field_small by lia.
    rewrite (Z.mod_small i) by lia. rewrite port_write_eq by lia. apply (Z3 st (i / 4)); [reflexivity|exact H|lia].
Qed.

(** Outcome of programming a base address register wired as [bd]. *)
Definition bar_done (st : regs) (i : info) (idx : Z) (bd : bar) (st' : regs) (i' : info) : Prop :=
  (forall x r, x <> id \/ (r <> 4 + idx /\ (wide bd = true -> r <> 5 + idx)) -> st' x r = st x r) /\
  wired m st' id idx bd /\ (wide bd = true -> 0 <= st' id (5 + idx) < 2 ^ 32) /\
  (forall k, space_of bd = Some k -> cursor i k <= base_of st' id idx bd /\ base_of st' id idx bd mod size_of bd = 0 /\
     cursor i' k = base_of st' id idx bd + size_of bd /\ cursor i' k <= cursor i k + bar_need k bd) /\
  (forall k, space_of bd <> Some k -> cursor i' k = cursor i k) /\
  same_limits i i' /\ curr_bus i' = curr_bus i.

(** The part of [pci_program_bar] that finds an address; [n] is the length's or the page's
    logarithm. *)
Lemma alloc_ok : forall i k s, 2 <= s <= 31 -> limits_ok i -> 0 <= cursor i k -> cursor i k + 2 * Z.max 4096 (2 ^ s) <= roof i k ->
  exists v, pci_enum_next_aligned32 (cursor i k) (if 2 ^ s <? 4096 then 4096 else 2 ^ s) (limit i k) = Some v /\
    v mod 2 ^ s = 0 /\ cursor i k <= v /\ v + 2 ^ s <= cursor i k + 2 * Z.max 4096 (2 ^ s) /\ v + 2 ^ s <= roof i k /\ u32 (v + 2 ^ s) = v + 2 ^ s.
Proof.
  intros i k s S (L1 & L2) C R. pose proof (pow2_pos s ltac:(lia)) as P.
  assert (RL : roof i k <= limit i k /\ limit i k < 2 ^ 32).
  { destruct k; cbn [roof limit]; change (2 ^ 32) with 4294967296 in *; lia. }
  destruct (Z.ltb_spec (2 ^ s) 4096) as [LT|GE].
  - rewrite Z.max_l in * by lia. assert (S12 : s < 12).
    { destruct (Z.lt_ge_cases s 12) as [|X]; [assumption|]. assert (2 ^ 12 <= 2 ^ s) by (apply Z.pow_le_mono_r; lia). change (2 ^ 12) with 4096 in *. lia. }
    change 4096 with (2 ^ 12) in *. destruct (next_aligned_ok (cursor i k) 12 (limit i k)) as (v & V1 & V2 & V3); try lia.
    exists v. split; [exact V1|]. split; [apply (mod_0_mul v 12); [lia|exact V2]|]. split; [lia|]. split; [lia|]. split; [lia|]. apply u32_id. lia.
  - rewrite Z.max_r in * by lia. destruct (next_aligned_ok (cursor i k) s (limit i k)) as (v & V1 & V2 & V3); try lia.
    exists v. split; [exact V1|]. split; [exact V2|]. split; [lia|]. split; [lia|]. split; [lia|]. apply u32_id. lia.
Qed.

Lemma length_of : forall s, 2 <= s <= 31 -> u32 (not32 (2 ^ 32 - 2 ^ s) + 1) = 2 ^ s.
Proof.
  intros s S. pose proof (pow2_pos s ltac:(lia)) as P. assert (2 ^ s < 2 ^ 32) by (apply Z.pow_lt_mono_r; lia).
  unfold not32. rewrite (u32_id (2 ^ 32 - 2 ^ s)) by lia. replace (2 ^ 32 - 1 - (2 ^ 32 - 2 ^ s) + 1) with (2 ^ s) by lia. apply u32_id. lia.
Qed.

Lemma space_eqb_refl : forall k, space_eqb k k = true.
Proof. intros []; reflexivity. Qed.

(** Flags of a memory register read back after writing ones. *)
Lemma mem_flags : forall s pf w, 4 <= s <= 31 -> let low := (if w : bool then 4 else 0) + (if pf : bool then 8 else 0) in
  let v := 2 ^ 32 - 2 ^ s + low in
  v <> 0 /\ pci_enum_is_mmio v = true /\ pci_enum_is_prefetch v = pf /\ pci_enum_is_64bit v = w /\ Z.land v 4294967280 = 2 ^ 32 - 2 ^ s.
Proof.
  intros s pf w S low v. assert (L : 0 <= low < 16) by (unfold low; destruct w, pf; lia).
  assert (P : 2 ^ s < 2 ^ 32) by (apply Z.pow_lt_mono_r; lia). pose proof (pow2_pos s ltac:(lia)) as P0.
  assert (P4 : 2 ^ 4 <= 2 ^ s) by (apply Z.pow_le_mono_r; lia).
  assert (M : v mod 16 = low) by (apply (mod_add_pow s 4); [lia|change (2 ^ 4) with 16; lia|lia]).
  split; [unfold v; lia|]. unfold pci_enum_is_mmio, pci_enum_is_prefetch, pci_enum_is_64bit.
  rewrite (land_sub15 v 1), (land_sub15 v 8), (land_sub15 v 6) by reflexivity. rewrite M.
  split; [unfold low; destruct w, pf; reflexivity|]. split; [unfold low; destruct w, pf; reflexivity|]. split; [unfold low; destruct w, pf; reflexivity|].
  change 4294967280 with (2 ^ 32 - 2 ^ 4). change (2 ^ 4) with 16 in P4. rewrite land_high by (unfold v; lia). change (2 ^ 4) with 16.
  rewrite (div_mul_of_mod v 16 low) by lia. unfold v. lia.
Qed.

Lemma io_flags : forall s w, 2 <= s <= 15 -> let v := (if w : bool then 2 ^ 32 else 2 ^ 16) - 2 ^ s + 1 in
  v <> 0 /\ pci_enum_is_mmio v = false /\
  (let a := Z.land v 4294967292 in if Z.land a 4294901760 =? 0 then Z.lor a 4294901760 else a) = 2 ^ 32 - 2 ^ s.
Proof.
  intros s w S v. pose proof (pow2_pos s ltac:(lia)) as P0. assert (P4 : 2 ^ 2 <= 2 ^ s) by (apply Z.pow_le_mono_r; lia).
  assert (P : 2 ^ s <= 2 ^ 15) by (apply Z.pow_le_mono_r; lia). change (2 ^ 2) with 4 in P4. change (2 ^ 15) with 32768 in P.
  assert (M : v mod 4 = 1) by (unfold v; destruct w; [apply (mod_add_pow s 2)|apply (mod_add_pow16 s 2)]; change (2 ^ 2) with 4; lia).
  assert (V : 0 <= v < 2 ^ 32) by (unfold v; destruct w; change (2 ^ 32) with 4294967296; change (2 ^ 16) with 65536; lia).
  split; [unfold v; destruct w; change (2 ^ 32) with 4294967296; change (2 ^ 16) with 65536; lia|]. split.
  - unfold pci_enum_is_mmio. rewrite land_1. pose proof (Z.div_mod v 4 ltac:(lia)) as D. rewrite M in D. rewrite D.
    replace (4 * (v / 4) + 1) with (1 + (2 * (v / 4)) * 2) by lia. rewrite Z.mod_add by lia. reflexivity.
  - assert (A : Z.land v 4294967292 = v - 1).
    { change 4294967292 with (2 ^ 32 - 2 ^ 2). rewrite land_high by lia. change (2 ^ 2) with 4. apply div_mul_of_mod; [lia|exact M]. }
    cbv zeta. rewrite A. change 4294901760 with (2 ^ 32 - 2 ^ 16). rewrite land_high by lia. unfold v. destruct w.
    + replace (2 ^ 32 - 2 ^ s + 1 - 1) with (2 ^ 32 - 2 ^ s) by lia.
      rewrite (div_unique_range _ 65535) by (change (2 ^ 32) with 4294967296; change (2 ^ 16) with 65536; lia). reflexivity.
    + replace (2 ^ 16 - 2 ^ s + 1 - 1) with (2 ^ 16 - 2 ^ s) by lia. rewrite Z.div_small by (change (2 ^ 16) with 65536; lia). cbn [Z.mul Z.eqb].
      rewrite Z.lor_comm. rewrite (lor_add _ _ 16) by first [lia | change (2 ^ 16) with 65536; lia | reflexivity]. change (2 ^ 32) with 4294967296. change (2 ^ 16) with 65536. lia.
Qed.

Lemma bar_step : forall st i idx bd, held st -> quiet st -> writable m id 0 = 0 -> writable m id 2 = 0 ->
  0 <= idx < 6 -> bd <> Upper -> wired m st id idx bd -> (wide bd = true -> idx < 5 /\ wired m st id (idx + 1) Upper) ->
  limits_ok i -> (forall k, space_of bd = Some k -> 0 <= cursor i k /\ cursor i k + bar_need k bd <= roof i k) ->
  exists st' i', pci_program_bar m mc st i b d f idx = (st', i', wide bd, true) /\ bar_done st i idx bd st' i'.
Proof.
  intros st i idx bd H Q W0 W2 I NU WD WU LM RM. unfold pci_program_bar. cbv zeta.
  rewrite (rd_bar st idx H) by lia. rewrite (wr_bar st idx _ H) by lia.
  set (st1 := set_reg st id (4 + idx) (merge (writable m id (4 + idx)) (st id (4 + idx)) 4294967295)).
  assert (H1 : held st1) by (apply held_set; exact H). rewrite (rd_bar st1 idx H1) by lia.
  assert (E1 : st1 id (4 + idx) = merge (writable m id (4 + idx)) (st id (4 + idx)) 4294967295) by apply set_same. rewrite E1.
  destruct bd as [|s pf w| |s w]; [| |congruence|].
  - (* nothing there *)
    destruct WD as (V & V0 & V1). rewrite V0, V1, merge_0. cbn [Z.eqb].
    assert (E0 : forall x r, st1 x r = st x r).
    { intros x r. unfold st1, set_reg. destruct (Nat.eqb_spec x id) as [-> |]; [|reflexivity]. destruct (Z.eqb_spec r (4 + idx)) as [-> |]; [|reflexivity].
      cbn [andb]. rewrite V1. apply merge_0. }
    exists (pci_config_write32 m mc st1 b d f idx 0), i. split; [reflexivity|].
    assert (E2 : forall x r, pci_config_write32 m mc st1 b d f idx 0 x r = st x r).
    { intros x r. rewrite (restore_ok st1 idx H1); try assumption; [apply E0|]. unfold quiet. rewrite E0. exact Q. }
    unfold bar_done. cbn [wide space_of]. split; [intros x r _; apply E2|]. split; [unfold wired; rewrite E2; split; [exact V|split; assumption]|].
    split; [discriminate|]. split; [discriminate|]. split; [reflexivity|]. split; [split; reflexivity|reflexivity].
  - (* memory *)
    destruct WD as (V & S & WW & VL). rewrite WW.
    change 4294967295 with (2 ^ 32 - 1) in E1 |- *. rewrite probe32 by lia. rewrite VL.
    assert (E1' : st1 id (4 + idx) = 2 ^ 32 - 2 ^ s + ((if w then 4 else 0) + (if pf then 8 else 0))) by (rewrite E1, WW, probe32, VL by lia; reflexivity).
    destruct (mem_flags s pf w S) as (F1 & F2 & F3 & F4 & F5).
    set (low := (if w then 4 else 0) + (if pf then 8 else 0)) in *.
    assert (LW : 0 <= low < 16) by (unfold low; destruct w, pf; lia).
    assert (PS : 2 ^ 4 <= 2 ^ s) by (apply Z.pow_le_mono_r; lia). change (2 ^ 4) with 16 in PS.
    assert (PS2 : 2 ^ s < 2 ^ 32) by (apply Z.pow_lt_mono_r; lia).
    destruct (Z.eqb_spec (2 ^ 32 - 2 ^ s + low) 0); [contradiction|]. rewrite F2, F3, F4, F5.
    set (k := if pf then PfS else MemS).
    assert (SK : space_of (Mem s pf w) = Some k) by (unfold k; destruct pf; reflexivity).
    destruct (RM k SK) as (C0 & C1).
    assert (BN : bar_need k (Mem s pf w) = 2 * Z.max 4096 (2 ^ s)) by (unfold bar_need; rewrite SK, space_eqb_refl; reflexivity). rewrite BN in C1.
    destruct (alloc_ok i k s ltac:(lia) LM C0 C1) as (v & A1 & A2 & A3 & A4 & A5 & A6).
    assert (RF : roof i k < 2 ^ 32) by (unfold k; destruct LM; destruct pf; cbn [roof limit]; assumption).
    pose proof (base_value s v low ltac:(lia) ltac:(lia) A2) as (B1 & B2).
    destruct w.
    + destruct (WU eq_refl) as (I5 & WU1). destruct WU1 as (UV & UW). replace (4 + (idx + 1)) with (5 + idx) in UV, UW by lia.
      replace (16 + idx * 4 + 4) with (16 + (idx + 1) * 4) by lia.
      rewrite (rd_bar st1 (idx + 1) H1), (wr_bar st1 (idx + 1) _ H1) by lia. replace (4 + (idx + 1)) with (5 + idx) by lia.
      set (st2 := set_reg st1 id (5 + idx) (merge (writable m id (5 + idx)) (st1 id (5 + idx)) (2 ^ 32 - 1))).
      assert (H2 : held st2) by (apply held_set; exact H1).
      rewrite (rd_bar st2 (idx + 1) H2) by lia. replace (4 + (idx + 1)) with (5 + idx) by lia.
      assert (O1 : st1 id (5 + idx) = st id (5 + idx)) by (apply set_other; lia).
      assert (ALL : forall o x, 0 <= o < 2 ^ 32 -> 0 <= x < 2 ^ 32 -> merge (2 ^ 32 - 1) o x = x).
      { intros o x O X. change (2 ^ 32 - 1) with (2 ^ 32 - 2 ^ 0). rewrite merge_range by lia. rewrite (Z.div_small o) by lia. change (2 ^ 0) with 1. rewrite Z.div_1_r, Z.mod_1_r. lia. }
      assert (E2 : st2 id (5 + idx) = 2 ^ 32 - 1) by (unfold st2; rewrite set_same, UW, O1; apply ALL; [exact UV|change (2 ^ 32) with 4294967296; lia]).
      rewrite E2. rewrite Z.eqb_refl. cbn [negb].
      rewrite length_of by lia. rewrite A1, A6.
      rewrite (wr_bar st2 idx _ H2) by lia.
      set (st3 := set_reg st2 id (4 + idx) (merge (writable m id (4 + idx)) (st2 id (4 + idx)) v)).
      assert (H3 : held st3) by (apply held_set; exact H2). rewrite (wr_bar st3 (idx + 1) _ H3) by lia. replace (4 + (idx + 1)) with (5 + idx) by lia.
      set (st4 := set_reg st3 id (5 + idx) (merge (writable m id (5 + idx)) (st3 id (5 + idx)) 0)).
      exists st4, (set_cursor i k (v + 2 ^ s)). split; [reflexivity|].
      assert (X4 : st4 id (4 + idx) = v + low).
      { unfold st4. rewrite set_other by lia. unfold st3. rewrite set_same. unfold st2. rewrite set_other by lia. rewrite E1', WW.
        rewrite store_addr by lia. rewrite (mod_add_pow s s low) by lia. reflexivity. }
      assert (X5 : st4 id (5 + idx) = 0).
      { unfold st4. rewrite set_same, UW. apply ALL; [|lia]. unfold st3. rewrite set_other by lia. rewrite E2. change (2 ^ 32) with 4294967296. lia. }
      unfold bar_done. rewrite SK. cbn [wide base_of size_of]. rewrite X4, B1. split.
      { intros x r [N|(N1 & N2)].
        - unfold st4, st3, st2, st1. rewrite !set_off by exact N. reflexivity.
        - destruct (Nat.eq_dec x id) as [-> |NX]; [|unfold st4, st3, st2, st1; rewrite !set_off by exact NX; reflexivity].
          specialize (N2 eq_refl). unfold st4, st3, st2, st1. rewrite !set_other by assumption. reflexivity. }
      split; [unfold wired; rewrite X4; split; [lia|split; [exact S|split; [exact WW|exact B2]]]|].
      split; [intros _; rewrite X5; change (2 ^ 32) with 4294967296; lia|]. split.
      { intros k' K'. assert (k' = k) by congruence. subst k'. rewrite cursor_set, BN. split; [exact A3|]. split; [exact A2|]. split; [reflexivity|exact A4]. }
      split; [intros k' K'; apply cursor_other; congruence|]. exact (limits_set i k _).
    + rewrite length_of by lia. rewrite A1, A6. rewrite (wr_bar st1 idx _ H1) by lia.
      set (st3 := set_reg st1 id (4 + idx) (merge (writable m id (4 + idx)) (st1 id (4 + idx)) v)).
      exists st3, (set_cursor i k (v + 2 ^ s)). split; [reflexivity|].
      assert (X4 : st3 id (4 + idx) = v + low).
      { unfold st3. rewrite set_same. rewrite E1', WW. rewrite store_addr by lia. rewrite (mod_add_pow s s low) by lia. reflexivity. }
      unfold bar_done. rewrite SK. cbn [wide base_of size_of]. rewrite X4, B1. split.
      { intros x r [N|(N1 & _)].
        - unfold st3, st1. rewrite !set_off by exact N. reflexivity.
        - destruct (Nat.eq_dec x id) as [-> |NX]; [|unfold st3, st1; rewrite !set_off by exact NX; reflexivity].
          unfold st3, st1. rewrite !set_other by assumption. reflexivity. }
      split; [unfold wired; rewrite X4; split; [lia|split; [exact S|split; [exact WW|exact B2]]]|].
      split; [discriminate|]. split.
      { intros k' K'. assert (k' = k) by congruence. subst k'. rewrite cursor_set, BN. split; [exact A3|]. split; [exact A2|]. split; [reflexivity|exact A4]. }
      split; [intros k' K'; apply cursor_other; congruence|]. exact (limits_set i k _).
  - (* I/O *)
    destruct WD as (V & S & WW & VL & VN).
    assert (PS : 2 ^ s <= 2 ^ 15) by (apply Z.pow_le_mono_r; lia). assert (PS4 : 2 ^ 2 <= 2 ^ s) by (apply Z.pow_le_mono_r; lia).
    assert (PR : merge (writable m id (4 + idx)) (st id (4 + idx)) (2 ^ 32 - 1) = (if w then 2 ^ 32 else 2 ^ 16) - 2 ^ s + 1).
    { rewrite WW. destruct w; [rewrite probe32 by lia|rewrite probe16 by (specialize (VN eq_refl); lia)]; rewrite VL; reflexivity. }
    change 4294967295 with (2 ^ 32 - 1) in E1 |- *. rewrite PR in E1 |- *. destruct (io_flags s w S) as (F1 & F2 & F3). cbv zeta in F3.
    set (pv := (if w then 2 ^ 32 else 2 ^ 16) - 2 ^ s + 1) in *.
    destruct (Z.eqb_spec pv 0); [contradiction|]. rewrite F2, F3.
    destruct (RM IoS eq_refl) as (C0 & C1). assert (BN : bar_need IoS (Io s w) = 2 * Z.max 4096 (2 ^ s)) by reflexivity. rewrite BN in C1.
    destruct (alloc_ok i IoS s ltac:(lia) LM C0 C1) as (v & A1 & A2 & A3 & A4 & A5 & A6). cbn [roof] in A5.
    pose proof (base_value s v 1 ltac:(lia) ltac:(change (2 ^ 2) with 4 in PS4; lia) A2) as (B1 & B2).
    rewrite length_of by lia. rewrite A1, A6. rewrite (wr_bar st1 idx _ H1) by lia.
    set (st3 := set_reg st1 id (4 + idx) (merge (writable m id (4 + idx)) (st1 id (4 + idx)) v)).
    exists st3, (set_cursor i IoS (v + 2 ^ s)). split; [reflexivity|].
    assert (X4 : st3 id (4 + idx) = v + 1).
    { unfold st3. rewrite set_same, E1, WW. change (2 ^ 2) with 4 in PS4. change (2 ^ 15) with 32768 in PS. unfold pv. destruct w.
      - rewrite store_addr; [|lia|change (2 ^ 32) with 4294967296; lia|change (2 ^ 32) with 4294967296; lia|exact A2]. rewrite (mod_add_pow s s 1) by lia. reflexivity.
      - rewrite store_addr; [|lia|change (2 ^ 16) with 65536; lia|change (2 ^ 16) with 65536; lia|exact A2]. rewrite (mod_add_pow16 s s 1) by lia. reflexivity. }
    unfold bar_done. cbn [wide base_of size_of space_of]. rewrite X4, B1. split.
    { intros x r [N|(N1 & _)].
      - unfold st3, st1. rewrite !set_off by exact N. reflexivity.
      - destruct (Nat.eq_dec x id) as [-> |NX]; [|unfold st3, st1; rewrite !set_off by exact NX; reflexivity].
        unfold st3, st1. rewrite !set_other by assumption. reflexivity. }
    change (2 ^ 15) with 32768 in PS. change (2 ^ 2) with 4 in PS4.
    split; [unfold wired; rewrite X4; split; [change (2 ^ 32) with 4294967296; lia|split; [exact S|split; [exact WW|split; [exact B2|intros _; change (2 ^ 16) with 65536; lia]]]]|].
    split; [discriminate|]. split.
    { intros k' K'. assert (k' = IoS) by congruence. subst k'. rewrite cursor_set, BN. split; [exact A3|]. split; [exact A2|]. split; [reflexivity|exact A4]. }
    split; [intros k' K'; apply cursor_other; congruence|]. exact (limits_set i IoS _).
Qed.
End Function.
