(** Lemmas for PciProps: bridge registers. *)
From Verif Require Import Base BaseLemmas PciSpec PciModel PciProofs PciTree PciBars PciEnum.
Local Ltac Zify.zify_post_hook ::= idtac.

Lemma testbit_not32 : forall x i, 0 <= x < 2 ^ 32 -> 0 <= i -> Z.testbit (not32 x) i = (i <? 32) && negb (Z.testbit x i).
Proof.
  intros x i X I. unfold not32. rewrite u32_id by exact X.
  replace (2 ^ 32 - 1 - x) with (Z.lnot x mod 2 ^ 32).
  2:{ unfold Z.lnot. symmetry. apply (Z.mod_unique _ _ (-1)); [left; lia|]. lia. }
  destruct (Z.ltb_spec i 32); [rewrite Z.mod_pow2_bits_low by lia; apply Z.lnot_spec; exact I|rewrite Z.mod_pow2_bits_high by lia; reflexivity].
Qed.

(** Replacing byte [j] of the bus number register. *)
Lemma byte_field : forall o v j, j = 0 \/ j = 1 \/ j = 2 -> 0 <= v < 256 ->
  let n := merge (2 ^ 24 - 1) o (Z.lor (Z.land o (not32 (u32 (Z.shiftl 255 (j * 8))))) (u32 (Z.shiftl v (j * 8)))) in
  field n (8 * j) 8 = v /\ forall j', 0 <= j' <= 2 -> j' <> j -> field n (8 * j') 8 = field o (8 * j') 8.
Proof.
  intros o v j J V n.
  assert (EM : u32 (Z.shiftl 255 (j * 8)) = 2 ^ (8 * j + 8) - 2 ^ (8 * j)) by (destruct J as [-> |[-> | ->]]; reflexivity).
  assert (EV : u32 (Z.shiftl v (j * 8)) = Z.shiftl v (8 * j)).
  { rewrite (Z.mul_comm j 8). rewrite Z.shiftl_mul_pow2 by lia. apply u32_id. destruct J as [-> |[-> | ->]]; cbn [Z.mul Pos.mul]; [change (2 ^ 0) with 1|change (2 ^ 8) with 256|change (2 ^ 16) with 65536]; change (2 ^ 32) with 4294967296; lia. }
  assert (ML : 0 <= 2 ^ (8 * j + 8) - 2 ^ (8 * j) < 2 ^ 32) by (destruct J as [-> |[-> | ->]]; split; vm_compute; congruence).
  assert (BIT : forall i, 0 <= i < 24 -> Z.testbit n i = if (8 * j <=? i) && (i <? 8 * j + 8) then Z.testbit v (i - 8 * j) else Z.testbit o i).
  { intros i I. unfold n. rewrite testbit_merge by lia. change (2 ^ 24 - 1) with (2 ^ 24 - 2 ^ 0). rewrite testbit_range by lia.
    replace (0 <=? i) with true by (symmetry; apply Z.leb_le; lia). replace (i <? 24) with true by (symmetry; apply Z.ltb_lt; lia). cbn [andb].
    rewrite Z.lor_spec, Z.land_spec, EM, EV. rewrite testbit_not32 by lia. rewrite testbit_range by lia. rewrite Z.shiftl_spec by lia.
    replace (i <? 32) with true by (symmetry; apply Z.ltb_lt; lia). cbn [andb].
    destruct (Z.leb_spec (8 * j) i); destruct (Z.ltb_spec i (8 * j + 8)); cbn [andb negb].
    - rewrite andb_false_r. reflexivity.
    - rewrite andb_true_r. rewrite (testbit_high v 8 (i - 8 * j)) by (change (2 ^ 8) with 256; lia). apply orb_false_r.
    - rewrite andb_true_r. rewrite (Z.testbit_neg_r v) by lia. apply orb_false_r.
    - lia. }
  split.
  - apply Z.bits_inj'. intros i I. rewrite testbit_field by lia. destruct (Z.ltb_spec i 8) as [L|L]; cbn [andb].
    + rewrite BIT by lia. replace (8 * j <=? 8 * j + i) with true by (symmetry; apply Z.leb_le; lia). replace (8 * j + i <? 8 * j + 8) with true by (symmetry; apply Z.ltb_lt; lia). cbn [andb]. f_equal. lia.
    + symmetry. apply (testbit_high v 8); [lia|change (2 ^ 8) with 256; lia|lia].
  - intros j' J' NE. apply Z.bits_inj'. intros i I. rewrite !testbit_field by lia. destruct (Z.ltb_spec i 8) as [L|L]; cbn [andb]; [|reflexivity].
    rewrite BIT by lia. destruct (Z.leb_spec (8 * j) (8 * j' + i)); destruct (Z.ltb_spec (8 * j' + i) (8 * j + 8)); cbn [andb]; try reflexivity. lia.
Qed.

(** Bits that can be written in a window register. *)
Lemma win_mask : forall i, 0 <= i -> Z.testbit 4293984240 i = ((4 <=? i) && (i <? 16)) || ((20 <=? i) && (i <? 32)).
Proof.
  intros i I. change 4293984240 with (Z.lor (2 ^ 16 - 2 ^ 4) (2 ^ 32 - 2 ^ 20)). rewrite Z.lor_spec, !testbit_range by lia. reflexivity.
Qed.

Lemma win_low : forall o v, 0 <= v < 2 ^ 16 -> let n := merge 4293984240 o (Z.lor (Z.land o 4294901760) v) in
  field n 4 12 = field v 4 12 /\ field n 20 12 = field o 20 12.
Proof.
  intros o v V n. split; apply Z.bits_inj'; intros i I; rewrite !testbit_field by lia; (destruct (Z.ltb_spec i 12) as [L|L]; cbn [andb]; [|reflexivity]);
    unfold n; rewrite testbit_merge, win_mask, Z.lor_spec, Z.land_spec by lia; change 4294901760 with (2 ^ 32 - 2 ^ 16); rewrite testbit_range by lia.
  - replace ((4 <=? 4 + i) && (4 + i <? 16)) with true by (symmetry; apply andb_true_intro; split; [apply Z.leb_le|apply Z.ltb_lt]; lia). cbn [orb].
    replace (16 <=? 4 + i) with false by (symmetry; apply Z.leb_gt; lia). cbn [andb]. rewrite andb_false_r. reflexivity.
  - replace ((20 <=? 20 + i) && (20 + i <? 32)) with true by (symmetry; apply andb_true_intro; split; [apply Z.leb_le|apply Z.ltb_lt]; lia). rewrite orb_true_r.
    replace ((16 <=? 20 + i) && (20 + i <? 32)) with true by (symmetry; apply andb_true_intro; split; [apply Z.leb_le|apply Z.ltb_lt]; lia). rewrite andb_true_r.
    rewrite (testbit_high v 16 (20 + i)) by lia. apply orb_false_r.
Qed.

Lemma win_high : forall o v, 0 <= v < 2 ^ 16 -> let n := merge 4293984240 o (Z.lor (Z.land o 65535) (u32 (Z.shiftl v 16))) in
  field n 20 12 = field v 4 12 /\ field n 4 12 = field o 4 12.
Proof.
  intros o v V n. assert (EV : u32 (Z.shiftl v 16) = Z.shiftl v 16).
  { apply u32_id. rewrite Z.shiftl_mul_pow2 by lia. change (2 ^ 32) with 4294967296. change (2 ^ 16) with 65536 in *. lia. }
  split; apply Z.bits_inj'; intros i I; rewrite !testbit_field by lia; (destruct (Z.ltb_spec i 12) as [L|L]; cbn [andb]; [|reflexivity]);
    unfold n; rewrite testbit_merge, win_mask, Z.lor_spec, Z.land_spec, EV, Z.shiftl_spec by lia; change 65535 with (Z.ones 16).
  - replace ((20 <=? 20 + i) && (20 + i <? 32)) with true by (symmetry; apply andb_true_intro; split; [apply Z.leb_le|apply Z.ltb_lt]; lia). rewrite orb_true_r.
    rewrite Z.ones_spec_high by lia. rewrite andb_false_r. cbn [orb]. f_equal. lia.
  - replace ((4 <=? 4 + i) && (4 + i <? 16)) with true by (symmetry; apply andb_true_intro; split; [apply Z.leb_le|apply Z.ltb_lt]; lia). cbn [orb].
    rewrite Z.ones_spec_low by lia. rewrite andb_true_r. rewrite (Z.testbit_neg_r v) by lia. apply orb_false_r.
Qed.

(** Where the fields of a window register come from. *)
Lemma win_addr : forall a, 0 <= a < 2 ^ 32 -> 0 <= Z.shiftr a 16 < 2 ^ 16 /\ field (Z.shiftr a 16) 4 12 = a / 2 ^ 20.
Proof.
  intros a A. rewrite Z.shiftr_div_pow2 by lia. split; [split; [apply Z.div_pos; lia|apply Z.div_lt_upper_bound; [lia|change (2 ^ 16 * 2 ^ 16) with (2 ^ 32); lia]]|].
  rewrite field_div by lia. rewrite Z.div_div by lia. change (2 ^ 16 * 2 ^ 4) with (2 ^ 20). apply Z.mod_small.
  split; [apply Z.div_pos; lia|apply Z.div_lt_upper_bound; [lia|change (2 ^ 20 * 2 ^ 12) with (2 ^ 32); lia]].
Qed.

Section Bridge.
Context (m : machine) (mc : mech) (OK : mech_ok mc) (b d f : Z) (id : nat).
Context (HB : 0 <= b < 256) (HD : 0 <= d < 32) (HF : 0 <= f < 8).
Context (WB : forall r, 0 <= writable m id r < 2 ^ 32).
Local Notation held := (held m b d f id).

(** [only rs st st']: at most the registers [rs] of this function differ. *)
Definition only (rs : list Z) (st st' : regs) : Prop := forall x r, x <> id \/ ~ In r rs -> st' x r = st x r.

Lemma only_refl : forall rs st, only rs st st.
Proof. intros rs st x r _. reflexivity. Qed.
Lemma only_trans : forall rs a b' c, only rs a b' -> only rs b' c -> only rs a c.
Proof. intros rs a b' c H1 H2 x r X. rewrite H2, H1 by exact X. reflexivity. Qed.
Lemma only_incl : forall rs rs' a b', incl rs rs' -> only rs a b' -> only rs' a b'.
Proof. intros rs rs' a b' I H x r X. apply H. destruct X as [X|X]; [left; exact X|right; intro R; apply X, I, R]. Qed.
Lemma only_agree : forall rs a b', only rs a b' -> agree_off [id] a b'.
Proof. intros rs a b' H x X r. apply H. left. intro E. apply X. left. symmetry. exact E. Qed.
Lemma only_held : forall rs a b', only rs a b' -> held a -> held b'.
Proof. intros rs a b' O H. apply (held_next m b d f id a); [exact H|exact (only_agree rs a b' O)]. Qed.
Lemma only_set : forall st r v, only [r] st (set_reg st id r v).
Proof.
  intros st r v x r' X. unfold set_reg. destruct (Nat.eqb_spec x id) as [-> |]; [|reflexivity]. destruct (Z.eqb_spec r' r) as [-> |]; [|reflexivity].
  exfalso. destruct X as [X|X]; [congruence|]. apply X. left. reflexivity.
Qed.

Lemma wr8 : forall st off v, held st -> 0 <= off < 256 ->
  pci_config_write8 m mc st b d f off v = set_reg st id (off / 4) (merge (writable m id (off / 4)) (st id (off / 4))
     (Z.lor (Z.land (st id (off / 4)) (not32 (u32 (Z.shiftl 255 (off mod 4 * 8))))) (u32 (Z.shiftl v (off mod 4 * 8))))).
Proof.
  intros st off v H O. rewrite (write8_ok m mc OK) by (unfold slot_ok; repeat split; lia).
  rewrite (reg_read_held m b d f id), (reg_write_held m b d f id) by exact H. rewrite (full_lanes m id WB). reflexivity.
Qed.

Lemma wr16 : forall st off v, held st -> 0 <= off < 256 -> off mod 4 = 0 \/ off mod 4 = 2 ->
  pci_config_write16 m mc st b d f off v = set_reg st id (off / 4) (merge (writable m id (off / 4)) (st id (off / 4))
     (if off mod 4 =? 0 then Z.lor (Z.land (st id (off / 4)) 4294901760) v
       else Z.lor (Z.land (st id (off / 4)) 65535) (u32 (Z.shiftl v 16)))).
Proof.
  intros st off v H O M. rewrite (write16_ok m mc OK) by (unfold slot_ok; try assumption; repeat split; lia).
  rewrite (reg_read_held m b d f id), (reg_write_held m b d f id) by exact H. rewrite (full_lanes m id WB). reflexivity.
Qed.

(** Bus numbers. *)
Lemma number_ok : forall st j v, held st -> j = 0 \/ j = 1 \/ j = 2 -> 0 <= v < 256 -> writable m id 6 = 2 ^ 24 - 1 ->
  let st' := pci_config_write8 m mc st b d f (24 + j) v in
  only [6] st st' /\ field (st' id 6) (8 * j) 8 = v /\ forall j', 0 <= j' <= 2 -> j' <> j -> field (st' id 6) (8 * j') 8 = field (st id 6) (8 * j') 8.
Proof.
  intros st j v H J V W6 st'. unfold st'. rewrite wr8 by (try exact H; lia).
  assert (E1 : (24 + j) / 4 = 6) by (destruct J as [-> |[-> | ->]]; reflexivity). assert (E2 : (24 + j) mod 4 = j) by (destruct J as [-> |[-> | ->]]; reflexivity).
  rewrite E1, E2, W6. split; [apply only_set|]. rewrite set_same. apply byte_field; assumption.
Qed.

(** A memory window: written, or disabled. *)
Lemma window_ok : forall st k a e, held st -> k = MemS \/ k = PfS -> writable m id (win_reg k) = 4293984240 ->
  0 <= a < 2 ^ 16 -> 0 <= e < 2 ^ 16 ->
  let o := 4 * win_reg k in
  let st' := pci_config_write16 m mc (pci_config_write16 m mc st b d f o a) b d f (o + 2) e in
  only [win_reg k] st st' /\ win_base st' id k = field a 4 12 * 2 ^ 20 /\ win_limit st' id k = field e 4 12 * 2 ^ 20 + (2 ^ 20 - 1).
Proof.
  intros st k a e H K W A E o st'. unfold st'.
  assert (O1 : 0 <= o < 254 /\ o / 4 = win_reg k /\ o mod 4 = 0 /\ (o + 2) / 4 = win_reg k /\ (o + 2) mod 4 = 2) by (unfold o; destruct K as [-> | ->]; vm_compute; repeat split; congruence).
  destruct O1 as (O1 & O2 & O3 & O4 & O5).
  rewrite (wr16 st o a H) by lia. rewrite O2, O3. cbn [Z.eqb]. rewrite W.
  set (st1 := set_reg st id (win_reg k) (merge 4293984240 (st id (win_reg k)) (Z.lor (Z.land (st id (win_reg k)) 4294901760) a))).
  assert (H1 : held st1) by (apply held_set; exact H).
  rewrite (wr16 st1 (o + 2) e H1) by lia. rewrite O4, O5. cbn [Z.eqb]. rewrite W.
  split; [apply (only_trans _ st st1); apply only_set|].
  assert (E1 : st1 id (win_reg k) = merge 4293984240 (st id (win_reg k)) (Z.lor (Z.land (st id (win_reg k)) 4294901760) a)) by apply set_same.
  unfold win_base, win_limit. rewrite set_same. destruct (win_high (st1 id (win_reg k)) e E) as (B1 & B2). rewrite B1, B2. rewrite E1.
  destruct (win_low (st id (win_reg k)) a A) as (C1 & C2). rewrite C1. split; reflexivity.
Qed.
End Bridge.
