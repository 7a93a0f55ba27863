(** Lemmas for PciProps: enumeration. *)
From Verif Require Import Base BaseLemmas PciSpec PciModel PciProofs PciTree PciBars.
Local Ltac Zify.zify_post_hook ::= idtac.

Definition curs := space -> Z.

(** Base address registers of a device lie one after the other between [lo] and [hi]. *)
Fixpoint bars_laid (st : regs) (id : nat) (idx : Z) (bl : list bar) (lo hi : curs) : Prop :=
  match bl with
  | [] => forall k, lo k <= hi k
  | bd :: bl => exists mid : curs, (forall k, lo k <= mid k) /\
      (forall k, space_of bd = Some k -> lo k <= base_of st id idx bd /\ base_of st id idx bd mod size_of bd = 0 /\
         base_of st id idx bd + size_of bd <= mid k) /\
      bars_laid st id (idx + 1) bl mid hi
  end.

Lemma bars_laid_frame : forall bl st st' id idx lo hi, (forall r, 4 + idx <= r -> st' id r = st id r) ->
  bars_laid st id idx bl lo hi -> bars_laid st' id idx bl lo hi.
Proof.
  induction bl as [|bd bl IH]; intros st st' id idx lo hi E H; [exact H|]. destruct H as (mid & H1 & H2 & H3). exists mid.
  split; [exact H1|]. split.
  - assert (EB : base_of st' id idx bd = base_of st id idx bd) by (destruct bd; cbn [base_of]; rewrite ?E by lia; reflexivity).
    rewrite EB. exact H2.
  - apply (IH st); [|exact H3]. intros r R. apply E. lia.
Qed.

Lemma bars_laid_weaken : forall bl st id idx lo lo' hi, (forall k, lo' k <= lo k) -> bars_laid st id idx bl lo hi -> bars_laid st id idx bl lo' hi.
Proof.
  intros bl st id idx lo lo' hi L H. destruct bl as [|bd bl].
  - intro k. specialize (L k). specialize (H k). lia.
  - destruct H as (mid & H1 & H2 & H3). exists mid. split; [intro k; specialize (L k); specialize (H1 k); lia|]. split; [|exact H3].
    intros k K. destruct (H2 k K) as (A & B). specialize (L k). split; [lia|exact B].
Qed.

Definition bars_sum (k : space) (bl : list bar) : Z := zsum (map (bar_need k) bl).

Lemma bar_need_nonneg : forall k bd, 0 <= bar_need k bd.
Proof. intros k bd. unfold bar_need. destruct (space_of bd) as [k'|]; [|lia]. destruct (space_eqb k k'); lia. Qed.

Lemma bars_sum_nonneg : forall k bl, 0 <= bars_sum k bl.
Proof. intros k bl. unfold bars_sum. induction bl as [|bd bl IH]; cbn [map zsum fold_right]; [lia|]. pose proof (bar_need_nonneg k bd). unfold zsum in IH. lia. Qed.

Lemma bars_sum_cons : forall k bd bl, bars_sum k (bd :: bl) = bar_need k bd + bars_sum k bl.
Proof. reflexivity. Qed.

Lemma bar_need_none : forall k bd, space_of bd <> Some k -> bar_need k bd = 0.
Proof.
  intros k bd H. unfold bar_need. destruct (space_of bd) as [k'|]; [|reflexivity]. destruct k, k'; cbn [space_eqb]; try reflexivity; congruence.
Qed.

Lemma roof_same : forall i i' k, same_limits i i' -> roof i' k = roof i k.
Proof. intros i i' [] (A & B); cbn [roof limit]; congruence. Qed.
Lemma limits_ok_same : forall i i', same_limits i i' -> limits_ok i -> limits_ok i'.
Proof. intros i i' (A & B) (C & D). split; congruence. Qed.
Lemma same_limits_trans : forall a b c, same_limits a b -> same_limits b c -> same_limits a c.
Proof. intros a b c (A & B) (C & D). split; congruence. Qed.
Lemma same_limits_refl : forall a, same_limits a a.
Proof. split; reflexivity. Qed.

Lemma space_dec : forall (o : option space) k, {o = Some k} + {o <> Some k}.
Proof. intros [[]|] []; first [left; reflexivity | right; congruence]. Qed.

Section Device.
Context (m : machine) (mc : mech) (OK : mech_ok mc) (b d f : Z) (id : nat).
Context (HB : 0 <= b < 256) (HD : 0 <= d < 32) (HF : 0 <= f < 8).
Context (WB : forall r, 0 <= writable m id r < 2 ^ 32).
Context (W0 : writable m id 0 = 0) (W1 : writable m id 1 < 2 ^ 16) (W2 : writable m id 2 = 0).
Local Notation held := (held m b d f id).
Local Notation quiet := (quiet m id).

Definition wired_from (st : regs) (idx : Z) (bl : list bar) : Prop := forall n bd, nth_error bl n = Some bd -> wired m st id (idx + Z.of_nat n) bd.

Lemma wired_frame : forall st st' idx bd, st' id (4 + idx) = st id (4 + idx) -> wired m st id idx bd -> wired m st' id idx bd.
Proof. intros st st' idx bd E H. unfold wired in *. rewrite E. exact H. Qed.

Lemma wired_tail : forall st idx bd bl, wired_from st idx (bd :: bl) -> wired_from st (idx + 1) bl.
Proof. intros st idx bd bl H n x N. specialize (H (S n) x N). replace (idx + 1 + Z.of_nat n) with (idx + Z.of_nat (S n)) by lia. exact H. Qed.

Lemma bars_loop_ok : forall n bl st i idx, (length bl <= n)%nat -> 0 <= idx -> idx + zlen bl = 6 -> bars_ok bl = true ->
  held st -> quiet st -> wired_from st idx bl -> limits_ok i -> (forall k, 0 <= cursor i k /\ cursor i k + bars_sum k bl <= roof i k) ->
  exists st' i', bars_loop m mc n st i b d f idx = (st', i') /\
    (forall x r, x <> id \/ ~ (4 + idx <= r < 10) -> st' x r = st x r) /\
    bars_laid st' id idx bl (cursor i) (cursor i') /\
    (forall k, cursor i' k <= cursor i k + bars_sum k bl) /\ same_limits i i' /\ curr_bus i' = curr_bus i.
Proof using OK HB HD HF WB W0 W2.
  induction n as [|n IH]; intros bl st i idx LN I0 I6 BO H Q WD LM RM.
  - destruct bl; [|cbn [length] in LN; lia]. exists st, i. split; [reflexivity|]. split; [reflexivity|]. split; [intro k; lia|].
    split; [intro k; unfold bars_sum; cbn [map zsum fold_right]; lia|]. split; [apply same_limits_refl|reflexivity].
  - destruct bl as [|bd bl].
    + unfold zlen in I6. cbn [length] in I6. exists st, i. cbn [bars_loop]. replace (idx <? 6) with false by (symmetry; apply Z.ltb_ge; lia). cbn [negb].
      split; [reflexivity|]. split; [reflexivity|]. split; [intro k; lia|].
      split; [intro k; unfold bars_sum; cbn [map zsum fold_right]; lia|]. split; [apply same_limits_refl|reflexivity].
    + rewrite zlen_cons in I6. pose proof (zlen_nonneg bl) as ZL. cbn [bars_loop]. replace (idx <? 6) with true by (symmetry; apply Z.ltb_lt; lia). cbn [negb].
      assert (NU : bd <> Upper) by (intros ->; discriminate).
      assert (WH : wired m st id idx bd) by (specialize (WD 0%nat bd eq_refl); rewrite Z.add_0_r in WD; exact WD).
      assert (UP : wide bd = true -> exists bl', bl = Upper :: bl' /\ bars_ok bl' = true).
      { intro W. destruct bd as [|s pf w| |s w]; try discriminate. cbn [wide] in W. subst w. cbn [bars_ok] in BO.
        destruct bl as [|[| | |] bl']; try discriminate. exists bl'. split; [reflexivity|exact BO]. }
      destruct (bar_step m mc OK b d f id HB HD HF WB st i idx bd H Q W0 W2) as (st1 & i1 & P & DN); try assumption; [lia| | |].
      { intro W. destruct (UP W) as (bl' & -> & _). rewrite zlen_cons in *. pose proof (zlen_nonneg bl'). split; [lia|]. specialize (WD 1%nat Upper eq_refl). exact WD. }
      { intros k K. destruct (RM k) as (A & B). split; [exact A|]. rewrite bars_sum_cons in B. pose proof (bars_sum_nonneg k bl). lia. }
      rewrite P. cbn [negb]. destruct DN as (D1 & _ & _ & D4 & D5 & D6 & D7).
      assert (C1 : forall k, cursor i k <= cursor i1 k /\ cursor i1 k <= cursor i k + bar_need k bd).
      { intro k. destruct (space_dec (space_of bd) k) as [K|K].
        - destruct (D4 k K) as (A1 & A2 & A3 & A4). split; [|exact A4]. assert (0 < size_of bd); [|lia].
          destruct bd as [|s pf w| |s w]; try discriminate; cbn [size_of]; apply pow2_pos; destruct WH as (_ & S & _); lia.
        - rewrite (D5 k K). pose proof (bar_need_nonneg k bd). lia. }
      assert (A1 : agree_off [id] st st1).
      { intros x X r. apply D1. left. intro E. apply X. left. symmetry. exact E. }
      assert (H1 : held st1) by (apply (held_next m b d f id st); assumption).
      assert (Q1 : quiet st1).
      { unfold PciBars.quiet. rewrite D1; [exact Q|]. right. split; [lia|intros _; lia]. }
      set (bl2 := if wide bd then tl bl else bl). set (idx2 := idx + (if wide bd then 2 else 1)).
      assert (Z2 : idx2 + zlen bl2 = 6 /\ (length bl2 <= n)%nat /\ bars_ok bl2 = true /\ (forall k, bars_sum k bl = bars_sum k bl2)).
      { unfold idx2, bl2. cbn [length] in LN. destruct (wide bd) eqn:W.
        - destruct (UP eq_refl) as (bl' & -> & BO'). rewrite zlen_cons in I6. cbn [tl length] in *. split; [lia|]. split; [lia|]. split; [exact BO'|].
          intro k. rewrite bars_sum_cons. reflexivity.
        - split; [lia|]. split; [lia|]. split; [|reflexivity]. destruct bd as [|s pf w| |s w]; cbn [wide] in W; try subst w; cbn [bars_ok] in BO; try exact BO; discriminate. }
      destruct Z2 as (Z21 & Z22 & Z23 & Z24).
      assert (WT : wired_from st1 idx2 bl2).
      { unfold idx2, bl2. destruct (wide bd) eqn:W.
        - destruct (UP eq_refl) as (bl' & -> & _). cbn [tl]. intros k x N. apply (wired_frame st).
          + apply D1. right. split; [lia|intros _; lia].
          + specialize (WD (S (S k)) x N). replace (idx + 2 + Z.of_nat k) with (idx + Z.of_nat (S (S k))) by lia. exact WD.
        - intros k x N. apply (wired_frame st).
          + apply D1. right. split; [lia|discriminate].
          + specialize (WD (S k) x N). replace (idx + 1 + Z.of_nat k) with (idx + Z.of_nat (S k)) by lia. exact WD. }
      destruct (IH bl2 st1 i1 idx2 Z22 ltac:(unfold idx2; destruct (wide bd); lia) Z21 Z23 H1 Q1 WT (limits_ok_same i i1 D6 LM)) as (st2 & i2 & P2 & E1 & E2 & E3 & E4 & E5).
      { intro k. rewrite (roof_same i i1 k D6). destruct (RM k) as (A & B). rewrite bars_sum_cons, Z24 in B. specialize (C1 k). lia. }
      exists st2, i2. split; [exact P2|]. split.
      { intros x r X. rewrite E1 by (destruct X as [X|X]; [left; exact X|right; unfold idx2; destruct (wide bd); lia]).
        apply D1. destruct X as [X|X]; [left; exact X|]. right. split; [lia|].
        intros W R. apply X. destruct (UP W) as (bl' & -> & _). rewrite zlen_cons in I6. pose proof (zlen_nonneg bl'). lia. }
      split.
      { exists (cursor i1). split; [intro k; apply C1|]. split.
        - intros k K. destruct (D4 k K) as (A1' & A2 & A3 & A4).
          assert (EB : base_of st2 id idx bd = base_of st1 id idx bd).
          { assert (ER : st2 id (4 + idx) = st1 id (4 + idx)) by (apply E1; right; unfold idx2; destruct (wide bd); lia).
            destruct bd; cbn [base_of]; rewrite ?ER; reflexivity. }
          rewrite EB. split; [exact A1'|]. split; [exact A2|lia].
        - unfold bl2, idx2 in E2. destruct (wide bd) eqn:W; [|exact E2]. destruct (UP eq_refl) as (bl' & -> & _). cbn [tl] in E2. exists (cursor i1).
          split; [intro k; lia|]. split; [discriminate|]. replace (idx + 1 + 1) with (idx + 2) by lia. exact E2. }
      split; [intro k; specialize (E3 k); specialize (C1 k); rewrite bars_sum_cons, Z24; lia|].
      split; [exact (same_limits_trans _ _ _ D6 E4)|]. rewrite E5. exact D7.
Qed.

(** * The command register *)

Lemma cmd_merge : forall w o c, 0 <= w < 2 ^ 16 -> merge w o (Z.lor (Z.land o 4294901760) c) = merge w o c.
Proof.
  intros w o c W. apply Z.bits_inj'. intros i I. rewrite !testbit_merge by lia. destruct (Z.testbit w i) eqn:E; [|reflexivity].
  destruct (Z.ltb_spec i 16); [|rewrite (testbit_high w 16 i) in E by lia; discriminate].
  rewrite Z.lor_spec, Z.land_spec. change 4294901760 with (2 ^ 32 - 2 ^ 16). rewrite testbit_range by lia.
  replace (16 <=? i) with false by (symmetry; apply Z.leb_gt; lia). cbn [andb]. rewrite andb_false_r. reflexivity.
Qed.

Lemma rd_cmd : forall st, held st -> pci_config_read16 m mc st b d f 4 = Z.land (st id 1) 65535.
Proof.
  intros st H. rewrite (read16_ok m mc OK) by (unfold slot_ok; try (left; reflexivity); repeat split; lia).
  change (4 mod 4 =? 0) with true. cbv iota. change (4 / 4) with 1. rewrite (reg_read_held m b d f id) by exact H. reflexivity.
Qed.

Lemma wr_cmd : forall st v, held st -> pci_config_write16 m mc st b d f 4 v = set_reg st id 1 (merge (writable m id 1) (st id 1) v).
Proof.
  intros st v H. rewrite (write16_ok m mc OK) by (unfold slot_ok; try (left; reflexivity); repeat split; lia).
  change (4 mod 4 =? 0) with true. cbv iota. change (4 / 4) with 1. rewrite (reg_read_held m b d f id), (reg_write_held m b d f id) by exact H.
  rewrite (full_lanes m id WB). rewrite cmd_merge by (specialize (WB 1); lia). reflexivity.
Qed.

Lemma quiet_merge : forall w o, Z.land (merge w o 0) w = 0.
Proof.
  intros w o. apply Z.bits_inj'. intros i I. rewrite Z.land_spec, testbit_merge, Z.bits_0 by lia. destruct (Z.testbit w i); [reflexivity|apply andb_false_r].
Qed.

Lemma cmd_restore : forall w o, 0 <= w < 2 ^ 16 -> merge w (merge w o 0) (Z.land o 65535) = o.
Proof.
  intros w o W. apply Z.bits_inj'. intros i I. rewrite !testbit_merge by lia. destruct (Z.testbit w i) eqn:E; [|reflexivity].
  destruct (Z.ltb_spec i 16); [|rewrite (testbit_high w 16 i) in E by lia; discriminate].
  rewrite Z.land_spec. change 65535 with (Z.ones 16). rewrite Z.ones_spec_low by lia. apply andb_true_r.
Qed.

(** A device: its base address registers, and nothing else. *)
Lemma program_bars_ok : forall bl st i, length bl = 6%nat -> bars_ok bl = true -> held st ->
  (forall n bd, nth_error bl n = Some bd -> wired m st id (Z.of_nat n) bd) -> limits_ok i ->
  (forall k, 0 <= cursor i k /\ cursor i k + bars_sum k bl <= roof i k) ->
  exists st' i', pci_program_bars m mc st i b d f = (st', i') /\
    (forall x r, x <> id \/ ~ (4 <= r < 10) -> st' x r = st x r) /\
    bars_laid st' id 0 bl (cursor i) (cursor i') /\
    (forall k, cursor i' k <= cursor i k + bars_sum k bl) /\ same_limits i i' /\ curr_bus i' = curr_bus i.
Proof.
  intros bl st i L BO H WD LM RM. unfold pci_program_bars. rewrite (rd_cmd st H), (wr_cmd st 0 H).
  set (st1 := set_reg st id 1 (merge (writable m id 1) (st id 1) 0)).
  assert (H1 : held st1) by (apply held_set; exact H).
  destruct (bars_loop_ok 6 bl st1 i 0 ltac:(lia) ltac:(lia) ltac:(unfold zlen; lia) BO H1) as (st2 & i2 & P & E1 & E2 & E3 & E4 & E5).
  - unfold PciBars.quiet, st1. rewrite set_same. apply quiet_merge.
  - intros n bd N. rewrite Z.add_0_l. apply (wired_frame st); [unfold st1; apply set_other; lia|exact (WD n bd N)].
  - exact LM.
  - exact RM.
  - rewrite P.
    assert (A2 : agree_off [id] st1 st2) by (intros x X r; apply E1; left; intro E; apply X; left; symmetry; exact E).
    assert (H2 : held st2) by (apply (held_next m b d f id st1); assumption). rewrite (wr_cmd st2 _ H2).
    set (st3 := set_reg st2 id 1 (merge (writable m id 1) (st2 id 1) (Z.land (st id 1) 65535))). exists st3, i2. split; [reflexivity|]. split.
    + intros x r X. destruct (Nat.eq_dec x id) as [-> |NX].
      * destruct X as [X|X]; [congruence|]. destruct (Z.eq_dec r 1) as [-> |NR].
        -- unfold st3. rewrite set_same. rewrite E1 by (right; lia). unfold st1. rewrite set_same. apply cmd_restore. specialize (WB 1). lia.
        -- unfold st3. rewrite set_other by exact NR. rewrite E1 by (right; lia). unfold st1. apply set_other. exact NR.
      * unfold st3. rewrite set_off by exact NX. rewrite E1 by (left; exact NX). unfold st1. apply set_off. exact NX.
    + split; [apply (bars_laid_frame bl st2); [intros r R; unfold st3; apply set_other; lia|exact E2]|]. split; [exact E3|]. split; assumption.
Qed.
End Device.
