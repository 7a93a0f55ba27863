(** Lemmas for PciProps: the loops over devices and functions. *)
From Verif Require Import Base BaseLemmas PciSpec PciModel PciProofs PciTree PciBars PciEnum PciBridge PciScan PciRun.
Local Ltac Zify.zify_post_hook ::= idtac.

Lemma header_low : forall v, Z.land (Z.shiftr v 16) 127 = field v 16 7.
Proof. reflexivity. Qed.
Lemma header_multi : forall v, 0 <= v < 2 ^ 32 -> (Z.land (Z.shiftr v 16) 128 =? 0) = negb (Z.testbit v 23).
Proof.
  intros v V. assert (E : Z.land (Z.shiftr v 16) 128 = if Z.testbit v 23 then 128 else 0).
  { apply Z.bits_inj'. intros i I. rewrite Z.land_spec, Z.shiftr_spec by exact I. change 128 with (2 ^ 7). rewrite Z.pow2_bits_eqb by lia.
    destruct (Z.eqb_spec 7 i) as [<- |N].
    - change (7 + 16) with 23. rewrite andb_true_r. destruct (Z.testbit v 23); reflexivity.
    - rewrite andb_false_r. destruct (Z.testbit v 23); [|rewrite Z.testbit_0_l; reflexivity]. rewrite Z.pow2_bits_eqb by lia. symmetry. apply Z.eqb_neq. exact N. }
  rewrite E. destruct (Z.testbit v 23); reflexivity.
Qed.

Lemma sorted_tail : forall (p l : list fn), (forall a x q y t, p ++ l = a ++ x :: q ++ y :: t -> place x < place y) ->
  forall x y, In x p -> In y l -> place x < place y.
Proof.
  intros p l S x y HX HY. apply in_split in HX. destruct HX as (p1 & p2 & ->). apply in_split in HY. destruct HY as (l1 & l2 & ->).
  apply (S p1 x (p2 ++ l1) y l2). rewrite <- !app_assoc. reflexivity.
Qed.

Section Loop.
Context (D : description) (m : machine) (mc : mech) (OK : mech_ok mc) (ND : NoDup (ids (root m))).
Context (enum : regs -> info -> Z -> out (regs * info)) (n : nat).
Context (IH : forall st i l, ready D m st i l (curr_bus i) l -> (bridges D l < n)%nat ->
  exists st' i', enum st i (curr_bus i) = Val (st', i') /\ done_fns D st i l st' i').
Local Notation ready := (ready D m).

Lemma ready_bus : forall st i F B L, ready st i F B L -> 0 <= B < 256.
Proof using. clear. intros st i F B L (_ & R & _ & _ & _ & _ & _ & _ & _ & X). lia. Qed.

Lemma read_absent : forall st i F B L d f, ready st i F B L -> 0 <= d < 32 -> 0 <= f < 8 -> (forall id l, ~ In (Fn id d f l) F) ->
  pci_config_read32 m mc st B d f 0 = 4294967295.
Proof using OK ND.
  clear IH enum n. intros st i F B L d f R HD HF NI. pose proof (ready_bus _ _ _ _ _ R) as HB. destruct R as (R1 & _).
  rewrite (read32_ok m mc OK) by (unfold slot_ok; try reflexivity; repeat split; lia). unfold reg_read. rewrite (target_none m st F B d f ND R1 ltac:(lia) NI). reflexivity.
Qed.

Lemma ready_held : forall st i F B L id d f l, ready st i F B L -> In (Fn id d f l) F -> held m B d f id st.
Proof using ND.
  clear IH enum n. intros st i F B L id d f l R I. pose proof (ready_bus _ _ _ _ _ R). destruct R as (R1 & _ & _ & R4 & _). apply (held_of m ND st st F B id d f l R1 ltac:(lia) R4 I).
Qed.

Lemma fn_step : forall st i F B id d f l, ready st i F B [Fn id d f l] -> (bridges D [Fn id d f l] <= n)%nat ->
  pci_config_read32 m mc st B d f 0 =? 4294967295 = false /\
  pci_config_read16 m mc st B d f 14 = Z.shiftr (st id 3) 16 /\ 0 <= st id 3 < 2 ^ 32 /\
  exists st' i', (if Z.land (Z.shiftr (st id 3) 16) 127 =? 0 then Val (pci_program_bars m mc st i B d f) else pci_program_bridge m mc enum st i B d f) = Val (st', i') /\
    done_fns D st i [Fn id d f l] st' i'.
Proof using OK ND IH.
  intros st i F B id d f l R BR. pose proof (ready_bus _ _ _ _ _ R) as HB.
  assert (I : In (Fn id d f l) F) by (destruct R as (_ & _ & R3 & _); apply R3; left; reflexivity).
  pose proof (ready_held _ _ _ _ _ id d f l R I) as H.
  assert (FO : fn_ok D m st (Fn id d f l)) by (destruct R as (_ & _ & _ & _ & R5 & _); apply R5; left; reflexivity).
  pose proof FO as (HD & HF & BD & V & _ & _ & _ & X).
  split; [rewrite (rd32 m mc OK B d f id HB HD HF (fun r => proj2 (BD r)) st 0 H ltac:(lia) eq_refl); apply Z.eqb_neq; exact V|].
  split; [rewrite (read16_ok m mc OK) by (unfold slot_ok; try (right; reflexivity); repeat split; lia); change (14 mod 4 =? 0) with false; cbv iota; change (14 / 4) with 3; rewrite (reg_read_held m B d f id st 3 H); reflexivity|].
  split; [exact (proj1 (BD 3))|]. rewrite header_low. change (field (st id 3) 16 7) with (header_type st id).
  rewrite bridges_one in BR. destruct (D id) as [bl|] eqn:DI.
  - destruct X as (-> & _). change (0 =? 0) with true. cbv iota. destruct (device_step D m mc OK ND st i F B id d f l bl R DI) as (st' & i' & E & DN).
    exists st', i'. rewrite E. split; [reflexivity|exact DN].
  - destruct X as (-> & _). change (1 =? 0) with false. cbv iota. apply (bridge_step D m mc OK ND enum n st i F B id d f l IH R DI). lia.
Qed.

(** Functions of one device from number [f] on. *)
Lemma fun_loop_ok : forall c La Lb P st i F B d f, Z.of_nat c = 8 - f -> 0 <= f -> 0 <= d < 32 ->
  F = P ++ La ++ Lb -> ready st i F B La -> (bridges D La <= n)%nat ->
  (forall y, In y P -> place y < 8 * d + f) -> (forall y, In y La -> exists id f' l, y = Fn id d f' l /\ f <= f' < 8) ->
  (forall y, In y Lb -> 8 * d + 8 <= place y) ->
  exists st' i', fun_loop m mc enum c st i B d f = Val (st', i') /\ done_fns D st i La st' i'.
Proof using OK ND IH.
  induction c as [|c IHc]; intros La Lb P st i F B d f C F0 HD EF R BR HP HA HL; cbn [fun_loop].
  - destruct La as [|y La]; [exists st, i; split; [reflexivity|apply done_nil]|]. exfalso. destruct (HA y ltac:(left; reflexivity)) as (id & f' & l & _ & X). lia.
  - assert (F8 : f < 8) by lia.
    assert (SORT : forall a x q y t, F = a ++ x :: q ++ y :: t -> place x < place y) by (destruct R as (_ & _ & _ & (R4 & _) & _); exact R4).
    assert (SKIP : (forall y, In y La -> exists id f' l, y = Fn id d f' l /\ f + 1 <= f' < 8) -> exists st' i',
      (if pci_config_read32 m mc st B d f 0 =? 4294967295 then fun_loop m mc enum c st i B d (f + 1) else
       let header_type := pci_config_read16 m mc st B d f 14 in
       dlet (st, i) <- (if Z.land header_type 127 =? 0 then Val (pci_program_bars m mc st i B d f) else pci_program_bridge m mc enum st i B d f) in
       if (f =? 0) && (Z.land header_type 128 =? 0) then Val (st, i) else fun_loop m mc enum c st i B d (f + 1)) = Val (st', i') /\ done_fns D st i La st' i').
    { intro HA'. rewrite (read_absent st i F B La d f R HD ltac:(lia)).
      - change (4294967295 =? 4294967295) with true. cbv iota. apply (IHc La Lb P st i F B d (f + 1)); try assumption; try lia; intros y Y; specialize (HP y Y); lia.
      - intros id l I. rewrite EF in I. apply in_app_or in I. destruct I as [I|I]; [specialize (HP _ I); cbn [place] in HP; lia|]. apply in_app_or in I.
        destruct I as [I|I]; [destruct (HA' _ I) as (id' & f' & l' & E & X); assert (f = f') by congruence; lia|specialize (HL _ I); cbn [place] in HL; lia]. }
    destruct La as [|x La]; [apply SKIP; intros y []|].
    destruct (HA x ltac:(left; reflexivity)) as (id & f' & l & EX & X).
    assert (TAIL : forall y, In y La -> exists id f'' l, y = Fn id d f'' l /\ f' + 1 <= f'' < 8).
    { intros y Y. destruct (HA y (or_intror Y)) as (id2 & f2 & l2 & E2 & X2). exists id2, f2, l2. split; [exact E2|].
      assert (PL : place x < place y). { apply in_split in Y. destruct Y as (y1 & y2 & ->). apply (SORT P x y1 y (y2 ++ Lb)). rewrite EF. cbn [app]. rewrite <- app_assoc. reflexivity. }
      rewrite EX, E2 in PL. cbn [place] in PL. lia. }
    destruct (Z.eq_dec f' f) as [-> |NE].
    2:{ apply SKIP. intros y [<- |Y]; [exists id, f', l; split; [exact EX|lia]|]. destruct (TAIL y Y) as (id2 & f2 & l2 & E2 & X2). exists id2, f2, l2. split; [exact E2|lia]. }
    clear SKIP. rewrite EX in *. clear EX x. change (Fn id d f l :: La) with ([Fn id d f l] ++ La) in *.
    rewrite bridges_app in BR. destruct (fn_step st i F B id d f l (ready_first D m _ _ _ _ _ _ R) ltac:(lia)) as (E1 & E2 & V & st1 & i1 & E3 & DN).
    rewrite E1. cbv zeta. rewrite E2, E3. cbn [obind].
    assert (NL : NoDup (ids ([Fn id d f l] ++ La))).
    { pose proof R as (R1 & _). pose proof (opened_nodup _ _ _ _ _ R1 ND) as NF. rewrite EF, !ids_app in NF. apply nodup_app in NF. destruct NF as (_ & NF & _).
      apply nodup_app in NF. destruct NF as (NF & _ & _). rewrite ids_app. exact NF. }
    pose proof (ready_next D m ND st i F B _ La st1 i1 NL R DN) as R'.
    assert (MULTI : (f =? 0) && (Z.land (Z.shiftr (st id 3) 16) 128 =? 0) = true -> La = []).
    { intro Q. apply andb_prop in Q. destruct Q as (Q1 & Q2). apply Z.eqb_eq in Q1. subst f. rewrite (header_multi _ V) in Q2. destruct La as [|y La]; [reflexivity|]. exfalso.
      destruct (TAIL y ltac:(left; reflexivity)) as (id2 & f2 & l2 & EY & X2). pose proof R as (_ & _ & R3 & R4 & _).
      assert (YF : In (Fn id2 d f2 l2) F) by (rewrite <- EY; apply R3; right; left; reflexivity).
      destruct (proj2 R4 id2 d f2 l2 YF ltac:(lia)) as (id0 & l0 & I0 & M0). assert (XF : In (Fn id d 0 l) F) by (apply R3; left; reflexivity).
      pose proof (slot_unique st F _ _ R4 I0 XF eq_refl) as SE. assert (id0 = id) by congruence. subst id0. unfold multifunction in M0. rewrite M0 in Q2. discriminate Q2. }
    destruct ((f =? 0) && (Z.land (Z.shiftr (st id 3) 16) 128 =? 0)) eqn:Q.
    + rewrite (MULTI eq_refl). rewrite app_nil_r. exists st1, i1. split; [reflexivity|exact DN].
    + destruct (IHc La Lb (P ++ [Fn id d f l]) st1 i1 F B d (f + 1)) as (st2 & i2 & E4 & DN2); try assumption; try lia.
      * rewrite EF, <- !app_assoc. reflexivity.
      * intros y Y. apply in_app_or in Y. destruct Y as [Y|[<- |[]]]; [specialize (HP y Y); lia|cbn [place]; lia].
      * exists st2, i2. split; [exact E4|]. exact (done_app D st i _ st1 i1 La st2 i2 NL DN DN2).
Qed.

Lemma split_device : forall L d, (forall a x q y t, L = a ++ x :: q ++ y :: t -> place x < place y) -> 0 <= d ->
  (forall y, In y L -> exists id d' f l, y = Fn id d' f l /\ d <= d' /\ 0 <= f < 8) ->
  exists La Lb, L = La ++ Lb /\ (forall y, In y La -> exists id f l, y = Fn id d f l /\ 0 <= f < 8) /\ (forall y, In y Lb -> exists id d' f l, y = Fn id d' f l /\ d + 1 <= d' /\ 0 <= f < 8).
Proof using.
  clear. induction L as [|y L IHL]; intros d S D0 H; [exists [], []; split; [reflexivity|split; intros y []]|].
  destruct (H y ltac:(left; reflexivity)) as (id & d' & f & l & E & L1 & L2). destruct (Z.eq_dec d' d) as [-> |N].
  - destruct (IHL d) as (La & Lb & EL & A & B).
    + intros a x q z t X. apply (S (y :: a) x q z t). rewrite X. reflexivity.
    + exact D0.
    + intros z Z1. apply H. right. exact Z1.
    + exists (y :: La), Lb. split; [rewrite EL; reflexivity|]. split; [|exact B]. intros z [<- |Z1]; [exists id, f, l; split; assumption|exact (A z Z1)].
  - exists [], (y :: L). split; [reflexivity|]. split; [intros z []|]. intros z [<- |Z1]; [exists id, d', f, l; split; [exact E|lia]|].
    destruct (H z (or_intror Z1)) as (id2 & d2 & f2 & l2 & E2 & L3 & L4). exists id2, d2, f2, l2. split; [exact E2|]. split; [|exact L4].
    apply in_split in Z1. destruct Z1 as (l1 & l3 & ->). specialize (S [] y l1 z l3 eq_refl). rewrite E, E2 in S. cbn [place] in S. lia.
Qed.

Lemma dev_loop_ok : forall c L P st i F B d, Z.of_nat c = 32 - d -> 0 <= d ->
  F = P ++ L -> ready st i F B L -> (bridges D L <= n)%nat ->
  (forall y, In y P -> place y < 8 * d) -> (forall y, In y L -> exists id d' f l, y = Fn id d' f l /\ d <= d' < 32 /\ 0 <= f < 8) ->
  exists st' i', dev_loop m mc enum c st i B d = Val (st', i') /\ done_fns D st i L st' i'.
Proof using OK ND IH.
  induction c as [|c IHc]; intros L P st i F B d C D0 EF R BR HP HL; cbn [dev_loop].
  - destruct L as [|y L]; [exists st, i; split; [reflexivity|apply done_nil]|]. exfalso. destruct (HL y ltac:(left; reflexivity)) as (id & d' & f & l & _ & X & _). lia.
  - assert (SORT : forall a x q y t, F = a ++ x :: q ++ y :: t -> place x < place y) by (destruct R as (_ & _ & _ & (R4 & _) & _); exact R4).
    destruct (split_device L d) as (La & Lb & EL & HA & HB).
    { intros a x q y t X. apply (SORT (P ++ a) x q y t). rewrite EF, X, <- app_assoc. reflexivity. }
    { exact D0. }
    { intros y Y. destruct (HL y Y) as (id & d' & f & l & E & X1 & X2). exists id, d', f, l. split; [exact E|]. split; [lia|exact X2]. }
    assert (NL : NoDup (ids L)).
    { pose proof R as (R1 & _). pose proof (opened_nodup _ _ _ _ _ R1 ND) as NF. rewrite EF, ids_app in NF. apply nodup_app in NF. destruct NF as (_ & NF & _). exact NF. }
    assert (HB' : forall y, In y Lb -> exists id d' f l, y = Fn id d' f l /\ d + 1 <= d' < 32 /\ 0 <= f < 8).
    { intros y Y. destruct (HB y Y) as (id & d' & f & l & E & X1 & X2). exists id, d', f, l. split; [exact E|]. split; [|exact X2].
      destruct (HL y) as (id2 & d2 & f2 & l2 & E2 & X3 & _); [rewrite EL; apply in_or_app; right; exact Y|]. assert (d' = d2) by congruence. lia. }
    assert (LB8 : forall y, In y Lb -> 8 * d + 8 <= place y) by (intros y Y; destruct (HB y Y) as (id & d' & f & l & -> & X1 & X2); cbn [place]; lia).
    rewrite EL, bridges_app in BR. destruct (existsb (at_slot d 0) F) eqn:EX.
    + apply existsb_exists in EX. destruct EX as (x & XF & XS). apply at_slot_true in XS. destruct XS as (id0 & l0 & ->).
      assert (X0 : pci_config_read32 m mc st B d 0 0 =? 4294967295 = false).
      { assert (IL : In (Fn id0 d 0 l0) L). { rewrite EF in XF. apply in_app_or in XF. destruct XF as [XF|XF]; [specialize (HP _ XF); cbn [place] in HP; lia|exact XF]. }
        pose proof (ready_held _ _ _ _ _ id0 d 0 l0 R XF) as H. pose proof (ready_bus _ _ _ _ _ R) as HBB. pose proof R as (_ & _ & _ & _ & R5 & _). pose proof (R5 _ (in_all_self _ _ IL)) as FO.
        destruct FO as (HD & HF & BD & V & _). rewrite (rd32 m mc OK B d 0 id0 HBB HD HF (fun r => proj2 (BD r)) st 0 H ltac:(lia) eq_refl). apply Z.eqb_neq. exact V. }
      rewrite X0. clear X0. subst L.
      destruct (fun_loop_ok 8 La Lb P st i F B d 0) as (st1 & i1 & E1 & DN1); try assumption; try lia; [exact (ready_first D m _ _ _ _ _ _ R)|].
      rewrite E1. cbn [obind].
      destruct (IHc Lb (P ++ La) st1 i1 F B (d + 1)) as (st2 & i2 & E2 & DN2); try assumption; try lia.
      * rewrite EF, app_assoc. reflexivity.
      * exact (ready_next D m ND st i F B La Lb st1 i1 NL R DN1).
      * intros y Y. apply in_app_or in Y. destruct Y as [Y|Y]; [specialize (HP y Y); lia|]. destruct (HA y Y) as (id & f & l & -> & X). cbn [place]. lia.
      * exists st2, i2. split; [exact E2|]. exact (done_app D st i La st1 i1 Lb st2 i2 NL DN1 DN2).
    + assert (NI : forall id l, ~ In (Fn id d 0 l) F).
      { intros id l I. assert (X : existsb (at_slot d 0) F = true) by (apply existsb_exists; exists (Fn id d 0 l); split; [exact I|unfold at_slot; rewrite !Z.eqb_refl; reflexivity]). congruence. }
      rewrite (read_absent st i F B L d 0 R ltac:(lia) ltac:(lia) NI). change (4294967295 =? 4294967295) with true. cbv iota.
      assert (La = []).
      { destruct La as [|y La]; [reflexivity|]. exfalso. destruct (HA y ltac:(left; reflexivity)) as (id & f & l & EY & X).
        assert (YF : In (Fn id d f l) F) by (rewrite EF, EL, <- EY; apply in_or_app; right; left; reflexivity).
        destruct (Z.eq_dec f 0) as [-> |NF]; [exact (NI _ _ YF)|]. pose proof R as (_ & _ & _ & R4 & _). destruct (proj2 R4 id d f l YF NF) as (id0 & l0 & I0 & _). exact (NI _ _ I0). }
      subst La. cbn [app] in EL. subst Lb. apply (IHc L P st i F B (d + 1)); try assumption; try lia; intros y Y; specialize (HP y Y); lia.
Qed.
End Loop.

Lemma enum_bus_ok : forall D m mc, mech_ok mc -> NoDup (ids (root m)) -> forall depth st i L B, ready D m st i L B L -> (bridges D L < depth)%nat ->
  exists st' i', pci_enum_bus m mc depth st i B = Val (st', i') /\ done_fns D st i L st' i'.
Proof.
  intros D m mc OK ND. induction depth as [|n IH]; intros st i L B R BR; [lia|]. cbn [pci_enum_bus].
  apply (dev_loop_ok D m mc OK ND (pci_enum_bus m mc n) n (fun st i l => IH st i l (curr_bus i)) 32 L [] st i L B 0); try lia; try reflexivity; try exact R.
  - intros y [].
  - intros y Y. pose proof R as (_ & _ & _ & _ & R5 & _). pose proof (R5 y (in_all_self y L Y)) as FO. destruct y as [id d f l]. destruct FO as (HD & HF & _). exists id, d, f, l.
    split; [reflexivity|]. split; [lia|exact HF].
Qed.
