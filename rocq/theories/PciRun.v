(** Lemmas for PciProps: the enumeration. *)
From Verif Require Import Base BaseLemmas PciSpec PciModel PciProofs PciTree PciBars PciEnum PciBridge PciScan.
Local Ltac Zify.zify_post_hook ::= idtac.

Lemma laid_weaken : forall D st x lo lo' hi, (forall k, lo' k <= lo k) -> laid D st x lo hi -> laid D st x lo' hi.
Proof.
  intros D st [id d f l] lo lo' hi L H. rewrite laid_eq in *. destruct (D id) as [bl|].
  - exact (bars_laid_weaken bl st id 0 lo lo' hi L H).
  - destruct H as (s & e & A & R). exists s, e. split; [|exact R]. intro k. specialize (A k). specialize (L k). lia.
Qed.

Lemma laid_list_weaken : forall D st l lo lo' hi, (forall k, lo' k <= lo k) -> laid_list D st l lo hi -> laid_list D st l lo' hi.
Proof.
  intros D st l lo lo' hi L H. destruct l as [|y l].
  - intro k. specialize (L k). specialize (H k). lia.
  - destruct H as (mid & A & B & C). exists mid. split; [intro k; specialize (A k); specialize (L k); lia|]. split; [exact (laid_weaken _ _ _ _ _ _ L B)|exact C].
Qed.

Lemma laid_list_app : forall D st a b lo mid hi, laid_list D st a lo mid -> laid_list D st b mid hi -> laid_list D st (a ++ b) lo hi.
Proof.
  intros D st a b. induction a as [|y a IH]; intros lo mid hi A B; cbn [app].
  - apply (laid_list_weaken D st b mid); [exact A|exact B].
  - destruct A as (m1 & A1 & A2 & A3). exists m1. split; [exact A1|]. split; [exact A2|]. exact (IH m1 mid hi A3 B).
Qed.

Lemma numbered_list_app : forall D st a b lo mid hi, numbered_list D st a lo mid -> numbered_list D st b mid hi -> numbered_list D st (a ++ b) lo hi.
Proof.
  intros D st a b. induction a as [|y a IH]; intros lo mid hi A B; cbn [app].
  - cbn in A. subst mid. exact B.
  - destruct A as (m1 & A1 & A2 & A3). exists m1. split; [exact A1|]. split; [exact A2|]. exact (IH m1 mid hi A3 B).
Qed.

Lemma done_nil : forall D st i, done_fns D st i [] st i.
Proof.
  intros. split; [apply agree_refl|]. split; [reflexivity|]. split; [apply same_limits_refl|]. split; [change (Z.of_nat (bridges D [])) with 0; lia|].
  split; [intro k; change (need D k []) with 0; lia|]. split; [intro k; lia|reflexivity].
Qed.

Lemma done_app : forall D st i a st1 i1 b st2 i2, NoDup (ids (a ++ b)) -> done_fns D st i a st1 i1 -> done_fns D st1 i1 b st2 i2 ->
  done_fns D st i (a ++ b) st2 i2.
Proof.
  intros D st i a st1 i1 b st2 i2 ND (A1 & A2 & A3 & A4 & A5 & A6 & A7) (B1 & B2 & B3 & B4 & B5 & B6 & B7).
  rewrite ids_app in ND. apply nodup_app in ND. destruct ND as (N1 & N2 & N3).
  assert (FR : forall y, In y (all_fns a) -> forall r, st2 (fid y) r = st1 (fid y) r).
  { intros y Y r. apply B1. intro X. exact (N3 (fid y) (in_map fid _ _ Y) X). }
  split; [rewrite ids_app; apply (agree_trans _ _ st1); [apply (agree_incl (ids a)); [apply incl_appl, incl_refl|exact A1]|apply (agree_incl (ids b)); [apply incl_appr, incl_refl|exact B1]]|].
  split; [intros x r T; rewrite B2, A2 by exact T; reflexivity|]. split; [exact (same_limits_trans _ _ _ A3 B3)|].
  split; [rewrite bridges_app; lia|]. split; [intro k; rewrite need_app; specialize (A5 k); specialize (B5 k); lia|].
  split; [apply (laid_list_app D st2 a b _ (cursor i1)); [exact (laid_list_frame D st1 st2 a FR _ _ A6)|exact B6]|].
  apply (numbered_list_app D st2 a b _ (curr_bus i1)); [exact (numbered_list_frame D st1 st2 a FR _ _ A7)|exact B7].
Qed.

Lemma touched_3 : forall D x r, r = 0 \/ r = 3 -> ~ touched D x r.
Proof.
  intros D x r [-> | ->] T; unfold touched in T; destruct (D x); cbn in T; lia.
Qed.

Section Run.
Context (D : description) (m : machine) (mc : mech) (OK : mech_ok mc) (ND : NoDup (ids (root m))).

(** The functions [L] of the bus [F] with number [B] remain to be enumerated. *)
Definition ready (st : regs) (i : info) (F : list fn) (B : Z) (L : list fn) : Prop :=
  opened st (root m) 0 F B /\ 0 <= B <= curr_bus i /\ incl L F /\ bus_ok st F /\
  (forall y, In y (all_fns L) -> fn_ok D m st y) /\ (forall id d f l, In (Fn id d f l) (all_fns L) -> bus_ok st l) /\
  (forall y, In y F -> header_type st (fid y) = 1 -> subordinate st (fid y) <= curr_bus i) /\
  limits_ok i /\ (forall k, 0 <= cursor i k /\ cursor i k + need D k L <= roof i k) /\ curr_bus i + Z.of_nat (bridges D L) <= 255.

Lemma ready_first : forall st i F B a b, ready st i F B (a ++ b) -> ready st i F B a.
Proof.
  intros st i F B a b (R1 & R2 & R3 & R4 & R5 & R6 & R7 & R8 & R9 & R10).
  split; [exact R1|]. split; [exact R2|]. split; [intros x X; apply R3, in_or_app; left; exact X|]. split; [exact R4|].
  split; [intros y Y; apply R5; rewrite all_app; apply in_or_app; left; exact Y|].
  split; [intros id d f l Y; apply (R6 id d f l); rewrite all_app; apply in_or_app; left; exact Y|]. split; [exact R7|]. split; [exact R8|].
  split; [intro k; specialize (R9 k); rewrite need_app in R9; pose proof (need_nonneg D k b); lia|]. rewrite bridges_app in R10. lia.
Qed.

Lemma numbered_sub : forall st l lo hi, numbered_list D st l lo hi -> lo <= hi /\ forall y, In y l -> D (fid y) = None -> subordinate st (fid y) <= hi.
Proof.
  intros st. induction l as [|y l IH]; intros lo hi H; [cbn in H; split; [lia|intros y []]|].
  destruct H as (mid & A & B & C). destruct (IH mid hi C) as (I1 & I2). split; [lia|]. intros z [<- |Z1] DZ; [|exact (I2 z Z1 DZ)].
  destruct y as [id d f l']. cbn [fid] in *. rewrite numbered_eq, DZ in B. lia.
Qed.

Lemma header_none : forall st y, fn_ok D m st y -> header_type st (fid y) = 1 -> D (fid y) = None.
Proof. intros st [id d f l] H E. cbn [fid] in *. unfold fn_ok in H. destruct H as (_ & _ & _ & _ & _ & _ & _ & H). destruct (D id); [destruct H as (H & _); congruence|reflexivity]. Qed.

Lemma ready_next : forall st i F B a b st' i', NoDup (ids (a ++ b)) -> ready st i F B (a ++ b) -> done_fns D st i a st' i' -> ready st' i' F B b.
Proof using ND.
  intros st i F B a b st' i' NAB (R1 & R2 & R3 & R4 & R5 & R6 & R7 & R8 & R9 & R10) (A1 & A2 & A3 & A4 & A5 & A6 & A7).
  rewrite ids_app in NAB. apply nodup_app in NAB. destruct NAB as (N1 & N2 & N3). pose proof (opened_nodup _ _ _ _ _ R1 ND) as NF.
  assert (E3 : forall x, st' x 3 = st x 3) by (intro x; apply A2, touched_3; right; reflexivity).
  assert (EB : forall y, In y (all_fns b) -> forall r, st' (fid y) r = st (fid y) r).
  { intros y Y r. apply A1. intro X. exact (N3 _ X (in_map fid _ _ Y)). }
  assert (IA : incl (all_fns a) (all_fns F)).
  { intros y Y. unfold all_fns in Y. apply in_flat_map in Y. destruct Y as (z & Z1 & Z2). apply (in_all z F); [|exact Z2]. apply R3, in_or_app. left. exact Z1. }
  split; [apply (opened_frame st st' _ _ _ _ ND R1); apply (agree_incl (ids a)); [apply incl_ids; exact IA|exact A1]|].
  split; [lia|]. split; [intros x X; apply R3, in_or_app; right; exact X|]. split; [exact (bus_ok_frame st st' F E3 R4)|].
  split; [intros y Y; apply (fn_ok_frame D m st); [exact (EB y Y)|]; apply R5; rewrite all_app; apply in_or_app; right; exact Y|].
  split; [intros id d f l Y; apply (bus_ok_frame st st' l E3), (R6 id d f l); rewrite all_app; apply in_or_app; right; exact Y|].
  split.
  { intros y Y H. assert (H0 : header_type st (fid y) = 1) by (unfold header_type in *; rewrite E3 in H; exact H).
    destruct (in_dec Nat.eq_dec (fid y) (ids a)) as [X|X].
    - unfold ids in X. apply in_map_iff in X. destruct X as (z & EZ & Z1). pose proof Z1 as Z0. unfold all_fns in Z1. apply in_flat_map in Z1. destruct Z1 as (w & W1 & W2).
      assert (WF : In w F) by (apply R3, in_or_app; left; exact W1).
      assert (YW : y = w).
      { destruct (Nat.eq_dec (fid y) (fid w)) as [E|E]; [exact (same_fid F y w NF Y WF E)|]. exfalso. destruct (ids_split F w NF WF) as (_ & Q). exact (Q y Y E z W2 EZ). }
      subst w. destruct (numbered_sub st' a _ _ A7) as (_ & Q). apply (Q y W1). apply (header_none st); [|exact H0]. apply R5. rewrite all_app. apply in_or_app. left. exact (in_all_self y a W1).
    - unfold subordinate. rewrite (A1 (fid y) X 6). specialize (R7 y Y H0). unfold subordinate in R7. lia. }
  split; [exact (limits_ok_same i i' A3 R8)|].
  split; [intro k; specialize (R9 k); specialize (A5 k); rewrite need_app in R9; rewrite (roof_same i i' k A3); lia|]. rewrite bridges_app in R10. lia.
Qed.

(** A device. *)
Lemma device_step : forall st i F B id d f l bl, ready st i F B [Fn id d f l] -> D id = Some bl ->
  exists st' i', pci_program_bars m mc st i B d f = (st', i') /\ done_fns D st i [Fn id d f l] st' i'.
Proof using OK ND.
  intros st i F B id d f l bl (R1 & R2 & R3 & R4 & R5 & R6 & R7 & R8 & R9 & R10) DI.
  assert (I : In (Fn id d f l) F) by (apply R3; left; reflexivity). assert (FO := R5 (Fn id d f l) ltac:(left; reflexivity)).
  unfold fn_ok in FO. destruct FO as (HD & HF & BD & V & W0 & W1 & W2 & X). rewrite DI in X. destruct X as (HT & -> & LB & BO & WD).
  assert (NE : forall k, need D k [Fn id d f []] = bars_sum k bl).
  { intro k. rewrite need_one. unfold fn_need. cbn [fid]. rewrite DI. change (need D k []) with 0. unfold bars_sum. lia. }
  assert (BR : bridges D [Fn id d f []] = 0%nat) by (rewrite bridges_one, DI; reflexivity). rewrite BR in *.
  destruct (program_bars_ok m mc OK B d f id ltac:(lia) HD HF (fun r => proj2 (BD r)) W0 W1 W2 bl st i LB BO
    (held_of m ND st st F B id d f [] R1 ltac:(lia) R4 I) WD R8) as (st' & i' & E1 & E2 & E3 & E4 & E5 & E6).
  { intro k. specialize (R9 k). rewrite NE in R9. exact R9. }
  exists st', i'. split; [exact E1|]. split.
  { intros x X r. apply E2. left. intros ->. apply X. left. reflexivity. }
  split.
  { intros x r T. apply E2. destruct (Nat.eq_dec x id) as [-> |]; [right|left; assumption]. unfold touched in T. rewrite DI in T. exact T. }
  split; [exact E5|]. split; [rewrite BR; lia|].
  assert (MONO : forall k, cursor i k <= cursor i' k).
  { clear - E3. revert E3. generalize 0 (cursor i). induction bl as [|bd bl IH]; intros idx lo H k; [exact (H k)|]. destruct H as (mid & M1 & M2 & M3). specialize (IH _ _ M3 k). specialize (M1 k). lia. }
  split; [intro k; specialize (E4 k); rewrite NE; specialize (MONO k); lia|].
  split.
  - exists (cursor i'). split; [exact MONO|]. split; [rewrite laid_eq, DI; exact E3|intro k; lia].
  - exists (curr_bus i'). split; [lia|]. split; [rewrite numbered_eq, DI; exact E6|reflexivity].
Qed.
Lemma only_command : forall id rs st st', only id rs st st' -> ~ In 1 rs -> st' id 1 = st id 1.
Proof. intros id rs st st' H N. apply H. right. exact N. Qed.

Lemma window_frame : forall st st' id k s e, st' id (win_reg k) = st id (win_reg k) ->
  ((s = e /\ win_limit st id k < win_base st id k) \/ (s < e /\ win_base st id k = s /\ win_limit st id k = e - 1 /\ Z.testbit (st' id 1) 1 = true)) ->
  window st' id k s e.
Proof. intros st st' id k s e E H. unfold window, win_limit, win_base in *. rewrite !E. exact H. Qed.

(** A bridge. *)
Lemma bridge_step : forall enum n st i F B id d f l,
  (forall st i l, ready st i l (curr_bus i) l -> (bridges D l < n)%nat -> exists st' i', enum st i (curr_bus i) = Val (st', i') /\ done_fns D st i l st' i') ->
  ready st i F B [Fn id d f l] -> D id = None -> (bridges D l < n)%nat ->
  exists st' i', pci_program_bridge m mc enum st i B d f = Val (st', i') /\ done_fns D st i [Fn id d f l] st' i'.
Proof using OK ND.
  intros enum n st i F B id d f l IH (R1 & R2 & R3 & R4 & R5 & R6 & R7 & R8 & R9 & R10) DI DN.
  assert (I : In (Fn id d f l) F) by (apply R3; left; reflexivity). assert (FO := R5 (Fn id d f l) ltac:(left; reflexivity)).
  unfold fn_ok in FO. destruct FO as (HD & HF & BD & V & W0 & W1 & W2 & X). rewrite DI in X. destruct X as (HT & SB & W6 & W8 & W9 & T1 & T2).
  pose proof (opened_nodup _ _ _ _ _ R1 ND) as NF. destruct (ids_split F _ NF I) as (N1 & N2). destruct (nodup_behind _ _ _ _ N1) as (N3 & N4).
  assert (NE : forall k, need D k [Fn id d f l] = 2 * granularity k + need D k l) by (intro k; rewrite need_one; unfold fn_need; cbn [fid]; rewrite DI; reflexivity).
  assert (BR : bridges D [Fn id d f l] = S (bridges D l)) by (rewrite bridges_one, DI; reflexivity). rewrite BR in R10.
  assert (NN : forall k, 0 <= need D k l) by (intro k; apply need_nonneg).
  set (c := curr_bus i) in *. assert (HB : 0 <= B < 256) by lia. assert (WB := fun r => proj2 (BD r)).
  assert (H0 : held m B d f id st) by (apply (held_of m ND st st F B id d f l R1 ltac:(lia) R4 I)).
  unfold pci_program_bridge. rewrite (rd_cmd m mc OK B d f id HB HD HF WB st H0), (wr_cmd m mc OK B d f id HB HD HF WB W1 st 0 H0).
  set (st1 := set_reg st id 1 (merge (writable m id 1) (st id 1) 0)). assert (O1 : only id [1] st st1) by apply only_set.
  assert (H1 : held m B d f id st1) by exact (only_held m B d f id _ _ _ O1 H0).
  rewrite (u8_id (curr_bus i + 1)) by (fold c; lia). fold c. set (i1 := set_bus i (c + 1)). change (curr_bus i1) with (c + 1).
  destruct (number_ok m mc OK B d f id HB HD HF WB st1 0 B H1 ltac:(lia) ltac:(lia) W6) as (O2 & _ & _). change (24 + 0) with 24 in O2.
  set (st2 := pci_config_write8 m mc st1 B d f 24 B) in *. assert (H2 := only_held m B d f id _ _ _ O2 H1).
  destruct (number_ok m mc OK B d f id HB HD HF WB st2 1 (c + 1) H2 ltac:(lia) ltac:(lia) W6) as (O3 & F3 & _). change (24 + 1) with 25 in O3, F3.
  set (st3 := pci_config_write8 m mc st2 B d f 25 (c + 1)) in *. assert (H3 := only_held m B d f id _ _ _ O3 H2).
  destruct (number_ok m mc OK B d f id HB HD HF WB st3 2 255 H3 ltac:(lia) ltac:(lia) W6) as (O4 & F4 & G4). change (24 + 2) with 26 in O4, F4, G4.
  set (st4 := pci_config_write8 m mc st3 B d f 26 255) in *. assert (H4 := only_held m B d f id _ _ _ O4 H3).
  assert (O14 : only id [1; 6] st st4).
  { apply (only_trans id _ _ st3); [apply (only_trans id _ _ st2); [apply (only_trans id _ _ st1)|]|].
    - apply (only_incl id [1]); [|exact O1]. intros x [<- |[]]. left. reflexivity.
    - apply (only_incl id [6]); [|exact O2]. intros x [<- |[]]. right. left. reflexivity.
    - apply (only_incl id [6]); [|exact O3]. intros x [<- |[]]. right. left. reflexivity.
    - apply (only_incl id [6]); [|exact O4]. intros x [<- |[]]. right. left. reflexivity. }
  assert (SEC4 : secondary st4 id = c + 1) by (unfold secondary; change 8 with (8 * 1) at 1; rewrite (G4 1) by lia; exact F3).
  assert (SUB4 : subordinate st4 id = 255) by exact F4.
  destruct R8 as (LM1 & LM2). pose proof (R9 MemS) as RM. pose proof (R9 PfS) as RP. pose proof (R9 IoS) as RI. rewrite NE in RM, RP, RI.
  pose proof (NN MemS) as NM. pose proof (NN PfS) as NP. pose proof (NN IoS) as NI.
  cbn [roof limit cursor granularity] in RM, RP, RI. pose proof (pow2_pos 20 ltac:(lia)) as P20.
  change 1048576 with (2 ^ 20). change 4096 with (2 ^ 12). change 4096 with (2 ^ 12) in RI. pose proof (pow2_pos 12 ltac:(lia)) as P12. change (2 ^ 32) with 4294967296 in LM1, LM2.
  destruct (check_up_ok (mem_pf i1) 20 (mem_pf_limit i1) ltac:(lia) ltac:(cbn [i1 set_bus mem_pf]; lia) ltac:(cbn [i1 set_bus mem_pf mem_pf_limit]; lia) ltac:(change (2 ^ 32) with 4294967296; cbn [i1 set_bus mem_pf_limit]; lia)) as (ps & P1 & P2 & P3).
  rewrite P1. cbv zeta. set (i2 := set_cursor i1 PfS ps).
  destruct (check_up_ok (mem i2) 20 (mem_limit i2) ltac:(lia) ltac:(cbn [i2 set_cursor i1 set_bus mem]; lia) ltac:(cbn [i2 i1 set_cursor set_bus mem mem_limit]; lia) ltac:(change (2 ^ 32) with 4294967296; cbn [i2 i1 set_cursor set_bus mem_limit]; lia)) as (ms & M1 & M2 & M3).
  rewrite M1. set (i3 := set_cursor i2 MemS ms).
  destruct (check_up_ok (io i3) 12 4294967295 ltac:(lia) ltac:(cbn [i3 i2 set_cursor i1 set_bus io]; lia) ltac:(cbn [i3 i2 i1 set_cursor set_bus io]; lia) ltac:(reflexivity)) as (is & Q1 & Q2 & Q3).
  rewrite Q1. set (i4 := set_cursor i3 IoS is). change (curr_bus i4) with (c + 1).
  cbn [i1 set_bus mem_pf] in P3. cbn [i2 i1 set_cursor set_bus mem] in M3. cbn [i3 i2 i1 set_cursor set_bus io] in Q3.
  set (s := fun k => match k with MemS => ms | PfS => ps | IoS => is end : Z).
  assert (C4 : forall k, cursor i4 k = s k) by (intros []; reflexivity).
  assert (SL : forall k, cursor i k <= s k < cursor i k + granularity k) by (intros []; cbn [cursor s granularity]; change 4096 with (2 ^ 12); assumption).
  assert (L4 : same_limits i i4) by (split; reflexivity).
  (* the bus behind *)
  assert (OP : opened st4 (root m) 0 l (c + 1)).
  { apply (opened_trans st4 (root m) 0 F B).
    - apply (opened_frame st st4 _ _ _ _ ND R1). apply (agree_incl [id]); [|exact (only_agree id _ _ _ O14)]. intros x [<- |[]]. exact (fid_in _ _ I).
    - rewrite <- SEC4. apply (op_down st4 F B id d f l l (secondary st4 id) I); [|exact SUB4|rewrite SEC4; lia| |apply op_here].
      + unfold header_type in *. rewrite (O14 id 3) by (right; intros [X|[X|[]]]; discriminate X). exact HT.
      + intros y Y NY HY. rewrite SEC4. assert (NY' : fid y <> id) by exact NY. unfold subordinate, header_type in *. rewrite (O14 (fid y) 6) by (left; exact NY').
        rewrite (O14 (fid y) 3) in HY by (left; exact NY'). specialize (R7 y Y HY). lia. }
  assert (E4 : forall y, In y (all_fns l) -> forall r, st4 (fid y) r = st (fid y) r).
  { intros y Y r. apply O14. left. intro E. apply N4. rewrite <- E. unfold ids. apply in_map. exact Y. }
  assert (E43 : forall x, st4 x 3 = st x 3) by (intro x; apply O14; right; intros [X|[X|[]]]; discriminate X).
  assert (RL : ready st4 i4 l (c + 1) l).
  { split; [exact OP|]. split; [change (curr_bus i4) with (c + 1); lia|]. split; [apply incl_refl|].
    split; [apply (bus_ok_frame st st4 l E43); apply (R6 id d f l); left; reflexivity|].
    assert (SUBL : forall y, In y (all_fns l) -> In y (all_fns [Fn id d f l])) by (intros y Y; rewrite all_cons, fns_eq; apply in_or_app; left; right; exact Y).
    split; [intros y Y; apply (fn_ok_frame D m st); [exact (E4 y Y)|exact (R5 y (SUBL y Y))]|].
    split; [intros id' d' f' l' Y; apply (bus_ok_frame st st4 l' E43); exact (R6 id' d' f' l' (SUBL _ Y))|].
    split.
    { intros y Y HY. assert (YA := in_all_self y l Y). unfold header_type, subordinate in *. rewrite (E4 y YA) in *. pose proof (R5 y (SUBL y YA)) as FY.
      pose proof (header_none st y FY HY) as DY. destruct y as [id' d' f' l']. cbn [fid] in *. unfold fn_ok in FY. rewrite DY in FY. destruct FY as (_ & _ & _ & _ & _ & _ & _ & _ & SY & _).
      unfold subordinate in SY. rewrite SY. change (curr_bus i4) with (c + 1). lia. }
    split; [split; assumption|]. split; [|change (curr_bus i4) with (c + 1); lia].
    intro k. rewrite C4, (roof_same i i4 k L4). specialize (SL k). specialize (R9 k). rewrite NE in R9. assert (0 < granularity k) by (destruct k; reflexivity). lia. }
  destruct (IH st4 i4 l) as (st5 & i5 & EN & (A1 & A2 & A3 & A4 & A5 & A6 & A7)); [exact RL|exact DN|]. change (curr_bus i4) with (c + 1) in EN, A4, A7. rewrite EN. cbn [obind].
  assert (ID5 : forall r, st5 id r = st4 id r) by (intro r; apply A1; exact N4).
  assert (O5 : opened st5 (root m) 0 F B).
  { apply (opened_frame st _ _ _ _ _ ND R1). intros x X r. assert (Y1 : ~ In x (ids l)).
    { intro Y. apply X. unfold ids in *. apply in_map_iff in Y. destruct Y as (y & <- & Y). apply in_map. apply (in_all _ F I). rewrite fns_eq. right. exact Y. }
    rewrite (A1 x Y1 r). apply O14. left. intros ->. apply X. exact (fid_in _ _ I). }
  assert (H5 : held m B d f id st5) by (apply (held_of m ND st st5 F B id d f l O5 ltac:(lia) R4 I)).
  pose proof (A5 MemS) as CM. pose proof (A5 PfS) as CP. pose proof (A5 IoS) as CI. rewrite C4 in CM, CP, CI. cbn [s] in CM, CP, CI.
  destruct (number_ok m mc OK B d f id HB HD HF WB st5 2 (curr_bus i5) H5 ltac:(lia) ltac:(lia) W6) as (O6 & F6 & G6). change (24 + 2) with 26 in O6, F6, G6.
  set (st6 := pci_config_write8 m mc st5 B d f 26 (curr_bus i5)) in *. assert (H6 := only_held m B d f id _ _ _ O6 H5).
  destruct A3 as (AL1 & AL2). change (mem_limit i4) with (mem_limit i) in AL1. change (mem_pf_limit i4) with (mem_pf_limit i) in AL2.
  destruct (mem_window m mc OK B d f id PfS ps st6 i5 (Z.land (st id 1) 65535) HB HD HF WB H6 ltac:(right; reflexivity) W9 ltac:(lia) P2
    ltac:(cbn [limit]; rewrite AL2; cbn [cursor] in *; lia) ltac:(cbn [limit]; rewrite AL2; exact LM2)) as (st7 & pe & cmd7 & X7 & O7 & PE & V7).
  change (4 * win_reg PfS) with 36 in X7. change 1048576 with (2 ^ 20) in X7. rewrite X7. cbv iota. clear X7. assert (H7 := only_held m B d f id _ _ _ O7 H6).
  set (i7 := set_cursor i5 PfS pe). assert (C7M : cursor i7 MemS = cursor i5 MemS) by reflexivity. assert (C7I : cursor i7 IoS = cursor i5 IoS) by reflexivity.
  destruct (mem_window m mc OK B d f id MemS ms st7 i7 cmd7 HB HD HF WB H7 ltac:(left; reflexivity) W8 ltac:(rewrite C7M; lia) M2
    ltac:(rewrite C7M; cbn [limit i7 set_cursor mem_limit]; rewrite AL1; lia) ltac:(cbn [limit i7 set_cursor mem_limit]; rewrite AL1; exact LM1)) as (st8 & me & cmd8 & X8 & O8 & ME & V8).
  change (4 * win_reg MemS) with 32 in X8. change 1048576 with (2 ^ 20) in X8. rewrite X8. cbv iota. clear X8. assert (H8 := only_held m B d f id _ _ _ O8 H7). rewrite C7M in ME.
  set (i8 := set_cursor i7 MemS me). assert (C8I : cursor i8 IoS = cursor i5 IoS) by reflexivity.
  destruct (io_window m mc OK B d f id is st8 i8 cmd8 HB HD HF WB H8 ltac:(rewrite C8I; lia) ltac:(rewrite C8I; lia)) as (st9 & ie & cmd9 & X9 & O9 & IE & V9).
  change 4096 with (2 ^ 12) in X9. rewrite X9. cbv iota. clear X9. assert (H9 := only_held m B d f id _ _ _ O9 H8). rewrite C8I in IE.
  rewrite (wr_cmd m mc OK B d f id HB HD HF WB W1 st9 _ H9).
  set (st10 := set_reg st9 id 1 (merge (writable m id 1) (st9 id 1) (Z.lor cmd9 4))). assert (O10 : only id [1] st9 st10) by apply only_set.
  set (i9 := set_cursor i8 IoS ie). exists st10, i9. split; [reflexivity|].
  set (e := fun k => match k with MemS => me | PfS => pe | IoS => ie end : Z).
  assert (C9 : forall k, cursor i9 k = e k) by (intros []; reflexivity).
  assert (EL : forall k, cursor i5 k <= e k < cursor i5 k + granularity k) by (intros []; cbn [cursor e granularity]; change 4096 with (2 ^ 12); assumption).
  assert (O5A : only id [1; 6; 8; 9; 12] st5 st10).
  { apply (only_trans id _ _ st9); [apply (only_trans id _ _ st8); [apply (only_trans id _ _ st7); [apply (only_trans id _ _ st6)|]|]|].
    - apply (only_incl id [6]); [|exact O6]. intros x [<- |[]]. cbn. tauto.
    - apply (only_incl id [9]); [|exact O7]. intros x [<- |[]]. cbn. tauto.
    - apply (only_incl id [8]); [|exact O8]. intros x [<- |[]]. cbn. tauto.
    - apply (only_incl id [12]); [|exact O9]. intros x [<- |[]]. cbn. tauto.
    - apply (only_incl id [1]); [|exact O10]. intros x [<- |[]]. cbn. tauto. }
  assert (E10 : forall y, In y (all_fns l) -> forall r, st10 (fid y) r = st5 (fid y) r).
  { intros y Y r. apply O5A. left. intro E. apply N4. rewrite <- E. unfold ids. apply in_map. exact Y. }
  assert (BIT : forall j, 0 <= j -> Z.testbit (writable m id 1) j = true -> Z.testbit (st10 id 1) j = Z.testbit cmd9 j || Z.testbit 4 j).
  { intros j J T. unfold st10. rewrite set_same. rewrite testbit_merge, T by exact J. apply Z.lor_spec. }
  split.
  { intros x X r. assert (X1 : x <> id) by (intros ->; apply X; unfold ids; rewrite all_cons, fns_eq; left; reflexivity).
    assert (X2 : ~ In x (ids l)) by (intro Y; apply X; unfold ids in *; rewrite all_cons, fns_eq; rewrite map_app; apply in_or_app; left; right; exact Y).
    rewrite (O5A x r) by (left; exact X1). rewrite (A1 x X2 r). apply O14. left. exact X1. }
  split.
  { intros x r T. destruct (Nat.eq_dec x id) as [-> |NX].
    - unfold touched in T. rewrite DI in T. rewrite (O5A id r) by (right; exact T). rewrite ID5. apply O14. right. intro Y. apply T. destruct Y as [<- |[<- |[]]]; [left|right; left]; reflexivity.
    - rewrite (O5A x r) by (left; exact NX). rewrite (A2 x r T). apply O14. left. exact NX. }
  split; [split; [exact AL1|exact AL2]|]. change (curr_bus i9) with (curr_bus i5). split; [rewrite BR; fold c; lia|].
  split.
  { intro k. rewrite C9, NE. specialize (SL k). specialize (EL k). specialize (A5 k). rewrite C4 in A5. lia. }
  split.
  - exists (cursor i9). split; [intro k; rewrite C9; specialize (SL k); specialize (EL k); specialize (A5 k); rewrite C4 in A5; lia|].
    split; [|intro k; lia]. rewrite laid_eq, DI. exists s, e.
    split; [intro k; pose proof (C9 k); specialize (SL k); specialize (EL k); specialize (A5 k); rewrite C4 in A5; lia|].
    assert (B9 : forall j, Z.testbit cmd8 j = true -> Z.testbit cmd9 j = true) by (intros j J; destruct V9 as [-> | ->]; [exact J|rewrite Z.lor_spec, J; reflexivity]).
    split; [|split; [|split]].
    + apply (window_frame st8).
      * change (win_reg MemS) with 8. rewrite (O10 id 8) by (right; intros [X|[]]; discriminate X). apply O9. right. intros [X|[]]; discriminate X.
      * cbn [s e]. destruct V8 as [(V1 & V2 & V3)|(V1 & V2 & V3 & V4)]; [left; split; assumption|right]. split; [exact V1|]. split; [exact V2|]. split; [exact V3|].
        rewrite (BIT 1 ltac:(lia) T1). rewrite B9; [reflexivity|]. rewrite V4, Z.lor_spec. apply orb_true_r.
    + apply (window_frame st7).
      * change (win_reg PfS) with 9. rewrite (O10 id 9) by (right; intros [X|[]]; discriminate X). rewrite (O9 id 9) by (right; intros [X|[]]; discriminate X). apply O8. right. intros [X|[]]; discriminate X.
      * cbn [s e]. destruct V7 as [(V1 & V2 & V3)|(V1 & V2 & V3 & V4)]; [left; split; assumption|right]. split; [exact V1|]. split; [exact V2|]. split; [exact V3|].
        rewrite (BIT 1 ltac:(lia) T1). rewrite B9; [reflexivity|]. destruct V8 as [(_ & _ & ->)|(_ & _ & _ & ->)]; rewrite ?Z.lor_spec, V4, Z.lor_spec; [apply orb_true_r|].
        change (Z.testbit 2 1) with true. rewrite !orb_true_r. reflexivity.
    + rewrite (BIT 2 ltac:(lia) T2). apply orb_true_r.
    + apply (laid_list_frame D st5 st10 l E10). apply (laid_list_weaken D st5 l (cursor i4)); [intro k; pose proof (C4 k); lia|].
      assert (X := laid_list_app D st5 l [] (cursor i4) (cursor i5) e A6). rewrite app_nil_r in X. apply X. intro k. specialize (EL k). lia.
  - exists (curr_bus i5). split; [fold c; lia|]. split; [|reflexivity]. rewrite numbered_eq, DI. fold c.
    assert (R6' : st10 id 6 = st6 id 6).
    { rewrite (O10 id 6) by (right; intros [X|[]]; discriminate X). rewrite (O9 id 6) by (right; intros [X|[]]; discriminate X). rewrite (O8 id 6) by (right; intros [X|[]]; discriminate X). apply O7. right. intros [X|[]]; discriminate X. }
    split; [unfold secondary; rewrite R6'; change 8 with (8 * 1) at 1; rewrite (G6 1) by lia; rewrite ID5; exact SEC4|].
    split; [unfold subordinate; rewrite R6'; exact F6|]. exact (numbered_list_frame D st5 st10 l E10 _ _ A7).
Qed.
End Run.
