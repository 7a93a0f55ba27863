(** Theorems about delta patches: C23 and C24. *)
From Verif Require Import Base BaseLemmas Flash FlashLemmas ImageSpec DeltaModel DeltaSpec DeltaProofs.
Local Ltac Zify.zify_post_hook ::= idtac.

Definition mem_of (l : list Z) : Z -> Z := fun x => nth (Z.to_nat x) l 0.
Lemma mem_of_bytes : forall l, forallb (fun b => (0 <=? b) && (b <? 256)) l = true -> bytes (mem_of l).
Proof.
  intros l H x. unfold mem_of, is_byte. destruct (nth_in_or_default (Z.to_nat x) l 0) as [I|E]; [|rewrite E; lia].
  rewrite forallb_forall in H. specialize (H _ I). apply andb_true_iff in H. lia.
Qed.

(** ** C23 *)

(** C23: whatever the patch, the base image and the buffer sizes (six bytes at least), the
    successive outputs are the beginning of the expansion of the patch's instructions, as
    long as the buffers together allow; no write goes past a buffer. *)
Theorem C23_buffering : forall src pt ssz psz x lens, bytes pt -> 0 <= psz -> wb_patch_init ssz psz = Some x ->
  Forall (fun l => 6 <= l) lens ->
  exists ts x', parsed pt psz 0 ts /\
    patch_calls src pt psz x lens = Val (firstn (Z.to_nat (sumz lens)) (expand src ts), x').
Proof.
  intros src pt ssz psz x lens Hb Hz E F. unfold wb_patch_init in E. destruct (_ || _); [discriminate|]. injection E as <-.
  destruct (parsed_ex pt psz 0) as (ts & P).
  assert (A : about pt psz (mkP 0 false 0 0) ts) by (split; [cbn [p_off]; lia|]; exists ts; split; [exact P|reflexivity]).
  destruct (patch_calls_spec pt psz lens Hb Hz F _ ts A) as (pre & post & x' & S1 & A1 & T1 & T2 & R).
  exists ts, x'. split; [exact P|]. rewrite R. do 2 f_equal.
  assert (Sn : Forall sane ts) by (eapply about_sane; eauto). destruct (splits_sane _ _ _ S1 Sn) as (Sp & _).
  pose proof (expand_len src pre Sp) as L. rewrite (splits_expand _ _ _ S1 src). unfold zlen in L.
  rewrite firstn_app. destruct T2 as [T2| ->].
  - replace (Z.to_nat (sumz lens) - length (expand src pre))%nat with O by lia. cbn [firstn]. rewrite app_nil_r.
    symmetry. apply firstn_all2. lia.
  - cbn [expand flat_map]. rewrite firstn_nil, app_nil_r. symmetry. apply firstn_all2. lia.
Qed.
Print Assumptions C23_buffering.

(** C23, stated between two ways of consuming a patch: equal total sizes, equal bytes. *)
Theorem C23_same_stream : forall src pt ssz psz x l1 l2, bytes pt -> 0 <= psz -> wb_patch_init ssz psz = Some x ->
  Forall (fun l => 6 <= l) l1 -> Forall (fun l => 6 <= l) l2 -> sumz l1 = sumz l2 ->
  exists o x1 x2, patch_calls src pt psz x l1 = Val (o, x1) /\ patch_calls src pt psz x l2 = Val (o, x2).
Proof.
  intros src pt ssz psz x l1 l2 Hb Hz E F1 F2 Es.
  destruct (C23_buffering src pt ssz psz x l1 Hb Hz E F1) as (ts & x1 & P & R1).
  destruct (C23_buffering src pt ssz psz x l2 Hb Hz E F2) as (ts' & x2 & P' & R2).
  rewrite (parsed_det _ _ _ _ P _ P') in R1. rewrite Es in R1. eauto.
Qed.
Print Assumptions C23_same_stream.

(** C23 in builds with external flash: the patch cache changes nothing. *)
Theorem C23_cache : forall src pt psz x h len, cache_ok pt (p_off x) h ->
  match wb_patch src pt psz x len with
  | Val (Some (o, x')) => exists h', wb_patch_ext src pt psz x h len = Val (Some (o, x', h')) /\ cache_ok pt (p_off x') h'
  | Val None => wb_patch_ext src pt psz x h len = Val None
  | UB => wb_patch_ext src pt psz x h len = UB
  | NoFuel => wb_patch_ext src pt psz x h len = NoFuel
  end.
Proof.
  intros src pt psz x h len C. unfold wb_patch, wb_patch_ext. destruct (len <? BLOCK_HDR_SIZE); [reflexivity|].
  pose proof (patch_loop_ext_same (Z.to_nat (psz + len + 7)) src pt psz len 0 x h C) as P.
  destruct (patch_loop _ src pt psz len 0 x) as [[o x']| |]; cbn [obind] in *; try (rewrite P; reflexivity).
  destruct P as (h' & -> & C'). cbn [obind]. eauto.
Qed.
Print Assumptions C23_cache.

Theorem C23_cache_stream : forall src pt ssz psz x lens, bytes pt -> 0 <= psz -> wb_patch_init ssz psz = Some x ->
  Forall (fun l => 6 <= l) lens ->
  exists ts x' h', parsed pt psz 0 ts /\
    patch_calls_ext src pt psz x None lens = Val (firstn (Z.to_nat (sumz lens)) (expand src ts), x', h').
Proof.
  intros src pt ssz psz x lens Hb Hz E F.
  destruct (C23_buffering src pt ssz psz x lens Hb Hz E F) as (ts & x' & P & R).
  assert (K : forall lens x o x' h, cache_ok pt (p_off x) h -> patch_calls src pt psz x lens = Val (o, x') ->
    exists h', patch_calls_ext src pt psz x h lens = Val (o, x', h')).
  { clear. induction lens as [|l lens IH]; intros x o x' h C R; cbn [patch_calls patch_calls_ext] in *.
    - injection R as <- <-. eauto.
    - pose proof (C23_cache src pt psz x h l C) as Q.
      destruct (wb_patch src pt psz x l) as [[[o1 x1]|]| |]; cbn [obind] in *; try discriminate.
      destruct Q as (h1 & -> & C1). cbn [obind].
      destruct (patch_calls src pt psz x1 lens) as [[o2 x2]| |] eqn:E2; cbn [obind] in *; try discriminate.
      injection R as <- <-. destruct (IH x1 o2 x2 h1 C1 E2) as (h2 & ->). cbn [obind]. eauto. }
  destruct (K lens x _ x' None I R) as (h' & Eh). exists ts, x', h'. auto.
Qed.
Print Assumptions C23_cache_stream.

(** ** C24 *)

(** C24: for any base [A] and target [B] within the encoder's limits, the encoder produces a
    patch, and applying it over [A], sector by sector, yields [B]. *)
Theorem C24_roundtrip : forall i A B, usable i ->
  holds (d_a i) 0 A -> zlen A = d_sa i -> holds (d_b i) 0 B -> zlen B = d_sb i ->
  exists P, make_patch i = Val (Some P) /\
    forall pt blk n m, bytes pt -> holds pt 0 P -> holds m 0 A -> 6 <= blk -> (blk | d_sect i) ->
      zlen B <= Z.of_nat n * d_sect i ->
      exists x m', wb_patch_init (zlen A) (zlen P) = Some x /\
        apply_sectors n pt (zlen P) (d_sect i) blk 0 m x = Val m' /\ holds m' 0 B.
Proof.
  intros i A B U HA LA HB LB. destruct (make_patch_spec i U) as (ts & E & C & F & T).
  exists (encoded ts). split; [exact E|]. intros pt blk n m Hp HP HM Hblk Hdiv Hn.
  pose proof (us_sb i U). pose proof (us_sa i U). pose proof (us_sect i U).
  assert (ts <> []) as Hne by (intros ->; cbn [total] in T; lia).
  assert (Hlen : 0 < zlen (encoded ts)).
  { destruct ts as [|t ts]; [congruence|]. cbn [encoded flat_map]. rewrite zlen_app. pose proof (enc_len t). pose proof (zlen_nonneg (flat_map enc ts)). lia. }
  exists (mkP 0 false 0 0). unfold wb_patch_init.
  rewrite (proj2 (Z.eqb_neq (zlen A) 0)), (proj2 (Z.eqb_neq (zlen (encoded ts)) 0)) by lia. cbn [orb].
  assert (P : parsed pt (zlen (encoded ts)) 0 ts) by (apply parsed_encoded; auto).
  assert (Ab : about pt (zlen (encoded ts)) (mkP 0 false 0 0) ts) by (split; [cbn [p_off]; lia|]; exists ts; split; [exact P|reflexivity]).
  assert (Mi : midway i (total ts) 0 m).
  { split; intros x Hx; [lia|]. specialize (HM x). specialize (HA x). cbn [Z.add] in *. rewrite HM, HA by lia. reflexivity. }
  destruct (apply_sectors_spec i pt (zlen (encoded ts)) blk (total ts) U Hp ltac:(lia) Hblk Hdiv n 0 m _ ts ltac:(lia) Mi Ab C)
    as (m' & E2 & (M1 & _)); [left; lia|].
  exists m'. split; [reflexivity|]. split; [exact E2|]. intros j Hj. specialize (HB j Hj). cbn [Z.add] in *.
  rewrite <- HB. apply M1; lia.
Qed.
Print Assumptions C24_roundtrip.

(** A pair whose patch has a literal, an escaped 0x7F, a copy from the base and a copy from
    the target. *)
Definition demo_a : list Z := [1; 2; 3; 4; 5; 6; 7; 8; 9; 10; 11; 12; 13; 14; 15; 16; 17; 18; 19; 20; 21; 22; 23; 24; 25; 26; 27; 28; 29; 30; 31; 32; 33].
Definition demo_b : list Z :=
  [101; 102; 103; 104; 105; 106; 107; 108; 127; 99; 98; 97; 96; 95; 94; 93;
   21; 22; 23; 24; 25; 26; 27; 28; 29; 30; 1; 2; 3; 4; 5; 6;
   101; 102; 103; 104; 105; 106; 107; 108; 50; 51; 52; 53].
Definition demo_din : din := {| d_a := mem_of demo_a; d_sa := 33; d_b := mem_of demo_b; d_sb := 44; d_sect := 16 |}.
Example C24_hyps : usable demo_din /\ holds (d_a demo_din) 0 demo_a /\ zlen demo_a = d_sa demo_din /\
  holds (d_b demo_din) 0 demo_b /\ zlen demo_b = d_sb demo_din /\
  make_patch demo_din = Val (Some
    [101; 102; 103; 104; 105; 106; 107; 108; 127; 127; 99; 98; 97; 96; 95; 94; 93;
     127; 0; 0; 20; 0; 10; 1; 2; 3; 4; 5; 6;
     127; 0; 0; 0; 0; 8; 50; 51; 52; 53]).
Proof.
  split; [|split; [|split; [|split; [|split]]]]; try reflexivity; try (intros j Hj; reflexivity).
  constructor; cbn [d_sa d_sb d_sect demo_din]; try lia; apply mem_of_bytes; reflexivity.
Qed.

(** *** Limits of the encoder *)

(** The result of making a patch and applying it in place with buffers of one sector. *)
Definition round_trip (i : din) (n : nat) : out (option (Z -> Z)) :=
  dlet r <- make_patch i in
  match r with
  | None => Val None
  | Some P =>
      match wb_patch_init (d_sa i) (zlen P) with
      | None => Val None
      | Some x => dlet m <- apply_sectors n (mem_of P) (zlen P) (d_sect i) (d_sect i) 0 (d_a i) x in Val (Some m)
      end
  end.

Definition byte_of (r : out (option (Z -> Z))) (x : Z) : option Z :=
  match r with Val (Some m) => Some (m x) | _ => None end.

Lemma round_trip_bad : forall i n x v, byte_of (round_trip i n) x = Some v -> v <> d_b i x ->
  exists m, round_trip i n = Val (Some m) /\ m x <> d_b i x.
Proof.
  intros i n x v E N. destruct (round_trip i n) as [[m|]| |]; try discriminate. exists m. split; [reflexivity|].
  cbn [byte_of] in E. injection E as ->. exact N.
Qed.

(** False beyond those limits, 1: with sectors larger than 64 KiB (here 128 KiB), a match of
    64 KiB or more is recorded modulo 65536.  Base and target are the same image. *)
Definition big_sector : din :=
  {| d_a := fun x => x mod 251; d_sa := 131080; d_b := fun x => x mod 251; d_sb := 131080; d_sect := 131072 |}.
Lemma mod251 : bytes (fun x => x mod 251).
Proof. intro y. unfold is_byte. pose proof (Z.mod_pos_bound y 251 eq_refl). lia. Qed.
Theorem C24_big_sector_refuted : exists i n m x, bytes (d_a i) /\ bytes (d_b i) /\ d_sect i = 131072 /\
  d_sb i <= Z.of_nat n * d_sect i /\ round_trip i n = Val (Some m) /\ 0 <= x < d_sb i /\ m x <> d_b i x.
Proof.
  exists big_sector, 2%nat.
  destruct (round_trip_bad big_sector 2 65535 49) as (m & E & N).
  { vm_cast_no_check (@eq_refl (option Z) (Some 49)). }
  { vm_compute. discriminate. }
  exists m, 65535. split; [exact mod251|]. split; [exact mod251|]. split; [reflexivity|]. split; [vm_compute; discriminate|].
  split; [exact E|]. split; [split; [discriminate|reflexivity]|exact N].
Qed.
Print Assumptions C24_big_sector_refuted.

(** 2: a repetition of 64 KiB or more inside the target (here the target is the base image
    twice; sectors of 64 KiB): the instructions of the patch produce fewer bytes than the
    target has. *)
Definition long_rep : din :=
  {| d_a := fun x => Z.land (Z.shiftr x 9) 255; d_sa := 131072;
     d_b := fun x => Z.land (Z.shiftr x 9) 255; d_sb := 262160; d_sect := 65536 |}.
Lemma long_rep_bytes : bytes (fun x => Z.land (Z.shiftr x 9) 255).
Proof.
  intro y. unfold is_byte. change 255 with (Z.ones 8). rewrite Z.land_ones by lia. apply Z.mod_pos_bound. reflexivity.
Qed.
Definition long_rep_patch : list Z :=
  [127; 0; 0; 0; 255; 255; 127; 127; 127; 1; 0; 0; 255; 255; 255; 127; 0; 0; 0; 255; 255; 127; 1; 255; 255; 0; 0].
Lemma long_rep_made : make_patch long_rep = Val (Some long_rep_patch).
Proof. vm_cast_no_check (@eq_refl (out (option (list Z))) (Val (Some long_rep_patch))). Qed.
Theorem C24_long_repeat_refuted : exists i P ts, bytes (d_a i) /\ bytes (d_b i) /\ 6 < d_sect i <= 65536 /\
  d_sa i <= 8323072 /\ d_sb i <= 8323072 /\
  make_patch i = Val (Some P) /\ parsed (mem_of P) (zlen P) 0 ts /\ total ts < d_sb i.
Proof.
  exists long_rep, long_rep_patch, [Copy 0 65535; Lit 127; Copy 65536 65535; Lit 255; Copy 0 65535; Copy 131071 0].
  split; [exact long_rep_bytes|]. split; [exact long_rep_bytes|]. split; [split; [reflexivity|discriminate]|].
  split; [discriminate|]. split; [discriminate|]. split; [exact long_rep_made|].
  split; [|reflexivity].
  apply (pa_copy (mem_of long_rep_patch) 27 0); [reflexivity|reflexivity|discriminate|].
  apply (pa_esc (mem_of long_rep_patch) 27 6); [reflexivity|reflexivity|reflexivity|].
  apply (pa_copy (mem_of long_rep_patch) 27 8); [reflexivity|reflexivity|discriminate|].
  apply (pa_lit (mem_of long_rep_patch) 27 14); [reflexivity|discriminate|].
  apply (pa_copy (mem_of long_rep_patch) 27 15); [reflexivity|reflexivity|discriminate|].
  apply (pa_copy (mem_of long_rep_patch) 27 21); [reflexivity|reflexivity|discriminate|].
  constructor. discriminate.
Qed.
Print Assumptions C24_long_repeat_refuted.

(** 3: images above 0x7F0000 bytes: a block header whose offset starts with 0x7F reads as an
    escaped literal. *)
Lemma find_a_skip : forall k fuel i off pa, (forall j, 0 <= j < Z.of_nat k -> d_a i (pa + j) <> d_b i off) ->
  pa + Z.of_nat k + 6 <= d_sa i -> off + 6 <= d_sb i -> off mod d_sect i + 6 <= d_sect i ->
  find_a (k + fuel) i off pa = find_a fuel i off (pa + Z.of_nat k).
Proof.
  induction k as [|k IH]; intros fuel i off pa H H1 H2 H3.
  - change (Z.of_nat 0) with 0. rewrite Z.add_0_r. reflexivity.
  - cbn [Nat.add find_a]. unfold BLOCK_HDR_SIZE.
    destruct (Z.ltb_spec pa (d_sa i)); [|lia]. destruct (Z.ltb_spec (d_sa i - pa) 6); [lia|].
    destruct (Z.ltb_spec (d_sb i - off) 6); [lia|]. destruct (Z.ltb_spec (d_sect i - off mod d_sect i) 6); [lia|].
    assert (E : same 6 (d_a i) pa (d_b i) off = false).
    { cbn [same]. specialize (H 0 ltac:(lia)). rewrite Z.add_0_r in H. rewrite (proj2 (Z.eqb_neq _ _) H). reflexivity. }
    rewrite E, IH; [f_equal; lia| |lia|lia|lia].
    intros j Hj. replace (pa + 1 + j) with (pa + (j + 1)) by lia. apply H. lia.
Qed.

Definition far : din :=
  {| d_a := fun x => if x <? 8323072 then 0 else if x <? 8323088 then x - 8323062 else 0; d_sa := 8323088;
     d_b := fun x => if (0 <=? x) && (x <? 16) then x + 10 else 0; d_sb := 13; d_sect := 4096 |}.

Lemma far_find : find_a (Z.to_nat (d_sa far)) far 0 0 = Val (Some 8323072).
Proof.
  replace (Z.to_nat (d_sa far)) with (Z.to_nat 8323072 + 16)%nat.
  2: { change (d_sa far) with (8323072 + 16). rewrite Z2Nat.inj_add by lia. reflexivity. }
  rewrite find_a_skip; rewrite ?Z2Nat.id by lia.
  - vm_compute. reflexivity.
  - intros j Hj. cbn [d_a d_b far Z.add]. rewrite (proj2 (Z.ltb_lt j 8323072)) by lia. discriminate.
  - vm_compute. discriminate.
  - vm_compute. discriminate.
  - vm_compute. discriminate.
Qed.

Lemma far_step : diff_step far 0 = Val ([127; 127; 0; 0; 0; 15], 15).
Proof.
  unfold diff_step. change (d_sect far * (0 / d_sect far)) with 0. cbn zeta. rewrite far_find. cbn [obind].
  replace (Z.to_nat (d_sa far)) with (16 + Z.to_nat 8323072)%nat.
  2: { change (d_sa far) with (16 + 8323072). rewrite Z2Nat.inj_add by lia. reflexivity. }
  generalize (Z.to_nat 8323072). intro k. vm_compute. reflexivity.
Qed.

Lemma far_made : make_patch far = Val (Some [127; 127; 0; 0; 0; 15]).
Proof.
  unfold make_patch. change ((d_sa far =? 0) || (d_sb far =? 0)) with false. cbn iota.
  change (S (Z.to_nat (d_sb far))) with 14%nat. cbn [diff_all].
  unfold wb_diff at 1. change (0 >=? d_sb far) with false. change (d_sect far <? BLOCK_HDR_SIZE) with false. cbn iota.
  change (Z.to_nat (d_sb far)) with 13%nat. cbn [diff_loop].
  change ((0 + BLOCK_HDR_SIZE <? d_sb far) && (d_sect far >? 0 + BLOCK_HDR_SIZE)) with true. cbn iota.
  rewrite far_step. vm_compute. reflexivity.
Qed.

Theorem C24_far_offset_refuted : exists i P ts, bytes (d_a i) /\ bytes (d_b i) /\ d_sect i = 4096 /\
  d_sa i <= 16777216 /\ d_sb i <= 16777216 /\
  make_patch i = Val (Some P) /\ parsed (mem_of P) (zlen P) 0 ts /\ forall src, nth 0 (expand src ts) 0 <> d_b i 0.
Proof.
  exists far, [127; 127; 0; 0; 0; 15], [Lit 127; Lit 0; Lit 0; Lit 0; Lit 15].
  split.
  { intro x. cbn [d_a far]. unfold is_byte. destruct (Z.ltb_spec x 8323072); [lia|]. destruct (Z.ltb_spec x 8323088); lia. }
  split.
  { intro x. cbn [d_b far]. unfold is_byte. destruct ((0 <=? x) && (x <? 16)) eqn:E; [apply andb_true_iff in E|]; lia. }
  split; [reflexivity|]. split; [discriminate|]. split; [discriminate|]. split; [exact far_made|].
  set (P := [127; 127; 0; 0; 0; 15]). split.
  - apply (pa_esc (mem_of P) 6 0); [reflexivity|reflexivity|reflexivity|].
    apply (pa_lit (mem_of P) 6 2); [reflexivity|discriminate|]. apply (pa_lit (mem_of P) 6 3); [reflexivity|discriminate|].
    apply (pa_lit (mem_of P) 6 4); [reflexivity|discriminate|]. apply (pa_lit (mem_of P) 6 5); [reflexivity|discriminate|].
    constructor. discriminate.
  - intro src. discriminate.
Qed.
Print Assumptions C24_far_offset_refuted.

(** 4: the encoder reads past the end of the target: two calls on the same two images give
    different patches. *)
Definition past_end (t : list Z) : din :=
  {| d_a := mem_of [1; 2; 3; 4; 5; 6; 7; 8; 9; 10; 11; 12; 13; 14; 15; 16]; d_sa := 16;
     d_b := mem_of ([1; 2; 3; 4; 5; 6; 7; 8; 9; 10] ++ t); d_sb := 10; d_sect := 4096 |}.
Theorem C24_past_end_refuted : exists i i', d_a i = d_a i' /\ d_sa i = d_sa i' /\ d_sb i = d_sb i' /\ d_sect i = d_sect i' /\
  (forall x, 0 <= x < d_sb i -> d_b i x = d_b i' x) /\ usable i /\ usable i' /\ make_patch i <> make_patch i'.
Proof.
  exists (past_end [11; 12; 13]), (past_end [0]). do 4 (split; [reflexivity|]). split.
  { intros x Hx. unfold past_end, mem_of. cbn [d_sb d_b past_end] in *. rewrite !app_nth1 by (cbn [length]; lia). reflexivity. }
  split; [|split]; [| |vm_compute; discriminate];
    (constructor; cbn [d_sa d_sb d_sect d_a d_b past_end]; [lia|lia|lia|apply mem_of_bytes; reflexivity|apply mem_of_bytes; reflexivity|lia]).
Qed.
Print Assumptions C24_past_end_refuted.

(** 5: a patch is only meant to be applied in place: expanded from an untouched copy of the
    base image, it does not give the target. *)
Theorem C24_untouched_base_refuted : exists i P ts, usable i /\ make_patch i = Val (Some P) /\
  parsed (mem_of P) (zlen P) 0 ts /\ total ts = d_sb i /\ exists k, (k < length (expand (d_a i) ts))%nat /\
  nth k (expand (d_a i) ts) 0 <> d_b i (Z.of_nat k).
Proof.
  destruct C24_hyps as (U & _ & _ & _ & _ & E). exists demo_din.
  destruct (make_patch_spec demo_din U) as (ts & E2 & C & F & T).
  rewrite E2 in E. injection E as E. eexists _, ts. split; [exact U|]. split; [exact E2|]. split; [apply parsed_encoded; [exact F| |reflexivity]|].
  { intros j Hj. cbn [Z.add]. reflexivity. }
  assert (ts = map Lit [101; 102; 103; 104; 105; 106; 107; 108; 127; 99; 98; 97; 96; 95; 94; 93] ++ [Copy 20 10] ++
     map Lit [1; 2; 3; 4; 5; 6] ++ [Copy 0 8] ++ map Lit [50; 51; 52; 53]) as ->.
  { eapply parsed_det; [apply (parsed_encoded (mem_of (encoded ts)) (zlen (encoded ts)) ts 0 F); [|reflexivity]|].
    - intros j Hj. reflexivity.
    - rewrite E. apply parsed_encoded; [|intros j Hj; reflexivity|reflexivity].
      repeat constructor; cbn [good_tok]; unfold is_byte; lia. }
  split; [reflexivity|]. exists 32%nat. split; [vm_compute; lia|]. vm_compute. discriminate.
Qed.
Print Assumptions C24_untouched_base_refuted.
