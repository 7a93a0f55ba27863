(** More write loops of the flash drivers. *)
From Verif Require Import Base BaseLemmas HalSpec HalModel HalProofs HalWriteProofs.

(** *** Double words *)
Lemma dword_ok : forall lo hi m p v, lo <= p -> p + 8 <= hi -> p mod 8 = 0 ->
  dword_at lo hi m p v = Val (ecc m p v).
Proof.
  intros lo hi m p v H1 H2 H3. unfold dword_at. yes (lo <=? p). yes (p + 8 <=? hi).
  cbn [andb]. apply store_ecc_ok, H3.
Qed.
Lemma dword_outside : forall lo hi m p v, p < lo \/ hi < p + 8 -> dword_at lo hi m p v = UB.
Proof.
  intros lo hi m p v [H|H]; unfold dword_at.
  - no (lo <=? p). reflexivity.
  - no (p + 8 <=? hi). rewrite andb_false_r. reflexivity.
Qed.
Lemma zlen_bytes : forall m p n, zlen (bytes m p n) = Z.of_nat n.
Proof. intros. unfold zlen. rewrite bytes_length. reflexivity. Qed.

Lemma ecc_rmw : forall m p n off v, 0 <= off -> off + zlen v <= Z.of_nat n ->
  blank m p (Z.of_nat n) ->
  same (ecc m p (splice (bytes m p n) off v)) (patch m (p + off) v).
Proof.
  intros m p n off v H1 H2 B. rewrite ecc_blank.
  - apply patch_rmw; assumption.
  - rewrite zlen_splice; rewrite ?zlen_bytes; assumption.
Qed.

Lemma dw_loop_ok : forall lo hi a da d, a mod 8 = 0 -> da mod 8 <> 0 \/ zlen d mod 8 <= 3 ->
  lo <= a -> a + (zlen d + 7) / 8 * 8 <= hi ->
  forall fuel m i, 0 <= i -> i mod 8 = 0 \/ zlen d <= i -> zlen d - i < Z.of_nat fuel ->
  0 < Z.of_nat fuel -> blank m (a + i) ((zlen d + 7) / 8 * 8 - i) ->
  exists m', dw_write_loop lo hi 0 fuel m a da d i = Val (m', 0) /\
             same m' (patch m (a + i) (skipn (Z.to_nat i) d)).
Proof.
  intros lo hi a da d A D LO HI. induction fuel as [|f IH]; intros m i I0 I8 F F0 B; [lia|].
  cbn [dw_write_loop].
  destruct (i <? zlen d) eqn:E; [apply Z.ltb_lt in E|apply Z.ltb_ge in E].
  2: { exists m. split; [reflexivity|]. apply patch_end. lia. }
  assert (I8' : i mod 8 = 0) by lia. clear I8.
  assert (Ai : (a + i) mod 8 = 0) by lia. assert (Q : 4 * (i / 4) = i) by lia.
  assert (Q8 : a / 8 * 8 = a) by lia.
  rewrite Ai, Q, Q8. cbn [Z.eqb andb].
  assert (RN : i + 8 <= (zlen d + 7) / 8 * 8) by lia.
  destruct ((3 <? zlen d - i) && ((da + i) mod 8 =? 0)) eqn:G.
  - apply andb_true_iff in G. destruct G as [G1 G2]. apply Z.ltb_lt in G1. apply Z.eqb_eq in G2.
    assert (G8 : i + 8 <= zlen d) by lia.
    destruct (grab_ok d i 8) as (E1 & L1 & A1); [lia..|]. rewrite E1. cbn [obind].
    rewrite Z.add_0_r. rewrite dword_ok by lia. cbn [obind].
    rewrite ecc_blank by (rewrite L1; eapply blank_sub; [exact B|lia|lia]).
    match goal with |- context [dw_write_loop lo hi 0 f ?m1] =>
      destruct (IH m1 (i + 8)) as (m' & Em & S') end; [lia..| |].
    + apply blank_patch; [eapply blank_sub; [exact B|lia|lia]|lia].
    + exists m'. split; [exact Em|].
      eapply (patch_step m _ m' d a i 8); [lia..|apply same_refl|exact S'].
  - set (n := Z.min (8 - 0) (zlen d - i)).
    assert (N : 0 < n <= 8 /\ i + n <= zlen d /\ ((i + n) mod 8 = 0 \/ zlen d <= i + n)) by lia.
    clearbody n. destruct N as (N0 & N1 & N2).
    destruct (grab_ok d i n) as (E1 & L1 & A1); [lia..|]. rewrite E1. cbn [obind].
    rewrite dword_ok by lia. cbn [obind].
    assert (P : same (ecc m (a + i) (splice (bytes m (a + i) 8) 0 (sub d (Z.to_nat i) (Z.to_nat n))))
                     (patch m (a + i) (sub d (Z.to_nat i) (Z.to_nat n)))).
    { eapply same_trans; [apply ecc_rmw; [lia|lia|eapply blank_sub; [exact B|lia|lia]]|].
      rewrite Z.add_0_r. apply same_refl. }
    match goal with |- context [dw_write_loop lo hi 0 f ?m1] =>
      destruct (IH m1 (i + n)) as (m' & Em & S') end; [lia..| |].
    + eapply blank_same; [apply same_sym, P|].
      apply blank_patch; [eapply blank_sub; [exact B|lia|lia]|lia].
    + exists m'. split; [exact Em|].
      eapply (patch_step m _ m' d a i n); [lia..|exact P|exact S'].
Qed.

(** A request inside one double word goes through the read-modify-write branch, except when
    it starts at an aligned address with an aligned buffer and has four bytes or more. *)
Lemma dw_single : forall lo hi shift m a da d,
  0 < zlen d -> a mod 8 + zlen d <= 8 ->
  a mod 8 <> 0 \/ da mod 8 <> 0 \/ zlen d <= 3 ->
  lo <= a / 8 * 8 -> a / 8 * 8 + 8 <= hi ->
  dw_write lo hi shift m a da d =
    Val (ecc m (a / 8 * 8) (splice (bytes m (a / 8 * 8) 8) (a mod 8) d), 0).
Proof.
  intros lo hi shift m a da d L0 L8 N LO HI. unfold dw_write.
  destruct d as [|b d]; [change (zlen (@nil Z)) with 0 in L0; lia|].
  set (dd := b :: d) in *. change (length dd) with (S (length d)). cbn [dw_write_loop].
  yes (0 <? zlen dd). cbv iota. rewrite !Z.add_0_r.
  replace ((3 <? zlen dd - 0) && ((a mod 8 =? 0) && (da mod 8 =? 0))) with false.
  2: { symmetry. apply not_true_iff_false. intros G. apply andb_true_iff in G.
       destruct G as [G1 G]. apply andb_true_iff in G. destruct G as [G2 G3].
       apply Z.ltb_lt in G1. apply Z.eqb_eq in G2, G3. lia. }
  replace (Z.min (8 - a mod 8) (zlen dd - 0)) with (zlen dd) by lia.
  destruct (grab_ok dd 0 (zlen dd)) as (E1 & L1 & A1); [lia..|]. rewrite E1. cbn [obind].
  change (4 * (0 / 4)) with 0. rewrite ?Z.add_0_r.
  rewrite dword_ok by lia. cbn [obind].
  replace (sub dd (Z.to_nat 0) (Z.to_nat (zlen dd))) with dd
    by (unfold sub, zlen; rewrite Nat2Z.id; cbn [Z.to_nat skipn]; symmetry; apply firstn_all).
  cbn [Z.add]. no (zlen dd <? zlen dd). reflexivity.
Qed.

Lemma dw_overrun : forall lo hi a da d, a mod 8 = 0 -> da mod 8 = 0 -> 3 < zlen d mod 8 ->
  lo <= a -> a + zlen d <= hi ->
  forall fuel m i, 0 <= i < zlen d -> i mod 8 = 0 -> zlen d - i < Z.of_nat fuel ->
  dw_write_loop lo hi 0 fuel m a da d i = UB.
Proof.
  intros lo hi a da d A D L LO HI. induction fuel as [|f IH]; intros m i I0 I8 F; [lia|].
  cbn [dw_write_loop]. yes (i <? zlen d). cbv iota.
  assert (Q : 4 * (i / 4) = i) by lia. rewrite Q.
  replace ((a + i) mod 8) with 0 by lia. replace ((da + i) mod 8) with 0 by lia.
  yes (3 <? zlen d - i). cbn [Z.eqb andb].
  destruct (Z_lt_le_dec (zlen d) (i + 8)) as [S|G].
  - rewrite grab_bad by lia. reflexivity.
  - destruct (grab_ok d i 8) as (E1 & L1 & A1); [lia..|]. rewrite E1. cbn [obind].
    rewrite dword_ok by lia. cbn [obind]. apply IH; lia.
Qed.

Lemma dw_shifted : forall lo hi shift m a da d,
  a mod 8 = 0 -> da mod 8 = 0 -> 3 < zlen d -> hi < a + shift + 8 ->
  dw_write lo hi shift m a da d = UB.
Proof.
  intros lo hi shift m a da d A D L H. unfold dw_write.
  destruct d as [|b d]; [change (zlen (@nil Z)) with 0 in L; lia|].
  set (dd := b :: d) in *. change (length dd) with (S (length d)). cbn [dw_write_loop].
  yes (0 <? zlen dd). cbv iota. rewrite !Z.add_0_r, A, D. yes (3 <? zlen dd - 0).
  cbn [Z.eqb andb]. change (4 * (0 / 4)) with 0. rewrite ?Z.add_0_r.
  destruct (Z_lt_le_dec (zlen dd) 8) as [S|G].
  - rewrite grab_bad by lia. reflexivity.
  - destruct (grab_ok dd 0 8) as (E1 & L1 & A1); [lia..|]. rewrite E1. cbn [obind].
    rewrite dword_outside by lia. reflexivity.
Qed.

Lemma dw_unshifted : forall lo hi shift m a da d,
  0 < zlen d -> a / 8 * 8 < lo ->
  a mod 8 <> 0 \/ da mod 8 <> 0 \/ zlen d <= 3 ->
  dw_write lo hi shift m a da d = UB.
Proof.
  intros lo hi shift m a da d L H N. unfold dw_write.
  destruct d as [|b d]; [change (zlen (@nil Z)) with 0 in L; lia|].
  set (dd := b :: d) in *. change (length dd) with (S (length d)). cbn [dw_write_loop].
  yes (0 <? zlen dd). cbv iota. rewrite !Z.add_0_r.
  replace ((3 <? zlen dd - 0) && ((a mod 8 =? 0) && (da mod 8 =? 0))) with false.
  2: { symmetry. apply not_true_iff_false. intros G. apply andb_true_iff in G.
       destruct G as [G1 G]. apply andb_true_iff in G. destruct G as [G2 G3].
       apply Z.ltb_lt in G1. apply Z.eqb_eq in G2, G3. lia. }
  set (n := Z.min (8 - a mod 8) (zlen dd - 0)).
  assert (NB : 0 <= n <= zlen dd) by lia. clearbody n.
  destruct (grab_ok dd 0 n) as (E1 & L1 & A1); [lia..|]. rewrite E1. cbn [obind].
  change (4 * (0 / 4)) with 0. rewrite ?Z.add_0_r.
  rewrite dword_outside by lia. reflexivity.
Qed.

(** *** Kinetis, MCXA *)
Lemma all_ones_nor : forall m p v, all_ones v = true ->
  (forall x, p <= x < p + zlen v -> 0 <= m x < 256) -> same (nor m p v) m.
Proof.
  intros m p v O B x. destruct (in_dec p x (zlen v)) as [I|N].
  - rewrite nor_in by assumption.
    replace (nth (Z.to_nat (x - p)) v 0) with 255.
    + change 255 with (Z.ones 8). rewrite Z.land_ones by lia. apply Z.mod_small.
      change (2 ^ 8) with 256. apply B, I.
    + unfold all_ones in O. rewrite forallb_forall in O.
      apply Z.eqb_eq. apply O. apply nth_In. unfold zlen in I. lia.
  - rewrite nor_out by assumption. reflexivity.
Qed.

(** The cells hold bytes. *)
Definition byte_cells (m : mem) (p n : Z) : Prop := forall x, p <= x < p + n -> 0 <= m x < 256.

Lemma kin_rmw : forall u m p off v, 0 < u -> p mod u = 0 -> byte_cells m p u ->
  0 <= off -> off + zlen v <= u ->
  exists m1, (if all_ones (splice (bytes m p (Z.to_nat u)) off v) then Val m
              else store_nor u m p (splice (bytes m p (Z.to_nat u)) off v)) = Val m1 /\
             same m1 (nor m (p + off) v).
Proof.
  intros u m p off v U P B O L.
  assert (R : same (nor m p (splice (bytes m p (Z.to_nat u)) off v)) (nor m (p + off) v))
    by (apply nor_rmw; lia).
  destruct (all_ones _) eqn:A.
  - exists m. split; [reflexivity|]. eapply same_trans; [|exact R].
    apply same_sym, all_ones_nor; [exact A|]. intros x Hx. apply B.
    rewrite zlen_splice in Hx; rewrite ?zlen_bytes in *; lia.
  - rewrite store_nor_ok by exact P. eexists. split; [reflexivity|exact R].
Qed.

Lemma whole_sub : forall (d : list Z), sub d (Z.to_nat 0) (Z.to_nat (zlen d)) = d.
Proof.
  intros d. unfold sub, zlen. rewrite Nat2Z.id. cbn [Z.to_nat skipn]. apply firstn_all.
Qed.

Lemma round_down : forall a u, 0 < u -> (a - a mod u) mod u = 0.
Proof.
  intros a u U. rewrite Zminus_mod, Z.mod_mod, Z.sub_diag by lia. apply Z.mod_0_l. lia.
Qed.

(** Up to the end of one unit, starting with [w] bytes taken already. *)
Lemma kin_single : forall u f m a d w len, 0 < u -> byte_cells m (a - a mod u) u -> 0 <= w ->
  0 < len -> w + Z.min (u - a mod u) len <= zlen d -> (len < u \/ a mod u <> 0) -> len <= u ->
  exists m', kin_write_loop u (S (S f)) m a d w len = Val (m', 0) /\
             same m' (nor m a (sub d (Z.to_nat w) (Z.to_nat (Z.min (u - a mod u) len)))).
Proof.
  intros u f m a d w len U B W L1 L2 N L3. cbn [kin_write_loop].
  yes (0 <? len). cbv iota.
  assert (OB : 0 <= a mod u < u) by (apply Z.mod_pos_bound; lia).
  replace ((len <? u) || negb (a mod u =? 0)) with true.
  2: { symmetry. apply orb_true_iff. destruct N as [N|N].
       - left. apply Z.ltb_lt. exact N.
       - right. apply negb_true_iff, Z.eqb_neq. exact N. }
  pose proof (round_down a u U) as RD.
  set (o := a mod u) in *. clearbody o.
  set (n := Z.min (u - o) len) in *.
  set (j := Z.min u (len + o)).
  assert (NB : 0 < n /\ o + n <= u /\ w + n <= zlen d /\ len - j <= 0 /\ j - o = n) by lia.
  clearbody n j. destruct NB as (N0 & N1 & N2 & N3 & N4). rewrite N4.
  destruct (grab_ok d w n) as (E1 & Ln & A1); [lia..|]. rewrite E1. cbn [obind].
  destruct (kin_rmw u m (a - o) o (sub d (Z.to_nat w) (Z.to_nat n)) U)
    as (m1 & Em & S1); [exact RD|exact B|lia|lia|].
  rewrite Em. cbn [obind].
  no (0 <? len - j). cbv iota.
  exists m1. split; [reflexivity|].
  replace (a - o + o) with a in S1 by lia. exact S1.
Qed.

Lemma multiple_ge : forall u n, 0 < u -> 0 < n -> n mod u = 0 -> u <= n.
Proof.
  intros u n U N E. destruct (Z_lt_le_dec n u) as [L|L]; [|exact L].
  rewrite Z.mod_small in E by lia. lia.
Qed.

Lemma kin_ok : forall u m a d, 0 < u -> byte_cells m (a - a mod u) u -> clears m a d ->
  a mod u + zlen d <= u \/ (a mod u = 0 /\ zlen d mod u = 0) ->
  written (kin_write u m a d) m a d.
Proof.
  intros u m a d U B C H. unfold kin_write.
  assert (OB : 0 <= a mod u < u) by (apply Z.mod_pos_bound; lia).
  destruct d as [|b d].
  { exists m. split; [reflexivity|]. apply same_sym, patch_nil. }
  set (dd := b :: d) in *. change (length dd) with (S (length d)).
  assert (L0 : 0 < zlen dd) by (unfold dd, zlen; cbn [length]; lia).
  destruct (Z.eq_dec (zlen dd mod u) 0) as [E|E];
    [destruct (Z.eq_dec (a mod u) 0) as [A|A]|].
  - cbn [kin_write_loop]. yes (0 <? zlen dd). cbv iota.
    pose proof (multiple_ge u (zlen dd) U L0 E).
    no (zlen dd <? u). rewrite A. cbn [Z.eqb negb orb].
    replace (zlen dd / u * u) with (zlen dd) by (rewrite Z.mod_eq in E by lia; lia).
    destruct (grab_ok dd 0 (zlen dd)) as (E1 & Ln & A1); [lia..|]. rewrite E1. cbn [obind].
    rewrite store_nor_ok by exact A. cbn [obind]. rewrite Z.sub_diag. cbn [Z.ltb Z.compare].
    eexists. split; [reflexivity|]. rewrite whole_sub. apply nor_clears, C.
  - destruct (kin_single u (length d) m a dd 0 (zlen dd)) as (m' & Em & S'); try lia; auto.
    exists m'. split; [exact Em|].
    replace (Z.min (u - a mod u) (zlen dd)) with (zlen dd) in S' by lia.
    rewrite whole_sub in S'. eapply same_trans; [exact S'|]. apply nor_clears, C.
  - assert (zlen dd < u).
    { destruct (Z.eq_dec (zlen dd) u) as [Q|Q]; [|lia].
      exfalso. apply E. rewrite Q. apply Z.mod_same. lia. }
    destruct (kin_single u (length d) m a dd 0 (zlen dd)) as (m' & Em & S'); try lia; auto.
    exists m'. split; [exact Em|].
    replace (Z.min (u - a mod u) (zlen dd)) with (zlen dd) in S' by lia.
    rewrite whole_sub in S'. eapply same_trans; [exact S'|]. apply nor_clears, C.
Qed.

Lemma sub_0 : forall (d : list Z) n, sub d (Z.to_nat 0) n = firstn n d.
Proof. reflexivity. Qed.

(** A whole number of units and some more: the rest is taken from the start of the buffer. *)
Lemma kin_tail : forall u m a d, 0 < u -> a mod u = 0 -> u < zlen d ->
  zlen d mod u <> 0 -> byte_cells m (a + zlen d / u * u) u ->
  exists m', kin_write u m a d = Val (m', 0) /\
    same m' (nor m a (firstn (Z.to_nat (zlen d / u * u)) d ++ firstn (Z.to_nat (zlen d mod u)) d)).
Proof.
  intros u m a d U A L N B. unfold kin_write.
  assert (OB : 0 <= zlen d mod u < u) by (apply Z.mod_pos_bound; lia).
  assert (NU : (zlen d / u * u) mod u = 0) by (apply Z.mod_mul; lia).
  assert (NR : zlen d = zlen d / u * u + zlen d mod u) by (rewrite Z.mod_eq by lia; lia).
  remember (zlen d / u * u) as n eqn:EN. symmetry in EN.
  remember (zlen d mod u) as r eqn:ER. clear ER.
  destruct d as [|b [|b' d]]; [change (zlen (@nil Z)) with 0 in L; lia|
    change (zlen [b]) with 1 in L; lia|].
  set (dd := b :: b' :: d) in *. change (length dd) with (S (S (length d))).
  remember (S (S (length d))) as g eqn:G. cbn [kin_write_loop]. yes (0 <? zlen dd). cbv iota.
  no (zlen dd <? u). rewrite A. cbn [Z.eqb negb orb]. rewrite EN.
  assert (0 < n) by lia.
  destruct (grab_ok dd 0 n) as (E1 & Ln & A1); [lia..|]. rewrite E1. cbn [obind].
  rewrite store_nor_ok by exact A. cbn [obind]. rewrite sub_0 in *.
  set (m1 := nor m a (firstn (Z.to_nat n) dd)).
  assert (A' : (a + n) mod u = 0).
  { rewrite Z.add_mod, A, NU by lia. apply Z.mod_0_l. lia. }
  assert (B1 : byte_cells m1 (a + n - (a + n) mod u) u).
  { rewrite A', Z.sub_0_r. intros x Hx. unfold m1. rewrite nor_out by lia. apply B, Hx. }
  subst g.
  destruct (kin_single u (length d) m1 (a + n) dd 0 (zlen dd - n)) as (m' & Em & S');
    try lia; auto.
  exists m'. split; [exact Em|].
  rewrite A' in S'. replace (Z.min (u - 0) (zlen dd - n)) with r in S' by lia.
  rewrite sub_0 in S'.
  eapply same_trans; [exact S'|].
  eapply same_trans; [|apply nor_app]. rewrite Ln. apply same_refl.
Qed.

(** From the middle of a unit into the next one: only the first unit is written. *)
Lemma kin_cut : forall u m a d, 0 < u -> byte_cells m (a - a mod u) u ->
  a mod u <> 0 -> u < a mod u + zlen d -> zlen d <= u ->
  exists m', kin_write u m a d = Val (m', 0) /\
    same m' (nor m a (firstn (Z.to_nat (u - a mod u)) d)).
Proof.
  intros u m a d U B A L1 L2. unfold kin_write.
  assert (OB : 0 <= a mod u < u) by (apply Z.mod_pos_bound; lia).
  destruct d as [|b d]; [change (zlen (@nil Z)) with 0 in L1; lia|].
  set (dd := b :: d) in *. change (length dd) with (S (length d)).
  assert (L0 : 0 < zlen dd) by (unfold dd, zlen; cbn [length]; lia).
  destruct (kin_single u (length d) m a dd 0 (zlen dd)) as (m' & Em & S'); try lia; auto.
  exists m'. split; [exact Em|].
  replace (Z.min (u - a mod u) (zlen dd)) with (u - a mod u) in S' by lia. exact S'.
Qed.

(** *** MCXW *)
Lemma mcxw_single : forall f m a da d w len, 0 <= w ->
  0 < len -> w + Z.min (16 - a mod 16) len <= zlen d -> (len < 16 \/ a mod 16 <> 0) -> len <= 16 ->
  exists m', mcxw_write_loop (S (S f)) m a da d w len = Val (m', 0) /\
             same m' (nor m a (sub d (Z.to_nat w) (Z.to_nat (Z.min (16 - a mod 16) len)))).
Proof.
  intros f m a da d w len W L1 L2 N L3. cbn [mcxw_write_loop].
  yes (0 <? len). cbv iota.
  assert (OB : 0 <= a mod 16 < 16) by (apply Z.mod_pos_bound; lia).
  replace ((len <? 16) || negb (a mod 16 =? 0)) with true.
  2: { symmetry. apply orb_true_iff. destruct N as [N|N].
       - left. apply Z.ltb_lt. exact N.
       - right. apply negb_true_iff, Z.eqb_neq. exact N. }
  pose proof (round_down a 16 ltac:(lia)) as RD.
  set (o := a mod 16) in *. clearbody o.
  set (n := Z.min (16 - o) len) in *.
  set (j := Z.min 16 (len + o)).
  assert (NB : 0 < n /\ o + n <= 16 /\ w + n <= zlen d /\ len - j <= 0 /\ j - o = n) by lia.
  clearbody n j. destruct NB as (N0 & N1 & N2 & N3 & N4). rewrite N4.
  destruct (grab_ok d w n) as (E1 & Ln & A1); [lia..|]. rewrite E1. cbn [obind].
  rewrite store_nor_ok by exact RD. cbn [obind].
  no (0 <? len - j). cbv iota.
  eexists. split; [reflexivity|].
  eapply same_trans; [apply (nor_rmw m (a - o) 16 o); lia|].
  replace (a - o + o) with a by lia. apply same_refl.
Qed.

Lemma mcxw_ok : forall m a da d, clears m a d ->
  a mod 16 + zlen d <= 16 \/ (a mod 16 = 0 /\ zlen d mod 16 = 0 /\ da mod 16 = 0) ->
  written (mcxw_write m a da d) m a d.
Proof.
  intros m a da d C H. unfold mcxw_write.
  assert (OB : 0 <= a mod 16 < 16) by (apply Z.mod_pos_bound; lia).
  destruct d as [|b d].
  { exists m. split; [reflexivity|]. apply same_sym, patch_nil. }
  set (dd := b :: d) in *. change (length dd) with (S (length d)).
  assert (L0 : 0 < zlen dd) by (unfold dd, zlen; cbn [length]; lia).
  destruct (Z_lt_le_dec (zlen dd) 16) as [L|L];
    [|destruct (Z.eq_dec (a mod 16) 0) as [A|A]; [|lia]].
  - destruct (mcxw_single (length d) m a da dd 0 (zlen dd)) as (m' & Em & S'); try lia; auto.
    exists m'. split; [exact Em|].
    replace (Z.min (16 - a mod 16) (zlen dd)) with (zlen dd) in S' by lia.
    rewrite whole_sub in S'. eapply same_trans; [exact S'|]. apply nor_clears, C.
  - cbn [mcxw_write_loop]. yes (0 <? zlen dd). cbv iota. no (zlen dd <? 16). rewrite A.
    cbn [Z.eqb negb orb].
    replace (zlen dd / 16 * 16) with (zlen dd) by lia. rewrite Z.add_0_r.
    assert (G : negb (da mod 16 =? 0) && (16 <? zlen dd) = false).
    { destruct H as [H|(_ & _ & D)]; [no (16 <? zlen dd); apply andb_false_r|].
      rewrite D. reflexivity. }
    rewrite G. rewrite Z.mul_0_r.
    destruct (grab_ok dd 0 (zlen dd)) as (E1 & Ln & A1); [lia..|]. rewrite E1. cbn [obind].
    rewrite store_nor_ok by exact A. cbn [obind]. rewrite Z.sub_diag. cbn [Z.ltb Z.compare].
    eexists. split; [reflexivity|]. rewrite whole_sub. apply nor_clears, C.
Qed.

(** An aligned address, 32 bytes or more and an unaligned buffer: the copy on the stack
    overflows. *)
Lemma mcxw_smash : forall m a da d, a mod 16 = 0 -> da mod 16 <> 0 -> 32 <= zlen d ->
  mcxw_write m a da d = UB.
Proof.
  intros m a da d A D L. unfold mcxw_write.
  cbn [mcxw_write_loop]. yes (0 <? zlen d). cbv iota. no (zlen d <? 16). rewrite A.
  cbn [Z.eqb negb orb]. rewrite Z.add_0_r. no (da mod 16 =? 0). yes (16 <? zlen d / 16 * 16).
  reflexivity.
Qed.

(** *** HiFive1 *)
Lemma hifive_full : forall ps d, 0 < ps -> ps <= zlen d ->
  forall fuel m page j, 0 <= j -> (zlen d - j) mod ps = 0 \/ zlen d <= j ->
  zlen d - j < Z.of_nat fuel -> 0 < Z.of_nat fuel ->
  exists m', hifive_write_loop ps fuel m page 0 d j = Val (m', 0) /\
             same m' (nor m (page * ps) (skipn (Z.to_nat j) d)).
Proof.
  intros ps d P G. induction fuel as [|f IH]; intros m page j J M F F0; [lia|].
  cbn [hifive_write_loop].
  destruct (j <? zlen d) eqn:E; [apply Z.ltb_lt in E|apply Z.ltb_ge in E].
  2: { exists m. split; [reflexivity|]. rewrite skipn_past by lia. apply same_sym, nor_nil. }
  cbn [Z.ltb Z.compare orb]. no (zlen d <? ps).
  assert (M' : (zlen d - j) mod ps = 0) by lia.
  pose proof (multiple_ge ps (zlen d - j) P ltac:(lia) M').
  destruct (grab_ok d j ps) as (E1 & Ln & A1); [lia..|]. rewrite E1. cbn [obind].
  match goal with |- context [hifive_write_loop ps f ?m1] =>
    destruct (IH m1 (page + 1) (j + ps)) as (m' & Em & S') end; [lia| |lia|lia|].
  { left. replace (zlen d - (j + ps)) with (zlen d - j - 1 * ps) by lia.
    rewrite Zminus_mod, Z.mod_mul, Z.sub_0_r, Z.mod_mod by lia. exact M'. }
  exists m'. split; [exact Em|].
  eapply same_trans; [exact S'|]. rewrite <- A1.
  eapply same_trans; [|apply nor_app]. rewrite Ln.
  replace (page * ps + ps) with ((page + 1) * ps) by lia. apply same_refl.
Qed.

Lemma hifive_ok : forall ps m a d, 0 < ps -> clears m a d ->
  a mod ps + zlen d <= ps \/ (a mod ps + zlen d) mod ps = 0 ->
  written (hifive_write ps m a d) m a d.
Proof.
  intros ps m a d P C H. unfold hifive_write.
  assert (OB : 0 <= a mod ps < ps) by (apply Z.mod_pos_bound; lia).
  assert (DM : a = a / ps * ps + a mod ps) by (rewrite Z.mod_eq by lia; lia).
  destruct d as [|b d].
  { exists m. split; [reflexivity|]. apply same_sym, patch_nil. }
  set (dd := b :: d) in *. change (length dd) with (S (length d)).
  assert (L0 : 0 < zlen dd) by (unfold dd, zlen; cbn [length]; lia).
  remember (a / ps) as q eqn:Q. clear Q. remember (a mod ps) as o eqn:O. clear O.
  destruct ((0 <? o) || (zlen dd <? ps)) eqn:E.
  - cbn [hifive_write_loop]. yes (0 <? zlen dd). cbv iota. rewrite E.
    set (rel := Z.min (ps - o) (zlen dd)).
    assert (RB : 0 < rel <= zlen dd /\ o + rel <= ps /\ (rel = ps - o \/ rel = zlen dd)) by lia.
    clearbody rel. destruct RB as (R0 & R1 & R2).
    destruct (grab_ok dd 0 rel) as (E1 & Ln & A1); [lia..|]. rewrite E1. cbn [obind].
    rewrite sub_0 in *. rewrite Z.add_0_l in *.
    set (m1 := nor m (q * ps) (splice (bytes m (q * ps) (Z.to_nat ps)) o (firstn (Z.to_nat rel) dd))).
    assert (S1 : same m1 (nor m a (firstn (Z.to_nat rel) dd))).
    { unfold m1. eapply same_trans; [apply nor_rmw; lia|]. rewrite DM. apply same_refl. }
    destruct (Z_lt_le_dec rel (zlen dd)) as [LT|GE].
    + assert (RO : rel = ps - o) by lia.
      assert (M : (zlen dd - rel) mod ps = 0).
      { destruct H as [H|H]; [lia|]. subst rel.
        replace (zlen dd - (ps - o)) with (o + zlen dd - 1 * ps) by lia.
        rewrite Zminus_mod, Z.mod_mul, Z.sub_0_r, Z.mod_mod by lia. exact H. }
      pose proof (multiple_ge ps (zlen dd - rel) P ltac:(lia) M).
      destruct (hifive_full ps dd P ltac:(lia) (S (length d)) m1 (q + 1) rel)
        as (m' & Em & S'); [lia|left; exact M|unfold dd, zlen in *; cbn [length] in *; lia|lia|].
      exists m'. split; [exact Em|].
      eapply same_trans; [exact S'|].
      replace ((q + 1) * ps) with (a + rel) by lia.
      eapply same_trans; [apply same_nor, S1|].
      eapply same_trans; [|apply nor_clears, C].
      cbn [Z.to_nat skipn] in A1. rewrite <- A1 at 3.
      eapply same_trans; [|apply nor_app]. rewrite Ln. apply same_refl.
    + cbn [hifive_write_loop]. no (rel <? zlen dd). exists m1. split; [reflexivity|].
      eapply same_trans; [exact S1|]. replace rel with (zlen dd) by lia.
      unfold zlen. rewrite Nat2Z.id, firstn_all. apply nor_clears, C.
  - apply orb_false_iff in E. destruct E as [E1 E2]. apply Z.ltb_ge in E1, E2.
    assert (O0 : o = 0) by lia. rewrite O0 in *. 
    destruct (hifive_full ps dd P E2 (S (S (length d))) m q 0) as (m' & Em & S').
    + lia.
    + left. rewrite Z.sub_0_r. destruct H as [H|H]; [|rewrite Z.add_0_l in H; exact H].
      replace (zlen dd) with ps by lia. apply Z.mod_same. lia.
    + unfold dd, zlen. cbn [length]. lia.
    + lia.
    + exists m'. split; [exact Em|]. replace (q * ps) with a in S' by lia.
      eapply same_trans; [exact S'|]. cbn [Z.to_nat skipn]. apply nor_clears, C.
Qed.

Lemma hifive_rest : forall ps d, 0 < ps ->
  forall fuel m page j, 0 < j < zlen d -> zlen d < ps \/ (zlen d - j) mod ps <> 0 ->
  zlen d - j < Z.of_nat fuel -> hifive_write_loop ps fuel m page 0 d j = UB.
Proof.
  intros ps d P. induction fuel as [|f IH]; intros m page j J M F; [lia|].
  cbn [hifive_write_loop]. yes (j <? zlen d). cbv iota. cbn [Z.ltb Z.compare orb].
  destruct (zlen d <? ps) eqn:E; [apply Z.ltb_lt in E|apply Z.ltb_ge in E].
  { rewrite Z.sub_0_r, Z.min_r, grab_bad by lia. reflexivity. }
  destruct (Z_lt_le_dec (zlen d) (j + ps)) as [B|B].
  - rewrite grab_bad by lia. reflexivity.
  - destruct (grab_ok d j ps) as (E1 & Ln & A1); [lia..|]. rewrite E1. cbn [obind].
    assert (M' : (zlen d - (j + ps)) mod ps <> 0).
    { replace (zlen d - (j + ps)) with (zlen d - j - 1 * ps) by lia.
      rewrite Zminus_mod, Z.mod_mul, Z.sub_0_r, Z.mod_mod by lia. lia. }
    apply IH; [|right; exact M'|lia]. split; [lia|].
    destruct (Z.eq_dec (zlen d - (j + ps)) 0) as [Q|Q]; [|lia].
    exfalso. apply M'. rewrite Q. apply Z.mod_0_l. lia.
Qed.

Lemma hifive_bad : forall ps m a d, 0 < ps ->
  ps < a mod ps + zlen d -> (a mod ps + zlen d) mod ps <> 0 ->
  hifive_write ps m a d = UB.
Proof.
  intros ps m a d P L M. unfold hifive_write.
  assert (OB : 0 <= a mod ps < ps) by (apply Z.mod_pos_bound; lia).
  destruct d as [|b d]; [change (zlen (@nil Z)) with 0 in L; lia|].
  set (dd := b :: d) in *. change (length dd) with (S (length d)).
  assert (LD : zlen dd = Z.of_nat (length d) + 1) by (unfold dd, zlen; cbn [length]; lia).
  remember (a / ps) as q eqn:Q. clear Q. remember (a mod ps) as o eqn:O. clear O.
  remember (S (length d)) as f eqn:F. cbn [hifive_write_loop]. yes (0 <? zlen dd). cbv iota.
  destruct ((0 <? o) || (zlen dd <? ps)) eqn:E.
  - rewrite Z.min_l by lia.
    destruct (grab_ok dd 0 (ps - o)) as (E1 & Ln & A1); [lia..|]. rewrite E1. cbn [obind].
    rewrite Z.add_0_l. apply hifive_rest; [lia|lia| |lia].
    right. replace (zlen dd - (ps - o)) with (o + zlen dd - 1 * ps) by lia.
    rewrite Zminus_mod, Z.mod_mul, Z.sub_0_r, Z.mod_mod by lia. exact M.
  - apply orb_false_iff in E. destruct E as [E1 E2]. apply Z.ltb_ge in E1, E2.
    assert (O0 : o = 0) by lia. rewrite O0 in *.
    destruct (grab_ok dd 0 ps) as (G1 & Ln & A1); [lia..|]. rewrite G1. cbn [obind].
    rewrite Z.add_0_l in *. apply hifive_rest; [lia|lia| |lia].
    right. replace (zlen dd - ps) with (zlen dd - 1 * ps) by lia.
    rewrite Zminus_mod, Z.mod_mul, Z.sub_0_r, Z.mod_mod by lia. exact M.
Qed.

(** *** PSoC 6 *)
Lemma nor_nor : forall m p v, same (nor (nor m p v) p v) (nor m p v).
Proof.
  intros m p v x. destruct (in_dec p x (zlen v)) as [I|N].
  - rewrite !nor_in by assumption. rewrite <- Z.land_assoc, Z.land_diag. reflexivity.
  - rewrite !nor_out by assumption. reflexivity.
Qed.

Lemma psoc_loop_ok : forall row d a, 0 < row -> row <= zlen d -> a mod row = 0 ->
  forall fuel m len, 0 <= len -> len mod row = 0 -> len < Z.of_nat fuel ->
  exists m', psoc_write_loop row fuel m a d len = Val (m', 0) /\
             same m' (if len =? 0 then m else nor m a (firstn (Z.to_nat row) d)).
Proof.
  intros row d a R L A. induction fuel as [|f IH]; intros m len L0 M F; [lia|].
  cbn [psoc_write_loop].
  destruct (len =? 0) eqn:E; [exists m; split; [reflexivity|apply same_refl]|].
  apply Z.eqb_neq in E. pose proof (multiple_ge row len R ltac:(lia) M).
  destruct (grab_ok d 0 row) as (E1 & Ln & A1); [lia..|]. rewrite E1. cbn [obind].
  rewrite store_nor_ok by exact A. cbn [obind]. rewrite sub_0 in *.
  assert (M' : (len - row) mod row = 0).
  { rewrite Zminus_mod, M, Z.mod_same by lia. apply Z.mod_0_l. lia. }
  assert (G : (0 <? len - row) && (len - row <? row) = false).
  { destruct (0 <? len - row) eqn:E0; [|reflexivity]. apply Z.ltb_lt in E0.
    pose proof (multiple_ge row (len - row) R E0 M'). no (len - row <? row). reflexivity. }
  rewrite G.
  destruct (IH (nor m a (firstn (Z.to_nat row) d)) (len - row)) as (m' & Em & S');
    [lia|exact M'|lia|].
  exists m'. split; [exact Em|]. eapply same_trans; [exact S'|].
  destruct (len - row =? 0); [apply same_refl|apply nor_nor].
Qed.

Lemma psoc_rows : forall row m a d, 0 < row -> row <= zlen d -> zlen d mod row = 0 -> a mod row = 0 ->
  exists m', psoc_write row false m a d = Val (m', 0) /\
             same m' (nor m a (firstn (Z.to_nat row) d)).
Proof.
  intros row m a d R L M A. unfold psoc_write. no (zlen d <? row). cbn [andb].
  destruct (psoc_loop_ok row d a R L A (S (length d)) m (zlen d)) as (m' & Em & S');
    [lia|exact M|unfold zlen; lia|].
  exists m'. split; [exact Em|]. rewrite (proj2 (Z.eqb_neq (zlen d) 0)) in S' by lia. exact S'.
Qed.

(** *** SAM E51 *)
Lemma same51_loop_ok : forall a da d, a mod 4 = 0 ->
  forall fuel m i, 0 <= i -> i mod 4 = 0 \/ zlen d <= i -> zlen d - i < Z.of_nat fuel ->
  0 < Z.of_nat fuel ->
  exists m', same51_write_loop fuel m a da d i = Val (m', 0) /\
             same m' (nor m (a + i) (skipn (Z.to_nat i) d)).
Proof.
  intros a da d A. induction fuel as [|f IH]; intros m i I0 I4 F F0; [lia|].
  cbn [same51_write_loop].
  destruct (i <? zlen d) eqn:E; [apply Z.ltb_lt in E|apply Z.ltb_ge in E].
  2: { exists m. split; [reflexivity|]. apply nor_end. lia. }
  assert (I4' : i mod 4 = 0) by lia. clear I4.
  assert (Q : 4 * (i / 4) = i) by lia. assert (Q2 : a - 0 + 4 * ((i + 0) / 4) = a + i) by lia.
  rewrite A, Q, Q2.
  destruct ((3 <? zlen d - i) && (((a + i) mod 4 =? 0) && ((da + i) mod 4 =? 0))) eqn:G.
  - apply andb_true_iff in G. destruct G as [G1 G2]. apply Z.ltb_lt in G1.
    destruct (grab_ok d i 4) as (E1 & L1 & A1); [lia..|]. rewrite E1. cbn [obind].
    rewrite store_nor_ok by lia. cbn [obind].
    match goal with |- context [same51_write_loop f ?m1] =>
      destruct (IH m1 (i + 4)) as (m' & Em & S') end; [lia..|].
    exists m'. split; [exact Em|].
    eapply (nor_step m _ m' d a i 4); [lia..|apply same_refl|exact S'].
  - set (n := Z.min (4 - 0) (zlen d - i)).
    assert (N : 0 < n <= 4 /\ i + n <= zlen d /\ ((i + n) mod 4 = 0 \/ zlen d <= i + n)) by lia.
    clearbody n. destruct N as (N0 & N1 & N2).
    destruct (grab_ok d i n) as (E1 & L1 & A1); [lia..|]. rewrite E1. cbn [obind].
    rewrite store_nor_ok by lia. cbn [obind].
    match goal with |- context [same51_write_loop f ?m1] =>
      destruct (IH m1 (i + n)) as (m' & Em & S') end; [lia..|].
    exists m'. split; [exact Em|].
    eapply (nor_step m _ m' d a i n); [lia..| |exact S'].
    eapply same_trans; [apply (nor_rmw m (a + i) 4 0); lia|].
    rewrite Z.add_0_r. apply same_refl.
Qed.

Lemma same51_single : forall m a da d, a mod 4 + zlen d <= 4 -> clears m a d ->
  written (same51_write m a da d) m a d.
Proof.
  intros m a da d L C.
  destruct (Z.eq_dec (a mod 4) 0) as [A|A].
  { destruct (same51_loop_ok a da d A (S (length d)) m 0) as (m' & Em & S');
      [lia|left; reflexivity|unfold zlen; lia|lia|].
    exists m'. split; [exact Em|]. rewrite Z.add_0_r in S'.
    eapply same_trans; [exact S'|]. apply nor_clears, C. }
  unfold same51_write.
  destruct d as [|b d].
  { exists m. split; [reflexivity|]. apply same_sym, patch_nil. }
  set (dd := b :: d) in *. change (length dd) with (S (length d)).
  assert (LD : zlen dd = Z.of_nat (length d) + 1) by (unfold dd, zlen; cbn [length]; lia).
  cbn [same51_write_loop]. yes (0 <? zlen dd). cbv iota. rewrite !Z.add_0_r.
  no (a mod 4 =? 0). cbn [andb]. rewrite andb_false_r.
  replace (Z.min (4 - a mod 4) (zlen dd - 0)) with (zlen dd) by lia.
  destruct (grab_ok dd 0 (zlen dd)) as (E1 & Ln & A1); [lia..|]. rewrite E1. cbn [obind].
  rewrite !Z.add_0_l. replace (a - a mod 4 + 4 * (a mod 4 / 4)) with (a - a mod 4) by lia.
  rewrite store_nor_ok by lia. cbn [obind]. no (zlen dd <? zlen dd). cbv iota.
  eexists. split; [reflexivity|]. rewrite whole_sub.
  eapply same_trans; [apply nor_rmw; lia|].
  replace (a - a mod 4 + a mod 4) with a by lia. apply nor_clears, C.
Qed.

(** *** Hercules *)
Lemma ti_loop_ok : forall bs a d, 0 < bs -> a mod bs = 0 ->
  forall fuel m i, 0 <= i -> i mod bs = 0 \/ zlen d <= i -> zlen d - i < Z.of_nat fuel ->
  0 < Z.of_nat fuel ->
  exists m', ti_write_loop bs fuel m a d i = Val (m', 0) /\
             same m' (nor m (a + i) (skipn (Z.to_nat i) d)).
Proof.
  intros bs a d P A. induction fuel as [|f IH]; intros m i I0 I4 F F0; [lia|].
  cbn [ti_write_loop].
  destruct (i <? zlen d) eqn:E; [apply Z.ltb_lt in E|apply Z.ltb_ge in E].
  2: { exists m. split; [reflexivity|]. apply nor_end. lia. }
  assert (I4' : i mod bs = 0) by lia. clear I4.
  assert (AI : (a + i) mod bs = 0) by (rewrite Z.add_mod, A, I4' by lia; apply Z.mod_0_l; lia).
  rewrite AI.
  set (n := Z.min bs (zlen d - i)).
  assert (N : 0 < n <= bs /\ i + n <= zlen d /\ (n = bs \/ zlen d <= i + n)) by lia.
  clearbody n. destruct N as (N0 & N1 & N2).
  destruct (grab_ok d i n) as (E1 & L1 & A1); [lia..|]. rewrite E1. cbn [obind].
  yes (0 + n <=? bs). cbv iota.
  match goal with |- context [ti_write_loop bs f ?m1] =>
    destruct (IH m1 (i + n)) as (m' & Em & S') end; [lia| |lia|lia|].
  { destruct N2 as [ -> |N2]; [left|right; lia].
    rewrite Z.add_mod, I4', Z.mod_same by lia. apply Z.mod_0_l. lia. }
  exists m'. split; [exact Em|].
  eapply (nor_step m _ m' d a i n); [lia..|apply same_refl|exact S'].
Qed.

Lemma ti_ok : forall bs m a d, 0 < bs -> clears m a d -> a mod bs + zlen d <= bs \/ a mod bs = 0 ->
  written (ti_write bs m a d) m a d.
Proof.
  intros bs m a d P C H. unfold ti_write.
  assert (OB : 0 <= a mod bs < bs) by (apply Z.mod_pos_bound; lia).
  destruct (zlen d <? bs) eqn:E; [apply Z.ltb_lt in E|apply Z.ltb_ge in E].
  - yes (a mod bs + zlen d <=? bs). cbv iota zeta. eexists. split; [reflexivity|].
    eapply same_trans; [apply nor_rmw; lia|].
    replace (a - a mod bs + a mod bs) with a by lia. apply nor_clears, C.
  - assert (A : a mod bs = 0) by lia.
    destruct (ti_loop_ok bs a d P A (S (length d)) m 0) as (m' & Em & S');
      [lia|left; apply Z.mod_0_l; lia|unfold zlen; lia|lia|].
    exists m'. split; [exact Em|]. rewrite Z.add_0_r in S'.
    eapply same_trans; [exact S'|]. apply nor_clears, C.
Qed.

Lemma ti_bad : forall bs m a d, 0 < bs -> a mod bs <> 0 -> bs < a mod bs + zlen d ->
  ti_write bs m a d = UB.
Proof.
  intros bs m a d P A L. unfold ti_write.
  assert (OB : 0 <= a mod bs < bs) by (apply Z.mod_pos_bound; lia).
  destruct (zlen d <? bs) eqn:E; [apply Z.ltb_lt in E|apply Z.ltb_ge in E].
  - no (a mod bs + zlen d <=? bs). reflexivity.
  - cbn [ti_write_loop]. yes (0 <? zlen d). cbv iota. rewrite Z.add_0_r, Z.min_l by lia.
    destruct (grab_ok d 0 bs) as (E1 & L1 & A1); [lia..|]. rewrite E1. cbn [obind].
    no (a mod bs + bs <=? bs). reflexivity.
Qed.
