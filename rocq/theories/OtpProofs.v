(** Proofs about the OTP keystore. *)
From Verif Require Import Base BaseLemmas HeaderModel Flash FlashLemmas OtpModel OtpSpec.
Local Ltac Zify.zify_post_hook ::= idtac.

Lemma list_eqb_eq : forall l r, list_eqb l r = true <-> l = r.
Proof.
  unfold list_eqb. induction l as [|x l IH]; intros [|y r]; cbn [length Nat.eqb combine forallb fst snd]; split; intro H; try discriminate; try reflexivity.
  - apply andb_prop in H as (H1 & H2). apply andb_prop in H2 as (H2 & H3). apply Z.eqb_eq in H2. f_equal; [exact H2|]. apply IH. rewrite H1, H3. reflexivity.
  - injection H as -> ->. rewrite Z.eqb_refl. apply (proj2 (IH r) eq_refl).
Qed.

Lemma read_loop_ok : forall k fuel h m a i len room, (k <= fuel)%nat -> len = i + 2 * Z.of_nat k -> OB h <= a -> a + 2 * Z.of_nat k <= OB h + OSZ h ->
  2 * Z.of_nat k <= room -> otp_read_loop fuel h m a i len room = Val (rdl m a (2 * k)).
Proof.
  induction k as [|k IH]; intros fuel h m a i len room Hf Hl Ha He Hr.
  - assert (E : i <? len = false) by (apply Z.ltb_ge; lia). destruct fuel; cbn [otp_read_loop]; rewrite E; reflexivity.
  - destruct fuel as [|fuel]; [lia|]. cbn [otp_read_loop]. destruct (Z.ltb_spec i len) as [_|]; [|lia]. unfold OEND in *.
    destruct (Z.leb_spec a (OB h + OSZ h - 1 - 1)) as [_|]; [|lia]. cbn [andb]. unfold in_otp, OEND.
    destruct (Z.leb_spec (OB h) a) as [_|]; [|lia]. destruct (Z.leb_spec (a + 1) (OB h + OSZ h - 1)) as [_|]; [|lia]. cbn [andb negb orb].
    destruct (Z.ltb_spec room 2) as [|_]; [lia|]. rewrite (IH fuel h m (a + 2) (i + 2) len (room - 2)) by lia. cbn [obind].
    replace (2 * S k)%nat with (S (S (2 * k))) by lia. cbn [rdl]. do 3 f_equal. f_equal. lia.
Qed.

Lemma otp_read_ok : forall h m a len buf, OB h <= a -> 0 < len -> len mod 2 = 0 -> a + len <= OB h + OSZ h -> len <= zlen buf ->
  otp_read h m a len buf = Val (Some (rdl m a (Z.to_nat len) ++ skipn (Z.to_nat len) buf)).
Proof.
  intros h m a len buf Ha H0 H2 He Hb. unfold otp_read, OEND. destruct (Z.leb_spec (OB h) a) as [_|]; [|lia].
  destruct (Z.leb_spec a (OB h + OSZ h - 1)) as [_|]; [|lia]. cbn [andb negb].
  pose proof (Z.div_mod len 2 ltac:(lia)) as DM.
  rewrite (read_loop_ok (Z.to_nat (len / 2)) (Z.to_nat len) h m a 0 len (zlen buf)) by lia. cbn [obind]. rewrite length_rdl.
  replace (2 * Z.to_nat (len / 2))%nat with (Z.to_nat len) by lia. reflexivity.
Qed.

Lemma otp_read_out : forall h m a len buf, ~ (OB h <= a < OB h + OSZ h) -> otp_read h m a len buf = Val None.
Proof.
  intros h m a len buf H. unfold otp_read, OEND. destruct (Z.leb_spec (OB h) a); destruct (Z.leb_spec a (OB h + OSZ h - 1)); cbn [andb negb]; try reflexivity. lia.
Qed.

Lemma count_ok : forall h m stack, otp_ok h -> zlen stack = OTP_HDR_SIZE ->
  exists n, num_pubkeys h m stack = Val n /\ key_count h m n.
Proof.
  intros h m stack (H1 & H2 & H3 & H4 & H5) HS. unfold num_pubkeys, OTP_HDR_SIZE, SLOT in *. rewrite otp_read_ok by (auto; lia). cbn [obind].
  change (Z.to_nat 16) with 16%nat. rewrite skipn_all2 by (unfold zlen in HS; lia). rewrite app_nil_r.
  rewrite rdl_firstn by lia. rewrite !rdl_nth by lia. change (Z.of_nat 8) with 8. change (Z.of_nat 9) with 9.
  destruct (list_eqb (rdl m (OB h) 8) OTP_MAGIC) eqn:E; cbn [negb].
  - apply list_eqb_eq in E. destruct (Z.ltb_spec (MAXKEYS h) (m (OB h + 8) + 256 * m (OB h + 9))) as [L|L].
    + exists 0. split; [reflexivity|]. right. split; [reflexivity|]. intros k (_ & K). subst k. exact L.
    + eexists. split; [reflexivity|]. left. split; [split; [exact E|reflexivity]|exact L].
  - exists 0. split; [reflexivity|]. right. split; [reflexivity|]. intros k (K & _). exfalso. apply (proj2 (list_eqb_eq _ _)) in K. congruence.
Qed.

Lemma key_count_det : forall h m n k, (forall n, announces h m n -> 0 <= n) -> key_count h m n -> key_count h m k -> n = k.
Proof.
  intros h m n k P [((A & B) & C)|(A & B)] [((D & E) & F)|(D & E)]; try congruence.
  - exfalso. specialize (E n (conj A B)). lia.
  - exfalso. specialize (B k (conj D E)). lia.
Qed.

Lemma max_room : forall h id, otp_ok h -> 0 <= id < MAXKEYS h -> OB h <= slot_addr h id /\ slot_addr h id + SLOT h <= OB h + OSZ h.
Proof.
  intros h id (H1 & H2 & H3 & H4 & H5) Hid. unfold slot_addr, MAXKEYS, OTP_HDR_SIZE in *. assert (S : 0 < SLOT h) by (unfold SLOT; lia).
  pose proof (Z.mul_div_le (OSZ h - 16) (SLOT h) S). nia.
Qed.

Lemma get_slot_ok : forall h m stack cache id n, otp_ok h -> zlen stack = OTP_HDR_SIZE -> zlen cache = SLOT h -> bytes m -> id_ok h id ->
  key_count h m n ->
  get_slot h m stack cache id = Val (if (0 <=? id) && (id <? n) then Some (slot_at h m id) else None).
Proof.
  intros h m stack cache id n HO HS HC Hm (I1 & I2) HN. unfold get_slot. destruct (count_ok h m stack HO HS) as (k & -> & HK).
  assert (k = n) as ->.
  { apply (key_count_det h m); auto. intros j (_ & J). pose proof (Hm (OB h + 8)) as B1. pose proof (Hm (OB h + 9)) as B2. unfold is_byte in *. lia. }
  clear HK. cbn [obind]. pose proof HO as (H1 & H2 & H3 & H4 & H5). assert (S : 16 < SLOT h) by (unfold SLOT; lia).
  assert (NM : n <= MAXKEYS h).
  { destruct HN as [(_ & L)|(-> & _)]; [exact L|]. unfold MAXKEYS, OTP_HDR_SIZE in *. apply Z.div_pos; lia. }
  destruct (Z.leb_spec n id) as [L|L].
  - destruct (Z.ltb_spec id n); [lia|]. rewrite andb_false_r. reflexivity.
  - destruct (Z.ltb_spec id n) as [_|]; [|lia]. rewrite andb_true_r. destruct (Z.leb_spec 0 id) as [P|P].
    + destruct (max_room h id HO ltac:(lia)) as (R1 & R2). unfold slot_at. set (o := id * SLOT h) in *.
      assert (O : 0 <= o) by (unfold o; nia). unfold slot_addr in R1, R2. fold o in R1, R2. unfold OTP_HDR_SIZE in *.
      destruct (Z.ltb_spec o (- 2 ^ 31)) as [|_]; [lia|]. destruct (Z.leb_spec (2 ^ 31) o) as [|_]; [lia|].
      destruct (Z.leb_spec (2 ^ 31) (OB h + 16 + o)) as [|_]; [lia|]. cbn [orb].
      rewrite Z.mod_small by (change (2 ^ 32) with (2 * 2 ^ 31); lia). rewrite otp_read_ok; try lia.
      * rewrite skipn_all2 by (unfold zlen in HC; lia). rewrite app_nil_r. reflexivity.
      * unfold SLOT. rewrite Z.add_mod, H4 by lia. reflexivity.
    + set (o := id * SLOT h) in *. assert (O : o <= - SLOT h) by (unfold o; nia). unfold OTP_HDR_SIZE in *.
      destruct (Z.ltb_spec o (- 2 ^ 31)) as [|_]; [lia|]. destruct (Z.leb_spec (2 ^ 31) o) as [|_]; [lia|].
      destruct (Z.leb_spec (2 ^ 31) (OB h + 16 + o)) as [|_]; [lia|]. cbn [orb]. rewrite otp_read_out; [reflexivity|].
      assert (SL : SLOT h = 16 + KPS h) by reflexivity. change (2 ^ 32) with (2 * 2 ^ 31).
      destruct (Z.lt_ge_cases (OB h + 16 + o) 0) as [N|N].
      * replace ((OB h + 16 + o) mod (2 * 2 ^ 31)) with (OB h + 16 + o + 2 * 2 ^ 31); [lia|]. apply (Z.mod_unique_pos _ _ (-1)); lia.
      * rewrite Z.mod_small by lia. lia.
Qed.

(** ** Provisioning *)

Lemma wstep_cases : forall h, (H5 h = true /\ wstep h = 4) \/ (H5 h = false /\ wstep h = 2).
Proof. intro h. unfold wstep. destruct (H5 h); auto. Qed.

Lemma write_loop_ok : forall k fuel h m a i len data, (k <= fuel)%nat -> len = i + wstep h * Z.of_nat k -> OB h <= a -> a + wstep h * Z.of_nat k <= OB h + OSZ h ->
  wstep h * Z.of_nat k <= zlen data -> all_bytes data -> (forall j, 0 <= j < wstep h * Z.of_nat k -> m (a + j) = 255) ->
  exists m', otp_write_loop fuel h m a i len data = Val (Some m') /\
    (forall j, 0 <= j < wstep h * Z.of_nat k -> m' (a + j) = nth (Z.to_nat j) data 0) /\
    (forall x, ~ (a <= x < a + wstep h * Z.of_nat k) -> m' x = m x).
Proof.
  induction k as [|k IH]; intros fuel h m a i len data Hf Hl Ha He Hd Hb Hm.
  - assert (E : i <? len = false) by (apply Z.ltb_ge; lia). exists m. split; [destruct fuel; cbn [otp_write_loop]; rewrite E; reflexivity|]. split; [intros; lia|reflexivity].
  - destruct fuel as [|fuel]; [lia|]. cbn [otp_write_loop].
    assert (W : 2 <= wstep h <= 4) by (destruct (wstep_cases h) as [(_ & ->)|(_ & ->)]; lia). set (w := wstep h) in *.
    assert (WK : w * Z.of_nat (S k) = w + w * Z.of_nat k) by (rewrite Nat2Z.inj_succ; ring). assert (WP : 0 <= w * Z.of_nat k) by nia. rewrite WK in *. clear WK. set (wk := w * Z.of_nat k) in *.
    destruct (Z.ltb_spec i len) as [_|]; [|lia]. unfold in_otp, OEND.
    destruct (Z.leb_spec a (OB h + OSZ h - 1 - 1)) as [_|]; [|lia]. cbn [andb].
    destruct (Z.leb_spec (OB h) a) as [_|]; [|lia]. destruct (Z.leb_spec (a + 1) (OB h + OSZ h - 1)) as [_|]; [|lia].
    destruct (Z.leb_spec (OB h) (a + w - 2)) as [_|]; [|lia]. destruct (Z.leb_spec (a + w - 2 + 1) (OB h + OSZ h - 1)) as [_|]; [|lia]. cbn [andb negb orb].
    destruct (Z.ltb_spec (zlen data) w) as [|_]; [lia|].
    set (m1 := write m a w (fun j => nth (Z.to_nat j) data 0)).
    assert (M1 : forall j, 0 <= j < w -> m1 (a + j) = nth (Z.to_nat j) data 0).
    { intros j Hj. unfold m1. rewrite write_in, Hm by lia. replace (a + j - a) with j by ring. apply land_255. unfold all_bytes in Hb. rewrite Forall_forall in Hb. apply Hb, nth_In.
      unfold zlen in Hd. lia. }
    assert (RB : H5 h && negb (list_eqb (rdl m1 a 4) (firstn 4 data)) = false).
    { destruct (wstep_cases h) as [(E5 & EW)|(E5 & _)]; rewrite E5; [|reflexivity]. cbn [andb]. apply negb_false_iff. apply list_eqb_eq. unfold zlen in Hd. change (wstep h) with w in EW.
      apply (nth_ext _ _ 0 0); [rewrite length_rdl, firstn_length; lia|]. intros j Hj. rewrite length_rdl in Hj. rewrite rdl_nth by exact Hj. rewrite M1 by lia.
      rewrite Nat2Z.id. clear -Hj. revert j Hj. generalize 4%nat. intros n j. revert n data. induction j as [|j IH]; intros [|n] [|x data] Hj; cbn; try lia; try reflexivity. apply IH. lia. }
    rewrite RB. destruct (IH fuel h m1 (a + w) (i + w) len (skipn (Z.to_nat w) data)) as (m' & R & V & F).
    + lia.
    + fold w wk. lia.
    + lia.
    + fold w wk. lia.
    + fold w wk. unfold zlen in *. rewrite skipn_length. lia.
    + unfold all_bytes in *. rewrite Forall_forall in *. intros x Hx. apply Hb. rewrite <- (firstn_skipn (Z.to_nat w) data). apply in_or_app. right. exact Hx.
    + fold w wk. intros j Hj. unfold m1. rewrite write_out by lia. replace (a + w + j) with (a + (w + j)) by ring. apply Hm. lia.
    + fold w wk in V, F. exists m'. split; [exact R|]. split.
      * intros j Hj. destruct (Z.lt_ge_cases j w) as [L|L].
        -- rewrite F by lia. apply M1. lia.
        -- replace (a + j) with (a + w + (j - w)) by ring. rewrite V by lia.
           assert (NS : forall n (l : list Z) i, nth i (skipn n l) 0 = nth (n + i) l 0) by (clear; induction n as [|n IH]; intros [|x l] i; cbn; auto; destruct i; reflexivity).
           rewrite NS. f_equal. lia.
      * intros x Hx. rewrite F by lia. unfold m1. apply write_out. lia.
Qed.

Lemma otp_write_ok : forall h m a len data, OB h <= a -> 0 < len -> len mod 4 = 0 -> a mod 2 = 0 -> a + len <= OB h + OSZ h -> len <= zlen data -> all_bytes data ->
  (forall j, 0 <= j < len -> m (a + j) = 255) ->
  exists m', otp_write h m a data len = Val (Some m') /\ (forall j, 0 <= j < len -> m' (a + j) = nth (Z.to_nat j) data 0) /\ (forall x, ~ (a <= x < a + len) -> m' x = m x).
Proof.
  intros h m a len data Ha H0 H4 H2 He Hd Hb Hm. unfold otp_write, OEND. destruct (Z.leb_spec (OB h) a) as [_|]; [|lia].
  destruct (Z.leb_spec a (OB h + OSZ h - 1)) as [_|]; [|lia]. cbn [andb negb orb].
  assert (OD : Z.odd a = false) by (rewrite Zmod_odd in H2; destruct (Z.odd a); [discriminate|reflexivity]). rewrite OD, andb_false_r.
  pose proof (Z.div_mod len 4 ltac:(lia)) as DM.
  assert (L2 : len / 2 * 2 = len).
  { replace (len / 2) with (2 * (len / 4)); [lia|]. apply (Z.div_unique_pos _ _ _ 0); lia. }
  replace (if H5 h then len / 2 * 2 else len) with len by (destruct (H5 h); lia).
  destruct (wstep_cases h) as [(_ & W)|(_ & W)].
  - destruct (write_loop_ok (Z.to_nat (len / 4)) (Z.to_nat len) h m a 0 len data) as (m' & R & V & F); rewrite ?W; try lia; auto; try (intros; apply Hm; lia).
    exists m'. rewrite W in V, F. split; [exact R|]. split; [intros; apply V; lia|intros; apply F; lia].
  - destruct (write_loop_ok (Z.to_nat (2 * (len / 4))) (Z.to_nat len) h m a 0 len data) as (m' & R & V & F); rewrite ?W; try lia; auto; try (intros; apply Hm; lia).
    exists m'. rewrite W in V, F. split; [exact R|]. split; [intros; apply V; lia|intros; apply F; lia].
Qed.

Lemma prime_keys_ok : forall h keys m i, otp_ok h -> SLOT h mod 4 = 0 -> OB h mod 2 = 0 -> 0 <= i -> i + Z.of_nat (length keys) <= MAXKEYS h ->
  Forall (fun k => all_bytes k /\ zlen k = SLOT h) keys ->
  (forall x, slot_addr h i <= x < slot_addr h (i + Z.of_nat (length keys)) -> m x = 255) ->
  exists m', prime_keys h m i keys = Val (Some m') /\
    (forall j, (j < length keys)%nat -> slot_at h m' (i + Z.of_nat j) = nth j keys []) /\
    (forall x, ~ (slot_addr h i <= x < slot_addr h (i + Z.of_nat (length keys))) -> m' x = m x).
Proof.
  intros h keys. induction keys as [|k r IH]; intros m i HO S4 OE Hi Hn HF Hm.
  - exists m. split; [reflexivity|]. split; [intros j Hj; cbn [length] in Hj; lia|reflexivity].
  - inversion HF as [|? ? (K1 & K2) HR]; subst. cbn [prime_keys]. cbn [length] in *. rewrite Nat2Z.inj_succ in *.
    assert (SS : sizeof_slot h = SLOT h).
    { unfold sizeof_slot. pose proof (Z.div_mod (SLOT h) 4 ltac:(lia)) as DM. replace ((SLOT h + 3) / 4) with (SLOT h / 4); [lia|]. apply (Z.div_unique_pos _ _ _ 3); lia. }
    assert (SP : 16 < SLOT h) by (unfold SLOT; destruct HO as (_ & _ & K & _); lia).
    assert (SN : slot_addr h (i + 1) = slot_addr h i + SLOT h) by (unfold slot_addr; ring).
    assert (SG : slot_addr h (i + 1) <= slot_addr h (i + Z.succ (Z.of_nat (length r)))) by (unfold slot_addr; nia).
    destruct (max_room h i HO ltac:(lia)) as (R1 & R2).
    change (OB h + OTP_HDR_SIZE + i * SLOT h) with (slot_addr h i). rewrite SS.
    destruct (otp_write_ok h m (slot_addr h i) (SLOT h) k) as (m1 & W1 & V1 & F1); try lia; auto.
    { unfold slot_addr. pose proof (Z.div_mod (SLOT h) 4 ltac:(lia)) as DM. pose proof (Z.div_mod (OB h) 2 ltac:(lia)) as DO. unfold OTP_HDR_SIZE.
      symmetry. apply (Z.mod_unique_pos _ _ (OB h / 2 + 8 + i * (2 * (SLOT h / 4)))); [lia|]. rewrite DO at 1. rewrite DM at 1. rewrite S4, OE. ring. }
    { intros j Hj. apply Hm. lia. }
    rewrite W1. cbn [obind]. destruct (IH m1 (i + 1) HO S4 OE ltac:(lia) ltac:(lia) HR) as (m2 & W2 & V2 & F2).
    { intros x Hx. replace (i + 1 + Z.of_nat (length r)) with (i + Z.succ (Z.of_nat (length r))) in Hx by lia. rewrite F1 by lia. apply Hm. lia. }
    replace (i + 1 + Z.of_nat (length r)) with (i + Z.succ (Z.of_nat (length r))) in F2 by lia.
    exists m2. split; [exact W2|]. split.
    + intros j Hj. destruct j as [|j].
      * cbn [nth Z.of_nat]. rewrite Z.add_0_r. unfold slot_at. apply (nth_ext _ _ 0 0); [rewrite length_rdl; unfold zlen in K2; lia|]. intros q Hq. rewrite length_rdl in Hq.
        rewrite rdl_nth by exact Hq. rewrite F2 by lia. rewrite V1 by lia. f_equal. lia.
      * cbn [nth]. rewrite Nat2Z.inj_succ. replace (i + Z.succ (Z.of_nat j)) with (i + 1 + Z.of_nat j) by lia. apply V2. lia.
    + intros x Hx. rewrite F2 by lia. apply F1. lia.
Qed.
