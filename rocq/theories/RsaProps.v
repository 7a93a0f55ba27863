(** Properties of RSA image signatures: C53. *)
From Verif Require Import Base BaseLemmas OtpModel OtpProofs RsaSpec RsaModel RsaProofs.
Local Ltac Zify.zify_post_hook ::= idtac.

Lemma same_at_true : forall l i n h, same_at l i n h = Val true -> h = sub l i n.
Proof. intros l i n h H. unfold same_at in H. destruct (i + n <=? length l)%nat; [|discriminate]. apply list_eqb_eq. congruence. Qed.

(** Exactly which payloads of a signature confirm the digest [h]: the digest itself; or three
    tags around it, whatever is in the algorithm identifier and after the digest.  In
    particular no signature is ever confirmed for another digest. *)
Theorem C53_accepted : forall enc verify_inline h sig d, verify_inline sig = Some d -> Forall is_byte d -> h <> [] ->
  verify_signature_rsa enc (length h) verify_inline h sig = Val true <->
  d = h \/ (enc = true /\ exists t A R, d = lax t A h R /\ 0 <= t <= zlen A + zlen h + zlen R + 4).
Proof.
  intros enc vi h sig d E Hb HN. unfold verify_signature_rsa. rewrite E. split.
  - intro H. destruct (enc && (zlen d >? Z.of_nat (length h))) eqn:Q.
    + apply andb_prop in Q. destruct Q as (-> & Q). right. split; [reflexivity|].
      destruct (rsa_decode d) as [[(i, l)|]| |] eqn:D; cbn [obind] in H; try discriminate.
      destruct (Z.eqb_spec l (Z.of_nat (length h))) as [L|]; [|discriminate].
      exact (decode_inv d i l h Hb D L H).
    + destruct (Z.eqb_spec (zlen d) (Z.of_nat (length h))) as [L|]; [|discriminate]. left.
      apply same_at_true in H. unfold sub in H. cbn [skipn] in H. unfold zlen in L. replace (length h) with (length d) in H by lia.
      rewrite firstn_all in H. congruence.
  - intros [-> |(-> & t & A & R & -> & T)].
      replace (zlen h >? Z.of_nat (length h)) with false by (symmetry; rewrite Z.gtb_ltb; apply Z.ltb_irrefl).
      rewrite andb_false_r. unfold zlen. rewrite Z.eqb_refl. unfold same_at. rewrite Nat.leb_refl. unfold sub. cbn [skipn]. rewrite firstn_all.
      f_equal. apply list_eqb_eq. reflexivity.
    + assert (LX : zlen (lax t A h R) = zlen A + zlen h + zlen R + 6) by (unfold lax, zlen; rewrite !app_length; cbn [length]; lia).
      replace (zlen (lax t A h R) >? Z.of_nat (length h)) with true.
      2:{ symmetry. rewrite Z.gtb_ltb. apply Z.ltb_lt. unfold zlen in *. lia. }
      cbn [andb]. rewrite decode_lax by exact T. cbn [obind]. unfold zlen at 1. rewrite Z.eqb_refl. unfold same_at.
      replace (length A + 6 + length h <=? length (lax t A h R))%nat with true by (symmetry; apply Nat.leb_le; unfold zlen in LX; lia).
      rewrite sub_lax. f_equal. apply list_eqb_eq. reflexivity.
Qed.
Print Assumptions C53_accepted.

(** C53: a signature the public key operation rejects - wrong length, wrong padding, an
    unusable key - is never accepted, whatever the digest. *)
Theorem C53_invalid : forall enc dig verify_inline h sig, verify_inline sig = None ->
  verify_signature_rsa enc dig verify_inline h sig = Val false.
Proof. intros enc dig vi h sig E. unfold verify_signature_rsa. rewrite E. reflexivity. Qed.
Print Assumptions C53_invalid.
Example C53_invalid_case : rsa_open (2 ^ 192 - 237) 1 24 (repeat 255 24) = None.
Proof. vm_compute. reflexivity. Qed.

(** Signatures made as the standard says are confirmed: of the plain digest, or of the
    encoded digest.  [em] is what the signer put to the private key. *)
Theorem C53_genuine : forall n e k alg h sig em d,
  Forall is_byte alg -> Forall is_byte h -> h <> [] -> zlen alg + zlen h + 4 < 256 -> 0 < n ->
  d = h \/ d = digest_info alg h -> padded k em d -> os2ip sig < n -> os2ip sig ^ e mod n = os2ip em ->
  verify_signature_rsa true (length h) (rsa_open n e k) h sig = Val true.
Proof.
  intros n e k alg h sig em d BA BH HN LL N D P S V.
  assert (BD : Forall is_byte d).
  { destruct D as [-> | ->]; [exact BH|]. unfold digest_info, is_byte. pose proof (zlen_nonneg alg). pose proof (zlen_nonneg h).
    repeat (apply Forall_app; split); try assumption; repeat constructor; unfold is_byte; lia. }
  assert (BE : Forall is_byte em).
  { destruct P as (_ & m & _ & ->). repeat (apply Forall_app; split); try exact BD.
    - repeat constructor; unfold is_byte; lia.
    - apply Forall_forall. intros x X. apply repeat_spec in X. subst x. unfold is_byte. lia.
    - repeat constructor; unfold is_byte; lia. }
  apply (proj2 (C53_accepted true (rsa_open n e k) h sig d
    ltac:(unfold rsa_open; replace (os2ip sig <? n) with true by (symmetry; apply Z.ltb_lt; exact S);
          rewrite V; rewrite <- (proj1 P); rewrite i2osp_os2ip by exact BE; apply (unpad_ok k); exact P) BD HN)).
  destruct D as [-> | ->]; [left; reflexivity|right]. split; [reflexivity|]. exists (zlen alg + zlen h + 4), alg, [].
  split; [unfold lax, digest_info; rewrite app_nil_r; reflexivity|]. unfold zlen. cbn [length]. lia.
Qed.
Print Assumptions C53_genuine.

(** A key of 24 bytes and a digest of three. *)
Example C53_genuine_case : let em := [0; 1] ++ repeat 255 18 ++ [0] ++ [7; 8; 9] in
  verify_signature_rsa true 3 (rsa_open (2 ^ 192 - 237) 1 24) [7; 8; 9] em = Val true.
Proof.
  intro em. apply (C53_genuine (2 ^ 192 - 237) 1 24 sha256_alg [7; 8; 9] em em [7; 8; 9]).
  - repeat constructor; unfold is_byte; lia.
  - repeat constructor; unfold is_byte; lia.
  - discriminate.
  - vm_compute. reflexivity.
  - vm_compute. reflexivity.
  - left. reflexivity.
  - split; [reflexivity|]. exists 18%nat. split; [lia|reflexivity].
  - vm_compute. reflexivity.
  - vm_compute. reflexivity.
Qed.

(** Refuted: "a confirmed signature was made by signing the digest".  For keys with public
    exponent 3, one byte string is a signature of a given digest under every key of that
    length, and is found without any key: a perfect cube whose leading bytes carry the
    encoded digest, correct algorithm identifier and total length included. *)
Theorem C53_forged_refuted : forall k alg h, Forall is_byte alg -> Forall is_byte h -> h <> [] ->
  zlen alg + zlen h + 4 < 256 -> (3 * (17 + length alg + length h) <= k)%nat ->
  exists sig, length sig = k /\ Forall is_byte sig /\
  forall n, 2 ^ (8 * Z.of_nat k - 1) <= n -> verify_signature_rsa true (length h) (rsa_open n 3 k) h sig = Val true.
Proof.
  intros k alg h BA BH HN LL K.
  set (a := (k / 3)%nat). set (r := (k - a)%nat).
  assert (A3 : (3 * a <= k < 3 * a + 3)%nat).
  { unfold a. pose proof (Nat.div_mod k 3 ltac:(lia)). pose proof (Nat.mod_upper_bound k 3 ltac:(lia)). lia. }
  assert (AR : (a + r)%nat = k) by (unfold r; lia).
  assert (A17 : (17 + length alg + length h <= a)%nat) by lia. clearbody a r.
  set (np := (a - (9 + length alg + length h))%nat).
  set (core := lax (zlen alg + zlen h + 4) alg h []).
  set (tail := repeat 255 np ++ [0] ++ core).
  set (prefix := [0; 1] ++ tail).
  assert (LT : length tail = (a - 2)%nat).
  { unfold tail, core, lax. rewrite !app_length, repeat_length. cbn [length]. unfold np. lia. }
  pose proof (zlen_nonneg alg) as ZA. pose proof (zlen_nonneg h) as ZH.
  assert (BT : Forall is_byte tail).
  { unfold tail, core, lax. repeat (apply Forall_app; split); try assumption; try (repeat constructor; unfold is_byte; lia).
    apply Forall_forall. intros x X. apply repeat_spec in X. subst x. unfold is_byte. lia. }
  assert (BP : Forall is_byte prefix) by (unfold prefix; apply Forall_app; split; [repeat constructor; unfold is_byte; lia|exact BT]).
  assert (LP : length prefix = a) by (unfold prefix; rewrite app_length, LT; cbn [length]; lia).
  set (M := os2ip prefix).
  assert (MB : 0 <= M /\ M + 1 <= 2 ^ (8 * Z.of_nat a - 15)).
  { unfold M, prefix. rewrite os2ip_app. change (os2ip [0; 1]) with 1. pose proof (os2ip_bounds tail BT) as TB.
    split; [lia|]. unfold zlen in TB |- *. rewrite LT in TB |- *.
    replace (8 * Z.of_nat a - 15) with (Z.succ (8 * Z.of_nat (a - 2))) by lia. rewrite Z.pow_succ_r by lia.
    rewrite (Z.pow_mul_r 2 8) by lia. change (2 ^ 8) with 256. lia. }
  destruct MB as (M0 & M1).
  set (m := (8 * Z.of_nat k - 13) / 3).
  assert (MM : 8 * Z.of_nat k - 15 <= 3 * m <= 8 * Z.of_nat k - 13).
  { unfold m. pose proof (Z.div_mod (8 * Z.of_nat k - 13) 3 ltac:(lia)). pose proof (Z.mod_pos_bound (8 * Z.of_nat k - 13) 3 ltac:(lia)). lia. }
  clearbody m.
  assert (W : 256 ^ Z.of_nat r = 2 ^ (8 * Z.of_nat r)) by (rewrite Z.pow_mul_r by lia; reflexivity).
  assert (HI : (M + 1) * 2 ^ (8 * Z.of_nat r) <= 2 ^ (8 * Z.of_nat k - 15)).
  { replace (8 * Z.of_nat k - 15) with ((8 * Z.of_nat a - 15) + 8 * Z.of_nat r) by lia. rewrite Z.pow_add_r by lia.
    apply Z.mul_le_mono_nonneg_r; [apply Z.pow_nonneg; lia|exact M1]. }
  assert (WP : 0 < 2 ^ (8 * Z.of_nat r)) by (apply Z.pow_pos_nonneg; lia).
  destruct (cube_between (M * 2 ^ (8 * Z.of_nat r)) (2 ^ m) (2 ^ (8 * Z.of_nat r))) as (x & X0 & X1).
  - split; [apply Z.mul_nonneg_nonneg; lia|]. rewrite <- Z.pow_mul_r by lia.
    apply Z.lt_le_trans with (2 ^ (8 * Z.of_nat k - 15)); [lia|]. apply Z.pow_le_mono_r; lia.
  - apply Z.pow_pos_nonneg; lia.
  - rewrite <- Z.pow_mul_r by lia. apply Z.le_trans with (2 ^ 2 * 2 ^ (m * 2)).
    + apply Z.mul_le_mono_nonneg_r; [apply Z.pow_nonneg; lia|]. change (2 ^ 2) with 4. lia.
    + rewrite <- Z.pow_add_r by lia. apply Z.pow_le_mono_r; lia.
  - assert (C3 : x ^ 3 < 2 ^ (8 * Z.of_nat k - 15)) by lia.
    assert (XC : x <= x ^ 3).
    { replace (x ^ 3) with (x * x * x) by ring. destruct (Z.eq_dec x 0) as [-> |]; [lia|]. nia. }
    assert (B1 : 2 ^ (8 * Z.of_nat k - 15) <= 2 ^ (8 * Z.of_nat k - 1)) by (apply Z.pow_le_mono_r; lia).
    assert (B2 : 2 ^ (8 * Z.of_nat k - 1) <= 256 ^ Z.of_nat k).
    { replace (256 ^ Z.of_nat k) with (2 ^ (8 * Z.of_nat k)) by (rewrite Z.pow_mul_r by lia; reflexivity). apply Z.pow_le_mono_r; lia. }
    assert (OX : os2ip (i2osp x k) = x) by (apply os2ip_i2osp; lia).
    exists (i2osp x k). split; [apply i2osp_length|]. split; [apply i2osp_bytes|]. intros n N.
    set (q := x ^ 3 - M * 2 ^ (8 * Z.of_nat r)).
    assert (OPEN : rsa_open n 3 k (i2osp x k) = Some (core ++ i2osp q r)).
    { unfold rsa_open. rewrite OX. replace (x <? n) with true by (symmetry; apply Z.ltb_lt; lia).
      rewrite Z.mod_small by lia. replace (x ^ 3) with (M * 256 ^ Z.of_nat r + q) by (unfold q; rewrite W; lia).
      rewrite <- AR. rewrite i2osp_join by (rewrite W; unfold q; lia).
      rewrite <- LP. unfold M. rewrite i2osp_os2ip by exact BP.
      apply (unpad_ok (length (prefix ++ i2osp q r))). split; [reflexivity|]. exists np. split; [unfold np; lia|].
      unfold prefix, tail. rewrite <- !app_assoc. reflexivity. }
    assert (CL : core ++ i2osp q r = lax (zlen alg + zlen h + 4) alg h (i2osp q r)).
    { unfold core, lax. rewrite <- !app_assoc. reflexivity. }
    refine (proj2 (C53_accepted true (rsa_open n 3 k) h (i2osp x k) _ OPEN _ HN) _).
    + apply Forall_app. split; [|apply i2osp_bytes]. unfold tail in BT. apply Forall_app in BT. destruct BT as (_ & BT). apply Forall_app in BT. apply BT.
    + right. split; [reflexivity|]. exists (zlen alg + zlen h + 4), alg, (i2osp q r). split; [exact CL|]. pose proof (zlen_nonneg (i2osp q r)). lia.
Qed.
Print Assumptions C53_forged_refuted.

(** RSA-2048 with SHA-256: every digest. *)
Example C53_forged_2048 : forall h, length h = 32%nat -> Forall is_byte h ->
  exists sig, length sig = 256%nat /\ Forall is_byte sig /\
  forall n, 2 ^ 2047 <= n -> verify_signature_rsa true 32 (rsa_open n 3 256) h sig = Val true.
Proof.
  intros h L B. enough (X : exists sig, length sig = 256%nat /\ Forall is_byte sig /\ forall n, 2 ^ (8 * Z.of_nat 256 - 1) <= n ->
    verify_signature_rsa true (length h) (rsa_open n 3 256) h sig = Val true) by (rewrite L in X; exact X).
  apply (C53_forged_refuted 256 sha256_alg h).
  - repeat constructor; unfold is_byte; lia.
  - exact B.
  - intro E. rewrite E in L. discriminate.
  - unfold zlen. rewrite L. vm_compute. reflexivity.
  - rewrite L. cbn [length sha256_alg]. lia.
Qed.

(** Exactly when the decoder reads past the payload (and so past its buffer): the algorithm
    identifier, as far as its length says, ends where the payload ends or one byte before. *)
Theorem C53_overread_refuted : forall verify_inline h sig d, verify_inline sig = Some d -> Forall is_byte d -> (4 <= length h)%nat ->
  verify_signature_rsa true (length h) verify_inline h sig = UB <->
  (length h < length d)%nat /\ exists t A, 0 <= t <= zlen d - 2 /\
    (d = [48; t; 48; zlen A] ++ A \/ d = [48; t; 48; zlen A] ++ A ++ [4]).
Proof.
  intros vi h sig d E Hb H4. unfold verify_signature_rsa. rewrite E. cbn [andb]. split.
  - intro H. destruct (Z.gtb_spec (zlen d) (Z.of_nat (length h))) as [Q|Q].
    + unfold zlen in Q. split; [lia|].
      destruct (rsa_decode d) as [[(i, l)|]| |] eqn:D; cbn [obind] in H; try discriminate.
      * exfalso. destruct (Z.eqb_spec l (Z.of_nat (length h))) as [L|]; [|discriminate].
        unfold same_at in H. destruct (Nat.leb_spec (i + length h) (length d)) as [|LB]; [discriminate|].
        unfold rsa_decode in D.
        destruct (decode_tag_cases d 0 48) as [(_ & F)|[(b & _ & _ & F)|[(_ & _ & F)|(t & T0 & T1 & [(T2 & F)|(_ & F)])]]]; rewrite F in D; cbn [obind] in D; try discriminate.
        destruct (decode_tag_cases d 2 48) as [(_ & F2)|[(b & _ & _ & F2)|[(_ & _ & F2)|(a & A0 & A1 & [(A2 & F2)|(_ & F2)])]]]; rewrite F2 in D; cbn [obind] in D; try discriminate.
        destruct (decode_tag_cases d (4 + Z.to_nat a) 4) as [(_ & F3)|[(b & _ & _ & F3)|[(_ & _ & F3)|(l' & L0 & L1 & [(L2 & F3)|(_ & F3)])]]]; rewrite F3 in D; cbn [obind] in D; try discriminate.
        assert (i = S (S (4 + Z.to_nat a))) by congruence. assert (l' = l) by congruence. unfold zlen in *. lia.
      * unfold rsa_decode in D.
        destruct (decode_tag_cases d 0 48) as [(F0 & F)|[(b & _ & _ & F)|[(_ & F1 & F)|(t & T0 & T1 & [(T2 & F)|(_ & F)])]]]; rewrite F in D; cbn [obind] in D; try discriminate.
        { apply nth_error_None in F0. lia. }
        { apply nth_error_None in F1. lia. }
        destruct (decode_tag_cases d 2 48) as [(F0 & F2)|[(b & _ & _ & F2)|[(_ & F1 & F2)|(a & A0 & A1 & [(A2 & F2)|(_ & F2)])]]]; rewrite F2 in D; cbn [obind] in D; try discriminate.
        { apply nth_error_None in F0. lia. }
        { apply nth_error_None in F1. lia. }
        assert (Ba : is_byte a) by (apply (proj1 (Forall_forall is_byte d) Hb a); apply nth_error_In with 3%nat; exact A1).
        assert (Bt : is_byte t) by (apply (proj1 (Forall_forall is_byte d) Hb t); apply nth_error_In with 1%nat; exact T1).
        unfold is_byte in Ba, Bt.
        destruct d as [|d0 [|d1 [|d2 [|d3 rest]]]]; try discriminate.
        cbn [nth_error] in T0, T1, A0, A1. assert (d0 = 48) by congruence. assert (d1 = t) by congruence. assert (d2 = 48) by congruence. assert (d3 = a) by congruence. subst d0 d1 d2 d3.
        assert (ZR : zlen (48 :: t :: 48 :: a :: rest) = 4 + zlen rest) by (unfold zlen; cbn [length]; lia). rewrite ZR in *.
        destruct (decode_tag_cases (48 :: t :: 48 :: a :: rest) (4 + Z.to_nat a) 4) as [(F0 & F3)|[(b & _ & _ & F3)|[(F0 & F1 & F3)|(l' & L0 & L1 & [(L2 & F3)|(_ & F3)])]]]; rewrite F3 in D; cbn [obind] in D; try discriminate.
        -- exists t, rest. split; [lia|]. left. change (nth_error rest (Z.to_nat a) = None) in F0. apply nth_error_None in F0.
           replace (zlen rest) with a by (unfold zlen in *; lia). reflexivity.
        -- change (nth_error rest (Z.to_nat a) = Some 4) in F0. change (nth_error rest (S (Z.to_nat a)) = None) in F1. apply nth_error_None in F1.
           assert (LA : (Z.to_nat a < length rest)%nat) by (apply nth_error_Some; congruence).
           pose proof (nth_split rest (Z.to_nat a) 4 F0) as RS. rewrite (skipn_all2 rest) in RS by lia.
           exists t, (firstn (Z.to_nat a) rest). split; [lia|]. right.
           replace (zlen (firstn (Z.to_nat a) rest)) with a by (unfold zlen; rewrite firstn_length_le by lia; lia).
           cbn [app]. rewrite <- RS. reflexivity.
    + exfalso. destruct (zlen d =? Z.of_nat (length h)) eqn:QQ; [|discriminate]. apply Z.eqb_eq in QQ. unfold zlen in QQ.
      unfold same_at in H. replace (0 + length h <=? length d)%nat with true in H by (symmetry; apply Nat.leb_le; lia). discriminate.
  - intros (L & t & A & T & D).
    replace (zlen d >? Z.of_nat (length h)) with true by (symmetry; rewrite Z.gtb_ltb; apply Z.ltb_lt; unfold zlen; lia).
    assert (DT : forall R, d = [48; t; 48; zlen A] ++ A ++ R -> decode_tag d (4 + length A) 4 = UB -> rsa_decode d = UB).
    { intros R ED E3. unfold rsa_decode. rewrite ED in *. change ([48; t; 48; zlen A] ++ A ++ R) with ([48; t] ++ [48; zlen A] ++ A ++ R). rewrite (decode_tag_tot 48 t ([48; zlen A] ++ A ++ R)).
      2:{ split; [lia|]. unfold zlen in *. rewrite !app_length in *. cbn [length] in *. lia. }
      cbn [obind]. change ([48; t] ++ [48; zlen A] ++ A ++ R) with ([48; t; 48; zlen A] ++ A ++ R).
      rewrite (decode_tag_ok [48; t] 48 (zlen A) (A ++ R) ltac:(unfold zlen; rewrite app_length; lia) : decode_tag ([48; t; 48; zlen A] ++ A ++ R) 2 48 = _).
      cbn [obind]. replace (S (S (length [48%Z; t])) + Z.to_nat (zlen A))%nat with (4 + length A)%nat by (unfold zlen; cbn [length]; lia).
      rewrite E3. reflexivity. }
    assert (RU : rsa_decode d = UB); [|rewrite RU; reflexivity].
    destruct D as [D|D].
    + apply (DT []); [rewrite app_nil_r; exact D|]. unfold decode_tag, rd.
      replace (nth_error d (4 + length A)) with (@None Z); [reflexivity|]. symmetry. apply nth_error_None. rewrite D, app_length. cbn [length]. lia.
    + apply (DT [4]); [exact D|]. unfold decode_tag, rd.
      assert (N1 : nth_error d (4 + length A) = Some 4).
      { rewrite D. change ([48; t; 48; zlen A] ++ A ++ [4]) with (([48; t; 48; zlen A]) ++ (A ++ [4])). rewrite app_assoc.
        rewrite nth_error_app2 by (rewrite app_length; cbn [length]; lia). rewrite app_length. cbn [length]. rewrite Nat.sub_diag. reflexivity. }
      rewrite N1. cbn [obind Z.eqb Pos.eqb negb].
      replace (nth_error d (S (4 + length A))) with (@None Z); [reflexivity|]. symmetry. apply nth_error_None. rewrite D, !app_length. cbn [length]. lia.
Qed.
Print Assumptions C53_overread_refuted.

Example C53_overread_case : verify_signature_rsa true 4 Some [1; 2; 3; 4] [48; 5; 48; 3; 9; 9; 9] = UB.
Proof.
  apply (C53_overread_refuted Some [1; 2; 3; 4] [48; 5; 48; 3; 9; 9; 9] [48; 5; 48; 3; 9; 9; 9]).
  - reflexivity.
  - repeat constructor; unfold is_byte; lia.
  - cbn [length]. lia.
  - split; [cbn [length]; lia|]. exists 5, [9; 9; 9]. split; [vm_compute; split; congruence|left; reflexivity].
Qed.
