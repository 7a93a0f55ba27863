(** Proofs about the encryption. *)
From Verif Require Import Base BaseLemmas HeaderModel Flash FlashLemmas ImageModel TrailerModel DualProofs CryptModel CryptSpec.
Local Ltac Zify.zify_post_hook ::= idtac.

(** ** Counters *)

Lemma be_val_app : forall l r, be_val (l ++ r) = be_val l * 256 ^ zlen r + be_val r.
Proof.
  induction l as [|b l IH]; intro r; cbn [be_val app]; [lia|]. rewrite IH. unfold zlen. rewrite app_length, Nat2Z.inj_add, Z.pow_add_r by lia. ring.
Qed.

Lemma be_val_range : forall l, all_bytes l -> 0 <= be_val l < 256 ^ zlen l.
Proof.
  induction l as [|b l IH]; intro H; cbn [be_val]; [unfold zlen; cbn; lia|]. inversion H as [|? ? Hb Hl]; subst. specialize (IH Hl). unfold is_byte in Hb.
  assert (E : 256 ^ zlen (b :: l) = 256 * 256 ^ zlen l) by (unfold zlen; cbn [length]; rewrite Nat2Z.inj_succ, Z.pow_succ_r by lia; reflexivity).
  rewrite E. nia.
Qed.

Lemma be_val_inj : forall l r, all_bytes l -> all_bytes r -> length l = length r -> be_val l = be_val r -> l = r.
Proof.
  induction l as [|b l IH]; intros [|b' r] Hl Hr L E; try discriminate; [reflexivity|]. cbn [length] in L. injection L as L.
  inversion Hl as [|? ? B1 L1]; subst. inversion Hr as [|? ? B2 L2]; subst. cbn [be_val] in E.
  pose proof (be_val_range l L1) as R1. pose proof (be_val_range r L2) as R2. assert (zlen l = zlen r) as EL by (unfold zlen; congruence). rewrite EL in *.
  assert (b = b') by (clear -E R1 R2; nia). subst b'. f_equal. apply IH; auto. lia.
Qed.

Lemma be_bytes_ok : forall w, 0 <= w < 2 ^ 32 -> all_bytes (be_bytes w) /\ length (be_bytes w) = 4%nat /\ be_val (be_bytes w) = w.
Proof.
  intros w Hw. unfold be_bytes. split; [|split; [reflexivity|]].
  - repeat (constructor; [unfold is_byte; apply Z.mod_pos_bound; lia|]). constructor.
  - cbn [be_val]. unfold zlen. cbn [length]. change (256 ^ Z.of_nat 3) with 16777216. change (256 ^ Z.of_nat 2) with 65536. change (256 ^ Z.of_nat 1) with 256.
    change (256 ^ Z.of_nat 0) with 1. change (2 ^ 32) with 4294967296 in Hw.
    rewrite (Z.mod_small (w / 16777216)) by (split; [apply Z.div_pos; lia|apply Z.div_lt_upper_bound; lia]).
    pose proof (Z.div_mod w 256 ltac:(lia)). pose proof (Z.div_mod (w / 256) 256 ltac:(lia)). pose proof (Z.div_mod (w / 256 / 256) 256 ltac:(lia)).
    rewrite !Z.div_div in * by lia. change (256 * 256) with 65536 in *. change (256 * 65536) with 16777216 in *. change (65536 * 256) with 16777216 in *. lia.
Qed.

Lemma be32_range : forall a b c d, is_byte a -> is_byte b -> is_byte c -> is_byte d -> 0 <= be32 a b c d < 2 ^ 32.
Proof. unfold is_byte, be32. change (2 ^ 32) with 4294967296. lia. Qed.

(** Words, most significant last. *)
Fixpoint words_val (ws : list Z) : Z := match ws with [] => 0 | w :: r => w + 2 ^ 32 * words_val r end.
Definition word_ok (w : Z) : Prop := 0 <= w < 2 ^ 32.

Lemma carry_ok : forall ws, Forall word_ok ws -> Forall word_ok (carry ws) /\ length (carry ws) = length ws /\
  words_val (carry ws) = (words_val ws + 1) mod (2 ^ 32) ^ zlen ws.
Proof.
  induction ws as [|w ws IH]; intro H.
  - split; [constructor|]. split; reflexivity.
  - inversion H as [|? ? Hw Hs]; subst. destruct (IH Hs) as (I1 & I2 & I3). cbn [carry].
    assert (EP : (2 ^ 32) ^ zlen (w :: ws) = 2 ^ 32 * (2 ^ 32) ^ zlen ws) by (unfold zlen; cbn [length]; rewrite Nat2Z.inj_succ, Z.pow_succ_r by lia; reflexivity).
    assert (PP : 0 < (2 ^ 32) ^ zlen ws) by (apply Z.pow_pos_nonneg; unfold zlen; lia).
    assert (R : 0 <= words_val ws < (2 ^ 32) ^ zlen ws).
    { clear -Hs. induction Hs as [|w ws Hw Hs IH]; [cbn; lia|]. cbn [words_val].
      assert (EP : (2 ^ 32) ^ zlen (w :: ws) = 2 ^ 32 * (2 ^ 32) ^ zlen ws) by (unfold zlen; cbn [length]; rewrite Nat2Z.inj_succ, Z.pow_succ_r by lia; reflexivity).
      rewrite EP. unfold word_ok in Hw. nia. }
    unfold word_ok in Hw. rewrite EP. set (M := (2 ^ 32) ^ zlen ws) in *.
    destruct (Z.eq_dec w (2 ^ 32 - 1)) as [E|E].
    + replace ((w + 1) mod 2 ^ 32) with 0 by (rewrite E; reflexivity). cbn [Z.eqb negb]. split; [constructor; [unfold word_ok; lia|exact I1]|].
      split; [cbn [length]; congruence|]. cbn [words_val]. rewrite I3. rewrite E.
      replace (2 ^ 32 - 1 + 2 ^ 32 * words_val ws + 1) with (2 ^ 32 * (words_val ws + 1)) by ring.
      rewrite Z.mul_mod_distr_l by lia. lia.
    + rewrite (Z.mod_small (w + 1)) by lia. destruct (Z.eqb_spec (w + 1) 0) as [E0|_]; [lia|]. cbn [negb].
      split; [constructor; [unfold word_ok; lia|exact Hs]|]. split; [reflexivity|]. cbn [words_val]. rewrite Z.mod_small; nia.
Qed.

Lemma concat_words : forall ws, Forall word_ok ws -> all_bytes (concat (map be_bytes (rev ws))) /\
  length (concat (map be_bytes (rev ws))) = (4 * length ws)%nat /\ be_val (concat (map be_bytes (rev ws))) = words_val ws.
Proof.
  induction ws as [|w ws IH]; intro H; [split; [constructor|split; reflexivity]|]. inversion H as [|? ? Hw Hs]; subst.
  destruct (IH Hs) as (I1 & I2 & I3). destruct (be_bytes_ok w Hw) as (B1 & B2 & B3). cbn [rev]. rewrite map_app, concat_app. cbn [map concat]. rewrite app_nil_r.
  split; [apply Forall_app; auto|]. split; [rewrite app_length, I2, B2; cbn [length]; lia|]. rewrite be_val_app, I3, B3. cbn [words_val].
  unfold zlen. rewrite B2. change (256 ^ Z.of_nat 4) with (2 ^ 32). ring.
Qed.

Lemma nonce_words : forall b0 b1 b2 b3, be_val [b0; b1; b2; b3] = be32 b0 b1 b2 b3.
Proof. intros. cbn [be_val]. unfold be32, zlen. cbn [length]. change (256 ^ Z.of_nat 3) with 16777216. change (256 ^ Z.of_nat 2) with 65536. change (256 ^ Z.of_nat 1) with 256. change (256 ^ Z.of_nat 0) with 1. ring. Qed.

Lemma set_iv_ok : forall nonce n, all_bytes nonce -> length nonce = 16%nat -> 0 <= n < 2 ^ 32 ->
  all_bytes (aes_set_iv nonce n) /\ length (aes_set_iv nonce n) = 16%nat /\ be_val (aes_set_iv nonce n) = (be_val nonce + n) mod 2 ^ 128.
Proof.
  intros nonce n Hb L Hn.
  do 16 (destruct nonce as [|?b nonce]; [discriminate L|]). destruct nonce; [|discriminate L]. clear L.
  unfold aes_set_iv. cbn [Nat.mul Nat.add nth]. unfold all_bytes in Hb.
  repeat match goal with H : Forall _ (_ :: _) |- _ => inversion H; clear H; subst end.
  set (w0 := be32 b b0 b1 b2). set (w1 := be32 b3 b4 b5 b6). set (w2 := be32 b7 b8 b9 b10). set (w3 := be32 b11 b12 b13 b14).
  assert (W0 : word_ok w0) by (apply be32_range; assumption). assert (W1 : word_ok w1) by (apply be32_range; assumption).
  assert (W2 : word_ok w2) by (apply be32_range; assumption). assert (W3 : word_ok w3) by (apply be32_range; assumption).
  assert (EN : be_val [b; b0; b1; b2; b3; b4; b5; b6; b7; b8; b9; b10; b11; b12; b13; b14] = words_val [w3; w2; w1; w0]).
  { change [b; b0; b1; b2; b3; b4; b5; b6; b7; b8; b9; b10; b11; b12; b13; b14] with ([b; b0; b1; b2] ++ [b3; b4; b5; b6] ++ [b7; b8; b9; b10] ++ [b11; b12; b13; b14]).
    rewrite !be_val_app, !nonce_words. fold w0 w1 w2 w3. unfold zlen. rewrite !app_length. cbn [length Nat.add words_val].
    change (256 ^ Z.of_nat 12) with (2 ^ 32 * 2 ^ 32 * 2 ^ 32). change (256 ^ Z.of_nat 8) with (2 ^ 32 * 2 ^ 32). change (256 ^ Z.of_nat 4) with (2 ^ 32). ring. }
  rewrite EN. clear EN. clearbody w0 w1 w2 w3.
  set (s := (w3 + n) mod 2 ^ 32). assert (Ws : word_ok s) by (apply Z.mod_pos_bound; lia).
  destruct (be_bytes_ok s Ws) as (S1 & S2 & S3).
  assert (FH : Forall word_ok [w2; w1; w0]) by (repeat (apply Forall_cons; [assumption|]); apply Forall_nil).
  destruct (carry_ok _ FH) as (C1 & C2 & C3).
  assert (HI : exists hi, (if s <? n then carry [w2; w1; w0] else [w2; w1; w0]) = hi /\ Forall word_ok hi /\ length hi = 3%nat /\
     2 ^ 32 * words_val hi + s = (words_val [w3; w2; w1; w0] + n) mod 2 ^ 128).
  { assert (WH : 0 <= words_val [w2; w1; w0] < 2 ^ 96).
    { cbn [words_val]. unfold word_ok in *. change (2 ^ 96) with (2 ^ 32 * (2 ^ 32 * 2 ^ 32)). clear -W0 W1 W2. nia. }
    change (words_val [w3; w2; w1; w0]) with (w3 + 2 ^ 32 * words_val [w2; w1; w0]).
    set (H := words_val [w2; w1; w0]) in *. unfold word_ok in W3, Ws. change (2 ^ 128) with (2 ^ 32 * 2 ^ 96).
    assert (SC : (w3 + n < 2 ^ 32 /\ s = w3 + n) \/ (2 ^ 32 <= w3 + n /\ s = w3 + n - 2 ^ 32)).
    { unfold s. destruct (Z.lt_ge_cases (w3 + n) (2 ^ 32)) as [Lt|Ge]; [left; split; [exact Lt|apply Z.mod_small; lia]|right; split; [exact Ge|]].
      symmetry. apply (Z.mod_unique_pos _ _ 1); lia. }
    destruct SC as [(A & E)|(A & E)].
    - destruct (Z.ltb_spec s n) as [B|B]; [lia|]. exists [w2; w1; w0]. split; [reflexivity|]. split; [exact FH|]. split; [reflexivity|].
      fold H. rewrite E. rewrite Z.mod_small; [lia|]. change (2 ^ 96) with 79228162514264337593543950336 in *. change (2 ^ 32) with 4294967296 in *. lia.
    - destruct (Z.ltb_spec s n) as [B|B]; [|lia]. exists (carry [w2; w1; w0]). split; [reflexivity|]. split; [exact C1|]. split; [exact C2|].
      rewrite C3. fold H. unfold zlen. cbn [length]. change ((2 ^ 32) ^ Z.of_nat 3) with (2 ^ 96). rewrite E.
      replace (w3 + 2 ^ 32 * H + n) with ((w3 + n - 2 ^ 32) + 2 ^ 32 * (H + 1)) by ring.
      rewrite Z.rem_mul_r by lia.
      replace ((w3 + n - 2 ^ 32 + 2 ^ 32 * (H + 1)) mod 2 ^ 32) with (w3 + n - 2 ^ 32) by (symmetry; rewrite Z.mul_comm, Z_mod_plus_full; apply Z.mod_small; lia).
      replace ((w3 + n - 2 ^ 32 + 2 ^ 32 * (H + 1)) / 2 ^ 32) with (H + 1) by (rewrite Z.mul_comm, Z.div_add by lia; rewrite Z.div_small by lia; lia).
      lia. }
  destruct HI as (hi & -> & F & LH & V). destruct (concat_words hi F) as (K1 & K2 & K3).
  split; [apply Forall_app; auto|]. split; [rewrite app_length, K2, S2, LH; reflexivity|]. rewrite be_val_app, K3, S3. unfold zlen. rewrite S2.
  change (256 ^ Z.of_nat 4) with (2 ^ 32). rewrite <- V. ring.
Qed.

(** Little-endian view of the increment. *)
Lemma inc_rev_ok : forall l, all_bytes l -> all_bytes (inc_rev l) /\ length (inc_rev l) = length l /\
  le_val (inc_rev l) = (le_val l + 1) mod 256 ^ zlen l.
Proof.
  induction l as [|b l IH]; intro H.
  - split; [constructor|]. split; reflexivity.
  - inversion H as [|? ? Hb Hl]; subst. destruct (IH Hl) as (I1 & I2 & I3). cbn [inc_rev].
    assert (EP : 256 ^ zlen (b :: l) = 256 * 256 ^ zlen l) by (unfold zlen; cbn [length]; rewrite Nat2Z.inj_succ, Z.pow_succ_r by lia; reflexivity).
    assert (PP : 0 < 256 ^ zlen l) by (apply Z.pow_pos_nonneg; unfold zlen; lia).
    assert (R : 0 <= le_val l < 256 ^ zlen l).
    { clear -Hl. induction Hl as [|w ws Hw Hs IH]; [cbn; lia|]. cbn [le_val].
      assert (EP : 256 ^ zlen (w :: ws) = 256 * 256 ^ zlen ws) by (unfold zlen; cbn [length]; rewrite Nat2Z.inj_succ, Z.pow_succ_r by lia; reflexivity).
      rewrite EP. unfold is_byte in Hw. nia. }
    unfold is_byte in Hb. rewrite EP. set (M := 256 ^ zlen l) in *.
    destruct (Z.eq_dec b 255) as [E|E].
    + replace ((b + 1) mod 256) with 0 by (rewrite E; reflexivity). cbn [Z.eqb negb]. split; [constructor; [unfold is_byte; lia|exact I1]|].
      split; [cbn [length]; congruence|]. cbn [le_val]. rewrite I3. rewrite E.
      replace (255 + 256 * le_val l + 1) with (256 * (le_val l + 1)) by ring.
      rewrite Z.mul_mod_distr_l by lia. lia.
    + rewrite (Z.mod_small (b + 1)) by lia. destruct (Z.eqb_spec (b + 1) 0) as [E0|_]; [lia|]. cbn [negb].
      split; [constructor; [unfold is_byte; lia|exact Hl]|]. split; [reflexivity|]. cbn [le_val]. rewrite Z.mod_small; nia.
Qed.

Lemma be_le : forall l, be_val l = le_val (rev l).
Proof.
  assert (A : forall l b, le_val (l ++ [b]) = le_val l + b * 256 ^ zlen l).
  { induction l as [|x l IH]; intro b; cbn [le_val app]; [unfold zlen; cbn; lia|]. rewrite IH. unfold zlen. cbn [length]. rewrite Nat2Z.inj_succ, Z.pow_succ_r by lia. ring. }
  induction l as [|b l IH]; [reflexivity|]. cbn [be_val rev]. rewrite A, IH. unfold zlen. rewrite rev_length. ring.
Qed.

Lemma inc_ok : forall l, all_bytes l -> all_bytes (inc_counter l) /\ length (inc_counter l) = length l /\
  be_val (inc_counter l) = (be_val l + 1) mod 256 ^ zlen l.
Proof.
  intros l H. unfold inc_counter. assert (HR : all_bytes (rev l)) by (apply Forall_rev; exact H).
  destruct (inc_rev_ok (rev l) HR) as (I1 & I2 & I3). split; [apply Forall_rev; exact I1|]. split; [rewrite rev_length, I2, rev_length; reflexivity|].
  rewrite (be_le (rev _)), rev_involutive, I3, (be_le l). unfold zlen. rewrite rev_length. reflexivity.
Qed.

Lemma aes_lawful : forall E nonce, all_bytes nonce -> length nonce = 16%nat -> (forall s, all_bytes (E s)) -> lawful (aes_cipher E nonce).
Proof.
  intros E nonce Hb L HE. split; [cbn; lia|]. split; [|exact HE]. intros n Hn Hn'. cbn [next seek aes_cipher].
  destruct (set_iv_ok nonce n Hb L ltac:(lia)) as (A1 & A2 & A3). destruct (set_iv_ok nonce (n + 1) Hb L ltac:(lia)) as (B1 & B2 & B3).
  destruct (inc_ok _ A1) as (C1 & C2 & C3). apply be_val_inj; auto; [lia|]. rewrite C3, A3, B3. unfold zlen. rewrite A2. change (256 ^ Z.of_nat 16) with (2 ^ 128).
  rewrite Zplus_mod_idemp_l. f_equal. lia.
Qed.

Lemma chacha_lawful : forall E, (forall s, all_bytes (E s)) -> lawful (chacha_cipher E).
Proof.
  intros E HE. split; [cbn; lia|]. split; [|exact HE]. intros n Hn Hn'. cbn [next seek chacha_cipher]. rewrite Zplus_mod_idemp_l. reflexivity.
Qed.

(** ** Streams *)

Lemma stream_byte : forall C a, lawful C -> is_byte (stream C a).
Proof.
  intros C a (_ & _ & H). unfold stream. destruct (Nat.lt_ge_cases (Z.to_nat (a mod EBS C)) (length (key_block C (seek C (a / EBS C))))) as [L|L].
  - specialize (H (seek C (a / EBS C))). unfold all_bytes in H. rewrite Forall_forall in H. apply H, nth_In, L.
  - rewrite nth_overflow by exact L. unfold is_byte. lia.
Qed.

Lemma process_stream : forall C data a, lawful C -> 0 <= a -> (a + zlen data) / EBS C < 2 ^ 32 ->
  process C (seek C (a / EBS C)) (a mod EBS C) data = (encrypted C a data, (seek C ((a + zlen data) / EBS C), (a + zlen data) mod EBS C)).
Proof.
  intros C data. induction data as [|b data IH]; intros a Lw Ha Hl.
  - cbn [process encrypted]. unfold zlen. cbn [length]. rewrite Z.add_0_r. reflexivity.
  - cbn [process encrypted]. destruct Lw as (HB & Nx & Kb).
    assert (EL : a + zlen (b :: data) = a + 1 + zlen data) by (unfold zlen; cbn [length]; lia). rewrite EL in *.
    pose proof (Z.mod_pos_bound a (EBS C) HB) as R. pose proof (Z.div_mod a (EBS C) ltac:(lia)) as DM.
    assert (SP : (if a mod EBS C + 1 <? EBS C then (seek C (a / EBS C), a mod EBS C + 1) else (next C (seek C (a / EBS C)), 0)) =
                 (seek C ((a + 1) / EBS C), (a + 1) mod EBS C)).
    { destruct (Z.ltb_spec (a mod EBS C + 1) (EBS C)) as [L|L].
      - assert (Q : (a + 1) / EBS C = a / EBS C) by (symmetry; apply (Z.div_unique_pos _ _ _ (a mod EBS C + 1)); lia).
        assert (M : (a + 1) mod EBS C = a mod EBS C + 1) by (symmetry; apply (Z.mod_unique_pos _ _ (a / EBS C)); lia). rewrite Q, M. reflexivity.
      - assert (Q : (a + 1) / EBS C = a / EBS C + 1) by (symmetry; apply (Z.div_unique_pos _ _ _ 0); lia).
        assert (M : (a + 1) mod EBS C = 0) by (symmetry; apply (Z.mod_unique_pos _ _ (a / EBS C + 1)); lia). rewrite Q, M.
        rewrite Nx; [reflexivity|apply Z.div_pos; lia|]. rewrite <- Q.
        apply Z.le_lt_trans with ((a + 1 + zlen data) / EBS C); [|exact Hl]. apply Z.div_le_mono; [exact HB|unfold zlen; lia]. }
    rewrite SP. rewrite IH; [reflexivity|split; [exact HB|split; assumption]|lia|exact Hl].
Qed.

Lemma encrypted_length : forall C P a, length (encrypted C a P) = length P.
Proof. intros C P. induction P as [|b P IH]; intro a; cbn [encrypted length]; auto. Qed.

Lemma encrypted_nth : forall C P a i d, (i < length P)%nat -> nth i (encrypted C a P) d = Z.lxor (nth i P d) (stream C (a + Z.of_nat i)).
Proof.
  intros C P. induction P as [|b P IH]; intros a i d H; cbn [length] in H; [lia|]. cbn [encrypted]. destruct i as [|i].
  - cbn [nth]. f_equal. f_equal. lia.
  - cbn [nth]. rewrite IH by lia. f_equal. f_equal. lia.
Qed.

Lemma encrypted_app : forall C P Q a, encrypted C a (P ++ Q) = encrypted C a P ++ encrypted C (a + zlen P) Q.
Proof.
  intros C P Q. induction P as [|b P IH]; intro a; cbn [encrypted app].
  - unfold zlen. cbn [length]. rewrite Z.add_0_r. reflexivity.
  - rewrite IH. f_equal. f_equal. f_equal. unfold zlen. cbn [length]. lia.
Qed.

Lemma encrypted_twice : forall C P a, encrypted C a (encrypted C a P) = P.
Proof.
  intros C P. induction P as [|b P IH]; intro a; cbn [encrypted]; [reflexivity|]. rewrite IH. rewrite Z.lxor_assoc, Z.lxor_nilpotent, Z.lxor_0_r. reflexivity.
Qed.

Lemma lxor_byte : forall a b, is_byte a -> is_byte b -> is_byte (Z.lxor a b).
Proof.
  unfold is_byte. intros a b Ha Hb. split; [apply Z.lxor_nonneg; lia|].
  destruct (Z.eq_dec (Z.lxor a b) 0) as [E|E]; [lia|].
  assert (Pos : 0 < Z.lxor a b) by (pose proof (proj2 (Z.lxor_nonneg a b) ltac:(lia)); lia).
  apply (Z.log2_lt_pow2 _ 8 Pos). apply Z.le_lt_trans with (Z.max (Z.log2 a) (Z.log2 b)); [apply Z.log2_lxor; lia|].
  apply Z.max_lub_lt.
  - destruct (Z.eq_dec a 0) as [ -> |]; [reflexivity|]. apply (Z.log2_lt_pow2 a 8); lia.
  - destruct (Z.eq_dec b 0) as [ -> |]; [reflexivity|]. apply (Z.log2_lt_pow2 b 8); lia.
Qed.

(** ** External flash *)

Lemma ext_read_len : forall f a n, 0 <= n -> zlen (ext_read f a n) = n.
Proof. intros f a n H. unfold ext_read, zlen. rewrite length_rdl. lia. Qed.

Lemma ext_read_app : forall f a n m, 0 <= n -> 0 <= m -> ext_read f a (n + m) = ext_read f a n ++ ext_read f (a + n) m.
Proof. intros f a n m Hn Hm. unfold ext_read. rewrite Z2Nat.inj_add by lia. rewrite rdl_app. do 2 f_equal. lia. Qed.

Lemma skipn_encrypted : forall C P a n, skipn n (encrypted C a P) = encrypted C (a + Z.of_nat n) (skipn n P).
Proof.
  intros C P. induction P as [|b P IH]; intros a [|n]; cbn [skipn encrypted]; try reflexivity; [f_equal; try f_equal; f_equal; lia|].
  rewrite IH. f_equal. lia.
Qed.

Lemma firstn_encrypted : forall C P a n, firstn n (encrypted C a P) = encrypted C a (firstn n P).
Proof. intros C P. induction P as [|b P IH]; intros a [|n]; cbn [firstn encrypted]; try reflexivity. rewrite IH. reflexivity. Qed.

Lemma skipn_ext_read : forall f a n k, 0 <= k <= n -> skipn (Z.to_nat k) (ext_read f a n) = ext_read f (a + k) (n - k).
Proof.
  intros f a n k H. assert (E : n = k + (n - k)) by lia. rewrite E at 1. rewrite ext_read_app by lia.
  rewrite skipn_app, skipn_all2; [|pose proof (ext_read_len f a k ltac:(lia)); unfold zlen in *; lia].
  replace (Z.to_nat k - length (ext_read f a k))%nat with 0%nat by (pose proof (ext_read_len f a k ltac:(lia)); unfold zlen in *; lia). reflexivity.
Qed.

Lemma firstn_ext_read : forall f a n k, 0 <= k <= n -> firstn (Z.to_nat k) (ext_read f a n) = ext_read f a k.
Proof. intros f a n k H. unfold ext_read. apply rdl_firstn. lia. Qed.

Lemma plain_block_spec : forall e a, 0 < EBS (EC e) -> plain_block e (a / EBS (EC e)) = (plain_from e <=? a).
Proof.
  intros e a HB. unfold plain_block, plain_from. set (q := (SFO e - EBS (EC e)) / EBS (EC e)). set (B := EBS (EC e)) in *.
  destruct (Z.leb_spec q (a / B)) as [L|L]; destruct (Z.leb_spec (q * B) a) as [M|M]; try reflexivity.
  - pose proof (Z.mul_div_le a B HB). nia.
  - assert (q <= a / B) by (apply Z.div_le_lower_bound; [exact HB|lia]). lia.
Qed.

Lemma in_update : forall e a, 0 <= a < PSZ e -> part_address e (UPD e + a) = EUPDATE.
Proof.
  intros e a H. unfold part_address. destruct (Z.leb_spec (UPD e) (UPD e + a)); [|lia]. destruct (Z.ltb_spec (UPD e + a) (UPD e + PSZ e)); [|lia]. reflexivity.
Qed.

Lemma upd_mod : forall e a, ext_ok e -> (UPD e + a) mod EBS (EC e) = a mod EBS (EC e).
Proof. intros e a ((HB & _) & HU & _). rewrite Z.add_mod, HU by lia. cbn [Z.add]. apply Z.mod_mod. lia. Qed.

Lemma div_bound : forall x B, 0 < B -> 0 <= x -> x < 2 ^ 32 -> x / B < 2 ^ 32.
Proof. intros x B HB Hx H. apply Z.le_lt_trans with x; [|exact H]. apply Z.div_le_upper_bound; [exact HB|]. nia. Qed.

(** Reading is decrypting the raw bytes in place. *)
Lemma dec_read_ok : forall e cur f a len, ext_ok e -> 0 <= a < plain_from e -> 0 <= len -> a + len <= PSZ e ->
  a mod EBS (EC e) = 0 \/ EBS (EC e) - a mod EBS (EC e) <= len ->
  dec_read e true cur f (UPD e + a) len = Val (len, encrypted (EC e) a (ext_read f (UPD e + a) len)).
Proof.
  intros e cur f a len HO Ha Hl Hs Hr. pose proof HO as (Lw & HU & U0 & HS & HP & _). pose proof Lw as (HB & _). unfold dec_read. rewrite (upd_mod e a HO).
  set (C := EC e) in *. set (B := EBS C) in *. set (r := a mod B) in *.
  assert (R : 0 <= r < B) by (apply Z.mod_pos_bound; exact HB).
  replace (UPD e + a - r) with (UPD e + (a - r)) by ring. replace (UPD e + a - UPD e) with a by ring.
  assert (PF : plain_from e <= SFO e - B) by (unfold plain_from; fold C B; pose proof (Z.mul_div_le (SFO e - B) B HB); lia).
  assert (AR : 0 <= a - r) by (unfold r; pose proof (Z.mod_le a B ltac:(lia) HB); lia).
  rewrite in_update by lia. replace (plain_block e (a / B)) with false by (unfold B, C; rewrite plain_block_spec by exact HB; symmetry; apply Z.leb_gt; lia).
  cbn [negb].
  assert (DR : (a - r) / B = a / B) by (unfold r; pose proof (Z.div_mod a B ltac:(lia)) as DM; symmetry; apply (Z.div_unique_pos _ _ _ 0); lia).
  assert (MR : (a - r) mod B = 0) by (unfold r; pose proof (Z.div_mod a B ltac:(lia)) as DM; symmetry; apply (Z.mod_unique_pos _ _ (a / B)); lia).
  destruct (Z.eqb_spec r 0) as [E0|E0]; cbn [negb andb].
  - assert (a mod B = 0) as AM by exact E0. set (n := len / B * B).
    assert (N : 0 <= n <= len) by (unfold n; pose proof (Z.mul_div_le len B HB); pose proof (Z.div_pos len B Hl HB); nia).
    assert (N' : len - n < B) by (unfold n; pose proof (Z.div_mod len B ltac:(lia)); pose proof (Z.mod_pos_bound len B HB); lia).
    assert (NM : n mod B = 0) by (unfold n; apply Z_mod_mult).
    destruct (Z.ltb_spec n 0) as [|_]; [lia|]. cbn [fst snd].
    replace (process C (seek C (a / B)) 0 (ext_read f (UPD e + a) n)) with (process C (seek C (a / B)) (a mod B) (ext_read f (UPD e + a) n)) by (rewrite AM; reflexivity).
    unfold B at 1 2. rewrite process_stream; [|exact Lw|lia|rewrite ext_read_len by lia; apply div_bound; [exact HB|lia|fold B C in HP |- *; lia]].
    rewrite ext_read_len by lia. cbn [fst snd]. fold B.
    rewrite process_stream; [|exact Lw|lia|rewrite ext_read_len by lia; apply div_bound; [exact HB|lia|fold B C in HP |- *; lia]].
    f_equal. f_equal. rewrite app_nil_l.
    assert (EX : encrypted C a (ext_read f (UPD e + a) len) = encrypted C a (ext_read f (UPD e + a) n) ++ encrypted C (a + n) (ext_read f (UPD e + a + n) (len - n))).
    { replace len with (n + (len - n)) at 1 by lia. rewrite ext_read_app by lia. rewrite encrypted_app, ext_read_len by lia. reflexivity. }
    rewrite EX. f_equal. destruct (Z.ltb_spec 0 (len - n)) as [L|L].
    + rewrite firstn_encrypted, firstn_ext_read by lia. reflexivity.
    + replace (len - n) with 0 by lia. reflexivity.
  - destruct Hr as [E|Hr]; [contradiction|]. fold r in Hr. destruct (Z.ltb_spec len (B - r)) as [|_]; [lia|]. cbn [fst snd].
    replace (process C (seek C (a / B)) 0 (ext_read f (UPD e + (a - r)) B)) with (process C (seek C ((a - r) / B)) ((a - r) mod B) (ext_read f (UPD e + (a - r)) B)) by (rewrite DR, MR; reflexivity).
    unfold B at 1 2. rewrite process_stream; [|exact Lw|lia|rewrite ext_read_len by lia; apply div_bound; [exact HB|lia|fold B C in HP |- *; lia]].
    rewrite ext_read_len by lia. fold B. cbn [fst snd].
    set (h := B - r) in *. replace (UPD e + a + h) with (UPD e + (a + h)) by ring. replace (a - r + B) with (a + h) by (unfold h; ring).
    set (n := (len - h) / B * B).
    assert (N : 0 <= n <= len - h) by (unfold n; pose proof (Z.mul_div_le (len - h) B HB); pose proof (Z.div_pos (len - h) B ltac:(lia) HB); nia).
    assert (N' : len - h - n < B) by (unfold n; pose proof (Z.div_mod (len - h) B ltac:(lia)); pose proof (Z.mod_pos_bound (len - h) B HB); lia).
    destruct (Z.ltb_spec n 0) as [|_]; [lia|].
    unfold B at 1 2. rewrite process_stream; [|exact Lw|lia|rewrite ext_read_len by lia; apply div_bound; [exact HB|lia|fold B C in HP |- *; lia]].
    rewrite ext_read_len by lia. cbn [fst snd]. fold B.
    rewrite process_stream; [|exact Lw|lia|rewrite ext_read_len by lia; apply div_bound; [exact HB|lia|fold B C in HP |- *; lia]].
    f_equal. f_equal.
    assert (EX : encrypted C a (ext_read f (UPD e + a) len) = encrypted C a (ext_read f (UPD e + a) h) ++ encrypted C (a + h) (ext_read f (UPD e + (a + h)) n) ++ encrypted C (a + h + n) (ext_read f (UPD e + (a + h) + n) (len - h - n))).
    { replace len with (h + (n + (len - h - n))) at 1 by lia. rewrite ext_read_app by lia. rewrite (ext_read_app f _ n) by lia. rewrite !encrypted_app, !ext_read_len by lia.
      replace (UPD e + a + h) with (UPD e + (a + h)) by ring. reflexivity. }
    rewrite EX. f_equal; [|f_equal].
    + rewrite skipn_encrypted, Z2Nat.id by lia. rewrite skipn_ext_read by lia. unfold h. replace (a - r + r) with a by ring. replace (UPD e + (a - r) + r) with (UPD e + a) by ring. reflexivity.
    + destruct (Z.ltb_spec 0 (len - h - n)) as [L|L].
      * rewrite firstn_encrypted, firstn_ext_read by lia. reflexivity.
      * replace (len - h - n) with 0 by lia. reflexivity.
Qed.

Lemma nth_skip : forall (l : list Z) n i d, nth i (skipn n l) d = nth (n + i) l d.
Proof. induction l as [|x l IH]; intros [|n] i d; cbn [skipn Nat.add nth]; try reflexivity; [destruct i; reflexivity|apply IH]. Qed.

Lemma stores_read : forall e f a P o len, ext_ok e -> stores e f a P -> 0 <= o -> 0 <= len -> o + len <= zlen P ->
  encrypted (EC e) (a + o) (ext_read f (UPD e + (a + o)) len) = firstn (Z.to_nat len) (skipn (Z.to_nat o) P).
Proof.
  intros e f a P o len _ S Ho Hl H. unfold zlen in H. apply (nth_ext _ _ 0 0).
  - rewrite encrypted_length, firstn_length, skipn_length. unfold ext_read. rewrite length_rdl. lia.
  - intros i Hi. rewrite encrypted_length in Hi. unfold ext_read in *. rewrite length_rdl in Hi. rewrite encrypted_nth by (rewrite length_rdl; exact Hi).
    rewrite rdl_nth by exact Hi. specialize (S (o + Z.of_nat i) ltac:(unfold zlen; lia)).
    replace (UPD e + (a + o) + Z.of_nat i) with (UPD e + a + (o + Z.of_nat i)) by ring. rewrite S.
    replace (a + o + Z.of_nat i) with (a + (o + Z.of_nat i)) by ring. rewrite Z.lxor_assoc, Z.lxor_nilpotent, Z.lxor_0_r.
    rewrite <- (nth_firstn_lt _ (Z.to_nat len)) by lia. rewrite nth_skip. f_equal. lia.
Qed.

Lemma ext_write_ok : forall f a buf n, 0 <= n <= zlen buf -> ext_write f a buf n = Val (write f a n (fun i => nth (Z.to_nat i) buf 0)).
Proof. intros f a buf n H. unfold ext_write. destruct (Z.leb_spec 0 n); [|lia]. destruct (Z.leb_spec n (zlen buf)); [|lia]. reflexivity. Qed.

(** Writing whole blocks. *)
Lemma enc_write_ok : forall e f a data len, ext_ok e -> 0 <= a -> a mod EBS (EC e) = 0 -> 0 < len -> len mod EBS (EC e) = 0 ->
  len <= CSZ e -> len <= zlen data -> a < plain_from e -> a + len <= PSZ e ->
  enc_write e true f (UPD e + a) data len =
    Val (0, write f (UPD e + a) len (fun i => nth (Z.to_nat i) (encrypted (EC e) a (firstn (Z.to_nat len) data)) 0)).
Proof.
  intros e f a data len HO Ha Am Hl Lm HC HD HP HS. pose proof HO as (Lw & HU & U0 & HSF & HPS & _). pose proof Lw as (HB & _).
  unfold enc_write. rewrite (upd_mod e a HO), Am. cbn [Z.eqb].
  assert (PF : plain_from e <= SFO e - EBS (EC e)) by (unfold plain_from; pose proof (Z.mul_div_le (SFO e - EBS (EC e)) (EBS (EC e)) HB); lia).
  rewrite in_update by lia. replace (UPD e + a - UPD e) with a by ring. rewrite plain_block_spec by exact HB.
  destruct (Z.leb_spec (plain_from e) a) as [|_]; [lia|]. cbn [negb].
  assert (LB : EBS (EC e) <= len).
  { pose proof (Z.div_mod len (EBS (EC e)) ltac:(lia)) as DM. assert (0 < len / EBS (EC e)) by nia. nia. }
  destruct (Z.ltb_spec len (EBS (EC e))) as [|_]; [lia|]. rewrite Z.ltb_irrefl. cbn [fst snd obind].
  assert (ST : len / EBS (EC e) * EBS (EC e) = len) by (pose proof (Z.div_mod len (EBS (EC e)) ltac:(lia)); lia). rewrite ST.
  destruct (Z.ltb_spec len 0) as [|_]; [lia|]. destruct (Z.ltb_spec (CSZ e) len) as [|_]; [lia|]. destruct (Z.ltb_spec (zlen data) len) as [|_]; [lia|]. cbn [orb].
  assert (ZL : zlen (firstn (Z.to_nat len) data) = len) by (unfold zlen in *; rewrite firstn_length; lia).
  replace (process (EC e) (seek (EC e) (a / EBS (EC e))) 0 (firstn (Z.to_nat len) data)) with
    (process (EC e) (seek (EC e) (a / EBS (EC e))) (a mod EBS (EC e)) (firstn (Z.to_nat len) data)) by (rewrite Am; reflexivity).
  rewrite process_stream; [|exact Lw|exact Ha|rewrite ZL; apply div_bound; [exact HB|lia|lia]].
  rewrite ext_write_ok; [reflexivity|]. unfold zlen in *. rewrite encrypted_length. lia.
Qed.

Lemma write_stores : forall e f a P, ext_ok e -> all_bytes P -> (forall i, 0 <= i < zlen P -> f (UPD e + a + i) = 255) ->
  stores e (write f (UPD e + a) (zlen P) (fun i => nth (Z.to_nat i) (encrypted (EC e) a P) 0)) a P.
Proof.
  intros e f a P HO HP HE i Hi. rewrite write_in by lia. rewrite HE by lia. replace (UPD e + a + i - (UPD e + a)) with i by ring.
  rewrite encrypted_nth by (unfold zlen in Hi; lia). rewrite Z2Nat.id by lia. apply land_255. apply lxor_byte; [|apply stream_byte; apply HO].
  unfold all_bytes in HP. rewrite Forall_forall in HP. apply HP, nth_In. unfold zlen in Hi. lia.
Qed.

(** ** Images *)

Definition pad_len (n : nat) : nat := ((ENC_BLOCK_SIZE - n mod ENC_BLOCK_SIZE) mod ENC_BLOCK_SIZE)%nat.

Lemma sign_encrypt_ok : forall fuel pad C file a, lawful C -> 0 <= a -> (length file <= fuel)%nat ->
  (a + zlen file + 16) / EBS C < 2 ^ 32 ->
  sign_encrypt fuel pad C (seek C (a / EBS C), a mod EBS C) file =
    Val (encrypted C a (file ++ (if pad then repeat 255 (pad_len (length file)) else []))).
Proof.
  induction fuel as [|fuel IH]; intros pad C file a Lw Ha Hf HL.
  - destruct file; [|cbn [length] in Hf; lia]. destruct pad; reflexivity.
  - destruct file as [|b file0]; [destruct pad; reflexivity|]. cbn [sign_encrypt]. set (file := b :: file0) in *.
    assert (HB : 0 < EBS C) by apply Lw. change (b :: file0) with file. cbn [fst snd].
    set (piece := if pad then firstn ENC_BLOCK_SIZE file ++ repeat 255 (ENC_BLOCK_SIZE - length (firstn ENC_BLOCK_SIZE file)) else firstn ENC_BLOCK_SIZE file).
    assert (LP : (length piece <= 16)%nat).
    { unfold piece. destruct pad; [rewrite app_length, repeat_length|]; rewrite firstn_length; unfold ENC_BLOCK_SIZE; lia. }
    rewrite process_stream; [|exact Lw|exact Ha|].
    2:{ apply Z.le_lt_trans with ((a + zlen file + 16) / EBS C); [|exact HL]. apply Z.div_le_mono; [exact HB|]. unfold zlen. lia. }
    cbn [obind]. destruct (Nat.le_gt_cases ENC_BLOCK_SIZE (length file)) as [L|L].
    + assert (EP : piece = firstn ENC_BLOCK_SIZE file).
      { unfold piece. destruct pad; [|reflexivity]. rewrite firstn_length_le by exact L. rewrite Nat.sub_diag. cbn [repeat]. apply app_nil_r. }
      rewrite EP in *. assert (ZP : zlen (firstn ENC_BLOCK_SIZE file) = 16) by (unfold zlen; rewrite firstn_length_le by exact L; reflexivity).
      rewrite IH; [|exact Lw|lia|rewrite skipn_length; unfold ENC_BLOCK_SIZE in *; lia|].
      2:{ rewrite ZP. apply Z.le_lt_trans with ((a + zlen file + 16) / EBS C); [|exact HL]. apply Z.div_le_mono; [exact HB|].
          unfold zlen. rewrite skipn_length. unfold ENC_BLOCK_SIZE in *. lia. }
      cbn [obind]. f_equal. rewrite <- encrypted_app. f_equal. rewrite app_assoc, firstn_skipn. f_equal.
      destruct pad; [|reflexivity]. f_equal. unfold pad_len. rewrite skipn_length.
      replace (length file) with (length file - ENC_BLOCK_SIZE + 1 * ENC_BLOCK_SIZE)%nat at 2 by lia. rewrite Nat.mod_add by (unfold ENC_BLOCK_SIZE; lia). reflexivity.
    + rewrite skipn_all2 by lia. destruct fuel; cbn [sign_encrypt obind]; rewrite app_nil_r; do 2 f_equal; unfold piece; rewrite firstn_all2 by lia;
        (destruct pad; [|rewrite app_nil_r; reflexivity]); f_equal; f_equal; unfold pad_len;
        rewrite (Nat.mod_small (length file)) by exact L; symmetry; apply Nat.mod_small; unfold file, ENC_BLOCK_SIZE in *; cbn [length]; lia.
Qed.

Lemma ram_blocks_ok : forall k fuel C src iv total, lawful C -> 0 <= iv -> iv + Z.of_nat k < 2 ^ 32 -> (k <= fuel)%nat ->
  Z.of_nat k * EBS C <= zlen src -> total <= (iv + Z.of_nat k) * EBS C -> k = 0%nat \/ (iv + Z.of_nat k - 1) * EBS C < total ->
  ram_blocks fuel C src iv total = Val (encrypted C (iv * EBS C) (firstn (Z.to_nat (Z.of_nat k * EBS C)) src)).
Proof.
  induction k as [|k IH]; intros fuel C src iv total Lw Hiv Hm Hf Hs Ht Hk; assert (HB : 0 < EBS C) by apply Lw.
  - assert (E : iv * EBS C <? total = false) by (apply Z.ltb_ge; rewrite Z.add_0_r in Ht; lia). destruct fuel; cbn [ram_blocks]; rewrite E; reflexivity.
  - destruct Hk as [|Hk]; [discriminate|]. destruct fuel as [|fuel]; [lia|]. cbn [ram_blocks].
    assert (E : iv * EBS C <? total = true) by (apply Z.ltb_lt; nia). rewrite E.
    destruct (Z.ltb_spec (zlen src) (EBS C)) as [L|L]; [nia|].
    assert (ZF : zlen (firstn (Z.to_nat (EBS C)) src) = EBS C) by (unfold zlen in *; rewrite firstn_length; lia).
    assert (P : process C (seek C iv) 0 (firstn (Z.to_nat (EBS C)) src) = (encrypted C (iv * EBS C) (firstn (Z.to_nat (EBS C)) src), (seek C (iv + 1), 0))).
    { pose proof (process_stream C (firstn (Z.to_nat (EBS C)) src) (iv * EBS C) Lw ltac:(nia)) as PS.
      rewrite Z.div_mul, Z_mod_mult, ZF in PS by lia. replace (iv * EBS C + EBS C) with ((iv + 1) * EBS C) in PS by ring.
      rewrite Z.div_mul, Z_mod_mult in PS by lia. apply PS. lia. }
    rewrite P. rewrite IH; [|exact Lw|lia|lia|lia| |nia|destruct k; [left; reflexivity|right; nia]].
    2:{ unfold zlen in *. rewrite skipn_length. nia. }
    cbn [obind]. f_equal. replace ((iv + 1) * EBS C) with (iv * EBS C + zlen (firstn (Z.to_nat (EBS C)) src)) by (rewrite ZF; ring).
    rewrite <- encrypted_app. f_equal. replace (Z.to_nat (Z.of_nat (S k) * EBS C)) with (Z.to_nat (EBS C) + Z.to_nat (Z.of_nat k * EBS C))%nat by nia.
    generalize (Z.to_nat (EBS C)) (Z.to_nat (Z.of_nat k * EBS C)). clear. intros n m. revert src. induction n as [|n IH]; intros src; [reflexivity|].
    destruct src as [|x src]; cbn [firstn skipn app Nat.add]; [destruct m; reflexivity|]. rewrite <- IH. reflexivity.
Qed.

(** Number of blocks covering [n] bytes. *)
Definition blocks_of (C : cipher) (n : Z) : Z := (n + EBS C - 1) / EBS C.

Lemma blocks_of_ok : forall C n, 0 < EBS C -> 0 <= n -> 0 <= blocks_of C n /\ n <= blocks_of C n * EBS C < n + EBS C /\
  (blocks_of C n = 0 \/ (blocks_of C n - 1) * EBS C < n).
Proof.
  intros C n HB Hn. unfold blocks_of. pose proof (Z.div_mod (n + EBS C - 1) (EBS C) ltac:(lia)) as DM. pose proof (Z.mod_pos_bound (n + EBS C - 1) (EBS C) HB) as MB.
  pose proof (Z.div_pos (n + EBS C - 1) (EBS C) ltac:(lia) HB). split; [assumption|]. split; [nia|right; nia].
Qed.

Lemma ram_blocks_total : forall C src total, lawful C -> 0 <= total -> total + EBS C < 2 ^ 32 -> blocks_of C total * EBS C <= zlen src ->
  ram_blocks (length src) C src 0 total = Val (encrypted C 0 (firstn (Z.to_nat (blocks_of C total * EBS C)) src)).
Proof.
  intros C src total Lw Ht Hm Hs. assert (HB : 0 < EBS C) by apply Lw. destruct (blocks_of_ok C total HB Ht) as (K0 & K1 & K2). set (K := blocks_of C total) in *.
  pose proof (ram_blocks_ok (Z.to_nat K) (length src) C src 0 total Lw) as RB. rewrite Z2Nat.id in RB by lia. rewrite Z.mul_0_l in RB. apply RB; clear RB.
  - lia.
  - nia.
  - unfold zlen in Hs. nia.
  - exact Hs.
  - lia.
  - destruct K2; [left|right]; lia.
Qed.

Lemma ram_decrypt_ok : forall C hdr file rest, lawful C -> 8 <= hdr -> hdr <= zlen file -> zlen file + EBS C < 2 ^ 32 ->
  le_val (firstn 4 file) = WOLFBOOT_MAGIC -> zlen file = hdr + le_val (firstn 4 (skipn 4 file)) ->
  zlen file + EBS C - 1 <= zlen rest ->
  firstn (length file) rest = encrypted C 0 file ->
  exists d, ram_decrypt C true hdr rest = Val (Some d) /\ firstn (length file) d = file /\ zlen d = blocks_of C (zlen file) * EBS C.
Proof.
  intros C hdr file rest Lw H8 Hh Hm HM HL HR HF. assert (HB : 0 < EBS C) by apply Lw.
  destruct (blocks_of_ok C hdr HB ltac:(lia)) as (A0 & A1 & _). destruct (blocks_of_ok C (zlen file) HB ltac:(lia)) as (B0 & B1 & _).
  unfold ram_decrypt. cbn [negb]. unfold decrypt_header. rewrite ram_blocks_total by (auto; lia). cbn [obind].
  assert (PRE : forall n k, Z.of_nat k <= n -> n <= zlen rest -> Z.of_nat k <= zlen file -> firstn k (encrypted C 0 (firstn (Z.to_nat n) rest)) = firstn k file).
  { intros n k K1 K2 K3. rewrite firstn_encrypted, firstn_firstn, Nat.min_l by lia.
    assert (E : firstn k rest = firstn k (encrypted C 0 file)) by (rewrite <- HF, firstn_firstn, Nat.min_l by (unfold zlen in K3; lia); reflexivity).
    rewrite E, <- firstn_encrypted, encrypted_twice. reflexivity. }
  set (D := encrypted C 0 (firstn (Z.to_nat (blocks_of C hdr * EBS C)) rest)) in *.
  assert (P4 : firstn 4 D = firstn 4 file) by (apply PRE; lia). assert (P8 : firstn 8 D = firstn 8 file) by (apply PRE; lia).
  rewrite P4, HM, Z.eqb_refl. cbv iota. cbn [obind].
  assert (E44 : firstn 4 (skipn 4 D) = firstn 4 (skipn 4 file)) by (rewrite !firstn_skipn_comm; cbn [Nat.add]; rewrite P8; reflexivity).
  rewrite E44. replace (le_val (firstn 4 (skipn 4 file)) + hdr) with (zlen file) by lia. rewrite Z.mod_small by lia.
  rewrite ram_blocks_total by (auto; lia). cbn [obind]. eexists. split; [reflexivity|]. split.
  - rewrite PRE; [apply firstn_all|unfold zlen in *; lia|lia|unfold zlen; lia].
  - unfold zlen in *. rewrite encrypted_length, firstn_length. lia.
Qed.

(** ** The key *)

Lemma set_key_run : forall c k f, 0 < SECT c -> bytes f -> all_bytes k -> 0 < zlen k ->
  let a := secret_addr c (zlen k) in
  4 <= a mod SECT c -> a mod SECT c + zlen k <= SECT c ->
  exists f', run (set_key c k) f = Done tt f' /\ get_key c (zlen k) f' = k /\
    (forall i, 0 <= i < 4 -> f' (a - 4 + i) = magic_byte i) /\ (forall x, ~ (a - 4 <= x < a + zlen k) -> f' x = f x).
Proof.
  intros c k f HS Hf Hk Hn a H4 HE. unfold set_key, get_key. fold a. clearbody a. cbn [bind get run]. eexists. split; [reflexivity|].
  pose proof (Z.div_mod a (SECT c) ltac:(lia)) as DM. set (al := a / SECT c * SECT c). set (off := a mod SECT c) in *. assert (EA : a = al + off) by (unfold al; rewrite Z.mul_comm; exact DM).
  assert (MB : forall i, is_byte (magic_byte i)).
  { intro i. unfold magic_byte. assert (AB : all_bytes (le_bytes 4 WOLFBOOT_MAGIC_TRAIL)) by (cbv; repeat (constructor; [split; [discriminate|reflexivity]|]); constructor).
    destruct (Nat.lt_ge_cases (Z.to_nat i) 4) as [L|L].
    - unfold all_bytes in AB. rewrite Forall_forall in AB. apply AB, nth_In. exact L.
    - rewrite nth_overflow by exact L. unfold is_byte. lia. }
  assert (KB : forall i, 0 <= i < zlen k -> is_byte (nth (Z.to_nat i) k 0)).
  { intros i Hi. unfold all_bytes in Hk. rewrite Forall_forall in Hk. apply Hk, nth_In. unfold zlen in Hi. lia. }
  set (g := fun i => if inr (off - 4) 4 i then magic_byte (i - (off - 4)) else if inr off (zlen k) i then nth (Z.to_nat (i - off)) k 0 else f (al + i)).
  assert (V : forall i, 0 <= i < SECT c -> write (erase f al (SECT c)) al (SECT c) g (al + i) = g i).
  { intros i Hi. rewrite write_in, erase_in by lia. replace (al + i - al) with i by ring. apply land_255. unfold g.
    destruct (inr (off - 4) 4 i) eqn:E1; [apply MB|]. destruct (inr off (zlen k) i) eqn:E2; [|apply Hf]. apply inr_true in E2. apply KB. lia. }
  assert (VO : forall x, ~ (al <= x < al + SECT c) -> write (erase f al (SECT c)) al (SECT c) g x = f x).
  { intros x Hx. rewrite write_out, erase_out by lia. reflexivity. }
  fold g. split; [|split].
  - unfold ext_read. apply (nth_ext _ _ 0 0); [rewrite length_rdl; unfold zlen; lia|]. intros i Hi. rewrite length_rdl in Hi.
    rewrite rdl_nth by exact Hi. replace (a + Z.of_nat i) with (al + (off + Z.of_nat i)) by lia. rewrite V by lia. unfold g.
    replace (inr (off - 4) 4 (off + Z.of_nat i)) with false by (symmetry; apply inr_false; lia).
    replace (inr off (zlen k) (off + Z.of_nat i)) with true by (symmetry; apply inr_true; lia). f_equal. lia.
  - intros i Hi. replace (a - 4 + i) with (al + (off - 4 + i)) by lia. rewrite V by lia. unfold g.
    replace (inr (off - 4) 4 (off - 4 + i)) with true by (symmetry; apply inr_true; lia). f_equal. lia.
  - intros x Hx. destruct (inr al (SECT c) x) eqn:E; [|apply VO; apply inr_false; exact E]. apply inr_true in E.
    replace x with (al + (x - al)) by lia. rewrite V by lia. unfold g.
    replace (inr (off - 4) 4 (x - al)) with false by (symmetry; apply inr_false; lia).
    replace (inr off (zlen k) (x - al)) with false by (symmetry; apply inr_false; lia). f_equal. 
Qed.

Lemma forallb_repeat : forall b n, forallb (fun x => x =? b) (repeat b n) = true.
Proof. intros b n. induction n as [|n IH]; [reflexivity|]. cbn [repeat forallb]. rewrite Z.eqb_refl. exact IH. Qed.

Lemma forallb_all : forall b l, forallb (fun x => x =? b) l = true -> l = repeat b (length l).
Proof.
  intros b l. induction l as [|x l IH]; intro H; [reflexivity|]. cbn [forallb] in H. apply andb_prop in H as (H1 & H2). apply Z.eqb_eq in H1. subst x.
  cbn [length repeat]. rewrite <- IH by exact H2. reflexivity.
Qed.
