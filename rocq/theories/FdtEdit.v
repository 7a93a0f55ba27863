(** Changes of a blob that holds a device tree. *)
From Verif Require Import Base BaseLemmas StringModel FdtModel FdtSpec FdtProofs FdtTree FdtRead.
Local Ltac Zify.zify_post_hook ::= idtac.

Lemma zlen_0 : forall A (l : list A), zlen l = 0 -> l = [].
Proof. intros A [|x l] H; [reflexivity|]. zsi H. pose proof (zlen_nn _ l). lia. Qed.
Lemma to_nat_zlen : forall A (l : list A), Z.to_nat (zlen l) = length l.
Proof. intros. unfold zlen. lia. Qed.
Lemma stb_at : forall A x E y a, zlen y = zlen x -> a = zlen A -> stb (A ++ x ++ E) a y = Val (A ++ y ++ E).
Proof.
  intros A x E y a L ->. unfold stb. pose proof (zlen_nn _ A). pose proof (zlen_nn _ E). pose proof (zlen_nn _ x). destruct (Z.leb_spec (zlen y) 0).
  - rewrite (zlen_0 _ y) by lia. rewrite (zlen_0 _ x) by lia. reflexivity.
  - destruct (Z.ltb_spec (zlen A) 0); [lia|]. zs. destruct (Z.ltb_spec (zlen A + (zlen x + zlen E)) (zlen A + zlen y)); [lia|]. cbn [orb]. do 2 f_equal; [|f_equal].
    + rewrite to_nat_zlen, firstn_app, firstn_all, Nat.sub_diag. cbn [firstn]. apply app_nil_r.
    + replace (Z.to_nat (zlen A + zlen y)) with (length (A ++ x)) by (rewrite app_length; unfold zlen in *; lia).
      rewrite app_assoc, skipn_app, skipn_all, Nat.sub_diag. reflexivity.
Qed.

Lemma same_tail_refl : forall n b, same_tail n b b.
Proof. intros. split; reflexivity. Qed.
Lemma same_tail_trans : forall n a b c, same_tail n a b -> same_tail n b c -> same_tail n a c.
Proof. intros n a b c [A B] [C D]. split; congruence. Qed.
Lemma same_tail_part : forall n A x y E, zlen x = zlen y -> zlen A + zlen x <= n -> same_tail n (A ++ x ++ E) (A ++ y ++ E).
Proof.
  intros n A x y E L B. split; [zs; lia|]. rewrite !(app_assoc A). rewrite (skipn_app _ (A ++ x)), (skipn_app _ (A ++ y)). rewrite !app_length. unfold zlen in *.
  assert (L' : length y = length x) by (apply Nat2Z.inj; symmetry; exact L). rewrite (skipn_all2 (A ++ x)), (skipn_all2 (A ++ y)) by (rewrite app_length, ?L'; lia). rewrite L'. reflexivity.
Qed.

Lemma split_at : forall A (l : list A) n, 0 <= n <= zlen l -> exists x y, l = x ++ y /\ zlen x = n.
Proof.
  intros A l n H. exists (firstn (Z.to_nat n) l), (skipn (Z.to_nat n) l). split; [symmetry; apply firstn_skipn|]. unfold zlen in *. rewrite firstn_length. lia.
Qed.
Lemma bytes_app : forall a b, all_bytes (a ++ b) <-> all_bytes a /\ all_bytes b.
Proof. intros. unfold all_bytes. apply Forall_app. Qed.

(** ** Moving the rest *)

Lemma splice_ok : forall b P old rest slack tot newlen, b = P ++ old ++ rest ++ slack -> data_size b = zlen P + zlen old + zlen rest -> totalsize b = tot ->
  zlen P + zlen old + zlen rest <= tot -> tot <= zlen b -> 0 <= newlen -> all_bytes b ->
  if tot <? zlen P + zlen rest + newlen then splice b (zlen P) (zlen old) newlen = Val (ERR_NOSPACE, b)
  else exists mid slack', splice b (zlen P) (zlen old) newlen = Val (0, P ++ mid ++ rest ++ slack') /\ zlen mid = newlen /\
    all_bytes (P ++ mid ++ rest ++ slack') /\ same_tail tot b (P ++ mid ++ rest ++ slack').
Proof.
  intros b P old rest slack tot newlen Eb Ed Et L1 L2 Hn B. pose proof (zlen_nn _ P). pose proof (zlen_nn _ old). pose proof (zlen_nn _ rest). pose proof (zlen_nn _ slack).
  assert (Lb : zlen b = zlen P + zlen old + zlen rest + zlen slack) by (rewrite Eb; zs; lia).
  unfold splice. rewrite Ed, Et. destruct (Z.ltb_spec (zlen P + zlen old) (zlen P)); [lia|]. destruct (Z.ltb_spec (zlen P + zlen old + zlen rest) (zlen P + zlen old)); [lia|].
  destruct (Z.ltb_spec (zlen P) 0); [lia|]. destruct (Z.ltb_spec (zlen P + zlen old + zlen rest - zlen old + newlen) 0); [lia|]. cbn [orb].
  replace (zlen P + zlen old + zlen rest - zlen old + newlen) with (zlen P + zlen rest + newlen) by lia.
  destruct (Z.ltb_spec tot (zlen P + zlen rest + newlen)); [reflexivity|].
  replace (zlen P + zlen old + zlen rest - zlen P - zlen old) with (zlen rest) by lia. unfold mv.
  assert (Hr : holds b (zlen P + zlen old) rest) by (exists (P ++ old), slack; split; [rewrite Eb, <- !app_assoc; reflexivity|zs; reflexivity]).
  rewrite (holds_lds _ _ _ Hr). cbn [obind].
  destruct (split_at _ (old ++ rest ++ slack) newlen) as (mid & m2 & E1 & Lm); [zs; lia|].
  assert (L3 : zlen mid + zlen m2 = zlen old + zlen rest + zlen slack) by (pose proof (f_equal zlen E1) as X; zsi X; lia).
  destruct (split_at _ m2 (zlen rest)) as (x & slack' & E2 & Lx); [lia|]. exists mid, slack'.
  assert (Eb' : b = (P ++ mid) ++ x ++ slack') by (rewrite Eb, E1, E2, <- !app_assoc; reflexivity).
  rewrite Eb' at 1. rewrite (stb_at (P ++ mid) x slack' rest) by (zs; lia). cbn [obind]. rewrite <- app_assoc. split; [reflexivity|]. split; [exact Lm|]. split.
  - pose proof B as B0. rewrite Eb in B0. rewrite Eb' in B. apply bytes_app in B. destruct B as [Bp B]. apply bytes_app in B. destruct B as [Bx Bs]. apply bytes_app in Bp. destruct Bp as [Bp Bm].
    apply bytes_app in B0. destruct B0 as [_ B0]. apply bytes_app in B0. destruct B0 as [_ B0]. apply bytes_app in B0. destruct B0 as [B0 _].
    repeat (apply bytes_app; split; try assumption).
  - rewrite Eb'. rewrite (app_assoc P mid (rest ++ slack')). apply same_tail_part; [lia|]. zs. lia.
Qed.

(** ** The parts of a blob *)

Definition raw (b : blob) (d : dt) (st gap strs slack : list Z) : Prop :=
  let os := 40 + zlen (d_pre d) in
  let oss := os + zlen st + zlen gap in
  b = header (d_total d) os oss (d_rsv d) (d_comp d) (d_cpu d) (zlen strs) (zlen st) ++ d_pre d ++ st ++ gap ++ strs ++ slack /\
  oss + zlen strs <= d_total d <= zlen b /\ zlen b < 2 ^ 31 /\
  0 <= d_rsv d < 2 ^ 32 /\ 0 <= d_comp d <= 17 /\ 0 <= d_cpu d < 2 ^ 32 /\ all_bytes b.
Definition uses (d : dt) (st gap strs : list Z) : Z := 40 + zlen (d_pre d) + zlen st + zlen gap + zlen strs.
Lemma dtb_raw : forall b d used, dtb b d used <-> exists st gap strs slack, raw b d st gap strs slack /\ used = uses d st gap strs /\
  Forall good_tok (flat (d_tree d)) /\ are_toks strs (flat (d_tree d) ++ [KFin]) st.
Proof.
  intros b d used. unfold dtb, raw, uses. cbv zeta. split.
  - intros (st & gap & strs & slack & H0 & H1 & H2 & H3 & H4 & H5 & H6 & H7 & H8 & H9). exists st, gap, strs, slack. subst used. repeat (split; [assumption|]). tauto.
  - intros (st & gap & strs & slack & (H0 & H1 & H2 & H3 & H4 & H5 & H6) & H7 & H8 & H9). exists st, gap, strs, slack. subst used. repeat (split; [assumption || reflexivity|]). tauto.
Qed.
Lemma raw_fields : forall b d st gap strs slack, raw b d st gap strs slack ->
  totalsize b = d_total d /\ off_struct b = 40 + zlen (d_pre d) /\ off_strings b = 40 + zlen (d_pre d) + zlen st + zlen gap /\ size_strings b = zlen strs /\ size_struct b = zlen st /\
  data_size b = uses d st gap strs.
Proof.
  intros b d st gap strs slack (Eb & L1 & L2 & R1 & R2 & R3 & B). cbv zeta in *.
  pose proof (zlen_nn _ (d_pre d)). pose proof (zlen_nn _ st). pose proof (zlen_nn _ gap). pose proof (zlen_nn _ strs).
  destruct (header_fields b _ _ _ _ _ _ _ _ _ Eb) as (_ & F1 & F2 & F3 & _ & _ & F6 & F7); try lia. repeat (split; [assumption|]).
  unfold data_size, uses. rewrite F3, F6. apply to_int_small. lia.
Qed.
Lemma set_size_struct : forall tot os oss rsv comp cpu sss ss r v, 0 <= v < 2 ^ 32 ->
  set_h32 (header tot os oss rsv comp cpu sss ss ++ r) 9 v = Val (header tot os oss rsv comp cpu sss v ++ r).
Proof.
  intros. unfold set_h32. rewrite be32b_be32, Z.mod_small by assumption. unfold header.
  replace ((be32 3490578157 ++ be32 tot ++ be32 os ++ be32 oss ++ be32 rsv ++ be32 17 ++ be32 comp ++ be32 cpu ++ be32 sss ++ be32 ss) ++ r)
    with ((be32 3490578157 ++ be32 tot ++ be32 os ++ be32 oss ++ be32 rsv ++ be32 17 ++ be32 comp ++ be32 cpu ++ be32 sss) ++ be32 ss ++ r) by (rewrite <- !app_assoc; reflexivity).
  rewrite stb_at by reflexivity. rewrite <- !app_assoc. reflexivity.
Qed.
Lemma set_size_strings : forall tot os oss rsv comp cpu sss ss r v, 0 <= v < 2 ^ 32 ->
  set_h32 (header tot os oss rsv comp cpu sss ss ++ r) 8 v = Val (header tot os oss rsv comp cpu v ss ++ r).
Proof.
  intros. unfold set_h32. rewrite be32b_be32, Z.mod_small by assumption. unfold header.
  replace ((be32 3490578157 ++ be32 tot ++ be32 os ++ be32 oss ++ be32 rsv ++ be32 17 ++ be32 comp ++ be32 cpu ++ be32 sss ++ be32 ss) ++ r)
    with ((be32 3490578157 ++ be32 tot ++ be32 os ++ be32 oss ++ be32 rsv ++ be32 17 ++ be32 comp ++ be32 cpu) ++ be32 sss ++ be32 ss ++ r) by (rewrite <- !app_assoc; reflexivity).
  rewrite stb_at by reflexivity. rewrite <- !app_assoc. reflexivity.
Qed.
Lemma set_off_strings : forall tot os oss rsv comp cpu sss ss r v, 0 <= v < 2 ^ 32 ->
  set_h32 (header tot os oss rsv comp cpu sss ss ++ r) 3 v = Val (header tot os v rsv comp cpu sss ss ++ r).
Proof.
  intros. unfold set_h32. rewrite be32b_be32, Z.mod_small by assumption. unfold header.
  replace ((be32 3490578157 ++ be32 tot ++ be32 os ++ be32 oss ++ be32 rsv ++ be32 17 ++ be32 comp ++ be32 cpu ++ be32 sss ++ be32 ss) ++ r)
    with ((be32 3490578157 ++ be32 tot ++ be32 os) ++ be32 oss ++ be32 rsv ++ be32 17 ++ be32 comp ++ be32 cpu ++ be32 sss ++ be32 ss ++ r) by (rewrite <- !app_assoc; reflexivity).
  rewrite stb_at by reflexivity. rewrite <- !app_assoc. reflexivity.
Qed.
Lemma set_total : forall tot os oss rsv comp cpu sss ss r v, 0 <= v < 2 ^ 32 ->
  set_h32 (header tot os oss rsv comp cpu sss ss ++ r) 1 v = Val (header v os oss rsv comp cpu sss ss ++ r).
Proof.
  intros. unfold set_h32. rewrite be32b_be32, Z.mod_small by assumption. unfold header.
  replace ((be32 3490578157 ++ be32 tot ++ be32 os ++ be32 oss ++ be32 rsv ++ be32 17 ++ be32 comp ++ be32 cpu ++ be32 sss ++ be32 ss) ++ r)
    with (be32 3490578157 ++ be32 tot ++ be32 os ++ be32 oss ++ be32 rsv ++ be32 17 ++ be32 comp ++ be32 cpu ++ be32 sss ++ be32 ss ++ r) by (rewrite <- !app_assoc; reflexivity).
  rewrite stb_at by reflexivity. rewrite <- !app_assoc. reflexivity.
Qed.
Lemma header_bytes : forall a b c d e f g h, all_bytes (header a b c d e f g h).
Proof. intros. unfold header. repeat (apply bytes_app; split); apply be32_bytes. Qed.

(** Overwriting a part of the structure block. *)
Lemma raw_stb : forall b d x y z y' gap strs slack a, raw b d (x ++ y ++ z) gap strs slack -> zlen y' = zlen y -> all_bytes y' -> a = 40 + zlen (d_pre d) + zlen x ->
  exists b', stb b a y' = Val b' /\ raw b' d (x ++ y' ++ z) gap strs slack /\ same_tail (d_total d) b b'.
Proof.
  intros b d x y z y' gap strs slack a (Eb & L1 & L2 & R1 & R2 & R3 & B) Ly By ->. cbv zeta in *.
  set (H := header (d_total d) (40 + zlen (d_pre d)) (40 + zlen (d_pre d) + zlen (x ++ y ++ z) + zlen gap) (d_rsv d) (d_comp d) (d_cpu d) (zlen strs) (zlen (x ++ y ++ z))) in *.
  assert (Eb' : b = (H ++ d_pre d ++ x) ++ y ++ (z ++ gap ++ strs ++ slack)) by (rewrite Eb, <- !app_assoc; reflexivity).
  assert (LH : zlen (H ++ d_pre d ++ x) = 40 + zlen (d_pre d) + zlen x) by (zs; unfold H; rewrite header_len; lia).
  assert (Ls : zlen (x ++ y' ++ z) = zlen (x ++ y ++ z)) by (zs; lia).
  exists ((H ++ d_pre d ++ x) ++ y' ++ (z ++ gap ++ strs ++ slack)). split; [|split].
  - rewrite Eb'. apply stb_at; [exact Ly|lia].
  - unfold raw. cbv zeta. rewrite Ls. fold H. split; [rewrite <- !app_assoc; reflexivity|].
    assert (Lb : zlen ((H ++ d_pre d ++ x) ++ y' ++ z ++ gap ++ strs ++ slack) = zlen b) by (rewrite Eb'; zs; lia). rewrite Lb.
    repeat (split; [assumption|]). rewrite Eb' in B. apply bytes_app in B. destruct B as [B1 B]. apply bytes_app in B. destruct B as [_ B2]. apply bytes_app; split; [exact B1|]. apply bytes_app; split; assumption.
  - rewrite Eb'. apply same_tail_part; [lia|]. rewrite LH. zsi L1. pose proof (zlen_nn _ z). pose proof (zlen_nn _ gap). pose proof (zlen_nn _ strs). lia.
Qed.

(** Opening or closing a gap in the structure block. *)
Lemma splice_struct_ok : forall b d s1 old s2 gap strs slack newlen p, raw b d (s1 ++ old ++ s2) gap strs slack -> 0 <= newlen -> p = 40 + zlen (d_pre d) + zlen s1 ->
  if d_total d <? uses d (s1 ++ old ++ s2) gap strs - zlen old + newlen then splice_struct b p (zlen old) newlen = Val (ERR_NOSPACE, b)
  else exists mid slack' b', splice_struct b p (zlen old) newlen = Val (0, b') /\ zlen mid = newlen /\ raw b' d (s1 ++ mid ++ s2) gap strs slack' /\ same_tail (d_total d) b b'.
Proof.
  intros b d s1 old s2 gap strs slack newlen p R Hn ->. destruct (raw_fields _ _ _ _ _ _ R) as (F1 & F2 & F3 & F4 & F5 & F6). pose proof R as (Eb & L1 & L2 & R1 & R2 & R3 & B). cbv zeta in *.
  set (os := 40 + zlen (d_pre d)) in *. set (oss := os + zlen (s1 ++ old ++ s2) + zlen gap) in *.
  set (H := header (d_total d) os oss (d_rsv d) (d_comp d) (d_cpu d) (zlen strs) (zlen (s1 ++ old ++ s2))) in *.
  assert (Eb' : b = (H ++ d_pre d ++ s1) ++ old ++ (s2 ++ gap ++ strs) ++ slack) by (rewrite Eb, <- !app_assoc; reflexivity).
  assert (LH : zlen (H ++ d_pre d ++ s1) = os + zlen s1) by (zs; unfold H; rewrite header_len; lia).
  assert (Eu : uses d (s1 ++ old ++ s2) gap strs = os + zlen s1 + zlen old + zlen (s2 ++ gap ++ strs)) by (unfold uses; zs; lia).
  assert (Eo : oss + zlen strs = uses d (s1 ++ old ++ s2) gap strs) by (unfold oss, uses; zs; lia).
  pose proof (splice_ok b (H ++ d_pre d ++ s1) old (s2 ++ gap ++ strs) slack (d_total d) newlen Eb' ltac:(lia) F1 ltac:(lia) ltac:(lia) Hn B) as S1.
  rewrite LH in S1. replace (os + zlen s1 + zlen (s2 ++ gap ++ strs) + newlen) with (uses d (s1 ++ old ++ s2) gap strs - zlen old + newlen) in S1 by lia.
  unfold splice_struct. destruct (d_total d <? uses d (s1 ++ old ++ s2) gap strs - zlen old + newlen) eqn:Room.
  - rewrite S1. reflexivity.
  - destruct S1 as (mid & slack' & -> & Lm & B' & T). cbn [obind]. change (0 =? 0) with true. cbn iota. apply Z.ltb_ge in Room.
    set (b1 := (H ++ d_pre d ++ s1) ++ mid ++ (s2 ++ gap ++ strs) ++ slack') in *.
    assert (E1 : b1 = H ++ d_pre d ++ s1 ++ mid ++ s2 ++ gap ++ strs ++ slack') by (unfold b1; rewrite <- !app_assoc; reflexivity).
    pose proof (zlen_nn _ (d_pre d)). pose proof (zlen_nn _ s1). pose proof (zlen_nn _ s2). pose proof (zlen_nn _ old). pose proof (zlen_nn _ gap). pose proof (zlen_nn _ strs). pose proof T as [Tl _].
    pose proof (zlen_nn _ mid) as Nm. assert (Lst : zlen (s1 ++ old ++ s2) = zlen s1 + zlen old + zlen s2) by (zs; lia). assert (Lst' : zlen (s1 ++ mid ++ s2) = zlen s1 + zlen mid + zlen s2) by (zs; lia).
    assert (Eu' : uses d (s1 ++ old ++ s2) gap strs = os + zlen s1 + zlen old + zlen s2 + zlen gap + zlen strs) by (unfold uses; rewrite Lst; unfold os; lia).
    assert (Eoss0 : oss = os + zlen s1 + zlen old + zlen s2 + zlen gap) by (unfold oss; rewrite Lst; lia).
    assert (Lo : 0 <= oss < 2 ^ 31) by lia. assert (Ls : 0 <= zlen (s1 ++ old ++ s2) < 2 ^ 31) by lia.
    assert (Ls' : 0 <= zlen (s1 ++ mid ++ s2) < 2 ^ 31) by lia.
    destruct (header_fields b1 _ _ _ _ _ _ _ _ _ E1) as (_ & _ & _ & G3 & _ & _ & _ & G7); try (unfold os; lia).
    rewrite G7. rewrite E1. unfold H. rewrite set_size_struct by lia. cbn [obind].
    replace (zlen (s1 ++ old ++ s2) + (newlen - zlen old)) with (zlen (s1 ++ mid ++ s2)) by lia.
    match goal with |- context [off_strings ?bb] => destruct (header_fields bb (d_total d) os oss (d_rsv d) (d_comp d) (d_cpu d) (zlen strs) (zlen (s1 ++ mid ++ s2)) _ eq_refl) as (_ & _ & _ & G3' & _); try (unfold os; lia) end.
    rewrite G3'. assert (Eoss : oss + (newlen - zlen old) = os + zlen (s1 ++ mid ++ s2) + zlen gap) by lia. rewrite Eoss.
    assert (Lo' : 0 <= os + zlen (s1 ++ mid ++ s2) + zlen gap < 2 ^ 31) by lia.
    rewrite set_off_strings by lia. cbn [obind].
    eexists mid, slack', _. split; [reflexivity|]. split; [exact Lm|].
    assert (Lb2 : zlen (header (d_total d) os (os + zlen (s1 ++ mid ++ s2) + zlen gap) (d_rsv d) (d_comp d) (d_cpu d) (zlen strs) (zlen (s1 ++ mid ++ s2)) ++ d_pre d ++ s1 ++ mid ++ s2 ++ gap ++ strs ++ slack') = zlen b1).
    { rewrite E1. rewrite !(zlen_app _ _ (d_pre d ++ _)). unfold H. rewrite !header_len. reflexivity. }
    split.
    + unfold raw. cbv zeta. fold os. split; [rewrite <- !app_assoc; reflexivity|]. rewrite Lb2. split; [lia|]. split; [lia|]. repeat (split; [assumption|]).
      rewrite E1 in B'. apply bytes_app in B'. destruct B' as [_ B']. apply bytes_app. split; [apply header_bytes|exact B'].
    + apply (same_tail_trans _ _ b1 _ T). rewrite E1. 
      pose proof (same_tail_part (d_total d) [] H (header (d_total d) os (os + zlen (s1 ++ mid ++ s2) + zlen gap) (d_rsv d) (d_comp d) (d_cpu d) (zlen strs) (zlen (s1 ++ mid ++ s2))) (d_pre d ++ s1 ++ mid ++ s2 ++ gap ++ strs ++ slack')) as X.
      cbn [app] in X. apply X; [reflexivity|]. rewrite zlen_nil. unfold H. rewrite header_len. lia.
Qed.

(** ** Property names *)

Lemma find_string_ok : forall b d st gap strs slack s, raw b d st gap strs slack -> forall n i, 0 <= i -> (n > 0)%nat -> i + Z.of_nat n + zlen s <= zlen strs \/ n = 0%nat ->
  exists r, find_string n b (40 + zlen (d_pre d) + zlen st + zlen gap) i (s ++ [0]) = Val r /\
    match r with Some j => exists before after, strs = before ++ s ++ [0] ++ after /\ zlen before = j | None => True end.
Proof.
  intros b d st gap strs slack s R n. pose proof R as (Eb & _). cbv zeta in Eb.
  assert (Hs : holds b (40 + zlen (d_pre d) + zlen st + zlen gap) strs).
  { match type of Eb with _ = ?h ++ _ => exists (h ++ d_pre d ++ st ++ gap), slack end. split; [rewrite Eb, <- !app_assoc; reflexivity|]. zs. rewrite header_len. lia. }
  induction n as [|n IH]; intros i Hi Hn L; [lia|]. destruct L as [L|L]; [|lia]. cbn [find_string]. pose proof (zlen_nn _ s).
  destruct (split_at _ strs i) as (x & y & E1 & L1); [lia|]. assert (Ly : zlen y = zlen strs - i) by (rewrite E1; zs; lia).
  destruct (split_at _ y (zlen s + 1)) as (z & w & E2 & L2); [lia|].
  assert (Hz : holds b (40 + zlen (d_pre d) + zlen st + zlen gap + i) z).
  { rewrite E1, E2 in Hs. apply (holds_r _ _ _ _ (40 + zlen (d_pre d) + zlen st + zlen gap + i)) in Hs; [|lia]. apply holds_l in Hs. exact Hs. }
  rewrite (eq_at_same_len b (s ++ [0]) _ z Hz) by (zs; lia). cbn [obind]. destruct (seqb z (s ++ [0])) eqn:Es.
  - apply seqb_eq in Es. exists (Some i). split; [reflexivity|]. exists x, w. rewrite E1, E2, Es, <- app_assoc. split; [reflexivity|exact L1].
  - destruct n as [|n]; [exists None; split; [reflexivity|exact I]|]. apply IH; [lia|lia|left; lia].
Qed.
Lemma cstr_bytes : forall s, cstr s -> all_bytes s.
Proof. intros s H. unfold all_bytes, cstr in *. eapply Forall_impl; [|exact H]. unfold is_byte. cbn. intros. lia. Qed.
Lemma find_add_string_ok : forall b d st gap strs slack s, raw b d st gap strs slack -> cstr s -> zlen s < 2 ^ 31 ->
  exists r new b', find_add_string b s = Val (r, new, b') /\
    ((new = false /\ b' = b /\ exists before after, strs = before ++ s ++ [0] ++ after /\ zlen before = r) \/
     (new = true /\ r = zlen strs /\ same_tail (d_total d) b b' /\ exists slack', raw b' d st gap (strs ++ s ++ [0]) slack') \/
     (new = false /\ r = ERR_NOSPACE /\ b' = b /\ d_total d < uses d st gap strs + zlen s + 1)).
Proof.
  intros b d st gap strs slack s R Cs Ls. destruct (raw_fields _ _ _ _ _ _ R) as (F1 & F2 & F3 & F4 & F5 & F6). unfold find_add_string. rewrite F3, F4. cbv zeta.
  pose proof (zlen_nn _ s) as Ns. pose proof (zlen_nn _ strs) as Nt. pose proof (zlen_nn _ (d_pre d)). pose proof (zlen_nn _ st). pose proof (zlen_nn _ gap).
  assert (Fs : exists r, find_string (Z.to_nat (zlen strs - (zlen s + 1) + 1)) b (40 + zlen (d_pre d) + zlen st + zlen gap) 0 (s ++ [0]) = Val r /\
    match r with Some j => exists before after, strs = before ++ s ++ [0] ++ after /\ zlen before = j | None => True end).
  { destruct (Z.ltb_spec 0 (zlen strs - (zlen s + 1) + 1)).
    - apply (find_string_ok b d st gap strs slack s R); lia.
    - replace (Z.to_nat (zlen strs - (zlen s + 1) + 1)) with 0%nat by lia. exists None. split; [reflexivity|exact I]. }
  destruct Fs as (r & -> & Hr). cbn [obind]. destruct r as [j|]; [exists j, false, b; split; [reflexivity|left; auto]|].
  pose proof R as (Eb & L1 & L2 & R1 & R2 & R3 & B). cbv zeta in *.
  set (os := 40 + zlen (d_pre d)) in *. set (oss := os + zlen st + zlen gap) in *.
  set (H' := header (d_total d) os oss (d_rsv d) (d_comp d) (d_cpu d) (zlen strs) (zlen st)) in *.
  set (P := H' ++ d_pre d ++ st ++ gap ++ strs).
  assert (LP : zlen P = oss + zlen strs) by (unfold P; zs; unfold H'; rewrite header_len; unfold oss, os; lia).
  assert (Eb' : b = P ++ [] ++ [] ++ slack) by (rewrite Eb; unfold P; cbn [app]; rewrite <- !app_assoc; reflexivity).
  assert (Eu : uses d st gap strs = oss + zlen strs) by (unfold uses, oss, os; lia).
  pose proof (splice_ok b P [] [] slack (d_total d) (zlen s + 1) Eb' ltac:(rewrite F6, Eu, LP, zlen_nil; lia) F1 ltac:(rewrite LP, zlen_nil; lia) ltac:(lia) ltac:(lia) B) as S1.
  rewrite LP, !zlen_nil in S1. replace (oss + zlen strs + 0 + (zlen s + 1)) with (uses d st gap strs + zlen s + 1) in S1 by lia.
  destruct (Z.ltb_spec (d_total d) (uses d st gap strs + zlen s + 1)) as [Full|Room].
  - rewrite S1. cbn [obind]. change (ERR_NOSPACE =? 0) with false. cbn iota. exists ERR_NOSPACE, false, b. split; [reflexivity|]. right. right. auto.
  - destruct S1 as (mid & slack' & -> & Lm & B' & T). cbn [obind app]. change (0 =? 0) with true. cbn iota. cbn [app] in B', T. pose proof T as [Tl _].
    assert (E1 : P ++ mid ++ slack' = H' ++ d_pre d ++ st ++ gap ++ strs ++ mid ++ slack') by (unfold P; rewrite <- !app_assoc; reflexivity).
    destruct (header_fields _ _ _ _ _ _ _ _ _ _ E1) as (_ & _ & _ & _ & _ & _ & G6 & _); try (unfold oss, os in *; lia).
    rewrite G6. rewrite E1. unfold H'. rewrite set_size_strings by (unfold oss, os in *; lia). cbn [obind].
    replace (zlen strs + (zlen s + 1)) with (zlen (strs ++ s ++ [0])) by (zs; lia).
    set (H2 := header (d_total d) os oss (d_rsv d) (d_comp d) (d_cpu d) (zlen (strs ++ s ++ [0])) (zlen st)).
    replace (H2 ++ d_pre d ++ st ++ gap ++ strs ++ mid ++ slack') with ((H2 ++ d_pre d ++ st ++ gap ++ strs) ++ mid ++ slack') by (rewrite <- !app_assoc; reflexivity).
    rewrite stb_at; [|zs; lia|zs; unfold H2; rewrite header_len; unfold oss, os; lia]. cbn [obind]. eexists (zlen strs), true, _. split; [reflexivity|]. right. left. split; [reflexivity|]. split; [reflexivity|].
    assert (Lb2 : zlen ((H2 ++ d_pre d ++ st ++ gap ++ strs) ++ (s ++ [0]) ++ slack') = zlen b) by (rewrite <- Tl, E1; zs; unfold H2, H'; rewrite !header_len; lia).
    split.
    + apply (same_tail_trans _ _ _ _ T). rewrite E1.
      apply (same_tail_trans _ _ (H2 ++ d_pre d ++ st ++ gap ++ strs ++ mid ++ slack')).
      * pose proof (same_tail_part (d_total d) [] H' H2 (d_pre d ++ st ++ gap ++ strs ++ mid ++ slack')) as X. cbn [app] in X. apply X; [reflexivity|]. rewrite zlen_nil. unfold H'. rewrite header_len. unfold oss, os in *. lia.
      * replace (H2 ++ d_pre d ++ st ++ gap ++ strs ++ mid ++ slack') with ((H2 ++ d_pre d ++ st ++ gap ++ strs) ++ mid ++ slack') by (rewrite <- !app_assoc; reflexivity).
        apply same_tail_part; [zs; lia|]. zs. unfold H2. rewrite header_len. unfold oss, os in *. lia.
    + exists slack'. unfold raw. cbv zeta. fold os. fold oss. fold H2. split; [rewrite <- !app_assoc; reflexivity|]. rewrite Lb2. split; [zs; lia|]. repeat (split; [assumption|]).
      rewrite E1 in B'. apply bytes_app in B'. destruct B' as [_ B']. apply bytes_app. split.
      * apply bytes_app. split; [apply header_bytes|]. rewrite !app_assoc in B'. apply bytes_app in B'. destruct B' as [B' _]. apply bytes_app in B'. destruct B' as [B' _]. rewrite <- !app_assoc in B'. exact B'.
      * apply bytes_app. split; [apply bytes_app; split; [apply cstr_bytes; exact Cs|repeat constructor; unfold is_byte; lia]|].
        rewrite !app_assoc in B'. apply bytes_app in B'. apply B'.
Qed.

(** Taking the last string away again. *)
Lemma raw_drop_string : forall b d st gap strs s slack, raw b d st gap (strs ++ s) slack ->
  exists b', set_h32 b 8 (size_strings b - zlen s) = Val b' /\ raw b' d st gap strs (s ++ slack) /\ same_tail (d_total d) b b'.
Proof.
  intros b d st gap strs s slack R. destruct (raw_fields _ _ _ _ _ _ R) as (F1 & F2 & F3 & F4 & F5 & F6). pose proof R as (Eb & L1 & L2 & R1 & R2 & R3 & B). cbv zeta in *.
  pose proof (zlen_nn _ s) as Ns. pose proof (zlen_nn _ strs) as Nt. pose proof (zlen_nn _ (d_pre d)). pose proof (zlen_nn _ st). pose proof (zlen_nn _ gap). zsi L1.
  rewrite F4. replace (zlen (strs ++ s) - zlen s) with (zlen strs) by (zs; lia). rewrite Eb. rewrite set_size_strings by lia. eexists. split; [reflexivity|]. split.
  - unfold raw. cbv zeta. split; [rewrite <- !app_assoc; reflexivity|].
    assert (Lb : zlen (header (d_total d) (40 + zlen (d_pre d)) (40 + zlen (d_pre d) + zlen st + zlen gap) (d_rsv d) (d_comp d) (d_cpu d) (zlen strs) (zlen st) ++ d_pre d ++ st ++ gap ++ (strs ++ s) ++ slack) = zlen b).
    { rewrite Eb at 1. rewrite !(zlen_app _ _ (d_pre d ++ _)). rewrite !header_len. reflexivity. }
    rewrite Lb. split; [lia|]. repeat (split; [assumption|]). rewrite Eb in B. apply bytes_app in B. apply bytes_app. split; [apply header_bytes|apply B].
  - match goal with |- same_tail _ (?h1 ++ ?r) (?h2 ++ ?r) => pose proof (same_tail_part (d_total d) [] h1 h2 r) as X end. cbn [app] in X. apply X; [reflexivity|]. rewrite zlen_nil, header_len. lia.
Qed.

(** ** Tokens *)

Lemma is_tok_more : forall strs x k l, is_tok strs k l -> is_tok (strs ++ x) k l.
Proof.
  intros strs x k l [L K]. split; [exact L|]. destruct k as [n|n d| |]; try exact K. destruct K as (at_ & pad & E & Ha & before & after & Es & Eb). exists at_, pad. split; [exact E|]. split; [exact Ha|].
  exists before, (after ++ x). split; [rewrite Es, <- !app_assoc; reflexivity|exact Eb].
Qed.
Lemma are_toks_more : forall strs x ts l, are_toks strs ts l -> are_toks (strs ++ x) ts l.
Proof. intros strs x ts. induction ts as [|k ts IH]; intros l H; cbn [are_toks] in *; [exact H|]. destruct H as (l1 & l2 & E & K & H). exists l1, l2. split; [exact E|]. split; [apply is_tok_more; exact K|exact (IH l2 H)]. Qed.

(** A new value for a property. *)
Lemma replace_ok : forall b d gap strs slack st A n v B val os0, raw b d st gap strs slack -> are_toks strs (A ++ KProp n v :: B) st -> all_bytes val -> zlen val < 2 ^ 31 - 20 -> os0 = 40 + zlen (d_pre d) ->
  (d_total d < uses d st gap strs - up4 (zlen v) + up4 (zlen val) /\ splice_struct b (os0 + size A + 12) (up4 (zlen v)) (up4 (zlen val)) = Val (ERR_NOSPACE, b)) \/
  exists b1 b2 b3 st' slack', splice_struct b (os0 + size A + 12) (up4 (zlen v)) (up4 (zlen val)) = Val (0, b1) /\ stb b1 (os0 + size A + 4) (be32 (zlen val)) = Val b2 /\
    stb b2 (os0 + size A + 12) val = Val b3 /\ raw b3 d st' gap strs slack' /\ are_toks strs (A ++ KProp n val :: B) st' /\ same_tail (d_total d) b b3 /\
    uses d st gap strs - up4 (zlen v) + up4 (zlen val) <= d_total d /\ zlen st' = zlen st - up4 (zlen v) + up4 (zlen val).
Proof.
  intros b d gap strs slack st A n v B val os0 R T Bv Lv ->. apply are_toks_app in T. destruct T as (s1 & s2' & -> & TA & TB). cbn [are_toks] in TB. destruct TB as (l & s2 & -> & K & TB).
  destruct K as [Lk (at_ & pad & El & Ha & Hstr)]. cbn [t_size] in Lk. pose proof (are_toks_size _ _ _ TA) as SA. pose proof (zlen_nn _ val) as Nv. pose proof (up4_ge (zlen val)) as Uv. pose proof (up4_ge (zlen v)) as Uo. pose proof (zlen_nn _ v) as No.
  assert (Lold : zlen (v ++ pad) = up4 (zlen v)) by (rewrite El in Lk; zsi Lk; rewrite !be32_len in Lk; zs; lia).
  set (hd := be32 3 ++ be32 (zlen v) ++ be32 at_) in *.
  assert (Est : s1 ++ l ++ s2 = (s1 ++ hd) ++ (v ++ pad) ++ s2) by (rewrite El; unfold hd; rewrite <- !app_assoc; reflexivity).
  rewrite Est in R. assert (Lhd : zlen (s1 ++ hd) = size A + 12) by (zs; unfold hd; zs; rewrite !be32_len; lia).
  pose proof (splice_struct_ok b d (s1 ++ hd) (v ++ pad) s2 gap strs slack (up4 (zlen val)) (40 + zlen (d_pre d) + size A + 12) R ltac:(lia) ltac:(lia)) as S1. rewrite Lold in S1. rewrite <- Est in S1.
  destruct (Z.ltb_spec (d_total d) (uses d (s1 ++ l ++ s2) gap strs - up4 (zlen v) + up4 (zlen val))) as [Full|Room]; [left; split; [exact Full|exact S1]|right].
  destruct S1 as (mid & slack' & b1 & E1 & Lm & R1 & T1).
  assert (R1' : raw b1 d ((s1 ++ be32 3) ++ be32 (zlen v) ++ (be32 at_ ++ mid ++ s2)) gap strs slack') by (unfold hd in R1; revert R1; rewrite <- !app_assoc; exact (fun X => X)).
  destruct (raw_stb b1 d (s1 ++ be32 3) (be32 (zlen v)) (be32 at_ ++ mid ++ s2) (be32 (zlen val)) gap strs slack' (40 + zlen (d_pre d) + size A + 4) R1' eq_refl (be32_bytes _) ltac:(zs; rewrite be32_len; lia)) as (b2 & E2 & R2 & T2).
  destruct (split_at _ mid (zlen val)) as (m1 & m2 & Em & L1); [lia|].
  assert (R2' : raw b2 d ((s1 ++ be32 3 ++ be32 (zlen val) ++ be32 at_) ++ m1 ++ (m2 ++ s2)) gap strs slack') by (rewrite Em in R2; revert R2; rewrite <- !app_assoc; exact (fun X => X)).
  destruct (raw_stb b2 d (s1 ++ be32 3 ++ be32 (zlen val) ++ be32 at_) m1 (m2 ++ s2) val gap strs slack' (40 + zlen (d_pre d) + size A + 12) R2' ltac:(lia) Bv ltac:(zs; rewrite !be32_len; lia)) as (b3 & E3 & R3 & T3).
  eexists b1, b2, b3, _, slack'. split; [exact E1|]. split; [exact E2|]. split; [exact E3|]. split; [exact R3|]. split; [|split; [|split; [exact Room|]]].
  - apply are_toks_app. exists s1, ((be32 3 ++ be32 (zlen val) ++ be32 at_ ++ val ++ m2) ++ s2). split; [rewrite <- !app_assoc; reflexivity|]. split; [exact TA|].
    cbn [are_toks]. eexists _, s2. split; [reflexivity|]. split; [|exact TB]. split; [zs; rewrite !be32_len; cbn [t_size]; rewrite Em in Lm; zsi Lm; lia|]. exists at_, m2. split; [reflexivity|]. split; [exact Ha|exact Hstr].
  - exact (same_tail_trans _ _ _ _ T1 (same_tail_trans _ _ _ _ T2 T3)).
  - rewrite Em in Lm. zsi Lm. zs. rewrite El. zs. rewrite !be32_len. zsi Lold. lia.
Qed.

(** New tokens in a gap. *)
Lemma insert_prop_ok : forall b d gap strs slack st A B name val at_ p, raw b d st gap strs slack -> are_toks strs (A ++ B) st -> all_bytes val -> zlen val < 2 ^ 31 - 20 -> p = 40 + zlen (d_pre d) + size A ->
  (exists before after, strs = before ++ name ++ [0] ++ after /\ zlen before = at_) ->
  (d_total d < uses d st gap strs + 12 + up4 (zlen val) /\ splice_struct b p 0 (12 + up4 (zlen val)) = Val (ERR_NOSPACE, b)) \/
  exists b1 b2 b3 b4 b5 st' slack', splice_struct b p 0 (12 + up4 (zlen val)) = Val (0, b1) /\ stb b1 p (be32 3) = Val b2 /\ stb b2 (p + 8) (be32 at_) = Val b3 /\ stb b3 (p + 4) (be32 (zlen val)) = Val b4 /\
    stb b4 (p + 12) val = Val b5 /\ raw b5 d st' gap strs slack' /\ are_toks strs (A ++ KProp name val :: B) st' /\ same_tail (d_total d) b b5 /\ uses d st gap strs + 12 + up4 (zlen val) <= d_total d /\
    zlen st' = zlen st + 12 + up4 (zlen val).
Proof.
  intros b d gap strs slack st A B name val at_ p R T Bv Lv -> Hstr. apply are_toks_app in T. destruct T as (s1 & s2 & -> & TA & TB).
  pose proof (are_toks_size _ _ _ TA) as SA. pose proof (zlen_nn _ val) as Nv. pose proof (up4_ge (zlen val)) as Uv.
  pose proof (splice_struct_ok b d s1 [] s2 gap strs slack (12 + up4 (zlen val)) (40 + zlen (d_pre d) + size A) R ltac:(lia) ltac:(lia)) as S1. rewrite zlen_nil in S1. cbn [app] in S1.
  replace (uses d (s1 ++ s2) gap strs - 0 + (12 + up4 (zlen val))) with (uses d (s1 ++ s2) gap strs + 12 + up4 (zlen val)) in S1 by lia.
  destruct (Z.ltb_spec (d_total d) (uses d (s1 ++ s2) gap strs + 12 + up4 (zlen val))) as [Full|Room]; [left; split; [exact Full|exact S1]|right].
  destruct S1 as (mid & slack' & b1 & E1 & Lm & R1 & T1).
  destruct (split_at _ mid 4) as (m1 & x1 & Ex1 & L1); [lia|]. assert (Lx1 : zlen x1 = 8 + up4 (zlen val)) by (rewrite Ex1 in Lm; zsi Lm; lia).
  destruct (split_at _ x1 4) as (m2 & x2 & Ex2 & L2); [lia|]. assert (Lx2 : zlen x2 = 4 + up4 (zlen val)) by (rewrite Ex2 in Lx1; zsi Lx1; lia).
  destruct (split_at _ x2 4) as (m3 & x3 & Ex3 & L3); [lia|]. assert (Lx3 : zlen x3 = up4 (zlen val)) by (rewrite Ex3 in Lx2; zsi Lx2; lia).
  destruct (split_at _ x3 (zlen val)) as (m4 & m5 & Ex4 & L4); [lia|]. subst mid x1 x2 x3.
  set (q := 40 + zlen (d_pre d) + size A) in *.
  assert (R1' : raw b1 d (s1 ++ m1 ++ (m2 ++ m3 ++ m4 ++ m5 ++ s2)) gap strs slack') by (rewrite <- !app_assoc in R1; exact R1).
  destruct (raw_stb b1 d s1 m1 _ (be32 3) gap strs slack' q R1' ltac:(rewrite be32_len; lia) (be32_bytes _) ltac:(lia)) as (b2 & E2 & R2 & T2).
  assert (R2' : raw b2 d ((s1 ++ be32 3 ++ m2) ++ m3 ++ (m4 ++ m5 ++ s2)) gap strs slack') by (revert R2; rewrite <- !app_assoc; exact (fun X => X)).
  destruct (raw_stb b2 d (s1 ++ be32 3 ++ m2) m3 _ (be32 at_) gap strs slack' (q + 8) R2' ltac:(rewrite be32_len; lia) (be32_bytes _) ltac:(zs; rewrite be32_len; lia)) as (b3 & E3 & R3 & T3).
  assert (R3' : raw b3 d ((s1 ++ be32 3) ++ m2 ++ (be32 at_ ++ m4 ++ m5 ++ s2)) gap strs slack') by (revert R3; rewrite <- !app_assoc; exact (fun X => X)).
  destruct (raw_stb b3 d (s1 ++ be32 3) m2 _ (be32 (zlen val)) gap strs slack' (q + 4) R3' ltac:(rewrite be32_len; lia) (be32_bytes _) ltac:(zs; rewrite be32_len; lia)) as (b4 & E4 & R4 & T4).
  assert (R4' : raw b4 d ((s1 ++ be32 3 ++ be32 (zlen val) ++ be32 at_) ++ m4 ++ (m5 ++ s2)) gap strs slack') by (revert R4; rewrite <- !app_assoc; exact (fun X => X)).
  destruct (raw_stb b4 d (s1 ++ be32 3 ++ be32 (zlen val) ++ be32 at_) m4 (m5 ++ s2) val gap strs slack' (q + 12) R4' ltac:(lia) Bv ltac:(zs; rewrite !be32_len; lia)) as (b5 & E5 & R5 & T5).
  eexists b1, b2, b3, b4, b5, _, slack'. do 5 (split; [eassumption|]). split; [exact R5|].
  destruct Hstr as (before & after & Es & Ebf). destruct (raw_fields _ _ _ _ _ _ R) as (_ & _ & _ & F4 & _). pose proof R as (_ & RL1 & RL2 & _). cbv zeta in *.
  assert (Ha : 0 <= at_ < 2 ^ 32). { pose proof (zlen_nn _ before). assert (zlen before <= zlen strs) by (rewrite Es; zs; pose proof (zlen_nn _ name); pose proof (zlen_nn _ after); lia). pose proof (zlen_nn _ (d_pre d)). pose proof (zlen_nn _ (s1 ++ s2)). pose proof (zlen_nn _ gap). lia. }
  split; [|split; [|split; [exact Room|]]].
  - apply are_toks_app. exists s1, ((be32 3 ++ be32 (zlen val) ++ be32 at_ ++ val ++ m5) ++ s2). split; [rewrite <- !app_assoc; reflexivity|]. split; [exact TA|].
    cbn [are_toks]. eexists _, s2. split; [reflexivity|]. split; [|exact TB]. split; [zs; rewrite !be32_len; cbn [t_size]; zsi Lx3; lia|]. exists at_, m5. split; [reflexivity|]. split; [exact Ha|]. exists before, after. auto.
  - exact (same_tail_trans _ _ _ _ T1 (same_tail_trans _ _ _ _ T2 (same_tail_trans _ _ _ _ T3 (same_tail_trans _ _ _ _ T4 T5)))).
  - zs. rewrite !be32_len. zsi Lx3. lia.
Qed.
