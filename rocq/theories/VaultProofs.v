(** Lemmas about the key vault: its sectors, its table, searching and committing. *)
From Verif Require Import Base BaseLemmas HeaderModel Flash FlashLemmas BlobProofs VaultModel VaultSpec.
Local Ltac Zify.zify_post_hook ::= idtac.

(** ** Programs stopped between two flash operations *)

(** [p] ends with [Q], and every flash content on the way satisfies [C]. *)
Fixpoint wps {A} (p : prog A) (Q : A -> flash -> Prop) (C : flash -> Prop) (f : flash) : Prop :=
  match p with
  | Ret a => C f /\ Q a f
  | Panic | Stuck => False
  | Rd r => wps (r f) Q C f
  | Er a n p' => C f /\ wps p' Q C (erase f a n)
  | Wr a n d p' => C f /\ wps p' Q C (write f a n d)
  end.

Lemma wps_run : forall {A} (p : prog A) Q C f, wps p Q C f -> exists a f', run p f = Done a f' /\ Q a f'.
Proof.
  induction p; intros Q C f W; cbn [wps run] in *; try tauto.
  - exists a, f. tauto.
  - exact (H f Q C f W).
  - exact (IHp Q C _ (proj2 W)).
  - exact (IHp Q C _ (proj2 W)).
Qed.

Lemma wps_stops : forall {A} (p : prog A) Q C f f', wps p Q C f -> stops p f f' -> C f'.
Proof.
  induction p; intros Q C f f' W H1; cbn [wps stops] in *; try tauto.
  - subst. tauto.
  - exact (H f Q C f f' W H1).
  - destruct W as [W1 W2], H1 as [ -> |H1]; [exact W1|]. exact (IHp Q C _ _ W2 H1).
  - destruct W as [W1 W2], H1 as [ -> |H1]; [exact W1|]. exact (IHp Q C _ _ W2 H1).
Qed.

Lemma wps_bind : forall {A B} (p : prog A) (k : A -> prog B) Q C f,
  wps p (fun a f' => wps (k a) Q C f') C f -> wps (bind p k) Q C f.
Proof.
  induction p as [a|r IH|a n p IH|a n d p IH| |]; intros k Q C f W; cbn [wps bind] in *; try tauto.
  - exact (IH f k Q C f W).
  - destruct W. split; [assumption|]. apply IH. assumption.
  - destruct W. split; [assumption|]. apply IH. assumption.
Qed.

Lemma wps_post : forall {A} (p : prog A) (Q Q' : A -> flash -> Prop) (C : flash -> Prop) f,
  wps p Q C f -> (forall a g, C g -> Q a g -> Q' a g) -> wps p Q' C f.
Proof.
  induction p; intros Q Q' C f W H1; cbn [wps] in *; try tauto.
  - destruct W as [W1 W2]. split; [exact W1|]. exact (H1 a f W1 W2).
  - exact (H f Q Q' C f W H1).
  - destruct W as [W1 W2]. split; [exact W1|]. exact (IHp _ _ _ _ W2 H1).
  - destruct W as [W1 W2]. split; [exact W1|]. exact (IHp _ _ _ _ W2 H1).
Qed.

(** ** Words *)

Lemma cached_at : forall f a i, cached f a i = f (a + i).
Proof. reflexivity. Qed.

Lemma word_cached : forall f a o, word (cached f a) o = word f (a + o).
Proof. intros f a o. unfold word, cached. rewrite !Z.add_assoc. reflexivity. Qed.

Lemma word_put32 : forall s o v, 0 <= v < 2 ^ 32 -> word (put32 s o v) o = v.
Proof.
  intros s o v Hv. unfold word, put32.
  assert (R : forall i, 0 <= i < 4 -> inr o 4 (o + i) = true) by (intros i Hi; apply inr_true; lia).
  assert (E0 : inr o 4 o = true) by (apply inr_true; lia).
  rewrite E0, !R by lia.
  replace (o - o) with 0 by lia. replace (o + 1 - o) with 1 by lia.
  replace (o + 2 - o) with 2 by lia. replace (o + 3 - o) with 3 by lia.
  change (Z.to_nat 0) with 0%nat. change (Z.to_nat 1) with 1%nat. change (Z.to_nat 2) with 2%nat. change (Z.to_nat 3) with 3%nat.
  pose proof (le_val_bytes 4 v Hv) as E. cbn [le_bytes] in E. rewrite le32_val in E. cbn [le_bytes nth]. exact E.
Qed.

Lemma put32_out : forall s o v i, i < o \/ o + 4 <= i -> put32 s o v i = s i.
Proof. intros s o v i H. unfold put32. rewrite (proj2 (inr_false o 4 i)) by lia. reflexivity. Qed.

Lemma word_put32_out : forall s o v a, a + 4 <= o \/ o + 4 <= a -> word (put32 s o v) a = word s a.
Proof. intros s o v a H. unfold word. rewrite !put32_out by lia. reflexivity. Qed.

Lemma bytes_put32 : forall s o v, bytes s -> bytes (put32 s o v).
Proof.
  intros s o v H i. unfold put32. destruct (inr o 4 i) eqn:E; [|apply H].
  apply inr_true in E. apply (proj1 (Forall_forall _ _) (le_bytes_bytes 4 v)).
  apply nth_In. rewrite le_bytes_length. lia.
Qed.

Lemma word_range : forall f a, bytes f -> 0 <= word f a < 2 ^ 32.
Proof.
  intros f a H. unfold word, le32. pose proof (H a). pose proof (H (a + 1)). pose proof (H (a + 2)). pose proof (H (a + 3)).
  unfold is_byte in *. rewrite ?Z.shiftl_mul_pow2 by lia. lia.
Qed.

Lemma word_eq : forall f g a b, (forall i, 0 <= i < 4 -> f (a + i) = g (b + i)) -> word f a = word g b.
Proof. exact word_ext. Qed.

(** ** Searching *)

Lemma first_true : forall (P : Z -> bool) n,
  (forall i, 0 <= i < Z.of_nat n -> P i = false) \/
  (exists j, 0 <= j < Z.of_nat n /\ P j = true /\ forall i, 0 <= i < j -> P i = false).
Proof.
  intros P n. induction n as [|n IH].
  - left. intros i Hi. exfalso. clear -Hi. lia.
  - destruct IH as [IH|[j [Hj [H1 H2]]]].
    + destruct (P (Z.of_nat n)) eqn:E.
      * right. exists (Z.of_nat n). repeat split; try lia; assumption.
      * left. intros i Hi. destruct (Z.eq_dec i (Z.of_nat n)) as [ -> |Ne]; [exact E|]. apply IH. lia.
    + right. exists j. repeat split; try lia; assumption.
Qed.

Lemma find_header_some : forall n f k h j, 0 <= j < Z.of_nat n ->
  matches f (h + 32 * j) k = true -> (forall i, 0 <= i < j -> matches f (h + 32 * i) k = false) ->
  find_header n f k h = Some (h + 32 * j).
Proof.
  induction n as [|n IH]; intros f k h j Hj M B; [exfalso; clear -Hj; lia|]. cbn [find_header].
  destruct (Z.eq_dec j 0) as [ -> |Ne].
  - replace (h + 32 * 0) with h in * by lia. rewrite M. reflexivity.
  - assert (B0 : matches f (h + 32 * 0) k = false) by (apply B; lia).
    replace (h + 32 * 0) with h in B0 by lia. rewrite B0. unfold HDRSZ.
    rewrite (IH f k (h + 32) (j - 1)).
    + f_equal. lia.
    + lia.
    + replace (h + 32 + 32 * (j - 1)) with (h + 32 * j) by lia. exact M.
    + intros i Hi. replace (h + 32 + 32 * i) with (h + 32 * (i + 1)) by lia. apply B. lia.
Qed.

Lemma find_header_none : forall n f k h, (forall i, 0 <= i < Z.of_nat n -> matches f (h + 32 * i) k = false) ->
  find_header n f k h = None.
Proof.
  induction n as [|n IH]; intros f k h B; [reflexivity|]. cbn [find_header].
  assert (B0 : matches f (h + 32 * 0) k = false) by (apply B; lia).
  replace (h + 32 * 0) with h in B0 by lia. rewrite B0. apply IH. intros i Hi. unfold HDRSZ.
  replace (h + 32 + 32 * i) with (h + 32 * (i + 1)) by lia. apply B. lia.
Qed.

Lemma find_free_some : forall n c f i p, i <= p < i + Z.of_nat n ->
  bitmap_get c f p = false -> (forall q, i <= q < p -> bitmap_get c f q = true) -> find_free n c f i = Some p.
Proof.
  induction n as [|n IH]; intros c f i p Hp F B; [exfalso; clear -Hp; lia|]. cbn [find_free].
  destruct (Z.eq_dec i p) as [ -> |Ne].
  - rewrite F. reflexivity.
  - rewrite B by lia. apply IH; [lia|exact F|]. intros q Hq. apply B. lia.
Qed.

Lemma find_free_none : forall n c f i, (forall q, i <= q < i + Z.of_nat n -> bitmap_get c f q = true) ->
  find_free n c f i = None.
Proof.
  induction n as [|n IH]; intros c f i B; [reflexivity|]. cbn [find_free].
  rewrite B by lia. apply IH. intros q Hq. apply B. lia.
Qed.

Lemma create_skip : forall n c k f s h j, 0 <= j <= Z.of_nat n ->
  (forall i, 0 <= i < j -> (word s (h + 32 * i) =? INVALID) = false) ->
  create_loop n c k f s h = create_loop (n - Z.to_nat j) c k f s (h + 32 * j).
Proof.
  induction n as [|n IH]; intros c k f s h j Hj B.
  - replace j with 0 by lia. replace (h + 32 * 0) with h by lia. reflexivity.
  - destruct (Z.eq_dec j 0) as [ -> |Ne].
    + replace (h + 32 * 0) with h by lia. reflexivity.
    + replace (S n - Z.to_nat j)%nat with (n - Z.to_nat (j - 1))%nat by lia.
      cbn [create_loop]. destruct k as [[ty tok] obj].
      assert (B0 : (word s (h + 32 * 0) =? INVALID) = false) by (apply B; lia).
      replace (h + 32 * 0) with h in B0 by lia. rewrite B0. unfold HDRSZ.
      rewrite (IH c (ty, tok, obj) f s (h + 32) (j - 1)).
      * replace (h + 32 + 32 * (j - 1)) with (h + 32 * j) by lia. reflexivity.
      * lia.
      * intros i Hi. replace (h + 32 + 32 * i) with (h + 32 * (i + 1)) by lia. apply B. lia.
Qed.

(** ** Committing a sector *)

Section Vault.
Context (c : vcfg) (OK : vcfg_ok c).
Local Notation B := (VB c).
Local Notation SZ := (VSEC c).

(** [g] has [s] in the sector at [off]. *)
Definition sector_is (g : flash) (off : Z) (s : flash) : Prop := forall i, 0 <= i < SZ -> g (B + off + i) = s i.
Definition in_sector (off x : Z) : Prop := B + off <= x < B + off + SZ.

Lemma wps_commit : forall off s Q (C : flash -> Prop) f,
  bytes f -> bytes s -> 0 <= off -> off = 0 \/ 2 * SZ <= off ->
  (forall g, bytes g -> (forall x, ~ in_sector SZ x -> g x = f x) -> C g) ->
  (forall g, bytes g -> sector_is g SZ s -> sector_is g off (fun _ => 255) ->
     (forall x, ~ in_sector SZ x -> ~ in_sector off x -> g x = f x) -> C g) ->
  (forall g, bytes g -> sector_is g SZ s -> sector_is g off s ->
     (forall x, ~ in_sector SZ x -> ~ in_sector off x -> g x = f x) -> C g /\ Q tt g) ->
  wps (commit c off s) Q C f.
Proof.
  intros off s Q C f Bf Bs H0 Hoff C1 C2 C3. assert (Hs : 160 <= SZ) by apply OK.
  assert (P1 : forall i, 0 <= i < SZ -> 0 <= s i) by (intros i _; apply Bs).
  unfold commit. cbn [wps].
  set (f1 := erase f (B + SZ) SZ). set (f2 := write f1 (B + SZ) SZ s).
  set (f3 := erase f2 (B + off) SZ). set (f4 := write f3 (B + off) SZ s).
  assert (B1 : bytes f1) by (apply bytes_erase; assumption).
  assert (B2 : bytes f2) by (apply bytes_write; assumption).
  assert (B3 : bytes f3) by (apply bytes_erase; assumption).
  assert (B4 : bytes f4) by (apply bytes_write; assumption).
  assert (S2 : sector_is f2 SZ s).
  { intros i Hi. unfold f2, f1. rewrite write_in by lia. rewrite erase_in by lia.
    replace (B + SZ + i - (B + SZ)) with i by lia. apply land_255, Bs. }
  assert (S3 : sector_is f3 SZ s).
  { intros i Hi. unfold f3. rewrite erase_out by (destruct Hoff; lia). apply S2. exact Hi. }
  assert (S4 : sector_is f4 SZ s).
  { intros i Hi. unfold f4. rewrite write_out by (destruct Hoff; lia). apply S3. exact Hi. }
  assert (O2 : forall x, ~ in_sector SZ x -> f2 x = f x).
  { intros x Hx. unfold in_sector in Hx. unfold f2, f1. rewrite write_out by lia. apply erase_out. lia. }
  assert (O3 : forall x, ~ in_sector SZ x -> ~ in_sector off x -> f3 x = f x).
  { intros x Hx Hy. unfold in_sector in Hy. unfold f3. rewrite erase_out by lia. apply O2. exact Hx. }
  split; [apply C1; [exact Bf|reflexivity]|].
  split; [apply C1; [exact B1|intros x Hx; unfold in_sector in Hx; unfold f1; apply erase_out; lia]|].
  split; [apply C1; [exact B2|exact O2]|].
  split.
  - apply C2; [exact B3|exact S3| |exact O3]. intros i Hi. unfold f3. apply erase_in. lia.
  - apply C3; [exact B4|exact S4| |].
    + intros i Hi. unfold f4, f3. rewrite write_in by lia. rewrite erase_in by lia.
      replace (B + off + i - (B + off)) with i by lia. apply land_255, Bs.
    + intros x Hx Hy. unfold f4. rewrite write_out by (unfold in_sector in Hy; lia). apply O3; assumption.
Qed.

(** ** The table *)

Definition NS : Z := (SZ - 128) / 32.
Definition sl (j : Z) : Z := 128 + 32 * j.
Definition tab (f : flash) : flash := cached f B.
Definition s_tok (s : flash) (j : Z) : Z := word s (sl j).
Definition s_obj (s : flash) (j : Z) : Z := word s (sl j + 4).
Definition s_ty (s : flash) (j : Z) : Z := word s (sl j + 8).
Definition s_pos (s : flash) (j : Z) : Z := word s (sl j + 12).
Definition s_size (s : flash) (j : Z) : Z := word s (sl j + 16).
Definition keyat (s : flash) (j : Z) : key := (s_ty s j, s_tok s j, s_obj s j).
Definition used (s : flash) (j : Z) : Prop := s_tok s j <> INVALID.
Definition bit (s : flash) (p : Z) : bool := Z.testbit (s (4 + p / 8)) (p mod 8).

Record table_ok (s : flash) : Prop := {
  to_magic : word s 0 = VMAGIC;
  to_pad : forall i, 32 <= i < 128 -> s i = 255;
  to_pos : forall j, 0 <= j < NS -> used s j -> 0 <= s_pos s j < MAXI c;
  to_bit : forall j, 0 <= j < NS -> used s j -> bit s (s_pos s j) = true;
  to_size : forall j, 0 <= j < NS -> used s j -> 8 <= s_size s j <= OSZ c;
  to_upos : forall i j, 0 <= i < NS -> 0 <= j < NS -> used s i -> used s j -> s_pos s i = s_pos s j -> i = j;
  to_ukey : forall i j, 0 <= i < NS -> 0 <= j < NS -> used s i -> keyat s i = keyat s j -> i = j;
  to_owner : forall p, 0 <= p < MAXI c -> bit s p = true -> exists j, 0 <= j < NS /\ used s j /\ s_pos s j = p
}.
Definition buf (p : Z) : Z := B + 2 * SZ + p * OSZ c.
Definition data_ok (f : flash) : Prop := forall j, 0 <= j < NS -> used (tab f) j ->
  word f (buf (s_pos (tab f) j)) = s_tok (tab f) j /\ word f (buf (s_pos (tab f) j) + 4) = s_obj (tab f) j.
Definition vault_ok (f : flash) : Prop := bytes f /\ table_ok (tab f) /\ data_ok f.
(** Between two calls the backup sector is a copy of the table. *)
Definition synced (f : flash) : Prop := forall i, 0 <= i < SZ -> f (B + SZ + i) = f (B + i).

Lemma ns_eq : SZ = 128 + 32 * NS.
Proof.
  unfold NS. destruct OK as (_ & _ & H1 & H2 & _).
  assert (E : (SZ - 128) mod 32 = 0).
  { replace (SZ - 128) with (SZ + (-4) * 32) by lia. rewrite Z_mod_plus_full. exact H2. }
  pose proof (Z_div_mod_eq_full (SZ - 128) 32) as D. lia.
Qed.

Lemma ns_pos : 1 <= NS.
Proof. pose proof ns_eq. destruct OK as (_ & _ & H1 & _). lia. Qed.

Lemma table_len_eq : Z.of_nat (table_len c) = NS + 4.
Proof.
  unfold table_len, HDRSZ. pose proof ns_eq as E. pose proof ns_pos.
  assert (SZ / 32 = NS + 4). { rewrite E. replace (128 + 32 * NS) with ((NS + 4) * 32) by lia. apply Z_div_mult_full. lia. }
  lia.
Qed.

Lemma obj_off_eq : forall p, 0 <= p < MAXI c -> obj_off c p = p * OSZ c.
Proof.
  intros p Hp. unfold obj_off. destruct OK as (_ & _ & _ & _ & H1 & _ & H2 & H3).
  apply Z.mod_small. nia.
Qed.

Lemma matches_iff : forall f j k, matches f (B + HDROFF + 32 * j) k = true <-> keyat (tab f) j = k.
Proof.
  intros f j [[ty tk] ob]. unfold matches, keyat, s_tok, s_obj, s_ty, tab, sl, HDROFF. rewrite !word_cached.
  replace (B + (128 + 32 * j)) with (B + 128 + 32 * j) by lia.
  replace (B + (128 + 32 * j + 4)) with (B + 128 + 32 * j + 4) by lia.
  replace (B + (128 + 32 * j + 8)) with (B + 128 + 32 * j + 8) by lia.
  rewrite !andb_true_iff, !Z.eqb_eq. split.
  - intros [[H1 H2] H3]. congruence.
  - intro H. injection H as H1 H2 H3. tauto.
Qed.

Lemma matches_false : forall f j k, keyat (tab f) j <> k -> matches f (B + HDROFF + 32 * j) k = false.
Proof. intros f j k H. destruct (matches _ _ _) eqn:E; [|reflexivity]. apply matches_iff in E. contradiction. Qed.

Lemma bit_at : forall p, 0 <= p < MAXI c -> 4 <= 4 + p / 8 < 32.
Proof.
  intros p Hp. destruct OK as (_ & _ & _ & _ & _ & _ & H2 & _).
  pose proof (Z.div_pos p 8). pose proof (Z.div_lt_upper_bound p 8 28). lia.
Qed.

(** Everything about a table is in its sector. *)
Definition like (s s' : flash) : Prop := forall i, 0 <= i < SZ -> s' i = s i.

Lemma like_word : forall s s' a, like s s' -> 0 <= a -> a + 4 <= SZ -> word s' a = word s a.
Proof. intros s s' a L H1 H2. unfold word. rewrite !L by lia. reflexivity. Qed.

Lemma like_slot : forall s s' j a, like s s' -> 0 <= j < NS -> 0 <= a <= 16 -> word s' (sl j + a) = word s (sl j + a).
Proof. intros s s' j a L Hj Ha. pose proof ns_eq. apply like_word; [exact L| |]; unfold sl; lia. Qed.

Lemma like_tok : forall s s' j, like s s' -> 0 <= j < NS -> s_tok s' j = s_tok s j.
Proof. intros s s' j L Hj. unfold s_tok. rewrite <- (Z.add_0_r (sl j)). apply like_slot; [exact L|exact Hj|lia]. Qed.
Lemma like_key : forall s s' j, like s s' -> 0 <= j < NS -> keyat s' j = keyat s j.
Proof.
  intros s s' j L Hj. unfold keyat, s_ty, s_obj. rewrite (like_tok s s' j L Hj).
  rewrite (like_slot s s' j 8), (like_slot s s' j 4) by (assumption || lia). reflexivity.
Qed.
Lemma like_pos : forall s s' j, like s s' -> 0 <= j < NS -> s_pos s' j = s_pos s j.
Proof. intros s s' j L Hj. apply like_slot; [exact L|exact Hj|lia]. Qed.
Lemma like_size : forall s s' j, like s s' -> 0 <= j < NS -> s_size s' j = s_size s j.
Proof. intros s s' j L Hj. apply like_slot; [exact L|exact Hj|lia]. Qed.
Lemma like_used : forall s s' j, like s s' -> 0 <= j < NS -> used s' j <-> used s j.
Proof. intros s s' j L Hj. unfold used. rewrite (like_tok s s' j L Hj). tauto. Qed.
Lemma like_bit : forall s s' p, like s s' -> 0 <= p < MAXI c -> bit s' p = bit s p.
Proof.
  intros s s' p L Hp. unfold bit. pose proof (bit_at p Hp). assert (160 <= SZ) by apply OK.
  rewrite L by lia. reflexivity.
Qed.

Lemma like_table : forall s s', like s s' -> table_ok s -> table_ok s'.
Proof.
  intros s s' L T. assert (160 <= SZ) by apply OK.
  split.
  - rewrite (like_word s s' 0) by (assumption || lia). apply T.
  - intros i Hi. rewrite L by lia. apply T. exact Hi.
  - intros j Hj U. rewrite (like_pos s s' j L Hj). apply T; [exact Hj|]. apply (like_used s s' j L Hj), U.
  - intros j Hj U. apply (like_used s s' j L Hj) in U. rewrite (like_pos s s' j L Hj).
    rewrite (like_bit s s' _ L) by (apply (to_pos s T); assumption). apply T; assumption.
  - intros j Hj U. rewrite (like_size s s' j L Hj). apply T; [exact Hj|]. apply (like_used s s' j L Hj), U.
  - intros i j Hi Hj Ui Uj E. apply (like_used s s' i L Hi) in Ui. apply (like_used s s' j L Hj) in Uj.
    rewrite (like_pos s s' i L Hi), (like_pos s s' j L Hj) in E. exact (to_upos s T i j Hi Hj Ui Uj E).
  - intros i j Hi Hj Ui E. apply (like_used s s' i L Hi) in Ui.
    rewrite (like_key s s' i L Hi), (like_key s s' j L Hj) in E. exact (to_ukey s T i j Hi Hj Ui E).
  - intros p Hp Hb. rewrite (like_bit s s' p L Hp) in Hb. destruct (to_owner s T p Hp Hb) as [j [Hj [U E]]].
    exists j. split; [exact Hj|]. split; [apply (like_used s s' j L Hj), U|]. rewrite (like_pos s s' j L Hj). exact E.
Qed.

(** ** Changing one slot *)

Definition bset (s : flash) (p : Z) : flash :=
  fun i => if i =? 4 + p / 8 then Z.lor (s i) (Z.shiftl 1 (p mod 8)) else s i.

Lemma bitmap_put_set : forall s p, 0 <= p < MAXI c -> bitmap_put c s p true = Some (bset s p).
Proof.
  intros s p Hp. unfold bitmap_put. pose proof (bit_at p Hp). assert (160 <= SZ) by apply OK.
  rewrite (proj2 (Z.leb_le _ _)), (proj2 (Z.ltb_lt _ _)) by lia. reflexivity.
Qed.

Lemma bset_bit : forall s p q, 0 <= p -> 0 <= q -> bit (bset s p) q = (q =? p) || bit s q.
Proof.
  intros s p q Hp Hq. unfold bit, bset.
  pose proof (Z.mod_pos_bound p 8 eq_refl). pose proof (Z.mod_pos_bound q 8 eq_refl).
  pose proof (Z_div_mod_eq_full p 8) as Dp. pose proof (Z_div_mod_eq_full q 8) as Dq.
  destruct (Z.eqb_spec (4 + q / 8) (4 + p / 8)) as [E|E].
  - rewrite Z.lor_spec, Z.shiftl_1_l, Z.pow2_bits_eqb by lia. rewrite orb_comm. f_equal.
    destruct (Z.eqb_spec (p mod 8) (q mod 8)), (Z.eqb_spec q p); try reflexivity; [lia|subst; lia].
  - destruct (Z.eqb_spec q p) as [ -> |Ne]; [lia|reflexivity].
Qed.

Lemma bset_out : forall s p i, 0 <= p < MAXI c -> i < 4 \/ 32 <= i -> bset s p i = s i.
Proof.
  intros s p i Hp Hi. unfold bset. pose proof (bit_at p Hp).
  destruct (Z.eqb_spec i (4 + p / 8)); [lia|reflexivity].
Qed.

Lemma bset_word : forall s p a, 0 <= p < MAXI c -> a = 0 \/ 32 <= a -> word (bset s p) a = word s a.
Proof. intros s p a Hp Ha. unfold word. rewrite !bset_out by (assumption || lia). reflexivity. Qed.

Lemma lor_byte : forall a b, is_byte a -> is_byte b -> is_byte (Z.lor a b).
Proof.
  intros a b Ha Hb. unfold is_byte in *. split; [apply Z.lor_nonneg; lia|].
  destruct (Z.eq_dec (Z.lor a b) 0) as [E|Ne]; [lia|].
  assert (0 <= Z.lor a b) by (apply Z.lor_nonneg; lia).
  change 256 with (2 ^ 8). apply Z.log2_lt_pow2; [lia|].
  rewrite Z.log2_lor by lia. apply Z.max_lub_lt.
  - destruct (Z.eq_dec a 0) as [ -> |]; [reflexivity|]. apply Z.log2_lt_pow2; [lia|]. change (2 ^ 8) with 256. lia.
  - destruct (Z.eq_dec b 0) as [ -> |]; [reflexivity|]. apply Z.log2_lt_pow2; [lia|]. change (2 ^ 8) with 256. lia.
Qed.

Lemma bytes_bset : forall s p, bytes s -> bytes (bset s p).
Proof.
  intros s p H i. unfold bset. destruct (i =? _); [|apply H]. apply lor_byte; [apply H|].
  pose proof (Z.mod_pos_bound p 8 eq_refl). rewrite Z.shiftl_1_l. unfold is_byte. split; [apply Z.pow_nonneg; lia|].
  change 256 with (2 ^ 8). apply Z.pow_lt_mono_r; lia.
Qed.

(** The table after [create_object] has claimed slot [j] and position [p]. *)
Definition claim (s : flash) (j p : Z) (k : key) : flash :=
  let '(ty, tk, ob) := k in
  bset (put32 (put32 (put32 (put32 (put32 s (sl j + 12) p) (sl j) tk) (sl j + 4) ob) (sl j + 8) ty) (sl j + 16) 8) p.

Section Claim.
Context (s : flash) (j p : Z) (k : key) (Hj : 0 <= j < NS) (Hp : 0 <= p < MAXI c) (K : key_ok k).

Lemma claim_out : forall i, (i < 4 \/ 32 <= i) -> (i < sl j \/ sl j + 20 <= i) -> claim s j p k i = s i.
Proof.
  intros i H1 H2. destruct k as [[ty tk] ob]. unfold claim. rewrite bset_out by assumption.
  rewrite !put32_out by lia. reflexivity.
Qed.
Lemma claim_slot : forall i a, 0 <= i -> i <> j -> 0 <= a <= 16 -> word (claim s j p k) (sl i + a) = word s (sl i + a).
Proof. intros i a Hi Ne Ha. unfold word. rewrite !claim_out by (unfold sl; lia). reflexivity. Qed.
Lemma claim_magic : word (claim s j p k) 0 = word s 0.
Proof. unfold word. rewrite !claim_out by (unfold sl; lia). reflexivity. Qed.
Lemma claim_key : keyat (claim s j p k) j = k.
Proof.
  destruct k as [[ty tk] ob]. destruct K as (K1 & K2 & K3 & _). unfold keyat, s_ty, s_tok, s_obj, claim.
  rewrite !bset_word by (assumption || (unfold sl; lia)).
  rewrite (word_put32_out _ (sl j + 16) 8 (sl j + 8)) by lia. rewrite word_put32 by assumption.
  rewrite (word_put32_out _ (sl j + 16) 8 (sl j)) by lia. rewrite (word_put32_out _ (sl j + 8) ty (sl j)) by lia.
  rewrite (word_put32_out _ (sl j + 4) ob (sl j)) by lia. rewrite word_put32 by assumption.
  rewrite (word_put32_out _ (sl j + 16) 8 (sl j + 4)) by lia. rewrite (word_put32_out _ (sl j + 8) ty (sl j + 4)) by lia.
  rewrite word_put32 by assumption. reflexivity.
Qed.
Lemma claim_pos : s_pos (claim s j p k) j = p.
Proof.
  destruct k as [[ty tk] ob]. unfold s_pos, claim. destruct OK as (_ & _ & _ & _ & _ & _ & H2 & _).
  rewrite !bset_word by (assumption || (unfold sl; lia)).
  rewrite (word_put32_out _ (sl j + 16) 8) by lia. rewrite (word_put32_out _ (sl j + 8) ty) by lia.
  rewrite (word_put32_out _ (sl j + 4) ob) by lia. rewrite (word_put32_out _ (sl j) tk) by lia.
  apply word_put32. lia.
Qed.
Lemma claim_size : s_size (claim s j p k) j = 8.
Proof.
  destruct k as [[ty tk] ob]. unfold s_size, claim.
  rewrite !bset_word by (assumption || (unfold sl; lia)). apply word_put32. lia.
Qed.
Lemma claim_bit : forall q, 0 <= q < MAXI c -> bit (claim s j p k) q = (q =? p) || bit s q.
Proof.
  intros q Hq. destruct k as [[ty tk] ob]. unfold claim. rewrite bset_bit by lia. f_equal.
  unfold bit. pose proof (bit_at q Hq). rewrite !put32_out by (unfold sl; lia). reflexivity.
Qed.
Lemma claim_bytes : bytes s -> bytes (claim s j p k).
Proof. intro H. destruct k as [[ty tk] ob]. unfold claim. apply bytes_bset. repeat apply bytes_put32. exact H. Qed.
End Claim.

Lemma claim_key_out : forall s j p k i, 0 <= j < NS -> 0 <= p < MAXI c -> key_ok k -> 0 <= i -> i <> j -> keyat (claim s j p k) i = keyat s i.
Proof.
  intros s j p k i Hj Hp K Hi Ne. unfold keyat, s_ty, s_tok, s_obj. pose proof (claim_slot s j p k Hj Hp K i 0 Hi Ne) as E0. rewrite !Z.add_0_r in E0.
  rewrite !claim_slot, E0 by (assumption || lia). reflexivity.
Qed.

Lemma claim_table : forall s j p k, 0 <= j < NS -> 0 <= p < MAXI c -> key_ok k -> table_ok s ->
  ~ used s j -> bit s p = false -> (forall i, 0 <= i < NS -> keyat s i <> k) -> table_ok (claim s j p k).
Proof.
  intros s j p k Hj Hp K T Nu Nb Nk. set (s' := claim s j p k).
  assert (Ek : keyat s' j = k) by (apply claim_key; assumption).
  assert (Ep : s_pos s' j = p) by (apply claim_pos; assumption).
  assert (Es : s_size s' j = 8) by (apply claim_size; assumption).
  assert (Eb : forall q, 0 <= q < MAXI c -> bit s' q = (q =? p) || bit s q) by (intros q Hq; apply claim_bit; assumption).
  assert (Ok' : forall i, 0 <= i < NS -> i <> j -> keyat s' i = keyat s i) by (intros i Hi Ne; apply claim_key_out; (assumption || lia)).
  assert (Op : forall i, 0 <= i < NS -> i <> j -> s_pos s' i = s_pos s i) by (intros i Hi Ne; apply claim_slot; (assumption || lia)).
  assert (Os : forall i, 0 <= i < NS -> i <> j -> s_size s' i = s_size s i) by (intros i Hi Ne; apply claim_slot; (assumption || lia)).
  assert (Ou : forall i, 0 <= i < NS -> i <> j -> used s' i -> used s i).
  { intros i Hi Ne U. unfold used in *. specialize (Ok' i Hi Ne). unfold keyat in Ok'. injection Ok' as _ E _. congruence. }
  assert (Ou' : forall i, 0 <= i < NS -> i <> j -> used s i -> used s' i).
  { intros i Hi Ne U. unfold used in *. specialize (Ok' i Hi Ne). unfold keyat in Ok'. injection Ok' as _ E _. congruence. }
  assert (Uj : used s' j).
  { unfold used. unfold keyat in Ek. destruct k as [[ty tk] ob]. injection Ek as _ E _. rewrite E. apply K. }
  split.
  - unfold s'. rewrite claim_magic by assumption. apply T.
  - intros i Hi. unfold s'. rewrite claim_out by (assumption || (unfold sl; lia)). apply T. exact Hi.
  - intros i Hi U. destruct (Z.eq_dec i j) as [ -> |Ne]; [rewrite Ep; exact Hp|]. rewrite Op by assumption. apply T; auto.
  - intros i Hi U. destruct (Z.eq_dec i j) as [ -> |Ne].
    + rewrite Ep, Eb, Z.eqb_refl by exact Hp. reflexivity.
    + rewrite Op by assumption. rewrite Eb by (apply T; auto). rewrite (to_bit s T) by auto. apply orb_true_r.
  - intros i Hi U. destruct (Z.eq_dec i j) as [ -> |Ne].
    + rewrite Es. destruct OK as (_ & _ & _ & _ & H & _). lia.
    + rewrite Os by assumption. apply T; auto.
  - assert (X : forall i, 0 <= i < NS -> i <> j -> used s' i -> s_pos s' i <> p).
    { intros i Hi Ne U E. rewrite Op in E by assumption. pose proof (to_bit s T i Hi (Ou i Hi Ne U)). congruence. }
    intros i i' Hi Hi' U U' E. destruct (Z.eq_dec i j) as [Ei|Ne], (Z.eq_dec i' j) as [Ei'|Ne']; try lia.
    + subst i. rewrite Ep in E. exfalso. exact (X i' Hi' Ne' U' (eq_sym E)).
    + subst i'. rewrite Ep in E. exfalso. exact (X i Hi Ne U E).
    + rewrite !Op in E by assumption. apply (to_upos s T); auto.
  - intros i i' Hi Hi' U E. destruct (Z.eq_dec i j) as [Ei|Ne], (Z.eq_dec i' j) as [Ei'|Ne']; try lia.
    + subst i. rewrite Ek, Ok' in E by assumption. exfalso. exact (Nk i' Hi' (eq_sym E)).
    + subst i'. rewrite Ek, Ok' in E by assumption. exfalso. exact (Nk i Hi E).
    + rewrite !Ok' in E by assumption. apply (to_ukey s T); auto.
  - intros q Hq Hb. rewrite Eb in Hb by exact Hq. destruct (Z.eqb_spec q p) as [ -> |Ne].
    + exists j. auto.
    + destruct (to_owner s T q Hq Hb) as [i [Hi [U E]]]. assert (i <> j) by (intros -> ; contradiction).
      exists i. split; [exact Hi|]. split; [auto|]. rewrite Op by assumption. exact E.
Qed.

(** The table after [update_store_size] of slot [j]. *)
Definition resize (s : flash) (j n : Z) : flash := put32 s (sl j + 16) n.

Section Resize.
Context (s : flash) (j n : Z).
Lemma resize_out : forall i, i < sl j + 16 \/ sl j + 20 <= i -> resize s j n i = s i.
Proof. intros i H. apply put32_out. lia. Qed.
Lemma resize_word : forall i a, 0 <= a <= 12 \/ (a = 16 /\ i <> j) -> word (resize s j n) (sl i + a) = word s (sl i + a).
Proof. intros i a H. apply word_put32_out. unfold sl. lia. Qed.
Lemma resize_key : forall i, keyat (resize s j n) i = keyat s i.
Proof.
  intro i. unfold keyat, s_ty, s_tok, s_obj. pose proof (resize_word i 0) as E0. rewrite !Z.add_0_r in E0.
  rewrite !resize_word, E0 by lia. reflexivity.
Qed.
Lemma resize_pos : forall i, s_pos (resize s j n) i = s_pos s i.
Proof. intro i. apply resize_word. lia. Qed.
Lemma resize_size : forall i, 0 <= n < 2 ^ 32 -> s_size (resize s j n) i = if i =? j then n else s_size s i.
Proof.
  intros i Hn. destruct (Z.eqb_spec i j) as [ -> |Ne].
  - unfold s_size, resize. apply word_put32. exact Hn.
  - apply resize_word. lia.
Qed.
Lemma resize_used : forall i, used (resize s j n) i <-> used s i.
Proof. intro i. unfold used. pose proof (resize_key i) as E. unfold keyat in E. injection E as _ E _. rewrite E. tauto. Qed.
Lemma resize_bit : forall p, 0 <= j -> 0 <= p < MAXI c -> bit (resize s j n) p = bit s p.
Proof. intros p Hj Hp. unfold bit. pose proof (bit_at p Hp). rewrite resize_out by (unfold sl; lia). reflexivity. Qed.
End Resize.

Lemma resize_table : forall s j n, 0 <= j < NS -> 8 <= n <= OSZ c -> table_ok s -> table_ok (resize s j n).
Proof.
  intros s j n Hj Hn T. set (s' := resize s j n).
  assert (Ok' : forall i, keyat s' i = keyat s i) by apply resize_key.
  assert (Op : forall i, s_pos s' i = s_pos s i) by apply resize_pos.
  assert (Ou : forall i, used s' i <-> used s i) by apply resize_used.
  assert (Hn' : 0 <= n < 2 ^ 32) by (destruct OK as (_ & _ & _ & _ & H & _); lia).
  split.
  - unfold s', resize. rewrite word_put32_out by (unfold sl; lia). apply T.
  - intros i Hi. unfold s'. rewrite resize_out by (unfold sl; lia). apply T. exact Hi.
  - intros i Hi U. rewrite Op. apply T; [exact Hi|]. apply Ou, U.
  - intros i Hi U. apply Ou in U. rewrite Op. unfold s'. rewrite resize_bit by (try lia; apply T; assumption). apply T; assumption.
  - intros i Hi U. apply Ou in U. unfold s'. rewrite resize_size by exact Hn'. destruct (i =? j); [exact Hn|]. apply T; assumption.
  - intros i i' Hi Hi' U U' E. apply Ou in U. apply Ou in U'. rewrite !Op in E. apply (to_upos s T); assumption.
  - intros i i' Hi Hi' U E. apply Ou in U. rewrite !Ok' in E. apply (to_ukey s T); assumption.
  - intros q Hq Hb. unfold s' in Hb. rewrite resize_bit in Hb by (assumption || lia).
    destruct (to_owner s T q Hq Hb) as [i [Hi [U E]]]. exists i. split; [exact Hi|]. split; [apply Ou, U|]. rewrite Op. exact E.
Qed.

(** ** What an interrupted call on object [k] leaves alone *)

(** The object in slot [j] is another one, in another sector than [k] or any free position. *)
Definition safe (f : flash) (k : key) (j : Z) : Prop :=
  used (tab f) j /\ keyat (tab f) j <> k /\
  forall p, 0 <= p < MAXI c ->
    bit (tab f) p = false \/ (exists i, 0 <= i < NS /\ keyat (tab f) i = k /\ s_pos (tab f) i = p) ->
    p * OSZ c / SZ <> s_pos (tab f) j * OSZ c / SZ.
Definition tkept (f : flash) (k : key) (s : flash) : Prop :=
  word s 0 = VMAGIC /\
  forall j, 0 <= j < NS -> safe f k j ->
    (forall i, 0 <= i < 20 -> s (sl j + i) = tab f (sl j + i)) /\
    (forall i, 0 <= i < j -> keyat s i <> keyat (tab f) j).
Definition dkept (f : flash) (k : key) (g : flash) : Prop :=
  forall j, 0 <= j < NS -> safe f k j ->
    forall i, 0 <= i < OSZ c -> g (buf (s_pos (tab f) j) + i) = f (buf (s_pos (tab f) j) + i).
Definition kept (f : flash) (k : key) (g : flash) : Prop := bytes g /\ tkept f k (tab g) /\ dkept f k g.
(** The flash after [restore_backup] of the table. *)
Definition rst (g : flash) : flash := fun x => if inr B SZ x then g (x + SZ) else g x.
Definition mid (f : flash) (k : key) (g : flash) : Prop :=
  kept f k g \/ (word g B <> VMAGIC /\ word g (B + SZ) = VMAGIC /\ kept f k (rst g)).

Lemma like_tkept : forall f k s s', like s s' -> tkept f k s -> tkept f k s'.
Proof.
  intros f k s s' L [M T]. pose proof ns_eq. split.
  - rewrite (like_word s s' 0 L) by (pose proof ns_pos; lia). exact M.
  - intros j Hj Sf. destruct (T j Hj Sf) as [T1 T2]. split.
    + intros i Hi. rewrite L by (unfold sl; lia). apply T1. exact Hi.
    + intros i Hi. rewrite (like_key s s' i L) by lia. apply T2. exact Hi.
Qed.

Lemma geom : forall p, 0 <= p < MAXI c ->
  exists q r, 0 <= q /\ 0 <= r /\ p * OSZ c = q * SZ + r /\ r + OSZ c <= SZ /\ p * OSZ c / SZ = q /\ (p * OSZ c) mod SZ = r.
Proof.
  intros p Hp. destruct OK as (_ & _ & H1 & _ & H2 & H3 & _).
  exists (p * OSZ c / SZ), ((p * OSZ c) mod SZ).
  pose proof (Z_div_mod_eq_full (p * OSZ c) SZ) as D. pose proof (Z.mod_pos_bound (p * OSZ c) SZ) as M.
  pose proof (Z_div_mod_eq_full SZ (OSZ c)) as D2. rewrite H3 in D2.
  set (n := SZ / OSZ c) in *. set (q := p * OSZ c / SZ) in *. set (r := (p * OSZ c) mod SZ) in *.
  assert (0 <= q) by (apply Z.div_pos; nia).
  assert (Er : r = (p - q * n) * OSZ c) by nia.
  assert (0 <= p - q * n) by nia. assert (p - q * n < n) by nia.
  repeat split; try lia. nia.
Qed.

(** A position's buffer is after the first two sectors, within one sector. *)
Lemma buf_sector : forall p i, 0 <= p < MAXI c -> 0 <= i < OSZ c ->
  in_sector (2 * SZ + p * OSZ c - (p * OSZ c) mod SZ) (buf p + i).
Proof.
  intros p i Hp Hi. destruct (geom p Hp) as (q & r & G1 & G2 & G3 & G4 & G5 & G6). rewrite G6. unfold in_sector, buf. lia.
Qed.

Lemma buf_apart : forall p p' i, 0 <= p < MAXI c -> 0 <= p' < MAXI c -> 0 <= i < OSZ c ->
  p * OSZ c / SZ <> p' * OSZ c / SZ -> ~ in_sector (2 * SZ + p * OSZ c - (p * OSZ c) mod SZ) (buf p' + i).
Proof.
  intros p p' i Hp Hp' Hi Ne. destruct (geom p Hp) as (q & r & G1 & G2 & G3 & G4 & G5 & G6).
  destruct (geom p' Hp') as (q' & r' & F1 & F2 & F3 & F4 & F5 & F6). rewrite G6. rewrite G5, F5 in Ne.
  unfold in_sector, buf. assert (160 <= SZ) by apply OK.
  clear -Ne G1 G2 G3 G4 F1 F2 F3 F4 Hi H. intros [X1 X2].
  replace (2 * SZ + p * OSZ c - r) with (2 * SZ + q * SZ) in * by lia.
  assert (q < q' + 1) by nia. assert (q' < q + 1) by nia. lia.
Qed.

Lemma buf_low : forall p i, 0 <= p < MAXI c -> 0 <= i -> B + 2 * SZ <= buf p + i.
Proof. intros p i Hp Hi. unfold buf. destruct OK as (_ & _ & _ & _ & H & _). nia. Qed.

Lemma kept_self : forall f k, vault_ok f -> kept f k f.
Proof.
  intros f k (Bf & T & D). split; [exact Bf|]. split.
  - split; [apply T|]. intros j Hj (U & _). split; [reflexivity|].
    intros i Hi E. assert (i = j); [|lia]. symmetry. apply (to_ukey _ T); try assumption; lia || (symmetry; exact E).
  - intros j Hj _ i _. reflexivity.
Qed.

Lemma wps_commit_table : forall f k f1 s (Q : unit -> flash -> Prop), table_ok (tab f) -> kept f k f1 -> bytes s -> tkept f k s ->
  (forall g, bytes g -> like s (tab g) -> synced g -> (forall x, B + 2 * SZ <= x -> g x = f1 x) -> Q tt g) ->
  wps (commit c 0 s) Q (mid f k) f1.
Proof.
  intros f k f1 s Q T0 (B1 & T1 & D1) Bs Ts HQ. pose proof ns_eq as NE. pose proof ns_pos as NP.
  assert (DK : forall g, (forall x, B + 2 * SZ <= x -> g x = f1 x) -> dkept f k g).
  { intros g H j Hj Sf i Hi. rewrite H; [apply D1; assumption|]. apply buf_low; [|lia]. apply (to_pos _ T0); [exact Hj|apply Sf]. }
  apply wps_commit; [exact B1|exact Bs|lia|lia| | |].
  - intros g Bg Hg. left. split; [exact Bg|]. split.
    + apply (like_tkept f k (tab f1)); [|exact T1]. intros i Hi. unfold tab, cached. apply Hg. unfold in_sector. lia.
    + apply DK. intros x Hx. apply Hg. unfold in_sector. lia.
  - intros g Bg S1 S2 Hg. right. split; [|split].
    + assert (E : forall i, 0 <= i < 4 -> g (B + i) = 255).
      { intros i Hi. specialize (S2 i). cbn beta in S2. rewrite Z.add_0_r in S2. apply S2. lia. }
      unfold word. rewrite <- (Z.add_0_r B) at 1. rewrite !E by lia. discriminate.
    + rewrite <- (proj1 Ts). apply word_eq. intros i Hi. rewrite S1 by lia. f_equal; lia.
    + split; [|split].
      * intro x. unfold rst. destruct (inr B SZ x); apply Bg.
      * apply (like_tkept f k s); [|exact Ts]. intros i Hi. unfold tab, cached, rst.
        rewrite (proj2 (inr_true B SZ (B + i))) by lia. replace (B + i + SZ) with (B + SZ + i) by lia. apply S1. exact Hi.
      * apply DK. intros x Hx. unfold rst. rewrite (proj2 (inr_false B SZ x)) by lia. apply Hg; unfold in_sector; lia.
  - intros g Bg S1 S2 Hg.
    assert (L : like s (tab g)).
    { intros i Hi. specialize (S2 i Hi). rewrite Z.add_0_r in S2. exact S2. }
    assert (Hx : forall x, B + 2 * SZ <= x -> g x = f1 x) by (intros x Hx; apply Hg; unfold in_sector; lia).
    split.
    + left. split; [exact Bg|]. split; [exact (like_tkept f k s _ L Ts)|apply DK, Hx].
    + apply HQ; [exact Bg|exact L| |exact Hx]. intros i Hi. rewrite S1 by exact Hi. symmetry. apply L. exact Hi.
Qed.

(** [p] is the position of [k], or was free. *)
Definition mine (f : flash) (k : key) (p : Z) : Prop :=
  bit (tab f) p = false \/ (exists i, 0 <= i < NS /\ keyat (tab f) i = k /\ s_pos (tab f) i = p).

Lemma wps_commit_data : forall f k f1 s p (Q : unit -> flash -> Prop), table_ok (tab f) -> kept f k f1 -> bytes s ->
  0 <= p < MAXI c -> mine f k p ->
  (forall g, bytes g -> kept f k g -> like (tab f1) (tab g) ->
     (forall i, 0 <= i < SZ -> g (buf p - (p * OSZ c) mod SZ + i) = s i) ->
     (forall x, B + 2 * SZ <= x -> ~ in_sector (2 * SZ + p * OSZ c - (p * OSZ c) mod SZ) x -> g x = f1 x) -> Q tt g) ->
  wps (commit c (2 * SZ + p * OSZ c - (p * OSZ c) mod SZ) s) Q (mid f k) f1.
Proof.
  intros f k f1 s p Q T0 (B1 & T1 & D1) Bs Hp Mp HQ. pose proof ns_eq as NE. pose proof ns_pos as NP.
  destruct (geom p Hp) as (q & r & G1 & G2 & G3 & G4 & G5 & G6).
  set (off := 2 * SZ + p * OSZ c - (p * OSZ c) mod SZ).
  assert (Eo : off = 2 * SZ + q * SZ) by (unfold off; lia).
  assert (Lo : 2 * SZ <= off) by nia.
  assert (DK : forall g, (forall x, B + 2 * SZ <= x -> ~ in_sector off x -> g x = f1 x) -> dkept f k g).
  { intros g H j Hj Sf i Hi. assert (Hpj : 0 <= s_pos (tab f) j < MAXI c) by (apply (to_pos _ T0); [exact Hj|apply Sf]).
    rewrite H; [apply D1; assumption|apply buf_low; [exact Hpj|lia]|].
    apply buf_apart; try assumption. apply Sf; [exact Hp|exact Mp]. }
  assert (LK : forall g, (forall x, ~ in_sector SZ x -> ~ in_sector off x -> g x = f1 x) -> like (tab f1) (tab g)).
  { intros g H i Hi. unfold tab, cached. apply H; unfold in_sector; lia. }
  assert (KK : forall g, bytes g -> (forall x, ~ in_sector SZ x -> ~ in_sector off x -> g x = f1 x) -> kept f k g).
  { intros g Bg H. split; [exact Bg|]. split.
    - exact (like_tkept f k _ _ (LK g H) T1).
    - apply DK. intros x Hx Hn. apply H; [unfold in_sector; lia|exact Hn]. }
  apply wps_commit; [exact B1|exact Bs|lia|right; exact Lo| | |].
  - intros g Bg Hg. left. apply KK; [exact Bg|]. intros x Hx _. apply Hg, Hx.
  - intros g Bg _ _ Hg. left. apply KK; assumption.
  - intros g Bg S1 S2 Hg. split; [left; apply KK; assumption|].
    apply HQ; [exact Bg|apply KK; assumption|apply LK; assumption| |].
    + intros i Hi. rewrite <- (S2 i Hi). f_equal. unfold buf, off. lia.
    + intros x Hx Hn. apply Hg; [unfold in_sector; lia|exact Hn].
Qed.

(** ** The functions *)

Definition hdr (j : Z) : Z := B + HDROFF + 32 * j.

Lemma pos_at : forall f j, h_pos f (hdr j) = s_pos (tab f) j.
Proof. intros f j. unfold h_pos, s_pos, tab, hdr, sl, HDROFF. rewrite word_cached. f_equal. lia. Qed.
Lemma size_at : forall f j, h_size f (hdr j) = s_size (tab f) j.
Proof. intros f j. unfold h_size, s_size, tab, hdr, sl, HDROFF. rewrite word_cached. f_equal. lia. Qed.
Lemma magic_at : forall f, word f B = word (tab f) 0.
Proof. intros f. unfold tab. rewrite word_cached. f_equal. lia. Qed.
Lemma bit_at_flash : forall f p, bitmap_get c f p = bit (tab f) p.
Proof. intros f p. unfold bitmap_get, bit, tab, cached. rewrite Z.add_assoc. reflexivity. Qed.

Lemma check_vault_ok : forall (Q : unit -> flash -> Prop) (C : flash -> Prop) f, word f B = VMAGIC -> C f -> Q tt f -> wps (check_vault c) Q C f.
Proof. intros Q C f M HC HQ. unfold check_vault. cbn [wps]. rewrite M, Z.eqb_refl. cbn [wps]. auto. Qed.

Lemma find_hit : forall f k j, 0 <= j < NS -> keyat (tab f) j = k -> (forall i, 0 <= i < j -> keyat (tab f) i <> k) ->
  find_object_header c f k = Some (hdr j).
Proof.
  intros f k j Hj K B0. unfold find_object_header. apply find_header_some.
  - rewrite table_len_eq. lia.
  - apply matches_iff. exact K.
  - intros i Hi. apply matches_false, B0, Hi.
Qed.

Lemma buffer_hit : forall f k j (Q : option Z -> flash -> Prop) (C : flash -> Prop), 0 <= j < NS -> keyat (tab f) j = k ->
  (forall i, 0 <= i < j -> keyat (tab f) i <> k) -> 0 <= s_pos (tab f) j < MAXI c ->
  word f (buf (s_pos (tab f) j)) = s_tok (tab f) j -> word f (buf (s_pos (tab f) j) + 4) = s_obj (tab f) j ->
  C f -> Q (Some (buf (s_pos (tab f) j))) f -> wps (find_object_buffer c k) Q C f.
Proof.
  intros f k j Q C Hj K B0 Hp W1 W2 HC HQ. unfold find_object_buffer. cbn [wps].
  pose proof (find_hit f k j Hj K B0) as E. unfold find_object_header in E. rewrite E, pos_at.
  rewrite obj_off_eq by exact Hp.
  assert (I : ids_at f (VB c + 2 * VSEC c + s_pos (tab f) j * OSZ c) k = true).
  { subst k. unfold keyat, ids_at. rewrite !andb_true_iff, !Z.eqb_eq. split; [exact W1|exact W2]. }
  rewrite I. cbn [wps]. split; [exact HC|exact HQ].
Qed.

(** No header in the part of the backup sector that the search runs into. *)
Lemma no_ghost : forall f k i, vault_ok f -> synced f -> key_ok k -> NS <= i < NS + 4 -> keyat (tab f) i <> k.
Proof.
  intros f k i (Bf & T & _) Sy K Hi E. pose proof ns_eq as NE. pose proof ns_pos as NP.
  assert (W : s_tok (tab f) i = word (tab f) (32 * (i - NS))).
  { unfold s_tok. apply word_eq. intros a Ha. unfold tab, cached, sl.
    replace (B + (128 + 32 * i + a)) with (B + SZ + (32 * (i - NS) + a)) by lia.
    rewrite Sy by lia. f_equal. }
  destruct k as [[ty tk] ob]. unfold keyat in E. injection E as _ E _.
  destruct (Z.eq_dec i NS) as [ -> |Ne].
  - replace (32 * (NS - NS)) with 0 in W by lia. rewrite (to_magic _ T) in W. apply K. congruence.
  - assert (W2 : word (tab f) (32 * (i - NS)) = INVALID).
    { unfold word. rewrite !(to_pad _ T) by lia. reflexivity. }
    rewrite W2 in W. unfold key_ok in K. intuition congruence.
Qed.

Lemma buffer_miss : forall f k (Q : option Z -> flash -> Prop) (C : flash -> Prop), vault_ok f -> synced f -> key_ok k ->
  (forall i, 0 <= i < NS -> keyat (tab f) i <> k) -> C f -> Q None f -> wps (find_object_buffer c k) Q C f.
Proof.
  intros f k Q C V Sy K N HC HQ. unfold find_object_buffer. cbn [wps]. rewrite find_header_none; [cbn [wps]; auto|].
  intros i Hi. rewrite table_len_eq in Hi. apply matches_false.
  destruct (Z.lt_ge_cases i NS); [apply N; lia|]. apply no_ghost; try assumption. lia.
Qed.

Lemma unique_first : forall s j, table_ok s -> 0 <= j < NS -> used s j -> forall i, 0 <= i < j -> keyat s i <> keyat s j.
Proof.
  intros s j T Hj U i Hi E. assert (j = i); [|lia]. apply (to_ukey s T); try assumption; [lia|congruence].
Qed.

Lemma key_used : forall s j k, key_ok k -> keyat s j = k -> used s j.
Proof. intros s j [[ty tk] ob] K E. unfold keyat in E. injection E as _ E _. unfold used. rewrite E. apply K. Qed.

Lemma key_parts : forall s j ty tk ob, keyat s j = (ty, tk, ob) -> s_tok s j = tk /\ s_obj s j = ob.
Proof. intros s j ty tk ob E. unfold keyat in E. injection E. auto. Qed.
Lemma key_same : forall s s' j j', keyat s j = keyat s' j' -> s_tok s j = s_tok s' j' /\ s_obj s j = s_obj s' j'.
Proof. intros s s' j j' E. unfold keyat in E. injection E. auto. Qed.

Lemma bytes_tab : forall f, bytes f -> bytes (tab f).
Proof. intros f H i. apply H. Qed.

(** Two buffers do not overlap. *)
Lemma buf_disjoint : forall p p' i i', 0 <= p -> 0 <= p' -> p <> p' -> 0 <= i < OSZ c -> 0 <= i' < OSZ c -> buf p + i <> buf p' + i'.
Proof. intros p p' i i' H1 H2 Ne H3 H4. unfold buf. intro E. assert (p < p' + 1) by nia. assert (p' < p + 1) by nia. lia. Qed.

(** What [create_object] does. *)
Record created (f g : flash) (j p : Z) (k : key) : Prop := {
  cr_bytes : bytes g;
  cr_tab : like (claim (tab f) j p k) (tab g);
  cr_ids : ids_at g (buf p) k = true;
  cr_data : forall x, B + 2 * SZ <= x -> ~ (buf p <= x < buf p + 8) -> g x = f x
}.

Lemma tkept_claim : forall f j p k, table_ok (tab f) -> 0 <= j < NS -> 0 <= p < MAXI c -> key_ok k -> ~ used (tab f) j ->
  tkept f k (claim (tab f) j p k).
Proof.
  intros f j p k T Hj Hp K Nu. split.
  - rewrite claim_magic by assumption. apply T.
  - intros i Hi (U & Nk & _). assert (Ne : i <> j) by (intros -> ; contradiction). split.
    + intros a Ha. apply claim_out; try assumption; unfold sl; lia.
    + intros i' Hi'. destruct (Z.eq_dec i' j) as [ -> |Ne'].
      * rewrite claim_key by assumption. congruence.
      * rewrite claim_key_out by (assumption || lia). apply unique_first; assumption.
Qed.

Lemma created_ok : forall f g j p k, vault_ok f -> 0 <= j < NS -> 0 <= p < MAXI c -> key_ok k ->
  ~ used (tab f) j -> bit (tab f) p = false -> (forall i, 0 <= i < NS -> keyat (tab f) i <> k) ->
  created f g j p k -> vault_ok g.
Proof.
  intros f g j p k (Bf & T & D) Hj Hp K Nu Nb Nk [C1 C2 C3 C4].
  assert (T' : table_ok (claim (tab f) j p k)) by (apply claim_table; assumption).
  split; [exact C1|]. split; [exact (like_table _ _ C2 T')|].
  intros i Hi U. rewrite (like_tok _ _ i C2 Hi), (like_pos _ _ i C2 Hi).
  destruct (key_same _ _ i i (like_key _ _ i C2 Hi)) as [_ Eo]. rewrite Eo. apply (like_used _ _ i C2 Hi) in U.
  destruct (Z.eq_dec i j) as [ -> |Ne].
  - rewrite claim_pos by assumption. pose proof (claim_key (tab f) j p k Hj Hp K) as E.
    destruct k as [[ty tk] ob]. apply key_parts in E. destruct E as [E1 E2]. rewrite E1, E2.
    unfold ids_at in C3. apply andb_true_iff in C3. rewrite !Z.eqb_eq in C3. exact C3.
  - pose proof (claim_key_out (tab f) j p k i Hj Hp K (proj1 Hi) Ne) as E. apply key_same in E. destruct E as [E1 E2].
    assert (U' : used (tab f) i) by (unfold used in *; congruence).
    assert (Ep : s_pos (claim (tab f) j p k) i = s_pos (tab f) i) by (apply claim_slot; (assumption || lia)).
    destruct (D i Hi U') as [D1 D2]. rewrite Ep, E1, E2. rewrite <- D1, <- D2.
    pose proof (to_pos _ T i Hi U') as Hq. destruct OK as (_ & _ & _ & _ & H8 & _).
    assert (Nq : s_pos (tab f) i <> p) by (intro E'; pose proof (to_bit _ T i Hi U'); congruence).
    assert (X : forall a, 0 <= a < 8 -> g (buf (s_pos (tab f) i) + a) = f (buf (s_pos (tab f) i) + a)).
    { intros a Ha. apply C4; [apply buf_low; lia|]. intros R.
      apply (buf_disjoint (s_pos (tab f) i) p a (buf (s_pos (tab f) i) + a - buf p)); lia. }
    split; apply word_eq; intros a Ha; [apply X; lia|]. rewrite <- !Z.add_assoc. apply X. lia.
Qed.

Lemma create_spec : forall f k (Q : option Z -> flash -> Prop), vault_ok f -> synced f -> key_ok k ->
  (forall i, 0 <= i < NS -> keyat (tab f) i <> k) ->
  ((forall j, 0 <= j < NS -> used (tab f) j) \/ (forall p, 0 <= p < MAXI c -> bit (tab f) p = true) -> Q None f) ->
  (forall j p g, 0 <= j < NS -> 0 <= p < MAXI c -> ~ used (tab f) j -> bit (tab f) p = false ->
     created f g j p k -> vault_ok g -> kept f k g -> Q (Some (hdr j)) g) ->
  wps (create_object c k) Q (mid f k) f.
Proof.
  intros f k Q V Sy K Nk QN QS. pose proof V as (Bf & T & D). pose proof (kept_self f k V) as Kf.
  unfold create_object. apply wps_bind. apply buffer_miss; try assumption; [left; exact Kf|]. cbn [wps].
  change (Z.to_nat ((VSEC c - HDROFF) / HDRSZ)) with (Z.to_nat NS). change (cached f B) with (tab f).
  pose proof ns_pos as NP.
  destruct (first_true (fun j => word (tab f) (HDROFF + 32 * j) =? INVALID) (Z.to_nat NS)) as [All|[j [Hj [Ej Bj]]]].
  - rewrite (create_skip _ c k f (tab f) HDROFF NS) by (lia || (intros i Hi; apply All; lia)).
    rewrite Nat.sub_diag. cbn [create_loop wps]. split; [left; exact Kf|]. apply QN. left. intros j Hj.
    specialize (All j). cbn beta in All. rewrite Z.eqb_neq in All. unfold used, s_tok, sl. apply All. lia.
  - rewrite (create_skip _ c k f (tab f) HDROFF j) by (lia || exact Bj).
    assert (Hj' : 0 <= j < NS) by lia.
    replace (Z.to_nat NS - Z.to_nat j)%nat with (S (Z.to_nat NS - Z.to_nat j - 1))%nat by lia.
    assert (Nu : ~ used (tab f) j) by (apply Z.eqb_eq in Ej; unfold used, s_tok, sl; unfold HDROFF in Ej; tauto).
    destruct (first_true (fun q => negb (bit (tab f) q)) (Z.to_nat (MAXI c))) as [Full|[p [Hp [Ep Bp]]]].
    + assert (FN : find_free (Z.to_nat (MAXI c)) c f 0 = None).
      { apply find_free_none. intros q Hq. rewrite bit_at_flash. apply negb_false_iff, (Full q). lia. }
      destruct k as [[ty tk] ob]. cbn [create_loop]. rewrite Ej, FN. cbn [wps]. split; [left; exact Kf|].
      apply QN. right. intros q Hq. apply negb_false_iff, (Full q). lia.
    + assert (Hp' : 0 <= p < MAXI c) by lia. apply negb_true_iff in Ep.
      assert (FS : find_free (Z.to_nat (MAXI c)) c f 0 = Some p).
      { apply find_free_some; [lia|rewrite bit_at_flash; exact Ep|]. intros q Hq. rewrite bit_at_flash. apply negb_false_iff, Bp. lia. }
      pose proof (bitmap_put_set) as BS.
      assert (EQ : create_loop (S (Z.to_nat NS - Z.to_nat j - 1)) c k f (tab f) (HDROFF + 32 * j) =
        (commit c 0 (claim (tab f) j p k) ;;
         Rd (fun f => commit c (2 * SZ + p * OSZ c - (p * OSZ c) mod SZ)
           (let '(_, tk, ob) := k in put32 (put32 (cached f (B + (2 * SZ + p * OSZ c - (p * OSZ c) mod SZ))) ((p * OSZ c) mod SZ) tk) ((p * OSZ c) mod SZ + 4) ob) ;;
           Ret (Some (B + (HDROFF + 32 * j)))))).
      { destruct k as [[ty tk] ob]. cbn [create_loop]. rewrite Ej, FS, BS by exact Hp'. rewrite obj_off_eq by exact Hp'.
        replace (p * OSZ c + 2 * SZ - (p * OSZ c) mod SZ) with (2 * SZ + p * OSZ c - (p * OSZ c) mod SZ) by lia.
        reflexivity. }
      rewrite EQ. clear EQ BS FS. apply wps_bind.
      apply (wps_commit_table f k); [exact T|exact Kf|apply claim_bytes; try assumption; apply bytes_tab, Bf|apply tkept_claim; assumption|].
      intros g1 B1 L1 S1 D1. cbn [wps]. apply wps_bind.
      assert (K1 : kept f k g1).
      { split; [exact B1|]. split.
        - apply (like_tkept f k _ _ L1). apply tkept_claim; assumption.
        - intros i Hi Sf a Ha. apply D1, buf_low; [apply (to_pos _ T); [exact Hi|apply Sf]|lia]. }
      destruct (geom p Hp') as (q & r & G1 & G2 & G3 & G4 & G5 & G6).
      set (off := 2 * SZ + p * OSZ c - (p * OSZ c) mod SZ) in *.
      destruct k as [[ty tk] ob] eqn:Ek. rewrite <- Ek in *.
      set (s2 := put32 (put32 (cached g1 (B + off)) ((p * OSZ c) mod SZ) tk) ((p * OSZ c) mod SZ + 4) ob).
      assert (Bs2 : bytes s2) by (unfold s2; do 2 apply bytes_put32; intro x; apply B1).
      apply (wps_commit_data f k g1 s2 p); [exact T|exact K1|exact Bs2|exact Hp'|left; exact Ep|].
      intros g Bg Kg Lg Dg Og. cbn [wps]. split; [left; exact Kg|].
      replace (B + (HDROFF + 32 * j)) with (hdr j) by (unfold hdr; lia).
      assert (H8 : 8 <= OSZ c) by apply OK.
      assert (CR : created f g j p k).
      { split.
        - exact Bg.
        - intros i Hi. rewrite Lg by exact Hi. apply L1. exact Hi.
        - assert (Eb : buf p = buf p - (p * OSZ c) mod SZ + r) by lia.
          assert (Wd : forall a, 0 <= a -> r + a + 4 <= SZ -> word g (buf p + a) = word s2 (r + a)).
          { intros a Ha Hb. apply word_eq. intros i Hi. rewrite <- (Dg (r + a + i)) by lia. f_equal. lia. }
          rewrite Ek in K. rewrite Ek. unfold ids_at. destruct K as (K1' & K2' & K3' & _).
          rewrite <- (Z.add_0_r (buf p)) at 1. rewrite !Wd by lia. unfold s2. rewrite G6, Z.add_0_r.
          rewrite word_put32 by assumption. rewrite word_put32_out by lia. rewrite word_put32 by assumption.
          rewrite !Z.eqb_refl. reflexivity.
        - intros x Hx Hn. destruct (inr (B + off) SZ x) eqn:E.
          + apply inr_true in E. pose proof (Dg (x - (B + off))) as Dx.
            replace (buf p - (p * OSZ c) mod SZ + (x - (B + off))) with x in Dx by (unfold buf, off; lia).
            rewrite Dx by lia. unfold s2. unfold buf, off in Hn. rewrite !put32_out by (unfold off in *; lia).
            unfold cached. replace (B + off + (x - (B + off))) with x by lia. apply D1. exact Hx.
          + apply inr_false in E. rewrite Og; [apply D1; exact Hx|exact Hx|]. unfold in_sector. fold off. exact E. }
      apply (QS j p g); try assumption. apply (created_ok f g j p k); assumption.
Qed.

End Vault.
