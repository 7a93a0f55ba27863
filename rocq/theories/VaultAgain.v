(** Creating an object of the key vault again after power failures while it was created. *)
From Verif Require Import Base BaseLemmas HeaderModel Flash FlashLemmas BlobProofs VaultModel VaultSpec VaultProofs VaultCalls VaultRefine VaultHist.
Local Ltac Zify.zify_post_hook ::= idtac.

Lemma wps_both : forall {A} (p : prog A) (Q Q' : A -> flash -> Prop) (C C' : flash -> Prop) f,
  wps p Q C f -> wps p Q' C' f -> wps p Q C' f.
Proof.
  induction p; intros Q Q' C C' f W W'; cbn [wps] in *; try tauto.
  - exact (H f Q Q' C C' f W W').
  - destruct W as [W1 W2], W' as [W3 W4]. split; [exact W3|]. exact (IHp _ _ _ _ _ W2 W4).
  - destruct W as [W1 W2], W' as [W3 W4]. split; [exact W3|]. exact (IHp _ _ _ _ _ W2 W4).
Qed.

Lemma delete_skip : forall n c k s h j, 0 <= j <= Z.of_nat n -> (forall i, 0 <= i < j -> matches s (h + 32 * i) k = false) ->
  delete_loop n c k s h = delete_loop (n - Z.to_nat j) c k s (h + 32 * j).
Proof.
  induction n as [|n IH]; intros c k s h j Hj B.
  - replace j with 0 by lia. replace (h + 32 * 0) with h by lia. reflexivity.
  - destruct (Z.eq_dec j 0) as [ -> |Ne].
    + replace (h + 32 * 0) with h by lia. reflexivity.
    + replace (S n - Z.to_nat j)%nat with (n - Z.to_nat (j - 1))%nat by lia. cbn [delete_loop].
      assert (B0 : matches s (h + 32 * 0) k = false) by (apply B; lia).
      replace (h + 32 * 0) with h in B0 by lia. rewrite B0. unfold HDRSZ.
      rewrite (IH c k s (h + 32) (j - 1)).
      * replace (h + 32 + 32 * (j - 1)) with (h + 32 * j) by lia. reflexivity.
      * lia.
      * intros i Hi. replace (h + 32 + 32 * i) with (h + 32 * (i + 1)) by lia. apply B. lia.
Qed.

Lemma ids_words : forall (k : key) s h j a, keyat s j = k -> ids_at h a k = true -> word h a = s_tok s j /\ word h (a + 4) = s_obj s j.
Proof.
  intros [[ty tk] ob] s h j a Ek Ids. apply key_parts in Ek. destruct Ek as [-> ->]. unfold ids_at in Ids.
  rewrite andb_true_iff, !Z.eqb_eq in Ids. exact Ids.
Qed.

Section Vault.
Context (c : vcfg) (OK : vcfg_ok c).
Local Notation B := (VB c).
Local Notation SZ := (VSEC c).
Local Notation NS := (VaultProofs.NS c).
Local Notation tab := (VaultProofs.tab c).
Local Notation buf := (VaultProofs.buf c).
Local Notation hdr := (VaultProofs.hdr c).
Local Notation table_ok := (VaultProofs.table_ok c).
Local Notation vault_ok := (VaultProofs.vault_ok c).
Local Notation synced := (VaultProofs.synced c).
Local Notation kept := (VaultProofs.kept c).
Local Notation like := (VaultProofs.like c).
Local Notation srel := (VaultRefine.srel c).
Local Notation rst := (VaultProofs.rst c).
Local Notation nohandle := (mkH false false None None 0).
Local Notation sector_is := (VaultProofs.sector_is c).
Local Notation in_sector := (VaultProofs.in_sector c).

Lemma wps_commit3 : forall off s Q (C : flash -> Prop) f,
  bytes f -> bytes s -> 0 <= off -> off = 0 \/ 2 * SZ <= off -> C f ->
  (forall g, bytes g -> sector_is g SZ (fun _ => 255) \/ sector_is g SZ s -> (forall x, ~ in_sector SZ x -> g x = f x) -> C g) ->
  (forall g, bytes g -> sector_is g SZ s -> sector_is g off (fun _ => 255) ->
     (forall x, ~ in_sector SZ x -> ~ in_sector off x -> g x = f x) -> C g) ->
  (forall g, bytes g -> sector_is g SZ s -> sector_is g off s ->
     (forall x, ~ in_sector SZ x -> ~ in_sector off x -> g x = f x) -> C g /\ Q tt g) ->
  wps (commit c off s) Q C f.
Proof.
  intros off s Q C f Bf Bs H0 Hoff C0 C1 C2 C3. assert (Hs : 160 <= SZ) by apply OK.
  unfold commit. cbn [wps].
  set (f1 := erase f (B + SZ) SZ). set (f2 := write f1 (B + SZ) SZ s).
  set (f3 := erase f2 (B + off) SZ). set (f4 := write f3 (B + off) SZ s).
  assert (B1 : bytes f1) by (apply bytes_erase; assumption).
  assert (P1 : forall i, 0 <= i < SZ -> 0 <= s i) by (intros i _; apply Bs).
  assert (B2 : bytes f2) by (apply bytes_write; assumption).
  assert (B3 : bytes f3) by (apply bytes_erase; assumption).
  assert (B4 : bytes f4) by (apply bytes_write; assumption).
  assert (S2 : sector_is f2 SZ s).
  { intros i Hi. unfold f2, f1. rewrite write_in by lia. rewrite erase_in by lia.
    replace (B + SZ + i - (B + SZ)) with i by lia. apply land_255, Bs. }
  assert (S3 : sector_is f3 SZ s).
  { intros i Hi. unfold f3. rewrite erase_out by (destruct Hoff; lia). apply S2. exact Hi. }
  assert (S4 : sector_is f4 SZ s).
  { intros i Hi. unfold f4. rewrite write_out by (destruct Hoff; lia). apply S3. exact Hi. }
  assert (O2 : forall x, ~ in_sector SZ x -> f2 x = f x).
  { intros x Hx. unfold VaultProofs.in_sector in Hx. unfold f2, f1. rewrite write_out by lia. apply erase_out. lia. }
  assert (O3 : forall x, ~ in_sector SZ x -> ~ in_sector off x -> f3 x = f x).
  { intros x Hx Hy. unfold VaultProofs.in_sector in Hy. unfold f3. rewrite erase_out by lia. apply O2. exact Hx. }
  split; [exact C0|].
  split. { apply C1; [exact B1|left; intros i Hi; unfold f1; apply erase_in; lia|intros x Hx; unfold VaultProofs.in_sector in Hx; unfold f1; apply erase_out; lia]. }
  split; [apply C1; [exact B2|right; exact S2|exact O2]|].
  split.
  - apply C2; [exact B3|exact S3| |exact O3]. intros i Hi. unfold f3. apply erase_in. lia.
  - apply C3; [exact B4|exact S4| |].
    + intros i Hi. unfold f4, f3. rewrite write_in by lia. rewrite erase_in by lia.
      replace (B + off + i - (B + off)) with i by lia. apply land_255, Bs.
    + intros x Hx Hy. unfold f4. rewrite write_out by (unfold VaultProofs.in_sector in Hy; lia). apply O3; assumption.
Qed.

(** ** Tables with the same objects *)

Record same_table (s s' : flash) : Prop := {
  sm_magic : word s' 0 = word s 0;
  sm_pad : forall i, 32 <= i < 128 -> s' i = s i;
  sm_used : forall i, 0 <= i < NS -> used s' i <-> used s i;
  sm_slot : forall i, 0 <= i < NS -> used s i -> keyat s' i = keyat s i /\ s_pos s' i = s_pos s i /\ s_size s' i = s_size s i;
  sm_bit : forall p, 0 <= p < MAXI c -> bit s' p = bit s p
}.

Lemma same_like : forall s s', like s s' -> same_table s s'.
Proof.
  intros s s' L. pose proof (ns_eq c OK). pose proof (ns_pos c OK). split.
  - apply (like_word c); [exact L|lia|lia].
  - intros i Hi. apply L. lia.
  - intros i Hi. apply (like_used c OK); assumption.
  - intros i Hi _. split; [apply (like_key c OK)|split; [apply (like_pos c OK)|apply (like_size c OK)]]; assumption.
  - intros p Hp. apply (like_bit c OK); assumption.
Qed.

Lemma same_ok : forall s s', same_table s s' -> table_ok s -> table_ok s'.
Proof.
  intros s s' [M1 M2 M3 M4 M5] T.
  assert (U : forall i, 0 <= i < NS -> used s' i -> used s i) by (intros i Hi; apply M3, Hi). split.
  - rewrite M1. apply T.
  - intros i Hi. rewrite M2 by exact Hi. apply T, Hi.
  - intros j Hj Uj. apply U in Uj; [|exact Hj]. destruct (M4 j Hj Uj) as (_ & -> & _). apply (to_pos c _ T); assumption.
  - intros j Hj Uj. apply U in Uj; [|exact Hj]. destruct (M4 j Hj Uj) as (_ & -> & _).
    rewrite M5 by (apply (to_pos c _ T); assumption). apply (to_bit c _ T); assumption.
  - intros j Hj Uj. apply U in Uj; [|exact Hj]. destruct (M4 j Hj Uj) as (_ & _ & -> ). apply (to_size c _ T); assumption.
  - intros i j Hi Hj Ui Uj. apply U in Ui; [|exact Hi]. apply U in Uj; [|exact Hj].
    destruct (M4 i Hi Ui) as (_ & -> & _). destruct (M4 j Hj Uj) as (_ & -> & _). apply (to_upos c _ T); assumption.
  - intros i j Hi Hj Ui E. assert (Uj : used s' j).
    { unfold used. apply key_same in E. destruct E as [<- _]. exact Ui. }
    apply U in Ui; [|exact Hi]. apply U in Uj; [|exact Hj].
    destruct (M4 i Hi Ui) as (E1 & _). destruct (M4 j Hj Uj) as (E2 & _). rewrite E1, E2 in E. apply (to_ukey c _ T); assumption.
  - intros p Hp Hb. rewrite M5 in Hb by exact Hp. destruct (to_owner c _ T p Hp Hb) as (j & Hj & Uj & Ej).
    exists j. split; [exact Hj|]. split; [apply M3; assumption|]. destruct (M4 j Hj Uj) as (_ & -> & _). exact Ej.
Qed.

(** ** The states on the way *)

Context (One : OSZ c = SZ) (k : key) (K : key_ok k) (s0 : vstore).
Context (Open0 : v_open s0 = repeat None MAX_OPEN) (Ab : vget (v_objs s0) k = None) (Rm : (length (v_objs s0) < items c)%nat).

Definition base (f : flash) : Prop := srel f no_handles s0.

Lemma base_move : forall f g, base f -> bytes g -> same_table (tab f) (tab g) -> synced g ->
  (forall i a, 0 <= i < NS -> used (tab f) i -> 0 <= a < OSZ c -> g (buf (s_pos (tab f) i) + a) = f (buf (s_pos (tab f) i) + a)) -> base g.
Proof.
  intros f g [Sv Ss [Rn Rr] Sh Sl Sx] Bg St Sy Dt. pose proof Sv as (Bf & T & D). pose proof (same_ok _ _ St T) as Tg.
  assert (H8 : 8 <= OSZ c) by apply OK. split; try assumption.
  - split; [exact Bg|]. split; [exact Tg|]. intros j Hj Uj. apply (sm_used _ _ St) in Uj; [|exact Hj].
    destruct (sm_slot _ _ St j Hj Uj) as (E1 & E2 & E3). apply key_same in E1. destruct E1 as [E4 E5]. rewrite E2, E4, E5.
    destruct (D j Hj Uj) as [D1 D2]. rewrite <- D1, <- D2.
    split; apply word_eq; intros a Ha; rewrite <- ?Z.add_assoc; apply Dt; try assumption; lia.
  - split; [exact Rn|]. intros k' d. rewrite Rr. split; intros (j & Hj & Uj & Ej & Cj).
    + exists j. split; [exact Hj|]. split; [apply (sm_used _ _ St); assumption|]. destruct (sm_slot _ _ St j Hj Uj) as (E1 & E2 & E3).
      split; [congruence|]. rewrite <- Cj. apply content_same; try assumption. intros a Ha. pose proof (to_size c _ T j Hj Uj). apply Dt; try assumption. lia.
    + apply (sm_used _ _ St) in Uj; [|exact Hj]. exists j. split; [exact Hj|]. split; [exact Uj|]. destruct (sm_slot _ _ St j Hj Uj) as (E1 & E2 & E3).
      split; [congruence|]. rewrite <- Cj. symmetry. apply content_same; try assumption. intros a Ha. pose proof (to_size c _ T j Hj Uj). apply Dt; try assumption. lia.
  - rewrite Open0. unfold no_handles. generalize MAX_OPEN. intro n. induction n as [|n IH]; cbn [repeat]; constructor; [split; reflexivity|exact IH].
Qed.

Lemma base_absent : forall f, base f -> forall i, 0 <= i < NS -> keyat (tab f) i <> k.
Proof. intros f Bf. apply (rep_absent c f (v_objs s0)); [apply Bf|exact K|exact Ab]. Qed.

(** The table copied to the backup sector. *)
Definition sync (g : flash) : flash := fun x => if inr (B + SZ) SZ x then g (x - SZ) else g x.
Definition nog (g : flash) : Prop := forall i, NS <= i < NS + 4 -> keyat (tab g) i <> k.

(** The object's header is in the table. *)
Record claimed (f g : flash) (j p : Z) : Prop := {
  cl_base : base f;
  cl_bytes : bytes g;
  cl_j : 0 <= j < NS;
  cl_p : 0 <= p < MAXI c;
  cl_unused : ~ used (tab f) j;
  cl_free : bit (tab f) p = false;
  cl_tab : like (claim (tab f) j p k) (tab g);
  cl_data : forall x, B + 2 * SZ <= x -> ~ (buf p <= x < buf p + SZ) -> g x = f x
}.
Definition stA (g : flash) : Prop := bytes g /\ base (sync g) /\ nog g.
Definition stA' (g : flash) : Prop := bytes g /\ base (rst g) /\ word g B <> VMAGIC.
Definition stB (g : flash) : Prop := exists f j p, claimed f g j p.
Definition stB' (g : flash) : Prop := bytes g /\ word g B <> VMAGIC /\ stB (rst g).
(** The flash before the vault is made. *)
Definition stF (g : flash) : Prop := s0 = empty_store /\ bytes g /\ word g B <> VMAGIC /\ word g (B + SZ) <> VMAGIC.
Definition J (g : flash) : Prop := stA g \/ stA' g \/ stB g \/ stB' g \/ stF g.

Lemma sz_big : 160 <= SZ. Proof. apply OK. Qed.

Lemma tab_at : forall g i, tab g i = g (B + i). Proof. reflexivity. Qed.

Lemma sync_tab : forall g, like (tab g) (tab (sync g)).
Proof. intros g i Hi. rewrite !tab_at. unfold sync. rewrite (proj2 (inr_false (B + SZ) SZ (B + i))) by lia. reflexivity. Qed.

Lemma sync_high : forall g x, B + 2 * SZ <= x -> sync g x = g x.
Proof. intros g x Hx. unfold sync. rewrite (proj2 (inr_false (B + SZ) SZ x)) by lia. reflexivity. Qed.

Lemma sync_synced : forall g, synced (sync g).
Proof.
  intros g i Hi. unfold sync. rewrite (proj2 (inr_true (B + SZ) SZ (B + SZ + i))) by lia.
  rewrite (proj2 (inr_false (B + SZ) SZ (B + i))) by lia. f_equal. lia.
Qed.

Lemma rst_high : forall g x, B + SZ <= x -> rst g x = g x.
Proof. intros g x Hx. unfold VaultProofs.rst. rewrite (proj2 (inr_false B SZ x)) by lia. reflexivity. Qed.

Lemma rst_tab : forall g i, 0 <= i < SZ -> tab (rst g) i = g (B + SZ + i).
Proof. intros g i Hi. rewrite tab_at. unfold VaultProofs.rst. rewrite (proj2 (inr_true B SZ (B + i))) by lia. f_equal. lia. Qed.

Lemma like_claim : forall s s' j p, like s s' -> like (claim s j p k) (claim s' j p k).
Proof.
  intros s s' j p L i Hi. destruct k as [[ty tk] ob]. unfold claim, bset, put32.
  destruct (i =? _); [f_equal|];
  repeat match goal with |- context [inr ?a ?b ?x] => destruct (inr a b x); try reflexivity end; apply L, Hi.
Qed.
Lemma like_trans : forall s1 s2 s3, like s1 s2 -> like s2 s3 -> like s1 s3.
Proof. intros s1 s2 s3 H1 H2 i Hi. rewrite H2, H1 by exact Hi. reflexivity. Qed.
Lemma like_sym : forall s1 s2, like s1 s2 -> like s2 s1.
Proof. intros s1 s2 H i Hi. symmetry. apply H, Hi. Qed.

(** No header in a backup sector that is blank or starts with a magic and padding. *)
Lemma nog_blank : forall g, (sector_is g SZ (fun _ => 255) \/ exists s, sector_is g SZ s /\ table_ok s) -> nog g.
Proof.
  intros g H i Hi E. pose proof (ns_eq c OK) as NE. pose proof (ns_pos c OK) as NP.
  assert (W : forall s, sector_is g SZ s -> s_tok (tab g) i = word s (32 * (i - NS))).
  { intros s Hs. unfold s_tok. apply word_eq. intros a Ha. unfold VaultProofs.tab, cached, sl.
    rewrite <- Hs by lia. f_equal. lia. }
  destruct k as [[ty tk] ob]. unfold keyat in E. injection E as _ E _.
  assert (N : tk <> INVALID /\ tk <> VMAGIC) by (unfold key_ok in K; tauto).
  destruct H as [H|(s & H & T)]; specialize (W _ H).
  - assert (W2 : word (fun _ => 255) (32 * (i - NS)) = INVALID) by reflexivity. intuition congruence.
  - destruct (Z.eq_dec i NS) as [ -> |Ne].
    + replace (32 * (NS - NS)) with 0 in W by lia. rewrite (to_magic c _ T) in W. intuition congruence.
    + assert (W2 : word s (32 * (i - NS)) = INVALID).
      { unfold word. rewrite !(to_pad c _ T) by lia. reflexivity. }
      intuition congruence.
Qed.

Lemma base_A : forall f, base f -> stA f.
Proof.
  intros f Hb. pose proof (sr_ok _ _ _ _ Hb) as V. pose proof V as (Bf & T & D). split; [exact Bf|]. split.
  - apply (base_move f); try exact Hb.
    + intro x. unfold sync. destruct (inr _ _ _); apply Bf.
    + apply same_like, sync_tab.
    + apply sync_synced.
    + intros i a Hi Ui Ha. apply sync_high. apply (buf_low c OK); [apply (to_pos c _ T); assumption|lia].
  - intros i Hi. apply (no_ghost c OK); try assumption. apply Hb.
Qed.

Lemma claim_ok : forall f g j p, claimed f g j p -> table_ok (tab g) /\ keyat (tab g) j = k /\ s_pos (tab g) j = p /\ s_size (tab g) j = 8.
Proof.
  intros f g j p [H1 H2 H3 H4 H5 H6 H7 H8]. pose proof (sr_ok _ _ _ _ H1) as (Bf & T & D). split.
  - apply (like_table c OK _ _ H7). apply (claim_table c OK); try assumption. apply base_absent, H1.
  - rewrite (like_key c OK _ _ j H7 H3), (like_pos c OK _ _ j H7 H3), (like_size c OK _ _ j H7 H3).
    split; [apply (claim_key c OK); assumption|]. split; [apply (claim_pos c OK); assumption|apply (claim_size c OK); assumption].
Qed.

Lemma magic_blank : forall g, sector_is g 0 (fun _ => 255) -> word g B <> VMAGIC.
Proof.
  intros g H. pose proof sz_big. assert (E : forall i, 0 <= i < 4 -> g (B + i) = 255).
  { intros i Hi. specialize (H i). cbn beta in H. rewrite Z.add_0_r in H. apply H. lia. }
  unfold word. rewrite <- (Z.add_0_r B) at 1. rewrite !E by lia. discriminate.
Qed.

(** Changes outside the table and outside the other objects keep a claimed state. *)
Lemma claimed_move : forall f g h j p, claimed f g j p -> bytes h -> like (tab g) (tab h) ->
  (forall x, B + 2 * SZ <= x -> ~ (buf p <= x < buf p + SZ) -> h x = g x) -> claimed f h j p.
Proof.
  intros f g h j p [H1 H2 H3 H4 H5 H6 H7 H8] Bh L D. split; try assumption.
  - eapply like_trans; [exact H7|exact L].
  - intros x Hx Hn. rewrite D by assumption. apply H8; assumption.
Qed.

Lemma base_fresh : forall h, s0 = empty_store -> bytes h -> like (fresh c) (tab h) -> synced h -> base h.
Proof.
  intros h E0 Bh L Sy. assert (T : table_ok (tab h)) by exact (like_table c OK _ _ L (fresh_table c OK)).
  assert (Nu : forall j, 0 <= j < NS -> ~ used (tab h) j).
  { intros j Hj U. apply (like_used c OK _ _ j L Hj) in U. apply U. unfold s_tok, word. rewrite !(fresh_out c OK) by (unfold sl; lia). reflexivity. }
  unfold base. rewrite E0. split; cbn [empty_store v_objs v_open].
  - split; [exact Bh|]. split; [exact T|]. intros j Hj U. exfalso. exact (Nu j Hj U).
  - exact Sy.
  - split; [constructor|]. intros k' d. split; [intros []|]. intros (j & Hj & U & _). exfalso. exact (Nu j Hj U).
  - unfold no_handles. generalize MAX_OPEN. intro n. induction n as [|n IH]; cbn [repeat]; constructor; [split; reflexivity|exact IH].
  - apply repeat_length.
  - intros i i' a a' N. rewrite nth_none in N. discriminate.
Qed.

(** *** [check_vault] *)
Lemma check_J : forall g, J g -> wps (check_vault c) (fun _ h => stA h \/ stB h) J g.
Proof.
  intros g HJ. pose proof sz_big as Hs.
  assert (Good : (stA g \/ stB g) -> wps (check_vault c) (fun _ h => stA h \/ stB h) J g).
  { intro H. apply check_vault_ok; [|exact HJ|exact H]. rewrite magic_at. destruct H as [(Bg & Hb & _)|(f & j & p & Cl)].
    - pose proof (sr_ok _ _ _ _ Hb) as (_ & T & _). rewrite <- (to_magic c _ T). symmetry. apply (like_word c _ _ 0 (sync_tab g)); lia.
    - destruct (claim_ok _ _ _ _ Cl) as (T & _). apply T. }
  destruct HJ as [HA|[HA'|[HB|[HB'|HF]]]]; [apply Good; left; exact HA| |apply Good; right; exact HB| |].
  all: clear Good.
  - destruct HA' as (Bg & Hb & M). pose proof (sr_ok _ _ _ _ Hb) as V. pose proof V as (Br & T & D). unfold check_vault. cbn [wps].
    assert (M2 : word g (B + SZ) = VMAGIC).
    { rewrite <- (to_magic c _ T). apply word_eq. intros i Hi. symmetry. apply rst_tab. lia. }
    rewrite (proj2 (Z.eqb_neq _ _) M), (proj2 (Z.eqb_eq _ _) M2). unfold restore_backup. rewrite !Z.add_0_r. cbn [wps].
    set (g1 := erase g B SZ). set (g2 := write g1 B SZ (cached g1 (B + SZ))).
    assert (B1 : bytes g1) by (apply bytes_erase, Bg).
    assert (B2 : bytes g2) by (apply bytes_write; [exact B1|intros i _; apply B1]).
    assert (R1 : forall x, rst g1 x = rst g x).
    { intro x. unfold VaultProofs.rst, g1. destruct (inr B SZ x) eqn:E.
      - apply inr_true in E. apply erase_out. lia.
      - apply inr_false in E. apply erase_out. lia. }
    assert (R2 : forall x, g2 x = rst g x).
    { intro x. rewrite <- R1. unfold VaultProofs.rst. destruct (inr B SZ x) eqn:E.
      - apply inr_true in E. unfold g2. rewrite write_in by lia. unfold g1 at 1. rewrite erase_in by lia. unfold cached.
        rewrite land_255 by apply B1. f_equal. lia.
      - apply inr_false in E. unfold g2. apply write_out. lia. }
    assert (Mv : forall h, bytes h -> (forall x, h x = rst g x) -> base h).
    { intros h Bh Eh. apply (base_move (rst g)); try assumption.
      - apply same_like. intros i Hi. apply Eh.
      - intros i Hi. rewrite !Eh. exact (sr_sync _ _ _ _ Hb i Hi).
      - intros; apply Eh. }
    split; [right; left; split; [exact Bg|split; [exact Hb|exact M]]|]. split.
    + right; left. split; [exact B1|]. split; [apply Mv; [intro x; unfold VaultProofs.rst; destruct (inr _ _ _); apply B1|exact R1]|].
      apply magic_blank. intros i Hi. rewrite Z.add_0_r. apply erase_in. lia.
    + assert (HA : stA g2) by (apply base_A, Mv; assumption). split; left; exact HA.
  - destruct HB' as (Bg & M & f & j & p & Cl). destruct (claim_ok _ _ _ _ Cl) as (T & _). unfold check_vault. cbn [wps].
    assert (M2 : word g (B + SZ) = VMAGIC).
    { rewrite <- (to_magic c _ T). apply word_eq. intros i Hi. symmetry. apply rst_tab. lia. }
    rewrite (proj2 (Z.eqb_neq _ _) M), (proj2 (Z.eqb_eq _ _) M2). unfold restore_backup. rewrite !Z.add_0_r. cbn [wps].
    set (g1 := erase g B SZ). set (g2 := write g1 B SZ (cached g1 (B + SZ))).
    assert (B1 : bytes g1) by (apply bytes_erase, Bg).
    assert (B2 : bytes g2) by (apply bytes_write; [exact B1|intros i _; apply B1]).
    assert (R1 : forall x, rst g1 x = rst g x).
    { intro x. unfold VaultProofs.rst, g1. destruct (inr B SZ x) eqn:E.
      - apply inr_true in E. apply erase_out. lia.
      - apply inr_false in E. apply erase_out. lia. }
    assert (R2 : forall x, g2 x = rst g x).
    { intro x. rewrite <- R1. unfold VaultProofs.rst. destruct (inr B SZ x) eqn:E.
      - apply inr_true in E. unfold g2. rewrite write_in by lia. unfold g1 at 1. rewrite erase_in by lia. unfold cached.
        rewrite land_255 by apply B1. f_equal. lia.
      - apply inr_false in E. unfold g2. apply write_out. lia. }
    assert (Mv : forall h, bytes h -> (forall x, h x = rst g x) -> claimed f h j p).
    { intros h Bh Eh. apply (claimed_move f (rst g)); try assumption; [intros i Hi; apply Eh|intros; apply Eh]. }
    split; [right; right; right; left; split; [exact Bg|split; [exact M|exists f, j, p; exact Cl]]|]. split.
    + right; right; right; left. split; [exact B1|]. split; [apply magic_blank; intros i Hi; rewrite Z.add_0_r; apply erase_in; lia|].
      exists f, j, p. apply Mv; [intro x; unfold VaultProofs.rst; destruct (inr _ _ _); apply B1|exact R1].
    + assert (HB : stB g2) by (exists f, j, p; apply Mv; assumption). split; [right; right; left; exact HB|right; exact HB].
  - pose proof HF as (E0 & Bg & M1 & M2). unfold check_vault. cbn [wps]. rewrite (proj2 (Z.eqb_neq _ _) M1), (proj2 (Z.eqb_neq _ _) M2).
    assert (Bf : bytes (fresh c)).
    { intro i. unfold fresh. destruct (inr _ _ _); [unfold is_byte; lia|]. apply bytes_put32. intro x. unfold is_byte. lia. }
    assert (A' : forall h, bytes h -> sector_is h SZ (fresh c) -> word h B <> VMAGIC -> J h).
    { intros h Bh S1 Mh. right; left. split; [exact Bh|]. split; [|exact Mh]. apply base_fresh; [exact E0| | |].
      - intro x. unfold VaultProofs.rst. destruct (inr _ _ _); apply Bh.
      - intros i Hi. rewrite rst_tab by exact Hi. apply S1, Hi.
      - intros i Hi. rewrite rst_high by lia. symmetry. exact (rst_tab h i Hi). }
    apply wps_bind. apply wps_commit3; [exact Bg|exact Bf|lia|left; reflexivity|do 4 right; exact HF| | |].
    + intros h Bh Hh Eq.
      assert (Mh : word h B <> VMAGIC).
      { replace (word h B) with (word g B); [exact M1|]. apply word_eq. intros i Hi. symmetry. apply Eq. unfold VaultProofs.in_sector. lia. }
      destruct Hh as [Hh|Hh]; [|apply A'; assumption]. do 4 right. split; [exact E0|]. split; [exact Bh|]. split; [exact Mh|].
      assert (E : forall i, 0 <= i < 4 -> h (B + SZ + i) = 255) by (intros i Hi; apply Hh; lia).
      unfold word. rewrite <- (Z.add_0_r (B + SZ)) at 1. rewrite !E by lia. discriminate.
    + intros h Bh S1 S2 Eq. apply A'; [exact Bh|exact S1|exact (magic_blank h S2)].
    + intros h Bh S1 S2 Eq.
      assert (L : like (fresh c) (tab h)) by (intros i Hi; specialize (S2 i Hi); rewrite Z.add_0_r in S2; exact S2).
      assert (Sy : synced h) by (intros i Hi; rewrite S1 by exact Hi; symmetry; exact (L i Hi)).
      assert (HA : stA h) by (apply base_A, base_fresh; assumption).
      split; [left; exact HA|]. cbn [wps]. split; [left; exact HA|].
      match goal with |- J (erase h ?a ?n) /\ _ => set (h2 := erase h a n) end.
      assert (Low : forall x, x < B + 2 * SZ -> h2 x = h x) by (intros x Hx; apply erase_out; lia).
      assert (HA2 : stA h2).
      { apply base_A, base_fresh; [exact E0|apply bytes_erase, Bh| |].
        - intros i Hi. rewrite tab_at, Low by lia. apply L, Hi.
        - intros i Hi. rewrite !Low by lia. apply Sy, Hi. }
      split; [left; exact HA2|left; exact HA2].
Qed.

(** *** Searching *)
Lemma find_A : forall g (Q : option Z -> flash -> Prop) (C : flash -> Prop), stA g -> C g -> Q None g -> wps (find_object_buffer c k) Q C g.
Proof.
  intros g Q C (Bg & Hb & N) HC HQ. unfold find_object_buffer. cbn [wps]. rewrite find_header_none; [cbn [wps]; auto|].
  intros i Hi. rewrite (table_len_eq c OK) in Hi. apply matches_false. destruct (Z.lt_ge_cases i NS); [|apply N; lia].
  rewrite <- (like_key c OK _ _ i (sync_tab g)) by lia. apply base_absent; [exact Hb|lia].
Qed.

Lemma obj_off_sector : forall p, 0 <= p < MAXI c -> obj_off c p = p * SZ /\ obj_off c p mod SZ = 0.
Proof.
  intros p Hp. pose proof sz_big. rewrite (obj_off_eq c OK p Hp), One. split; [reflexivity|]. apply Z.mod_mul. lia.
Qed.
Lemma buf_eq : forall p, buf p = B + 2 * SZ + p * SZ.
Proof. intro p. unfold VaultProofs.buf. rewrite One. reflexivity. Qed.

(** The header deleted again. *)
Definition bclr (s : flash) (p : Z) : flash := fun i => if i =? 4 + p / 8 then Z.ldiff (s i) (Z.shiftl 1 (p mod 8)) else s i.
Definition unclaim (s : flash) (j p : Z) : flash := bclr (put32 (put32 s (sl j) INVALID) (sl j + 4) INVALID) p.

Lemma bclr_out : forall s p i, 0 <= p < MAXI c -> i < 4 \/ 32 <= i -> bclr s p i = s i.
Proof.
  intros s p i Hp Hi. unfold bclr. pose proof (bit_at c OK p Hp). destruct (Z.eqb_spec i (4 + p / 8)); [lia|reflexivity].
Qed.
Lemma bclr_bit : forall s p q, 0 <= p -> 0 <= q -> bit (bclr s p) q = negb (q =? p) && bit s q.
Proof.
  intros s p q Hp Hq. unfold bit, bclr.
  pose proof (Z.mod_pos_bound p 8 eq_refl). pose proof (Z.mod_pos_bound q 8 eq_refl).
  pose proof (Z_div_mod_eq_full p 8) as Dp. pose proof (Z_div_mod_eq_full q 8) as Dq.
  destruct (Z.eqb_spec (4 + q / 8) (4 + p / 8)) as [E|E].
  - rewrite Z.ldiff_spec, Z.shiftl_1_l, Z.pow2_bits_eqb by lia. rewrite andb_comm. f_equal. f_equal.
    destruct (Z.eqb_spec (p mod 8) (q mod 8)), (Z.eqb_spec q p); try reflexivity; [lia|subst; lia].
  - destruct (Z.eqb_spec q p) as [ -> |Ne]; [lia|reflexivity].
Qed.
Lemma bytes_bclr : forall s p, bytes s -> bytes (bclr s p).
Proof.
  intros s p H i. unfold bclr. destruct (i =? _); [|apply H]. specialize (H i). unfold is_byte in *.
  pose proof (Z.ldiff_nonneg (s i) (Z.shiftl 1 (p mod 8))). split; [tauto|].
  assert (Z.ldiff (s i) (Z.shiftl 1 (p mod 8)) <= s i); [|lia]. apply Z.ldiff_le; [lia|].
  apply Z.bits_inj'. intros n Hn. rewrite !Z.ldiff_spec, Z.bits_0. destruct (Z.testbit (s i) n); [|reflexivity]. destruct (Z.testbit (Z.shiftl 1 (p mod 8)) n); reflexivity.
Qed.

Lemma unclaim_same : forall f g j p, claimed f g j p -> same_table (tab f) (unclaim (tab g) j p).
Proof.
  intros f g j p Cl. pose proof Cl as [H1 H2 H3 H4 H5 H6 H7 H8]. pose proof (ns_eq c OK) as NE.
  assert (W : forall i a, 0 <= i < NS -> i <> j -> 0 <= a <= 16 -> word (unclaim (tab g) j p) (sl i + a) = word (tab f) (sl i + a)).
  { intros i a Hi Ne Ha. transitivity (word (tab g) (sl i + a)).
    - unfold unclaim, word. rewrite !bclr_out by (assumption || (unfold sl; lia)). rewrite !put32_out by (unfold sl; lia). reflexivity.
    - rewrite (like_slot c OK _ _ i a H7 Hi Ha). apply (claim_slot c OK); (assumption || lia). }
  assert (Uj : ~ used (unclaim (tab g) j p) j).
  { intro U. apply U. unfold s_tok, unclaim.
    assert (E : word (bclr (put32 (put32 (tab g) (sl j) INVALID) (sl j + 4) INVALID) p) (sl j) = word (put32 (put32 (tab g) (sl j) INVALID) (sl j + 4) INVALID) (sl j)).
    { unfold word. rewrite !bclr_out by (assumption || (unfold sl; lia)). reflexivity. }
    rewrite E, word_put32_out by lia. apply word_put32. unfold INVALID. lia. }
  split.
  - transitivity (word (tab g) 0).
    + unfold unclaim, word. rewrite !bclr_out by (assumption || lia). rewrite !put32_out by (unfold sl; lia). reflexivity.
    + pose proof sz_big. rewrite (like_word c _ _ 0 H7) by lia. apply (claim_magic c OK); assumption.
  - intros i Hi. pose proof (ns_pos c OK). unfold unclaim. rewrite bclr_out by (assumption || lia). rewrite !put32_out by (unfold sl; lia).
    rewrite H7 by lia. apply (claim_out c OK); (assumption || lia || (unfold sl; lia)).
  - intros i Hi. destruct (Z.eq_dec i j) as [ -> |Ne]; [tauto|]. unfold used, s_tok. rewrite <- (Z.add_0_r (sl i)), W by lia. tauto.
  - intros i Hi U. assert (Ne : i <> j) by (intros -> ; contradiction). unfold keyat, s_ty, s_tok, s_obj, s_pos, s_size.
    rewrite <- (Z.add_0_r (sl i)) at 2 4. rewrite !W by lia. split; [rewrite Z.add_0_r; reflexivity|]. split; reflexivity.
  - intros q Hq. unfold unclaim. rewrite bclr_bit by lia.
    assert (E : bit (put32 (put32 (tab g) (sl j) INVALID) (sl j + 4) INVALID) q = bit (tab g) q).
    { unfold bit. pose proof (bit_at c OK q Hq). rewrite !put32_out by (unfold sl; lia). reflexivity. }
    rewrite E, (like_bit c OK _ _ q H7 Hq), (claim_bit c OK) by assumption.
    destruct (Z.eqb_spec q p) as [ -> |Ne]; [rewrite H6|]; reflexivity.
Qed.

Lemma delete_B : forall f g j p (Q : unit -> flash -> Prop), claimed f g j p -> (forall h, stA h -> Q tt h) -> wps (delete_object c k) Q J g.
Proof.
  intros f g j p Q Cl HQ. pose proof Cl as [H1 H2 H3 H4 H5 H6 H7 H8]. destruct (claim_ok _ _ _ _ Cl) as (T & Ek & Ep & _).
  pose proof (ns_eq c OK) as NE. pose proof (ns_pos c OK) as NP. pose proof sz_big as Hs.
  assert (JB : J g) by (right; right; left; exists f, j, p; exact Cl).
  assert (Uj : used (tab g) j) by (apply (key_used _ _ k); assumption).
  unfold delete_object. apply wps_bind. apply check_vault_ok; [rewrite magic_at; apply T|exact JB|]. cbn [wps].
  change (cached g B) with (tab g).
  assert (Ht : forall h, (let '(_, tk, _) := k in word (tab g) h <> tk) -> matches (tab g) h k = false).
  { intros h Nt. destruct k as [[ty tk] ob]. unfold matches. rewrite (proj2 (Z.eqb_neq _ _) Nt). reflexivity. }
  assert (Mi : forall i, matches (tab g) (0 + 32 * (4 + i)) k = true <-> keyat (tab g) i = k).
  { intro i. rewrite <- (matches_iff c). assert (E : forall a, word (tab g) (0 + 32 * (4 + i) + a) = word g (B + HDROFF + 32 * i + a)).
    { intro a. unfold VaultProofs.tab. rewrite word_cached. f_equal. unfold HDROFF. lia. }
    destruct k as [[ty tk] ob]. unfold matches. rewrite <- (Z.add_0_r (0 + 32 * (4 + i))) at 1. rewrite <- (Z.add_0_r (B + HDROFF + 32 * i)) at 1.
    rewrite !E. reflexivity. }
  assert (EN : Z.of_nat (Z.to_nat (SZ / HDRSZ)) = NS + 4).
  { unfold HDRSZ. replace SZ with (32 * (NS + 4)) by lia. rewrite Z.mul_comm, Z.div_mul by lia. lia. }
  rewrite (delete_skip _ c k (tab g) 0 (4 + j)); [|lia|].
  2:{ intros i Hi. destruct (Z.lt_ge_cases i 4) as [L|L].
      - apply Ht. assert (N : let '(_, tk, _) := k in tk <> INVALID /\ tk <> VMAGIC) by (destruct k as [[ty tk] ob]; unfold key_ok in K; tauto).
        destruct k as [[ty tk] ob]. destruct (Z.eq_dec i 0) as [ -> |Ne].
        + rewrite (to_magic c _ T : word (tab g) (0 + 32 * 0) = VMAGIC). intuition.
        + assert (W2 : word (tab g) (0 + 32 * i) = INVALID) by (unfold word; rewrite !(to_pad c _ T) by lia; reflexivity). rewrite W2. intuition.
      - replace i with (4 + (i - 4)) by lia. apply not_true_iff_false. rewrite Mi. rewrite <- Ek.
        apply (unique_first c); try assumption. lia. }
  replace (Z.to_nat (SZ / HDRSZ) - Z.to_nat (4 + j))%nat with (S (Z.to_nat (SZ / HDRSZ) - Z.to_nat (4 + j) - 1))%nat by lia.
  cbn [delete_loop]. rewrite (proj2 (Mi j) Ek). replace (0 + 32 * (4 + j)) with (sl j) by (unfold sl; lia).
  assert (Eh : h_pos (tab g) (sl j) = p) by exact Ep. rewrite Eh.
  assert (EB : bitmap_put c (put32 (put32 (tab g) (sl j) INVALID) (sl j + 4) INVALID) p false = Some (unclaim (tab g) j p)).
  { unfold bitmap_put. pose proof (bit_at c OK p H4). rewrite (proj2 (Z.leb_le _ _)), (proj2 (Z.ltb_lt _ _)) by lia. reflexivity. }
  rewrite EB. set (s := unclaim (tab g) j p). pose proof (unclaim_same _ _ _ _ Cl) as Sm. fold s in Sm.
  pose proof (sr_ok _ _ _ _ H1) as (Bf & Tf & Df). pose proof (same_ok _ _ Sm Tf) as Ts.
  assert (Bs : bytes s) by (apply bytes_bclr; repeat apply bytes_put32; intro x; apply H2).
  assert (Dt : forall h, (forall x, B + 2 * SZ <= x -> h x = g x) ->
    forall i a, 0 <= i < NS -> used (tab f) i -> 0 <= a < OSZ c -> h (buf (s_pos (tab f) i) + a) = f (buf (s_pos (tab f) i) + a)).
  { intros h Eq i a Hi Ui Ha. pose proof (to_pos c _ Tf i Hi Ui) as Hq. pose proof (buf_low c OK (s_pos (tab f) i) a Hq ltac:(lia)) as Lo.
    rewrite Eq by exact Lo. apply H8; [exact Lo|]. assert (Nq : s_pos (tab f) i <> p) by (intro E; pose proof (to_bit c _ Tf i Hi Ui); congruence).
    intro R. refine (buf_disjoint c _ _ a (buf (s_pos (tab f) i) + a - buf p) _ _ Nq _ _ _); lia. }
  assert (BM : forall h, bytes h -> like s (tab h) -> synced h -> (forall x, B + 2 * SZ <= x -> h x = g x) -> base h).
  { intros h Bh Lh Sh Eh2. apply (base_move f); try assumption; [|apply Dt, Eh2].
    pose proof (same_like _ _ Lh) as Sl. destruct Sm as [M1 M2 M3 M4 M5], Sl as [L1 L2 L3 L4 L5]. split.
    - congruence.
    - intros i Hi. rewrite L2, M2 by exact Hi. reflexivity.
    - intros i Hi. rewrite L3, M3 by exact Hi. tauto.
    - intros i Hi U. destruct (M4 i Hi U) as (A1 & A2 & A3). destruct (L4 i Hi (proj2 (M3 i Hi) U)) as (C1 & C2 & C3). repeat split; congruence.
    - intros q Hq. rewrite L5, M5 by exact Hq. reflexivity. }
  apply wps_commit3; [exact H2|exact Bs|lia|left; reflexivity|exact JB| | |].
  - intros h Bh _ Eq. right; right; left. exists f, j, p. apply (claimed_move f g); try assumption.
    + intros i Hi. apply Eq. unfold VaultProofs.in_sector. lia.
    + intros x Hx _. apply Eq. unfold VaultProofs.in_sector. lia.
  - intros h Bh S1 S2 Eq. right; left. split; [exact Bh|]. split; [|exact (magic_blank h S2)].
    apply BM.
    + intro x. unfold VaultProofs.rst. destruct (inr _ _ _); apply Bh.
    + intros i Hi. rewrite rst_tab by exact Hi. apply S1, Hi.
    + intros i Hi. rewrite rst_high by lia. symmetry. exact (rst_tab h i Hi).
    + intros x Hx. rewrite rst_high by lia. apply Eq; unfold VaultProofs.in_sector; lia.
  - intros h Bh S1 S2 Eq. assert (HA : stA h).
    { apply base_A, BM; [exact Bh| | |].
      - intros i Hi. specialize (S2 i Hi). rewrite Z.add_0_r in S2. exact S2.
      - intros i Hi. rewrite S1 by exact Hi. specialize (S2 i Hi). rewrite Z.add_0_r in S2. symmetry. exact S2.
      - intros x Hx. apply Eq; unfold VaultProofs.in_sector; lia. }
    split; [left; exact HA|apply HQ, HA].
Qed.

Lemma find_B : forall f g j p (Q : option Z -> flash -> Prop), claimed f g j p ->
  (forall h, claimed f h j p -> ids_at h (buf p) k = true -> Q (Some (buf p)) h) -> (forall h, stA h -> Q None h) ->
  wps (find_object_buffer c k) Q J g.
Proof.
  intros f g j p Q Cl HS HN. pose proof Cl as [H1 H2 H3 H4 H5 H6 H7 H8]. destruct (claim_ok _ _ _ _ Cl) as (T & Ek & Ep & _).
  pose proof sz_big as Hs. assert (Uj : used (tab g) j) by (apply (key_used _ _ k); assumption).
  assert (JB : forall h, claimed f h j p -> J h) by (intros h Ch; right; right; left; exists f, j, p; exact Ch).
  assert (Fh : forall h, claimed f h j p -> find_object_header c h k = Some (hdr j)).
  { intros h Ch. destruct (claim_ok _ _ _ _ Ch) as (Th & Eh & _). apply (find_hit c OK); [exact H3|exact Eh|].
    rewrite <- Eh. apply (unique_first c); try assumption. apply (key_used _ _ k); assumption. }
  unfold find_object_buffer. cbn [wps]. pose proof (Fh g Cl) as F. unfold find_object_header in F. rewrite F, pos_at, Ep.
  destruct (obj_off_sector p H4) as [O1 O2]. rewrite O2, O1.
  replace (B + 2 * SZ + p * SZ) with (buf p) by apply buf_eq.
  destruct (ids_at g (buf p) k) eqn:I1.
  - cbn [wps]. split; [apply JB, Cl|apply HS; assumption].
  - rewrite Z.add_0_r. destruct (ids_at g (B + SZ) k) eqn:I2.
    + replace (p * SZ + 2 * SZ - 0) with (2 * SZ + p * SZ) by lia. unfold restore_backup.
      replace (B + (2 * SZ + p * SZ)) with (buf p) by (rewrite buf_eq; lia). cbn [bind wps].
      set (g1 := erase g (buf p) SZ). set (g2 := write g1 (buf p) SZ (cached g1 (B + SZ))).
      assert (Lo : B + 2 * SZ <= buf p) by (rewrite buf_eq; nia).
      assert (B1 : bytes g1) by (apply bytes_erase, H2).
      assert (B2 : bytes g2) by (apply bytes_write; [exact B1|intros i _; apply B1]).
      assert (E1 : forall x, ~ (buf p <= x < buf p + SZ) -> g1 x = g x) by (intros x Hx; apply erase_out; lia).
      assert (E2 : forall x, ~ (buf p <= x < buf p + SZ) -> g2 x = g x) by (intros x Hx; unfold g2; rewrite write_out by lia; apply E1, Hx).
      assert (C1 : claimed f g1 j p) by (apply (claimed_move f g); try assumption; [intros i Hi; apply E1; lia|intros; apply E1; assumption]).
      assert (C2 : claimed f g2 j p) by (apply (claimed_move f g); try assumption; [intros i Hi; apply E2; lia|intros; apply E2; assumption]).
      split; [apply JB, Cl|]. split; [apply JB, C1|]. split; [apply JB, C2|].
      destruct (claim_ok _ _ _ _ C2) as (_ & _ & Ep2 & _). rewrite pos_at, Ep2, O1. replace (B + 2 * SZ + p * SZ) with (buf p) by apply buf_eq.
      apply HS; [exact C2|]. rewrite <- I2. destruct k as [[ty tk] ob]. unfold ids_at.
      assert (W : forall a, 0 <= a <= 4 -> word g2 (buf p + a) = word g (B + SZ + a)).
      { intros a Ha. apply word_eq. intros i Hi. unfold g2. rewrite write_in by lia. unfold g1 at 1. rewrite erase_in by lia. unfold cached.
        rewrite land_255 by apply B1. unfold g1. rewrite erase_out by lia. f_equal. lia. }
      rewrite <- (Z.add_0_r (buf p)) at 1. rewrite <- (Z.add_0_r (B + SZ)) at 1. rewrite !W by lia. reflexivity.
    + apply wps_bind. apply (delete_B f g j p); [exact Cl|]. intros h HA. cbn [wps]. split; [left; exact HA|apply HN, HA].
Qed.

(** *** Creating *)
Lemma create_A : forall g (Q : option Z -> flash -> Prop), stA g ->
  (forall f h j p, claimed f h j p -> ids_at h (buf p) k = true -> Q (Some (hdr j)) h) -> wps (create_object c k) Q J g.
Proof.
  intros g Q HA HQ. pose proof HA as (Bg & Hb & N). pose proof (sr_ok _ _ _ _ Hb) as (Bs & Ts & Ds).
  pose proof (sync_tab g) as Lg. pose proof (like_table c OK _ _ (like_sym _ _ Lg) Ts) as Tg.
  pose proof (ns_eq c OK) as NE. pose proof (ns_pos c OK) as NP. pose proof sz_big as Hs.
  assert (Ug : forall j, 0 <= j < NS -> used (tab (sync g)) j <-> used (tab g) j) by (intros j Hj; apply (like_used c OK _ _ j Lg Hj)).
  assert (Full : ((forall j, 0 <= j < NS -> used (tab g) j) \/ (forall p, 0 <= p < MAXI c -> bit (tab g) p = true)) -> False).
  { intro H. pose proof (full_items c (sync g) _ Ts (sr_rep _ _ _ _ Hb)) as X. assert (items c <= length (v_objs s0))%nat; [|lia]. apply X.
    destruct H as [H|H]; [left; intros j Hj; apply Ug; auto|right; intros p Hp; rewrite (like_bit c OK _ _ p Lg Hp); auto]. }
  unfold create_object. apply wps_bind. apply find_A; [exact HA|left; exact HA|]. cbn [wps].
  change (Z.to_nat ((VSEC c - HDROFF) / HDRSZ)) with (Z.to_nat NS). change (cached g B) with (tab g).
  destruct (first_true (fun j => word (tab g) (HDROFF + 32 * j) =? INVALID) (Z.to_nat NS)) as [All|[j [Hj [Ej Bj]]]].
  { exfalso. apply Full. left. intros j Hj. specialize (All j). cbn beta in All. rewrite Z.eqb_neq in All. unfold used, s_tok, sl. apply All. lia. }
  rewrite (create_skip _ c k g (tab g) HDROFF j) by (lia || exact Bj). assert (Hj' : 0 <= j < NS) by lia.
  replace (Z.to_nat NS - Z.to_nat j)%nat with (S (Z.to_nat NS - Z.to_nat j - 1))%nat by lia.
  assert (Nu : ~ used (tab g) j) by (apply Z.eqb_eq in Ej; unfold used, s_tok, sl; unfold HDROFF in Ej; tauto).
  destruct (first_true (fun q => negb (bit (tab g) q)) (Z.to_nat (MAXI c))) as [Fu|[p [Hp [Ep Bp]]]].
  { exfalso. apply Full. right. intros q Hq. apply negb_false_iff, (Fu q). lia. }
  assert (Hp' : 0 <= p < MAXI c) by lia. apply negb_true_iff in Ep.
  assert (FS : find_free (Z.to_nat (MAXI c)) c g 0 = Some p).
  { apply find_free_some; [lia|rewrite bit_at_flash; exact Ep|]. intros q Hq. rewrite bit_at_flash. apply negb_false_iff, Bp. lia. }
  destruct (obj_off_sector p Hp') as [O1 O2].
  assert (EQ : create_loop (S (Z.to_nat NS - Z.to_nat j - 1)) c k g (tab g) (HDROFF + 32 * j) =
    (commit c 0 (claim (tab g) j p k) ;;
     Rd (fun f => commit c (2 * SZ + p * SZ)
       (let '(_, tk, ob) := k in put32 (put32 (cached f (B + (2 * SZ + p * SZ))) 0 tk) (0 + 4) ob) ;;
       Ret (Some (B + (HDROFF + 32 * j)))))).
  { destruct k as [[ty tk] ob]. cbn [create_loop]. rewrite Ej, FS, (bitmap_put_set c OK) by exact Hp'. rewrite O2, O1.
    replace (p * SZ + 2 * SZ - 0) with (2 * SZ + p * SZ) by lia. reflexivity. }
  rewrite EQ. clear EQ. set (s1 := claim (tab g) j p k).
  assert (Bc : bytes s1) by (apply claim_bytes; try assumption; apply (bytes_tab c), Bg).
  assert (Lc : like (claim (tab (sync g)) j p k) s1) by (apply like_claim, like_sym, Lg).
  assert (T1 : table_ok s1).
  { apply (claim_table c OK); try assumption. intros i Hi. rewrite <- (like_key c OK _ _ i Lg Hi). apply base_absent; assumption. }
  assert (Lo : B + 2 * SZ <= buf p) by (rewrite buf_eq; nia).
  assert (CL : forall h, bytes h -> like s1 (tab h) -> (forall x, B + 2 * SZ <= x -> ~ (buf p <= x < buf p + SZ) -> h x = g x) -> claimed (sync g) h j p).
  { intros h Bh Lh Eh. split; try assumption.
    - rewrite Ug by exact Hj'. exact Nu.
    - rewrite (like_bit c OK _ _ p Lg Hp'). exact Ep.
    - eapply like_trans; [exact Lc|exact Lh].
    - intros x Hx Hn. rewrite sync_high by exact Hx. apply Eh; assumption. }
  assert (JB : forall h, claimed (sync g) h j p -> J h) by (intros h Ch; right; right; left; exists (sync g), j, p; exact Ch).
  apply wps_bind. apply wps_commit3; [exact Bg|exact Bc|lia|left; reflexivity|left; exact HA| | |].
  - intros h Bh Hh Eq. left. split; [exact Bh|]. split.
    + apply (base_move (sync g)); try assumption.
      * intro x. unfold sync. destruct (inr _ _ _); apply Bh.
      * apply same_like. intros i Hi. rewrite (sync_tab h i Hi), (sync_tab g i Hi), !tab_at. apply Eq. unfold VaultProofs.in_sector. lia.
      * apply sync_synced.
      * intros i a Hi Ui Ha. pose proof (buf_low c OK (s_pos (tab (sync g)) i) a (to_pos c _ Ts i Hi Ui) ltac:(lia)) as Lx.
        rewrite !sync_high by exact Lx. apply Eq. unfold VaultProofs.in_sector. lia.
    + apply nog_blank. destruct Hh as [Hh|Hh]; [left; exact Hh|right; exists s1; split; assumption].
  - intros h Bh S1 S2 Eq. right; right; right; left. split; [exact Bh|]. split; [exact (magic_blank h S2)|]. exists (sync g), j, p. apply CL.
    + intro x. unfold VaultProofs.rst. destruct (inr _ _ _); apply Bh.
    + intros i Hi. rewrite rst_tab by exact Hi. apply S1, Hi.
    + intros x Hx _. rewrite rst_high by lia. apply Eq; unfold VaultProofs.in_sector; lia.
  - intros g1 B1 S1 S2 Eq1.
    assert (L1 : like s1 (tab g1)) by (intros i Hi; specialize (S2 i Hi); rewrite Z.add_0_r in S2; exact S2).
    assert (C1 : claimed (sync g) g1 j p) by (apply CL; [exact B1|exact L1|intros x Hx _; apply Eq1; unfold VaultProofs.in_sector; lia]).
    split; [apply JB, C1|]. cbn [wps]. apply wps_bind.
    set (s2 := let '(_, tk, ob) := k in put32 (put32 (cached g1 (B + (2 * SZ + p * SZ))) 0 tk) (0 + 4) ob).
    assert (B2 : bytes s2) by (unfold s2; destruct k as [[ty tk] ob]; do 2 apply bytes_put32; intro x; apply B1).
    assert (Eo : B + (2 * SZ + p * SZ) = buf p) by (rewrite buf_eq; lia).
    assert (CM : forall h, bytes h -> (forall x, ~ in_sector SZ x -> ~ in_sector (2 * SZ + p * SZ) x -> h x = g1 x) -> claimed (sync g) h j p).
    { intros h Bh Eq. apply (claimed_move (sync g) g1); try assumption.
      - intros i Hi. apply Eq; unfold VaultProofs.in_sector; nia.
      - intros x Hx Hn. apply Eq; unfold VaultProofs.in_sector; [lia|]. rewrite Eo. exact Hn. }
    apply wps_commit3; [exact B1|exact B2|nia|right; nia|apply JB, C1| | |].
    + intros h Bh _ Eq. apply JB, CM; [exact Bh|intros x Hx _; apply Eq, Hx].
    + intros h Bh _ _ Eq. apply JB, CM; assumption.
    + intros h Bh _ Sb Eq. pose proof (CM h Bh Eq) as Ch. split; [apply JB, Ch|]. cbn [wps]. split; [apply JB, Ch|].
      replace (B + (HDROFF + 32 * j)) with (hdr j) by (unfold VaultProofs.hdr; lia). apply (HQ (sync g) h j p Ch).
      assert (W : forall a, 0 <= a <= 4 -> word h (buf p + a) = word s2 a).
      { intros a Ha. apply word_eq. intros i Hi. rewrite <- Eo, <- Z.add_assoc. apply Sb. lia. }
      unfold s2 in W. destruct k as [[ty tk] ob]. unfold ids_at. destruct K as (K1 & K2 & K3 & _).
      rewrite <- (Z.add_0_r (buf p)) at 1. rewrite !W by lia. cbn [Z.add].
      rewrite word_put32 by assumption. rewrite word_put32_out by lia. rewrite word_put32 by assumption. rewrite !Z.eqb_refl. reflexivity.
Qed.

(** *** Handing out the handle *)
Lemma done_B : forall f g j p i hs, claimed f g j p -> ids_at g (buf p) k = true -> (hs = no_handles -> i = O) ->
  wps (update_store_size c (hdr j) 8 ;; Ret (Opened i, set_nth hs i (mkH true false (Some (buf p)) (Some (hdr j)) 8)))
    (fun r h => hs = no_handles -> fst r = Opened 0 /\
       srel h (snd r) (mkV (vset (v_objs s0) k []) (set_nth (v_open s0) 0 (Some (mkA k false 0))))) J g.
Proof.
  intros f g j p i hs Cl Ids Hi. pose proof Cl as [H1 H2 H3 H4 H5 H6 H7 H8]. destruct (claim_ok _ _ _ _ Cl) as (T & Ek & Ep & Es).
  pose proof (ns_eq c OK) as NE. pose proof (ns_pos c OK) as NP. pose proof sz_big as Hs.
  assert (JB : forall h, claimed f h j p -> J h) by (intros h Ch; right; right; left; exists f, j, p; exact Ch).
  assert (W : wps (update_store_size c (hdr j) 8 ;; Ret (Opened i, set_nth hs i (mkH true false (Some (buf p)) (Some (hdr j)) 8))) (fun _ _ => True) J g).
  { unfold update_store_size. rewrite (proj2 (Z.ltb_ge _ _)), (proj2 (Z.ltb_ge _ _)) by (unfold VaultProofs.hdr, HDROFF; lia).
    cbn [orb]. apply wps_bind. apply wps_bind. apply check_vault_ok; [rewrite magic_at; apply T|apply JB, Cl|].
    cbn [wps]. replace (hdr j - B + 16) with (sl j + 16) by (unfold VaultProofs.hdr, HDROFF, sl; lia). change (cached g B) with (tab g).
    set (s1 := put32 (tab g) (sl j + 16) 8).
    assert (L1 : like (tab g) s1).
    { intros x Hx. unfold s1. assert (D : sl j + 16 <= x < sl j + 20 \/ (x < sl j + 16 \/ sl j + 16 + 4 <= x)) by lia.
      destruct D as [D|D]; [|rewrite put32_out by exact D; reflexivity].
      assert (G : forall s, bytes s -> word s (sl j + 16) = 8 -> s x = nth (Z.to_nat (x - (sl j + 16))) [8; 0; 0; 0] 0).
      { clear -D. intros s Bs E. unfold word in E. rewrite <- !Z.add_assoc in E.
        pose proof (Bs (sl j + 16)) as A0. pose proof (Bs (sl j + (16 + 1))) as A1. pose proof (Bs (sl j + (16 + 2))) as A2. pose proof (Bs (sl j + (16 + 3))) as A3.
        unfold is_byte in *. unfold le32 in E.
        assert (x = sl j + 16 \/ x = sl j + (16 + 1) \/ x = sl j + (16 + 2) \/ x = sl j + (16 + 3)) as X by lia.
        destruct X as [ -> |[ -> |[ -> | -> ]]].
        - replace (sl j + 16 - (sl j + 16)) with 0 by lia. change (nth (Z.to_nat 0) [8; 0; 0; 0] 0) with 8. lia.
        - replace (sl j + (16 + 1) - (sl j + 16)) with 1 by lia. change (nth (Z.to_nat 1) [8; 0; 0; 0] 0) with 0. lia.
        - replace (sl j + (16 + 2) - (sl j + 16)) with 2 by lia. change (nth (Z.to_nat 2) [8; 0; 0; 0] 0) with 0. lia.
        - replace (sl j + (16 + 3) - (sl j + 16)) with 3 by lia. change (nth (Z.to_nat 3) [8; 0; 0; 0] 0) with 0. lia. }
      rewrite (G (tab g) (bytes_tab c g H2) Es). apply G; [apply bytes_put32, (bytes_tab c), H2|]. apply word_put32. lia. }
    assert (B1 : bytes s1) by (apply bytes_put32, (bytes_tab c), H2).
    assert (CM : forall h, bytes h -> like s1 (tab h) -> (forall x, B + 2 * SZ <= x -> h x = g x) -> claimed f h j p).
    { intros h Bh Lh Eh. apply (claimed_move f g); try assumption; [eapply like_trans; eassumption|intros x Hx _; apply Eh, Hx]. }
    apply wps_commit3; [exact H2|exact B1|lia|left; reflexivity|apply JB, Cl| | |].
    - intros h Bh _ Eq. apply JB, (claimed_move f g); try assumption.
      + intros x Hx. apply Eq. unfold VaultProofs.in_sector. lia.
      + intros x Hx _. apply Eq. unfold VaultProofs.in_sector. lia.
    - intros h Bh S1 S2 Eq. right; right; right; left. split; [exact Bh|]. split; [exact (magic_blank h S2)|]. exists f, j, p. apply CM.
      + intro x. unfold VaultProofs.rst. destruct (inr _ _ _); apply Bh.
      + intros x Hx. rewrite rst_tab by exact Hx. apply S1, Hx.
      + intros x Hx. rewrite rst_high by lia. apply Eq; unfold VaultProofs.in_sector; lia.
    - intros h Bh S1 S2 Eq. assert (Ch : claimed f h j p).
      { apply CM; [exact Bh| |intros x Hx; apply Eq; unfold VaultProofs.in_sector; lia].
        intros x Hx. specialize (S2 x Hx). rewrite Z.add_0_r in S2. exact S2. }
      split; [apply JB, Ch|]. split; [apply JB, Ch|exact I]. }
  destruct (list_eq_dec (A := handle) ltac:(decide equality; (apply Z.eq_dec || apply bool_dec || (decide equality; apply Z.eq_dec))) hs no_handles) as [ -> |Nh];
    [|eapply wps_post; [exact W|intros r h _ _ E; contradiction]].
  set (f' := fun x => if B + 2 * SZ <=? x then g x else f x).
  assert (Lf : like (tab f) (tab f')).
  { intros x Hx. rewrite !tab_at. unfold f'. rewrite (proj2 (Z.leb_gt _ _)) by lia. reflexivity. }
  pose proof (sr_ok _ _ _ _ H1) as (Bf & Tf & Df).
  assert (Hb : base f').
  { apply (base_move f); try assumption.
    - intro x. unfold f'. destruct (_ <=? _); [apply H2|apply Bf].
    - apply same_like, Lf.
    - intros x Hx. unfold f'. rewrite !(proj2 (Z.leb_gt _ _)) by lia. apply (sr_sync _ _ _ _ H1 x Hx).
    - intros q a Hq Uq Ha. pose proof (to_pos c _ Tf q Hq Uq) as Hpq. pose proof (buf_low c OK (s_pos (tab f) q) a Hpq ltac:(lia)) as Lx.
      unfold f'. rewrite (proj2 (Z.leb_le _ _)) by exact Lx. apply H8; [exact Lx|].
      assert (Nq : s_pos (tab f) q <> p) by (intro E; pose proof (to_bit c _ Tf q Hq Uq); congruence).
      intro R. refine (buf_disjoint c _ _ a (buf (s_pos (tab f) q) + a - buf p) _ _ Nq _ _ _); lia. }
  pose proof (sr_ok _ _ _ _ Hb) as Vf'. pose proof Vf' as (Bf' & Tf' & Df').
  assert (Nu' : ~ used (tab f') j) by (rewrite (like_used c OK _ _ j Lf H3); exact H5).
  assert (Fr' : bit (tab f') p = false) by (rewrite (like_bit c OK _ _ p Lf H4); exact H6).
  assert (Hi' : forall x, B + 2 * SZ <= x -> g x = f' x) by (intros x Hx; unfold f'; rewrite (proj2 (Z.leb_le _ _)) by exact Hx; reflexivity).
  assert (Cr : created c f' g j p k).
  { split; [exact H2| |exact Ids|intros x Hx _; apply Hi', Hx]. eapply like_trans; [|exact H7]. apply like_claim, like_sym, Lf. }
  assert (Vg : vault_ok g) by (apply (created_ok c OK f' g j p k); try assumption; apply base_absent, Hb).
  assert (Kg : kept f' k g).
  { split; [exact H2|]. split.
    - apply (like_tkept c OK f' k (claim (tab f') j p k)); [apply Cr|]. apply (tkept_claim c OK); assumption.
    - intros q Hq Sq a Ha. apply Hi', (buf_low c OK); [apply (to_pos c _ Tf'); [exact Hq|apply Sq]|lia]. }
  rewrite (Hi eq_refl) in *. eapply wps_both; [|exact W]. rewrite <- Ep.
  eapply wps_post; [apply (finish_open c OK f' g no_handles s0 0 j k); try assumption|].
  - intros i' a N _. rewrite Open0, nth_none in N. discriminate.
  - unfold MAX_OPEN. lia.
  - apply (others_created c OK f' g j p k); assumption.
  - intro U. contradiction.
  - intros q Hq _. apply base_absent; assumption.
  - intros r h _ X _. exact X.
Qed.

(** *** Opening for writing *)
Lemma open_J : forall g hs i, J g -> free_handle hs = Some i ->
  wps (store_open c k false hs)
    (fun r h => hs = no_handles -> fst r = Opened 0 /\
       srel h (snd r) (mkV (vset (v_objs s0) k []) (set_nth (v_open s0) 0 (Some (mkA k false 0))))) J g.
Proof.
  intros g hs i HJ Fi. unfold store_open. rewrite Fi.
  assert (Hi : hs = no_handles -> i = O) by (intros -> ; change (free_handle no_handles) with (Some O) in Fi; congruence).
  apply wps_bind. eapply wps_post; [apply check_J, HJ|]. intros u g1 _ H1. cbn beta in H1. apply wps_bind.
  assert (Go : forall g2, stA g2 -> wps (let! h <- create_object c k in
      match h with
      | None => Ret (Failed FIND_FULL_E, set_nth hs i (mkH (h_open (nth i hs nohandle)) (h_ro (nth i hs nohandle)) (h_buf (nth i hs nohandle)) None (h_off (nth i hs nohandle))))
      | Some h =>
        let! b <- find_object_buffer c k in
        match b with
        | None => Ret (Failed NOT_AVAILABLE_E, set_nth hs i (mkH (h_open (nth i hs nohandle)) (h_ro (nth i hs nohandle)) (h_buf (nth i hs nohandle)) (Some h) (h_off (nth i hs nohandle))))
        | Some buf => (update_store_size c h 8 ;; Ret (Opened i, set_nth hs i (mkH true false (Some buf) (Some h) 8)))
        end
      end) (fun r h => hs = no_handles -> fst r = Opened 0 /\
       srel h (snd r) (mkV (vset (v_objs s0) k []) (set_nth (v_open s0) 0 (Some (mkA k false 0))))) J g2).
  { intros g2 HA. apply wps_bind. apply create_A; [exact HA|]. intros f h j p Cl Ids. apply wps_bind.
    assert (JB : J h) by (right; right; left; exists f, j, p; exact Cl). destruct (claim_ok _ _ _ _ Cl) as (T & Ek & Ep & _).
    assert (Uj : used (tab h) j) by (apply (key_used _ _ k); assumption).
    apply (buffer_hit c OK h k j); try assumption.
    - apply Cl.
    - rewrite <- Ek. apply (unique_first c); try assumption. apply Cl.
    - rewrite Ep. apply Cl.
    - rewrite Ep. exact (proj1 (ids_words k _ h j _ Ek Ids)).
    - rewrite Ep. exact (proj2 (ids_words k _ h j _ Ek Ids)).
    - rewrite Ep. apply (done_B f h j p); assumption. }
  destruct H1 as [HA|(f & j & p & Cl)].
  - apply find_A; [exact HA|left; exact HA|]. apply Go, HA.
  - apply (find_B f g1 j p); [exact Cl| |].
    + intros h Ch Ids. cbn [wps]. destruct (claim_ok _ _ _ _ Ch) as (T & Ek & Ep & _).
      rewrite (find_hit c OK h k j); [|apply Ch|exact Ek|rewrite <- Ek; apply (unique_first c); [exact T|apply Ch|apply (key_used _ _ k); assumption]].
      apply (done_B f h j p); assumption.
    + intros h HA. apply Go, HA.
Qed.

End Vault.
