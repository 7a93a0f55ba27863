(** Theorems about measured boot: C64. *)
From Verif Require Import Base BaseLemmas TpmSpec TpmModel TpmProofs.
From Verif Require Import HeaderModel HeaderSpec HeaderProofs Flash FlashLemmas ImageModel
  ImageSpec ImageProofs GenuineProofs TrailerModel TrailerProofs TriggerProofs TrailerCrash SwapModel
  SwapSpec Geometry CopyProofs SwapInv SwapSteps SwapLoop SwapFinal SwapStart RefuseProofs HistoryProofs
  Sample ImageProps SwapProps.
Local Ltac Zify.zify_post_hook ::= idtac.

(** The [n] bytes of flash at [a]. *)
Definition content (f : flash) (a n : Z) : list Z := map (fun i => f (a + Z.of_nat i)) (seq 0 (Z.to_nat n)).

Lemma content_len : forall f a n, 0 <= n -> zlen (content f a n) = n.
Proof. intros. unfold content, zlen. rewrite map_length, seq_length. lia. Qed.

Lemma content_nth : forall f a n i, 0 <= i < n -> nth (Z.to_nat i) (content f a n) 0 = f (a + i).
Proof.
  intros f a n i Hi. unfold content.
  rewrite (nth_indep _ _ (f (a + Z.of_nat 0))) by (rewrite map_length, seq_length; lia).
  rewrite (map_nth (fun j => f (a + Z.of_nat j))), seq_nth by lia. f_equal. lia.
Qed.

(** C64: the measurement extends the configured PCR with the hash of exactly the bytes of the
    boot partition, whatever the block size, and touches nothing else of the TPM. *)
Theorem C64_measure : forall g C T part, 0 < block g -> zlen part + block g < 2 ^ 32 ->
  arch_sim g = false \/ (pcr_a g < 16)%nat ->
  exists T', tpm2_init g C 0 T part = Val (0, T') /\
    pcr T' (pcr_a g) = TpmSpec.hash C (pcr T (pcr_a g) ++ TpmSpec.hash C part) /\
    (forall i, i <> pcr_a g -> pcr T' i = pcr T i) /\ nv T' = nv T.
Proof.
  intros g C T part Hb Hs Ha. unfold tpm2_init. cbn [Z.eqb]. rewrite self_hash_ok by assumption. cbn [obind].
  assert (E : arch_sim g && (16 <=? pcr_a g)%nat = false).
  { destruct Ha as [ -> |Ha]; [reflexivity|]. destruct (Nat.leb_spec 16 (pcr_a g)); [lia|apply andb_false_r]. }
  unfold tpm2_extend. rewrite E. eexists. split; [reflexivity|]. cbn [extend pcr nv].
  rewrite Nat.eqb_refl. split; [reflexivity|]. split; [|reflexivity].
  intros i Hi. destruct (Nat.eqb_spec i (pcr_a g)); [contradiction|reflexivity].
Qed.
Print Assumptions C64_measure.

(** C64: two boot partitions that leave the PCR in the same state are equal, unless the hash
    collides on what was hashed for them. *)
Theorem C64_identifies : forall g C T part part' T1 T1', 0 < block g ->
  zlen part + block g < 2 ^ 32 -> zlen part' + block g < 2 ^ 32 -> arch_sim g = false \/ (pcr_a g < 16)%nat ->
  tpm2_init g C 0 T part = Val (0, T1) -> tpm2_init g C 0 T part' = Val (0, T1') ->
  pcr T1 (pcr_a g) = pcr T1' (pcr_a g) ->
  part = part' \/ exists x y, x <> y /\ TpmSpec.hash C x = TpmSpec.hash C y.
Proof.
  intros g C T part part' T1 T1' Hb Hs Hs' Ha E E' H.
  destruct (C64_measure g C T part Hb Hs Ha) as (X & EX & PX & _).
  destruct (C64_measure g C T part' Hb Hs' Ha) as (Y & EY & PY & _).
  assert (X = T1) by congruence. assert (Y = T1') by congruence. subst X Y. rewrite PX, PY in H.
  destruct (list_eq_dec Z.eq_dec part part') as [Q|Q]; [left; exact Q|right].
  destruct (list_eq_dec Z.eq_dec (TpmSpec.hash C part) (TpmSpec.hash C part')) as [Q'|Q'].
  - exists part, part'. split; assumption.
  - exists (pcr T (pcr_a g) ++ TpmSpec.hash C part), (pcr T (pcr_a g) ++ TpmSpec.hash C part').
    split; [|exact H]. intro K. apply app_inv_head in K. contradiction.
Qed.
Print Assumptions C64_identifies.

(** C64: in a boot that installs nothing - the current image is verified, no swap is in
    progress, no acceptable update waits - the measured bytes are those of the partition that
    is started. *)
Theorem C64_started_partial : forall g C T c u f, 0 < block g -> PART c + block g < 2 ^ 32 ->
  arch_sim g = false \/ (pcr_a g < 16)%nat ->
  geometry c -> bytes f -> u 0%nat <> ST_FINAL ->
  verified c f (BOOT c) -> no_swap c f -> ~ acceptable c f (fallback_due c f) ->
  HDR c <= SECT c \/ word f (UPDATE c + 4) <= PART c - HDR c ->
  exists T' f', tpm2_init g C 0 T (content f (BOOT c) (PART c)) = Val (0, T') /\
    run (start c u) f = Done (BOOT c + HDR c) f' /\
    pcr T' (pcr_a g) = TpmSpec.hash C (pcr T (pcr_a g) ++ TpmSpec.hash C (content f' (BOOT c) (PART c))).
Proof.
  intros g C T c u f Hb Hs Ha G By Hu V N A S.
  destruct (C13_rejected_update c u f G By Hu V N A S) as (E & _).
  destruct (C64_measure g C T (content f (BOOT c) (PART c)) Hb) as (T' & E1 & E2 & _);
    [rewrite content_len; [exact Hs|geo G; lia]|exact Ha|].
  exists T', f. split; [exact E1|]. split; [exact E|exact E2].
Qed.
Print Assumptions C64_started_partial.

(** C64 fails whenever an update is installed: the TPM is initialised, and the partition
    measured, before the update is looked at (src/loader.c:119 and 124).  The PCR holds the
    measurement of the image that was replaced, not of the one that is started. *)
Theorem C64_update_refuted : forall g C T c A B u f, 0 < block g -> PART c + block g < 2 ^ 32 ->
  arch_sim g = false \/ (pcr_a g < 16)%nat ->
  geometry c -> flags_fit c -> good c A -> good c B -> may_install c A B -> triggered_update c A B f ->
  (exists i, 0 <= i < zlen (fst A) /\ i < zlen (fst B) /\ nth (Z.to_nat i) (fst A) 0 <> nth (Z.to_nat i) (fst B) 0) ->
  exists T' f', tpm2_init g C 0 T (content f (BOOT c) (PART c)) = Val (0, T') /\
    run (start c u) f = Done (BOOT c + HDR c) f' /\ holds f' (BOOT c) (fst B) /\
    pcr T' (pcr_a g) = TpmSpec.hash C (pcr T (pcr_a g) ++ TpmSpec.hash C (content f (BOOT c) (PART c))) /\
    content f (BOOT c) (PART c) <> content f' (BOOT c) (PART c).
Proof.
  intros g C T c A B u f Hb Hs Ha G F GA GB Hm HT (i & Hi & Hj & D).
  destruct (C15_update c A B u f G F GA GB Hm HT) as (f' & E & H1 & _).
  destruct (triggered_facts c A B f G F GA GB Hm HT) as (Sh & _).
  destruct (Sh true) as (_ & _ & _ & N & HN & _ & Md). specialize (Md eq_refl).
  assert (HA : holds f (BOOT c) (fst A)).
  { destruct Md as (_ & _ & _ & Dt & _). apply (data_start c (fst A) (fst B) N G HN) in Dt. apply Dt. }
  pose proof (gn_fit _ _ _ GA) as FA.
  destruct (C64_measure g C T (content f (BOOT c) (PART c)) Hb) as (T' & E1 & E2 & _);
    [rewrite content_len; [exact Hs|geo G; lia]|exact Ha|].
  exists T', f'. split; [exact E1|]. split; [exact E|]. split; [exact H1|]. split; [exact E2|].
  intro K. apply D. rewrite <- (HA i Hi), <- (H1 i) by lia.
  assert (R : 0 <= i < PART c) by (geo G; lia).
  rewrite <- (content_nth f (BOOT c) (PART c) i R), <- (content_nth f' (BOOT c) (PART c) i R), K. reflexivity.
Qed.
Print Assumptions C64_update_refuted.

(** What main does, src/loader.c:118-124: initialise the TPM, ignore the outcome, boot. *)
Definition loader (g : config) (C : suite) (c : cfg) (rc : Z) (u : nat -> Z) (T : tpm) (f : flash)
  : out (tpm * outcome Z) :=
  dlet (_, T') <- tpm2_init g C rc T (content f (BOOT c) (PART c)) in Val (T', run (start c u) f).

(** C64 fails when the TPM does not answer: the result of the initialisation is ignored, and
    the image is started without having been measured. *)
Theorem C64_ignored_refuted : forall g C c rc u T f, rc <> 0 ->
  loader g C c rc u T f = Val (T, run (start c u) f).
Proof.
  intros g C c rc u T f H. unfold loader, tpm2_init. destruct (Z.eqb_spec rc 0); [contradiction|reflexivity].
Qed.
Print Assumptions C64_ignored_refuted.

(** C64 fails for the boot loader itself: what is documented as the hash of wolfBoot
    (docs/TPM.md:14 and 33; the comment at src/tpm.c:1216) is that of the boot partition.  A
    change anywhere else in memory, the boot loader included, leaves the measurement as it is. *)
Theorem C64_loader_refuted : forall g C c rc T f f', (forall x, BOOT c <= x < BOOT c + PART c -> f' x = f x) ->
  tpm2_init g C rc T (content f' (BOOT c) (PART c)) = tpm2_init g C rc T (content f (BOOT c) (PART c)).
Proof.
  intros g C c rc T f f' H. f_equal. unfold content. apply map_ext_in. intros i Hi. apply in_seq in Hi. apply H. lia.
Qed.
Print Assumptions C64_loader_refuted.

(** ** Concrete cases *)

Definition toy_hash (l : list Z) : list Z := repeat (fold_left (fun a b => (31 * a + b + 7) mod 251) l 1) 32.
Definition toy : suite := {| TpmSpec.hash := toy_hash; verify := fun _ _ _ => false; key_name := fun k => k;
  wrap := fun _ => ([], []); unwrap := fun _ _ => None |}.
Definition toy_g : config := {| block := 256; pcr_a := 8; pub_cap := 600; priv_cap := 600; arch_sim := false;
  seal_password := []; lookup := fun _ => None |}.
Definition toy_T : tpm := {| pcr := fun _ => repeat 0 32; updates := 0; nv := fun _ => None |}.

Example C64_hyps : 0 < block toy_g /\ PART demo + block toy_g < 2 ^ 32 /\ (pcr_a toy_g < 16)%nat /\
  exists T', tpm2_init toy_g toy 0 toy_T (content demo_flash (BOOT demo) (PART demo)) = Val (0, T') /\
    pcr T' 8 <> pcr toy_T 8.
Proof.
  split; [reflexivity|]. split; [reflexivity|]. split; [cbn; lia|].
  destruct (C64_measure toy_g toy toy_T (content demo_flash (BOOT demo) (PART demo))) as (T' & E & P & _);
    [reflexivity|rewrite content_len by discriminate; reflexivity|left; reflexivity|].
  exists T'. split; [exact E|]. change 8%nat with (pcr_a toy_g). rewrite P. vm_compute. discriminate.
Qed.

Example C64_update_hyps : exists i, 0 <= i < zlen (fst demo_A) /\ i < zlen (fst demo_B) /\
  nth (Z.to_nat i) (fst demo_A) 0 <> nth (Z.to_nat i) (fst demo_B) 0.
Proof. exists 4. vm_compute. split; [split; [discriminate|reflexivity]|]. split; [reflexivity|discriminate]. Qed.
