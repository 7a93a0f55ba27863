(** Theorems about sealing, the storage of sealed secrets and the root of trust: C65 to C67. *)
From Coq Require Import Permutation.
From stdpp Require countable.
From Verif Require Import Base BaseLemmas TpmSpec TpmModel TpmProofs.
Local Ltac Zify.zify_post_hook ::= idtac.

(** The TPM brings back what it wrapped, and it fits the buffers and 16-bit sizes. *)
Definition wraps (g : config) (C : suite) (o : object) : Prop :=
  unwrap C (fst (wrap C o)) (snd (wrap C o)) = Some o /\
  zlen (fst (wrap C o)) < 65536 /\ zlen (snd (wrap C o)) < 65536 /\
  zlen (fst (wrap C o)) <= pub_cap g /\ zlen (snd (wrap C o)) <= priv_cap g.

(** A policy text: the selection and the signature. *)
Definition policy_text (mask : Z) (sig : list Z) : list Z := le_bytes 4 mask ++ sig.
Definition selectable (mask : Z) : Prop := 0 <= mask < 2 ^ 24 /\ (length (chosen mask) <= 6)%nat.

Lemma small32 : forall m, 0 <= m < 2 ^ 24 -> 0 <= m < 2 ^ 32.
Proof. intros m. change (2 ^ 24) with 16777216. change (2 ^ 32) with 4294967296. lia. Qed.

(** ** C65 *)

(** C65: a secret is handed out for a policy text exactly when the key of the hint signed the
    present values of the selected PCRs and the object was sealed for that key. *)
Theorem C65_unseal : forall g C T hint mask sig pub priv cap d, selectable mask ->
  unseal_blob g C T hint (policy_text mask sig) pub priv [] cap = Val (0, d) <->
  exists key o, lookup g hint = Some key /\
    verify C key (to_sign C (pcr_policy C no_policy mask (pcr T)) []) sig = true /\
    unwrap C pub priv = Some o /\ obj_policy o = signed_policy C key [] /\ obj_data o = d /\ zlen d <= cap.
Proof.
  intros g C T hint mask sig pub priv cap d (Hm & Hl). unfold policy_text.
  rewrite unseal_blob_policy by (apply small32; exact Hm). rewrite mask_of_sel by assumption. split.
  - intro E. destruct (lookup g hint) as [key|]; [|discriminate].
    destruct (verify _ _ _ _) eqn:V; [|discriminate]. destruct (unwrap C pub priv) as [o|]; [|discriminate].
    destruct (same _ _) eqn:S; [|discriminate]. apply same_iff in S.
    destruct (Z.ltb_spec cap (zlen (obj_data o))); [discriminate|]. assert (obj_data o = d) by congruence. subst d.
    exists key, o. split; [reflexivity|]. split; [exact V|]. split; [reflexivity|].
    split; [symmetry; exact S|]. split; [reflexivity|assumption].
  - intros (key & o & -> & -> & -> & E & <- & Hc). rewrite E, same_refl.
    destruct (Z.ltb_spec cap (zlen (obj_data o))); [lia|reflexivity].
Qed.
Print Assumptions C65_unseal.

(** C65: the text reported for signing is the selection and the digest that unsealing checks. *)
Theorem C65_policy : forall C T mask, selectable mask ->
  build_policy C T mask = policy_text mask (to_sign C (pcr_policy C no_policy mask (pcr T)) []).
Proof. intros C T mask (Hm & Hl). unfold build_policy. rewrite mask_of_sel by assumption. reflexivity. Qed.
Print Assumptions C65_policy.

(** C65: the reported selection contains exactly the PCRs up to the given number that are not
    zero. *)
Theorem C65_active : forall g T max, 0 <= max < 255 ->
  let last := if max =? 0 then if arch_sim g then 16 else 15 else max in
  exists mask, get_pcr_active g 300 T max = Val mask /\
    forall i, Z.testbit mask (Z.of_nat i) = true <-> Z.of_nat i <= last /\ exists b, In b (pcr T i) /\ b <> 0.
Proof.
  intros g T max Hm last. unfold get_pcr_active. fold last.
  assert (Hl : 0 <= last < 255) by (unfold last; destruct (max =? 0); [destruct (arch_sim g)|]; lia).
  destruct (active_loop_ok (pcr T) last Hl 300 0 0) as (r & E & _ & B); [lia|lia|lia|].
  exists r. split; [exact E|]. intro i. rewrite B, Z.bits_0, Nat2Z.id by lia. cbn [orb].
  destruct (Z.leb_spec 0 (Z.of_nat i)); [|lia]. cbn [andb].
  assert (Q : negb (is_zero_digest (pcr T i)) = true <-> exists b, In b (pcr T i) /\ b <> 0).
  { destruct (is_zero_digest (pcr T i)) eqn:Zd.
    - split; [discriminate|]. intros (b & Hb & N). exfalso. apply N. exact (proj1 (is_zero_iff _) Zd b Hb).
    - split; [intros _|reflexivity]. unfold is_zero_digest in Zd.
      assert (X : exists b, In b (pcr T i) /\ (b =? 0) = false).
      { clear -Zd. induction (pcr T i) as [|b l IH]; [discriminate|]. cbn [forallb] in Zd.
        destruct (b =? 0) eqn:Eb; [|exists b; split; [left; reflexivity|exact Eb]].
        destruct (IH Zd) as (c & Hc & Ec). exists c. split; [right; exact Hc|exact Ec]. }
      destruct X as (b & Hb & Eb). exists b. split; [exact Hb|]. apply Z.eqb_neq. exact Eb. }
  rewrite andb_true_iff, Q, Z.leb_le. reflexivity.
Qed.
Print Assumptions C65_active.

(** C65 fails for the largest argument: the 8-bit counter never passes it. *)
Theorem C65_active_refuted : forall g T fuel, get_pcr_active g fuel T 255 = NoFuel.
Proof. intros. unfold get_pcr_active. cbn [Z.eqb]. apply active_endless. lia. Qed.
Print Assumptions C65_active_refuted.

(** C65: what was sealed is handed out again, in every later state of the TPM in which the
    selected PCRs have values the key signed. *)
Theorem C65_roundtrip : forall g C T hint key mask sig index secret cap, selectable mask ->
  lookup g hint = Some key -> zlen secret <= 128 -> zlen secret <= cap ->
  wraps g C {| obj_policy := signed_policy C key []; obj_password := None; obj_data := secret |} ->
  exists T1, seal_auth g C T hint (policy_text mask sig) index secret [] = (0, T1) /\
    pcr T1 = pcr T /\ (forall j, j <> SEAL_BASE + index -> nv T1 j = nv T j) /\
    forall T2, nv T2 (SEAL_BASE + index) = nv T1 (SEAL_BASE + index) ->
      verify C key (to_sign C (pcr_policy C no_policy mask (pcr T2)) []) sig = true ->
      unseal_auth g C T2 hint (policy_text mask sig) index [] cap = Val (0, secret).
Proof.
  intros g C T hint key mask sig index secret cap Hm Hk Hs Hc (W1 & W2 & W3 & W4 & W5).
  unfold seal_auth, seal_blob. rewrite Hk.
  assert (L : zlen (policy_text mask sig) = 4 + zlen sig).
  { unfold policy_text. rewrite zlen_app. unfold zlen at 1. rewrite le_bytes_length. reflexivity. }
  pose proof (zlen_nonneg sig). rewrite L. destruct (Z.eqb_spec (4 + zlen sig) 0); [lia|].
  unfold MAX_SEAL. destruct (Z.ltb_spec 128 (zlen secret)); [lia|]. cbn [orb Z.eqb].
  set (o := {| obj_policy := signed_policy C key []; obj_password := None; obj_data := secret |}) in *.
  destruct (reseal C T (SEAL_BASE + index) o) as (T1 & E1 & P1 & _ & N1 & O1).
  exists T1. split; [exact E1|]. split; [exact P1|]. split; [exact O1|].
  intros T2 N2 V. unfold unseal_auth. rewrite N1 in N2.
  rewrite (read_layout g T2 _ _ _ N2) by assumption. cbn [obind Z.eqb].
  apply C65_unseal; [exact Hm|]. exists key, o. split; [exact Hk|]. split; [exact V|]. split; [exact W1|].
  split; [reflexivity|]. split; [reflexivity|exact Hc].
Qed.
Print Assumptions C65_roundtrip.

(** C65: nobody gets at a secret sealed without a password except while the PCRs have
    approved values.  Whatever commands anyone sends to the TPM - extending PCRs, resetting
    PCR 16 and up, any policy command with any argument, in any order and in any session -
    when the TPM hands the secret out, the selected PCRs of some approved selection have the
    approved values at that moment.  The hash is idealised (no collisions, never all zero);
    the owner of the key signs approved policies only; approvals select PCR 0 to 15. *)
Theorem C65_bound : forall g C hint policy secret key o (approved : Z -> (nat -> list Z) -> Prop),
  (forall x y, hash C x = hash C y -> x = y) -> (forall x, length (hash C x) = 32%nat) ->
  (forall x, hash C x <> no_policy) -> (forall k, key_name C k = key_name C key -> k = key) ->
  (forall d sig, verify C key d sig = true ->
     exists m v, approved m v /\ d = to_sign C (pcr_policy C no_policy m v) []) ->
  (forall m v, approved m v -> 0 <= m < 2 ^ 16 /\ forall i, length (v i) = 32%nat) ->
  lookup g hint = Some key -> seal_blob g C hint policy secret [] = (0, o) ->
  forall T0 T s d, (forall i, length (pcr T0 i) = 32%nat) -> steps C (T0, fresh) (T, s) ->
  unseal_policy T s o = Some d \/ (exists pw, unseal_password o pw = Some d) ->
  exists m v, approved m v /\ forall i, In i (chosen m) -> pcr T i = v i.
Proof.
  intros g C hint policy secret key o approved inj len nz nm only wf Hk Hs T0 T s d HT Hst Hu.
  unfold seal_blob in Hs. destruct (_ || _); [congruence|]. rewrite Hk in Hs.
  assert (Eo : o = {| obj_policy := signed_policy C key []; obj_password := None; obj_data := secret |}) by congruence.
  subst o. clear Hs. destruct Hu as [Hu|(pw & Hu)]; [|discriminate Hu].
  pose proof (inv_steps C key approved inj len nz nm only wf _ _
    (inv_start C key approved inj len nz nm only wf T0 HT) Hst) as (_ & _ & _ & _ & A).
  unfold unseal_policy in Hu. cbn [obj_policy] in Hu.
  destruct (same (digest s) (signed_policy C key [])) eqn:S; [|discriminate]. apply same_iff in S.
  destruct (unchanged T s) eqn:U; [|discriminate].
  destruct (A S) as (m & v & Ha & n & En & _ & Hg). exists m, v. split; [exact Ha|].
  apply Hg. unfold unchanged in U. rewrite En in U. apply Z.eqb_eq. exact U.
Qed.
Print Assumptions C65_bound.

(** Only the first six selected PCRs are looked at. *)
Lemma skip_notin : forall {A} (l : list A) n x, NoDup l -> In x (skipn n l) -> ~ In x (firstn n l).
Proof.
  intros A l n x N H K. rewrite <- (firstn_skipn n l) in N.
  apply in_split in K. destruct K as (a & b & E). rewrite E in N.
  rewrite <- app_assoc in N. apply (NoDup_remove_2 a (b ++ skipn n l) x N).
  rewrite !in_app_iff. auto.
Qed.

Definition set_pcr (T : tpm) (i : nat) (v : list Z) : tpm :=
  {| pcr := fun j => if (j =? i)%nat then v else pcr T j; updates := updates T; nv := nv T |}.

(** C65 fails for selections of more than six PCRs: the array for the selection has six
    entries (src/tpm.c:494 and 931), further PCRs are dropped without an error.  The value of
    a dropped PCR changes neither the text to sign nor the outcome of unsealing. *)
Theorem C65_selection_refuted : forall g C T hint mask sig pub priv cap i v, 0 <= mask < 2 ^ 32 ->
  In i (skipn 6 (chosen mask)) ->
  build_policy C (set_pcr T i v) mask = build_policy C T mask /\
  unseal_blob g C (set_pcr T i v) hint (policy_text mask sig) pub priv [] cap =
  unseal_blob g C T hint (policy_text mask sig) pub priv [] cap.
Proof.
  intros g C T hint mask sig pub priv cap i v Hm Hi.
  assert (P : pcr_policy C no_policy (mask_of (pcrmask_sel mask SEL_CAP)) (pcr (set_pcr T i v)) =
              pcr_policy C no_policy (mask_of (pcrmask_sel mask SEL_CAP)) (pcr T)).
  { unfold pcr_policy. do 6 f_equal. apply map_ext_in. intros j Hj. cbn [set_pcr pcr].
    destruct (Nat.eqb_spec j i) as [E|]; [|reflexivity]. subst j. exfalso.
    rewrite pcrmask_sel_ok in Hj.
    assert (K : forall j, In j (firstn SEL_CAP (chosen mask)) -> (j < 24)%nat).
    { intros j Hin. assert (In j (chosen mask)) as K.
      { rewrite <- (firstn_skipn SEL_CAP (chosen mask)). apply in_or_app. left. exact Hin. }
      apply chosen_In in K. apply K. }
    apply (proj1 (chosen_mask_of _ K i)) in Hj.
    revert Hj. apply skip_notin; [|exact Hi]. unfold chosen. apply NoDup_filter, seq_NoDup. }
  split.
  - unfold build_policy. rewrite P. reflexivity.
  - unfold policy_text. rewrite !unseal_blob_policy by exact Hm. cbn zeta. rewrite P. reflexivity.
Qed.
Print Assumptions C65_selection_refuted.

(** C65 fails with a password: an object sealed with one is handed out for the password alone,
    whatever the PCRs contain and without any signature. *)
Theorem C65_password_refuted : forall g C hint policy secret auth o, auth <> [] ->
  seal_blob g C hint policy secret auth = (0, o) -> unseal_password o auth = Some secret.
Proof.
  intros g C hint policy secret auth o Ha H. unfold seal_blob in H.
  destruct (_ || _); [congruence|]. destruct (lookup g hint) as [key|]; [|congruence].
  destruct auth as [|a l]; [contradiction|]. apply pair_equal_spec in H. destruct H as (_ & <-).
  unfold unseal_password. cbn [obj_password obj_data]. rewrite same_refl. reflexivity.
Qed.
Print Assumptions C65_password_refuted.

Lemma create_secret_ok : forall g C T hint policy index new T' s,
  create_secret g C T hint policy index new = Val (0, T', s) ->
  s = new /\ unseal g C T' hint policy index MAX_SEAL = Val (0, new).
Proof.
  intros g C T hint policy index new T' s H. unfold create_secret in H.
  destruct (seal g C T hint policy index new) as (rc, T1). destruct (rc =? 0) eqn:Q; cbn [negb] in H.
  2:{ exfalso. apply Z.eqb_neq in Q. congruence. }
  destruct (unseal g C T1 hint policy index MAX_SEAL) as [(rc2, check)| |] eqn:E; cbn [obind] in H; try discriminate.
  destruct (rc2 =? 0) eqn:Q2; cbn [negb] in H.
  2:{ exfalso. apply Z.eqb_neq in Q2. congruence. }
  destruct (same new check) eqn:S; [|congruence]. apply same_iff in S. subst check.
  assert (T1 = T' /\ new = s) as (-> & <-) by (split; congruence).
  apply Z.eqb_eq in Q2. subst rc2. split; [reflexivity|exact E].
Qed.

(** C65 fails after the secret has been used: nothing is extended ("to prevent future
    unsealing", src/update_flash.c:957-975, is compiled only where the function is not), so
    whatever is started afterwards can unseal the secret again. *)
Theorem C65_again_refuted : forall g C T hint policy index cap min new T' s,
  unlock_disk g C T hint policy new = Val (0, T', s) /\ index = 0 \/
  ata_secret g C T hint policy index cap min new = Val (0, T', s) ->
  exists cap', unseal g C T' hint policy index cap' = Val (0, s).
Proof.
  intros g C T hint policy index cap min new T' s [(H & ->)|H].
  - unfold unlock_disk in H. destruct (zlen policy =? 0); [discriminate|].
    destruct (unseal g C T hint policy 0 MAX_SEAL) as [(rc, sec)| |] eqn:E; cbn [obind] in H; try discriminate.
    destruct (rc =? 0) eqn:Q.
    + assert (T = T' /\ sec = s) as (-> & ->) by (split; congruence). apply Z.eqb_eq in Q. subst rc. exists MAX_SEAL. exact E.
    + apply create_secret_ok in H. destruct H as (-> & H). exists MAX_SEAL. exact H.
  - unfold ata_secret in H. destruct (cap <? min); [discriminate|].
    destruct (unseal g C T hint policy index cap) as [(rc, sec)| |] eqn:E; cbn [obind] in H; try discriminate.
    destruct (rc =? 0) eqn:Q.
    + assert (T = T' /\ sec = s) as (-> & ->) by (split; congruence). apply Z.eqb_eq in Q. subst rc. exists cap. exact E.
    + destruct (Z.land rc 191 =? 139).
      * apply create_secret_ok in H. destruct H as (-> & H). exists MAX_SEAL. exact H.
      * exfalso. apply Z.eqb_neq in Q. congruence.
Qed.
Print Assumptions C65_again_refuted.

(** C65 fails for a policy of less than four bytes: it is read past its end. *)
Theorem C65_short_refuted : forall g C T hint policy pub priv auth cap, 0 < zlen policy < 4 ->
  unseal_blob g C T hint policy pub priv auth cap = UB.
Proof.
  intros. unfold unseal_blob. destruct (Z.eqb_spec (zlen policy) 0); [lia|].
  destruct (Z.ltb_spec (zlen policy) 4); [reflexivity|lia].
Qed.
Print Assumptions C65_short_refuted.

(** ** C66 *)

(** C66: sealing replaces what the index held, whatever it was, by the new object; it is read
    back as written; no other index and no PCR changes. *)
Theorem C66_stored : forall g C T i o, wraps g C o ->
  exists T', run_cmds T i (seal_cmds C o) = (0, T') /\
    read_blob g T' i = Val (0, fst (wrap C o), snd (wrap C o)) /\
    pcr T' = pcr T /\ forall j, j <> i -> nv T' j = nv T j.
Proof.
  intros g C T i o (_ & W2 & W3 & W4 & W5).
  destruct (reseal C T i o) as (T1 & E1 & P1 & _ & N1 & O1).
  exists T1. split; [exact E1|]. split; [apply read_layout; assumption|]. split; [exact P1|exact O1].
Qed.
Print Assumptions C66_stored.

(** C66: the secret of a disk is never replaced while the TPM holds something at its index: if
    unsealing fails because of the PCRs, the signature or the object, the TPM stays as it is. *)
Theorem C66_kept : forall g C T hint policy index cap min new rc T' s, nv T (SEAL_BASE + index) <> None ->
  ata_secret g C T hint policy index cap min new = Val (rc, T', s) -> T' = T.
Proof.
  intros g C T hint policy index cap min new rc T' s Hn H. unfold ata_secret in H.
  destruct (cap <? min); [congruence|]. unfold unseal, unseal_auth in H.
  destruct (nv T (SEAL_BASE + index)) as [a|] eqn:Ea; [|contradiction].
  destruct (read_blob g T (SEAL_BASE + index)) as [((r0, pub), priv)| |] eqn:Er; cbn [obind] in H; try discriminate.
  destruct (r0 =? 0) eqn:Q.
  - destruct (unseal_blob g C T hint policy pub priv (seal_password g) cap) as [(r1, d)| |] eqn:Eu; cbn [obind] in H; try discriminate.
    destruct (r1 =? 0); [congruence|]. apply unseal_blob_rc in Eu.
    destruct (Z.eqb_spec (Z.land r1 191) 139); [contradiction|congruence].
  - cbn [obind] in H. rewrite Q in H. apply (read_blob_rc g T _ a) in Er; [|exact Ea].
    destruct (Z.eqb_spec (Z.land r0 191) 139); [contradiction|congruence].
Qed.
Print Assumptions C66_kept.

(** C66 fails when power fails while a secret is replaced: the old object is deleted first
    (src/tpm.c:878).  After the first of the six commands the TPM holds neither secret. *)
Theorem C66_crash_refuted : forall C T i o, nv T i <> None ->
  nv (snd (run_cmds T i (firstn 1 (seal_cmds C o)))) i = None.
Proof.
  intros C T i o H. cbn [seal_cmds firstn run_cmds run_cmd]. unfold nv_undefine.
  destruct (nv T i) as [a|]; [|contradiction]. cbn [Z.eqb orb snd]. apply set_nv_same.
Qed.
Print Assumptions C66_crash_refuted.

(** C66 fails when power fails while the first secret of a disk is stored: the index is
    defined and not written, every later boot takes that for a secret it must not replace,
    and fails. *)
Theorem C66_stuck_refuted : forall g C T hint policy index cap min new o, nv T (SEAL_BASE + index) = None ->
  min <= cap ->
  let T1 := snd (run_cmds T (SEAL_BASE + index) (firstn 2 (seal_cmds C o))) in
  ata_secret g C T1 hint policy index cap min new = Val (RC_NV_UNINITIALIZED, T1, []).
Proof.
  intros g C T hint policy index cap min new o H Hc T1.
  assert (E : exists n d, nv T1 (SEAL_BASE + index) = Some {| nv_size := n; nv_written := false; nv_data := d |}).
  { unfold T1. cbn [seal_cmds store_cmds firstn run_cmds run_cmd]. unfold nv_undefine. rewrite H.
    cbn [tolerated]. rewrite orb_true_r. unfold nv_define. rewrite H. cbn [Z.eqb orb snd].
    eexists _, _. apply set_nv_same. }
  destruct E as (n & d & E). unfold ata_secret. destruct (Z.ltb_spec cap min); [lia|].
  unfold unseal, unseal_auth, read_blob, nv_read. rewrite E. reflexivity.
Qed.
Print Assumptions C66_stuck_refuted.

(** C66 fails on the simulator target: whatever the reason for which the stored secret could
    not be unsealed - wrong PCR values, wrong signature - it is replaced by a new one
    (src/update_flash.c:911-925), and lost. *)
Theorem C66_replaced_refuted : forall g C T hint key policy random rc d, zlen policy <> 0 ->
  lookup g hint = Some key -> zlen random = 32 ->
  unseal g C T hint policy 0 MAX_SEAL = Val (rc, d) -> rc <> 0 ->
  forall rc' T' s, unlock_disk g C T hint policy random = Val (rc', T', s) ->
  exists o, obj_data o = random /\
    nv T' SEAL_BASE = Some {| nv_size := 4 + zlen (fst (wrap C o)) + zlen (snd (wrap C o)); nv_written := true;
                              nv_data := layout (fst (wrap C o)) (snd (wrap C o)) |}.
Proof.
  intros g C T hint key policy random rc d Hp Hk Hr Hu Hrc rc' T' s H. unfold unlock_disk in H.
  destruct (Z.eqb_spec (zlen policy) 0); [contradiction|]. rewrite Hu in H. cbn [obind] in H.
  destruct (Z.eqb_spec rc 0); [contradiction|]. unfold create_secret, seal, seal_auth, seal_blob in H.
  destruct (Z.eqb_spec (zlen policy) 0); [contradiction|]. unfold MAX_SEAL at 1 in H. rewrite Hr in H.
  cbn [orb Z.ltb Z.compare Pos.compare Pos.compare_cont] in H. rewrite Hk in H. cbn [Z.eqb] in H.
  set (o := {| obj_policy := signed_policy C key [];
               obj_password := match seal_password g with [] => None | _ => Some (seal_password g) end;
               obj_data := random |}) in H.
  change (SEAL_BASE + 0) with SEAL_BASE in H.
  destruct (reseal C T SEAL_BASE o) as (T1 & E1 & _ & _ & N1 & _). rewrite E1 in H. cbn [Z.eqb negb] in H.
  assert (X : T' = T1).
  { destruct (unseal g C T1 hint policy 0 MAX_SEAL) as [(r2, c2)| |]; cbn [obind] in H; try discriminate.
    destruct (negb (r2 =? 0)); [congruence|]. destruct (same random c2); congruence. }
  subst T'. exists o. split; [reflexivity|]. rewrite N1. unfold area. f_equal. f_equal. lia.
Qed.
Print Assumptions C66_replaced_refuted.

(** C66 fails for foreign content of the index: the stored size is not compared with the
    buffer it is read into (src/tpm.c:688-690). *)
Theorem C66_size_refuted : forall g T i n rest, pub_cap g < n < 65536 -> 0 <= n -> n <= zlen rest ->
  nv T i = Some {| nv_size := 2 + zlen rest; nv_written := true; nv_data := le_bytes 2 n ++ rest |} ->
  read_blob g T i = UB.
Proof.
  intros g T i n rest Hn H0 Hr E. unfold read_blob, nv_read. rewrite E. cbn [nv_size nv_written nv_data negb].
  pose proof (zlen_nonneg rest).
  destruct (Z.ltb_spec (2 + zlen rest) (Z.of_nat 0 + Z.of_nat 2)); [lia|]. cbn [Z.eqb negb].
  assert (S1 : sub (le_bytes 2 n ++ rest) 0 2 = le_bytes 2 n) by reflexivity.
  rewrite S1, le_val_bytes by (change (256 ^ Z.of_nat 2) with 65536; lia).
  destruct (Z.ltb_spec (2 + zlen rest) (Z.of_nat 2 + Z.of_nat (Z.to_nat n))); [lia|]. cbn [Z.eqb negb].
  destruct (Z.ltb_spec (pub_cap g) n); [reflexivity|lia].
Qed.
Print Assumptions C66_size_refuted.

(** ** C67 *)

(** C67: a key slot is trusted exactly when the TPM holds, at the index of that slot, the 32
    bytes of the key's hash. *)
Theorem C67_exact : forall T slot hint, check_rot T slot hint = 0 <->
  exists a, nv T (20972032 + slot) = Some a /\ nv_written a = true /\ 32 <= nv_size a /\
    firstn 32 (nv_data a) = firstn 32 hint.
Proof.
  intros T slot hint. unfold check_rot, nv_read. change KEY_BASE with 20972032.
  destruct (nv T (20972032 + slot)) as [a|] eqn:E.
  2:{ cbn. split; [discriminate|]. intros (a & K & _). discriminate. }
  destruct (nv_written a) eqn:W; cbn [negb].
  2:{ cbn. split; [discriminate|]. intros (a' & K & K2 & _). assert (a = a') by congruence. congruence. }
  destruct (Z.ltb_spec (nv_size a) (Z.of_nat 0 + Z.of_nat 32)).
  { cbn. split; [discriminate|]. intros (a' & K & _ & K2 & _). assert (a = a') by congruence. subst a'. lia. }
  cbn [Z.eqb]. rewrite sub_zero_firstn. destruct (same (firstn 32 (nv_data a)) (firstn 32 hint)) eqn:S.
  - apply same_iff in S. split; [intros _|reflexivity]. exists a. split; [reflexivity|]. split; [exact W|]. split; [lia|exact S].
  - split; [discriminate|]. intros (a' & K & _ & _ & K2). assert (a = a') by congruence. subst a'.
    apply same_iff in K2. congruence.
Qed.
Print Assumptions C67_exact.

(** C67: with the hash of [k0] in the TPM, no other key is trusted, unless its hash is the
    same. *)
Theorem C67_only : forall (H : list Z -> list Z) T slot k0 k, (forall x, length (H x) = 32%nat) ->
  nv T (20972032 + slot) = Some {| nv_size := 32; nv_written := true; nv_data := H k0 |} ->
  (check_rot T slot (H k) = 0 <-> H k = H k0).
Proof.
  intros H T slot k0 k L E. rewrite C67_exact. split.
  - intros (a & Ea & _ & _ & F). rewrite E in Ea. injection Ea as <-. cbn [nv_data] in F.
    rewrite !firstn_all2 in F by (rewrite L; lia). symmetry. exact F.
  - intro K. eexists. split; [exact E|]. split; [reflexivity|]. split; [cbn [nv_size]; lia|]. cbn [nv_data]. rewrite K. reflexivity.
Qed.
Print Assumptions C67_only.

(** ** Concrete cases *)

(** A hash without collisions (of unbounded "bytes"). *)
Definition ideal_hash (l : list Z) : list Z := Zpos (countable.encode l) :: repeat 0 31.
Lemma ideal_inj : forall x y, ideal_hash x = ideal_hash y -> x = y.
Proof.
  intros x y E. unfold ideal_hash in E. injection E as E.
  exact (countable.encode_inj x y E).
Qed.

Definition the_key : list Z := [4; 2].
Definition good_pcr : nat -> list Z := fun i => repeat (Z.of_nat i) 32.
Definition mask7 : Z := 129. (* PCR 0 and 7 *)
(** The key signed one policy; the signature is [1]. *)
Definition ideal : suite := {| hash := ideal_hash;
  verify := fun k d s => same k the_key && same s [1] &&
              same d (ideal_hash (ideal_hash (no_policy ++ CC_PolicyPCR ++ selection mask7 ++
                        ideal_hash (concat (map good_pcr (chosen mask7)))) ++ []));
  key_name := fun k => k;
  wrap := fun o => (obj_policy o, obj_data o ++ [0]);
  unwrap := fun a b => Some {| obj_policy := a; obj_password := None; obj_data := removelast b |} |}.
Definition ideal_g : config := {| block := 256; pcr_a := 0; pub_cap := 600; priv_cap := 600; arch_sim := false;
  seal_password := []; lookup := fun h => if same h [9] then Some the_key else None |}.
Definition start_T : tpm := {| pcr := good_pcr; updates := 5; nv := fun _ => None |}.

Example C65_hyps : selectable mask7 /\ lookup ideal_g [9] = Some the_key /\
  (forall secret, zlen secret <= 128 ->
     wraps ideal_g ideal {| obj_policy := signed_policy ideal the_key []; obj_password := None; obj_data := secret |}) /\
  verify ideal the_key (to_sign ideal (pcr_policy ideal no_policy mask7 (pcr start_T)) []) [1] = true.
Proof.
  split; [split; [unfold mask7; change (2 ^ 24) with 16777216; lia|vm_compute; lia]|]. split; [reflexivity|]. split.
  - intros secret Hs. split; [cbn [ideal wrap unwrap fst snd obj_policy obj_data]; rewrite removelast_last; reflexivity|].
    cbn [ideal wrap fst snd obj_policy obj_data ideal_g pub_cap priv_cap]. rewrite !zlen_app.
    change (zlen (signed_policy ideal the_key [])) with 32. change (zlen [0]) with 1.
    split; [lia|]. split; [lia|]. split; lia.
  - cbn [ideal verify]. rewrite !same_refl. reflexivity.
Qed.

(** The hypotheses of C65_bound hold, and the secret is in fact handed out to someone. *)
Example C65_bound_hyps : let approved := fun m v => m = mask7 /\ v = good_pcr in
  (forall x y, hash ideal x = hash ideal y -> x = y) /\ (forall x, length (hash ideal x) = 32%nat) /\
  (forall x, hash ideal x <> no_policy) /\ (forall k, key_name ideal k = key_name ideal the_key -> k = the_key) /\
  (forall d sig, verify ideal the_key d sig = true ->
     exists m v, approved m v /\ d = to_sign ideal (pcr_policy ideal no_policy m v) []) /\
  (forall m v, approved m v -> 0 <= m < 2 ^ 16 /\ forall i, length (v i) = 32%nat) /\
  exists o s, seal_blob ideal_g ideal [9] [1; 2; 3; 4; 5] [77] [] = (0, o) /\
    steps ideal (start_T, fresh) (start_T, s) /\ unseal_policy start_T s o = Some [77].
Proof.
  cbn zeta. split; [exact ideal_inj|]. split; [intro x; reflexivity|]. split; [intros x E; discriminate E|].
  split; [intros k E; exact E|]. split; [|split].
  - intros d sig V. cbn [ideal verify] in V. apply andb_true_iff in V. destruct V as (_ & V). apply same_iff in V.
    exists mask7, good_pcr. split; [split; reflexivity|]. subst d. reflexivity.
  - intros m v (-> & ->). split; [split; [discriminate|reflexivity]|]. intro i. apply repeat_length.
  - set (s1 := {| digest := pcr_policy ideal no_policy mask7 good_pcr; checked := Some 5 |}).
    set (s2 := {| digest := signed_policy ideal the_key []; checked := Some 5 |}).
    eexists _, s2. split; [reflexivity|]. split.
    + apply STrans with (start_T, s1).
      * apply STrans with (start_T, fresh); [apply SRefl|].
        apply SPcr with mask7; [split; [discriminate|reflexivity]|reflexivity].
      * apply (SAuthorize ideal start_T s1 the_key (digest s1) [] [1]). unfold policy_authorize.
        destruct C65_hyps as (_ & _ & _ & V). cbn [pcr start_T] in V. unfold s1 at 1. cbn [digest]. rewrite V, same_refl. reflexivity.
    + unfold unseal_policy, s2. cbn [digest checked obj_policy]. rewrite same_refl. reflexivity.
Qed.

(** Eight PCRs selected: PCR 6 and 7 are not looked at. *)
Example C65_selection_hyps : 0 <= 255 < 2 ^ 32 /\ skipn 6 (chosen 255) = [6; 7]%nat.
Proof. split; [split; [discriminate|reflexivity]|vm_compute; reflexivity]. Qed.

Example C66_hyps : exists T o, nv T SEAL_BASE <> None /\ wraps ideal_g ideal o /\
  unseal ideal_g ideal T [9] (policy_text mask7 [2]) 0 128 = Val (RC_SIGNATURE, []) /\
  unseal ideal_g ideal T [9] (policy_text mask7 [1]) 0 128 = Val (0, [77]).
Proof.
  destruct C65_hyps as (H1 & H2 & H3 & H4).
  set (o := {| obj_policy := signed_policy ideal the_key []; obj_password := None; obj_data := [77] |}).
  assert (W : wraps ideal_g ideal o) by (apply H3; discriminate).
  destruct (C66_stored ideal_g ideal start_T SEAL_BASE o W) as (T & E & R & P & _).
  exists T, o. split; [|split; [exact W|]].
  - intro N. unfold read_blob, nv_read in R. rewrite N in R. discriminate R.
  - unfold unseal, unseal_auth. change (SEAL_BASE + 0) with SEAL_BASE. rewrite R. cbn [obind Z.eqb ideal_g seal_password]. split.
    + unfold policy_text. rewrite unseal_blob_policy by (apply small32; apply H1).
      cbn [ideal_g lookup]. rewrite same_refl. cbn [ideal verify]. 
      replace (same [2] [1]) with false by reflexivity. rewrite andb_false_r. cbn [andb]. reflexivity.
    + apply C65_unseal; [exact H1|]. exists the_key, o. split; [exact H2|]. split; [rewrite P; exact H4|].
      split; [apply W|]. split; [reflexivity|]. split; [reflexivity|discriminate].
Qed.

Example C67_hyps : let T := set_nv start_T (KEY_BASE + 1)
    (Some {| nv_size := 32; nv_written := true; nv_data := ideal_hash the_key |}) in
  check_rot T 1 (ideal_hash the_key) = 0 /\ check_rot T 0 (ideal_hash the_key) <> 0 /\ check_rot T 1 (repeat 1 32) = -1.
Proof. cbn zeta. split; [reflexivity|]. split; [discriminate|reflexivity]. Qed.
