(** C75 - C77: the checks hardened against skipped instructions. *)
From Verif Require Import Base BaseLemmas GlitchSpec GlitchModel GlitchProofs GlitchCodeProofs
  GlitchVersionProofs GlitchRunProofs.
Local Ltac Zify.zify_post_hook ::= idtac.

(** A processor at the start of the code, for the examples; [a]: r0, [b]: r1. *)
Definition start (a b : Z) : cpu := Cpu 0 a b 0 0 0 0 0 true false false 0 0 0 false.

(** ** C75: the final check and the panic loop *)

(** An image whose checks all succeeded gets through. *)
Theorem C75_good_image_passes : forall v s,
  flags_right v -> canaries_right v -> pc s = 0%nat ->
  exists t, glitched (part_sanity_check v) 0 s t /\ ended (part_sanity_check v) t.
Proof.
  intros v s (F1 & F2 & F3 & F4) (K1 & K2 & K3) P.
  destruct v as [h sh sg ns x y w]. cbn [hdr_ok sha_ok signature_ok not_signature_ok canary_FEED6789 canary_FEED4567 canary_FEED89AB] in *.
  subst h sh sg ns x y w.
  set (code := part_sanity_check _).
  exists (run code (calm 110) s). split.
  - split; [exact P|]. pose proof (run_skipping code (calm 110) s) as R. rewrite count_calm in R. exact R.
  - unfold ended. destruct s as [p a0 a1 a2 a4 a5 a6 a7 z nn vv c r ww f]. cbn [pc] in P. subst p.
    vm_compute. lia.
Qed.
Example C75_good_image_ex : flags_right (Verdict 1 1 1 0xFFFFFFFE 0xFEED6789 0xFEED4567 0xFEED89AB).
Proof. repeat split. Qed.

Ltac all_words := unfold sized, words; repeat apply Forall_cons; try apply Forall_nil; cbn; lia.
Ltac confine := apply confined_by; cbn -[Z.eqb Z.leb Z.ltb word_range]; reflexivity.

(** If the header, the hash or the signature was not found to be right, at least four
    instructions have to be skipped to get through. *)
Theorem C75_bad_image_needs_four : forall v k s t,
  sized v -> ~ flags_right v -> 0 <= r0 s < 2 ^ 32 ->
  glitched (part_sanity_check v) k s t -> ended (part_sanity_check v) t -> (4 <= k)%nat.
Proof.
  intros v k s t SZ F R0 [P R] E.
  assert (W : word_range (r0 s) = true).
  { unfold word_range. apply andb_true_iff. split; [apply Z.leb_le|apply Z.ltb_lt]; lia. }
  destruct (Z.eq_dec (hdr_ok v) 1) as [H1|H1].
  2:{ eapply (flag_block []); [|exact H1|exact P|reflexivity|exact R|exact E]. confine. }
  destruct (Z.eq_dec (sha_ok v) 1) as [H2|H2].
  2:{ eapply (flag_block (check_flag (hdr_ok v))); [|exact H2|exact P|reflexivity|exact R|exact E]. confine. }
  destruct (Z.eq_dec (signature_ok v) 1) as [H3|H3].
  2:{ unfold part_sanity_check in R, E. rewrite (app_assoc (check_flag (hdr_ok v))) in R, E.
      eapply (flag_block (check_flag (hdr_ok v) ++ check_flag (sha_ok v)));
        [|exact H3|exact P|reflexivity|exact R|exact E]. confine. }
  destruct (Z.eq_dec (not_signature_ok v) 0xFFFFFFFE) as [H4|H4].
  2:{ unfold part_sanity_check in R, E.
      rewrite (app_assoc (check_flag (hdr_ok v))), (app_assoc (check_flag (hdr_ok v) ++ check_flag (sha_ok v))) in R, E.
      eapply (not_block ((check_flag (hdr_ok v) ++ check_flag (sha_ok v)) ++ check_flag (signature_ok v)));
        [| |exact H4|exact P|exact W|reflexivity|exact R|exact E]; [confine|].
      unfold sized in SZ. rewrite Forall_forall in SZ. apply SZ. cbn. tauto. }
  exfalso. apply F. repeat split; assumption.
Qed.
Example C75_bad_image_ex :
  sized (Verdict 1 1 0 1 0xFEED6789 0xFEED4567 0xFEED89AB) /\
  ~ flags_right (Verdict 1 1 0 1 0xFEED6789 0xFEED4567 0xFEED89AB).
Proof.
  split; [all_words|].
  unfold flags_right. cbn. lia.
Qed.

(** Four are enough: an image whose signature was never accepted is started. *)
Definition no_signature : verdict := Verdict 1 1 0 0xFFFFFFFE 0xFEED6789 0xFEED4567 0xFEED89AB.

Definition four_faults : list bool :=
  calm 34 ++ [false; true; false; true; false; true; false; true] ++ calm 80.

(** One execution with the faults in the list. *)
Lemma glitch_by : forall code l k s, count l = k -> pc s = 0%nat -> glitched code k s (run code l s).
Proof. intros code l k s C P. subst k. split; [exact P|apply run_skipping]. Qed.

Theorem C75_four_skips_refuted : exists v s t,
  sized v /\ ~ flags_right v /\ glitched (part_sanity_check v) 4 s t /\ ended (part_sanity_check v) t.
Proof.
  exists no_signature, (start 0 0), (run (part_sanity_check no_signature) four_faults (start 0 0)).
  split; [all_words|]. split; [unfold flags_right; cbn; lia|].
  split; [apply glitch_by; reflexivity|]. unfold ended. vm_compute. lia.
Qed.

(** A corrupted canary is noticed by an execution without faults ... *)
Theorem C75_canary_noticed : forall v k s t,
  ~ canaries_right v ->
  glitched (part_sanity_check v) k s t -> ended (part_sanity_check v) t -> (1 <= k)%nat.
Proof.
  intros v k s t F [P R] E.
  set (pre1 := check_flag (hdr_ok v) ++ check_flag (sha_ok v) ++ check_flag (signature_ok v) ++
    check_not (not_signature_ok v)).
  set (pre2 := pre1 ++ check_canary (canary_FEED6789 v) 0xFEED6789).
  set (pre3 := pre2 ++ check_canary (canary_FEED4567 v) 0xFEED4567).
  assert (K : forall x want, want <> 0 -> x <> want -> forall u, true = true ->
    (1 <= canary_cost x want 0 u)%nat).
  { intros x want W N u _. cbn [canary_cost]. unfold at_zero, at_r2, at_r0.
    rewrite (proj2 (Z.eqb_neq x want)) by exact N. rewrite (proj2 (Z.eqb_neq 0 want)) by congruence.
    repeat match goal with |- context [if ?b then _ else _] => destruct b end; cbn; lia. }
  destruct (Z.eq_dec (canary_FEED6789 v) 0xFEED6789) as [H1|H1].
  2:{ replace (part_sanity_check v) with (pre1 ++ check_canary (canary_FEED6789 v) 0xFEED6789 ++
        (check_canary (canary_FEED4567 v) 0xFEED4567 ++ check_canary (canary_FEED89AB v) 0xFEED89AB)) in R, E
        by (unfold pre1, part_sanity_check; rewrite <- !app_assoc; reflexivity).
      eapply (canary_block (fun _ => true) 1 pre1); [| |exact P|reflexivity|reflexivity|exact R|exact E].
      - unfold pre1. confine.
      - intros u _. apply K; [lia|exact H1|reflexivity]. }
  destruct (Z.eq_dec (canary_FEED4567 v) 0xFEED4567) as [H2|H2].
  2:{ replace (part_sanity_check v) with (pre2 ++ check_canary (canary_FEED4567 v) 0xFEED4567 ++
        check_canary (canary_FEED89AB v) 0xFEED89AB) in R, E
        by (unfold pre2, pre1, part_sanity_check; rewrite <- !app_assoc; reflexivity).
      eapply (canary_block (fun _ => true) 1 pre2); [| |exact P|reflexivity|reflexivity|exact R|exact E].
      - unfold pre2, pre1. confine.
      - intros u _. apply K; [lia|exact H2|reflexivity]. }
  destruct (Z.eq_dec (canary_FEED89AB v) 0xFEED89AB) as [H3|H3].
  2:{ replace (part_sanity_check v) with (pre3 ++ check_canary (canary_FEED89AB v) 0xFEED89AB ++ []) in R, E
        by (unfold pre3, pre2, pre1, part_sanity_check; rewrite <- !app_assoc; reflexivity).
      eapply (canary_block (fun _ => true) 1 pre3); [| |exact P|reflexivity|reflexivity|exact R|exact E].
      - unfold pre3, pre2, pre1. confine.
      - intros u _. apply K; [lia|exact H3|reflexivity]. }
  exfalso. apply F. repeat split; assumption.
Qed.
Example C75_canary_ex : ~ canaries_right (Verdict 1 1 1 0xFFFFFFFE 0xFEED6789 0 0xFEED89AB).
Proof. unfold canaries_right. cbn. lia. Qed.

(** ... and needs four skips when neither r0 nor another canary happens to hold its value. *)
Theorem C75_canary_needs_four_partial : forall v k s t x want,
  In (x, want) [(canary_FEED6789 v, 0xFEED6789); (canary_FEED4567 v, 0xFEED4567); (canary_FEED89AB v, 0xFEED89AB)] ->
  ~ In x [0xFEED6789; 0xFEED4567; 0xFEED89AB] -> r0 s <> 0 -> r0 s <> x ->
  glitched (part_sanity_check v) k s t -> ended (part_sanity_check v) t -> (4 <= k)%nat.
Proof.
  intros v k s t x want I N Z0 ZX [P R] E.
  set (pre1 := check_flag (hdr_ok v) ++ check_flag (sha_ok v) ++ check_flag (signature_ok v) ++
    check_not (not_signature_ok v)).
  set (pre2 := pre1 ++ check_canary (canary_FEED6789 v) 0xFEED6789).
  set (pre3 := pre2 ++ check_canary (canary_FEED4567 v) 0xFEED4567).
  set (Q := fun a => negb (a =? x) && negb (a =? 0)).
  assert (Q0 : Q (r0 s) = true).
  { unfold Q. rewrite (proj2 (Z.eqb_neq _ _) Z0), (proj2 (Z.eqb_neq _ _) ZX). reflexivity. }
  assert (W : want = 0xFEED6789 \/ want = 0xFEED4567 \/ want = 0xFEED89AB).
  { cbn in I. destruct I as [I|[I|[I|[]]]]; injection I as _ I; auto. }
  assert (X1 : x <> 0xFEED6789) by (intros ->; apply N; cbn; auto).
  assert (X2 : x <> 0xFEED4567) by (intros ->; apply N; cbn; auto).
  assert (X3 : x <> 0xFEED89AB) by (intros ->; apply N; cbn; auto).
  assert (Y1 : Q 0xFEED6789 = true).
  { unfold Q. rewrite (proj2 (Z.eqb_neq _ x)) by congruence. reflexivity. }
  assert (Y2 : Q 0xFEED4567 = true).
  { unfold Q. rewrite (proj2 (Z.eqb_neq _ x)) by congruence. reflexivity. }
  assert (K : forall u, Q (r0 u) = true -> (4 <= canary_cost x want 0 u)%nat).
  { intros u U. unfold Q in U. apply andb_true_iff in U. destruct U as [U1 U2].
    apply negb_true_iff in U1, U2. cbn [canary_cost]. unfold at_zero, at_r2, at_r0.
    rewrite Z.eqb_sym in U1. rewrite Z.eqb_sym in U2. rewrite U1, U2.
    rewrite (proj2 (Z.eqb_neq x want)) by (destruct W as [->|[->| ->]]; assumption).
    rewrite (proj2 (Z.eqb_neq 0 want)) by (destruct W as [->|[->| ->]]; discriminate).
    repeat match goal with |- context [if ?b then _ else _] => destruct b end; cbn; lia. }
  clearbody Q. clear W.
  cbn [In] in I. destruct I as [I|[I|[I|[]]]]; injection I as Ix Iw; subst x want.
  - replace (part_sanity_check v) with (pre1 ++ check_canary (canary_FEED6789 v) 0xFEED6789 ++
      (check_canary (canary_FEED4567 v) 0xFEED4567 ++ check_canary (canary_FEED89AB v) 0xFEED89AB)) in R, E
      by (unfold pre1, part_sanity_check; rewrite <- !app_assoc; reflexivity).
    eapply (canary_block Q 4 pre1); [|exact K|exact P|exact Q0|reflexivity|exact R|exact E].
    unfold pre1. confine.
  - replace (part_sanity_check v) with (pre2 ++ check_canary (canary_FEED4567 v) 0xFEED4567 ++
      check_canary (canary_FEED89AB v) 0xFEED89AB) in R, E
      by (unfold pre2, pre1, part_sanity_check; rewrite <- !app_assoc; reflexivity).
    eapply (canary_block Q 4 pre2); [|exact K|exact P|exact Q0|reflexivity|exact R|exact E].
    unfold pre2, pre1. apply confined_by. cbn -[Z.eqb]. rewrite Y1. reflexivity.
  - replace (part_sanity_check v) with (pre3 ++ check_canary (canary_FEED89AB v) 0xFEED89AB ++ []) in R, E
      by (unfold pre3, pre2, pre1, part_sanity_check; rewrite <- !app_assoc; reflexivity).
    eapply (canary_block Q 4 pre3); [|exact K|exact P|exact Q0|reflexivity|exact R|exact E].
    unfold pre3, pre2, pre1. apply confined_by. cbn -[Z.eqb]. rewrite Y1, Y2. reflexivity.
Qed.
Example C75_canary_four_ex :
  let v := Verdict 1 1 1 0xFFFFFFFE 0xFEED6789 0x11111111 0xFEED89AB in
  In (0x11111111, 0xFEED4567) [(canary_FEED6789 v, 0xFEED6789); (canary_FEED4567 v, 0xFEED4567);
    (canary_FEED89AB v, 0xFEED89AB)] /\ ~ In 0x11111111 [0xFEED6789; 0xFEED4567; 0xFEED89AB].
Proof. cbn. split; [auto|lia]. Qed.

(** A canary overwritten with the value of the one before it: one skip is enough. *)
Definition doubled : verdict := Verdict 1 1 1 0xFFFFFFFE 0xFEED6789 0xFEED6789 0xFEED89AB.
Definition one_canary_fault : list bool := calm 77 ++ [true] ++ calm 40.

Theorem C75_canary_one_skip_refuted : exists v s t,
  sized v /\ ~ canaries_right v /\ glitched (part_sanity_check v) 1 s t /\ ended (part_sanity_check v) t.
Proof.
  exists doubled, (start 0 0), (run (part_sanity_check doubled) one_canary_fault (start 0 0)).
  split; [all_words|]. split; [unfold canaries_right; cbn; lia|].
  split; [apply glitch_by; reflexivity|]. unfold ended. vm_compute. lia.
Qed.

(** The panic loop holds against four skips ... *)
Theorem C75_panic_needs_five : forall k s t,
  glitched panic k s t -> ended panic t -> (5 <= k)%nat.
Proof. intros k s t [P R] E. exact (panic_bound k s t P R E). Qed.

(** ... and not against five, although "it cannot be glitched past". *)
Theorem C75_panic_refuted : forall s, pc s = 0%nat -> exists t, glitched panic 5 s t /\ ended panic t.
Proof.
  intros s P. exists (run panic (repeat true 5) s). split; [apply glitch_by; [reflexivity|exact P]|].
  destruct s as [p a0 a1 a2 a4 a5 a6 a7 z nn vv c r w f]. cbn [pc] in P. subst p. unfold ended. vm_compute. lia.
Qed.
Example C75_panic_ex : glitched panic 2 (start 0 0) (run panic [true; false; true] (start 0 0)).
Proof. apply glitch_by; reflexivity. Qed.

(** ** C76: verifying a signature *)

(** A good signature is confirmed. *)
Theorem C76_good_signature_confirmed : forall arg c1 c2 s, pc s = 0%nat ->
  exists t, glitched (verify_fn arg 0 1 c1 c2) 0 s t /\ ended (verify_fn arg 0 1 c1 c2) t /\ confirmed t = true.
Proof.
  intros arg c1 c2 s P. destruct (verify_passes arg c1 c2 s P) as (t & R & E & C).
  exists t. split; [split; [exact P|exact R]|split; assumption].
Qed.

(** One that the verify function rejects, by what it returns or by what it reports, or never
    looked at, is not confirmed unless four instructions are skipped.  [arg]: the function's
    first argument, a pointer; the result cell starts out as something other than 1. *)
Theorem C76_bad_signature_needs_four : forall arg rc res c1 c2 k s t,
  arg <> 0 -> rc <> 0 \/ res <> 1 -> cell s <> 1 -> confirmed s = false ->
  glitched (verify_fn arg rc res c1 c2) k s t -> ended (verify_fn arg rc res c1 c2) t ->
  confirmed t = true -> (4 <= k)%nat.
Proof.
  intros arg rc res c1 c2 k s t A RC CE CF [P R] E F.
  exact (verify_bound arg rc res c1 c2 k s t A RC P CE CF R E F).
Qed.
Example C76_bad_signature_ex : (536870912 <> 0 /\ (0 <> 0 \/ 0 <> 1)) /\ cell (start 7 7) <> 1 /\
  confirmed (start 7 7) = false.
Proof. cbn. repeat split; try lia. Qed.

(** Four are enough. *)
Theorem C76_four_skips_refuted : exists s t,
  cell s <> 1 /\ confirmed s = false /\
  glitched (verify_fn 536870912 0 0 0 0) 4 s t /\ ended (verify_fn 536870912 0 0 0 0) t /\ confirmed t = true.
Proof.
  exists (start 0 0).
  exists (run (verify_fn 536870912 0 0 0 0)
    (calm 13 ++ [false; false; true; false; false; true; false; false; true; false; false; true] ++ calm 2) (start 0 0)).
  split; [cbn; lia|]. split; [reflexivity|]. split; [apply glitch_by; reflexivity|].
  split; [unfold ended; vm_compute; lia|reflexivity].
Qed.

(** RSA: the right digest is confirmed, a wrong one takes seven skips. *)
Theorem C76_right_digest_confirmed : forall digest c1 c2 s, pc s = 0%nat ->
  exists t, glitched (rsa_verify_hash digest 0 0 c1 c2) 0 s t /\ ended (rsa_verify_hash digest 0 0 c1 c2) t /\
    confirmed t = true.
Proof.
  intros digest c1 c2 s P. destruct (hash_passes digest c1 c2 s P) as (t & R & E & C).
  exists t. split; [split; [exact P|exact R]|split; assumption].
Qed.

Theorem C76_wrong_digest_needs_seven : forall digest d1 d2 c1 c2 k s t,
  digest <> 0 -> d1 <> 0 -> d2 <> 0 -> confirmed s = false ->
  glitched (rsa_verify_hash digest d1 d2 c1 c2) k s t -> ended (rsa_verify_hash digest d1 d2 c1 c2) t ->
  confirmed t = true -> (7 <= k)%nat.
Proof.
  intros digest d1 d2 c1 c2 k s t A D1 D2 CF [P R] E F.
  exact (hash_bound digest d1 d2 c1 c2 k s t A D1 D2 P CF R E F).
Qed.
Example C76_wrong_digest_ex : exists t,
  glitched (rsa_verify_hash 536870912 (-5) (-5) 0 0) 7 (start 0 0) t /\
  ended (rsa_verify_hash 536870912 (-5) (-5) 0 0) t /\ confirmed t = true.
Proof.
  exists (run (rsa_verify_hash 536870912 (-5) (-5) 0 0) (repeat true 5 ++ calm 8 ++ [true; true] ++ calm 10) (start 0 0)).
  split; [apply glitch_by; reflexivity|]. split; [unfold ended; vm_compute; lia|reflexivity].
Qed.

(** RSA: without a fault the length returned by the public key operation is passed on when it
    is at least the size of a digest, and replaced by -1 otherwise. *)
Theorem C76_rsa_length : forall arg rc c1 c2 size s,
  0 <= rc < 2 ^ 32 -> 0 <= size < 2 ^ 31 -> pc s = 0%nat ->
  exists t, glitched (rsa_verify_fn arg rc c1 c2 size) 0 s t /\ ended (rsa_verify_fn arg rc c1 c2 size) t /\
    ret t = if size <=? signed rc then rc else -1.
Proof.
  intros arg rc c1 c2 size s RC SZ P. destruct (rsa_passes arg rc c1 c2 size s P) as (t & R & E & C).
  exists t. split; [split; [exact P|exact R]|]. split; [exact E|].
  rewrite C, ge_signed by lia. unfold signed at 1. rewrite (proj2 (Z.ltb_lt size _)) by lia. reflexivity.
Qed.
Example C76_rsa_length_ex : 0 <= 0xFFFFFFFF < 2 ^ 32 /\ signed 0xFFFFFFFF = -1 /\ 0 <= 32 < 2 ^ 31.
Proof. vm_compute. repeat split; congruence. Qed.

(** One skip, of the call itself, and the address of the signature is taken for a length:
    r0 was cleared before the arguments were loaded. *)
Theorem C76_rsa_skipped_call_refuted : exists s t,
  glitched (rsa_verify_fn 0x20001000 0xFFFFFFFF 0 0 32) 1 s t /\
  ended (rsa_verify_fn 0x20001000 0xFFFFFFFF 0 0 32) t /\ ret t = 0x20001000.
Proof.
  exists (start 0 0), (run (rsa_verify_fn 0x20001000 0xFFFFFFFF 0 0 32) (calm 4 ++ [true] ++ calm 20) (start 0 0)).
  split; [apply glitch_by; reflexivity|]. split; [unfold ended; vm_compute; lia|vm_compute; reflexivity].
Qed.

(** ** C77: the version of an update, the permissions of a key *)

(** A newer version passes, and so does a fallback. *)
Theorem C77_newer_version_passes : forall fb ver c1 c2 s,
  0 <= ver 0 < ver 1 -> ver 1 < 2 ^ 31 -> pc s = 0%nat ->
  exists t, glitched (verify_version_allowed fb ver c1 c2) 0 s t /\ ended (verify_version_allowed fb ver c1 c2) t.
Proof.
  intros fb ver c1 c2 s V1 V2 P.
  assert (G : g (ver 0) (ver 1) = false).
  { rewrite ge_signed by lia. unfold signed. rewrite !(proj2 (Z.ltb_lt _ (2 ^ 31))) by lia. apply Z.leb_gt. lia. }
  assert (H : passes (verify_version_allowed fb ver c1 c2) (fun _ => True) s).
  { destruct (Z.eq_dec fb 1) as [->|N];
      [apply version_passes_fallback; exact P|apply version_passes; assumption]. }
  destruct H as (t & R & E & _). exists t. split; [split; [exact P|exact R]|exact E].
Qed.
Example C77_newer_version_ex : let ver p := if p =? 1 then 7 else 6 in 0 <= ver 0 < ver 1 /\ ver 1 < 2 ^ 31.
Proof. cbn. lia. Qed.

Theorem C77_fallback_passes : forall ver c1 c2 s, pc s = 0%nat ->
  exists t, glitched (verify_version_allowed 1 ver c1 c2) 0 s t /\ ended (verify_version_allowed 1 ver c1 c2) t.
Proof.
  intros ver c1 c2 s P. destruct (version_passes_fallback ver c1 c2 s P) as (t & R & E & _).
  exists t. split; [split; [exact P|exact R]|exact E].
Qed.

(** A version that is not newer takes two skips, whatever is in the registers. *)
Theorem C77_old_version_needs_two : forall fb ver c1 c2 k s t,
  fb <> 1 -> 0 <= ver 1 <= ver 0 -> ver 0 < 2 ^ 31 ->
  glitched (verify_version_allowed fb ver c1 c2) k s t -> ended (verify_version_allowed fb ver c1 c2) t ->
  (2 <= k)%nat.
Proof.
  intros fb ver c1 c2 k s t FB V1 V2 [P R] E.
  apply (version_bound fb ver c1 c2 k s t FB); [|exact P|exact R|exact E].
  rewrite ge_signed by lia. unfold signed. rewrite !(proj2 (Z.ltb_lt _ (2 ^ 31))) by lia. apply Z.leb_le. lia.
Qed.
Example C77_old_version_ex : let ver p := if p =? 1 then 6 else 6 in 0 <= ver 1 <= ver 0 /\ ver 0 < 2 ^ 31.
Proof. cbn. lia. Qed.

(** Two are enough: when both calls that read the version of the running firmware are
    skipped, both registers hold the partition number, 0, and agree. *)
Definition old_update (p : Z) : Z := if p =? 1 then 3 else 5.
Definition two_faults : list bool := calm 39 ++ [true] ++ calm 6 ++ [true] ++ calm 40.

Theorem C77_two_skips_refuted : exists s t,
  glitched (verify_version_allowed 0 old_update 0 0) 2 s t /\ ended (verify_version_allowed 0 old_update 0 0) t.
Proof.
  exists (start 0 0), (run (verify_version_allowed 0 old_update 0 0) two_faults (start 0 0)).
  split; [apply glitch_by; reflexivity|]. unfold ended. vm_compute. lia.
Qed.

(** The comparison is signed: an update that is newer, and that the check in C allowed, stops
    the boot loader when its version number is 2^31 or more. *)
Theorem C77_large_version_refuted : forall fb ver c1 c2 s t,
  fb <> 1 -> 0 <= ver 0 < 2 ^ 31 -> 2 ^ 31 <= ver 1 < 2 ^ 32 ->
  glitched (verify_version_allowed fb ver c1 c2) 0 s t -> ~ ended (verify_version_allowed fb ver c1 c2) t.
Proof.
  intros fb ver c1 c2 s t FB V0 V1 [P R] E.
  assert (2 <= 0)%nat; [|lia].
  apply (version_bound fb ver c1 c2 0 s t FB); [|exact P|exact R|exact E].
  rewrite ge_signed by lia. unfold signed. rewrite (proj2 (Z.ltb_ge (ver 1) _)) by lia.
  rewrite (proj2 (Z.ltb_lt (ver 0) _)) by lia. apply Z.leb_le. lia.
Qed.
Example C77_large_version_ex : let ver p := if p =? 1 then 0x80000000 else 6 in
  0 <= ver 0 < 2 ^ 31 /\ 2 ^ 31 <= ver 1 < 2 ^ 32.
Proof. cbn. lia. Qed.

(** A key that may sign for the partition passes. *)
Theorem C77_permitted_key_passes : forall id mask s,
  0 <= id < 16 -> permitted id mask = true -> pc s = 0%nat ->
  exists t, glitched (confirm_mask_valid id mask) 0 s t /\ ended (confirm_mask_valid id mask) t.
Proof.
  intros id mask s ID M P. destruct (mask_passes id mask s P ID M) as (t & R & E & _).
  exists t. split; [split; [exact P|exact R]|exact E].
Qed.
Example C77_permitted_key_ex : permitted 3 (2 ^ 3 + 1) = true.
Proof. reflexivity. Qed.

(** One that may not needs a skip, and two when what r1 held before does not happen to name a
    permitted partition. *)
Theorem C77_forbidden_key_stopped : forall id mask s t,
  0 <= id < 16 -> permitted id mask = false ->
  glitched (confirm_mask_valid id mask) 0 s t -> ~ ended (confirm_mask_valid id mask) t.
Proof.
  intros id mask s t ID M [P R] E. pose proof (mask_bound id mask 0 s t P R E) as B.
  unfold mk_and in B at 1.
  assert (L : Z.land id 15 = id).
  { change 15 with (Z.ones 4). rewrite Z.land_ones by lia. apply Z.mod_small. lia. }
  assert (Q : refused_id mask id = true).
  { unfold refused_id. rewrite (proj2 (Z.leb_le 0 id)), (proj2 (Z.ltb_lt id 16)) by lia.
    unfold permitted in M. rewrite M. reflexivity. }
  rewrite L, Q in B. lia.
Qed.
Theorem C77_forbidden_key_needs_two_partial : forall id mask k s t,
  0 <= id < 16 -> permitted id mask = false -> permitted (r1 s mod 16) mask = false ->
  glitched (confirm_mask_valid id mask) k s t -> ended (confirm_mask_valid id mask) t -> (2 <= k)%nat.
Proof.
  intros id mask k s t ID M M1 [P R] E. pose proof (mask_bound id mask k s t P R E) as B.
  assert (L : forall x, Z.land x 15 = x mod 16).
  { intros x. change 15 with (Z.ones 4). rewrite Z.land_ones by lia. reflexivity. }
  assert (Q : forall x, 0 <= x < 16 -> permitted x mask = false -> refused_id mask x = true).
  { intros x X Y. unfold refused_id. rewrite (proj2 (Z.leb_le 0 x)), (proj2 (Z.ltb_lt x 16)) by lia.
    unfold permitted in Y. rewrite Y. reflexivity. }
  unfold mk_and in B. rewrite !L, (Z.mod_small id) in B by lia.
  rewrite (Q id ID M), (Q (r1 s mod 16)) in B; [|apply Z.mod_pos_bound; lia|exact M1].
  destruct (refused_id mask (r1 s)); lia.
Qed.
Example C77_forbidden_key_ex : permitted 1 1 = false /\ permitted (r1 (start 0 18) mod 16) 1 = false.
Proof. split; reflexivity. Qed.

(** One is enough if it does: r1 is loaded once. *)
Theorem C77_forbidden_key_one_skip_refuted : exists s t,
  permitted 1 1 = false /\ glitched (confirm_mask_valid 1 1) 1 s t /\ ended (confirm_mask_valid 1 1) t.
Proof.
  exists (start 0 0), (run (confirm_mask_valid 1 1) ([true] ++ calm 30) (start 0 0)).
  split; [reflexivity|]. split; [apply glitch_by; reflexivity|]. unfold ended. vm_compute. lia.
Qed.

Print Assumptions C75_good_image_passes.
Print Assumptions C75_bad_image_needs_four.
Print Assumptions C75_four_skips_refuted.
Print Assumptions C75_canary_noticed.
Print Assumptions C75_canary_needs_four_partial.
Print Assumptions C75_canary_one_skip_refuted.
Print Assumptions C75_panic_needs_five.
Print Assumptions C75_panic_refuted.
Print Assumptions C76_good_signature_confirmed.
Print Assumptions C76_bad_signature_needs_four.
Print Assumptions C76_four_skips_refuted.
Print Assumptions C76_right_digest_confirmed.
Print Assumptions C76_wrong_digest_needs_seven.
Print Assumptions C76_rsa_length.
Print Assumptions C76_rsa_skipped_call_refuted.
Print Assumptions C77_newer_version_passes.
Print Assumptions C77_fallback_passes.
Print Assumptions C77_old_version_needs_two.
Print Assumptions C77_two_skips_refuted.
Print Assumptions C77_large_version_refuted.
Print Assumptions C77_permitted_key_passes.
Print Assumptions C77_forbidden_key_stopped.
Print Assumptions C77_forbidden_key_needs_two_partial.
Print Assumptions C77_forbidden_key_one_skip_refuted.
