(** Theorems about the boot routine on arbitrary flash contents: C12 (defined behaviour) and
    C14 (one boot, whatever is in the update partition). *)
From Verif Require Import Base BaseLemmas HeaderModel HeaderSpec HeaderProofs Flash FlashLemmas ImageModel
  ImageSpec ImageProofs GenuineProofs TrailerModel TrailerProofs TriggerProofs TrailerCrash SwapModel
  SwapSpec Geometry CopyProofs SwapInv SwapSteps SwapLoop SwapFinal SwapStart RefuseProofs HistoryProofs
  Sample ImageProps SwapProps SwapLimits DecideProofs.
Local Ltac Zify.zify_post_hook ::= idtac.

(** ** C12 *)

(** C12, defined behaviour: whatever the flash contains and whatever was on the stack, the
    boot routine either panics or hands over control to a verified image; it never runs into
    undefined behaviour and its loops end. *)
Theorem C12_defined : forall c u f, geometry c -> bytes f ->
  (exists f', run (start c u) f = Panicked f') \/
  (exists f', run (start c u) f = Done (BOOT c + HDR c) f' /\ verified c f' (BOOT c)).
Proof.
  intros c u f G Hb. pose proof (start_safe c u f G Hb) as S. unfold ends in S.
  destruct (run (start c u) f) as [r f'|f'|] eqn:E; [|left; eauto|contradiction].
  right. destruct (start_verified c u f r f' G Hb E) as (V & ->). eauto.
Qed.
Print Assumptions C12_defined.

(** Both outcomes occur: the demo device boots, a blank one panics. *)
Example C12_defined_cases :
  is_done (run (start demo u_zero) demo_flash) = true /\ is_panic (run (start demo u_zero) blank) = true.
Proof. split; vm_compute; reflexivity. Qed.

(** ** C14 *)

(** The header at [b] in [g] is the header at [a] in [f]. *)
Definition same_header (c : cfg) (f : flash) (a : Z) (g : flash) (b : Z) : Prop :=
  forall i, 0 <= i < HDR c -> g (b + i) = f (a + i).

Lemma version_moved : forall c f a g b v, bytes f -> hdr_small c -> Z.odd a = Z.odd b ->
  (forall i, 0 <= i < HDR c + 3 -> g (b + i) = f (a + i)) -> version_at c f a v -> version_at c g b v.
Proof.
  intros c f a g b v Hb Hh Ho E. destruct Hh as (Hh1 & Hh2).
  assert (Ew : word g b = word f a) by (apply word_ext; intros i Hi; apply E; lia).
  assert (Eh : rdl g b (Z.to_nat (HDR c)) = rdl f a (Z.to_nat (HDR c))) by (apply rdl_ext; intros i Hi; apply E; lia).
  unfold version_at. cbn zeta. rewrite Ew, Eh. intros [V|[(V1 & V2 & V3)|(V1 & off & d & V2 & V3)]]; [left; exact V|right; left|right; right].
  - split; [exact V1|]. split; [|exact V3]. destruct V2 as (items & R & N). exists items. split; [|exact N]. eapply reads_parity; eauto.
  - split; [exact V1|]. exists off, d. split; [eapply field_parity; eauto|]. rewrite V3. destruct d as [|d0 d]; [reflexivity|].
    destruct (get_header_val c f a HDR_VERSION Hb (conj Hh1 Hh2)) as (r & Er & K).
    destruct (hdr_facts c f a Hb (conj Hh1 Hh2)) as (F1 & _ & F3). unfold hdr_bytes in *.
    destruct r as [[o l]|]; [|exfalso; exact (field_none _ _ _ _ _ F1 F3 V2 K)].
    destruct K as (d' & K1 & K2 & _ & _ & K3). destruct (field_det _ _ _ _ _ _ _ F1 F3 V2 K1) as (<- & <-).
    cbn [length] in K2. apply word_ext. intros i Hi. rewrite <- !Z.add_assoc. symmetry. apply E. lia.
Qed.

Lemma start_decides : forall c u f, geometry c -> flags_fit c -> HDR c + 3 <= SECT c -> 3 * SECT c <= PART c ->
  bytes f -> u 0%nat <> ST_FINAL -> verified c f (BOOT c) -> no_swap c f -> fallback_due c f = false ->
  ends (start c u) (fun _ f' => bytes f' /\
    ((forall i, 0 <= i < HDR c + 3 -> f' (BOOT c + i) = f (BOOT c + i)) \/
     (acceptable c f false /\ forall i, 0 <= i < HDR c + 3 -> f' (BOOT c + i) = f (UPDATE c + i)))) f.
Proof.
  intros c u f G F HS H3 Hb Hu V (Hc & Hf & Hfl) Ht.
  unfold start, get. cbn [bind]. match goal with |- ends (Rd ?r) ?Q f => change (ends (r f) Q f) end. cbn beta.
  apply ends_bind.
  apply (ends_weak _ (fun b f' => b = false /\ f' = f)).
  { unfold swap_and_final_erase. match goal with |- ends (Rd ?r) ?Q f => change (ends (r f) Q f) end. cbn beta zeta.
    destruct (open_img c f PBOOT) as (_ & P2). rewrite P2. cbn [part_addr].
    replace (PART c - SECT c - SECT c) with (PART c - 2 * SECT c) by lia.
    destruct (Z.eqb_spec (word f (BOOT c + (PART c - 2 * SECT c))) WOLFBOOT_MAGIC_TRAIL) as [E|_]; [contradiction|].
    assert (HF : (match get_partition_state c f PUPDATE with Some s => s | None => u 0%nat end =? ST_FINAL) = false).
    { apply Z.eqb_neq. destruct (get_partition_state c f PUPDATE); congruence. }
    rewrite HF. cbn [negb andb]. split; reflexivity. }
  intros b f' ( -> & -> ). fold (fallback_due c f). rewrite Ht.
  assert (Hfl0 : flag_of c f 0 = SF_NEW) by (unfold flag_of; destruct Hfl as [ -> | -> ]; reflexivity).
  assert (BS : forall upd, ends (boot_stage c upd) (fun _ f' => bytes f' /\
    ((forall i, 0 <= i < HDR c + 3 -> f' (BOOT c + i) = f (BOOT c + i)) \/
     (acceptable c f false /\ forall i, 0 <= i < HDR c + 3 -> f' (BOOT c + i) = f (UPDATE c + i)))) f).
  { intro upd. apply (ends_weak _ (fun _ f' => f' = f)).
    - eapply ends_weak; [eapply ends_wpc, (boot_stage_ok no_tear c f upd G Hb V)|]. cbn beta. intros a f' (_ & E). exact E.
    - intros _ f' -> . auto. }
  apply ends_bind. destruct (match get_partition_state c f PUPDATE with Some s => s =? ST_UPDATING | None => false end).
  2:{ apply (ends_weak _ (fun _ f' => f' = f)); [reflexivity|]. intros _ f' -> . apply BS. }
  apply ends_bind. eapply ends_weak; [apply (update_decides c G F HS H3); assumption|]. cbn beta.
  intros b f1 D. match goal with |- ends (Ret tt) ?Q f1 => change (Q tt f1) end. cbn beta.
  destruct D as [( _ & -> )|(_ & Acc & (B1 & E1) & M1)]; [apply BS|].
  unfold boot_stage. apply ends_bind. eapply ends_weak; [apply verify_open_safe; auto; discriminate|]. cbn beta.
  intros [ok im] f' -> . apply ends_bind.
  apply (ends_weak _ (fun _ f' => bytes f' /\
    ((forall i, 0 <= i < HDR c + 3 -> f' (BOOT c + i) = f (BOOT c + i)) \/
     (acceptable c f false /\ forall i, 0 <= i < HDR c + 3 -> f' (BOOT c + i) = f (UPDATE c + i))))).
  2:{ intros im' f' D. destruct (sanity im'); [exact D|exact I]. }
  destruct ok.
  - split; [exact B1|]. right. split; [exact Acc|]. intros i Hi. apply E1, Hi.
  - apply ends_bind. eapply ends_weak.
    { apply (update_decides c G F HS H3); [exact B1|]. unfold flag_of, get_update_sector_flag. rewrite M1. reflexivity. }
    cbn beta. intros r f2 [( -> & _ )|( -> & _ & (B2 & E2) & _)]; cbn [negb]; [exact I|].
    apply ends_bind. eapply ends_weak; [apply verify_open_safe; auto; discriminate|]. cbn beta.
    intros [ok2 im2] f' -> . destruct ok2; [|exact I]. split; [exact B2|]. left. intros i Hi.
    rewrite (proj1 (E2 i Hi)). apply E1, Hi.
Qed.

(** C14, one boot: a verified image of version [v1] is installed and not on trial, and no swap
    is in progress.  Whatever the rest of the flash contains (the update partition, its
    trailer, the state after a power failure), a boot that completes runs the installed
    header's image, or the verified image that was in the update partition, whose version
    is higher. *)
Theorem C14_one_boot : forall c u f v1 r f', geometry c -> flags_fit c -> HDR c + 3 <= SECT c -> 3 * SECT c <= PART c ->
  c_allow_downgrade c = false -> bytes f -> u 0%nat <> ST_FINAL ->
  verified c f (BOOT c) -> version_at c f (BOOT c) v1 -> no_swap c f -> fallback_due c f = false ->
  run (start c u) f = Done r f' ->
  verified c f' (BOOT c) /\
  ((same_header c f (BOOT c) f' (BOOT c) /\ version_at c f' (BOOT c) v1) \/
   (verified c f (UPDATE c) /\ same_header c f (UPDATE c) f' (BOOT c) /\
    exists v2, version_at c f (UPDATE c) v2 /\ version_at c f' (BOOT c) v2 /\ v1 < v2)).
Proof.
  intros c u f v1 r f' G F HS H3 Hd Hb Hu V V1 Hn Ht E.
  split; [exact (proj1 (start_verified c u f r f' G Hb E))|].
  assert (Hh : hdr_small c) by (apply hs; exact G).
  pose proof (start_decides c u f G F HS H3 Hb Hu V Hn Ht) as D. unfold ends in D. rewrite E in D.
  destruct D as (B' & [D|(Acc & D)]).
  - left. split; [intros i Hi; apply D; lia|]. apply (version_moved c f (BOOT c)); auto.
  - right. destruct Acc as (Vu & _ & [A|[A|(w1 & w2 & A1 & A2 & A3)]]); [discriminate|congruence|].
    split; [exact Vu|]. split; [intros i Hi; apply D; lia|]. exists w2. split; [exact A2|]. split.
    + apply (version_moved c f (UPDATE c)); auto. destruct (g_even c G). congruence.
    + rewrite (version_det c f (BOOT c) v1 w1); auto.
Qed.
Print Assumptions C14_one_boot.

(** The device whose candidate overlaps the update trailer (C18) meets the hypotheses. *)
Lemma verified_by : forall c f p, geometry c -> bytes f -> p <> PSWAP ->
  match run (open_and_verify c p) f with Done (b, _) _ => b | _ => false end = true -> verified c f (part_addr c p).
Proof.
  intros c f p G Hb Hp E. unfold open_and_verify in E. cbn [get bind run] in E.
  destruct (open_image c f p) as [o im] eqn:Eo. destruct o; [|discriminate].
  destruct (verify_both_cases c f p im G Hb Hp Eo) as [(V & _)|(_ & im' & _ & W)]; [exact V|].
  exfalso. specialize (W no_tear (fun r _ => fst r = false) (fun _ => True) I eq_refl).
  destruct (wpc_run _ _ _ _ _ W) as ((b & i) & f' & E' & K & _). rewrite E' in E. cbn in K. congruence.
Qed.

Example C14_one_boot_hyps : exists f v1, geometry demo /\ flags_fit demo /\ HDR demo + 3 <= SECT demo /\
  3 * SECT demo <= PART demo /\ c_allow_downgrade demo = false /\ bytes f /\ verified demo f (BOOT demo) /\
  version_at demo f (BOOT demo) v1 /\ no_swap demo f /\ fallback_due demo f = false /\
  is_done (run (start demo u_zero) f) = true.
Proof.
  assert (Hb0 : bytes long_flash).
  { apply store_bytes; [apply check_bytes_ok; vm_compute; reflexivity|].
    apply store_bytes; [apply check_bytes_ok; vm_compute; reflexivity|exact blank_bytes]. }
  destruct (armed_run long_flash Hb0) as (_ & Hb).
  assert (Hh : hdr_small demo) by (apply hs, demo_geometry).
  destruct (version_val demo (armed long_flash) PBOOT Hb Hh) as (v1 & _ & V1).
  exists (armed long_flash), v1. split; [exact demo_geometry|]. split; [exact demo_fits|].
  split; [vm_compute; discriminate|]. split; [vm_compute; discriminate|]. split; [reflexivity|]. split; [exact Hb|].
  split; [apply (verified_by demo (armed long_flash) PBOOT demo_geometry Hb); [discriminate|vm_compute; reflexivity]|].
  split; [exact V1|]. split; [|split; [vm_compute; reflexivity|vm_compute; reflexivity]].
  split; [vm_compute; discriminate|]. split; [vm_compute; discriminate|]. right. vm_compute. reflexivity.
Qed.
