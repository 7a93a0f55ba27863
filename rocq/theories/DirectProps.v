(** Theorems about single-slot builds on arbitrary flash contents:
    C12 (defined behaviour) and C14 (one boot). *)
From Verif Require Import Base BaseLemmas HeaderModel HeaderSpec HeaderProofs Flash FlashLemmas ImageModel
  ImageSpec ImageProofs GenuineProofs TrailerModel TrailerProofs TriggerProofs TrailerCrash SwapModel
  SwapSpec Geometry CopyProofs SwapInv SwapSteps SwapLoop SwapFinal SwapStart RefuseProofs HistoryProofs
  Sample ImageProps SwapProps SwapLimits NobackupModel NobackupSpec NobackupProofs NobackupProps
  DecideProofs DecideProps DirectProofs.
Local Ltac Zify.zify_post_hook ::= idtac.

(** C12, single-slot builds: whatever the flash contains, the boot routine panics or hands
    over control to a verified image. *)
Theorem C12_direct_defined : forall c f, geometry c -> bytes f ->
  (exists f', run (start_direct c) f = Panicked f') \/
  (exists f', run (start_direct c) f = Done (BOOT c + HDR c) f' /\ verified c f' (BOOT c)).
Proof.
  intros c f G Hb. pose proof (start_direct_safe c G f Hb) as S. unfold ends in S.
  destruct (run (start_direct c) f) as [r f'|f'|] eqn:E; [|left; eauto|contradiction].
  right. destruct (start_direct_verified c f r f' G Hb E) as (V & ->). eauto.
Qed.
Print Assumptions C12_direct_defined.

Example C12_direct_cases :
  is_done (run (start_direct demo) demo_flash) = true /\ is_panic (run (start_direct demo) blank) = true.
Proof. split; vm_compute; reflexivity. Qed.

(** C14, single-slot builds: a verified image of version [v1] is installed and not on trial,
    and the first update sector carries no swap flag.  Whatever else the flash contains, a
    boot that completes leaves the flash alone and runs the installed image, or runs the
    verified image that was in the update partition, whose version is higher. *)
Theorem C14_direct_one_boot : forall c f v1 r f', geometry c -> own_flags c -> HDR c + 3 <= SECT c ->
  c_allow_downgrade c = false -> bytes f -> verified c f (BOOT c) -> version_at c f (BOOT c) v1 ->
  get_update_sector_flag c f 0 = None \/ get_update_sector_flag c f 0 = Some SF_NEW ->
  fallback_due c f = false -> run (start_direct c) f = Done r f' ->
  verified c f' (BOOT c) /\
  (f' = f \/
   (verified c f (UPDATE c) /\ same_header c f (UPDATE c) f' (BOOT c) /\
    exists v2, version_at c f (UPDATE c) v2 /\ version_at c f' (BOOT c) v2 /\ v1 < v2)).
Proof.
  intros c f v1 r f' G Ow HS Hd Hb V V1 Hn Ht E.
  split; [exact (proj1 (start_direct_verified c f r f' G Hb E))|].
  assert (Hh : hdr_small c) by (apply hs; exact G).
  assert (Hfl : flag_of c f 0 = SF_NEW) by (unfold flag_of; destruct Hn as [ -> | -> ]; reflexivity).
  pose proof (start_direct_decides c G HS f Ow Hb V Hfl Ht) as D. unfold ends in D. rewrite E in D.
  destruct D as (B' & [D|(Acc & D)]); [left; exact D|].
  right. destruct Acc as (Vu & _ & [A|[A|(w1 & w2 & A1 & A2 & A3)]]); [discriminate|congruence|].
  split; [exact Vu|]. split; [intros i Hi; apply D; lia|]. exists w2. split; [exact A2|]. split.
  - apply (version_moved c f (UPDATE c)); auto. destruct (g_even c G). congruence.
  - rewrite (version_det c f (BOOT c) v1 w1); auto.
Qed.
Print Assumptions C14_direct_one_boot.

Example C14_direct_hyps : exists f v1, geometry demo /\ own_flags demo /\ HDR demo + 3 <= SECT demo /\
  c_allow_downgrade demo = false /\ bytes f /\ verified demo f (BOOT demo) /\
  version_at demo f (BOOT demo) v1 /\ get_update_sector_flag demo f 0 = Some SF_NEW /\
  fallback_due demo f = false /\ is_done (run (start_direct demo) f) = true.
Proof.
  assert (Hb0 : bytes long_flash).
  { apply store_bytes; [apply check_bytes_ok; vm_compute; reflexivity|].
    apply store_bytes; [apply check_bytes_ok; vm_compute; reflexivity|exact blank_bytes]. }
  destruct (armed_run long_flash Hb0) as (_ & Hb).
  assert (Hh : hdr_small demo) by (apply hs, demo_geometry).
  destruct (version_val demo (armed long_flash) PBOOT Hb Hh) as (v1 & _ & V1).
  exists (armed long_flash), v1. split; [exact demo_geometry|]. split; [reflexivity|]. split; [vm_compute; discriminate|].
  split; [reflexivity|]. split; [exact Hb|].
  split; [apply (verified_by demo (armed long_flash) PBOOT demo_geometry Hb); [discriminate|vm_compute; reflexivity]|].
  split; [exact V1|]. split; [vm_compute; reflexivity|]. split; vm_compute; reflexivity.
Qed.
