(** Theorems about single-slot updates (C21) and bootloader self-update (C22). *)
From Verif Require Import Base BaseLemmas HeaderModel HeaderSpec HeaderProofs Flash FlashLemmas ImageModel
  ImageSpec ImageProofs GenuineProofs TrailerModel TrailerProofs TriggerProofs TrailerCrash SwapModel
  SwapSpec Geometry CopyProofs SwapInv SwapSteps SwapLoop SwapStart RefuseProofs NobackupModel NobackupSpec
  NobackupProofs Sample ImageProps SwapFinal HistoryProofs SwapProps.

(** ** C21 *)

Lemma cuts_same : forall c B f f1, geometry c -> own_flags c -> good c B -> marked c B f -> direct_cuts c f f1 -> same_out c f f1.
Proof.
  intros c B f f1 G Ow GB M H. induction H as [f|f f1 f2 Hc _ IH]; [apply frame_refl, M|].
  pose proof (wpc_crash _ _ _ _ _ (start_direct_wpc c B f G Ow GB M) f1 Hc) as S1.
  eapply frame_trans; [exact S1|]. apply IH. eapply same_marked; eauto.
Qed.

(** C21: from a marked update, after any number of interrupted boots (whatever the
    interruptions left in the boot partition), the update is still there and marked, and one
    complete boot ends with it installed, confirmed and running; unless, in a build that
    refuses older versions, the boot partition happened to hold another verified image that
    is at least as new, which then runs unchanged.  Nothing outside the boot partition is
    ever modified. *)
Theorem C21_recoverable : forall c B f f1, geometry c -> own_flags c -> good c B -> marked c B f -> direct_cuts c f f1 ->
  marked c B f1 /\ exists f2, run (start_direct c) f1 = Done (BOOT c + HDR c) f2 /\
    (forall x, ~ (BOOT c <= x < BOOT c + PART c) -> f1 x = f x /\ f2 x = f x) /\
    ((holds f2 (BOOT c) (fst B) /\ get_partition_state c f2 PBOOT = Some ST_SUCCESS) \/
     (f2 = f1 /\ not_newer c B f1)).
Proof.
  intros c B f f1 G Ow GB M H. pose proof (cuts_same c B f f1 G Ow GB M H) as S1.
  assert (M1 : marked c B f1) by (eapply same_marked; eauto). split; [exact M1|].
  destruct (wpc_run _ _ _ _ _ (start_direct_wpc c B f1 G Ow GB M1)) as (r & f2 & E & (-> & K) & S2).
  exists f2. split; [exact E|]. split.
  - intros x Hx. split; [apply S1, Hx|]. transitivity (f1 x); [apply S2, Hx|apply S1, Hx].
  - destruct K as [(_ & K1 & K2)|K]; auto.
Qed.
Print Assumptions C21_recoverable.

(** In particular, updating an older image. *)
Theorem C21_update : forall c A B f, geometry c -> own_flags c -> good c A -> good c B -> marked c B f ->
  holds f (BOOT c) (fst A) -> may_install c A B ->
  exists f', run (start_direct c) f = Done (BOOT c + HDR c) f' /\ holds f' (BOOT c) (fst B) /\
    get_partition_state c f' PBOOT = Some ST_SUCCESS.
Proof.
  intros c A B f G Ow GA GB M HA Hm. assert (Hb : bytes f) by apply M.
  destruct (C21_recoverable c B f f G Ow GB M (dc_none c f)) as (_ & f2 & E & _ & [(K1 & K2)|(-> & D & _ & _ & v & V & L)]); [eauto|].
  exfalso. destruct Hm as [Hm|Hm]; [congruence|].
  assert (Hh : hdr_small c) by (apply hs; exact G).
  destruct (version_val c f PBOOT Hb Hh) as (v1 & E1 & V1). cbn [part_addr] in V1.
  rewrite (stored_version c f PBOOT (fst A) (snd A)) in E1; auto; try discriminate.
  - injection E1 as <-. pose proof (version_det _ _ _ _ _ Hb Hh V1 V). lia.
  - apply (even_part c PBOOT G). discriminate.
Qed.
Print Assumptions C21_update.

(** Triggering an update marks it. *)
Theorem C21_trigger_marks : forall c B f0, geometry c -> flags_fit c -> bytes f0 -> good c B ->
  holds f0 (UPDATE c) (fst B) ->
  exists f, run (update_trigger c (SECT c)) f0 = Done tt f /\ marked c B f /\
    (forall x, ~ (UPDATE c + PART c - SECT c <= x < UPDATE c + PART c) -> f x = f0 x).
Proof.
  intros c B f0 G F Hb GB HB.
  destruct (trigger_run c (SECT c) f0 G F Hb (or_introl eq_refl)) as (f & E & Bf & S & Fl & O).
  exists f. split; [exact E|]. split; [|exact O]. split; [exact Bf|]. split; [|split; [exact S|apply Fl]].
  - intros i Hi. pose proof (gn_fit c _ _ GB). rewrite O by lia. apply HB, Hi.
  - destruct (g_sect c G), (g_part c G). split; [lia|]. apply Z.div_str_pos. lia.
Qed.
Print Assumptions C21_trigger_marks.

Example C21_hyps : own_flags demo /\ exists f, marked demo (demo_new, 5) f /\ holds f (BOOT demo) demo_old /\
  good demo (demo_old, 3) /\ good demo (demo_new, 5) /\ may_install demo (demo_old, 3) (demo_new, 5).
Proof.
  split; [reflexivity|]. destruct (C21_trigger_marks demo (demo_new, 5) demo_flash demo_geometry) as (f & _ & M & O).
  - exact demo_fits.
  - exact demo_flash_bytes.
  - exact demo_new_genuine.
  - apply C09_hyps.
  - exists f. split; [exact M|]. split; [|split; [exact demo_old_genuine|split; [exact demo_new_genuine|right; reflexivity]]].
    intros i Hi. rewrite O.
    + apply (store_holds (BOOT demo)). exact Hi.
    + change (BOOT demo) with 1024. change (UPDATE demo + PART demo - SECT demo) with 2432. change (zlen demo_old) with 134 in Hi. lia.
Qed.

(** C13 and C14 in this build: a candidate that is not an authentic application image, or not
    newer when downgrades are refused and nothing is on trial, changes nothing. *)
Theorem C21_rejected_update : forall c f, geometry c -> bytes f ->
  verified c f (BOOT c) ->
  get_update_sector_flag c f 0 = None \/ get_update_sector_flag c f 0 = Some SF_NEW ->
  ~ acceptable c f (fallback_due c f) ->
  HDR c <= SECT c \/ word f (UPDATE c + 4) <= PART c - HDR c ->
  run (start_direct c) f = Done (BOOT c + HDR c) f /\
  forall t f', crash t (start_direct c) f f' -> f' = f.
Proof.
  intros c f G Hb V Hfl0 Hna HS.
  assert (Hfl : flag_of c f 0 = SF_NEW) by (unfold flag_of; destruct Hfl0 as [ -> | -> ]; reflexivity).
  unfold fallback_due in Hna.
  assert (K : forall t, wpc t (start_direct c) (fun r f' => r = BOOT c + HDR c /\ f' = f) (fun f' => f' = f) f).
  { intro t. unfold start_direct. cbn [get bind wpc]. apply wpc_bind.
    pose proof (fun upd => boot_stage_ok t c f upd G Hb V) as BS.
    assert (HR : forall fb, ~ acceptable c f fb -> wpc t (update_direct c fb) (fun b f' => b = false /\ f' = f) (fun f' => f' = f) f).
    { intros fb Hn. assert (Hh : hdr_small c) by (apply hs; exact G). unfold update_direct. cbn [wpc]. cbn zeta.
      destruct (get_total_size _ _ _ <=? HDR c); [cbn [wpc]; auto|].
      destruct (get_type_val c f PUPDATE Hb Hh) as (ty & Ety).
      cbn [pure bind wpc]. rewrite Ety. cbn [bind get wpc].
      change (match get_update_sector_flag c f 0 with Some fl => fl | None => SF_NEW end) with (flag_of c f 0).
      rewrite Hfl, Z.eqb_refl. apply wpc_bind.
      eapply wpc_post; [apply (refuse_checks t c fb f ty G HS Hb Hn Ety)|].
      cbn beta. intros b f' _ (-> & ->). cbn [negb wpc]. auto. }
    destruct (match get_partition_state c f PBOOT with Some s => s =? ST_TESTING | None => false end).
    - apply wpc_bind. eapply wpc_post; [apply HR, Hna|]. cbn beta. intros b f' _ (_ & ->). cbn [wpc]. auto.
    - destruct (match get_partition_state c f PUPDATE with Some s => s =? ST_UPDATING | None => false end).
      + apply wpc_bind. eapply wpc_post; [apply HR, Hna|]. cbn beta. intros b f' _ (_ & ->). cbn [wpc]. auto.
      + cbn [wpc]. auto. }
  split.
  - destruct (wpc_run _ _ _ _ _ (K (tear_std c))) as (r & f' & E & (-> & ->) & _). exact E.
  - intros t f' Hc. exact (wpc_crash _ _ _ _ _ (K t) f' Hc).
Qed.
Print Assumptions C21_rejected_update.

Example C21_rejected_hyps : bytes bad_flash /\ verified demo bad_flash (BOOT demo) /\
  get_update_sector_flag demo bad_flash 0 = None /\ ~ acceptable demo bad_flash (fallback_due demo bad_flash).
Proof. destruct C13_hyps as (A & B & _ & D). split; [exact A|]. split; [exact B|]. split; [reflexivity|exact D]. Qed.

(** ** C22 *)

(** C22: when the update partition holds an authentic newer bootloader marked for
    installation (and the bootloader region has room for it), the check installs exactly
    its payload, changes nothing outside the bootloader region, and reboots. *)
Theorem C22_self_update : forall c s f, geometry c -> bytes f -> self_due c s f ->
  self_room c s (word f (UPDATE c + 4)) ->
  exists f', run (check_self_update c s) f = Done true f' /\
    (forall x, ~ (s_base s <= x < BOOT c) -> f' x = f x) /\
    (forall i, 0 <= i < word f (UPDATE c + 4) -> f' (s_base s + i) = f (UPDATE c + HDR c + i)).
Proof.
  intros c s f G Hb D R. destruct (check_self_cases c s f G Hb) as [(_ & _ & K)|(N & _)]; [|contradiction].
  destruct (K R) as (f' & E & (_ & Fr) & P). exists f'. split; [exact E|]. split; [|exact P].
  intros x Hx. apply Fr. lia.
Qed.
Print Assumptions C22_self_update.

(** Whatever the flash contains the check ends, and it installs exactly when it should. *)
Theorem C22_defined : forall c s f, geometry c -> bytes f ->
  exists b f', run (check_self_update c s) f = Done b f' /\ (b = true <-> self_due c s f).
Proof.
  intros c s f G Hb. destruct (check_self_cases c s f G Hb) as [(D & (f' & E) & _)|(N & W)].
  - exists true, f'. split; [exact E|]. tauto.
  - destruct (wpc_run _ _ _ _ _ W) as (b & f' & E & ( -> & _) & _). exists false, f'. split; [exact E|].
    split; [discriminate|contradiction].
Qed.
Print Assumptions C22_defined.

(** Otherwise nothing outside the update partition is ever written, even if power fails. *)
Theorem C22_only_verified_newer : forall c s f, geometry c -> bytes f -> ~ self_due c s f ->
  (exists f', run (check_self_update c s) f = Done false f') /\
  (forall f', run (check_self_update c s) f = Done false f' \/ crash tear_free (check_self_update c s) f f' ->
     forall x, ~ (UPDATE c <= x < UPDATE c + PART c) -> f' x = f x).
Proof.
  intros c s f G Hb N. destruct (check_self_cases c s f G Hb) as [(D & _)|(_ & W)]; [contradiction|].
  destruct (wpc_run _ _ _ _ _ W) as (r & f1 & E & (-> & Fr) & _). split; [eauto|].
  intros f' [E'|Hc] x Hx.
  - rewrite E in E'. injection E' as <-. apply Fr, Hx.
  - apply (wpc_crash _ _ _ _ _ W f' Hc), Hx.
Qed.
Print Assumptions C22_only_verified_newer.

(** A build whose third key may also sign bootloaders, and a bootloader image. *)
Definition demo_self : cfg := {|
  BOOT := 1024; UPDATE := 2048; SWAP := 4096; UFLAGS := 2560; PART := 512; SECT := 128; HDR := 64; FB := 32;
  BLK := 48; c_hash_tag := HDR_SHA256; c_digsz := 4; c_auth := 0x200;
  c_hash := demo_hash;
  c_keys := [(None, 0xFF); (Some [1; 2; 3], 0x1); (Some [4; 5; 6], 0x3)]; c_sigsz := 4;
  c_verify := (fun n d s => (n =? 2)%nat && list_eqb s (demo_sign d)); c_hybrid := false; c_sigsz2 := 0;
  c_verify2 := (fun _ _ _ => false); c_allow_downgrade := false |}.
Lemma demo_self_geometry : geometry demo_self.
Proof.
  constructor; unfold disjoint; cbn; try lia; auto; try (left; lia); split; reflexivity || lia.
Qed.
Definition self_image (ver : Z) (fw : list Z) : list Z :=
  let pre := le_bytes 4 WOLFBOOT_MAGIC ++ le_bytes 4 (zlen fw) ++ [1; 0; 4; 0] ++ le_bytes 4 ver ++
    [4; 0; 2; 0; 0; 2; 255; 255] in
  let d := demo_hash (pre ++ fw) in
  pad_to 64 (pre ++ [3; 0; 4; 0] ++ d ++ [16; 0; 4; 0] ++ demo_hash [4; 5; 6] ++
             [32; 0; 4; 0] ++ demo_sign d) ++ fw.
Definition self_new : list Z := Eval vm_compute in self_image 9 demo_fw2.
Definition self_flash : flash := store 1024 demo_old (store 2048 self_new
  (store (2048 + 507) [112; 66; 79; 79; 84] (fun _ => 255))).
Lemma self_flash_bytes : bytes self_flash.
Proof.
  repeat (apply store_bytes; [apply check_bytes_ok; vm_compute; reflexivity|]). intro x. unfold is_byte. lia.
Qed.

Lemma due_by_run : forall c s f, geometry c -> bytes f ->
  match run (check_self_update c s) f with Done r _ => r | _ => false end = true -> self_due c s f.
Proof.
  intros c s f G Hb H. destruct (check_self_cases c s f G Hb) as [(D & _)|(_ & W)]; [exact D|].
  destruct (wpc_run _ _ _ _ _ W) as (r & f1 & E & (-> & Fr) & _). rewrite E in H. discriminate.
Qed.

Example C22_hyps : let s := {| s_base := 256; s_version := 7 |} in
  geometry demo_self /\ bytes self_flash /\ self_due demo_self s self_flash /\
  self_room demo_self s (word self_flash (UPDATE demo_self + 4)) /\
  ~ self_due demo_self {| s_base := 256; s_version := 9 |} self_flash.
Proof.
  intro s. split; [exact demo_self_geometry|]. split; [exact self_flash_bytes|].
  split; [apply due_by_run; [exact demo_self_geometry|exact self_flash_bytes|vm_compute; reflexivity]|].
  split; [split; [vm_compute; discriminate|split; [left; vm_compute; discriminate|vm_compute; discriminate]]|].
  intros (_ & _ & _ & v & V & L). cbn [s_version] in L.
  destruct (version_val demo_self self_flash PUPDATE self_flash_bytes (hs demo_self demo_self_geometry)) as (v' & E & V').
  cbn [part_addr] in V'. pose proof (version_det _ _ _ _ _ self_flash_bytes (hs demo_self demo_self_geometry) V V') as ->.
  assert (X : match get_image_version demo_self self_flash PUPDATE with Val n => n | _ => 0 end = 9) by (vm_compute; reflexivity).
  rewrite E in X. lia.
Qed.

(** There is no check that the new bootloader fits in its region: an authentic one that is
    too large overwrites the boot partition. *)
Theorem C22_overrun_refuted : exists c s f, geometry c /\ bytes f /\ self_due c s f /\
  0 <= s_base s < BOOT c /\
  match run (check_self_update c s) f with Done true f' => f' (BOOT c + 4) <> f (BOOT c + 4) | _ => False end.
Proof.
  exists demo_self, {| s_base := 896; s_version := 7 |}, self_flash.
  split; [exact demo_self_geometry|]. split; [exact self_flash_bytes|].
  split; [apply due_by_run; [exact demo_self_geometry|exact self_flash_bytes|vm_compute; reflexivity]|].
  split; [split; [vm_compute; discriminate|vm_compute; reflexivity]|]. vm_compute. discriminate.
Qed.
Print Assumptions C22_overrun_refuted.

(** C12 for single-slot builds: whatever the flash contains, control is only handed to a
    verified image. *)
Theorem C12_direct_boots_verified : forall c f r f', geometry c -> bytes f ->
  run (start_direct c) f = Done r f' -> verified c f' (BOOT c) /\ r = BOOT c + HDR c.
Proof. exact start_direct_verified. Qed.
Print Assumptions C12_direct_boots_verified.
