(** Theorems about delta updates on the device: C25 and C26 (and C12, C13 for these builds). *)
From Verif Require Import Base BaseLemmas HeaderModel HeaderSpec HeaderProofs Flash FlashLemmas ImageModel ImageSpec ImageProofs GenuineProofs
  TrailerModel TrailerProofs TriggerProofs TrailerCrash SwapModel SwapSpec Geometry CopyProofs SwapInv SwapSteps SwapLoop SwapFinal
  SwapStart RefuseProofs HistoryProofs Sample ImageProps SwapProps DeltaModel DeltaSpec DeltaProofs DeltaProps DeltaUpdateModel DeltaApply
  DeltaLoop DeltaFinal DeltaUpdateProofs DeltaUpdateSpec DeltaUpdateLink.
Local Ltac Zify.zify_post_hook ::= idtac.

(** ** Installing *)

Lemma start_delta_u0 : forall c blk u s f, get_partition_state c f PUPDATE = Some s ->
  run (start_delta c blk u) f = run (start_delta c blk (fun i => match i with O => 0 | _ => u i end)) f.
Proof.
  intros c blk u s f E. unfold start_delta. cbn [get bind run]. rewrite !run_bind.
  replace (run (swap_and_final_erase c (u 0%nat) true) f) with (run (swap_and_final_erase c 0 true) f); [reflexivity|].
  unfold swap_and_final_erase. cbn [run]. cbn zeta. rewrite E. reflexivity.
Qed.

Lemma triggered_state : forall c A B f, geometry c -> flags_fit c -> triggered_update c A B f -> get_partition_state c f PUPDATE = Some ST_UPDATING.
Proof.
  intros c A B f G F (f0 & Hb & _ & _ & _ & _ & _ & E). destruct (trigger_states c G F f0 Hb) as (Tr & _). apply (Tr f E).
Qed.

(** C25: one uninterrupted boot after the trigger of a delta image [D] from [A] to [B] runs
    [B], rebuilt byte for byte in the boot partition and on trial; the update partition
    still holds [D]. *)
Theorem C25_install : forall c blk A B D u f, geometry c -> flags_fit c -> good c A -> good c B -> delta_of c A B D ->
  0 < snd A < snd B -> 6 <= blk -> (blk | SECT c) -> triggered_update c A (D, snd B) f ->
  exists f', run (start_delta c blk u) f = Done (BOOT c + HDR c) f' /\
    holds f' (BOOT c) (fst B) /\ holds f' (UPDATE c) D /\
    get_partition_state c f' PBOOT = Some ST_TESTING /\ get_partition_state c f' PUPDATE = None /\
    (forall s, get_update_sector_flag c f' s = None).
Proof.
  intros c blk A B D u f G F GA GB HD (HA & HAB) Hblk Hdiv HT.
  destruct (delta_link c blk A B D G F GA GB HD HA HAB Hblk Hdiv) as (PF & PB & L1 & L2 & _).
  rewrite (start_delta_u0 c blk u _ f (triggered_state c A _ f G F HT)).
  set (u' := fun i : nat => match i with O => 0 | S _ => u i end).
  destruct (wpc_run _ _ _ _ _ (L2 u' f ltac:(discriminate) (L1 f HT))) as (r & f' & E & (-> & Fr & _) & _).
  exists f'. split; [exact E|]. destruct (fresh_holds c D G B f' Fr) as (K1 & K2). split; [exact K1|]. split; [exact K2|].
  destruct Fr as (N & HN & ((_ & _ & _ & _ & ((D1 & _) & _)) & Hn & _)). split; [exact D1|]. split; [exact Hn|].
  intro s. rewrite get_flag_nib. unfold get_partition_state in Hn. destruct (has_magic c f' PUPDATE); [discriminate|reflexivity].
Qed.
Print Assumptions C25_install.

Lemma installed_fresh : forall c blk A B D f, geometry c -> flags_fit c -> good c A -> good c B -> delta_of c A B D ->
  0 < snd A < snd B -> 6 <= blk -> (blk | SECT c) -> installed_delta c blk A B D f -> is_fresh c D B f.
Proof.
  intros c blk A B D f G F GA GB HD (HA & HAB) Hblk Hdiv (f0 & u & r & HT & E).
  destruct (delta_link c blk A B D G F GA GB HD HA HAB Hblk Hdiv) as (PF & PB & L1 & L2 & _).
  rewrite (start_delta_u0 c blk u _ f0 (triggered_state c A _ f0 G F HT)) in E.
  destruct (wpc_run _ _ _ _ _ (L2 (fun i : nat => match i with O => 0 | S _ => u i end) f0 ltac:(discriminate) (L1 f0 HT))) as (r' & f' & E' & (_ & Fr & _) & _).
  rewrite E' in E. injection E as _ <-. exact Fr.
Qed.

(** C25, not confirmed: the next boot applies the inverse patch and runs [A] again. *)
Theorem C25_fallback : forall c blk A B D u f, geometry c -> flags_fit c -> good c A -> good c B -> delta_of c A B D ->
  0 < snd A < snd B -> 6 <= blk -> (blk | SECT c) -> installed_delta c blk A B D f -> u 0%nat <> ST_FINAL ->
  exists f', run (start_delta c blk u) f = Done (BOOT c + HDR c) f' /\
    holds f' (BOOT c) (fst A) /\ holds f' (UPDATE c) D.
Proof.
  intros c blk A B D u f G F GA GB HD HAB Hblk Hdiv HI Hu.
  pose proof (installed_fresh c blk A B D f G F GA GB HD HAB Hblk Hdiv HI) as Fr.
  destruct HI as (f0 & u0 & r0 & HT & E0). destruct HAB as (HA & HAB).
  destruct (delta_link c blk A B D G F GA GB HD HA HAB Hblk Hdiv) as (PF & PB & L1 & L2 & L3).
  rewrite (start_delta_u0 c blk u0 _ f0 (triggered_state c A _ f0 G F HT)) in E0.
  destruct (wpc_run _ _ _ _ _ (L2 (fun i : nat => match i with O => 0 | S _ => u0 i end) f0 ltac:(discriminate) (L1 f0 HT))) as (r' & f1 & E' & (_ & _ & HB) & _).
  rewrite E' in E0. injection E0 as _ ->.
  destruct (wpc_run _ _ _ _ _ (L3 u f Hu HB)) as (r & f' & E & (-> & K1 & K2 & _) & _).
  exists f'. auto.
Qed.
Print Assumptions C25_fallback.

Lemma idle_delta : forall c blk A f u, geometry c -> u 0%nat <> ST_FINAL -> good c A -> bytes f -> holds f (BOOT c) (fst A) ->
  clean c f (BOOT c) -> settled c f ->
  wpc (tear_std c) (start_delta c blk u) (fun r f' => r = BOOT c + HDR c /\ f' = f) (fun f' => f' = f) f.
Proof.
  intros c blk A f u G Hu GA Hb Hh Hc (Ht & Hup & Hf). unfold start_delta. cbn [get bind wpc].
  apply wpc_bind.
  assert (R : wpc (tear_std c) (swap_and_final_erase c (u 0%nat) true) (fun b f' => b = false /\ f' = f) (fun f' => f' = f) f).
  { unfold swap_and_final_erase. cbn [wpc]. cbn zeta.
    destruct (open_img c f PBOOT) as (_ & P2). rewrite P2. cbn [part_addr].
    replace (PART c - SECT c - SECT c) with (PART c - 2 * SECT c) by lia.
    destruct (Z.eqb_spec (word f (BOOT c + (PART c - 2 * SECT c))) WOLFBOOT_MAGIC_TRAIL) as [E|_]; [contradiction|].
    assert (HF : (match get_partition_state c f PUPDATE with Some s => s | None => u 0%nat end =? ST_FINAL) = false).
    { apply Z.eqb_neq. destruct (get_partition_state c f PUPDATE); congruence. }
    rewrite HF. cbn [negb andb wpc]. auto. }
  eapply wpc_post; [exact R|]. cbn beta. intros b f' _ (-> & ->).
  assert (BS : forall upd, wpc (tear_std c) (boot_stage c upd) (fun r f' => r = BOOT c + HDR c /\ f' = f) (fun f' => f' = f) f).
  { intro upd. apply (boot_stage_wpc _ c f (fst A) (snd A)); auto. }
  assert ((match get_partition_state c f PBOOT with Some s => s =? ST_TESTING | None => false end) = false) as ->.
  { unfold on_trial in Ht. destruct (get_partition_state c f PBOOT) as [s|]; [|reflexivity].
    apply Z.eqb_neq. intros ->. apply Ht. reflexivity. }
  assert ((match get_partition_state c f PUPDATE with Some s => s =? ST_UPDATING | None => false end) = false) as ->.
  { destruct (get_partition_state c f PUPDATE) as [s|]; [|reflexivity]. apply Z.eqb_neq. intros ->. apply Hup. reflexivity. }
  cbn [bind]. apply BS.
Qed.

(** C25, confirmed: from then on every boot, interrupted or not, leaves flash as it is and
    runs [B]. *)
Theorem C25_confirmed : forall c blk A B D f, geometry c -> flags_fit c -> good c A -> good c B -> delta_of c A B D ->
  0 < snd A < snd B -> 6 <= blk -> (blk | SECT c) -> installed_delta c blk A B D f ->
  exists f1, run (success c) f = Done tt f1 /\ holds f1 (BOOT c) (fst B) /\
    get_partition_state c f1 PBOOT = Some ST_SUCCESS /\
    forall u, u 0%nat <> ST_FINAL -> run (start_delta c blk u) f1 = Done (BOOT c + HDR c) f1 /\
      forall f2, crash (tear_std c) (start_delta c blk u) f1 f2 -> f2 = f1.
Proof.
  intros c blk A B D f G F GA GB HD HAB Hblk Hdiv HI.
  destruct (installed_fresh c blk A B D f G F GA GB HD HAB Hblk Hdiv HI) as (N & HN & Fr).
  pose proof Fr as ((Mb & _ & _ & Da & ((Ht & _) & _)) & Hnone & _).
  assert (Hmg : has_magic c f PBOOT = true).
  { unfold get_partition_state in Ht. destruct (has_magic c f PBOOT); [reflexivity|discriminate]. }
  destruct (success_run c f Mb (has_magic_magicable c f PBOOT Mb Hmg)) as (f1 & E1 & B1 & S1 & O1).
  assert (GD : good c (D, snd B)) by apply (do_genuine _ _ _ _ HD).
  assert (NT : ~ on_trial c f1) by (unfold on_trial; rewrite S1; discriminate).
  assert (I1 : idle c B f1) by (apply (trial_idle c G F B (D, snd B) N f f1); auto).
  assert (HU : get_partition_state c f1 PUPDATE = None).
  { rewrite <- Hnone. apply (same_state c f f1 PUPDATE). intros x Hx. apply O1.
    cbn [endflags part_addr] in Hx. geo G. lia. }
  exists f1. split; [exact E1|]. split; [apply I1|]. split; [exact S1|]. intros u Hu.
  destruct I1 as (_ & J1 & J2 & J3 & _).
  assert (St : settled c f1) by (split; [exact NT|rewrite HU; split; discriminate]).
  pose proof (idle_delta c blk B f1 u G Hu GB J1 J2 J3 St) as W. split.
  - destruct (wpc_run _ _ _ _ _ W) as (r & f2 & E & (-> & ->) & _). exact E.
  - apply (wpc_crash _ _ _ _ _ W).
Qed.
Print Assumptions C25_confirmed.

(** ** Refusing *)

(** [D] does not name [A] as its base: another base version or none, or another base hash. *)
Definition wrong_base (c : cfg) (D : list Z) (A : img) : Prop :=
  (exists b, num_field c D HDR_IMG_DELTA_BASE b /\ b <> snd A) \/
  no_field 0 (hdr_of c D) HDR_IMG_DELTA_BASE \/
  (exists off d off' d', field_at 0 (hdr_of c D) HDR_IMG_DELTA_BASE_HASH off d /\ d <> [] /\
     field_at 0 (hdr_of c (fst A)) (c_hash_tag c) off' d' /\ d <> d').

Lemma refuse_base : forall c blk A D vD u f boot update (C : flash -> Prop), geometry c -> good c A -> genuine c D vD ->
  0 < snd A -> wrong_base c D A -> bytes f -> holds f (BOOT c) (fst A) -> holds f (UPDATE c) D -> C f ->
  i_hdr boot = BOOT c ->
  wpc (tear_std c) (delta_update c blk u boot update (swap_img c) false false) (fun b f' => b = false /\ f' = f) C f.
Proof.
  intros c blk A D vD u f boot update C G GA GD HA HW Hb H1 H2 HC EB.
  assert (Hh : hdr_small c) by (apply hs; exact G). assert (Hs : 0 <= SECT c) by (geo G; lia).
  assert (NU : PUPDATE <> PSWAP) by discriminate. assert (NB : PBOOT <> PSWAP) by discriminate.
  unfold delta_update. cbn zeta. cbn [pure bind wpc].
  assert (Mg : word f (UPDATE c) = WOLFBOOT_MAGIC) by (apply (stored_magic c f PUPDATE D vD); auto).
  destruct (sf_hdr c f PUPDATE D vD G Hb GD H2) as (EH & BH1 & BH2 & _).
  assert (Inf : exists x, get_delta_info c f false = Val x /\ forall o s bh, x = Some (o, s, bh) ->
     get_header c f (UPDATE c) HDR_IMG_DELTA_BASE_HASH = Val bh).
  { unfold get_delta_info. cbn zeta. rewrite Mg, Z.eqb_refl. cbn [negb obind].
    unfold word_field. destruct (get_header_val c f (UPDATE c) HDR_IMG_DELTA_SIZE Hb Hh) as ([[o1 l1]|] & E1 & _); rewrite E1; cbn [obind].
    2:{ eexists. split; [reflexivity|discriminate]. }
    destruct (l1 =? 4)%nat; [|eexists; split; [reflexivity|discriminate]]. cbn [obind].
    destruct (get_header_val c f (UPDATE c) HDR_IMG_DELTA_BASE_HASH Hb Hh) as (bh & E2 & _). rewrite E2. cbn [obind].
    eexists. split; [reflexivity|]. intros o s bh' E. injection E as _ _ <-. reflexivity. }
  destruct Inf as (info & EI & KI). rewrite EI. cbn [bind wpc].
  destruct info as [[[io isz] bh]|]; [|cbn [wpc]; auto]. specialize (KI _ _ _ eq_refl).
  cbn [pure bind wpc].
  rewrite (stored_version c f PBOOT (fst A) (snd A)) by (auto; try discriminate; apply even_part; auto; discriminate). cbn [bind wpc pure].
  rewrite (stored_version c f PUPDATE D vD) by (auto; try discriminate; apply even_part; auto; discriminate). cbn [bind wpc pure].
  assert (Bv : exists b, get_diffbase_version c f PUPDATE = Val b /\
     (b = snd A -> exists off d off' d', field_at 0 (hdr_of c D) HDR_IMG_DELTA_BASE_HASH off d /\ d <> [] /\
        field_at 0 (hdr_of c (fst A)) (c_hash_tag c) off' d' /\ d <> d')).
  { unfold get_diffbase_version. cbn zeta. change (part_addr c PUPDATE) with (UPDATE c). rewrite Mg, Z.eqb_refl. cbn [negb].
    destruct HW as [(b & (off & d & Hf & L & ->) & Nb)|[Hn|HX]].
    - destruct (sf_field c f PUPDATE D vD G Hb NU GD H2 _ _ _ Hf) as (E & R). cbn [part_addr] in *. rewrite E. cbn [obind].
      rewrite L in *. cbn [Nat.eqb]. eexists. split; [reflexivity|]. rewrite word_rdl, R. intro K. contradiction.
    - pose proof (sf_none c f PUPDATE D vD G Hb NU GD H2 _ Hn) as E. cbn [part_addr] in E. rewrite E. cbn [obind].
      eexists. split; [reflexivity|]. lia.
    - destruct (get_header_val c f (UPDATE c) HDR_IMG_DELTA_BASE Hb Hh) as ([[o1 l1]|] & E1 & _); rewrite E1; cbn [obind].
      + destruct (l1 =? 0)%nat; eexists; (split; [reflexivity|]); auto.
      + eexists; (split; [reflexivity|]); auto. }
  destruct Bv as (b & Eb & Kb). rewrite Eb. cbn [bind wpc].
  match goal with |- context [if ?x then Ret false else _] => destruct x eqn:Esz end; [cbn [wpc]; auto|].
  cbn [pure bind wpc]. rewrite EB.
  destruct (get_header_val c f (BOOT c) (c_hash_tag c) Hb Hh) as (bb & Ebb & _). rewrite Ebb. cbn [bind get wpc orb].
  match goal with |- context [(snd A =? b) && ?x] => assert ((snd A =? b) && x = false) as -> end; [|cbn [negb wpc]; auto].
  destruct (Z.eqb_spec (snd A) b) as [Eq|_]; [|reflexivity]. cbn [andb].
  destruct (Kb (eq_sym Eq)) as (off & d & off' & d' & Hf & Hd & Hf' & Nd).
  destruct (sf_field c f PUPDATE D vD G Hb NU GD H2 _ _ _ Hf) as (E1 & R1). cbn [part_addr] in *.
  destruct (sf_field c f PBOOT (fst A) (snd A) G Hb NB GA H1 _ _ _ Hf') as (E2 & R2). cbn [part_addr] in *.
  rewrite E1 in KI. injection KI as <-. rewrite E2 in Ebb. injection Ebb as <-.
  assert (L' : length d' = c_digsz c).
  { destruct (gn_signed _ _ _ GA) as (d0 & (off0 & I1 & I2 & _) & _).
    destruct (sf_hdr c f PBOOT (fst A) (snd A) G Hb GA H1) as (_ & Ba & Bz & _).
    destruct (field_det _ _ _ _ _ _ _ Ba Bz I1 Hf') as (_ & <-). exact I2. }
  assert (L : length d = c_digsz c).
  { destruct (Nat.eqb_spec (length d) (c_digsz c)) as [K|K]; [exact K|]. cbn [negb andb] in Esz.
    destruct (Nat.eqb_spec (length d) 0) as [K0|K0]; [|discriminate]. destruct d; [congruence|discriminate K0]. }
  rewrite L, Nat.eqb_refl. rewrite L' in *. rewrite L in R1. rewrite R1, R2.
  destruct (list_eqb d' d) eqn:El; [|reflexivity]. apply list_eqb_iff in El. congruence.
Qed.

(** C25: a delta image that does not apply to the running image is not installed: the boot
    routine runs the current image and changes no byte of flash. *)
Theorem C25_wrong_base : forall c blk A D vD u f, geometry c -> flags_fit c -> good c A -> genuine c D vD -> delta_type c D ->
  0 < snd A < vD -> wrong_base c D A -> triggered_update c A (D, vD) f -> u 0%nat <> ST_FINAL ->
  run (start_delta c blk u) f = Done (BOOT c + HDR c) f /\
  forall f', crash (tear_std c) (start_delta c blk u) f f' -> f' = f.
Proof.
  intros c blk A D vD u f G F GA GD Ty (HA & HAD) HW (f0 & Hb0 & HA0 & HD0 & CA & CD & NT & E) Hu.
  destruct (trigger_states c G F f0 Hb0) as (Tr & _). destruct (Tr f E) as (Tg & Es). clear Tr.
  pose proof Tg as (Hb & O' & _ & _). cbn [fst] in HD0.
  destruct (boot_kept c G F A f0 f GA HA0 CA NT) as (K1 & K2 & K3).
  { intros x Hx. apply O'. geo G. lia. }
  pose proof (gn_fit _ _ _ GD) as LD.
  assert (K4 : holds f (UPDATE c) D) by (intros j Hj; rewrite O' by (geo G; lia); apply HD0, Hj).
  assert (Hh : hdr_small c) by (apply hs; exact G). assert (Hs : 0 <= SECT c) by (geo G; lia).
  assert (W : wpc (tear_std c) (start_delta c blk u) (fun r f' => r = BOOT c + HDR c /\ f' = f) (fun f' => f' = f) f).
  { unfold start_delta. cbn [get bind wpc]. apply wpc_bind.
    assert (R : wpc (tear_std c) (swap_and_final_erase c (u 0%nat) true) (fun b f' => b = false /\ f' = f) (fun f' => f' = f) f).
    { unfold swap_and_final_erase. cbn [wpc]. cbn zeta.
      destruct (open_img c f PBOOT) as (_ & P2). rewrite P2. cbn [part_addr].
      replace (PART c - SECT c - SECT c) with (PART c - 2 * SECT c) by lia.
      destruct (Z.eqb_spec (word f (BOOT c + (PART c - 2 * SECT c))) WOLFBOOT_MAGIC_TRAIL) as [E1|_]; [contradiction|].
      rewrite Es. change (ST_UPDATING =? ST_FINAL) with false. cbn [negb andb wpc]. auto. }
    eapply wpc_post; [exact R|]. cbn beta. intros b f' _ (-> & ->).
    assert ((match get_partition_state c f PBOOT with Some s => s =? ST_TESTING | None => false end) = false) as ->.
    { unfold on_trial in K3. destruct (get_partition_state c f PBOOT) as [s|]; [|reflexivity].
      apply Z.eqb_neq. intros ->. apply K3. reflexivity. }
    rewrite Es, Z.eqb_refl. apply wpc_bind. apply wpc_bind.
    assert (UD : wpc (tear_std c) (update_delta c blk (u 1%nat) false) (fun b f' => b = false /\ f' = f) (fun f' => f' = f) f).
    { unfold update_delta. cbn [wpc]. cbn zeta.
      change (snd (open_image c f PSWAP)) with (swap_img c).
      destruct (open_img c f PBOOT) as (P1 & P2).
      assert (Eu : snd (open_image c f PUPDATE) = stored_image c PUPDATE D false false None).
      { rewrite (stored_open c f PUPDATE D vD); auto. discriminate. }
      destruct (get_total_size c (snd (open_image c f PBOOT)) (snd (open_image c f PUPDATE)) <=? HDR c); [cbn [wpc]; auto|].
      destruct (stored_delta_type c f D vD G Hb GD K4 Ty) as (ty & Ety & Dty).
      cbn [pure bind wpc]. rewrite Ety. cbn [bind get wpc].
      change (match get_update_sector_flag c f 0 with Some fl => fl | None => SF_NEW end) with (flag_of c f 0).
      rewrite (triggered_flag c G F f0 f Tg), Z.eqb_refl. apply wpc_bind. rewrite Eu.
      eapply wpc_post; [apply (checks_wpc c (fst A) D (snd A) vD G GA GD); auto|]. cbn beta.
      intros b f' _ (-> & ->). cbn [negb]. rewrite Dty, Z.eqb_refl. cbn [pure bind wpc].
      rewrite (stored_version c f PBOOT (fst A) (snd A)) by (auto; try discriminate; apply even_part; auto; discriminate). cbn [bind wpc pure].
      rewrite (stored_version c f PUPDATE D vD) by (auto; try discriminate; apply even_part; auto; discriminate). cbn [bind wpc pure get orb].
      rewrite (proj2 (Z.eqb_neq (snd A) 0)) by lia. rewrite (proj2 (Z.leb_gt vD (snd A))) by lia. cbn [negb andb bind].
      apply (refuse_base c blk A D vD); auto. }
    eapply wpc_post; [exact UD|]. cbn beta. intros b f' _ (-> & ->). cbn [wpc]. split; [reflexivity|].
    apply (boot_stage_wpc _ c f (fst A) (snd A)); auto. }
  split.
  - destruct (wpc_run _ _ _ _ _ W) as (r & f' & E1 & (-> & ->) & _). exact E1.
  - apply (wpc_crash _ _ _ _ _ W).
Qed.
Print Assumptions C25_wrong_base.

(** C13 in these builds: an unacceptable candidate (delta or not) changes nothing. *)
Theorem C25_rejected_update : forall c blk u f, geometry c -> bytes f -> u 0%nat <> ST_FINAL ->
  verified c f (BOOT c) -> no_swap c f -> ~ acceptable c f (fallback_due c f) ->
  HDR c <= SECT c \/ word f (UPDATE c + 4) <= PART c - HDR c ->
  run (start_delta c blk u) f = Done (BOOT c + HDR c) f /\
  forall t f', crash t (start_delta c blk u) f f' -> f' = f.
Proof.
  intros c blk u f G Hb Hu V (Hc & Hf & Hfl) Hna HS.
  assert (HR : forall t u, wpc t (update_delta c blk u (fallback_due c f)) (fun b f' => b = false /\ f' = f) (fun f' => f' = f) f).
  { intros t u0. assert (Hh : hdr_small c) by (apply hs; exact G).
    unfold update_delta. cbn [wpc]. cbn zeta.
    destruct (get_total_size _ _ _ <=? HDR c); [cbn [wpc]; auto|].
    destruct (get_type_val c f PUPDATE Hb Hh) as (ty & Ety).
    cbn [pure bind wpc]. rewrite Ety. cbn [bind get wpc].
    assert (match get_update_sector_flag c f 0 with Some fl => fl | None => SF_NEW end = SF_NEW) as ->
      by (destruct Hfl as [ -> | -> ]; reflexivity).
    rewrite Z.eqb_refl. apply wpc_bind.
    eapply wpc_post; [apply (refuse_checks t c (fallback_due c f) f ty G HS Hb Hna Ety)|].
    cbn beta. intros b f' _ (-> & ->). cbn [negb wpc]. auto. }
  assert (K : forall t, wpc t (start_delta c blk u) (fun r f' => r = BOOT c + HDR c /\ f' = f) (fun f' => f' = f) f).
  { intro t. unfold start_delta. cbn [get bind wpc]. apply wpc_bind.
    assert (R : wpc t (swap_and_final_erase c (u 0%nat) true) (fun b f' => b = false /\ f' = f) (fun f' => f' = f) f).
    { unfold swap_and_final_erase. cbn [wpc]. cbn zeta.
      destruct (open_img c f PBOOT) as (_ & P2). rewrite P2. cbn [part_addr].
      replace (PART c - SECT c - SECT c) with (PART c - 2 * SECT c) by lia.
      destruct (Z.eqb_spec (word f (BOOT c + (PART c - 2 * SECT c))) WOLFBOOT_MAGIC_TRAIL) as [E|_]; [contradiction|].
      assert (HF : (match get_partition_state c f PUPDATE with Some s => s | None => u 0%nat end =? ST_FINAL) = false).
      { apply Z.eqb_neq. destruct (get_partition_state c f PUPDATE); congruence. }
      rewrite HF. cbn [negb andb wpc]. auto. }
    eapply wpc_post; [exact R|]. cbn beta. intros b f' _ (-> & ->).
    pose proof (fun upd => boot_stage_ok t c f upd G Hb V) as BS.
    fold (fallback_due c f). specialize (HR t (u 1%nat)).
    destruct (fallback_due c f) eqn:E.
    - apply wpc_bind. apply wpc_bind. eapply wpc_post; [apply HR|].
      cbn beta. intros b f' _ (_ & ->). cbn [wpc]. auto.
    - destruct (match get_partition_state c f PUPDATE with Some s => s =? ST_UPDATING | None => false end); [|apply BS].
      apply wpc_bind. apply wpc_bind. eapply wpc_post; [apply HR|].
      cbn beta. intros b f' _ (_ & ->). cbn [wpc]. auto. }
  split.
  - destruct (wpc_run _ _ _ _ _ (K (tear_std c))) as (r & f' & E & (-> & ->) & _). exact E.
  - intros t f'. apply (wpc_crash _ _ _ _ _ (K t)).
Qed.
Print Assumptions C25_rejected_update.

(** ** C26: power failures *)

(** C26: after the trigger of a delta image, let the device boot any number of times, each
    boot complete or cut short by a power failure at any flash operation or in the middle of
    it: the next boot that is not interrupted runs [A] or [B], complete, and the delta image
    is still complete in the update partition. *)
Theorem C26_power_fail_safe : forall c blk A B D u f f1, geometry c -> flags_fit c -> good c A -> good c B -> delta_of c A B D ->
  0 < snd A < snd B -> 6 <= blk -> (blk | SECT c) -> triggered_update c A (D, snd B) f ->
  delta_boots c blk f f1 -> u 0%nat <> ST_FINAL ->
  exists f2, run (start_delta c blk u) f1 = Done (BOOT c + HDR c) f2 /\
    (holds f2 (BOOT c) (fst A) \/ holds f2 (BOOT c) (fst B)) /\ holds f2 (UPDATE c) D.
Proof.
  intros c blk A B D u f f1 G F GA GB HD (HA & HAB) Hblk Hdiv HT HB Hu.
  destruct (delta_link c blk A B D G F GA GB HD HA HAB Hblk Hdiv) as (PF & PB & L1 & L2 & L3).
  assert (J : PF f \/ PB f) by (left; apply L1, HT). clear HT L1.
  induction HB as [f|f f1 f2 u1 Hu1 Hc _ IH|f r f1 f2 u1 Hu1 Hr _ IH].
  - destruct J as [J|J].
    + destruct (wpc_run _ _ _ _ _ (L2 u f Hu J)) as (r & f2 & E & (-> & Fr & _) & _).
      destruct (fresh_holds c D G B f2 Fr) as (K1 & K2). exists f2. auto.
    + destruct (wpc_run _ _ _ _ _ (L3 u f Hu J)) as (r & f2 & E & (-> & K1 & K2 & _) & _). exists f2. auto.
  - apply IH. destruct J as [J|J].
    + destruct (wpc_crash _ _ _ _ _ (L2 u1 f Hu1 J) f1 Hc) as [K|(_ & K)]; auto.
    + destruct (wpc_crash _ _ _ _ _ (L3 u1 f Hu1 J) f1 Hc) as [(_ & K)|K]; auto.
  - apply IH. destruct J as [J|J].
    + destruct (wpc_run _ _ _ _ _ (L2 u1 f Hu1 J)) as (r' & f' & E & (_ & _ & K) & _).
      rewrite E in Hr. injection Hr as _ <-. auto.
    + destruct (wpc_run _ _ _ _ _ (L3 u1 f Hu1 J)) as (r' & f' & E & (_ & _ & _ & [(_ & K)|(K & _)]) & _);
        rewrite E in Hr; injection Hr as _ <-; auto.
Qed.
Print Assumptions C26_power_fail_safe.

(** C26: as long as the installation is only cut short, the update is not lost: either it is
    complete, or the next boot that is not interrupted completes it, with the result of an
    uninterrupted installation. *)
Theorem C26_resume : forall c blk A B D f f1, geometry c -> flags_fit c -> good c A -> good c B -> delta_of c A B D ->
  0 < snd A < snd B -> 6 <= blk -> (blk | SECT c) -> triggered_update c A (D, snd B) f -> delta_cuts c blk f f1 ->
  (update_done c f1 /\ holds f1 (BOOT c) (fst B) /\ holds f1 (UPDATE c) D) \/
  forall u, u 0%nat <> ST_FINAL ->
    exists f2, run (start_delta c blk u) f1 = Done (BOOT c + HDR c) f2 /\
      update_done c f2 /\ holds f2 (BOOT c) (fst B) /\ holds f2 (UPDATE c) D.
Proof.
  intros c blk A B D f f1 G F GA GB HD (HA & HAB) Hblk Hdiv HT HC.
  destruct (delta_link c blk A B D G F GA GB HD HA HAB Hblk Hdiv) as (PF & PB & L1 & L2 & _).
  assert (FB : forall f, is_fresh c D B f -> update_done c f /\ holds f (BOOT c) (fst B) /\ holds f (UPDATE c) D).
  { intros g Fr. split; [|apply (fresh_holds c D G B g Fr)].
    destruct Fr as (N & HN & ((_ & _ & _ & _ & ((D1 & _) & _)) & Hn & _)). split; [exact D1|exact Hn]. }
  assert (J : PF f1 \/ is_fresh c D B f1).
  { induction HC as [|f1 f2 u HC IH Hnd Hu Hcr]; [left; apply L1, HT|]. destruct IH as [J|J].
    - destruct (wpc_crash _ _ _ _ _ (L2 u f1 Hu J) f2 Hcr) as [K|(K & _)]; auto.
    - exfalso. apply Hnd, (FB f1 J). }
  destruct J as [J|J]; [right|left; apply FB, J]. intros u Hu.
  destruct (wpc_run _ _ _ _ _ (L2 u f1 Hu J)) as (r & f2 & E & (-> & Fr & _) & _). exists f2. split; [exact E|apply FB, Fr].
Qed.
Print Assumptions C26_resume.

(** ** C12 in builds with delta updates *)

Lemma val_pair_inj : forall {A B} (a a' : A) (b b' : B), Val (a, b) = Val (a', b') -> a = a' /\ b = b'.
Proof. intros A B a a' b b' E. injection E. auto. Qed.

Lemma patch_step_bytes : forall src pp len d x o x', bytes src -> bytes pp -> patch_step src pp len d x = Val (o, x') -> all_bytes o.
Proof.
  intros src pp len d x o x' Hs Hp E. unfold patch_step in E. cbn zeta in E.
  assert (R : forall a n, all_bytes (rdl src a n)) by (intros; apply rdl_bytes; exact Hs).
  destruct (p_matching x).
  - match type of E with (if ?b then UB else _) = _ => destruct b; [discriminate|] end. apply val_pair_inj in E.
    destruct E as (<- & _). apply R.
  - destruct (pp 0 =? ESC).
    + destruct (pp 1 =? ESC); [|destruct (_ >? _)]; apply val_pair_inj in E; destruct E as (<- & _); try apply R.
      constructor; [unfold is_byte, ESC; lia|constructor].
    + apply val_pair_inj in E. destruct E as (<- & _). constructor; [apply Hp|constructor].
Qed.

Lemma patch_loop_bytes : forall fuel src pt psz len d x o x', bytes src -> bytes pt ->
  patch_loop fuel src pt psz len d x = Val (o, x') -> all_bytes o.
Proof.
  induction fuel as [|fuel IH]; intros src pt psz len d x o x' Hs Hp E; cbn [patch_loop] in E;
    (match type of E with (if ?b then _ else _) = _ => destruct b end;
     [|apply val_pair_inj in E; destruct E as (<- & _); constructor]); [discriminate|].
  destruct (patch_step src (fun k => pt (p_off x + k)) len d x) as [[o1 x1]| |] eqn:E1; cbn [obind] in E; try discriminate.
  destruct (patch_loop fuel src pt psz len (d + zlen o1) x1) as [[o2 x2]| |] eqn:E2; cbn [obind] in E; try discriminate.
  apply val_pair_inj in E. destruct E as (<- & _). apply Forall_app. split.
  - eapply patch_step_bytes; [exact Hs| |exact E1]. intro k. apply Hp.
  - exact (IH _ _ _ _ _ _ _ _ Hs Hp E2).
Qed.

Lemma keeps_patch_sector : forall fuel c blk b u w poff psz st len x, keeps (patch_sector fuel c blk b u w poff psz st len x).
Proof.
  induction fuel as [|fuel IH]; intros; cbn [patch_sector]; destruct (_ <? _); try apply keeps_ret; try apply keeps_stuck.
  intros f Hb. rewrite run_bind. unfold pure. cbn [run].
  destruct (wb_patch (from f (i_hdr b)) (from f (i_hdr u + poff)) psz x blk) as [[[o x1]|]| |] eqn:E; cbn [run]; auto.
  destruct (zlen o =? 0); [exact Hb|]. revert f Hb E. intros f Hb E.
  apply keeps_bind; [|intros _; apply IH|exact Hb].
  destruct st; [|apply keeps_ret]. apply keeps_wr; [|apply keeps_ret].
  assert (A : all_bytes o).
  { unfold wb_patch in E. destruct (blk <? BLOCK_HDR_SIZE); [discriminate|].
    destruct (patch_loop _ _ _ _ _ _ _) as [[o' x']| |] eqn:E2; cbn [obind] in E; try discriminate.
    injection E as <- _. eapply patch_loop_bytes; [| |exact E2]; intro k; apply Hb. }
  intro i. destruct (nth_in_or_default (Z.to_nat i) o 0) as [I|I]; [|rewrite I; lia].
  apply (proj1 (Forall_forall _ _) A) in I. unfold is_byte in I. lia.
Qed.

Lemma keeps_delta_loop : forall fuel c blk b u w poff psz total s x, keeps (delta_loop fuel c blk b u w poff psz total s x).
Proof.
  induction fuel as [|fuel IH]; intros; cbn [delta_loop]; destruct (_ <? _); try apply keeps_ret; try apply keeps_stuck.
  apply keeps_bind; [apply keeps_get|]. intro fl. cbn zeta. apply keeps_bind.
  - destruct (match fl with None => true | Some y => y =? SF_NEW end); [|apply keeps_patch_sector].
    apply keeps_er. apply keeps_bind; [apply keeps_patch_sector|]. intros [x1|]; [|apply keeps_ret].
    apply keeps_bind; [apply keeps_flag; unfold SF_SWAPPING; lia|]. intro. apply keeps_ret.
  - intros [x1|]; [|apply keeps_ret]. apply keeps_bind.
    + destruct (_ || _); [|apply keeps_ret]. apply keeps_bind; [apply keeps_copy|]. intro. apply keeps_store. unfold SF_UPDATED. lia.
    + intros _. destruct (s =? 0); [|apply IH]. apply keeps_rd. intro f. cbn zeta.
      repeat match goal with |- keeps (if ?b then _ else _) => destruct b; [apply keeps_ret|] end. apply IH.
Qed.

Lemma keeps_boot_rest : forall fuel c b s, keeps (erase_boot_rest fuel c b s).
Proof.
  induction fuel as [|fuel IH]; intros; cbn [erase_boot_rest]; destruct (_ <? _); try apply keeps_ret; try apply keeps_stuck.
  apply keeps_er, IH.
Qed.

Lemma keeps_delta_update : forall c blk u b up w inv res, keeps (delta_update c blk u b up w inv res).
Proof.
  intros. unfold delta_update. cbn zeta. apply keeps_bind; [apply keeps_pure|]. intros [[[io isz] bh]|]; [|apply keeps_ret].
  do 3 (apply keeps_bind; [apply keeps_pure|intro]).
  match goal with |- keeps (if ?x then _ else _) => destruct x end; [apply keeps_ret|].
  apply keeps_bind; [apply keeps_pure|intro]. apply keeps_bind; [apply keeps_get|intro].
  match goal with |- keeps (if ?x then _ else _) => destruct x end; [apply keeps_ret|].
  destruct (wb_patch_init _ _); [|apply keeps_ret]. apply keeps_bind; [apply keeps_delta_loop|]. intros [s|]; [|apply keeps_ret].
  apply keeps_bind; [apply keeps_boot_rest|intro]. apply keeps_bind; [apply keeps_final|intro]. apply keeps_ret.
Qed.

Lemma keeps_update_delta : forall c blk u fb, keeps (update_delta c blk u fb).
Proof.
  intros. unfold update_delta. apply keeps_rd. intro f. cbn zeta. destruct (_ <=? _); [apply keeps_ret|].
  apply keeps_bind; [apply keeps_pure|]. intro ty. apply keeps_bind; [apply keeps_get|]. intro fl.
  apply keeps_bind; [destruct (fl =? SF_NEW); [apply keeps_checks|apply keeps_ret]|]. intro go.
  destruct (negb go); [apply keeps_ret|]. destruct (_ =? TYPE_DIFF).
  - do 2 (apply keeps_bind; [apply keeps_pure|intro]). apply keeps_bind; [apply keeps_get|]. intro st.
    destruct (if negb (fl =? SF_NEW) || (a =? 0) then st else None); [apply keeps_delta_update|].
    apply keeps_bind; [|intro; apply keeps_delta_update].
    destruct (_ && _); [apply keeps_state; unfold ST_UPDATING; lia|apply keeps_ret].
  - apply keeps_bind; [apply keeps_loop|]. intro s.
    apply keeps_bind; [apply keeps_rest|]. intros _. apply keeps_bind; [apply keeps_final|]. intros _. apply keeps_ret.
Qed.

(** C12 in these builds: whatever is in flash, any boot that starts an image starts the one
    in the boot partition, and that image passes every check. *)
Theorem C12_boots_verified_delta : forall c blk u f r f', geometry c -> bytes f ->
  run (start_delta c blk u) f = Done r f' -> verified c f' (BOOT c) /\ r = BOOT c + HDR c.
Proof.
  intros c blk u f r f' G Hb E. unfold start_delta in E. cbn [get bind run] in E. rewrite run_bind in E.
  pose proof (keeps_final c (u 0%nat) true f Hb) as K0.
  destruct (run (swap_and_final_erase c (u 0%nat) true) f) as [b f1|f1|]; try discriminate.
  rewrite run_bind in E.
  match type of E with match run ?p f1 with _ => _ end = _ => assert (K : keeps p) end.
  { destruct b; [apply keeps_ret|].
    repeat match goal with |- keeps (if ?b then _ else _) => destruct b end;
      try apply keeps_ret; (apply keeps_bind; [apply keeps_update_delta|intro; apply keeps_ret]). }
  specialize (K f1 K0).
  match type of E with match run ?p f1 with _ => _ end = _ => destruct (run p f1) as [[] f2|f2|] end; try discriminate.
  eapply boot_stage_verified; [exact G|exact K|apply keeps_update_delta|exact E].
Qed.
Print Assumptions C12_boots_verified_delta.

(** ** A concrete delta image

    Sectors of 128 bytes, a header of one sector, decoding buffers of 32 bytes; version 5
    keeps most of version 3, moved and with 30 bytes inserted. *)
Definition ddemo : cfg := {|
  BOOT := 1024; UPDATE := 2048; SWAP := 4096; UFLAGS := 3072; PART := 1024; SECT := 128; HDR := 128; FB := 32;
  BLK := 48; c_hash_tag := HDR_SHA256; c_digsz := 4; c_auth := 0x200;
  c_hash := demo_hash;
  c_keys := [(None, 0xFF); (Some [1; 2; 3], 0x1); (Some [4; 5; 6], 0x2)]; c_sigsz := 4;
  c_verify := (fun n d s => (n =? 2)%nat && list_eqb s (demo_sign d)); c_hybrid := false; c_sigsz2 := 0;
  c_verify2 := (fun _ _ _ => false); c_allow_downgrade := false |}.

Definition ddemo_image (ver ty : Z) (extra fw : list Z) : list Z :=
  let pre := le_bytes 4 WOLFBOOT_MAGIC ++ le_bytes 4 (zlen fw) ++ [1; 0; 4; 0] ++ le_bytes 4 ver ++
             [4; 0; 2; 0; ty; 2; 255; 255] ++ extra in
  let d := demo_hash (pre ++ fw) in
  pad_to 128 (pre ++ [3; 0; 4; 0] ++ d ++ [16; 0; 4; 0] ++ demo_hash [4; 5; 6] ++ [32; 0; 4; 0] ++ demo_sign d) ++ fw.

Definition ddemo_fwA : list Z := map (fun i => Z.of_nat (i * 7 mod 251)) (seq 1 300).
Definition ddemo_fwB : list Z :=
  firstn 100 ddemo_fwA ++ map (fun i => Z.of_nat (i * 11 mod 241)) (seq 5 30) ++ skipn 100 ddemo_fwA.
Definition dA : list Z := Eval vm_compute in ddemo_image 3 1 [] ddemo_fwA.
Definition dB : list Z := Eval vm_compute in ddemo_image 5 1 [] ddemo_fwB.

Definition din_of (S T : list Z) : din :=
  {| d_a := mem_of S; d_sa := zlen S; d_b := mem_of T; d_sb := zlen T; d_sect := 128 |}.
Definition patch_of (S T : list Z) : list Z := match make_patch (din_of S T) with Val (Some P) => P | _ => [] end.
Definition dP : list Z := Eval vm_compute in patch_of dA dB.
Definition dQ : list Z := Eval vm_compute in patch_of dB dA.
Definition ddelta_image (base : Z) (basehash : list Z) : list Z :=
  ddemo_image 5 0xD1
    ([5; 0; 4; 0] ++ le_bytes 4 base ++ [6; 0; 4; 0] ++ le_bytes 4 (zlen dP) ++ [7; 0; 4; 0] ++ basehash ++
     [0x15; 0; 4; 0] ++ le_bytes 4 (128 + zlen dP) ++ [0x16; 0; 4; 0] ++ le_bytes 4 (zlen dQ)) (dP ++ dQ).
Definition dA_hash : list Z := Eval vm_compute in
  match find_header 0 (hdr_of ddemo dA) HDR_SHA256 with Val (Some (off, n)) => sub dA off n | _ => [] end.
Definition dD : list Z := Eval vm_compute in ddelta_image 3 dA_hash.

Lemma ddemo_names : names_slot ddemo demo_hint 2.
Proof.
  split; [vm_compute; reflexivity|]. intros m Hm.
  destruct m as [|[|m]]; [| |lia]; vm_compute; discriminate.
Qed.

Ltac ddemo_genuine :=
  constructor;
  [ apply check_bytes_ok; vm_compute; reflexivity
  | vm_compute; reflexivity
  | vm_compute; discriminate
  | vm_compute; reflexivity
  | vm_compute; reflexivity
  | eexists _, _; split; [demo_field|split; [vm_compute; reflexivity|vm_compute; reflexivity]]
  | eexists; split;
    [ eexists; split; [demo_field|split; [vm_compute; reflexivity|vm_compute; reflexivity]]
    | exists 2%nat; eexists _, _; split;
      [ eexists _, _, _; split; [demo_field|split; vm_compute; reflexivity]
      | split;
        [ eexists _, _; split; [demo_field|split; [vm_compute; reflexivity|split;
            [exact ddemo_names|exists (Some [4; 5; 6]), 2; split; vm_compute; reflexivity]]]
        | split; [demo_field|split; [vm_compute; reflexivity|split; [vm_compute; reflexivity|
            let H := fresh in intro H; discriminate H]]]]]]].

Lemma dA_genuine : genuine ddemo dA 3. Proof. ddemo_genuine. Qed.
Lemma dB_genuine : genuine ddemo dB 5. Proof. ddemo_genuine. Qed.
Lemma dD_genuine : genuine ddemo dD 5. Proof. ddemo_genuine. Qed.

Lemma ddemo_geometry : geometry ddemo.
Proof.
  constructor; unfold disjoint; cbn; try lia; auto; try (left; lia); split; reflexivity || lia.
Qed.
Lemma ddemo_fits : flags_fit ddemo.
Proof. split; [reflexivity|]. split; [discriminate|]. split; [discriminate|left; reflexivity]. Qed.

Lemma carries_app : forall X P Y, carries (X ++ P ++ Y) (zlen X) P.
Proof.
  intros X P Y. unfold carries, zlen. rewrite !app_length. split; [lia|]. split; [lia|]. intros j Hj.
  rewrite app_nth2 by lia. rewrite app_nth1 by lia. f_equal. lia.
Qed.
Lemma carries_at : forall D n P, D = firstn n D ++ P ++ skipn (n + length P) D -> length (firstn n D) = n -> carries D (Z.of_nat n) P.
Proof.
  intros D n P E L. rewrite E. replace (Z.of_nat n) with (zlen (firstn n D)) by (unfold zlen; rewrite L; reflexivity). apply carries_app.
Qed.

Lemma patch_for_lists : forall S T P, check_bytes S = true -> check_bytes T = true -> (0 <? zlen S) && (zlen S <? 60000) = true ->
  (0 <? zlen T) && (zlen T <? 60000) = true ->
  make_patch (din_of S T) = Val (Some P) -> word (mem_of T) 768 = 0 -> patch_for ddemo S T P.
Proof.
  intros S T P HS HT LS LT E W. apply andb_true_iff in LS, LT. exists (din_of S T).
  split; [|split; [reflexivity|split; [reflexivity|split; [reflexivity|split; [|split; [|split; [exact E|]]]]]]].
  - constructor; cbn [din_of d_a d_b d_sa d_sb d_sect]; [lia|lia|lia|apply mem_of_bytes; exact HS|apply mem_of_bytes; exact HT|lia].
  - intros j Hj. reflexivity.
  - intros j Hj. reflexivity.
  - cbn [d_b din_of]. change (PART ddemo - 2 * SECT ddemo) with 768. rewrite W. discriminate.
Qed.

Lemma dD_delta : delta_of ddemo (dA, 3) (dB, 5) dD.
Proof.
  constructor; cbn [fst snd].
  - exact dD_genuine.
  - eexists _, _, _. split; [demo_field|reflexivity].
  - eexists _, _. split; [demo_field|split; vm_compute; reflexivity].
  - right. eexists _, _, _. split; demo_field.
  - exists dP. split; [|split].
    + apply patch_for_lists; try (vm_compute; reflexivity).
    + eexists _, _. split; [demo_field|split; vm_compute; reflexivity].
    + apply (carries_at dD 128 dP); vm_compute; reflexivity.
  - exists dQ, (128 + zlen dP). split; [|split; [|split]].
    + apply patch_for_lists; try (vm_compute; reflexivity).
    + eexists _, _. split; [demo_field|split; vm_compute; reflexivity].
    + eexists _, _. split; [demo_field|split; vm_compute; reflexivity].
    + replace (128 + zlen dP) with (Z.of_nat (128 + length dP)) by (vm_compute; reflexivity).
      apply carries_at; vm_compute; reflexivity.
Qed.

(** The patches are much smaller than the images, and the images span four sectors. *)
Example dD_sizes : (zlen dA, zlen dB, zlen dP, zlen dQ) = (428, 458, 141, 66).
Proof. vm_compute. reflexivity. Qed.

Definition ddemo_flash (D : list Z) : flash := store 1024 dA (store 2048 D (fun _ => 255)).
Lemma ddemo_triggered : forall D v, genuine ddemo D v -> word (ddemo_flash D) (2048 + 768) <> WOLFBOOT_MAGIC_TRAIL ->
  has_magic ddemo (ddemo_flash D) PBOOT = false ->
  exists f, triggered_update ddemo (dA, 3) (D, v) f.
Proof.
  intros D v GD W M.
  assert (Hb : bytes (ddemo_flash D)).
  { apply store_bytes; [apply (gn_bytes _ _ _ dA_genuine)|]. apply store_bytes; [apply (gn_bytes _ _ _ GD)|].
    intro x. unfold is_byte. lia. }
  destruct (trigger_run ddemo (SECT ddemo) (ddemo_flash D) ddemo_geometry ddemo_fits Hb (or_introl eq_refl)) as (f & E & _).
  exists f, (ddemo_flash D). split; [exact Hb|]. split; [apply store_holds|].
  split; [apply store_other; [left; vm_compute; discriminate|apply store_holds]|].
  split; [vm_compute; discriminate|]. split; [exact W|].
  split; [unfold on_trial, get_partition_state; rewrite M; discriminate|exact E].
Qed.

Example C25_hyps : geometry ddemo /\ flags_fit ddemo /\ good ddemo (dA, 3) /\ good ddemo (dB, 5) /\
  delta_of ddemo (dA, 3) (dB, 5) dD /\ 6 <= 32 /\ (32 | SECT ddemo) /\
  exists f, triggered_update ddemo (dA, 3) (dD, 5) f /\ exists f', installed_delta ddemo 32 (dA, 3) (dB, 5) dD f'.
Proof.
  assert (Hdiv : (32 | SECT ddemo)) by (exists 4; reflexivity).
  destruct (ddemo_triggered dD 5 dD_genuine) as (f & T).
  { vm_compute. discriminate. } { vm_compute. reflexivity. }
  split; [exact ddemo_geometry|]. split; [exact ddemo_fits|]. split; [exact dA_genuine|]. split; [exact dB_genuine|].
  split; [exact dD_delta|]. split; [lia|]. split; [exact Hdiv|]. exists f. split; [exact T|].
  assert (H32 : 6 <= 32) by lia. assert (HV : 0 < snd (dA, 3) < snd (dB, 5)) by (cbn [snd]; lia).
  destruct (C25_install ddemo 32 (dA, 3) (dB, 5) dD (fun _ => 0) f ddemo_geometry ddemo_fits dA_genuine dB_genuine dD_delta
    HV H32 Hdiv T) as (f' & E & _).
  exists f', f, (fun _ => 0), (BOOT ddemo + HDR ddemo). auto.
Qed.

(** A delta image for another base version, and one for another image of the same version. *)
Definition dW : list Z := Eval vm_compute in ddelta_image 4 dA_hash.
Definition dW2 : list Z := Eval vm_compute in ddelta_image 3 [9; 9; 9; 9].
Example C25_wrong_base_hyps :
  (genuine ddemo dW 5 /\ delta_type ddemo dW /\ wrong_base ddemo dW (dA, 3) /\ exists f, triggered_update ddemo (dA, 3) (dW, 5) f) /\
  (genuine ddemo dW2 5 /\ delta_type ddemo dW2 /\ wrong_base ddemo dW2 (dA, 3) /\ exists f, triggered_update ddemo (dA, 3) (dW2, 5) f).
Proof.
  assert (G1 : genuine ddemo dW 5) by ddemo_genuine. assert (G2 : genuine ddemo dW2 5) by ddemo_genuine.
  split.
  - split; [exact G1|]. split; [eexists _, _, _; split; [demo_field|reflexivity]|]. split.
    + left. exists 4. split; [|discriminate]. eexists _, _. split; [demo_field|split; vm_compute; reflexivity].
    + apply ddemo_triggered; [exact G1|vm_compute; discriminate|vm_compute; reflexivity].
  - split; [exact G2|]. split; [eexists _, _, _; split; [demo_field|reflexivity]|]. split.
    + right. right. eexists _, _, _, _. split; [demo_field|]. split; [discriminate|]. split; [demo_field|discriminate].
    + apply ddemo_triggered; [exact G2|vm_compute; discriminate|vm_compute; reflexivity].
Qed.
