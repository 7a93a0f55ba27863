(** The boot routine of DISABLE_BACKUP builds on arbitrary flash contents. *)
From Verif Require Import Base BaseLemmas HeaderModel HeaderSpec HeaderProofs Flash FlashLemmas ImageModel
  ImageSpec ImageProofs GenuineProofs TrailerModel TrailerProofs TriggerProofs TrailerCrash SwapModel
  SwapSpec Geometry CopyProofs SwapInv SwapSteps SwapLoop SwapFinal SwapStart RefuseProofs HistoryProofs
  Sample ImageProps SwapProps SwapLimits NobackupModel DecideProofs DecideProps.
Local Ltac Zify.zify_post_hook ::= idtac.

(** Everything but the boot partition from offset [lo] on. *)
Definition outside (c : cfg) (lo x : Z) : Prop := ~ (BOOT c + lo <= x < BOOT c + PART c).

Lemma same_weak : forall (P Q : Z -> Prop) f f', (forall x, Q x -> P x) -> same P f f' -> same Q f f'.
Proof. intros P Q f f' H (B & S). split; [exact B|]. intros x Hx. apply S, H, Hx. Qed.

Section Direct.
  Variable c : cfg.
  Hypothesis G : geometry c.

  Lemma direct_copy_stays : forall lo fuel u b total k f, img_of c PUPDATE u -> img_of c PBOOT b -> bytes f ->
    0 <= k -> lo <= k * SECT c -> total <= PART c -> PART c - k <= Z.of_nat fuel ->
    ends (direct_copy fuel c u b total k) (fun k' f' => same (outside c lo) f f' /\ k <= k') f.
  Proof.
    intros lo. induction fuel as [|fuel IH]; intros u b total k f Iu Ib Hb H0 Hlo Ht Hfu; cbn [direct_copy].
    - destruct (Z.ltb_spec (k * SECT c) total) as [L|L]; [exfalso; geo G; nia|]. split; [apply same_refl, Hb|lia].
    - destruct (Z.ltb_spec (k * SECT c) total) as [L|L]; [|split; [apply same_refl, Hb|lia]].
      assert (L1 : (k + 1) * SECT c <= PART c) by (apply (next_sector c G (fun _ => False)); [intros ? []|lia]).
      apply ends_bind. eapply ends_weak; [apply (copy_ends c PUPDATE PBOOT u b k f); auto; discriminate|].
      cbn beta. intros _ f1 (F1 & _). unfold sect_at in F1. cbn [part_eqb part_addr] in F1.
      assert (S1 : same (outside c lo) f f1).
      { eapply same_frame; [exact F1|]. unfold outside. intros x Hx. lia. }
      eapply ends_weak; [apply IH; [exact Iu|exact Ib|apply S1|lia|geo G; lia|exact Ht|lia]|].
      cbn beta. intros k' f2 (S2 & K2). split; [eapply same_trans; eassumption|lia].
  Qed.

  Lemma direct_erase_stays : forall lo fuel b k f, img_of c PBOOT b -> bytes f ->
    0 <= k -> lo <= k * SECT c -> PART c - k <= Z.of_nat fuel ->
    ends (direct_erase fuel c b k) (fun _ f' => same (outside c lo) f f') f.
  Proof.
    intros lo. induction fuel as [|fuel IH]; intros b k f Ib Hb H0 Hlo Hfu; cbn [direct_erase].
    - destruct (Z.ltb_spec (k * SECT c) (PART c)) as [L|L]; [exfalso; geo G; nia|]. apply same_refl, Hb.
    - destruct (Z.ltb_spec (k * SECT c) (PART c)) as [L|L]; [|apply same_refl, Hb].
      assert (L1 : (k + 1) * SECT c <= PART c) by (apply (next_sector c G (fun _ => False)); [intros ? []|lia]).
      pose proof Ib as (_ & B2 & _). rewrite B2. cbn [part_addr].
      match goal with |- ends (Er ?a ?n ?p) ?Q f => change (ends p Q (erase f a n)) end.
      eapply ends_weak; [apply IH; [exact Ib|apply bytes_erase, Hb|lia|geo G; lia|lia]|].
      cbn beta. intros _ f' S. eapply same_trans; [|exact S]. eapply same_frame; [apply frame_erase, Hb|].
      unfold outside. intros x Hx. lia.
  Qed.

  Lemma direct_state_stays : forall lo v, lo <= SECT c -> 0 <= v -> stays (outside c lo) (set_partition_state c PBOOT v).
  Proof.
    intros lo v Hlo Hv. unfold set_partition_state. geo G. apply stays_bind.
    - intros f Hb. unfold get. change (ends (if has_magic c f PBOOT then Ret tt else set_partition_magic c PBOOT) (fun _ f' => same (outside c lo) f f') f).
      destruct (has_magic c f PBOOT); [apply stays_ret, Hb|]. unfold set_partition_magic.
      apply ends_wr; [|intros; apply magic_byte_nonneg|apply stays_ret|exact Hb].
      unfold outside, magic_addr, trailer_addr, endflags. cbn [part_addr]. intros x Hx. lia.
    - intros _ f Hb. unfold get. change (ends (if f (state_addr c PBOOT) =? v then Ret tt else set_trailer_at c PBOOT 1 v) (fun _ f' => same (outside c lo) f f') f).
      destruct (_ =? _); [apply stays_ret, Hb|]. unfold set_trailer_at.
      apply ends_wr; [|intros; exact Hv|apply stays_ret|exact Hb].
      unfold outside, trailer_addr, endflags. cbn [part_addr]. intros x Hx. lia.
  Qed.

  Lemma update_direct_safe : forall fb f, bytes f -> ends (update_direct c fb) (fun _ f' => bytes f') f.
  Proof.
    intros fb f Hb. assert (Hh : hdr_small c) by (apply hs; exact G).
    unfold update_direct. match goal with |- ends (Rd ?r) ?Q f => change (ends (r f) Q f) end. cbn beta zeta.
    destruct (_ <=? _); [exact Hb|].
    destruct (get_type_val c f PUPDATE Hb Hh) as (ty & Ety). unfold pure at 1. cbn [bind].
    match goal with |- ends (Rd ?r) ?Q f => change (ends (r f) Q f) end. cbn beta. rewrite Ety. cbn [bind]. unfold get. cbn [bind].
    match goal with |- ends (Rd ?r) ?Q f => change (ends (r f) Q f) end. cbn beta.
    apply ends_bind. apply (ends_weak _ (fun _ f' => f' = f)).
    { destruct (_ =? _); [apply checks_safe; auto|reflexivity]. }
    intros go f' -> . destruct (negb go); [exact Hb|].
    apply ends_bind. eapply ends_weak.
    { apply (direct_copy_stays 0); [apply open_img_of; auto|apply open_img_of; auto|exact Hb|lia|lia| |apply fuel_enough, G].
      apply total_le; apply open_size_le; auto; discriminate. }
    cbn beta. intros k f1 ((B1 & _) & K). apply ends_bind. eapply ends_weak.
    { apply (direct_erase_stays 0); [apply open_img_of; auto|exact B1|lia|geo G; nia|].
      pose proof (fuel_enough c G). lia. }
    cbn beta. intros _ f2 (B2 & _). apply ends_bind.
    eapply ends_weak; [apply (direct_state_stays 0); [geo G; lia|unfold ST_SUCCESS; lia|exact B2]|].
    cbn beta. intros _ f3 (B3 & _). exact B3.
  Qed.

  Lemma start_direct_safe : forall f, bytes f -> ends (start_direct c) (fun _ _ => True) f.
  Proof.
    intros f Hb. unfold start_direct, get. cbn [bind].
    match goal with |- ends (Rd ?r) ?Q f => change (ends (r f) Q f) end. cbn beta.
    apply ends_bind. apply (ends_weak _ (fun _ f' => bytes f')).
    - assert (U : forall fb, ends (update_direct c fb ;; Ret tt) (fun _ f' => bytes f') f).
      { intro fb. apply ends_bind. eapply ends_weak; [apply update_direct_safe; auto|]. cbn beta. intros _ f' H. exact H. }
      repeat match goal with |- ends (if ?b then _ else _) _ _ => destruct b end; try apply U; exact Hb.
    - intros _ f2 B2. apply boot_stage_safe; auto. intros f' B'. apply update_direct_safe; auto.
  Qed.

  (** ** Which header ends up in the boot partition *)

  Hypothesis HS : HDR c + 3 <= SECT c.

  Lemma update_direct_decides : forall fb f, bytes f -> flag_of c f 0 = SF_NEW ->
    ends (update_direct c fb) (fun b f' => (b = false /\ f' = f) \/
      (b = true /\ acceptable c f fb /\ same (outside c 0) f f' /\
       forall i, 0 <= i < HDR c + 3 -> f' (BOOT c + i) = f (UPDATE c + i))) f.
  Proof.
    intros fb f Hb Hfl. assert (Hh : hdr_small c) by (apply hs; exact G).
    unfold update_direct. match goal with |- ends (Rd ?r) ?Q f => change (ends (r f) Q f) end. cbn beta zeta.
    set (b := snd (open_image c f PBOOT)). set (up := snd (open_image c f PUPDATE)).
    assert (Ib : img_of c PBOOT b) by (apply open_img_of; auto).
    assert (Iu : img_of c PUPDATE up) by (apply open_img_of; auto).
    assert (Ht : get_total_size c b up <= PART c) by (apply total_le; apply open_size_le; auto; discriminate).
    destruct (Z.leb_spec (get_total_size c b up) (HDR c)) as [L|L]; [left; auto|].
    destruct (get_type_val c f PUPDATE Hb Hh) as (ty & Ety). unfold pure at 1. cbn [bind].
    match goal with |- ends (Rd ?r) ?Q f => change (ends (r f) Q f) end. cbn beta. rewrite Ety. cbn [bind]. unfold get. cbn [bind].
    match goal with |- ends (Rd ?r) ?Q f => change (ends (r f) Q f) end. cbn beta.
    change (match get_update_sector_flag c f 0 with Some fl => fl | None => SF_NEW end) with (flag_of c f 0).
    rewrite Hfl, Z.eqb_refl. apply ends_bind.
    eapply ends_weak; [apply checks_ends; auto; left; lia|]. cbn beta. intros go f' ( -> & Acc).
    destruct go; cbn [negb]; [|left; auto]. specialize (Acc eq_refl).
    assert (Hfu : sector_fuel c = S (Z.to_nat (PART c - 1))) by (unfold sector_fuel; geo G; lia).
    assert (HD : forall f1 f2, same (outside c (SECT c)) f1 f2 ->
      (forall i, 0 <= i < HDR c + 3 -> f1 (BOOT c + i) = f (UPDATE c + i)) ->
      forall i, 0 <= i < HDR c + 3 -> f2 (BOOT c + i) = f (UPDATE c + i)).
    { intros f1 f2 (_ & S) E i Hi. rewrite S; [apply E, Hi|]. unfold outside. lia. }
    assert (HO : forall f1 f2, same (outside c (SECT c)) f1 f2 -> same (outside c 0) f1 f2).
    { intros f1 f2. apply same_weak. unfold outside. intros x Hx. geo G. lia. }
    apply ends_bind.
    apply (ends_weak _ (fun k f' => same (outside c 0) f f' /\
      (forall i, 0 <= i < HDR c + 3 -> f' (BOOT c + i) = f (UPDATE c + i)) /\ 1 <= k)).
    { rewrite Hfu. cbn [direct_copy]. destruct (Z.ltb_spec (0 * SECT c) (get_total_size c b up)) as [L0|L0]; [|geo G; lia].
      apply ends_bind. eapply ends_weak.
      { apply (copy_ends c PUPDATE PBOOT up b 0 f); auto; [discriminate|lia|geo G; lia]. }
      cbn beta. unfold sect_at. cbn [part_eqb part_addr]. rewrite Z.mul_0_l, !Z.add_0_r. intros _ f1 (F1 & C1).
      assert (S1 : same (outside c 0) f f1).
      { eapply same_frame; [exact F1|]. unfold outside. intros x Hx. geo G. lia. }
      assert (D1 : forall i, 0 <= i < HDR c + 3 -> f1 (BOOT c + i) = f (UPDATE c + i)) by (intros i Hi; apply C1; lia).
      eapply ends_weak.
      { apply (direct_copy_stays (SECT c)); [exact Iu|exact Ib|exact (proj1 S1)|lia|lia|exact Ht|geo G; lia]. }
      cbn beta. intros k f2 (S2 & K2). split; [eapply same_trans; [exact S1|apply HO, S2]|]. split; [|lia].
      exact (HD f1 f2 S2 D1). }
    intros k f1 (S1 & D1 & K1). apply ends_bind. eapply ends_weak.
    { apply (direct_erase_stays (SECT c) _ b k f1); [exact Ib|exact (proj1 S1)|lia|geo G; nia|].
      pose proof (fuel_enough c G). lia. }
    cbn beta. intros _ f2 S2. apply ends_bind.
    eapply ends_weak; [apply (direct_state_stays (SECT c)); [lia|unfold ST_SUCCESS; lia|exact (proj1 S2)]|].
    cbn beta. intros _ f3 S3. unfold ends. cbn [run]. right. split; [reflexivity|]. split; [exact Acc|]. split.
    - eapply same_trans; [exact S1|]. eapply same_trans; [apply HO, S2|apply HO, S3].
    - apply (HD f2 f3 S3). exact (HD f1 f2 S2 D1).
  Qed.

  Lemma start_direct_decides : forall f, own_flags c -> bytes f -> verified c f (BOOT c) -> flag_of c f 0 = SF_NEW -> fallback_due c f = false ->
    ends (start_direct c) (fun _ f' => bytes f' /\
      (f' = f \/ (acceptable c f false /\ forall i, 0 <= i < HDR c + 3 -> f' (BOOT c + i) = f (UPDATE c + i)))) f.
  Proof.
    intros f Ow Hb V Hfl Ht. unfold start_direct, get. cbn [bind].
    match goal with |- ends (Rd ?r) ?Q f => change (ends (r f) Q f) end. cbn beta.
    fold (fallback_due c f). rewrite Ht.
    assert (BS : forall upd, ends (boot_stage c upd) (fun _ f' => bytes f' /\
      (f' = f \/ (acceptable c f false /\ forall i, 0 <= i < HDR c + 3 -> f' (BOOT c + i) = f (UPDATE c + i)))) f).
    { intro upd. apply (ends_weak _ (fun _ f' => f' = f)).
      - eapply ends_weak; [eapply ends_wpc, (boot_stage_ok no_tear c f upd G Hb V)|]. cbn beta. intros a f' (_ & E). exact E.
      - intros _ f' -> . auto. }
    apply ends_bind. destruct (match get_partition_state c f PUPDATE with Some s => s =? ST_UPDATING | None => false end).
    2:{ apply (ends_weak _ (fun _ f' => f' = f)); [reflexivity|]. intros _ f' -> . apply BS. }
    apply ends_bind. eapply ends_weak; [apply update_direct_decides; assumption|]. cbn beta.
    intros b f1 D. match goal with |- ends (Ret tt) ?Q f1 => change (Q tt f1) end. cbn beta.
    destruct D as [( _ & -> )|(_ & Acc & (B1 & S1) & E1)]; [apply BS|].
    assert (SU : forall x, UPDATE c <= x < UPDATE c + PART c -> f1 x = f x).
    { intros x Hx. apply S1. unfold outside. geo G. lia. }
    unfold boot_stage. apply ends_bind. eapply ends_weak; [apply verify_open_safe; auto; discriminate|]. cbn beta.
    intros [ok im] f' -> . apply ends_bind.
    apply (ends_weak _ (fun _ f' => bytes f' /\
      (f' = f \/ (acceptable c f false /\ forall i, 0 <= i < HDR c + 3 -> f' (BOOT c + i) = f (UPDATE c + i))))).
    2:{ intros im' f' D. destruct (sanity im'); [exact D|exact I]. }
    destruct ok.
    - split; [exact B1|]. right. split; [exact Acc|exact E1].
    - apply ends_bind. eapply ends_weak.
      { apply update_direct_decides; [exact B1|]. rewrite <- Hfl. unfold flag_of, get_update_sector_flag, has_magic.
        rewrite (word_ext f1 f (magic_addr c PUPDATE) (magic_addr c PUPDATE)).
        2:{ intros i Hi. apply SU. unfold magic_addr, trailer_addr, endflags, own_flags in *. geo G. lia. }
        rewrite (SU (flags_addr c (flag_pos 0))); [reflexivity|].
        change (flag_pos 0) with 0. unfold flags_addr, trailer_addr, endflags, own_flags in *. geo G. lia. }
      cbn beta. intros r f2 [( -> & _ )|( -> & _ & (B2 & _) & E2)]; cbn [negb]; [exact I|].
      apply ends_bind. eapply ends_weak; [apply verify_open_safe; auto; discriminate|]. cbn beta.
      intros [ok2 im2] f' -> . destruct ok2; [|exact I]. split; [exact B2|]. right. split; [exact Acc|]. intros i Hi.
      rewrite (E2 i Hi). apply SU. geo G. lia.
  Qed.
End Direct.
