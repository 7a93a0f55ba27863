(** Boot selection by version: C27, C28, C32.  Specification: DualSpec.v. *)
From Verif Require Import Base BaseLemmas HeaderModel HeaderSpec Flash FlashLemmas ImageModel ImageSpec ImageProofs GenuineProofs
  TrailerModel TrailerProofs SwapModel SwapSpec Geometry Sample ImageProps CopyProofs SwapInv SwapSteps SwapLoop SwapStart RefuseProofs DualModel DualSpec DualProofs.
Local Ltac Zify.zify_post_hook ::= idtac.

(** ** C32 *)

Theorem C32_candidate : forall c f, geometry c -> bytes f ->
  exists r f', run (dualboot_candidate c) f = Done r f' /\ candidate c f r f'.
Proof. intros c f G Hb. destruct (candidate_run c f G Hb) as (r & f' & E & C & _). eauto. Qed.
Print Assumptions C32_candidate.

(** The specification leaves no choice. *)
Theorem C32_candidate_unique : forall c f r1 f1 r2 f2, geometry c -> bytes f ->
  candidate c f r1 f1 -> candidate c f r2 f2 -> r1 = r2 /\ f1 = f2.
Proof.
  intros c f r1 f1 r2 f2 G Hb.
  assert (N : forall p, version c f PBOOT 0 -> version c f PUPDATE 0 -> ~ preferred c f p).
  { intros p V W (Np & v & w & V' & _ & L & _). destruct p; [| |congruence];
      [pose proof (version_eq _ _ _ _ _ G Hb V V')|pose proof (version_eq _ _ _ _ _ G Hb W V')]; lia. }
  assert (U : forall p q, preferred c f p -> preferred c f q -> p = q).
  { assert (K : ~ (preferred c f PBOOT /\ preferred c f PUPDATE)).
    { intros ((_ & v & w & V & W & L & M) & (_ & v' & w' & V' & W' & L' & M')). cbn [other] in *.
      pose proof (version_eq _ _ _ _ _ G Hb V W'). pose proof (version_eq _ _ _ _ _ G Hb W V'). subst.
      destruct M' as [|(_ & X)]; [lia|discriminate X]. }
    intros [] [] P Q; try reflexivity; try (exfalso; apply K; split; assumption);
      try (exfalso; apply (proj1 P); reflexivity); exfalso; apply (proj1 Q); reflexivity. }
  intros [V W|p P D|p P D] [V' W'|q Q D'|q Q D']; auto; try (exfalso; eapply N; eauto; fail);
    pose proof (U _ _ P Q); subst q; auto; contradiction.
Qed.
Print Assumptions C32_candidate_unique.

(** ** C28 *)

(** Everything the hardware-swap loader can do: panic, or boot the chosen bank at the boot
    address, after exchanging the banks if the update one was chosen.  It never loops. *)
Theorem C28_start : forall c f, geometry c -> bytes f ->
  (candidate c f None f /\ hw_start c f = Panicked f) \/
  exists p f1 r f2, candidate c f (Some p) f1 /\ hw_choice c f1 p r f2 /\
    match r with
    | None => hw_start c f = Panicked f2
    | Some PUPDATE => exists f', started c PBOOT (swap_banks c f2) f' /\ hw_start c f = Done (BOOT c + HDR c) f'
    | Some _ => exists f', started c PBOOT f2 f' /\ hw_start c f = Done (BOOT c + HDR c) f'
    end.
Proof.
  intros c f G Hb. destruct (candidate_run c f G Hb) as (r & f1 & E & C & Hb1).
  unfold hw_start, hw_select. rewrite run_bind, E. destruct r as [p|].
  2:{ left. inversion C; subst. cbn [run]. auto. }
  right. assert (Np : p <> PSWAP).
  { inversion C as [ |q P|q P]; subst; [apply P|]. apply other_swap. }
  destruct (hw_loop_run c f1 p G Hb1 Np) as (r & f2 & Hc & Hb2 & Hv & Er). exists p, f1, r, f2.
  split; [exact C|]. split; [exact Hc|]. rewrite run_bind, Er. destruct r as [q|]; [|reflexivity].
  rewrite run_bind. destruct q; cbn [part_eqb].
  - destruct (start_trial_run c f2 PBOOT G Hb2) as (f' & E' & S' & _). rewrite E'. cbn [run]. eauto.
  - cbn [run]. rewrite run_bind. destruct (start_trial_run c (swap_banks c f2) PBOOT G) as (f' & E' & S' & _).
    { intro x. unfold swap_banks. destruct (inr _ _ _); [apply Hb2|]. destruct (inr _ _ _); apply Hb2. }
    rewrite E'. cbn [run]. eauto.
  - exfalso. destruct (Hv _ eq_refl) as (X & _). congruence.
Qed.
Print Assumptions C28_start.

Theorem C28_terminates : forall c f, geometry c -> bytes f -> hw_start c f <> Wrong.
Proof.
  intros c f G Hb. destruct (C28_start c f G Hb) as [(_ & E)|(p & f1 & [[]|] & f2 & _ & _ & K)];
    [rewrite E; discriminate| | | |rewrite K; discriminate]; destruct K as (f' & _ & E); rewrite E; discriminate.
Qed.
Print Assumptions C28_terminates.

Lemma swap_to_boot : forall c f i, 0 <= i < PART c -> swap_banks c f (BOOT c + i) = f (UPDATE c + i).
Proof.
  intros c f i Hi. unfold swap_banks. replace (inr (BOOT c) (PART c) (BOOT c + i)) with true by (symmetry; apply inr_true; lia).
  f_equal. lia.
Qed.
Lemma swap_to_update : forall c f i, geometry c -> 0 <= i < PART c -> swap_banks c f (UPDATE c + i) = f (BOOT c + i).
Proof.
  intros c f i G Hi. unfold swap_banks. pose proof (g_disj1 c G) as D. unfold disjoint in D.
  replace (inr (BOOT c) (PART c) (UPDATE c + i)) with false by (symmetry; apply inr_false; lia).
  replace (inr (UPDATE c) (PART c) (UPDATE c + i)) with true by (symmetry; apply inr_true; lia). f_equal. lia.
Qed.

Lemma started_same : forall c p f f' x, started c p f f' -> x <> state_addr c p -> f' x = f x.
Proof. intros c p f f' x [(_ & _ & H)|(_ & ->)] Hx; auto. Qed.

Lemma hw_choice_verified : forall c f p q f2, hw_choice c f p (Some q) f2 -> verified c f2 (part_addr c q).
Proof. intros c f p q f2 H. inversion H; subst; assumption. Qed.

(** Whatever the contents of the banks: if an image is started, it is the contents of a
    partition that passed verification, now at the boot address (only the state byte may
    differ, from UPDATING to TESTING). *)
Theorem C28_boots_verified : forall c f e f', geometry c -> bytes f -> hw_start c f = Done e f' ->
  e = BOOT c + HDR c /\
  exists q f2, q <> PSWAP /\ verified c f2 (part_addr c q) /\
    forall i, 0 <= i < PART c -> BOOT c + i <> state_addr c PBOOT -> f' (BOOT c + i) = f2 (part_addr c q + i).
Proof.
  intros c f e f' G Hb E. destruct (C28_start c f G Hb) as [(_ & K)|(p & f1 & r & f2 & C & Hc & K)]; [congruence|].
  destruct r as [q|]; [|congruence]. pose proof (hw_choice_verified _ _ _ _ _ Hc) as V.
  assert (Nq : q <> PSWAP).
  { inversion Hc; subst; [|apply other_swap]. inversion C as [ |x P|x P]; subst; [apply P|apply other_swap]. }
  assert (K' : exists g, started c PBOOT (match q with PUPDATE => swap_banks c f2 | _ => f2 end) g /\ hw_start c f = Done (BOOT c + HDR c) g)
    by (destruct q; exact K).
  destruct K' as (g & S & E'). rewrite E in E'. injection E' as -> ->. split; [reflexivity|].
  exists q, f2. split; [exact Nq|]. split; [exact V|]. intros i Hi Hs. rewrite (started_same _ _ _ _ _ S Hs).
  destruct q; [reflexivity|apply swap_to_boot, Hi|congruence].
Qed.
Print Assumptions C28_boots_verified.

Lemma state_off : forall c X v i p, geometry c -> genuine c X v -> 0 <= i < zlen X -> part_addr c p + i <> state_addr c p.
Proof.
  intros c X v i p G GX Hi. unfold state_addr, trailer_addr, endflags. pose proof (gn_fit _ _ _ GX).
  geo G. destruct p; cbn [part_addr]; lia.
Qed.

Lemma holds_verified : forall c f p X v, geometry c -> bytes f -> p <> PSWAP -> genuine c X v -> holds f (part_addr c p) X ->
  verified c f (part_addr c p).
Proof.
  intros c f p X v G Hb Hp GX H. eapply genuine_verified; eauto; [apply hs, G|destruct (g_sect c G); lia|apply even_part; assumption].
Qed.

Lemma holds_version : forall c f p X v, geometry c -> bytes f -> p <> PSWAP -> genuine c X v -> holds f (part_addr c p) X ->
  version c f p v.
Proof.
  intros c f p X v G Hb Hp GX H. destruct (version_read c f p G Hb) as (w & _ & V & _).
  assert (w = v); [|subst; exact V].
  eapply (genuine_version c f (part_addr c p)); eauto; [apply hs, G|apply even_part; assumption|].
  intros i Hi. apply H. pose proof (gn_len _ _ _ GX). lia.
Qed.

Lemma bytes_candidate : forall c f r f1, bytes f -> candidate c f r f1 -> bytes f1.
Proof. intros c f r f1 Hb C. inversion C; subst; auto. apply bytes_erase, Hb. Qed.

(** The contents booted when bank [q] is chosen in [f2]. *)
Lemma chosen_boots : forall c f2 q X v f', geometry c -> q <> PSWAP -> genuine c X v -> holds f2 (part_addr c q) X ->
  started c PBOOT (match q with PUPDATE => swap_banks c f2 | _ => f2 end) f' -> holds f' (BOOT c) X.
Proof.
  intros c f2 q X v f' G Hq GX H S i Hi. pose proof (gn_fit _ _ _ GX). destruct (g_sect c G).
  rewrite (started_same _ _ _ _ _ S) by (apply (state_off c X v i PBOOT); assumption).
  destruct q; [apply H, Hi|rewrite swap_to_boot by lia; apply H, Hi|congruence].
Qed.

(** A properly signed candidate is booted. *)
Theorem C28_boots_candidate : forall c f p f1 X v, geometry c -> bytes f -> candidate c f (Some p) f1 ->
  genuine c X v -> holds f1 (part_addr c p) X ->
  exists f', hw_start c f = Done (BOOT c + HDR c) f' /\ holds f' (BOOT c) X.
Proof.
  intros c f p f1 X v G Hb C GX H. assert (Hb1 : bytes f1) by (eapply bytes_candidate; eauto).
  assert (Np : p <> PSWAP) by (inversion C as [ |q P|q P]; subst; [apply P|apply other_swap]).
  pose proof (holds_verified c f1 p X v G Hb1 Np GX H) as V.
  destruct (C28_start c f G Hb) as [(C' & _)|(p' & f1' & r & f2 & C' & Hc & K)];
    destruct (C32_candidate_unique _ _ _ _ _ _ G Hb C C') as (E1 & E2); [discriminate|].
  injection E1 as <-. subst f1'. inversion Hc; subst; try contradiction.
  assert (K' : exists f', started c PBOOT (match p with PUPDATE => swap_banks c f2 | _ => f2 end) f' /\ hw_start c f = Done (BOOT c + HDR c) f')
    by (destruct p; exact K).
  destruct K' as (f' & S & E). exists f'. split; [exact E|]. eapply chosen_boots; eauto.
Qed.
Print Assumptions C28_boots_candidate.

(** The newer image wins, unless it is on trial. *)
Theorem C28_newest : forall c f p X v w, geometry c -> bytes f -> p <> PSWAP ->
  genuine c X v -> holds f (part_addr c p) X -> version c f (other p) w ->
  0 < v -> w < v \/ (w = v /\ p = PBOOT) -> get_partition_state c f p <> Some ST_TESTING ->
  exists f', hw_start c f = Done (BOOT c + HDR c) f' /\ holds f' (BOOT c) X.
Proof.
  intros c f p X v w G Hb Hp GX H W Lv Lw Hs. apply (C28_boots_candidate c f p f X v G Hb); auto.
  apply ca_keep; [|intros (D & _); contradiction]. split; [exact Hp|]. exists v, w. split; [|auto]. eapply holds_version; eauto.
Qed.
Print Assumptions C28_newest.

Lemma erase_other : forall c f p i, geometry c -> p <> PSWAP -> 0 <= i < PART c ->
  erase f (part_addr c p) (PART c) (part_addr c (other p) + i) = f (part_addr c (other p) + i).
Proof.
  intros c f p i G Hp Hi. unfold erase. replace (inr (part_addr c p) (PART c) (part_addr c (other p) + i)) with false; [reflexivity|].
  symmetry. apply inr_false. pose proof (g_disj1 c G) as D. unfold disjoint in D. destruct p; [| |congruence]; cbn [other part_addr]; lia.
Qed.

Lemma erase_holds : forall c f p X v, geometry c -> p <> PSWAP -> genuine c X v -> holds f (part_addr c (other p)) X ->
  holds (erase f (part_addr c p) (PART c)) (part_addr c (other p)) X.
Proof.
  intros c f p X v G Hp GX H i Hi. pose proof (gn_fit _ _ _ GX). destruct (g_sect c G). rewrite erase_other by (auto; lia). apply H, Hi.
Qed.

(** A candidate that fails verification is erased and the other image is booted. *)
Theorem C28_falls_back : forall c f p f1 X v, geometry c -> bytes f -> candidate c f (Some p) f1 ->
  ~ verified c f1 (part_addr c p) -> two_images c f1 -> genuine c X v -> holds f1 (part_addr c (other p)) X ->
  exists f', hw_start c f = Done (BOOT c + HDR c) f' /\ holds f' (BOOT c) X.
Proof.
  intros c f p f1 X v G Hb C NV T GX H. assert (Hb1 : bytes f1) by (eapply bytes_candidate; eauto).
  assert (Np : p <> PSWAP) by (inversion C as [ |q P|q P]; subst; [apply P|apply other_swap]).
  pose proof (erase_holds c f1 p X v G Np GX H) as H2.
  pose proof (holds_verified c _ (other p) X v G (bytes_erase _ _ _ Hb1) (other_swap p) GX H2) as V.
  destruct (C28_start c f G Hb) as [(C' & _)|(p' & f1' & r & f2 & C' & Hc & K)];
    destruct (C32_candidate_unique _ _ _ _ _ _ G Hb C C') as (E1 & E2); [discriminate|].
  injection E1 as <-. subst f1'. inversion Hc; subst; try contradiction.
  assert (K' : exists f', started c PBOOT (match other p with PUPDATE => swap_banks c (erase f1 (part_addr c p) (PART c))
      | _ => erase f1 (part_addr c p) (PART c) end) f' /\ hw_start c f = Done (BOOT c + HDR c) f')
    by (destruct (other p); exact K).
  destruct K' as (f' & S & E). exists f'. split; [exact E|]. apply (chosen_boots c _ (other p) X v f' G (other_swap p) GX H2 S).
Qed.
Print Assumptions C28_falls_back.

(** An update tried and not confirmed is undone at the next boot: with image [A] in the
    boot bank and a newer image [X] installed and marked for update, the first start runs [X]
    on trial and keeps [A]; a second start without confirmation runs [A]. *)
Theorem C28_trial : forall c f A a X v, geometry c -> own_flags c -> bytes f ->
  genuine c A a -> holds f (BOOT c) A -> genuine c X v -> holds f (UPDATE c) X -> 0 < a < v ->
  get_partition_state c f PUPDATE = Some ST_UPDATING ->
  exists f', hw_start c f = Done (BOOT c + HDR c) f' /\ holds f' (BOOT c) X /\ holds f' (UPDATE c) A /\
    get_partition_state c f' PBOOT = Some ST_TESTING /\
    exists f'', hw_start c f' = Done (BOOT c + HDR c) f'' /\ holds f'' (BOOT c) A.
Proof.
  intros c f A a X v G Ow Hb GA HA GX HX Lv St.
  assert (NB : PBOOT <> PSWAP) by discriminate. assert (NU : PUPDATE <> PSWAP) by discriminate.
  assert (FA : zlen A <= PART c) by (pose proof (gn_fit _ _ _ GA); destruct (g_sect c G); lia).
  assert (FX : zlen X <= PART c) by (pose proof (gn_fit _ _ _ GX); destruct (g_sect c G); lia).
  pose proof (holds_version c f PBOOT A a G Hb NB GA HA) as VA. pose proof (holds_version c f PUPDATE X v G Hb NU GX HX) as VX.
  assert (C : candidate c f (Some PUPDATE) f).
  { apply ca_keep; [|intros (D & _); rewrite St in D; discriminate D]. split; [exact NU|]. exists v, a. cbn [other]. split; [exact VX|].
    split; [exact VA|]. lia. }
  pose proof (holds_verified c f PUPDATE X v G Hb NU GX HX) as V.
  destruct (C28_start c f G Hb) as [(C' & _)|(p' & f1' & r & f2 & C' & Hc & K)];
    destruct (C32_candidate_unique _ _ _ _ _ _ G Hb C C') as (E1 & E2); [discriminate|].
  injection E1 as <-. subst f1'. inversion Hc; subst; try contradiction.
  destruct K as (f' & S & E). exists f'. split; [exact E|].
  assert (HX' : holds f' (BOOT c) X) by (apply (chosen_boots c f2 PUPDATE X v f' G NU GX HX S)).
  assert (SA : forall i, 0 <= i < PART c -> UPDATE c + i <> state_addr c PBOOT).
  { intros i Hi. unfold state_addr, trailer_addr, endflags. cbn [part_addr]. pose proof (g_disj1 c G) as D. unfold disjoint in D.
    destruct (g_sect c G), (g_part c G). lia. }
  assert (HA' : holds f' (UPDATE c) A).
  { intros i Hi. rewrite (started_same _ _ _ _ _ S) by (apply SA; lia). rewrite swap_to_update by (auto; lia). apply HA, Hi. }
  split; [exact HX'|]. split; [exact HA'|].
  assert (St' : get_partition_state c (swap_banks c f2) PBOOT = Some ST_UPDATING).
  { rewrite <- St. destruct (g_sect c G), (g_part c G). unfold get_partition_state, has_magic, magic_addr, state_addr, trailer_addr, endflags. rewrite Ow. cbn [part_addr].
    replace (BOOT c + PART c - (4 + 1)) with (BOOT c + (PART c - 5)) by lia.
    replace (UPDATE c + PART c - (4 + 1)) with (UPDATE c + (PART c - 5)) by lia. rewrite swap_to_boot by lia.
    rewrite (word_ext (swap_banks c f2) f2 _ (UPDATE c + PART c - (4 + 0))); [reflexivity|].
    intros j Hj. replace (BOOT c + PART c - (4 + 0) + j) with (BOOT c + (PART c - 4 + j)) by lia. rewrite swap_to_boot by lia. f_equal. lia. }
  assert (T : get_partition_state c f' PBOOT = Some ST_TESTING) by (destruct S as [(_ & T & _)|(N & _)]; [exact T|congruence]).
  split; [exact T|].
  assert (Hb' : bytes f').
  { intro x. destruct (Z.eq_dec x (state_addr c PBOOT)) as [->|Nx].
    - unfold get_partition_state in T. destruct (has_magic c f' PBOOT); [|discriminate]. injection T as T. rewrite T. unfold is_byte, ST_TESTING. lia.
    - rewrite (started_same _ _ _ _ _ S Nx). unfold swap_banks. destruct (inr _ _ _); [apply Hb|]. destruct (inr _ _ _); apply Hb. }
  pose proof (holds_version c f' PBOOT X v G Hb' NB GX HX') as VX'. pose proof (holds_version c f' PUPDATE A a G Hb' NU GA HA') as VA'.
  apply (C28_boots_candidate c f' PUPDATE (erase f' (part_addr c PBOOT) (PART c)) A a G Hb').
  - change PUPDATE with (other PBOOT). apply ca_drop.
    + split; [exact NB|]. exists v, a. cbn [other]. split; [exact VX'|]. split; [exact VA'|]. lia.
    + split; [exact T|]. exists a. cbn [other]. split; [exact VA'|lia].
  - exact GA.
  - exact (erase_holds c f' PBOOT A a G NB GA HA').
Qed.
Print Assumptions C28_trial.

(** ** C27 *)

(** Whatever the flash contents and whatever the flash driver returns, an image is started
    from RAM only if it is verified as it stands in RAM. *)
Theorem C27_boots_verified : forall fuel c rd la m f p m' f', geometry c -> bytes m -> bytes f -> delivers_bytes rd ->
  run (ram_start fuel c rd la m) f = Done (p, m') f' -> verified c m' (la - HDR c).
Proof.
  intros fuel c rd la m f p m' f' G Hm Hb Hrd. unfold ram_start. rewrite run_bind.
  destruct (candidate_run c f G Hb) as (r & f1 & E & _ & Hb1). rewrite E. destruct r as [q|]; [|discriminate].
  rewrite run_bind.
  assert (K : forall fuel img m q, bytes m -> img_ok (la - HDR c) img -> forall p m' f', run (ram_loop fuel c rd la img m q) f1 = Done (p, m') f' ->
    verified c m' (la - HDR c)).
  { clear -G Hb1 Hrd. induction fuel as [|n IH]; intros img m q Hm Hi p m' f'; [discriminate|].
    destruct (ram_step c rd la img m q f1 n G Hm Hb1 Hrd Hi) as (b & m1 & img2 & B1 & Bv & Bi & _ & [(-> & ->)|[(-> & _ & ->)|(-> & _ & ->)]]).
    - intro E. injection E as <- <- <-. auto.
    - intro E. exact (IH _ _ _ B1 (Bi eq_refl) _ _ _ E).
    - discriminate. }
  destruct (run (ram_loop fuel c rd la _ m q) f1) as [[a m2] f2|f2|] eqn:Er; try discriminate.
  apply K in Er; [|exact Hm|split; [discriminate|reflexivity]].
  rewrite run_bind. destruct (run (start_trial c a) f2) as [[] f3|f3|]; try discriminate. cbn [run].
  intro E'. injection E' as <- <- <-. exact Er.
Qed.
Print Assumptions C27_boots_verified.

Lemma ram_bad_genuine : forall c f p a m X v, geometry c -> p <> PSWAP -> genuine c X v -> 0 < v < 2 ^ 31 -> Z.odd a = false ->
  holds f (part_addr c p) X -> ~ ram_bad c f p a m.
Proof.
  intros c f p a m X v G Hp GX Hv Ho H.
  pose proof (gn_len _ _ _ GX) as Ln. pose proof (gn_fit _ _ _ GX) as Lf. destruct (g_sect c G) as (_ & Hs). destruct (g_hdr c G) as (Hh & _).
  assert (Ew : word f (part_addr c p + 4) = zlen X - HDR c).
  { rewrite <- (gn_size _ _ _ GX), word_rdl. rewrite <- (holds_sub f (part_addr c p)) by (unfold zlen in *; auto; lia). reflexivity. }
  intros [(m0 & w & (B & Hc) & V & N)|[L|((B & Hc) & N)]].
  - apply N. replace w with v; [exact Hv|]. symmetry. eapply (genuine_version c m0 a); eauto; [apply hs, G|].
    intros i Hi. rewrite Hc by exact Hi. apply H. lia.
  - lia.
  - apply N. eapply (genuine_verified c m a X v); eauto; [apply hs, G|lia|].
    intros i Hi. rewrite Hc by (rewrite Ew; lia). apply H, Hi.
Qed.

Lemma ram_ok_copy : forall c f p a m X v, geometry c -> genuine c X v -> holds f (part_addr c p) X -> ram_ok c f p a m -> holds m a X.
Proof.
  intros c f p a m X v G GX H ((B & Hc) & _) i Hi.
  pose proof (gn_len _ _ _ GX) as Ln. pose proof (gn_fit _ _ _ GX) as Lf. destruct (g_sect c G) as (_ & Hs). destruct (g_hdr c G) as (Hh & _).
  assert (Ew : word f (part_addr c p + 4) = zlen X - HDR c).
  { rewrite <- (gn_size _ _ _ GX), word_rdl. rewrite <- (holds_sub f (part_addr c p)) by (unfold zlen in *; auto; lia). reflexivity. }
  rewrite Hc by (rewrite Ew; lia). apply H, Hi.
Qed.

(** With a flash driver that works, a properly signed candidate is started from RAM, and it
    is put on trial if it was marked for update. *)
Theorem C27_boots_candidate : forall n c rd la m f p f1 X v, geometry c -> bytes m -> bytes f -> delivers_bytes rd -> faithful rd ->
  Z.odd (la - HDR c) = false -> candidate c f (Some p) f1 -> genuine c X v -> 0 < v < 2 ^ 31 -> holds f1 (part_addr c p) X ->
  exists m' f', run (ram_start (S n) c rd la m) f = Done (p, m') f' /\ holds m' (la - HDR c) X /\ started c p f1 f'.
Proof.
  intros n c rd la m f p f1 X v G Hm Hb Hrd Hf Ho C GX Hv H.
  assert (Np : p <> PSWAP) by (inversion C as [ |q P|q P]; subst; [apply P|apply other_swap]).
  destruct (candidate_run c f G Hb) as (r & f1' & E & C' & Hb1). destruct (C32_candidate_unique _ _ _ _ _ _ G Hb C C') as (<- & <-).
  unfold ram_start. rewrite run_bind, E, run_bind.
  destruct (ram_step c rd la (mkImage PBOOT 0 0 0 false false false None) m p f1 n G Hm Hb1 Hrd) as
    (b & m1 & img2 & B1 & Bv & Bi & Bf & K); [split; [discriminate|reflexivity]|]. specialize (Bf Hf).
  destruct b; [|exfalso; exact (ram_bad_genuine c f1 p _ m1 X v G Np GX Hv Ho H Bf)].
  destruct K as [(_ & ->)|[(K & _)|(K & _)]]; try discriminate.
  rewrite run_bind. destruct (start_trial_run c f1 p G Hb1) as (f' & -> & S & _). cbn [run].
  exists m1, f'. split; [reflexivity|]. split; [exact (ram_ok_copy c f1 p _ m1 X v G GX H Bf)|exact S].
Qed.
Print Assumptions C27_boots_candidate.

(** The newer image wins, unless it is on trial. *)
Theorem C27_newest : forall n c rd la m f p X v w, geometry c -> bytes m -> bytes f -> delivers_bytes rd -> faithful rd ->
  Z.odd (la - HDR c) = false -> p <> PSWAP -> genuine c X v -> holds f (part_addr c p) X -> version c f (other p) w ->
  0 < v < 2 ^ 31 -> w < v \/ (w = v /\ p = PBOOT) -> get_partition_state c f p <> Some ST_TESTING ->
  exists m' f', run (ram_start (S n) c rd la m) f = Done (p, m') f' /\ holds m' (la - HDR c) X /\ started c p f f'.
Proof.
  intros n c rd la m f p X v w G Hm Hb Hrd Hf Ho Hp GX H W Lv Lw Hs. apply (C27_boots_candidate n c rd la m f p f X v); auto.
  apply ca_keep; [|intros (D & _); contradiction]. split; [exact Hp|]. exists v, w. split; [eapply holds_version; eauto|].
  split; [exact W|]. split; [apply Lv|exact Lw].
Qed.
Print Assumptions C27_newest.

(** If the candidate cannot be verified, the other image is started. *)
Theorem C27_falls_back : forall n c rd la m f p f1 X v, geometry c -> bytes m -> bytes f -> delivers_bytes rd -> faithful rd ->
  Z.odd (la - HDR c) = false -> candidate c f (Some p) f1 -> unbootable c f1 p (la - HDR c) -> two_images c f1 ->
  genuine c X v -> 0 < v < 2 ^ 31 -> holds f1 (part_addr c (other p)) X ->
  exists m' f', run (ram_start (S (S n)) c rd la m) f = Done (other p, m') f' /\ holds m' (la - HDR c) X /\ started c (other p) f1 f'.
Proof.
  intros n c rd la m f p f1 X v G Hm Hb Hrd Hf Ho C Hu T GX Hv H.
  destruct (candidate_run c f G Hb) as (r & f1' & E & C' & Hb1). destruct (C32_candidate_unique _ _ _ _ _ _ G Hb C C') as (<- & <-).
  unfold ram_start. rewrite run_bind, E, run_bind.
  destruct (ram_step c rd la (mkImage PBOOT 0 0 0 false false false None) m p f1 (S n) G Hm Hb1 Hrd) as
    (b & m1 & img2 & B1 & Bv & Bi & Bf & K); [split; [discriminate|reflexivity]|]. specialize (Bf Hf).
  destruct b; [exfalso; exact (Hu m1 (proj1 Bf) (proj2 Bf))|].
  destruct K as [(K & _)|[(_ & _ & ->)|(_ & K & _)]]; try discriminate; try contradiction.
  destruct (ram_step c rd la img2 m1 (other p) f1 n G B1 Hb1 Hrd (Bi eq_refl)) as (b & m2 & img3 & B1' & _ & _ & Bf' & K). specialize (Bf' Hf).
  destruct b; [|exfalso; exact (ram_bad_genuine c f1 (other p) _ m2 X v G (other_swap p) GX Hv Ho H Bf')].
  destruct K as [(_ & ->)|[(K & _)|(K & _)]]; try discriminate.
  rewrite run_bind. destruct (start_trial_run c f1 (other p) G Hb1) as (f' & -> & S & _). cbn [run].
  exists m2, f'. split; [reflexivity|]. split; [exact (ram_ok_copy c f1 (other p) _ m2 X v G GX H Bf')|exact S].
Qed.
Print Assumptions C27_falls_back.

(** ... and if there is no other image, the loader stops. *)
Theorem C27_panics : forall n c rd la m f p f1, geometry c -> bytes m -> bytes f -> delivers_bytes rd -> faithful rd ->
  candidate c f (Some p) f1 -> unbootable c f1 p (la - HDR c) -> ~ two_images c f1 ->
  run (ram_start (S n) c rd la m) f = Panicked f1.
Proof.
  intros n c rd la m f p f1 G Hm Hb Hrd Hf C Hu T.
  destruct (candidate_run c f G Hb) as (r & f1' & E & C' & Hb1). destruct (C32_candidate_unique _ _ _ _ _ _ G Hb C C') as (<- & <-).
  unfold ram_start. rewrite run_bind, E, run_bind.
  destruct (ram_step c rd la (mkImage PBOOT 0 0 0 false false false None) m p f1 n G Hm Hb1 Hrd) as
    (b & m1 & img2 & B1 & Bv & Bi & Bf & K); [split; [discriminate|reflexivity]|]. specialize (Bf Hf).
  destruct b; [exfalso; exact (Hu m1 (proj1 Bf) (proj2 Bf))|].
  destruct K as [(K & _)|[(_ & K & _)|(_ & _ & ->)]]; try discriminate; try contradiction. reflexivity.
Qed.
Print Assumptions C27_panics.

(** With two images neither of which can be verified the loader tries them in turn for ever:
    it never reaches the panic routine. *)
Theorem C27_never_ends : forall n c rd la m f p f1, geometry c -> bytes m -> bytes f -> delivers_bytes rd -> faithful rd ->
  candidate c f (Some p) f1 -> unbootable c f1 PBOOT (la - HDR c) -> unbootable c f1 PUPDATE (la - HDR c) -> two_images c f1 ->
  run (ram_start n c rd la m) f = Wrong.
Proof.
  intros n c rd la m f p f1 G Hm Hb Hrd Hf C H1 H2 T.
  destruct (candidate_run c f G Hb) as (r & f1' & E & C' & Hb1). destruct (C32_candidate_unique _ _ _ _ _ _ G Hb C C') as (<- & <-).
  unfold ram_start. rewrite run_bind, E, run_bind.
  assert (K : forall n img m q, q <> PSWAP -> bytes m -> img_ok (la - HDR c) img -> run (ram_loop n c rd la img m q) f1 = Wrong).
  { clear n m Hm. induction n as [|n IH]; intros img m q Hq Hm Hi; [reflexivity|].
    destruct (ram_step c rd la img m q f1 n G Hm Hb1 Hrd Hi) as (b & m1 & img2 & B1 & _ & Bi & Bf & K). specialize (Bf Hf).
    destruct b; [exfalso; destruct Bf as (B2 & B3); destruct q; [exact (H1 _ B2 B3)|exact (H2 _ B2 B3)|congruence]|].
    destruct K as [(K & _)|[(_ & _ & ->)|(_ & K & _)]]; try discriminate; try contradiction.
    apply IH; auto. apply other_swap. }
  rewrite K; [reflexivity| |exact Hm|split; [discriminate|reflexivity]].
  inversion C as [ |q P|q P]; subst; [apply P|apply other_swap].
Qed.
Print Assumptions C27_never_ends.

(** ** Concrete cases *)

(** A driver that works. *)
Definition rd_ok (f : flash) (a n : Z) : Z * (Z -> Z) := (n, fun i => f (a + i)).
Lemma rd_ok_faithful : faithful rd_ok.
Proof. intros f a n Hb Hn. split; reflexivity. Qed.
Lemma rd_ok_bytes : delivers_bytes rd_ok.
Proof. intros f a n i Hb. apply Hb. Qed.

Definition blank : flash := fun _ => 255.
Lemma blank_bytes : bytes blank.
Proof. intro x. unfold blank, is_byte. lia. Qed.

(** [demo_flash] has version 3 in the boot partition and version 5 in the update partition. *)
Lemma demo_boot : holds demo_flash (part_addr demo PBOOT) demo_old.
Proof. apply store_holds. Qed.
Lemma demo_update : holds demo_flash (part_addr demo PUPDATE) demo_new.
Proof. apply store_other; [left; vm_compute; discriminate|apply store_holds]. Qed.

Example C28_newest_hyps : geometry demo /\ bytes demo_flash /\ genuine demo demo_new 5 /\
  holds demo_flash (part_addr demo PUPDATE) demo_new /\ version demo demo_flash PBOOT 3 /\
  get_partition_state demo demo_flash PUPDATE <> Some ST_TESTING.
Proof.
  split; [exact demo_geometry|]. split; [exact demo_flash_bytes|]. split; [exact demo_new_genuine|]. split; [exact demo_update|].
  split; [|vm_compute; discriminate].
  apply (holds_version demo demo_flash PBOOT demo_old 3 demo_geometry demo_flash_bytes ltac:(discriminate) demo_old_genuine demo_boot).
Qed.

(** Marked for update: the trailer of the update partition. *)
Definition trailer (st : Z) : list Z := st :: le_bytes 4 WOLFBOOT_MAGIC_TRAIL.
Definition marked_flash : flash := store (2048 + 512 - 5) (trailer ST_UPDATING) demo_flash.
Example C28_trial_hyps : bytes marked_flash /\ holds marked_flash (BOOT demo) demo_old /\ holds marked_flash (UPDATE demo) demo_new /\
  get_partition_state demo marked_flash PUPDATE = Some ST_UPDATING.
Proof.
  split; [apply store_bytes; [apply check_bytes_ok; vm_compute; reflexivity|exact demo_flash_bytes]|].
  split; [apply store_other; [right; vm_compute; discriminate|exact demo_boot]|].
  split; [apply store_other; [right; vm_compute; discriminate|exact demo_update]|]. vm_compute. reflexivity.
Qed.

(** A header with a version and a size that exceeds the partition. *)
Definition big (v : Z) : list Z := pad_to 64 (le_bytes 4 WOLFBOOT_MAGIC ++ le_bytes 4 1000 ++ [1; 0; 4; 0] ++ le_bytes 4 v).
Lemma big_unverified : forall c f p, PART c - HDR c < word f (part_addr c p + 4) -> ~ verified c f (part_addr c p).
Proof. intros c f p H (_ & L & _). lia. Qed.
Lemma big_unbootable : forall c f p a, geometry c -> bytes f -> PART c - HDR c < word f (part_addr c p + 4) -> unbootable c f p a.
Proof.
  intros c f p a G Hb H m (B & Hc) (_ & L & _). destruct (g_hdr c G). destruct (g_sect c G).
  rewrite (word_ext m f _ (part_addr c p + 4)) in L; [lia|].
  intros j Hj. rewrite <- !Z.add_assoc. apply Hc. lia.
Qed.

Lemma version_by : forall c f p v, geometry c -> bytes f -> get_image_version c f p = Val v -> version c f p v.
Proof. intros c f p v G Hb E. destruct (version_read c f p G Hb) as (w & E' & V & _). rewrite E in E'. injection E' as <-. exact V. Qed.

(** Boot: version 3, properly signed.  Update: version 9, broken. *)
Definition broken_flash : flash := store 1024 demo_old (store 2048 (big 9) blank).
Lemma broken_bytes : bytes broken_flash.
Proof.
  apply store_bytes; [apply check_bytes_ok; vm_compute; reflexivity|]. apply store_bytes; [apply check_bytes_ok; vm_compute; reflexivity|exact blank_bytes].
Qed.
Lemma broken_versions : version demo broken_flash PBOOT 3 /\ version demo broken_flash PUPDATE 9.
Proof. split; (apply version_by; [exact demo_geometry|exact broken_bytes|vm_compute; reflexivity]). Qed.

Example C28_falls_back_hyps : candidate demo broken_flash (Some PUPDATE) broken_flash /\
  ~ verified demo broken_flash (part_addr demo PUPDATE) /\ two_images demo broken_flash /\ holds broken_flash (part_addr demo (other PUPDATE)) demo_old.
Proof.
  destruct broken_versions as (V & W). split.
  - apply ca_keep; [|intros (D & _); vm_compute in D; discriminate D]. split; [discriminate|]. exists 9, 3. cbn [other].
    split; [exact W|]. split; [exact V|]. lia.
  - split; [apply big_unverified; vm_compute; reflexivity|]. split; [exists 3, 9; split; [exact V|]; split; [exact W|lia]|].
    apply store_holds.
Qed.

Example C27_hyps : delivers_bytes rd_ok /\ faithful rd_ok /\ Z.odd (8192 - HDR demo) = false /\
  unbootable demo broken_flash PUPDATE (8192 - HDR demo).
Proof.
  split; [exact rd_ok_bytes|]. split; [exact rd_ok_faithful|]. split; [reflexivity|].
  apply big_unbootable; [exact demo_geometry|exact broken_bytes|vm_compute; reflexivity].
Qed.

(** The demo runs, computed. *)
Example C27_runs : match run (ram_start 2 demo rd_ok 8192 blank) broken_flash with Done (p, m) _ => (p, rdl m 8128 134) | _ => (PSWAP, []) end
  = (PBOOT, demo_old).
Proof. vm_compute. reflexivity. Qed.

(** ** What the loaders do not guarantee *)

(** "The RAM loader always ends in a boot or a panic" is false. *)
Theorem C27_terminates_refuted : exists c rd la m f, geometry c /\ bytes m /\ bytes f /\ delivers_bytes rd /\ faithful rd /\
  forall n, run (ram_start n c rd la m) f = Wrong.
Proof.
  set (f := store 1024 (big 3) (store 2048 (big 9) blank)).
  assert (Hb : bytes f).
  { apply store_bytes; [apply check_bytes_ok; vm_compute; reflexivity|].
    apply store_bytes; [apply check_bytes_ok; vm_compute; reflexivity|exact blank_bytes]. }
  assert (V : version demo f PBOOT 3) by (apply version_by; [exact demo_geometry|exact Hb|vm_compute; reflexivity]).
  assert (W : version demo f PUPDATE 9) by (apply version_by; [exact demo_geometry|exact Hb|vm_compute; reflexivity]).
  exists demo, rd_ok, 8192, blank, f. split; [exact demo_geometry|]. split; [exact blank_bytes|]. split; [exact Hb|].
  split; [exact rd_ok_bytes|]. split; [exact rd_ok_faithful|]. intro n.
  apply (C27_never_ends n demo rd_ok 8192 blank f PUPDATE f demo_geometry blank_bytes Hb rd_ok_bytes rd_ok_faithful).
  - apply ca_keep; [|intros (D & _); vm_compute in D; discriminate D]. split; [discriminate|]. exists 9, 3. cbn [other].
    split; [exact W|]. split; [exact V|]. lia.
  - apply big_unbootable; [exact demo_geometry|exact Hb|vm_compute; reflexivity].
  - apply big_unbootable; [exact demo_geometry|exact Hb|vm_compute; reflexivity].
  - exists 3, 9. split; [exact V|]. split; [exact W|]. lia.
Qed.
Print Assumptions C27_terminates_refuted.

(** "A device with a properly signed image boots" is false of both loaders: an image on
    trial is erased as soon as the other partition shows a version, before that other image
    is verified. *)
Theorem C28_keeps_good_image_refuted : exists c f f' X v, geometry c /\ bytes f /\ genuine c X v /\ holds f (BOOT c) X /\
  hw_start c f = Panicked f' /\ ~ verified c f' (BOOT c) /\ ~ verified c f' (UPDATE c).
Proof.
  set (f := store (1024 + 512 - 5) (trailer ST_TESTING) (store 1024 demo_old (store 2048 (big 2) blank))).
  assert (Hb : bytes f).
  { apply store_bytes; [apply check_bytes_ok; vm_compute; reflexivity|]. apply store_bytes; [apply check_bytes_ok; vm_compute; reflexivity|].
    apply store_bytes; [apply check_bytes_ok; vm_compute; reflexivity|exact blank_bytes]. }
  assert (V : version demo f PBOOT 3) by (apply version_by; [exact demo_geometry|exact Hb|vm_compute; reflexivity]).
  assert (W : version demo f PUPDATE 2) by (apply version_by; [exact demo_geometry|exact Hb|vm_compute; reflexivity]).
  set (f1 := erase f (part_addr demo PBOOT) (PART demo)).
  assert (C : candidate demo f (Some (other PBOOT)) f1).
  { apply ca_drop.
    - split; [discriminate|]. exists 3, 2. cbn [other]. split; [exact V|]. split; [exact W|]. lia.
    - split; [vm_compute; reflexivity|]. exists 2. split; [exact W|lia]. }
  assert (NB : ~ verified demo f1 (part_addr demo PBOOT)) by (intros (E & _); vm_compute in E; discriminate E).
  assert (NU : ~ verified demo f1 (part_addr demo (other PBOOT))) by (apply (big_unverified demo f1 PUPDATE); vm_compute; reflexivity).
  exists demo, f, f1, demo_old, 3. split; [exact demo_geometry|]. split; [exact Hb|]. split; [exact demo_old_genuine|].
  split; [apply store_other; [right; vm_compute; discriminate|apply store_holds]|]. split; [|split; [exact NB|exact NU]].
  destruct (C28_start demo f demo_geometry Hb) as [(C' & _)|(p' & f1' & r & f2 & C' & Hc & K)];
    destruct (C32_candidate_unique _ _ _ _ _ _ demo_geometry Hb C C') as (E1 & E2); [discriminate|].
  injection E1 as <-. subst f1'. inversion Hc; subst; try contradiction; try exact K.
  - exfalso. match goal with T : two_images _ _ |- _ => apply (erased_one demo f PBOOT demo_geometry Hb ltac:(discriminate) T) end.
  - exfalso. match goal with T : two_images _ _ |- _ => apply (erased_one demo f PBOOT demo_geometry Hb ltac:(discriminate) T) end.
Qed.
Print Assumptions C28_keeps_good_image_refuted.

Theorem C27_keeps_good_image_refuted : exists c rd la m f f' X v, geometry c /\ bytes m /\ bytes f /\ delivers_bytes rd /\ faithful rd /\
  genuine c X v /\ holds f (BOOT c) X /\ run (ram_start 1 c rd la m) f = Panicked f' /\ forall X' v', genuine c X' v' -> ~ holds f' (BOOT c) X'.
Proof.
  set (f := store (1024 + 512 - 5) (trailer ST_TESTING) (store 1024 demo_old (store 2048 (big 2) blank))).
  assert (Hb : bytes f).
  { apply store_bytes; [apply check_bytes_ok; vm_compute; reflexivity|]. apply store_bytes; [apply check_bytes_ok; vm_compute; reflexivity|].
    apply store_bytes; [apply check_bytes_ok; vm_compute; reflexivity|exact blank_bytes]. }
  assert (V : version demo f PBOOT 3) by (apply version_by; [exact demo_geometry|exact Hb|vm_compute; reflexivity]).
  assert (W : version demo f PUPDATE 2) by (apply version_by; [exact demo_geometry|exact Hb|vm_compute; reflexivity]).
  set (f1 := erase f (part_addr demo PBOOT) (PART demo)).
  assert (Hb1 : bytes f1) by apply bytes_erase, Hb.
  assert (C : candidate demo f (Some (other PBOOT)) f1).
  { apply ca_drop.
    - split; [discriminate|]. exists 3, 2. cbn [other]. split; [exact V|]. split; [exact W|]. lia.
    - split; [vm_compute; reflexivity|]. exists 2. split; [exact W|lia]. }
  exists demo, rd_ok, 8192, blank, f, f1, demo_old, 3. split; [exact demo_geometry|]. split; [exact blank_bytes|]. split; [exact Hb|].
  split; [exact rd_ok_bytes|]. split; [exact rd_ok_faithful|]. split; [exact demo_old_genuine|].
  split; [apply store_other; [right; vm_compute; discriminate|apply store_holds]|]. split.
  - apply (C27_panics 0 demo rd_ok 8192 blank f (other PBOOT) f1 demo_geometry blank_bytes Hb rd_ok_bytes rd_ok_faithful C).
    + apply big_unbootable; [exact demo_geometry|exact Hb1|vm_compute; reflexivity].
    + apply (erased_one demo f PBOOT demo_geometry Hb). discriminate.
  - intros X' v' GX H. destruct (holds_verified demo f1 PBOOT X' v' demo_geometry Hb1 ltac:(discriminate) GX H) as (E & _).
    vm_compute in E. discriminate E.
Qed.
Print Assumptions C27_keeps_good_image_refuted.

(** "The newest signed image is started from RAM" is false for versions from 2^31 on: they
    are compared as unsigned numbers when the partition is chosen, and as signed ones after
    loading. *)
Definition demo_high : list Z := Eval vm_compute in demo_image (2 ^ 31) demo_fw1.
Lemma demo_high_genuine : genuine demo demo_high (2 ^ 31).
Proof. demo_genuine. Qed.
Theorem C27_high_version_refuted : exists c rd la m f X v, geometry c /\ bytes m /\ bytes f /\ delivers_bytes rd /\ faithful rd /\
  Z.odd (la - HDR c) = false /\ genuine c X v /\ 0 < v < 2 ^ 32 /\ holds f (BOOT c) X /\ version c f PUPDATE 0 /\
  get_partition_state c f PBOOT = None /\ run (ram_start 1 c rd la m) f = Panicked f.
Proof.
  set (f := store 1024 demo_high blank).
  assert (Hb : bytes f) by (apply store_bytes; [apply check_bytes_ok; vm_compute; reflexivity|exact blank_bytes]).
  assert (W : version demo f PUPDATE 0) by (apply version_by; [exact demo_geometry|exact Hb|vm_compute; reflexivity]).
  assert (H : holds f (part_addr demo PBOOT) demo_high) by apply store_holds.
  exists demo, rd_ok, 8192, blank, f, demo_high, (2 ^ 31). split; [exact demo_geometry|]. split; [exact blank_bytes|]. split; [exact Hb|].
  split; [exact rd_ok_bytes|]. split; [exact rd_ok_faithful|]. split; [reflexivity|]. split; [exact demo_high_genuine|]. split; [lia|].
  split; [exact H|]. split; [exact W|]. split; [vm_compute; reflexivity|].
  pose proof (holds_version demo f PBOOT demo_high _ demo_geometry Hb ltac:(discriminate) demo_high_genuine H) as V.
  assert (C : candidate demo f (Some PBOOT) f).
  { apply ca_keep; [|intros (D & _); vm_compute in D; discriminate D]. split; [discriminate|]. exists (2 ^ 31), 0. cbn [other].
    split; [exact V|]. split; [exact W|]. lia. }
  destruct (candidate_run demo f demo_geometry Hb) as (r & f1 & E & C' & _).
  destruct (C32_candidate_unique _ _ _ _ _ _ demo_geometry Hb C C') as (<- & <-).
  unfold ram_start. rewrite run_bind, E, run_bind.
  destruct (ram_step demo rd_ok 8192 (mkImage PBOOT 0 0 0 false false false None) blank PBOOT f 0 demo_geometry blank_bytes Hb rd_ok_bytes) as
    (b & m1 & img2 & B1 & Bv & Bi & Bf & K); [split; [discriminate|reflexivity]|].
  assert (B : match run (ram_loop 1 demo rd_ok 8192 (mkImage PBOOT 0 0 0 false false false None) blank PBOOT) f with Done _ _ => true | _ => false end = false)
    by (vm_compute; reflexivity).
  assert (T : ~ two_images demo f).
  { intros (v & w & _ & W' & _ & L). pose proof (version_eq _ _ _ _ _ demo_geometry Hb W W'). lia. }
  destruct K as [(_ & K)|[(_ & K & _)|(_ & _ & K)]].
  - rewrite K in B. discriminate B.
  - contradiction.
  - rewrite K. reflexivity.
Qed.
Print Assumptions C27_high_version_refuted.

(** "Loading writes only the RAM area reserved for one image" is false: the size in the
    header is used before anything is checked. *)
Theorem C27_load_bounds_refuted : exists c rd m f p a b m1 x, geometry c /\ bytes m /\ bytes f /\ faithful rd /\ p <> PSWAP /\
  ramboot c (rd f) m (part_addr c p) a = Val (b, m1) /\ a + PART c <= x /\ m1 x <> m x.
Proof.
  set (m := fun _ : Z => 0).
  assert (K : match ramboot demo (rd_ok broken_flash) m (part_addr demo PUPDATE) 8192 with Val (_, m1) => m1 9000 | _ => 0 end = 255)
    by (vm_compute; reflexivity).
  destruct (ramboot demo (rd_ok broken_flash) m (part_addr demo PUPDATE) 8192) as [[b m1]| |] eqn:E; [|discriminate K|discriminate K].
  exists demo, rd_ok, m, broken_flash, PUPDATE, 8192, b, m1, 9000. split; [exact demo_geometry|].
  split; [intro; unfold m, is_byte; lia|]. split; [exact broken_bytes|]. split; [exact rd_ok_faithful|]. split; [discriminate|].
  split; [exact E|]. split; [vm_compute; discriminate|]. rewrite K. discriminate.
Qed.
Print Assumptions C27_load_bounds_refuted.
