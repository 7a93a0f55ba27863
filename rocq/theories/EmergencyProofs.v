(** Recovery from a boot image that does not verify. *)
From Verif Require Import Base BaseLemmas HeaderModel HeaderSpec HeaderProofs Flash FlashLemmas ImageModel ImageSpec ImageProofs
  GenuineProofs TrailerModel TrailerProofs TriggerProofs TrailerCrash SwapModel SwapSpec Geometry CopyProofs
  SwapInv SwapSteps SwapLoop SwapFinal SwapStart RefuseProofs HistoryProofs EmergencySpec.
Local Ltac Zify.zify_post_hook ::= idtac.

Lemma verify_cases : forall t c f (C : flash -> Prop), geometry c -> bytes f -> C f ->
  wpc t (open_and_verify c PBOOT) (fun x f' => f' = f /\
    (fst x = true -> verified c f (BOOT c) /\ sanity (snd x) = true /\ i_base (snd x) = BOOT c + HDR c) /\
    (fst x = false -> ~ verified c f (BOOT c))) C f.
Proof.
  intros t c f C G Hb HC. assert (NB : PBOOT <> PSWAP) by discriminate.
  unfold open_and_verify. cbn [get bind wpc].
  destruct (open_image c f PBOOT) as [o im] eqn:Eo. destruct o.
  - destruct (verify_both_cases c f PBOOT im G Hb NB Eo) as [(V & im' & W & O0 & O1 & O2 & O3 & _)|(V & im' & _ & W)];
      cbn [part_addr] in *; apply W; auto; cbn [fst snd].
    + split; [reflexivity|]. split; [|discriminate]. intros _. unfold sanity. rewrite O1, O2, O3. auto.
    + split; [reflexivity|]. split; [discriminate|auto].
  - cbn [wpc]. split; [exact HC|]. cbn [fst snd]. split; [reflexivity|]. split; [discriminate|].
    intros _ (V1 & V2 & _). destruct (open_image_bad c f PBOOT im NB Eo) as (_ & _ & _ & _ & _ & [B|B]); cbn [part_addr] in B; [congruence|lia].
Qed.

Lemma holds_verified : forall c f p X v, geometry c -> bytes f -> p <> PSWAP -> genuine c X v ->
  holds f (part_addr c p) X -> verified c f (part_addr c p).
Proof.
  intros c f p X v G Hb Hp GX H.
  assert (Hh : hdr_small c) by (apply hs; exact G).
  pose proof (even_part c p G Hp) as Ho. assert (Hs : 0 <= SECT c) by (geo G; lia). pose proof (g_blk c G) as Hk.
  pose proof (stored_open c f p X v Hh Hp Hs GX H) as Eo.
  destruct (verify_both_cases c f p _ G Hb Hp Eo) as [(V & _)|(V & im' & _ & W)]; [exact V|]. exfalso.
  pose proof (W (tear_std c) (fun x _ => fst x = false) (fun _ => True) I eq_refl) as W1.
  pose proof (verify_both_wpc (tear_std c) c f p X v (fun x _ => fst x = true) (fun _ => True) G Hb Hp GX H I (fun _ => eq_refl)) as W2.
  destruct (wpc_run _ _ _ _ _ W1) as (x & f1 & E1 & H1 & _). destruct (wpc_run _ _ _ _ _ W2) as (x2 & f2 & E2 & H2 & _).
  congruence.
Qed.

Section Rescue.
  Variables (c : cfg) (X Y : list Z) (bX vY N : Z).
  Hypothesis G : geometry c.
  Hypothesis F : flags_fit c.
  Hypothesis HN : sectors c X Y N.
  Hypothesis OX : opens c X bX.
  Hypothesis HbX : bX + HDR c <= N * SECT c.
  Hypothesis GY : genuine c Y vY.

  Let t := tear_std c.

  Definition Crashed (d : mode) (f' : flash) : Prop := updating c X Y N d f' \/ fresh c Y X N f'.

  Lemma update_true : forall (A : Type) d u k ph f (K : bool -> prog A) (Q : A -> flash -> Prop),
    mid c X Y N d k ph f -> (k = 0 -> ph <> New -> 0 < bX) ->
    (forall f', fresh c Y X N f' -> wpc t (K true) Q (Crashed d) f') ->
    wpc t (bind (update c u true) K) Q (Crashed d) f.
  Proof.
    intros A d u k ph f K Q M H0 HK. apply wpc_bind.
    eapply wpc_post; [apply (update_wpc c X Y bX vY N G F HN OX HbX GY d true u k ph f (Crashed d)); auto|].
    - intros f' U. left. exact U.
    - intros f' Fr. right. exact Fr.
    - cbn beta. intros b f' _ [( -> & Fr)|(_ & H & _)]; [apply HK, Fr|]. exfalso. apply H. left. reflexivity.
  Qed.

  Definition Rescued (f : flash) (r : Z) (f' : flash) : Prop :=
    r = BOOT c + HDR c /\ (fresh c Y X N f' \/ (f' = f /\ verified c f (BOOT c))).

  Lemma stage_wpc : forall d u k ph f, mid c X Y N d k ph f -> (k = 0 -> ph <> New -> 0 < bX) ->
    wpc t (boot_stage c (update c u true))
      (fun r f' => Rescued f r f' /\ (~ verified c f (BOOT c) -> fresh c Y X N f')) (Crashed d) f.
  Proof.
    intros d u k ph f M H0. pose proof M as (Mb & _).
    assert (Cf : Crashed d f) by (left; left; eauto).
    unfold boot_stage. apply wpc_bind. eapply wpc_post; [apply (verify_cases t c f (Crashed d) G Mb Cf)|].
    cbn beta. intros [ok im] f' _ (-> & A & B). cbn [fst snd] in A, B. destruct ok.
    - destruct (A eq_refl) as (V & S & E). cbn [bind wpc]. rewrite S, E. cbn [wpc].
      split; [exact Cf|]. split; [split; auto|contradiction].
    - apply wpc_bind. apply (update_true _ d u k ph f); auto. intros f1 Fr. cbn [negb].
      assert (C1 : Crashed d f1) by (right; exact Fr).
      pose proof Fr as ((M1 & _ & _ & D & _) & _).
      apply (data_start c Y X N G (sectors_sym c X Y N HN)) in D. destruct D as (D1 & _).
      apply wpc_bind. eapply wpc_post; [apply (verify_cases t c f1 (Crashed d) G M1 C1)|].
      cbn beta. intros [ok im2] f' _ (-> & A2 & B2). cbn [fst snd] in A2, B2. destruct ok.
      + destruct (A2 eq_refl) as (V & S & E). cbn [wpc]. split; [exact C1|]. rewrite S, E. cbn [wpc].
        split; [exact C1|]. split; [split; auto|auto].
      + exfalso. apply (B2 eq_refl). apply (holds_verified c f1 PBOOT Y vY); auto. discriminate.
  Qed.

  (** The boot routine from anywhere in a recovery. *)
  Lemma rescue_wpc : forall d u k ph f, d <> Triggered -> u 0%nat <> ST_FINAL ->
    mid c X Y N d k ph f -> (k = 0 -> ph <> New -> 0 < bX) ->
    wpc t (start c u) (fun r f' => Rescued f r f' /\ (~ verified c f (BOOT c) -> fresh c Y X N f')) (Crashed d) f.
  Proof.
    intros d u k ph f Hd Hu M H0. unfold start. cbn [get bind wpc].
    assert (Cf : Crashed d f) by (left; left; eauto).
    apply wpc_bind. eapply wpc_post; [eapply (resume_mid_wpc c X Y N d k ph); eauto|].
    cbn beta. intros b f' _ (-> & ->).
    pose proof M as (_ & _ & _ & _ & (Td & _)).
    assert (FS : forall upd f', fresh c Y X N f' -> wpc t (boot_stage c upd)
      (fun r f' => Rescued f r f' /\ (~ verified c f (BOOT c) -> fresh c Y X N f')) (Crashed d) f').
    { intros upd f' Fr. eapply wpc_post; [apply (fresh_boot c X Y vY N G HN GY upd f' (Crashed d)); [exact Fr|right; exact Fr]|].
      cbn beta. intros r f2 _ (-> & Fr2). split; [split; [reflexivity|left; exact Fr2]|auto]. }
    destruct d; [congruence| |]; cbn [drv] in Td; destruct Td as (Td & _).
    - rewrite Td, Z.eqb_refl. apply wpc_bind. apply (update_true _ Fallback _ k ph f); auto.
      intros f1 Fr. cbn [wpc]. split; [right; exact Fr|]. apply FS, Fr.
    - assert (HT : match get_partition_state c f PBOOT with Some s => s =? ST_TESTING | None => false end = false).
      { destruct (get_partition_state c f PBOOT) as [s|]; [|reflexivity]. apply Z.eqb_neq. congruence. }
      rewrite HT.
      destruct (match get_partition_state c f PUPDATE with Some s => s =? ST_UPDATING | None => false end);
        [|cbn [bind]; apply (stage_wpc Emergency _ k ph f M H0)].
      apply wpc_bind. apply wpc_bind.
      eapply wpc_post; [apply (update_wpc c X Y bX vY N G F HN OX HbX GY Emergency false _ k ph f (Crashed Emergency)); auto|].
      + intros f' U. left. exact U.
      + intros f' Fr. right. exact Fr.
      + cbn beta. intros b f' _ [(_ & Fr)|(_ & _ & ->)]; cbn [wpc].
        * split; [right; exact Fr|apply FS, Fr].
        * split; [exact Cf|apply (stage_wpc Emergency _ k ph f M H0)].
  Qed.

  Lemma rescue_final_wpc : forall d u f, u 0%nat <> ST_FINAL -> final c X Y f ->
    wpc t (start c u) (fun r f' => r = BOOT c + HDR c /\ fresh c Y X N f') (Crashed d) f.
  Proof.
    intros d u f Hu FI. unfold start. cbn [get bind wpc].
    apply wpc_bind. eapply wpc_post; [apply (resume_final_wpc c X Y N G F HN (genuine_framed c Y vY GY) (u 0%nat) f _); auto|].
    - intros f' Hf'. left. right. exact Hf'.
    - intros f' Hf'. right. exact Hf'.
    - cbn beta. intros b f1 _ (-> & M1). cbn [bind].
      apply (fresh_boot c X Y vY N G HN GY); [exact M1|right; exact M1].
  Qed.
End Rescue.

(** ** Damaged images *)

Lemma damaged_unverified : forall c f p X, geometry c -> bytes f -> p <> PSWAP -> framed c X -> damaged c X ->
  holds f (part_addr c p) X -> ~ verified c f (part_addr c p) /\ word f (part_addr c p + 4) = zlen X - HDR c.
Proof.
  intros c f p X G Hb Hp [M S L Ft] D H. geo G.
  assert (E2 : word f (part_addr c p + 4) = zlen X - HDR c).
  { rewrite <- S, word_rdl. change 4 with (Z.of_nat 4) at 1.
    rewrite (holds_sub f _ X 4 4 H) by (unfold zlen in *; lia). reflexivity. }
  split; [|exact E2]. intros (_ & _ & d & I & _).
  apply (D d). apply (intact_parity c (part_addr c p)); [apply even_part; auto|].
  rewrite E2 in I.
  replace (rdl f (part_addr c p) (Z.to_nat (HDR c))) with (hdr_of c X) in I
    by (symmetry; apply (holds_hdr c f _ X H); lia).
  replace (rdl f (part_addr c p + HDR c) (Z.to_nat (zlen X - HDR c))) with (fw_of c X) in I; [exact I|].
  symmetry. replace (HDR c) with (Z.of_nat (Z.to_nat (HDR c))) at 1 by lia.
  rewrite (holds_sub f _ X _ _ H) by (unfold zlen in *; lia). apply sub_all. unfold zlen in *. lia.
Qed.

(** ** The first boot *)

Definition headless (c : cfg) (f : flash) : Prop := word f (BOOT c) <> WOLFBOOT_MAGIC \/ word f (BOOT c + 4) = 0.

Lemma sectors_one : forall c X Y vY, geometry c -> genuine c Y vY -> zlen X <= PART c - SECT c -> exists N, sectors c X Y N.
Proof.
  intros c X Y vY G GY LX. pose proof (gn_fit _ _ _ GY). pose proof (gn_len _ _ _ GY).
  destruct (g_sect c G) as (_ & S). destruct (g_part c G) as (P & P2). destruct (g_hdr c G) as (H12 & _).
  set (m := Z.max (zlen X) (zlen Y)). exists ((m - 1) / SECT c + 1).
  pose proof (Z.div_mod (PART c) (SECT c) ltac:(lia)) as D. rewrite P in D.
  pose proof (Z.div_mod (m - 1) (SECT c) ltac:(lia)) as D2.
  pose proof (Z.mod_pos_bound (m - 1) (SECT c) ltac:(lia)) as D3.
  set (q := PART c / SECT c) in *. set (r := (m - 1) mod SECT c) in *. set (k := (m - 1) / SECT c) in *.
  assert (Hm : m <= PART c - SECT c) by (unfold m; lia). assert (0 < m) by (unfold m; lia).
  assert (k < q - 1) by (apply (Z.mul_lt_mono_pos_r (SECT c)); lia).
  assert ((k + 1) * SECT c <= (q - 1) * SECT c) by (apply Z.mul_le_mono_nonneg_r; lia).
  assert (0 <= k) by (apply Z.div_pos; lia).
  assert (zlen X <= m /\ zlen Y <= m /\ (zlen X = m \/ zlen Y = m)) as (L1 & L2 & L3) by (unfold m; lia).
  clearbody m q r k. split; [lia|]. split; [lia|]. split; [lia|]. split; [|lia].
  replace (k + 1 - 1) with k by lia. lia.
Qed.

Definition mode_at (c : cfg) (f : flash) : mode :=
  match get_partition_state c f PBOOT with
  | Some s => if s =? ST_TESTING then Fallback else Emergency
  | None => Emergency
  end.

Lemma spare_mid : forall c X Y N f, geometry c -> flags_fit c -> sectors c X (fst Y) N -> spare c Y f ->
  holds f (BOOT c) X -> mid c X (fst Y) N (mode_at c f) 0 New f.
Proof.
  intros c X Y N f G F HN (Hb & GY & HU & C1 & C2 & NP) HB.
  split; [exact Hb|]. split; [destruct HN as (_ & _ & _ & _ & ?); lia|]. split; [congruence|]. split.
  - apply (data_start c X (fst Y) N G HN). split; [exact HB|]. split; [exact HU|]. split; assumption.
  - assert (H0 : 0 < PART c / SECT c) by (apply sect_idx; auto; geo G; lia).
    assert (Hst : Z.land (f (state_addr c PUPDATE)) ST_FINAL = ST_FINAL /\ f (state_addr c PUPDATE) <> ST_FINAL).
    { destruct NP as [E|([E|E] & _)].
      - rewrite E by (rewrite state_addr_eq; cbn [endflags part_addr]; geo G; lia). split; [reflexivity|discriminate].
      - unfold get_partition_state in E. destruct (has_magic c f PUPDATE); [|discriminate].
        assert (f (state_addr c PUPDATE) = ST_NEW) as -> by congruence. split; [reflexivity|discriminate].
      - unfold get_partition_state in E. destruct (has_magic c f PUPDATE); [|discriminate].
        assert (f (state_addr c PUPDATE) = ST_UPDATING) as -> by congruence. split; [reflexivity|discriminate]. }
    assert (Hnib : forall s, 0 <= s < PART c / SECT c -> nib c f s = SF_NEW).
    { intros s Hs. destruct NP as [E|(E & Fl)].
      - destruct (sectors_div c s G F Hs) as (_ & Ha). unfold nib. rewrite E by lia. destruct (flag_low s); reflexivity.
      - specialize (Fl s Hs). rewrite get_flag_nib in Fl. destruct (has_magic c f PUPDATE); [congruence|discriminate]. }
    split; [|split; [|split; [intros s Hs; lia|split; [intros s Hs; apply Hnib; lia|apply Hnib; lia]]]].
    + unfold mode_at. destruct (get_partition_state c f PBOOT) as [s|] eqn:E.
      * destruct (Z.eqb_spec s ST_TESTING) as [->|Hs]; cbn [drv]; rewrite E; (split; [congruence|exact Hst]).
      * cbn [drv]. rewrite E. split; [discriminate|exact Hst].
    + destruct NP as [E|(E & _)].
      * right. split; [reflexivity|]. split; [reflexivity|]. apply erased_magicable. intros i Hi.
        rewrite magic_addr_eq. apply E. cbn [endflags part_addr]. geo G. lia.
      * left. unfold get_partition_state in E. destruct (has_magic c f PUPDATE); [reflexivity|]. destruct E; discriminate.
Qed.

Lemma mode_not_triggered : forall c f, mode_at c f <> Triggered.
Proof. intros c f. unfold mode_at. destruct (get_partition_state c f PBOOT) as [s|]; [destruct (s =? ST_TESTING)|]; discriminate. Qed.

(** The eight bytes at the start of the boot partition. *)
Lemma headless_opens : forall c f, geometry c -> bytes f -> headless c f -> opens c (rdl f (BOOT c) 8) 0.
Proof.
  intros c f G Hb H.
  assert (L : zlen (rdl f (BOOT c) 8) = 8) by reflexivity.
  constructor; [|geo G; lia|lia].
  intros f' p Hp R.
  assert (E : forall i, 0 <= i < 8 -> f' (part_addr c p + i) = f (BOOT c + i)).
  { intros i Hi. rewrite R by lia. replace i with (Z.of_nat (Z.to_nat i)) at 2 by lia. apply rdl_nth. lia. }
  assert (E1 : word f' (part_addr c p) = word f (BOOT c)).
  { apply word_ext. intros i Hi. apply E. lia. }
  assert (E2 : word f' (part_addr c p + 4) = word f (BOOT c + 4)).
  { apply word_ext. intros i Hi. rewrite <- !Z.add_assoc. apply E. lia. }
  unfold open_image. rewrite E1. destruct p; [| |congruence]; cbn zeta;
    (destruct (Z.eqb_spec (word f (BOOT c)) WOLFBOOT_MAGIC) as [Em|Em]; cbn [negb]; [|reflexivity]);
    unfold image_size; rewrite E2; (destruct H as [H|H]; [contradiction|]); rewrite H;
    (destruct (Z.gtb_spec 0 (PART c - HDR c)); [geo G; lia|reflexivity]).
Qed.
