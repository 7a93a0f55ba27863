(** Installing a delta image: the whole update, and the boot routine. *)
From Verif Require Import Base BaseLemmas HeaderModel Flash FlashLemmas ImageModel ImageSpec ImageProofs GenuineProofs
  TrailerModel TrailerProofs TriggerProofs TrailerCrash SwapModel SwapSpec Geometry CopyProofs SwapInv SwapSteps SwapLoop SwapFinal
  SwapStart RefuseProofs DeltaModel DeltaSpec DeltaProofs DeltaUpdateModel DeltaApply DeltaLoop DeltaFinal.
Local Ltac Zify.zify_post_hook ::= idtac.

Definition same_base (c : cfg) (f : flash) (boot : Z) (bh bb : option (nat * nat)) : bool :=
  match bh with
  | Some (off, n) =>
    if (n =? c_digsz c)%nat then
      match bb with
      | Some (boff, bn) => list_eqb (rdl f (boot + Z.of_nat boff) bn) (rdl f (UPDATE c + Z.of_nat off) bn)
      | None => true
      end
    else true
  | None => true
  end.

Lemma open_size_le : forall c f p, p <> PSWAP -> 0 <= HDR c <= PART c -> i_size (snd (open_image c f p)) <= PART c - HDR c.
Proof.
  intros c f p Hp Hh. unfold open_image. destruct p; [| |congruence]; cbn [snd i_size];
    (destruct (negb _); [cbn [snd i_size]; lia|]);
    (match goal with |- context [image_size f ?a >? ?b] => destruct (Z.gtb_spec (image_size f a) b) end);
    cbn [snd i_size]; lia.
Qed.

Definition pt_of (D : list Z) (off : Z) : Z -> Z := fun x => nth (Z.to_nat (off + x)) D 0.

Section DUpdate.
  Variables (c : cfg) (blk : Z) (i : din) (e : Z) (D S T : list Z) (vD vS vT N : Z) (inv : bool).
  Hypothesis G : geometry c.
  Hypothesis F : flags_fit c.
  Hypothesis HN : sectors c D T N.
  Hypothesis GT : genuine c T vT.
  Hypothesis GS : genuine c S vS.
  Hypothesis GD : genuine c D vD.
  Hypothesis Hblk : 6 <= blk.
  Hypothesis Hdiv : (blk | SECT c).
  Hypothesis Hsect : d_sect i = SECT c.
  Hypothesis Hsa : d_sa i = zlen S.
  Hypothesis He : zlen T <= e.
  Hypothesis HaS : forall x, 0 <= x < zlen S -> d_a i x = nth (Z.to_nat x) S 0.
  Hypothesis HbT : forall x, 0 <= x < zlen T -> d_b i x = nth (Z.to_nat x) T 0.
  Hypothesis HW : word (tgt i e) (PART c - 2 * SECT c) <> MT.

  (** The two patches carried by [D]: [offs b] and [szs b] are the header's values for
      direction [b]. *)
  Variables (offs szs : bool -> Z) (bh : option (nat * nat)) (base : Z).
  Definition poff (b : bool) : Z := if b then offs b else HDR c.
  Hypothesis Hinfo : forall b f, bytes f -> holds f (UPDATE c) D -> get_delta_info c f b = Val (Some (offs b, szs b, bh)).
  Hypothesis Hbase : forall f, bytes f -> holds f (UPDATE c) D -> get_diffbase_version c f PUPDATE = Val base.
  Hypothesis Hty : forall f, bytes f -> holds f (UPDATE c) D ->
    exists ty, get_image_type c f PUPDATE = Val ty /\ Z.land ty 0x00F0 = TYPE_DIFF.
  Hypothesis Hbh : match bh with Some (_, n) => n = c_digsz c | None => True end.
  Hypothesis Hsz : forall b, 0 < szs b /\ 0 <= poff b /\ poff b + szs b <= zlen D.
  Hypothesis Hdec : forall b, exists ts, dec i e (pt_of D (poff b)) (szs b) false 0 (mkP 0 false 0 0) ts.
  Hypothesis Hdec1 : exists ts, dec i e (pt_of D (poff inv)) (szs inv) true 0 (mkP 0 false 0 0) ts.
  Hypothesis Hpos : 0 < vS.
  Hypothesis Hdir : if inv then vS = vD /\ base < vS
    else vS < vD /\ base = vS /\
         forall f bb, bytes f -> holds f (BOOT c) S -> holds f (UPDATE c) D ->
           get_header c f (BOOT c) (c_hash_tag c) = Val bb -> same_base c f (BOOT c) bh bb = true.

  Let t := tear_std c.
  Local Notation dm := (dmid c i e D T N inv).

  Lemma HD0 : HDR c < zlen D. Proof. apply (gn_len _ _ _ GD). Qed.
  Lemma Hsa' : 0 < d_sa i <= PART c - SECT c.
  Proof. rewrite Hsa. pose proof (gn_len _ _ _ GS). pose proof (gn_fit _ _ _ GS). geo G. lia. Qed.
  Lemma pt_bytes : forall off, bytes (pt_of D off).
  Proof.
    intros off x. unfold pt_of. destruct (nth_in_or_default (Z.to_nat (off + x)) D 0) as [H|H].
    - exact (proj1 (Forall_forall _ _) (gn_bytes _ _ _ GD) _ H).
    - rewrite H. unfold is_byte. lia.
  Qed.

  Lemma dmid_bytes : forall arm k sw f, dm arm k sw f -> bytes f /\ holds f (UPDATE c) D.
  Proof. intros arm k sw f (A & _ & (B & _) & _). auto. Qed.

  Lemma dmid_boot_size : forall arm k sw f, dm arm k sw f -> 1 <= k -> i_size (snd (open_image c f PBOOT)) = zlen T - HDR c.
  Proof.
    intros arm k sw f (_ & Hk & (_ & _ & P) & _) H1.
    apply (open_size c f PBOOT T); auto; [discriminate|apply hs, G|geo G; lia|exact (genuine_framed c T vT GT)|].
    cbn [part_addr]. intros j Hj HjT. unfold pc in P. destruct (k <? N).
    - destruct P as (P & _). rewrite P; [apply HbT; lia| |lia]. split; [lia|].
      geo G. assert (1 * SECT c <= k * SECT c) by (apply Z.mul_le_mono_nonneg_r; lia). lia.
    - apply P. lia.
  Qed.

  Lemma dmid_source : forall arm f, dm arm 0 false f -> holds f (BOOT c) S.
  Proof.
    intros arm f (_ & _ & (_ & _ & P) & _). unfold pc in P.
    assert (0 < N) by apply HN. rewrite (proj2 (Z.ltb_lt 0 N)) in P by assumption.
    destruct P as (_ & P & _). intros j Hj. rewrite P by (rewrite Hsa; lia). apply HaS, Hj.
  Qed.

  Definition resting (C : flash -> Prop) : Prop :=
    (forall f', (exists k sw, dm false k sw f') -> C f') /\ (forall f', final c D T f' -> C f') /\ (forall f', fresh c T D N f' -> C f').

  Lemma delta_update_wpc : forall b r u boot update k sw f (C : flash -> Prop), resting C ->
    boot_img c boot -> update_img c update -> i_size update = zlen D - HDR c -> 0 <= i_size boot <= PART c - HDR c ->
    (1 <= k -> i_size boot = zlen T - HDR c) -> dm true k sw f -> b = inv \/ N <= k ->
    r = true \/ (k = 0 /\ sw = false /\ b = inv) ->
    wpc t (delta_update c blk u boot update (swap_img c) b r) (fun b f' => b = true /\ fresh c T D N f') C f.
  Proof.
    intros b r u boot update k sw f C (RC1 & RC2 & RC3) HB HU ZU ZB ZT M Hb Hr.
    assert (HC : forall f', (exists k sw, dm true k sw f') -> C f').
    { intros f' (k1 & s1 & M'). apply RC1. exists k1, s1. apply dmid_arm, M'. }
    assert (Hh : hdr_small c) by (apply hs; exact G). assert (Hs : 0 <= SECT c) by (geo G; lia).
    destruct (dmid_bytes _ _ _ _ M) as (Mb & MD).
    destruct (dl_range c i D T N G F HN Hsa' HbT) as (R1 & R2 & R3 & R4 & R5 & R6).
    pose proof HB as (HB1 & HB2). unfold delta_update. cbn zeta. cbn [pure bind wpc].
    rewrite (Hinfo b f Mb MD). cbn [bind wpc pure].
    destruct (version_val c f PBOOT Mb Hh) as (cv & Ecv & _). rewrite Ecv. cbn [bind wpc pure].
    rewrite (stored_version c f PUPDATE D vD) by (auto; try discriminate; apply even_part; auto; discriminate). cbn [bind wpc pure].
    rewrite (Hbase f Mb MD). cbn [bind wpc pure].
    assert (EH : negb (match bh with Some (_, n) => n | None => 0%nat end =? c_digsz c)%nat &&
                 negb (match bh with Some (_, n) => n | None => 0%nat end =? 0)%nat = false).
    { destruct bh as [[o n]|]; [rewrite Hbh, Nat.eqb_refl; reflexivity|]. apply andb_false_r. }
    rewrite EH. clear EH. cbn [pure bind wpc]. rewrite HB2.
    destruct (get_header_val c f (BOOT c) (c_hash_tag c) Mb Hh) as (bb & Ebb & _). rewrite Ebb. cbn [bind wpc get].
    match goal with |- context [same_base] => idtac | |- context [if b then ?X else r || ((cv =? base) && ?Y)] =>
      change Y with (same_base c f (BOOT c) bh bb) end.
    assert (OK : negb (if b then (cv =? vD) && (base <? cv) || r else r || (cv =? base) && same_base c f (BOOT c) bh bb) = false).
    { destruct Hr as [ -> |( -> & -> & -> )]; [destruct b; rewrite ?orb_true_r; reflexivity|].
      pose proof (dmid_source _ _ M) as HS.
      rewrite (stored_version c f PBOOT S vS) in Ecv by (auto; try discriminate; apply even_part; auto; discriminate).
      injection Ecv as <-. destruct inv.
      - destruct Hdir as (E1 & E2). rewrite E1, Z.eqb_refl. rewrite (proj2 (Z.ltb_lt base vD)) by lia. reflexivity.
      - destruct Hdir as (E1 & -> & E3). rewrite Z.eqb_refl, (E3 f bb) by auto. rewrite orb_true_r. reflexivity. }
    rewrite OK. clear OK Hr Hdir Ecv Ebb. unfold wb_patch_init. destruct (Hsz b) as (Z1 & Z2 & Z3).
    rewrite (proj2 (Z.eqb_neq (i_size boot + HDR c) 0)) by (geo G; lia).
    rewrite (proj2 (Z.eqb_neq (szs b) 0)) by lia. cbn [orb]. fold (poff b).
    assert (Tot : 0 < get_total_size c boot update <= PART c /\ zlen D <= get_total_size c boot update /\
        (1 <= k -> get_total_size c boot update = maxTD D T)).
    { unfold get_total_size, maxTD. rewrite ZU. pose proof HD0. pose proof (gn_fit _ _ _ GD).
      destruct (Z.gtb_spec (zlen D - HDR c + HDR c) (i_size boot + HDR c)); (split; [geo G; lia|]; split; [lia|];
        intro K1; specialize (ZT K1); lia). }
    destruct Tot as (T1 & T2 & T3). set (tot := get_total_size c boot update) in *. clearbody tot.
    assert (DC : exists full ts, dec i e (pt_of D (poff b)) (szs b) full 0 (mkP 0 false 0 0) ts /\
       (active c i e N full k sw f \/ Z.max tot (zlen T) <= k * SECT c)).
    { destruct (Z.ltb_spec k N) as [Hk|Hk].
      - destruct Hb as [ -> |]; [|lia]. destruct Hdec1 as (ts & Hd). exists true, ts. split; [exact Hd|]. left. split; [reflexivity|].
        destruct sw; [right; auto|left]. split; [reflexivity|].
        pose proof M as (_ & _ & (_ & _ & P) & _). unfold pc in P. rewrite (proj2 (Z.ltb_lt k N) Hk) in P.
        destruct P as (P1 & P2 & _). unfold midway, from. rewrite Hsect. split; assumption.
      - destruct (Hdec b) as (ts & Hd). exists false, ts. split; [exact Hd|]. right.
        rewrite T3 by lia. assert (MX : (N - 1) * SECT c < maxTD D T <= N * SECT c).
        { destruct HN as (X1 & X2 & X3 & X4 & X5). unfold maxTD. clear -X1 X2 X3 X4. lia. }
        assert (NK : N * SECT c <= k * SECT c) by (apply Z.mul_le_mono_nonneg_r; lia). unfold maxTD in *.
        clear -MX NK. lia. }
    destruct DC as (full & ts & Hd & Hact).
    apply wpc_bind.
    assert (HptD : forall j, 0 <= j < szs b -> pt_of D (poff b) j = nth (Z.to_nat (poff b + j)) D 0) by reflexivity.
    eapply wpc_post; [apply (delta_loop_wpc c blk i e D T vT N inv G F HN GT HD0 Hblk Hdiv Hsect Hsa' He HbT HW boot update
      (pt_of D (poff b)) (poff b) (szs b) (pt_bytes _) ltac:(lia) ltac:(lia) HptD HB HU C HC
      (sector_fuel c) full (mkP 0 false 0 0) ts 0 k sw tot f M ltac:(lia) Hd)|].
    - left. destruct M as (_ & Mk & _). lia.
    - unfold sector_fuel. destruct M as (_ & Mk & _). lia.
    - exact T1.
    - lia.
    - exact T2.
    - exact Hact.
    - cbn beta. intros rr f1 _ (s & k' & sw' & -> & M1 & Hs1 & Hk1). apply wpc_bind.
      eapply wpc_post; [apply (erase_boot_rest_wpc c i e D T N inv G F HN HD0 Hsa' HbT C HC boot HB (sector_fuel c) s k' sw' f1 Hk1 Hs1)|].
      + unfold sector_fuel. lia.
      + exact M1.
      + cbn beta. intros _ f2 _ M2. apply wpc_bind.
        eapply wpc_post; [apply (dfinal_wpc c i e D T vT N inv G F HN GT HD0 Hsa' HbT k' sw' u f2 C RC2 RC3 HC Hk1 M2)|].
        cbn beta. intros _ f3 _ M3. cbn [wpc]. auto.
  Qed.

  (** *** The direction is recorded *)
  Lemma dmid_arm_up : forall k sw f, dm false k sw f -> inv = true \/ 1 <= k \/ sw = true -> dm true k sw f.
  Proof.
    intros k sw f (A & B & C & (D1 & D2 & D3 & D4 & D5)) H. split; [exact A|]. split; [exact B|]. split; [exact C|].
    split; [exact D1|]. split; [exact D2|]. split; [exact D3|]. split; [exact D4|].
    unfold dst in *. cbn zeta in *. destruct inv; [exact D5|]. left.
    destruct D5 as [D5|(_ & E1 & E2 & _)]; [exact D5|]. destruct H as [H|[H|H]]; [discriminate|lia|congruence].
  Qed.

  Lemma set_updating_wpc : forall f (C : flash -> Prop), resting C -> inv = false -> dm false 0 false f ->
    wpc t (set_partition_state c PUPDATE ST_UPDATING) (fun _ f' => dm true 0 false f') C f.
  Proof.
    intros f C (RC & _) Hinv M. pose proof M as (Mb & Mk & MC & (T1 & T2 & T3 & T4 & Td)).
    destruct (dl_range c i D T N G F HN Hsa' HbT) as (R1 & R2 & R3 & R4 & R5 & R6).
    assert (Hm : magicable c f PUPDATE).
    { destruct T1 as [E|(_ & _ & E)]; [apply has_magic_magicable; assumption|exact E]. }
    assert (Hst : Z.land (f (state_addr c PUPDATE)) ST_UPDATING = ST_UPDATING).
    { unfold dst in Td. rewrite Hinv in Td. destruct Td as [(_ & ->)|(_ & _ & _ & _ & E)]; [reflexivity|exact E]. }
    assert (OUT : forall f', (forall x, ~ (state_addr c PUPDATE <= x < magic_addr c PUPDATE + 4) -> f' x = f x) ->
       outside c f f' /\ (forall s, 0 <= s < PART c / SECT c -> nib c f' s = nib c f s) /\
       get_partition_state c f' PBOOT = get_partition_state c f PBOOT).
    { intros f' O. split; [|split].
      - intros x Hx. apply O. rewrite state_addr_eq, magic_addr_eq. cbn [endflags part_addr]. clear -G F Hx. geo G. zl.
      - intros s Hs. destruct (sectors_div c s G F Hs) as (_ & Ha). unfold nib. rewrite O; [reflexivity|].
        rewrite state_addr_eq. cbn [endflags part_addr]. clear -Ha F; pose proof (fit_own _ F); lia.
      - apply (same_state c f f' PBOOT). intros x Hx. apply O.
        rewrite state_addr_eq, magic_addr_eq. cbn [endflags part_addr] in *. clear -G F Hx. geo G. zl. }
    assert (Tr : forall arm f', bytes f' -> (forall x, ~ (state_addr c PUPDATE <= x < magic_addr c PUPDATE + 4) -> f' x = f x) ->
      has_magic c f' PUPDATE = true \/ magicable c f' PUPDATE -> dst c N inv arm 0 false f' -> dm arm 0 false f').
    { intros arm f' B' O Hm' Hd. destruct (OUT f' O) as (O1 & O2 & O3). split; [exact B'|]. split; [exact Mk|].
      split; [eapply dcont_out; eauto using Hsa', HD0|].
      split; [destruct Hm' as [E|E]; [left; exact E|right; auto]|].
      split; [intros s Hs; lia|]. split; [intros s Hs; rewrite O2 by (clear -Hs; lia); apply T3, Hs|]. split; [rewrite O2 by (clear -R1 R5; lia); exact T4|exact Hd]. }
    destruct (run_set_state c f PUPDATE ST_UPDATING Mb ltac:(unfold is_byte, ST_UPDATING; lia) Hm) as (f1 & R & B1 & S1 & O1).
    rewrite Hst in S1. unfold get_partition_state in S1.
    assert (M1 : has_magic c f1 PUPDATE = true /\ f1 (state_addr c PUPDATE) = ST_UPDATING).
    { destruct (has_magic c f1 PUPDATE); [|discriminate]. split; [reflexivity|]. injection S1 as S1. exact S1. }
    apply (wpc_intro t _ _ _ f tt f1); [exact R| |].
    - apply Tr; auto; [left; apply M1|]. unfold dst. rewrite Hinv. left. exact M1.
    - intros f' Hc. destruct (crash_set_state t c PUPDATE ST_UPDATING f f' Mb ltac:(unfold is_byte, ST_UPDATING; lia) Hm Hc)
        as (B3 & M3 & Hm3 & O3 & Bt3). rewrite Hst in Bt3.
      apply RC. exists 0, false. apply Tr; auto. destruct (OUT f' O3) as (_ & _ & E3).
      unfold dst in *. rewrite Hinv in *. cbn zeta in *. rewrite E3.
      destruct Td as [(A1 & A2)|(_ & A1 & A2 & A3 & A4)].
      + left. split; [apply Hm3, A1|]. rewrite A2 in Bt3. destruct Bt3 as (K1 & K2).
        rewrite <- K2. exact K1.
      + right. split; [reflexivity|]. split; [reflexivity|]. split; [reflexivity|]. split; [exact A3|]. apply Bt3.
  Qed.

  Lemma d_flag0 : forall arm k sw f, dm arm k sw f ->
    (k = 0 /\ sw = false /\ flag_of c f 0 = SF_NEW) \/
    ((1 <= k \/ sw = true) /\ flag_of c f 0 <> SF_NEW /\ has_magic c f PUPDATE = true).
  Proof.
    intros arm k sw f (_ & Hk & _ & (T1 & T2 & _ & T4 & _)). unfold flag_of. rewrite get_flag_nib.
    destruct (Z.eq_dec k 0) as [->|Hne].
    - destruct sw.
      + right. destruct T1 as [T1|(_ & E & _)]; [|discriminate]. rewrite T1, T4. split; [auto|]. split; [discriminate|reflexivity].
      + left. split; [reflexivity|]. split; [reflexivity|]. destruct (has_magic c f PUPDATE); [exact T4|reflexivity].
    - right. split; [left; lia|]. destruct T1 as [T1|(E & _)]; [|lia]. rewrite T1. split; [|reflexivity].
      apply T2. lia.
  Qed.

  Lemma update_delta_wpc : forall d u k sw f (C : flash -> Prop), resting C ->
    dm (negb d) k sw f -> inv = false \/ d = true \/ 1 <= k ->
    wpc t (update_delta c blk u d) (fun b f' => b = true /\ fresh c T D N f') C f.
  Proof.
    intros d u k sw f C RC M Hd. pose proof RC as (RC1 & _).
    destruct (dmid_bytes _ _ _ _ M) as (Mb & MD).
    assert (Hh : hdr_small c) by (apply hs; exact G). assert (Hs : 0 <= SECT c) by (geo G; lia).
    assert (HCf : C f).
    { apply RC1. exists k, sw. destruct d; [exact M|apply dmid_arm, M]. }
    unfold update_delta. cbn [wpc]. cbn zeta.
    destruct (open_img c f PBOOT) as (P1 & P2). destruct (open_img c f PUPDATE) as (P3 & P4).
    change (snd (open_image c f PSWAP)) with (swap_img c).
    assert (Z1 : 0 <= i_size (snd (open_image c f PBOOT)) <= PART c - HDR c).
    { split; [apply open_size_ge; auto; geo G; lia|apply open_size_le; [discriminate|geo G; lia]]. }
    assert (Eu : snd (open_image c f PUPDATE) = stored_image c PUPDATE D false false None).
    { rewrite (stored_open c f PUPDATE D vD); auto. discriminate. }
    assert (Z2 : i_size (snd (open_image c f PUPDATE)) = zlen D - HDR c) by (rewrite Eu; reflexivity).
    pose proof (fun K1 => dmid_boot_size _ _ _ _ M K1) as Z3.
    assert (HT : HDR c < get_total_size c (snd (open_image c f PBOOT)) (snd (open_image c f PUPDATE))).
    { unfold get_total_size. rewrite Z2. pose proof HD0. destruct (Z.gtb_spec (zlen D - HDR c + HDR c) (i_size (snd (open_image c f PBOOT)) + HDR c)); lia. }
    rewrite (proj2 (Z.leb_gt _ _) HT). clear HT.
    destruct (Hty f Mb MD) as (ty & Ety & Dty).
    cbn [pure bind wpc]. rewrite Ety. cbn [bind get wpc].
    change (match get_update_sector_flag c f 0 with Some fl => fl | None => SF_NEW end) with (flag_of c f 0).
    assert (HNE : PBOOT <> PSWAP) by discriminate. assert (HNU : PUPDATE <> PSWAP) by discriminate.
    assert (Chk : wpc t (if flag_of c f 0 =? SF_NEW then update_checks c d (snd (open_image c f PUPDATE)) ty else Ret true)
       (fun b f' => b = true /\ f' = f) C f).
    { destruct (d_flag0 _ _ _ _ M) as [( -> & -> & E)|(_ & E & _)].
      - rewrite E, Z.eqb_refl, Eu. apply (checks_wpc c S D vS vD G GS GD); auto; [eapply dmid_source; exact M|].
        destruct d; [auto|]. right; right. destruct Hd as [Hd|[Hd|Hd]]; [|discriminate|lia]. rewrite Hd in Hdir. apply Hdir.
      - apply Z.eqb_neq in E. rewrite E. cbn [wpc]. auto. }
    apply wpc_bind. eapply wpc_post; [exact Chk|]. cbn beta. clear Chk.
    intros b f' _ (-> & ->). cbn [negb]. rewrite Dty, Z.eqb_refl. cbn [pure bind wpc].
    destruct (version_val c f PBOOT Mb Hh) as (cv & Ecv & _). rewrite Ecv. cbn [bind wpc pure].
    rewrite (stored_version c f PUPDATE D vD) by (auto; try discriminate; apply even_part; auto; discriminate). cbn [bind wpc pure get].
    assert (HB : boot_img c (snd (open_image c f PBOOT))) by (split; assumption).
    assert (HU : update_img c (snd (open_image c f PUPDATE))) by (split; assumption).
    destruct (d_flag0 _ _ _ _ M) as [( -> & -> & E)|(E0 & E & Em)].
    - (* from the start *)
      rewrite E, Z.eqb_refl. cbn [negb orb]. pose proof (dmid_source _ _ M) as HS.
      rewrite (stored_version c f PBOOT S vS) in Ecv by (auto; try discriminate; apply even_part; auto; discriminate).
      injection Ecv as <-. rewrite (proj2 (Z.eqb_neq vS 0)) by lia.
      assert (Ei : (vD <=? vS) = inv).
      { destruct inv; [destruct Hdir as (-> & _); apply Z.leb_refl|]. destruct Hdir as (L & _). apply Z.leb_gt. exact L. }
      rewrite Ei.
      assert (Set_ : wpc t (if negb inv && d then set_partition_state c PUPDATE ST_UPDATING else Ret tt) (fun _ f' => dm true 0 false f') C f).
      { destruct (Bool.bool_dec inv true) as [Einv|Einv].
        - assert (En : negb inv = false) by (rewrite Einv; reflexivity). rewrite En. cbn [andb wpc].
          split; [exact HCf|]. apply dmid_arm_up; auto. destruct d; [exact M|apply dmid_arm, M].
        - apply Bool.not_true_is_false in Einv. assert (En : negb inv = true) by (rewrite Einv; reflexivity).
          rewrite En. cbn [andb]. destruct d.
          + apply set_updating_wpc; auto.
          + cbn [wpc]. split; [exact HCf|exact M]. }
      apply wpc_bind. eapply wpc_post; [exact Set_|]. cbn beta. intros _ f1 _ M1.
      apply (delta_update_wpc inv false u _ _ 0 false f1 C RC HB HU Z2 Z1); auto; lia.
    - (* resumed *)
      apply Z.eqb_neq in E. rewrite E. cbn [negb orb].
      assert (St : get_partition_state c f PUPDATE = Some (f (state_addr c PUPDATE))) by (unfold get_partition_state; rewrite Em; reflexivity).
      rewrite St.
      assert (M1 : dm true k sw f).
      { destruct d; [|exact M]. apply dmid_arm_up; auto. }
      apply (delta_update_wpc _ true u _ _ k sw f C RC HB HU Z2 Z1 Z3 M1); auto.
      destruct M1 as (_ & _ & _ & (_ & _ & _ & _ & Td)). unfold dst in Td. cbn zeta in Td.
      destruct (Z.eqb_spec (f (state_addr c PUPDATE)) ST_UPDATING) as [Es|Es]; cbn [negb].
      + destruct inv; [|auto]. destruct Td as (_ & _ & [K|K] & _); [congruence|auto].
      + destruct inv; [auto|]. destruct Td as [(_ & K)|(K & _)]; [congruence|discriminate].
  Qed.

  (** The last sectors may overwrite the boot trailer when a power failure had corrupted the
      size in the boot header: then the new image runs, not on trial. *)
  Definition early (f : flash) : Prop :=
    inv = true /\ dm false (NL c) true f /\ get_partition_state c f PBOOT <> Some ST_TESTING /\
    get_partition_state c f PUPDATE <> Some ST_UPDATING.

  Lemma start_delta_wpc : forall u f, u 0%nat <> ST_FINAL ->
    (exists k sw, dm false k sw f) \/ final c D T f ->
    wpc t (start_delta c blk u)
      (fun r f' => r = BOOT c + HDR c /\ (fresh c T D N f' \/ (early f' /\ f' = f)))
      (fun f' => (exists k sw, dm false k sw f') \/ final c D T f' \/ fresh c T D N f') f.
  Proof.
    intros u f Hu U. unfold start_delta. cbn [get bind wpc].
    set (Q := fun r f' => r = BOOT c + HDR c /\ (fresh c T D N f' \/ (early f' /\ f' = f))).
    set (C := fun f' => (exists k sw, dm false k sw f') \/ final c D T f' \/ fresh c T D N f').
    assert (RC : resting C) by (unfold C; split; [|split]; auto).
    assert (BS : forall upd f', fresh c T D N f' -> wpc t (boot_stage c upd) Q C f').
    { intros upd f' M. pose proof M as ((Mb & _ & _ & MD & _) & _).
      apply (data_start c T D N G (sectors_sym c D T N HN)) in MD. destruct MD as (D1 & _).
      eapply wpc_post; [apply (boot_stage_wpc t c f' T vT); auto; right; right; exact M|]. cbn beta. intros r f2 _ (-> & ->).
      split; [reflexivity|]. left. exact M. }
    destruct U as [(k & sw & M)|FI].
    - assert (HCf : C f) by (left; eauto).
      apply wpc_bind. eapply wpc_post; [eapply dresume_wpc; eauto using Hsa', HD0|].
      cbn beta. intros b f' _ (-> & ->).
      assert (UP : forall upd d, dm (negb d) k sw f -> inv = false \/ d = true \/ 1 <= k ->
        wpc t ((update_delta c blk (u 1%nat) d ;; Ret tt) ;; boot_stage c upd) Q C f).
      { intros upd d M' H'. apply wpc_bind. apply wpc_bind. eapply wpc_post; [eapply update_delta_wpc; eauto|].
        cbn beta. intros b f1 _ (_ & M1). cbn [wpc]. split; [right; right; exact M1|]. apply BS, M1. }
      pose proof M as (Mb & Mk & MC & (T1 & T2 & T3 & T4 & Td)).
      destruct (dl_range c i D T N G F HN Hsa' HbT) as (R1 & R2 & R3 & R4 & R5 & R6).
      destruct (get_partition_state c f PBOOT) as [sb|] eqn:Eb; [destruct (Z.eqb_spec sb ST_TESTING) as [->|Nb]|].
      1:{ apply (UP _ true); auto. }
      all: assert (NT : get_partition_state c f PBOOT <> Some ST_TESTING) by (rewrite Eb; congruence).
      all: assert (M1 : dm true k sw f /\ (inv = true -> k = NL c /\ sw = true) /\ (inv = false -> get_partition_state c f PUPDATE = Some ST_UPDATING)).
      1,3: (unfold dst in Td; cbn zeta in Td; destruct (Bool.bool_dec inv true) as [Einv|Einv];
        [ rewrite Einv in Td; destruct Td as (_ & _ & _ & [K|K]); [congruence|]; split; [|split; [auto|congruence]];
          apply dmid_arm_up; auto
        | apply Bool.not_true_is_false in Einv; rewrite Einv in Td; destruct Td as [(K1 & K2)|(_ & _ & _ & K & _)]; [|congruence]; split; [|split; [congruence|]];
          [ split; [exact Mb|]; split; [exact Mk|]; split; [exact MC|]; split; [exact T1|]; split; [exact T2|]; split; [exact T3|];
            split; [exact T4|]; unfold dst; cbn zeta; rewrite Einv; left; auto
          | intros _; unfold get_partition_state; rewrite K1, K2; reflexivity ] ]).
      all: destruct M1 as (M1 & I1 & I2).
      all: destruct (get_partition_state c f PUPDATE) as [su|] eqn:Eu;
        [destruct (Z.eqb_spec su ST_UPDATING) as [->|Nu]|].
      all: try (apply (UP _ false); [exact M1|]; destruct inv; [right; right; destruct (I1 eq_refl) as (-> & _); exact R1|auto]).
      all: assert (Hi : inv = true) by (destruct inv; [reflexivity|specialize (I2 eq_refl); congruence]).
      all: destruct (I1 Hi) as (-> & ->); cbn [bind].
      all: destruct (dmid_holds c i e D T N inv HbT _ _ _ _ R2 M) as (D1 & _).
      all: eapply wpc_post; [apply (boot_stage_wpc t c f T vT); auto|]; cbn beta; intros r f2 _ (-> & ->).
      all: split; [reflexivity|right]; split; [|reflexivity]; split; [exact Hi|]; split; [exact M|]; split; congruence.
    - apply wpc_bind. eapply wpc_post; [apply (resume_final_wpc c D T N G F HN (genuine_framed c T vT GT) (u 0%nat) f _)|].
      + intros f' Hf'. right. left. exact Hf'.
      + intros f' Hf'. right. right. exact Hf'.
      + exact FI.
      + cbn beta. intros b f1 _ (-> & M1). cbn [bind]. apply BS, M1.
  Qed.
End DUpdate.
