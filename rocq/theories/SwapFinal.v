(** The final phase of the swap and the whole update, with all crash points. *)
From Verif Require Import Base BaseLemmas HeaderModel Flash FlashLemmas ImageModel ImageSpec ImageProofs
  GenuineProofs TrailerModel TrailerProofs TriggerProofs TrailerCrash SwapModel SwapSpec Geometry CopyProofs
  SwapInv SwapSteps SwapLoop.
Local Ltac Zify.zify_post_hook ::= idtac.

(** The swap is over and its final phase has started: the update trailer says so. *)
Definition final (c : cfg) (X Y : list Z) (f : flash) : Prop :=
  bytes f /\ get_partition_state c f PUPDATE = Some ST_FINAL /\
  rng f (BOOT c) Y 0 (PART c - 2 * SECT c) /\ holds f (UPDATE c) X /\ np c f /\
  swp c f Y ((PART c - 2 * SECT c) / SECT c).

Lemma btw_byte : forall lo hi x, (forall b, is_byte b -> negb ((Z.land b lo =? lo) && (Z.land b hi =? b)) || (b =? lo) || (b =? hi) = true) ->
  is_byte x -> btw lo hi x -> x = lo \/ x = hi.
Proof. intros lo hi x H Hx (B1 & B2). specialize (H x Hx). rewrite B1, B2, !Z.eqb_refl in H. cbn in H. lia. Qed.

Lemma btw_30_70 : forall x, is_byte x -> btw ST_FINAL ST_UPDATING x -> x = ST_FINAL \/ x = ST_UPDATING.
Proof.
  intros x. apply btw_byte. intros b Hb.
  apply (byte_check (fun b => negb ((Z.land b ST_FINAL =? ST_FINAL) && (Z.land b ST_UPDATING =? b)) || (b =? ST_FINAL) || (b =? ST_UPDATING))); auto.
Qed.

(** A swap just completed: [A] on trial, [B] to fall back to, update trailer erased. *)
Definition fresh (c : cfg) (A B : list Z) (N : Z) (f : flash) : Prop :=
  mid c A B N Fallback 0 New f /\ get_partition_state c f PUPDATE = None /\ f (state_addr c PUPDATE) = 255.

Section Phase.
  Variables (c : cfg) (X Y : list Z) (N : Z).
  Hypothesis G : geometry c.
  Hypothesis F : flags_room c.
  Hypothesis HN : sectors c X Y N.
  Hypothesis GY : framed c Y.

  Let t := tear_std c.
  Let K := (PART c - 2 * SECT c) / SECT c.
  Let S14 : 14 <= SECT c \/ UFLAGS c = UPDATE c + PART c := fit_14 c G F.
  Local Ltac gz := pose proof S14; geo G; clearbody K; zl.

  Lemma K_eq : K * SECT c = PART c - 2 * SECT c.
  Proof.
    destruct (g_sect c G) as (_ & S). destruct (g_part c G) as (P & _). unfold K.
    replace (PART c - 2 * SECT c) with (PART c + (-2) * SECT c) by lia.
    rewrite Z.div_add by lia.
    pose proof (Z.div_mod (PART c) (SECT c) ltac:(lia)) as D. rewrite P in D. lia.
  Qed.

  (** Everything from the erase of the boot trailer on. *)
  Definition tail (boot update : image) : prog bool :=
    Er (i_hdr boot + (PART c - SECT c)) (SECT c)
    ((if PART c - SECT c - SECT c <? i_size boot + HDR c
      then copy_sector c (swap_img c) boot ((PART c - SECT c - SECT c) / SECT c)
      else Er (i_hdr boot + (PART c - SECT c - SECT c)) (SECT c) (Ret tt)) ;;
     set_partition_state c PBOOT ST_TESTING ;;
     Er (i_hdr update + (PART c - SECT c)) (SECT c) (Ret true)).

  Lemma sectors_sym : sectors c Y X N.
  Proof. clear -HN. destruct HN as (H1 & H2 & H3 & H4 & H5). repeat split; auto. tauto. Qed.

  Lemma boot_restored : forall f, final c X Y f ->
    (PART c - 2 * SECT c < zlen Y -> rng f (BOOT c) Y (PART c - 2 * SECT c) (PART c - SECT c)) ->
    holds f (BOOT c) Y.
  Proof.
    intros f (_ & _ & F3 & _) H i Hi. destruct (len_bounds c X Y N HN) as (_ & LY).
    destruct (Z.ltb_spec i (PART c - 2 * SECT c)); [apply F3; lia|apply H; zl].
  Qed.

  (** *** From the last sector to the final phase *)

  Definition saf_body (u : Z) (boot update : image) : prog bool :=
    (copy_sector c boot (swap_img c) ((PART c - SECT c - SECT c) / SECT c) ;;
     set_partition_state c PUPDATE ST_FINAL) ;; tail boot update.

  (** For any way the rest may go. *)
  Definition tail_to (C D : flash -> Prop) : Prop := forall boot update f,
    boot_img c boot -> update_img c update -> 0 <= i_size boot ->
    (0 < PART c - 2 * SECT c -> i_size boot = zlen Y - HDR c) ->
    final c X Y f -> holds f (BOOT c) Y -> wpc t (tail boot update) (fun b f' => b = true /\ D f') C f.

  Lemma final_erase_with_wpc : forall d u f (C D : flash -> Prop),
    (forall f', final c X Y f' -> holds f' (BOOT c) Y -> C f') -> tail_to C D ->
    (forall f', mid c X Y N d N New f' -> C f') ->
    mid c X Y N d N New f ->
    wpc t (swap_and_final_erase c u false) (fun _ f' => D f') C f.
  Proof.
    intros d u f C D HC1 HT HC3 M. unfold swap_and_final_erase. cbn [wpc].
    cbn zeta. cbn [andb].
    pose proof M as (Mb & Mk & _ & MD & (T1 & T2 & _)).
    assert (NB : 0 < N) by apply HN.
    destruct T2 as [T2|(E0 & _)]; [|lia].
    assert (HS : exists s, get_partition_state c f PUPDATE = Some s /\ f (state_addr c PUPDATE) = s /\
        s <> ST_FINAL /\ Z.land s ST_FINAL = ST_FINAL).
    { unfold get_partition_state. rewrite T2. exists (f (state_addr c PUPDATE)). split; [reflexivity|].
      split; [reflexivity|]. destruct d; cbn [drv] in T1.
      - destruct T1 as (_ & A). unfold get_partition_state in A. rewrite T2 in A. inversion A as [E]. rewrite E.
        split; [discriminate|reflexivity].
      - destruct T1 as (_ & A & B). auto.
      - destruct T1 as (_ & A & B). auto. }
    destruct HS as (s & S1 & S2 & S3 & S4). rewrite S1.
    destruct (Z.eqb_spec s ST_FINAL) as [E|_]; [congruence|]. cbn [negb].
    destruct (open_img c f PBOOT) as (P1 & P2). destruct (open_img c f PUPDATE) as (P3 & P4).
    apply (data_end c X Y N G HN) in MD. destruct MD as (D1 & D2 & (D3 & D4)).
    assert (Sz : i_size (snd (open_image c f PBOOT)) = zlen Y - HDR c).
    { apply (open_size c f PBOOT Y); auto; [discriminate|apply hs, G|gz|].
      intros i Hi Hy. apply D1. lia. }
    set (boot := snd (open_image c f PBOOT)) in *. set (update := snd (open_image c f PUPDATE)) in *.
    change (snd (open_image c f PSWAP)) with (swap_img c).
    apply wpc_bind. apply wpc_bind. pose proof K_eq as KE.
    replace (PART c - SECT c - SECT c) with (PART c - 2 * SECT c) by zl. fold K.
    destruct (len_bounds c X Y N HN) as (LX & LY).
    assert (MS : forall f', frame f f' (SWAP c) (SECT c) -> mid c X Y N d N New f').
    { intros f' Hf. split; [apply Hf|]. split; [lia|]. split; [congruence|]. split.
      - apply (data_swap_area c X Y N d G HN (HY0 c Y GY) N f); auto. apply (data_end c X Y N G HN). repeat split; auto.
      - destruct M as (_ & _ & _ & _ & Tr). apply (trail_stable c d N New f); auto; [lia| |].
        + destruct (N_bound c X Y N G HN) as (_ & ? & _). gz.
        + eapply (trailers_frame c X Y N d G); [exact Hf|gz|gz]. }
    assert (Dj : disjoint (BOOT c + K * SECT c) (SECT c) (SWAP c) (SECT c)) by (gz).
    apply (copy_sector_wpc t c boot (swap_img c) K f _ _ (BOOT c + K * SECT c) (SWAP c) (K * SECT c) 0); auto.
    - rewrite P1. reflexivity.
    - rewrite P2. reflexivity.
    - cbn [swap_img i_hdr]. lia.
    - intros [E|E]; exfalso; gz.
    - intros [E|E] _; exfalso; gz.
    - intros f1 Hf1 Hg Hc. rewrite Sz in Hc.
      pose proof (MS f1 Hf1) as M1. pose proof M1 as (M1b & _ & _ & M1D & Tr1).
      apply (data_end c X Y N G HN) in M1D. destruct M1D as (E1 & E2 & E3).
      assert (Sw : swp c f1 Y K).
      { split.
        - intros i Hi Hy. rewrite Hc by zl. rewrite (copied_in c G) by (gz).
          replace (BOOT c + K * SECT c + i) with (BOOT c + (K * SECT c + i)) by zl. apply D1. gz.
        - intros _. eapply (copied_word c G); [exact Hc|]. intros _. rewrite KE. exact D3. }
      (* the update state byte *)
      assert (St1 : f1 (state_addr c PUPDATE) = s).
      { rewrite <- S2. apply Hf1. rewrite state_addr_eq. cbn [endflags part_addr]. gz. }
      assert (Mg1 : has_magic c f1 PUPDATE = true).
      { destruct Tr1 as (_ & [A|(A & _)] & _); [exact A|lia]. }
      assert (FS : forall f2, bytes f2 -> has_magic c f2 PUPDATE = true ->
         (forall x, ~ (state_addr c PUPDATE <= x < magic_addr c PUPDATE + 4) -> f2 x = f1 x) ->
         data c X Y N New f2 /\ holds f2 (BOOT c) Y /\ (f2 (state_addr c PUPDATE) = ST_FINAL -> final c X Y f2)).
      { intros f2 B2 Hm2 O2. rewrite state_addr_eq, magic_addr_eq in O2. cbn [endflags part_addr] in O2.
        assert (R1 : holds f2 (BOOT c) Y) by (intros i Hi; rewrite O2 by (gz); apply E1, Hi).
        assert (R2 : holds f2 (UPDATE c) X) by (intros i Hi; rewrite O2 by (gz); apply E2, Hi).
        assert (R3 : np c f2).
        { destruct E3 as (E3 & E4).
          split; [rewrite (word_ext f2 f1 _ (BOOT c + (PART c - 2 * SECT c)))|
                  rewrite (word_ext f2 f1 _ (UPDATE c + (PART c - 2 * SECT c)))]; auto; intros i Hi; apply O2; gz. }
        split; [apply (data_end c X Y N G HN); auto|]. split; [exact R1|]. intro Es.
        split; [exact B2|]. split; [unfold get_partition_state; rewrite Hm2, Es; reflexivity|].
        split; [intros i Hi Hy; apply R1; gz|]. split; [exact R2|]. split; [exact R3|].
        fold K. destruct Sw as (W1 & W2). split.
        - intros i Hi Hy. rewrite O2 by (gz). apply W1; assumption.
        - intro E. rewrite (word_ext f2 f1 _ (SWAP c)); [apply W2, E|]. intros i Hi. apply O2. gz. }
      assert (Mb1 : magicable c f1 PUPDATE) by (apply has_magic_magicable; assumption).
      destruct (run_set_state c f1 PUPDATE ST_FINAL M1b ltac:(unfold is_byte, ST_FINAL; lia) Mb1) as (f2 & R2 & B2 & St2 & O2).
      apply (wpc_intro t _ _ _ f1 tt f2); [exact R2| |].
      + rewrite St1, S4 in St2.
        assert (Hm2 : has_magic c f2 PUPDATE = true /\ f2 (state_addr c PUPDATE) = ST_FINAL).
        { unfold get_partition_state in St2. destruct (has_magic c f2 PUPDATE); [|discriminate].
          split; [reflexivity|]. inversion St2. reflexivity. }
        destruct Hm2 as (Hm2 & Es2).
        assert (F2 : final c X Y f2) by (apply FS; auto).
        assert (H2 : holds f2 (BOOT c) Y) by (apply FS; auto).
        pose proof (HT boot update f2) as TW. unfold tail in TW.
        replace (PART c - SECT c - SECT c) with (PART c - 2 * SECT c) in TW by lia. fold K in TW.
        eapply wpc_conseq; [apply TW; auto| |intros ? K'; exact K'].
        * split; assumption.
        * split; assumption.
        * rewrite Sz. pose proof (HY0 c Y GY). lia.
        * cbn beta. intros b f3 (_ & M3). exact M3.
      + intros f3 Hc3.
        destruct (crash_set_state t c PUPDATE ST_FINAL f1 f3 M1b ltac:(unfold is_byte, ST_FINAL; lia) Mb1 Hc3)
          as (B3 & _ & Hm3 & O3 & Bt3). rewrite St1, S4 in Bt3. specialize (Hm3 Mg1).
        destruct (FS f3 B3 Hm3 O3) as (D3' & H3 & F3).
        destruct (Z.eq_dec (f3 (state_addr c PUPDATE)) ST_FINAL) as [Es|Es]; [apply HC1; [apply F3, Es|exact H3]|].
        apply HC3. split; [exact B3|]. split; [lia|]. split; [congruence|]. split; [exact D3'|].
        pose proof Tr1 as (Td & _ & Tf1 & Tf2 & Tf3).
        assert (Nb : forall s', 0 <= s' < PART c / SECT c -> nib c f3 s' = nib c f1 s').
        { intros s' Hs'. destruct (sectors_room c s' G F Hs') as (_ & Ha). unfold nib. rewrite O3; [reflexivity|].
          rewrite state_addr_eq. cbn [endflags part_addr]. clear -Ha; lia. }
        assert (NI : N < PART c / SECT c).
        { destruct (N_bound c X Y N G HN) as (_ & ? & _). apply sect_idx; auto; gz. }
        split; [|split; [left; exact Hm3|split; [|split]]].
        * assert (PB : get_partition_state c f3 PBOOT = get_partition_state c f1 PBOOT).
          { apply (same_state c f1 f3 PBOOT). intros x Hx. apply O3.
            rewrite state_addr_eq, magic_addr_eq. cbn [endflags part_addr] in *. gz. }
          destruct d; cbn [drv] in *; rewrite PB.
          -- destruct Td as (Td & Td2). split; [exact Td|]. unfold get_partition_state in *.
             rewrite Hm3. rewrite Mg1, St1 in Td2. inversion Td2 as [Ets]. rewrite Ets in Bt3.
             destruct (btw_30_70 _ (B3 _) Bt3) as [E|E]; [congruence|rewrite E; reflexivity].
          -- destruct Td as (Td & _). split; [exact Td|]. split; [|exact Es]. apply Bt3.
          -- destruct Td as (Td & _). split; [exact Td|]. split; [|exact Es]. apply Bt3.
        * intros s' Hs'. rewrite Nb by zl. apply Tf1, Hs'.
        * intros s' Hs'. rewrite Nb by zl. apply Tf2, Hs'.
        * rewrite Nb by zl. exact Tf3.
  Qed.

  Lemma resume_mid_wpc : forall d k ph u f (C : flash -> Prop), u <> ST_FINAL -> C f ->
    mid c X Y N d k ph f ->
    wpc t (swap_and_final_erase c u true) (fun b f' => b = false /\ f' = f) C f.
  Proof.
    intros d k ph u f C Hu HC M. unfold swap_and_final_erase. cbn [wpc]. cbn zeta.
    pose proof M as (_ & _ & _ & (_ & _ & _ & _ & (N1 & _) & _) & (T1 & _)).
    destruct (open_img c f PBOOT) as (_ & P2). rewrite P2. cbn [part_addr].
    replace (PART c - SECT c - SECT c) with (PART c - 2 * SECT c) by zl.
    destruct (Z.eqb_spec (word f (BOOT c + (PART c - 2 * SECT c))) WOLFBOOT_MAGIC_TRAIL) as [E|_]; [contradiction|].
    assert (HF : (match get_partition_state c f PUPDATE with Some s => s | None => u end =? ST_FINAL) = false).
    { apply Z.eqb_neq. unfold get_partition_state in *. destruct d; cbn [drv] in T1.
      - destruct T1 as (_ & T1). unfold get_partition_state in T1. destruct (has_magic c f PUPDATE); [|discriminate].
        inversion T1 as [E]. rewrite E. discriminate.
      - destruct T1 as (_ & _ & T1). destruct (has_magic c f PUPDATE); assumption.
      - destruct T1 as (_ & _ & T1). destruct (has_magic c f PUPDATE); assumption. }
    rewrite HF. cbn [negb andb wpc]. auto.
  Qed.
End Phase.

Section Final.
  Variables (c : cfg) (X Y : list Z) (N : Z).
  Hypothesis G : geometry c.
  Hypothesis FF0 : flags_fit c.
  Hypothesis HN : sectors c X Y N.
  Hypothesis GY : framed c Y.

  Let F : flags_room c := FF0.
  Let Own : own_flags c := proj1 FF0.
  Let t := tear_std c.
  Let K := (PART c - 2 * SECT c) / SECT c.
  Local Ltac gz := unfold own_flags in Own; geo G; clearbody K; zl.

  Local Lemma KE : K * SECT c = PART c - 2 * SECT c.
  Proof. exact (K_eq c G). Qed.

  Lemma final_frame : forall f f' a n, frame f f' a n ->
    BOOT c + (PART c - 2 * SECT c) <= a -> a + n <= BOOT c + PART c -> word f' (BOOT c + (PART c - 2 * SECT c)) <> MT ->
    final c X Y f -> final c X Y f'.
  Proof.
    intros f f' a n (Hb & H) D1 D2 Hw (F1 & F2 & F3 & F4 & (N1 & N2) & F5 & F6).
    destruct (len_bounds c X Y N HN) as (LX & LY). geo G.
    split; [exact Hb|]. split.
    { rewrite <- F2. apply (same_state c f f' PUPDATE). intros x Hx. apply H. cbn [endflags part_addr] in Hx. gz. }
    split; [eapply rng_stable; [|exact F3]; intros; apply H; zl|].
    split; [intros i Hi; rewrite H by zl; apply F4, Hi|].
    split; [split; [exact Hw|]|split].
    - rewrite (word_ext f' f _ (UPDATE c + (PART c - 2 * SECT c))); auto. intros i Hi. apply H. zl.
    - intros i Hi Hy. rewrite H by zl. apply F5; assumption.
    - intro E. rewrite (word_ext f' f _ (SWAP c)); [apply F6, E|]. intros i Hi. apply H. zl.
  Qed.

  (** After the erase of the update trailer, the roles are exchanged. *)
  Lemma fresh_mid : forall f, bytes f -> holds f (BOOT c) Y -> holds f (UPDATE c) X -> np c f ->
    get_partition_state c f PBOOT = Some ST_TESTING ->
    fresh c Y X N (erase f (UPDATE c + (PART c - SECT c)) (SECT c)).
  Proof.
    intros f Hb HB HU (N1 & N2) HS. destruct (len_bounds c X Y N HN) as (LX & LY).
    set (f' := erase f (UPDATE c + (PART c - SECT c)) (SECT c)).
    assert (Hout : forall x, ~ (UPDATE c + (PART c - SECT c) <= x < UPDATE c + (PART c - SECT c) + SECT c) -> f' x = f x)
      by (intros; apply erase_out; assumption).
    assert (Hin : forall x, UPDATE c + (PART c - SECT c) <= x < UPDATE c + (PART c - SECT c) + SECT c -> f' x = 255)
      by (intros; apply erase_in; assumption).
    assert (HNp : 0 < N) by apply HN.
    assert (Hnm : has_magic c f' PUPDATE = false).
    { unfold has_magic. apply Z.eqb_neq. apply word_erased. intros i Hi. rewrite magic_addr_eq. apply Hin.
      cbn [endflags part_addr]. gz. }
    assert (HSt : f' (state_addr c PUPDATE) = 255).
    { rewrite state_addr_eq. apply Hin. cbn [endflags part_addr]. gz. }
    split; [|split; [unfold get_partition_state; rewrite Hnm; reflexivity|exact HSt]].
    split; [apply bytes_erase, Hb|]. split; [lia|]. split; [congruence|]. split.
    - apply (data_start c Y X N G (sectors_sym c X Y N HN)). geo G. split; [intros i Hi; rewrite Hout by zl; apply HB, Hi|].
      split; [intros i Hi; rewrite Hout by zl; apply HU, Hi|].
      split; [rewrite (word_ext f' f _ (BOOT c + (PART c - 2 * SECT c)))|
              rewrite (word_ext f' f _ (UPDATE c + (PART c - 2 * SECT c)))]; auto; intros i Hi; apply Hout; lia.
    - assert (Hnib : forall s, 0 <= s < PART c / SECT c -> nib c f' s = SF_NEW).
      { intros s Hs. destruct (sectors_div c s G FF0 Hs) as (_ & Ha). unfold nib. rewrite Hin by gz.
        destruct (flag_low s); reflexivity. }
      assert (H0 : 0 < PART c / SECT c).
      { apply sect_idx; auto; gz. }
      split; [|split; [|split; [|split]]].
      + cbn [drv]. rewrite HSt. split; [|split; [reflexivity|discriminate]].
        rewrite <- HS. apply (same_state c f f' PBOOT). intros x Hx. apply Hout.
        geo G. cbn [endflags part_addr] in Hx. zl.
      + right. split; [reflexivity|]. split; [reflexivity|]. apply erased_magicable. intros i Hi.
        rewrite magic_addr_eq. apply Hin. cbn [endflags part_addr]. gz.
      + intros s Hs. lia.
      + intros s Hs. apply Hnib. lia.
      + apply Hnib. lia.
  Qed.

  Lemma tail_wpc : forall boot update f (C : flash -> Prop),
    boot_img c boot -> update_img c update -> 0 <= i_size boot ->
    (0 < PART c - 2 * SECT c -> i_size boot = zlen Y - HDR c) ->
    (forall f', final c X Y f' -> C f') -> (forall f', fresh c Y X N f' -> C f') ->
    final c X Y f ->
    wpc t (tail c boot update) (fun b f' => b = true /\ fresh c Y X N f') C f.
  Proof.
    intros boot update f C (HB1 & HB2) (HU1 & HU2) Hsz0 Hsz HC1 HC2 FI. unfold tail. rewrite HB2, HU2. cbn [wpc].
    pose proof FI as (Fb & _ & _ & _ & (Fn1 & Fn2) & _). 
    destruct (len_bounds c X Y N HN) as (LX & LY).
    set (A := BOOT c + (PART c - SECT c)).
    assert (FE : forall f', frame f f' A (SECT c) -> final c X Y f').
    { intros f' Hf. apply (final_frame f f' A (SECT c)); auto; try (unfold A; gz).
      rewrite (word_ext f' f _ (BOOT c + (PART c - 2 * SECT c))); auto. intros i Hi. apply Hf. unfold A. gz. }
    split; [apply HC1, FI|]. split; [intros f' T; apply HC1, FE; eapply frame_torn_erase; exact T|].
    set (f1 := erase f A (SECT c)).
    assert (F1 : final c X Y f1) by (apply FE, frame_erase, Fb).
    pose proof F1 as (Fb1 & _ & _ & _ & (Fn3 & Fn4) & Fsw).
    assert (E1 : forall x, A <= x < A + SECT c -> f1 x = 255) by (intros; apply erase_in; assumption).
    (* second step: the sector before the trailer *)
    assert (Mid : wpc t (if PART c - SECT c - SECT c <? i_size boot + HDR c
       then copy_sector c (swap_img c) boot ((PART c - SECT c - SECT c) / SECT c)
       else Er (BOOT c + (PART c - SECT c - SECT c)) (SECT c) (Ret tt))
       (fun _ f2 => final c X Y f2 /\ holds f2 (BOOT c) Y /\ (forall x, A <= x < A + SECT c -> f2 x = 255)) C f1).
    { set (B := BOOT c + (PART c - 2 * SECT c)).
      assert (FF : forall f2, frame f1 f2 B (SECT c) -> word f2 B <> MT -> final c X Y f2).
      { intros f2 Hf Hw. apply (final_frame f1 f2 B (SECT c)); auto; unfold B; gz. }
      assert (FT : forall f2, frame f1 f2 B (SECT c) -> forall x, A <= x < A + SECT c -> f2 x = 255).
      { intros f2 Hf x Hx. rewrite (proj2 Hf); [apply E1, Hx|unfold A, B in *; lia]. }
      destruct (Z.ltb_spec (PART c - SECT c - SECT c) (i_size boot + HDR c)) as [HL|HL].
      - replace (PART c - SECT c - SECT c) with (PART c - 2 * SECT c) by zl. fold K.
        apply (copy_sector_wpc t c (swap_img c) boot K f1 _ _ (SWAP c) B 0 (K * SECT c)); auto.
        + rewrite HB1. reflexivity.
        + cbn. lia.
        + rewrite HB2, KE. reflexivity.
        + unfold B. gz.
        + intros _ _. apply Fsw. exact KE.
        + intros f2 Hf Hg. apply HC1, FF; auto. apply Hg. left. reflexivity.
        + intros f2 Hf Hg Hc. assert (FI2 : final c X Y f2) by (apply FF; auto; apply Hg; left; reflexivity).
          split; [exact FI2|]. split; [|apply FT, Hf].
          apply (boot_restored c X Y N HN); [exact FI2|]. intros HY i Hi Hy.
          replace (BOOT c + i) with (B + (i - (PART c - 2 * SECT c))) by (unfold B; lia).
          rewrite Hc by zl. rewrite (copied_in c G) by (cbn [i_size swap_img]; gz).
          destruct Fsw as (Fsw & _). fold K in Fsw. rewrite KE in Fsw. rewrite Fsw by zl. do 2 f_equal. lia.
      - replace (PART c - SECT c - SECT c) with (PART c - 2 * SECT c) by zl. cbn [wpc]. fold B.
        assert (HP : zlen Y <= PART c - 2 * SECT c).
        { pose proof (HY0 c Y GY). geo G.
          destruct (Z.ltb_spec 0 (PART c - 2 * SECT c)); [specialize (Hsz ltac:(lia)); lia|lia]. }
        assert (Her : word (erase f1 B (SECT c)) B <> MT).
        { apply word_erased. intros i Hi. apply erase_in. gz. }
        split; [apply HC1, F1|]. split.
        + intros f2 T. apply HC1. apply FF; [eapply frame_torn_erase; exact T|].
          destruct T as (_ & _ & _ & T). intro E. destruct (T B) as [E'|E']; auto. left. reflexivity.
        + assert (F2 : final c X Y (erase f1 B (SECT c))) by (apply FF; [apply frame_erase, Fb1|exact Her]).
          split; [apply HC1, F2|]. split; [exact F2|]. split; [|apply FT, frame_erase, Fb1].
          apply (boot_restored c X Y N HN); [exact F2|]. lia. }
    apply wpc_bind. eapply wpc_post; [exact Mid|]. cbn beta. clear Mid.
    intros _ f2 _ (F2 & H2 & T2). apply wpc_bind.
    assert (FS : forall f3, bytes f3 -> (forall x, ~ (state_addr c PBOOT <= x < magic_addr c PBOOT + 4) -> f3 x = f2 x) ->
       final c X Y f3 /\ holds f3 (BOOT c) Y).
    { intros f3 Hb3 H3. rewrite magic_addr_eq, state_addr_eq in H3. cbn [endflags part_addr] in H3. split.
      - apply (final_frame f2 f3 A (SECT c)); auto; try (unfold A; gz).
        + split; [exact Hb3|]. intros x Hx. apply H3. unfold A in Hx. gz.
        + destruct F2 as (_ & _ & _ & _ & (N1 & _) & _).
          rewrite (word_ext f3 f2 _ (BOOT c + (PART c - 2 * SECT c))); auto. intros i Hi. apply H3. gz.
      - intros i Hi. rewrite H3 by (gz). apply H2, Hi. }
    assert (Hm : magicable c f2 PBOOT).
    { apply erased_magicable. intros i Hi. rewrite magic_addr_eq. apply T2. unfold A. cbn [endflags part_addr]. gz. }
    assert (Hst : f2 (state_addr c PBOOT) = 255).
    { rewrite state_addr_eq. apply T2. unfold A. cbn [endflags part_addr]. gz. }
    assert (Fb2 : bytes f2) by apply F2.
    destruct (run_set_state c f2 PBOOT ST_TESTING Fb2 ltac:(unfold is_byte, ST_TESTING; lia) Hm) as (f3 & R3 & B3 & S3 & O3).
    apply (wpc_intro t _ _ _ f2 tt f3); [exact R3| |].
    - destruct (FS f3 B3 O3) as (F3 & H3). rewrite Hst in S3. change (Z.land 255 ST_TESTING) with ST_TESTING in S3.
      cbn [wpc]. split; [apply HC1, F3|]. split.
      + intros f4 (T & _). exfalso. apply T. cbn [atomic_erase tear_std t]. gz.
      + pose proof F3 as (_ & _ & _ & U3 & N3 & _).
        assert (M : fresh c Y X N (erase f3 (UPDATE c + (PART c - SECT c)) (SECT c)))
          by (apply fresh_mid; auto).
        split; [apply HC2, M|]. auto.
    - intros f4 Hc. apply HC1.
      destruct (crash_set_state t c PBOOT ST_TESTING f2 f4 Fb2 ltac:(unfold is_byte, ST_TESTING; lia) Hm Hc) as (B4 & _ & _ & O4 & _).
      apply FS; assumption.
  Qed.

  Lemma final_erase_wpc : forall d u f (C : flash -> Prop),
    (forall f', final c X Y f' -> C f') -> (forall f', fresh c Y X N f' -> C f') ->
    (forall f', mid c X Y N d N New f' -> C f') ->
    mid c X Y N d N New f ->
    wpc t (swap_and_final_erase c u false) (fun _ f' => fresh c Y X N f') C f.
  Proof.
    intros d u f C HC1 HC2 HC3 M. apply (final_erase_with_wpc c X Y N G F HN GY d u f C); auto.
    intros boot update f2 HB HU S0 Sz F2 _. apply tail_wpc; auto.
  Qed.

  (** *** Resuming the final phase *)

  Lemma resume_final_wpc : forall u f (C : flash -> Prop),
    (forall f', final c X Y f' -> C f') -> (forall f', fresh c Y X N f' -> C f') ->
    final c X Y f ->
    wpc t (swap_and_final_erase c u true) (fun b f' => b = true /\ fresh c Y X N f') C f.
  Proof.
    intros u f C HC1 HC2 FI. unfold swap_and_final_erase. cbn [wpc]. cbn zeta.
    pose proof FI as (Fb & Fs & Fr & _). rewrite Fs, Z.eqb_refl. cbn [negb]. rewrite andb_false_r. cbn [bind].
    destruct (open_img c f PBOOT) as (P1 & P2). destruct (open_img c f PUPDATE) as (P3 & P4).
    apply (tail_wpc (snd (open_image c f PBOOT)) (snd (open_image c f PUPDATE)) f C); auto.
    - split; assumption.
    - split; assumption.
    - apply open_size_ge; auto; gz.
    - intro HP. apply (open_size c f PBOOT Y); auto; [discriminate|apply hs, G|gz|].
      intros i Hi Hy. apply Fr; [|exact Hy]. split; [lia|].
      destruct (sect_le c 0 G ltac:(lia)) as [E|E]; gz.
  Qed.

End Final.
