(** Decoding a patch stored in flash, sector by sector, into the swap area. *)
From Verif Require Import Base BaseLemmas HeaderModel Flash FlashLemmas ImageModel ImageSpec TrailerModel SwapModel Geometry
  CopyProofs DeltaModel DeltaSpec DeltaProofs DeltaUpdateModel.
Local Ltac Zify.zify_post_hook ::= idtac.

(** ** The decoder does not read past the end of a well-formed patch *)

Inductive inb (pt : Z -> Z) (psz : Z) : Z -> Prop :=
| ib_end : forall off, psz <= off -> inb pt psz off
| ib_lit : forall off, off < psz -> pt off <> 127 -> inb pt psz (off + 1) -> inb pt psz off
| ib_esc : forall off, off + 1 < psz -> pt off = 127 -> pt (off + 1) = 127 -> inb pt psz (off + 2) -> inb pt psz off
| ib_copy : forall off, off + 5 < psz -> pt off = 127 -> pt (off + 1) <> 127 -> inb pt psz (off + 6) -> inb pt psz off.

Lemma inb_encoded : forall pt psz ts off, Forall good_tok ts -> holds pt off (encoded ts) ->
  psz = off + zlen (encoded ts) -> inb pt psz off.
Proof.
  intros pt psz. induction ts as [|t ts IH]; intros off F H E; inversion F; subst.
  - apply ib_end. cbn [encoded flat_map]. unfold zlen. cbn [length]. lia.
  - cbn [encoded flat_map] in *. fold (encoded ts) in *. apply holds_app in H. destruct H as (Ht & H).
    rewrite zlen_app in *. pose proof (zlen_nonneg (encoded ts)). pose proof (enc_len t).
    assert (Rec : forall l, l = zlen (enc t) -> inb pt (off + (zlen (enc t) + zlen (encoded ts))) (off + l)).
    { intros l ->. apply IH; auto. lia. }
    assert (B : forall k v, nth_error (enc t) k = Some v -> pt (off + Z.of_nat k) = v).
    { intros k v Hk. assert (k < length (enc t))%nat by (apply nth_error_Some; congruence).
      rewrite (Ht (Z.of_nat k)) by (unfold zlen; lia). rewrite Nat2Z.id. apply nth_error_nth. exact Hk. }
    destruct t as [b|o n]; cbn [enc good_tok] in *.
    + unfold literal, ESC in *. destruct (Z.eqb_spec b 127) as [->|N].
      * assert (zlen [127; 127] = 2) by reflexivity. apply ib_esc; [lia| | |apply Rec; reflexivity].
        -- rewrite <- (B O 127 eq_refl). f_equal. lia.
        -- rewrite <- (B 1%nat 127 eq_refl). reflexivity.
      * assert (zlen [b] = 1) by reflexivity. apply ib_lit; [lia| |apply Rec; reflexivity].
        pose proof (B O b eq_refl) as B0. change (Z.of_nat 0) with 0 in B0. rewrite Z.add_0_r in B0. congruence.
    + destruct H2 as (Ho & Hn). rewrite (block_hdr_bytes o n) in * by lia.
      assert (0 <= o / 65536 < 127) by (split; [apply Z.div_pos; lia|apply Z.div_lt_upper_bound; lia]).
      pose proof (B O _ eq_refl) as B0. pose proof (B 1%nat _ eq_refl) as B1.
      change (Z.of_nat 0) with 0 in B0. change (Z.of_nat 1) with 1 in B1. rewrite Z.add_0_r in B0.
      match goal with H : 0 < zlen ?l |- _ => assert (zlen l = 6) by reflexivity end.
      apply ib_copy; [lia|exact B0|lia|]. apply Rec. reflexivity.
Qed.

Lemma patch_loop_agree : forall fuel src pt pt' psz len d x, inb pt psz (p_off x) -> 0 <= p_off x ->
  (forall j, 0 <= j < psz -> pt' j = pt j) ->
  patch_loop fuel src pt' psz len d x = patch_loop fuel src pt psz len d x /\
  (forall o x', patch_loop fuel src pt psz len d x = Val (o, x') -> inb pt psz (p_off x')).
Proof.
  induction fuel as [|fuel IH]; intros src pt pt' psz len d x I0 H0 Ha; cbn [patch_loop];
    destruct ((p_matching x || (p_off x <? psz)) && (d <? len)) eqn:Ec;
    try (split; [reflexivity|intros o x' E; congruence]).
  assert (Hm : p_matching x = true \/ p_off x < psz) by (destruct (p_matching x); [auto|right; lia]).
  assert (St : patch_step src (fun k => pt' (p_off x + k)) len d x = patch_step src (fun k => pt (p_off x + k)) len d x /\
    forall o x1, patch_step src (fun k => pt (p_off x + k)) len d x = Val (o, x1) -> inb pt psz (p_off x1) /\ 0 <= p_off x1).
  { unfold patch_step. destruct (p_matching x).
    - split; [reflexivity|]. intros o x1. destruct (_ >? len); [discriminate|]. intro E.
      assert (p_off x1 = p_off x) as -> by (destruct (p_blk_sz x >? len); injection E as _ <-; reflexivity). auto.
    - assert (Hlt : p_off x < psz) by (destruct Hm; [discriminate|assumption]).
      assert (E0 : pt' (p_off x + 0) = pt (p_off x + 0)) by (apply Ha; lia). rewrite E0.
      rewrite Z.add_0_r. unfold ESC, BLOCK_HDR_SIZE.
      inversion I0 as [o1 K|o1 K1 K2 K3|o1 K1 K2 K3 K4|o1 K1 K2 K3 K4]; subst o1; [lia| | |].
      + rewrite (proj2 (Z.eqb_neq _ _) K2). split; [reflexivity|]. intros o x1 E. injection E as _ <-. cbn [p_off]. split; [exact K3|lia].
      + rewrite K2, (Ha (p_off x + 1)), K3 by lia. cbn [Z.eqb]. change (127 =? 127) with true.
        split; [reflexivity|]. intros o x1 E. injection E as _ <-. cbn [p_off]. split; [exact K4|lia].
      + rewrite K2, (Ha (p_off x + 1)), (Ha (p_off x + 2)), (Ha (p_off x + 3)), (Ha (p_off x + 4)), (Ha (p_off x + 5)) by lia.
        change (127 =? 127) with true. rewrite (proj2 (Z.eqb_neq _ _) K3). split; [reflexivity|].
        intros o x1 E. destruct (_ >? _); injection E as _ <-; cbn [p_off]; (split; [exact K4|lia]). }
  destruct St as (St1 & St2). rewrite St1.
  destruct (patch_step src (fun k => pt (p_off x + k)) len d x) as [[o x1]| |]; cbn [obind]; try (split; [reflexivity|discriminate]).
  destruct (St2 o x1 eq_refl) as (I1 & P1).
  destruct (IH src pt pt' psz len (d + zlen o) x1 I1 P1 Ha) as (R1 & R2). rewrite R1.
  split; [reflexivity|]. intros o' x'. destruct (patch_loop fuel src pt psz len (d + zlen o) x1) as [[o2 x2]| |]; cbn [obind]; try discriminate.
  intro E. injection E as _ <-. eapply R2. reflexivity.
Qed.

Lemma wb_patch_agree : forall src pt pt' psz len x, inb pt psz (p_off x) -> 0 <= p_off x ->
  (forall j, 0 <= j < psz -> pt' j = pt j) ->
  wb_patch src pt' psz x len = wb_patch src pt psz x len /\
  (forall o x', wb_patch src pt psz x len = Val (Some (o, x')) -> inb pt psz (p_off x')).
Proof.
  intros src pt pt' psz len x I0 H0 Ha. unfold wb_patch. destruct (len <? BLOCK_HDR_SIZE); [split; [reflexivity|discriminate]|].
  destruct (patch_loop_agree (Z.to_nat (psz + len + 7)) src pt pt' psz len 0 x I0 H0 Ha) as (E1 & E2). rewrite E1.
  split; [reflexivity|]. intros o x'. destruct (patch_loop _ src pt psz len 0 x) as [[o1 x1]| |]; cbn [obind]; try discriminate.
  intro E. injection E as -> ->. eapply E2. reflexivity.
Qed.

(** Output bytes are bytes. *)
Definition lit_ok (t : tok) : Prop := match t with Lit b => is_byte b | Copy _ _ => True end.
Lemma parsed_lits : forall pt psz off ts, bytes pt -> parsed pt psz off ts -> Forall lit_ok ts.
Proof.
  intros pt psz off ts Hb P. induction P; constructor; auto; cbn [lit_ok]; auto.
  unfold is_byte. lia.
Qed.
Lemma splits_lits : forall ts a b, splits ts a b -> Forall lit_ok ts -> Forall lit_ok a.
Proof. intros ts a b S. induction S; intro F; auto; inversion F; subst; constructor; auto. Qed.
Lemma rdl_in : forall n f a x, bytes f -> In x (rdl f a n) -> is_byte x.
Proof. induction n as [|n IH]; intros f a x Hb I; cbn [rdl] in I; [contradiction|]. destruct I as [<-|I]; [apply Hb|eapply IH; eauto]. Qed.
Lemma expand_in : forall src ts x, bytes src -> Forall lit_ok ts -> In x (expand src ts) -> is_byte x.
Proof.
  intros src ts x Hb F I. unfold expand in I. apply in_flat_map in I. destruct I as (t & It & Ix).
  rewrite Forall_forall in F. specialize (F t It). destruct t as [b|o n]; cbn [expand1 lit_ok] in *.
  - destruct Ix as [<-|[]]. exact F.
  - eapply rdl_in; eauto.
Qed.

(** ** One sector *)

Section Apply.
  Variables (c : cfg) (blk : Z) (i : din) (e : Z) (boot update swap : image) (pt : Z -> Z) (poff psz : Z).
  Hypothesis Hblk : 6 <= blk.
  Hypothesis Hdiv : (blk | SECT c).
  Hypothesis Hsect : d_sect i = SECT c.
  Hypothesis HS : 8 <= SECT c.
  Hypothesis Hpt : bytes pt.
  Hypothesis Hpsz : 0 <= psz.
  Hypothesis Eswap : i_hdr swap = SWAP c.

  (** The decoder is in state [x], about to produce [ts]; with [full], these are the right
      instructions for the target from [pos] on, and it ends at [e]. *)
  Definition dec (full : bool) (pos : Z) (x : pctx) (ts : list tok) : Prop :=
    inb pt psz (p_off x) /\ about pt psz x ts /\
    (full = true -> chained i pos ts /\ (pos + total ts = e \/ ts = [] /\ e <= pos)).

  Lemma dec_weak : forall full pos pos' x ts, dec full pos x ts -> dec false pos' x ts.
  Proof. intros full pos pos' x ts (A & B & _). split; [exact A|]. split; [exact B|discriminate]. Qed.

  Lemma patch_sector_wpc : forall t full store k f0 (Q : option pctx -> flash -> Prop) (C : flash -> Prop),
    0 <= k -> 
    (forall f, frame f0 f (SWAP c) (SECT c) -> forall j, 0 <= j < psz -> from f (i_hdr update + poff) j = pt j) ->
    (full = true -> store = true -> forall f, frame f0 f (SWAP c) (SECT c) -> midway i e k (from f (i_hdr boot))) ->
    (forall f', (store = false -> f' = f0) -> frame f0 f' (SWAP c) (SECT c) -> C f') ->
    (forall f' x' ts', (store = false -> f' = f0) -> frame f0 f' (SWAP c) (SECT c) -> dec full ((k + 1) * SECT c) x' ts' ->
       (store = true -> full = true -> forall j, 0 <= j < SECT c ->
          f' (SWAP c + j) = if k * SECT c + j <? e then d_b i (k * SECT c + j) else 255) -> Q (Some x') f') ->
    forall fuel len x ts f,
    dec full (k * SECT c + len) x ts -> 0 <= len <= SECT c -> (blk | len) \/ ts = [] -> (SECT c - len < 6 * Z.of_nat fuel \/ len = SECT c \/ ts = [] /\ (1 <= fuel)%nat) ->
    (store = false -> f = f0) -> frame f0 f (SWAP c) (SECT c) ->
    (store = true -> (full = true -> forall j, 0 <= j < len -> k * SECT c + j < e /\ f (SWAP c + j) = d_b i (k * SECT c + j)) /\
       forall j, len <= j < SECT c -> f (SWAP c + j) = 255) ->
    wpc t (patch_sector fuel c blk boot update swap poff psz store len x) Q C f.
  Proof.
    intros t full store k f0 Q C Hk Hsame Hmid HC HQ.
    assert (Ext : forall fuel x, patch_sector fuel c blk boot update swap poff psz store (SECT c) x = Ret (Some x)).
    { intros fuel x. destruct fuel; cbn [patch_sector]; rewrite Z.ltb_irrefl; reflexivity. }
    induction fuel as [|fuel IH]; intros len x ts f D Hl Hd Hf Hst Hfr Hcon.
    - assert (len = SECT c) as -> by lia. rewrite Ext. cbn [wpc]. split; [apply HC; auto|].
      apply (HQ f x ts); auto; [replace ((k + 1) * SECT c) with (k * SECT c + SECT c) by lia; exact D|].
      intros S1 F1 j Hj. destruct (Hcon S1) as (K1 & _). destruct (K1 F1 j Hj) as (K2 & K3).
      rewrite (proj2 (Z.ltb_lt _ _) K2). exact K3.
    - cbn [patch_sector]. destruct (Z.ltb_spec len (SECT c)) as [HL|HL].
      2:{ assert (len = SECT c) as -> by lia. cbn [wpc]. split; [apply HC; auto|].
          apply (HQ f x ts); auto; [replace ((k + 1) * SECT c) with (k * SECT c + SECT c) by lia; exact D|].
          intros S1 F1 j Hj. destruct (Hcon S1) as (K1 & _). destruct (K1 F1 j Hj) as (K2 & K3).
          rewrite (proj2 (Z.ltb_lt _ _) K2). exact K3. }
      pose proof D as (DI & DA & DF).
      destruct (wb_patch_spec pt psz blk x ts Hpt Hpsz Hblk DA) as (pre & post & x' & SP & A' & T1 & T2 & R).
      assert (P0 : 0 <= p_off x) by (destruct DA as ((? & _) & _); assumption).
      destruct (wb_patch_agree (from f (i_hdr boot)) pt (from f (i_hdr update + poff)) psz blk x DI P0 (Hsame f Hfr)) as (Ag & In).
      rewrite R in Ag, In. specialize (In _ _ eq_refl).
      cbn [pure bind wpc]. rewrite Ag. cbn [bind].
      assert (Sn : Forall sane ts) by (eapply about_sane; eauto).
      destruct (splits_sane _ _ _ SP Sn) as (Sp & Sq).
      pose proof (splits_total _ _ _ SP) as Et. pose proof (total_nonneg pre Sp) as Np. pose proof (total_nonneg post Sq) as Nq.
      set (src := from f (i_hdr boot)) in *.
      pose proof (expand_len src pre Sp) as EL.
      assert (D' : dec full (k * SECT c + (len + total pre)) x' post).
      { split; [exact In|]. split; [exact A'|]. intro Fu. destruct (DF Fu) as (C0 & E0).
        assert (HSd : 0 < d_sect i) by (rewrite Hsect; lia).
        destruct (splits_chained i _ _ _ HSd SP _ C0) as (_ & C2).
        replace (k * SECT c + (len + total pre)) with (k * SECT c + len + total pre) by lia. split; [exact C2|].
        destruct E0 as [E0|(E0 & E1)]; [left; lia|right]. rewrite E0 in SP. inversion SP; subst. cbn [total]. split; [reflexivity|lia]. }
      destruct (Z.eqb_spec (zlen (expand src pre)) 0) as [E0|E0].
      + (* exhausted *)
        assert (post = []) as -> by (destruct T2 as [T2|T2]; [lia|exact T2]).
        assert (total pre = 0) by lia.
        cbn [wpc]. split; [apply HC; auto|]. apply (HQ f x' []); auto.
        * destruct D' as (D1 & D2 & D3). split; [exact D1|]. split; [exact D2|]. intro Fu. destruct (D3 Fu) as (_ & D4).
          split; [exact I|]. right. split; [reflexivity|]. cbn [total] in D4. lia.
        * intros S1 F1 j Hj. destruct (Hcon S1) as (K1 & K2). destruct D' as (_ & _ & D3). destruct (D3 F1) as (_ & D4). cbn [total] in D4.
          destruct (Z.ltb_spec j len) as [Hjl|Hjl].
          -- destruct (K1 F1 j ltac:(lia)) as (K3 & K4). rewrite (proj2 (Z.ltb_lt _ _) K3). exact K4.
          -- destruct (Z.ltb_spec (k * SECT c + j) e); [|apply K2; lia]. exfalso.
             destruct D4 as [D4|(_ & D4)]; lia.
      + assert (Hbl : (blk | len)).
        { destruct Hd as [Hd|Hd]; [exact Hd|]. exfalso. rewrite Hd in SP. inversion SP; subst. apply E0. reflexivity. }
        assert (Hle : len + blk <= SECT c).
        { destruct Hbl as (a & ->), Hdiv as (b & Eb). rewrite Eb in *. clear -HL Hblk. assert (a < b) by (apply (Z.mul_lt_mono_pos_r blk); lia). nia. }
        assert (Hd' : (blk | len + zlen (expand src pre)) \/ post = []).
        { rewrite EL. destruct T2 as [T2|T2]; [left; rewrite T2; apply Z.divide_add_r; [exact Hbl|apply Z.divide_refl]|auto]. }
        assert (Hf' : SECT c - (len + zlen (expand src pre)) < 6 * Z.of_nat fuel \/ len + zlen (expand src pre) = SECT c \/ post = [] /\ (1 <= fuel)%nat).
        { destruct T2 as [T2|T2]; [left|right; right; split; [exact T2|]]; destruct Hf as [Hf|[Hf|(Hf & _)]]; try lia;
            rewrite Hf in Et; cbn [total] in Et; lia. }
        destruct store.
        * (* stored in the swap area *)
          set (o := expand src pre) in *. cbn [wpc bind]. rewrite Eswap.
          destruct (Hcon eq_refl) as (K1 & K2).
          assert (Hbs : bytes src) by (intro y; apply Hfr).
          assert (Hbo : forall j, 0 <= j < zlen o -> is_byte (nth (Z.to_nat j) o 0)).
          { intros j Hj. apply (expand_in src pre); auto.
            - apply (splits_lits _ _ _ SP). destruct DA as (_ & ts0 & Pa & Dm). pose proof (parsed_lits _ _ _ _ Hpt Pa) as L.
              destruct (p_matching x); [destruct Dm as (_ & ->); constructor; [exact I|exact L]|subst; exact L].
            - apply nth_In. unfold zlen in Hj. fold o. lia. }
          assert (Fr2 : forall f', frame f f' (SWAP c + len) (zlen o) -> frame f0 f' (SWAP c) (SECT c)).
          { intros f' H'. eapply frame_trans; [exact Hfr|]. eapply frame_weak; [exact H'| |]; lia. }
          split; [apply HC; [discriminate|exact Hfr]|].
          split; [intros f' T; apply HC; [discriminate|apply Fr2; eapply frame_torn_write; exact T]|].
          assert (Fw : frame f (write f (SWAP c + len) (zlen o) (fun j => nth (Z.to_nat j) o 0)) (SWAP c + len) (zlen o)).
          { apply frame_write; [apply Hfr|]. intros j Hj. apply Hbo in Hj. unfold is_byte in Hj. lia. }
          set (f1 := write f (SWAP c + len) (zlen o) (fun j => nth (Z.to_nat j) o 0)) in *.
          assert (Con1 : (full = true -> forall j, 0 <= j < len + zlen o -> k * SECT c + j < e /\ f1 (SWAP c + j) = d_b i (k * SECT c + j)) /\
             forall j, len + zlen o <= j < SECT c -> f1 (SWAP c + j) = 255).
          { split.
            - intros F1 j Hj. destruct (Z.ltb_spec j len) as [Hjl|Hjl].
              + rewrite (proj2 Fw) by lia. apply (K1 F1). lia.
              + destruct (DF F1) as (C0 & Ee).
                assert (Ho : o = rdl (d_b i) (k * SECT c + len) (Z.to_nat (total pre))).
                { assert (HSd : 0 < d_sect i) by (rewrite Hsect; lia).
                  destruct (splits_chained i _ _ _ HSd SP _ C0) as (C1 & _).
                  assert (total pre > 0) by lia.
                  apply (chain_expand i e k src); auto.
                  - apply (Hmid F1 eq_refl f Hfr).
                  - rewrite Hsect. lia.
                  - rewrite Hsect. lia.
                  - destruct Ee as [Ee|(Ee & _)]; [lia|]. rewrite Ee in Et. cbn [total] in Et. lia. }
                split; [destruct Ee as [Ee|(Ee & _)]; [lia|]; rewrite Ee in Et; cbn [total] in Et; lia|].
                unfold f1. rewrite write_in by lia. replace (SWAP c + j - (SWAP c + len)) with (j - len) by lia.
                assert (Hq := Hbo (j - len) ltac:(lia)). rewrite K2, land_255 by (exact Hq || lia).
                clear -Ho Hj Hjl EL. rewrite EL in Hj. rewrite Ho, rdl_nth by lia. f_equal. lia.
            - intros j Hj. rewrite (proj2 Fw) by lia. apply K2. lia. }
          destruct Hf' as [Hf'|[Hf'|Hf']].
          -- apply (IH _ x' post f1); auto; try lia; try discriminate; rewrite EL; exact D'.
          -- rewrite Hf' in *. rewrite Ext. cbn [wpc]. split; [apply HC; [discriminate|apply Fr2, Fw]|].
             apply (HQ f1 x' post); auto; try discriminate.
             ++ replace ((k + 1) * SECT c) with (k * SECT c + (len + total pre)) by lia. exact D'.
             ++ intros _ F1 j Hj. destruct Con1 as (K3 & _). destruct (K3 F1 j Hj) as (K4 & K5).
                rewrite (proj2 (Z.ltb_lt _ _) K4). exact K5.
          -- (* post exhausted: one more call, which returns nothing *)
             apply (IH _ x' post f1); auto; try lia; try discriminate; rewrite EL; exact D'.
        * cbn [bind].
          assert (f = f0) by auto. subst f0.
          apply (IH _ x' post f); auto; try lia; try discriminate; rewrite EL; exact D'.
  Qed.
End Apply.
