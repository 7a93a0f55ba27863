(** Proofs about the patch decoder and the diff encoder. *)
From Verif Require Import Base BaseLemmas Flash FlashLemmas ImageSpec DeltaModel DeltaSpec.
Local Ltac Zify.zify_post_hook ::= idtac.

(** ** Instruction streams *)

Lemma expand_app : forall src a b, expand src (a ++ b) = expand src a ++ expand src b.
Proof. intros. apply flat_map_app. Qed.
Lemma total_app : forall a b, total (a ++ b) = total a + total b.
Proof. induction a as [|t a IH]; intro b; cbn [total app]; [lia|]. rewrite IH. lia. Qed.

(** Non-negative lengths. *)
Definition sane (t : tok) : Prop := 0 <= tlen t < 65536.
Lemma rdl_len : forall n f a, length (rdl f a n) = n.
Proof. induction n as [|n IH]; intros; cbn [rdl length]; auto. Qed.
Lemma expand1_len : forall src t, 0 <= tlen t -> zlen (expand1 src t) = tlen t.
Proof. intros src [b|o n] H; cbn [expand1 tlen] in *; unfold zlen; [reflexivity|]. rewrite rdl_len. lia. Qed.
Lemma total_nonneg : forall ts, Forall sane ts -> 0 <= total ts.
Proof. induction 1 as [|t ts H _ IH]; cbn [total]; [lia|]. unfold sane in H. lia. Qed.
Lemma expand_len : forall src ts, Forall sane ts -> zlen (expand src ts) = total ts.
Proof.
  intros src ts H. induction H as [|t ts Ht _ IH]; [reflexivity|]. cbn [expand flat_map total].
  rewrite zlen_app, expand1_len by apply Ht. fold (expand src ts). lia.
Qed.

(** A stream cut at a point: possibly inside a copy. *)
Inductive splits : list tok -> list tok -> list tok -> Prop :=
| sp_nil : forall ts, splits ts [] ts
| sp_whole : forall t ts a b, splits ts a b -> splits (t :: ts) (t :: a) b
| sp_part : forall o n k ts, 0 < k < n -> splits (Copy o n :: ts) [Copy o k] (Copy (o + k) (n - k) :: ts).

Lemma splits_expand : forall ts a b, splits ts a b -> forall src, expand src ts = expand src a ++ expand src b.
Proof.
  induction 1 as [|t ts a b _ IH|o n k ts H]; intro src.
  - reflexivity.
  - cbn [expand flat_map]. fold (expand src ts) (expand src a). rewrite IH, app_assoc. reflexivity.
  - cbn [expand flat_map expand1]. fold (expand src ts). rewrite app_nil_r, app_assoc. f_equal.
    replace (Z.to_nat n) with (Z.to_nat k + Z.to_nat (n - k))%nat by lia.
    rewrite rdl_app. do 2 f_equal. lia.
Qed.
Lemma splits_sane : forall ts a b, splits ts a b -> Forall sane ts -> Forall sane a /\ Forall sane b.
Proof.
  induction 1 as [|t ts a b _ IH|o n k ts H]; intro F.
  - auto.
  - inversion F; subst. destruct (IH H2). auto.
  - inversion F; subst. unfold sane in *. cbn [tlen] in *.
    split; constructor; auto; cbn [tlen]; lia.
Qed.
Lemma splits_total : forall ts a b, splits ts a b -> total ts = total a + total b.
Proof. induction 1 as [|t ts a b _ IH|o n k ts H]; cbn [total tlen]; lia. Qed.

Lemma parsed_det : forall pt psz off ts, parsed pt psz off ts -> forall ts', parsed pt psz off ts' -> ts = ts'.
Proof.
  induction 1; intros ts' H'; inversion H'; subst; try lia; try congruence; try (f_equal; auto; fail).
Qed.
Lemma parsed_ex : forall pt psz off, exists ts, parsed pt psz off ts.
Proof.
  intros pt psz off. remember (Z.to_nat (psz - off)) as n eqn:En. revert off En.
  induction n as [n IH] using lt_wf_ind. intros off En.
  destruct (Z.le_gt_cases psz off) as [H|H]; [exists []; constructor; exact H|].
  destruct (Z.eq_dec (pt off) 127) as [E|E].
  - destruct (Z.eq_dec (pt (off + 1)) 127) as [E1|E1].
    + destruct (IH (Z.to_nat (psz - (off + 2))) ltac:(lia) (off + 2) eq_refl) as (ts & P). eexists. apply pa_esc; eauto; lia.
    + destruct (IH (Z.to_nat (psz - (off + 6))) ltac:(lia) (off + 6) eq_refl) as (ts & P). eexists. apply pa_copy; eauto; lia.
  - destruct (IH (Z.to_nat (psz - (off + 1))) ltac:(lia) (off + 1) eq_refl) as (ts & P). eexists. apply pa_lit; eauto; lia.
Qed.
Lemma parsed_sane : forall pt psz off ts, bytes pt -> parsed pt psz off ts -> Forall sane ts.
Proof.
  intros pt psz off ts Hb. induction 1 as [| | |off ts H E E1 H1 IH]; constructor; auto; unfold sane; cbn [tlen]; try lia.
  pose proof (Hb (off + 4)). pose proof (Hb (off + 5)). unfold is_byte in *. lia.
Qed.

(** ** The decoder *)

(** The decoder is about to produce the stream [ts]. *)
Definition about (pt : Z -> Z) (psz : Z) (x : pctx) (ts : list tok) : Prop :=
  0 <= p_off x <= psz + 5 /\
  exists ts0, parsed pt psz (p_off x) ts0 /\
    if p_matching x then 0 < p_blk_sz x < 65536 /\ ts = Copy (p_blk_off x) (p_blk_sz x) :: ts0 else ts = ts0.

Lemma about_sane : forall pt psz x ts, bytes pt -> about pt psz x ts -> Forall sane ts.
Proof.
  intros pt psz x ts Hb (_ & ts0 & P & M). apply parsed_sane in P; [|exact Hb].
  destruct (p_matching x); [destruct M as (Hs & ->)|subst; exact P]. constructor; [|exact P]. unfold sane. cbn [tlen]. lia.
Qed.

Lemma patch_full : forall fuel src pt psz len x d, len <= d -> patch_loop fuel src pt psz len d x = Val ([], x).
Proof.
  intros. destruct fuel; cbn [patch_loop]; rewrite (proj2 (Z.ltb_ge d len)) by lia; rewrite andb_false_r; reflexivity.
Qed.

Lemma patch_loop_spec : forall fuel pt psz len, bytes pt -> 0 <= psz -> forall x ts dst_off,
  about pt psz x ts -> 0 <= dst_off <= len -> (p_matching x = true -> dst_off < len -> dst_off = 0) ->
  (Z.to_nat (len - dst_off) + Z.to_nat (psz - p_off x) < fuel)%nat ->
  exists pre post x', splits ts pre post /\ about pt psz x' post /\
    total pre <= len - dst_off /\ (total pre = len - dst_off \/ post = []) /\
    forall src, patch_loop fuel src pt psz len dst_off x = Val (expand src pre, x').
Proof.
  induction fuel as [|fuel IH]; intros pt psz len Hb Hz x ts dst_off A Hd Hm Hf; [lia|].
  pose proof A as ((A1 & A2) & ts0 & P & M).
  destruct (Z.le_gt_cases len dst_off) as [Hl|Hl].
  { exists [], ts, x. split; [constructor|]. split; [exact A|]. cbn [total]. split; [lia|]. split; [left; lia|].
    intro src. apply patch_full. lia. }
  destruct (p_matching x) eqn:EM.
  - destruct M as (Hs & ->). pose proof (Hm eq_refl Hl) as E0. clear Hm. subst dst_off.
    assert (Step : forall src, patch_loop (S fuel) src pt psz len 0 x =
      let sz := if p_blk_sz x >? len then len else p_blk_sz x in
      dlet (o2, x2) <- patch_loop fuel src pt psz len sz (if p_blk_sz x >? len then mkP (p_off x) true (p_blk_sz x - len) (p_blk_off x + len)
                 else mkP (p_off x) false 0 0) in
      Val (rdl src (p_blk_off x) (Z.to_nat sz) ++ o2, x2)).
    { intro src. cbn [patch_loop]. rewrite EM. cbn [orb andb]. rewrite (proj2 (Z.ltb_lt 0 len)) by lia.
      unfold patch_step at 1. rewrite EM. rewrite (Z.mod_small (p_blk_sz x)) by lia. cbn zeta.
      set (sz := if p_blk_sz x >? len then len else p_blk_sz x).
      assert (Hsz : 0 < sz <= len) by (unfold sz; destruct (Z.gtb_spec (p_blk_sz x) len); lia).
      destruct (Z.gtb_spec (0 + sz) len); [lia|]. cbn [obind].
      replace (0 + zlen (rdl src (p_blk_off x) (Z.to_nat sz))) with sz by (unfold zlen; rewrite rdl_len; lia).
      reflexivity. }
    destruct (Z.gtb_spec (p_blk_sz x) len) as [G|G].
    + exists [Copy (p_blk_off x) len], (Copy (p_blk_off x + len) (p_blk_sz x - len) :: ts0), (mkP (p_off x) true (p_blk_sz x - len) (p_blk_off x + len)).
      split; [apply sp_part; lia|]. split.
      { split; [cbn [p_off]; lia|]. exists ts0. cbn [p_off p_matching p_blk_sz p_blk_off]. split; [exact P|]. split; [lia|reflexivity]. }
      cbn [total tlen]. split; [lia|]. split; [left; lia|]. intro src. rewrite Step. cbn zeta.
      rewrite patch_full by lia. cbn [obind expand flat_map expand1]. reflexivity.
    + destruct (IH pt psz len Hb Hz (mkP (p_off x) false 0 0) ts0 (p_blk_sz x)) as (pre & post & x' & S1 & A3 & T1 & T2 & R).
      { split; [exact (conj A1 A2)|]. exists ts0. split; [exact P|reflexivity]. }
      { lia. } { discriminate. } { cbn [p_off]. lia. }
      exists (Copy (p_blk_off x) (p_blk_sz x) :: pre), post, x'. split; [apply sp_whole; exact S1|]. split; [exact A3|].
      cbn [total tlen]. split; [lia|]. split; [destruct T2 as [T2|T2]; [left; lia|right; exact T2]|].
      intro src. rewrite Step. cbn zeta. rewrite R. reflexivity.
  - subst ts0. clear Hm.
    assert (Step : forall src, patch_loop (S fuel) src pt psz len dst_off x =
      if p_off x <? psz then
      dlet (o, x1) <- patch_step src (fun k => pt (p_off x + k)) len dst_off x in
      dlet (o2, x2) <- patch_loop fuel src pt psz len (dst_off + zlen o) x1 in
      Val (o ++ o2, x2) else Val ([], x)).
    { intro src. cbn [patch_loop]. rewrite EM. cbn [orb andb]. rewrite (proj2 (Z.ltb_lt dst_off len)) by lia.
      rewrite andb_true_r. reflexivity. }
    inversion P; subst.
    + exists [], [], x. split; [constructor|]. split; [exact A|]. cbn [total]. split; [lia|]. split; [right; reflexivity|].
      intro src. rewrite Step. rewrite (proj2 (Z.ltb_ge _ _)) by lia. reflexivity.
    + destruct (IH pt psz len Hb Hz (mkP (p_off x + 1) false (p_blk_sz x) (p_blk_off x)) ts0 (dst_off + 1)) as (pre & post & x' & S1 & A3 & T1 & T2 & R).
      { split; [cbn [p_off]; lia|]. exists ts0. split; [assumption|reflexivity]. }
      { lia. } { discriminate. } { cbn [p_off]. lia. }
      exists (Lit (pt (p_off x)) :: pre), post, x'. split; [apply sp_whole; exact S1|]. split; [exact A3|].
      cbn [total tlen]. split; [lia|]. split; [destruct T2 as [T2|T2]; [left; lia|right; exact T2]|].
      intro src. rewrite Step. rewrite (proj2 (Z.ltb_lt _ _)) by lia. unfold patch_step. rewrite EM.
      rewrite Z.add_0_r. destruct (Z.eqb_spec (pt (p_off x)) ESC) as [E|E]; [unfold ESC in E; contradiction|].
      cbn [obind]. replace (zlen [pt (p_off x)]) with 1 by reflexivity. rewrite R. reflexivity.
    + destruct (IH pt psz len Hb Hz (mkP (p_off x + 2) false (p_blk_sz x) (p_blk_off x)) ts0 (dst_off + 1)) as (pre & post & x' & S1 & A3 & T1 & T2 & R).
      { split; [cbn [p_off]; lia|]. exists ts0. split; [assumption|reflexivity]. }
      { lia. } { discriminate. } { cbn [p_off]. lia. }
      exists (Lit 127 :: pre), post, x'. split; [apply sp_whole; exact S1|]. split; [exact A3|].
      cbn [total tlen]. split; [lia|]. split; [destruct T2 as [T2|T2]; [left; lia|right; exact T2]|].
      intro src. rewrite Step. rewrite (proj2 (Z.ltb_lt _ _)) by lia. unfold patch_step. rewrite EM.
      rewrite Z.add_0_r, H0, H1. cbn [obind Z.eqb ESC Pos.eqb]. replace (zlen [ESC]) with 1 by reflexivity. unfold ESC. rewrite R. reflexivity.
    + set (o := pt (p_off x + 1) * 65536 + pt (p_off x + 2) * 256 + pt (p_off x + 3)) in *.
      set (n := pt (p_off x + 4) * 256 + pt (p_off x + 5)) in *.
      assert (Hn : 0 <= n < 65536).
      { unfold n. pose proof (Hb (p_off x + 4)). pose proof (Hb (p_off x + 5)). unfold is_byte in *. lia. }
      assert (Step2 : forall src, patch_step src (fun k => pt (p_off x + k)) len dst_off x =
        if n >? len - dst_off then
          Val (rdl src o (Z.to_nat (len - dst_off)), mkP (p_off x + 6) true (n - (len - dst_off)) (o + (len - dst_off)))
        else Val (rdl src o (Z.to_nat n), mkP (p_off x + 6) false (p_blk_sz x) 0)).
      { intro src. unfold patch_step. rewrite EM. rewrite Z.add_0_r, H0. cbn [Z.eqb ESC Pos.eqb].
        destruct (Z.eqb_spec (pt (p_off x + 1)) ESC) as [E|E]; [unfold ESC in E; contradiction|]. reflexivity. }
      destruct (Z.gtb_spec n (len - dst_off)) as [G|G].
      * exists [Copy o (len - dst_off)], (Copy (o + (len - dst_off)) (n - (len - dst_off)) :: ts0), (mkP (p_off x + 6) true (n - (len - dst_off)) (o + (len - dst_off))).
        split; [apply sp_part; lia|]. split.
        { split; [cbn [p_off]; lia|]. exists ts0. cbn [p_off p_matching p_blk_sz p_blk_off]. split; [exact H2|]. split; [lia|reflexivity]. }
        cbn [total tlen]. split; [lia|]. split; [left; lia|]. intro src. rewrite Step, (proj2 (Z.ltb_lt _ _)) by lia. rewrite Step2. cbn [obind].
        rewrite patch_full by (unfold zlen; rewrite rdl_len; lia). cbn [obind expand flat_map expand1]. reflexivity.
      * destruct (IH pt psz len Hb Hz (mkP (p_off x + 6) false (p_blk_sz x) 0) ts0 (dst_off + n)) as (pre & post & x' & S1 & A3 & T1 & T2 & R).
        { split; [cbn [p_off]; lia|]. exists ts0. split; [assumption|reflexivity]. }
        { lia. } { discriminate. } { cbn [p_off]. lia. }
        exists (Copy o n :: pre), post, x'. split; [apply sp_whole; exact S1|]. split; [exact A3|].
        cbn [total tlen]. split; [lia|]. split; [destruct T2 as [T2|T2]; [left; lia|right; exact T2]|].
        intro src. rewrite Step, (proj2 (Z.ltb_lt _ _)) by lia. rewrite Step2. cbn [obind].
        replace (zlen (rdl src o (Z.to_nat n))) with n by (unfold zlen; rewrite rdl_len; lia). rewrite R. reflexivity.
Qed.

Lemma wb_patch_spec : forall pt psz len x ts, bytes pt -> 0 <= psz -> 6 <= len -> about pt psz x ts ->
  exists pre post x', splits ts pre post /\ about pt psz x' post /\
    total pre <= len /\ (total pre = len \/ post = []) /\
    forall src, wb_patch src pt psz x len = Val (Some (expand src pre, x')).
Proof.
  intros pt psz len x ts Hb Hz Hl A. pose proof A as ((A1 & A2) & _).
  destruct (patch_loop_spec (Z.to_nat (psz + len + 7)) pt psz len Hb Hz x ts 0 A) as (pre & post & x' & S1 & A3 & T1 & T2 & R).
  { lia. } { lia. } { lia. }
  exists pre, post, x'. split; [exact S1|]. split; [exact A3|]. split; [lia|]. split; [destruct T2; [left; lia|auto]|].
  intro src. unfold wb_patch. unfold BLOCK_HDR_SIZE. rewrite (proj2 (Z.ltb_ge _ _)) by lia. rewrite R. reflexivity.
Qed.

Lemma splits_trans : forall ts a b, splits ts a b -> forall a2 b2, splits b a2 b2 -> 
  exists a3, splits ts a3 b2 /\ (forall src, expand src a3 = expand src a ++ expand src a2) /\ total a3 = total a + total a2.
Proof.
  induction 1 as [ts|t ts a b _ IH|o n k ts H]; intros a2 b2 H2.
  - exists a2. split; [exact H2|]. split; reflexivity.
  - destruct (IH _ _ H2) as (a3 & S & E & T). exists (t :: a3). split; [constructor; exact S|]. split.
    + intro src. cbn [expand flat_map]. fold (expand src a3) (expand src a). rewrite E, app_assoc. reflexivity.
    + cbn [total]. lia.
  - assert (E2 : forall src m, 0 <= m -> expand src [Copy o k] ++ expand1 src (Copy (o + k) m) = expand1 src (Copy o (k + m))).
    { intros src m Hm. cbn [expand flat_map expand1]. rewrite app_nil_r.
      replace (Z.to_nat (k + m)) with (Z.to_nat k + Z.to_nat m)%nat by lia. rewrite rdl_app. do 2 f_equal. lia. }
    inversion H2; subst.
    + exists [Copy o k]. split; [constructor; exact H|]. split; [intro src; cbn [expand flat_map]; rewrite !app_nil_r; reflexivity|cbn [total]; lia].
    + exists (Copy o n :: a). split; [constructor; assumption|]. split; [|cbn [total tlen]; lia].
      intro src. specialize (E2 src (n - k) ltac:(lia)). replace (k + (n - k)) with n in E2 by lia.
      cbn [expand flat_map] in *. rewrite !app_nil_r in *. rewrite app_assoc, E2. reflexivity.
    + exists [Copy o (k + k0)]. split.
      { replace (o + k + k0) with (o + (k + k0)) by lia. replace (n - k - k0) with (n - (k + k0)) by lia. constructor. lia. }
      split; [|cbn [total tlen]; lia]. intro src. specialize (E2 src k0 ltac:(lia)).
      cbn [expand flat_map] in *. rewrite !app_nil_r in *. symmetry. exact E2.
Qed.

Lemma patch_calls_spec : forall pt psz lens, bytes pt -> 0 <= psz -> Forall (fun l => 6 <= l) lens -> forall x ts, about pt psz x ts ->
  exists pre post x', splits ts pre post /\ about pt psz x' post /\
    total pre <= sumz lens /\ (total pre = sumz lens \/ post = []) /\
    forall src, patch_calls src pt psz x lens = Val (expand src pre, x').
Proof.
  intros pt psz lens Hb Hz F. induction F as [|l lens Hl F IH]; intros x ts A.
  - exists [], ts, x. split; [constructor|]. split; [exact A|]. cbn [total sumz]. split; [lia|]. split; [left; reflexivity|]. reflexivity.
  - destruct (wb_patch_spec pt psz l x ts Hb Hz Hl A) as (pre & post & x1 & S1 & A1 & T1 & T2 & R).
    destruct (IH x1 post A1) as (pre2 & post2 & x2 & S2 & A2 & T3 & T4 & R2).
    destruct (splits_trans _ _ _ S1 _ _ S2) as (a3 & S3 & E & T5).
    exists a3, post2, x2. split; [exact S3|]. split; [exact A2|]. cbn [sumz]. split; [lia|].
    split.
    + destruct T4 as [T4|T4]; [|right; exact T4]. destruct T2 as [T2| ->]; [left; lia|]. inversion S2; subst. right. reflexivity.
    + intro src. cbn [patch_calls]. rewrite R. cbn [obind]. rewrite R2. cbn [obind]. rewrite E. reflexivity.
Qed.

(** The cache of external-flash builds is transparent. *)
Definition cache_ok (pt : Z -> Z) (off : Z) (h : cache) : Prop :=
  match h with Some (st, m) => m = pt /\ st <= off | None => True end.

Lemma cache_read : forall pt h off, cache_ok pt off h ->
  exists pp h', patch_read_cache pt h off = Val (pp, h') /\ (forall k, pp k = pt (off + k)) /\ cache_ok pt off h'.
Proof.
  intros pt [[st m]|] off H; cbn [patch_read_cache cache_ok] in *.
  - destruct H as (-> & H). unfold CACHE_SIZE, BLOCK_HDR_SIZE.
    destruct (Z.eqb_spec st off) as [->|E].
    + eexists _, _. split; [reflexivity|]. cbn [cache_ok]. auto.
    + destruct (Z.ltb_spec off (st + (1024 - 6))) as [G|G].
      * rewrite (proj2 (Z.ltb_ge off st)) by lia. rewrite (proj2 (Z.ltb_ge 1024 (off - st + 6))) by lia. cbn [orb].
        eexists _, _. split; [reflexivity|]. split; [intro k; f_equal; lia|]. cbn [cache_ok]. auto.
      * eexists _, _. split; [reflexivity|]. cbn [cache_ok]. split; [auto|]. split; [reflexivity|lia].
  - eexists _, _. split; [reflexivity|]. cbn [cache_ok]. split; [auto|]. split; [reflexivity|lia].
Qed.
Lemma cache_weak : forall pt a b h, a <= b -> cache_ok pt a h -> cache_ok pt b h.
Proof. intros pt a b [[st m]|] H; cbn [cache_ok]; [|auto]. intros (-> & ?). split; [reflexivity|lia]. Qed.

Lemma patch_step_ext : forall src pp pp' len d x, (forall k, pp k = pp' k) -> patch_step src pp len d x = patch_step src pp' len d x.
Proof. intros. unfold patch_step. rewrite !H. reflexivity. Qed.
Lemma patch_step_mono : forall src pp len d x o x', patch_step src pp len d x = Val (o, x') -> p_off x <= p_off x'.
Proof.
  intros src pp len d x o x'. unfold patch_step, BLOCK_HDR_SIZE.
  repeat match goal with |- context [if ?b then _ else _] => destruct b end; intro H; inversion H; cbn [p_off]; lia.
Qed.

Lemma patch_loop_ext_same : forall fuel src pt psz len d x h, cache_ok pt (p_off x) h ->
  match patch_loop fuel src pt psz len d x with
  | Val (o, x') => exists h', patch_loop_ext fuel src pt psz len d x h = Val (o, x', h') /\ cache_ok pt (p_off x') h'
  | UB => patch_loop_ext fuel src pt psz len d x h = UB
  | NoFuel => patch_loop_ext fuel src pt psz len d x h = NoFuel
  end.
Proof.
  induction fuel as [|fuel IH]; intros src pt psz len d x h C; cbn [patch_loop patch_loop_ext];
    destruct ((p_matching x || (p_off x <? psz)) && (d <? len)); try (exists h; split; [reflexivity|exact C]); try reflexivity.
  destruct (cache_read pt h (p_off x) C) as (pp & h1 & E1 & Ep & C1). rewrite E1. cbn [obind].
  rewrite (patch_step_ext src pp (fun k => pt (p_off x + k)) len d x Ep).
  destruct (patch_step src _ len d x) as [[o x1]| |] eqn:E2; cbn [obind]; try reflexivity.
  specialize (IH src pt psz len (d + zlen o) x1 h1 (cache_weak _ _ _ _ (patch_step_mono _ _ _ _ _ _ _ E2) C1)).
  destruct (patch_loop fuel src pt psz len (d + zlen o) x1) as [[o2 x2]| |]; cbn [obind]; try (rewrite IH; reflexivity).
  destruct IH as (h2 & E3 & C2). rewrite E3. cbn [obind]. eauto.
Qed.

(** ** The encoder *)

(** [t] produces the right bytes at offset [d] of the target, from the base image while the
    sectors before [d]'s are already those of the target. *)
Definition from_base (i : din) (d o n : Z) : Prop :=
  d_sect i * (d / d_sect i) <= o /\ o + n <= d_sa i /\ (d + n - 1) / d_sect i = d / d_sect i /\
  forall j, 0 <= j < n -> d_a i (o + j) = d_b i (d + j).
Definition from_target (i : din) (d o n : Z) : Prop :=
  0 <= o /\ o + n <= d_sect i * (d / d_sect i) /\ forall j, 0 <= j < n -> d_b i (o + j) = d_b i (d + j).
Definition fine (i : din) (d : Z) (t : tok) : Prop :=
  match t with
  | Lit b => b = d_b i d
  | Copy o n => 0 < n /\ (from_base i d o n \/ from_target i d o n)
  end.
Fixpoint chained (i : din) (d : Z) (ts : list tok) : Prop :=
  match ts with [] => True | t :: ts' => fine i d t /\ chained i (d + tlen t) ts' end.

Lemma chained_app : forall i a b d, chained i d a -> chained i (d + total a) b -> chained i d (a ++ b).
Proof.
  induction a as [|t a IH]; intros b d H1 H2; cbn [total app chained] in *.
  - rewrite Z.add_0_r in H2. exact H2.
  - destruct H1. split; [assumption|]. apply IH; [assumption|]. replace (d + tlen t + total a) with (d + (tlen t + total a)) by lia. exact H2.
Qed.

Lemma div_between : forall S a b c, 0 < S -> a <= b <= c -> c / S = a / S -> b / S = a / S.
Proof.
  intros S a b c HS H E. pose proof (Z.div_le_mono a b S HS ltac:(lia)). pose proof (Z.div_le_mono b c S HS ltac:(lia)). lia.
Qed.

Lemma fine_split : forall i d o n k, 0 < d_sect i -> 0 < k < n -> fine i d (Copy o n) ->
  fine i d (Copy o k) /\ fine i (d + k) (Copy (o + k) (n - k)).
Proof.
  intros i d o n k HS Hk (Hn & [(F1 & F2 & F3 & F4)|(F0 & F1 & F2)]); cbn [fine].
  - assert (E1 : (d + k) / d_sect i = d / d_sect i) by (apply (div_between _ d (d + k) (d + n - 1)); auto; lia).
    assert (E2 : (d + k - 1) / d_sect i = d / d_sect i) by (apply (div_between _ d (d + k - 1) (d + n - 1)); auto; lia).
    split; (split; [lia|left]).
    + split; [lia|]. split; [lia|]. split; [exact E2|]. intros j Hj. apply F4. lia.
    + unfold from_base. rewrite E1. split; [lia|]. split; [lia|]. split; [rewrite <- F3; f_equal; lia|].
      intros j Hj. replace (o + k + j) with (o + (k + j)) by lia. replace (d + k + j) with (d + (k + j)) by lia. apply F4. lia.
  - split; (split; [lia|right]).
    + split; [lia|]. split; [lia|]. intros j Hj. apply F2. lia.
    + assert (d_sect i * (d / d_sect i) <= d_sect i * ((d + k) / d_sect i)).
      { apply Z.mul_le_mono_nonneg_l; [lia|]. apply Z.div_le_mono; lia. }
      split; [lia|]. split; [lia|]. intros j Hj. replace (o + k + j) with (o + (k + j)) by lia. replace (d + k + j) with (d + (k + j)) by lia. apply F2. lia.
Qed.

Lemma splits_chained : forall i ts a b, 0 < d_sect i -> splits ts a b -> forall d, chained i d ts ->
  chained i d a /\ chained i (d + total a) b.
Proof.
  intros i ts a b HS. induction 1 as [ts|t ts a b _ IH|o n k ts H]; intros d C.
  - cbn [chained total]. rewrite Z.add_0_r. auto.
  - cbn [chained total] in *. destruct C as (F & C). destruct (IH _ C) as (C1 & C2). split; [auto|].
    replace (d + (tlen t + total a)) with (d + tlen t + total a) by lia. exact C2.
  - cbn [chained total tlen] in *. destruct C as (F & C). destruct (fine_split i d o n k HS H F) as (F1 & F2).
    split; [auto|]. rewrite Z.add_0_r. split; [exact F2|]. replace (d + k + (n - k)) with (d + n) by lia. exact C.
Qed.

(** The memory during the in-place application: the target up to the current sector, the
    base image from there. *)
Definition midway (i : din) (e k : Z) (m : Z -> Z) : Prop :=
  (forall x, 0 <= x < k * d_sect i -> x < e -> m x = d_b i x) /\
  (forall x, k * d_sect i <= x < d_sa i -> m x = d_a i x).

Lemma chain_expand : forall i e k m, 0 < d_sect i -> midway i e k m -> forall ts d, chained i d ts ->
  k * d_sect i <= d -> d + total ts <= (k + 1) * d_sect i -> d + total ts <= e -> Forall sane ts ->
  expand m ts = rdl (d_b i) d (Z.to_nat (total ts)).
Proof.
  intros i e k m HS (M1 & M2). induction ts as [|t ts IH]; intros d C H1 H2 H3 F; [reflexivity|].
  cbn [chained total expand flat_map] in *. destruct C as (Ft & C). inversion F; subst. fold (expand m ts).
  pose proof (total_nonneg ts H5) as T0. unfold sane in H4.
  rewrite (IH (d + tlen t) C) by (auto; lia).
  replace (Z.to_nat (tlen t + total ts)) with (Z.to_nat (tlen t) + Z.to_nat (total ts))%nat by lia.
  rewrite rdl_app. f_equal; [|f_equal; lia].
  destruct t as [b|o n]; cbn [fine tlen expand1] in *.
  - subst b. reflexivity.
  - destruct Ft as (Hn & Ft).
    assert (Ed : d / d_sect i = k) by (symmetry; apply (Z.div_unique _ _ _ (d - k * d_sect i)); lia).
    apply rdl_ext. intros j Hj. destruct Ft as [(F1 & F2 & F3 & F4)|(F0 & F1 & F2)]; rewrite Ed in *.
    + rewrite M2 by lia. apply F4. lia.
    + rewrite M1 by lia. apply F2. lia.
Qed.

(** *** Searching and extending *)

Lemma same_spec : forall n f a g b, same n f a g b = true <-> forall j, 0 <= j < Z.of_nat n -> f (a + j) = g (b + j).
Proof.
  induction n as [|n IH]; intros f a g b; cbn [same].
  - split; [lia|reflexivity].
  - rewrite andb_true_iff, Z.eqb_eq, IH. split.
    + intros (E & H) j Hj. destruct (Z.eq_dec j 0) as [->|]; [rewrite !Z.add_0_r; exact E|].
      specialize (H (j - 1) ltac:(lia)). replace (a + 1 + (j - 1)) with (a + j) in H by lia. replace (b + 1 + (j - 1)) with (b + j) in H by lia. exact H.
    + intro H. split; [specialize (H 0 ltac:(lia)); rewrite !Z.add_0_r in H; exact H|].
      intros j Hj. specialize (H (j + 1) ltac:(lia)). replace (a + 1 + j) with (a + (j + 1)) by lia. replace (b + 1 + j) with (b + (j + 1)) by lia. exact H.
Qed.

Lemma find_a_spec : forall fuel i off pa, (Z.to_nat (d_sa i - pa) <= fuel)%nat ->
  exists r, find_a fuel i off pa = Val r /\
    match r with
    | Some p => pa <= p /\ p + 6 <= d_sa i /\ off mod d_sect i + 6 <= d_sect i /\
        forall j, 0 <= j < 6 -> d_a i (p + j) = d_b i (off + j)
    | None => True
    end.
Proof.
  induction fuel as [|fuel IH]; intros i off pa Hf; cbn [find_a]; unfold BLOCK_HDR_SIZE.
  - rewrite (proj2 (Z.ltb_ge _ _)) by lia. exists None. auto.
  - destruct (Z.ltb_spec pa (d_sa i)); [|exists None; auto].
    destruct (Z.ltb_spec (d_sa i - pa) 6); [exists None; auto|].
    destruct (Z.ltb_spec (d_sb i - off) 6); [exists None; auto|].
    destruct (Z.ltb_spec (d_sect i - off mod d_sect i) 6); [exists None; auto|].
    destruct (same 6 (d_a i) pa (d_b i) off) eqn:E.
    + exists (Some pa). split; [reflexivity|]. split; [lia|]. split; [lia|]. split; [lia|]. exact (proj1 (same_spec 6 _ _ _ _) E).
    + destruct (IH i off (pa + 1) ltac:(lia)) as (r & Er & Hr). exists r. split; [exact Er|].
      destruct r; [|auto]. destruct Hr as (? & ?). split; [lia|assumption].
Qed.

Lemma find_b_spec : forall fuel i e off pb, (Z.to_nat (e - pb) <= fuel)%nat ->
  exists r, find_b fuel i e off pb = Val r /\
    match r with
    | Some p => pb <= p /\ p + d_sect i <= e /\
        forall j, 0 <= j < 6 -> d_b i (p + j) = d_b i (off + j)
    | None => True
    end.
Proof.
  induction fuel as [|fuel IH]; intros i e off pb Hf; cbn [find_b]; unfold BLOCK_HDR_SIZE.
  - rewrite (proj2 (Z.ltb_ge _ _)) by lia. exists None. auto.
  - destruct (Z.ltb_spec pb e); [|exists None; auto].
    destruct (Z.ltb_spec (d_sb i - off) 6); [exists None; auto|].
    destruct (Z.ltb_spec (d_sb i - pb) 6); [exists None; auto|].
    destruct (Z.gtb_spec (d_sect i) (e - pb)); [exists None; auto|].
    destruct (same 6 (d_b i) pb (d_b i) off) eqn:E.
    + exists (Some pb). split; [reflexivity|]. split; [lia|]. split; [lia|]. exact (proj1 (same_spec 6 _ _ _ _) E).
    + destruct (IH i e off (pb + 1) ltac:(lia)) as (r & Er & Hr). exists r. split; [exact Er|].
      destruct r; [|auto]. destruct Hr as (? & ?). split; [lia|assumption].
Qed.

Lemma extend_a_spec : forall fuel i d o n, 0 < d_sect i -> 0 < n -> o + n <= d_sa i -> (d + n - 1) / d_sect i = d / d_sect i ->
  (forall j, 0 <= j < n -> d_a i (o + j) = d_b i (d + j)) -> (Z.to_nat (d_sa i - (o + n)) < fuel)%nat ->
  exists n', extend_a fuel i d (o + n) (d + n) (n mod 65536) = Val (d + n', n' mod 65536) /\ n <= n' /\
    (n' = n \/ (d + n') / d_sect i = d / d_sect i) /\
    o + n' <= d_sa i /\ (d + n' - 1) / d_sect i = d / d_sect i /\
    (forall j, 0 <= j < n' -> d_a i (o + j) = d_b i (d + j)).
Proof.
  induction fuel as [|fuel IH]; intros i d o n HS Hn H1 H2 H3 Hf; [lia|]. cbn [extend_a].
  assert (Stop : exists n', @Val (Z * Z) (d + n, n mod 65536) = Val (d + n', n' mod 65536) /\ n <= n' /\
    (n' = n \/ (d + n') / d_sect i = d / d_sect i) /\
    o + n' <= d_sa i /\ (d + n' - 1) / d_sect i = d / d_sect i /\
    (forall j, 0 <= j < n' -> d_a i (o + j) = d_b i (d + j))).
  { exists n. split; [reflexivity|]. split; [lia|]. split; [auto|]. auto. }
  destruct (Z.eqb_spec (d_a i (o + n)) (d_b i (d + n))) as [E|]; [|exact Stop].
  destruct (Z.geb_spec (o + n + 1) (d_sa i)); [exact Stop|].
  destruct (Z.ltb_spec (d / d_sect i) ((d + n + 1) / d_sect i)); [exact Stop|].
  assert (En : (n mod 65536 + 1) mod 65536 = (n + 1) mod 65536) by (rewrite Zplus_mod_idemp_l; reflexivity). rewrite En.
  assert (Ed : (d + (n + 1)) / d_sect i = d / d_sect i).
  { pose proof (Z.div_le_mono d (d + (n + 1)) (d_sect i) HS ltac:(lia)). replace (d + n + 1) with (d + (n + 1)) in * by lia. lia. }
  destruct (IH i d o (n + 1)) as (n' & R & N1 & N0 & N2 & N3 & N4).
  { exact HS. } { lia. } { lia. }
  { pose proof (Z.div_le_mono d (d + (n + 1) - 1) (d_sect i) HS ltac:(lia)).
    pose proof (Z.div_le_mono (d + (n + 1) - 1) (d + n + 1) (d_sect i) HS ltac:(lia)). lia. }
  { intros j Hj. destruct (Z.eq_dec j n) as [->|]; [exact E|]. apply H3. lia. }
  { lia. }
  exists n'. replace (o + (n + 1)) with (o + n + 1) in R by lia. replace (d + (n + 1)) with (d + n + 1) in R by lia.
  split; [exact R|]. split; [lia|]. split; [right; destruct N0 as [ -> |N0]; assumption|]. auto.
Qed.

Lemma extend_b_spec : forall fuel i e d o n, 0 < n -> o + n <= e ->
  (forall j, 0 <= j < n -> d_b i (o + j) = d_b i (d + j)) -> (Z.to_nat (e - (o + n)) < fuel)%nat ->
  exists n', extend_b fuel i e (o + n) (d + n) (n mod 65536) = Val (d + n', n' mod 65536) /\ n <= n' /\
    o + n' <= e /\ (forall j, 0 <= j < n' -> d_b i (o + j) = d_b i (d + j)).
Proof.
  induction fuel as [|fuel IH]; intros i e d o n Hn H1 H3 Hf; [lia|]. cbn [extend_b].
  assert (Stop : exists n', @Val (Z * Z) (d + n, n mod 65536) = Val (d + n', n' mod 65536) /\ n <= n' /\
    o + n' <= e /\ (forall j, 0 <= j < n' -> d_b i (o + j) = d_b i (d + j))).
  { exists n. split; [reflexivity|]. split; [lia|]. auto. }
  destruct (Z.eqb_spec (d_b i (o + n)) (d_b i (d + n))) as [E|]; [|exact Stop]. cbn zeta.
  destruct (Z.geb_spec (o + n + 1) e); [exact Stop|].
  assert (En : (n mod 65536 + 1) mod 65536 = (n + 1) mod 65536) by (rewrite Zplus_mod_idemp_l; reflexivity). rewrite En.
  destruct (IH i e d o (n + 1)) as (n' & R & N1 & N2 & N4).
  { lia. } { lia. }
  { intros j Hj. destruct (Z.eq_dec j n) as [->|]; [exact E|]. apply H3. lia. }
  { lia. }
  exists n'. replace (o + (n + 1)) with (o + n + 1) in R by lia. replace (d + (n + 1)) with (d + n + 1) in R by lia.
  split; [exact R|]. split; [lia|]. auto.
Qed.

(** The bytes of an instruction. *)
Definition enc (t : tok) : list Z := match t with Lit b => literal b | Copy o n => block_hdr o n end.
Definition encoded (ts : list tok) : list Z := flat_map enc ts.
Lemma encoded_app : forall a b, encoded (a ++ b) = encoded a ++ encoded b.
Proof. intros. apply flat_map_app. Qed.
Lemma enc_len : forall t, 0 < zlen (enc t).
Proof. intros [b|o n]; cbn [enc]; unfold literal; [destruct (b =? ESC)|]; reflexivity. Qed.

Definition good_tok (t : tok) : Prop :=
  match t with Lit b => is_byte b | Copy o n => 0 <= o < 8323072 /\ 0 < n < 65536 end.

Lemma block_hdr_bytes : forall o n, 0 <= o < 8323072 -> 0 <= n < 65536 ->
  block_hdr o n = [127; o / 65536; o / 256 mod 256; o mod 256; n / 256; n mod 256].
Proof.
  intros o n Ho Hn. unfold block_hdr, ESC.
  assert (L : forall x, Z.land x 255 = x mod 256) by (intro x; change 255 with (Z.ones 8); rewrite Z.land_ones by lia; reflexivity).
  rewrite !L, !Z.shiftr_div_pow2 by lia. change (2 ^ 16) with 65536. change (2 ^ 8) with 256.
  assert (0 <= o / 65536 < 127) by (split; [apply Z.div_pos; lia|apply Z.div_lt_upper_bound; lia]).
  assert (0 <= n / 256 < 256) by (split; [apply Z.div_pos; lia|apply Z.div_lt_upper_bound; lia]).
  rewrite (Z.mod_small (o / 65536)) by lia. rewrite (Z.mod_small (n / 256)) by lia. reflexivity.
Qed.

Lemma holds_app : forall f a X Y, holds f a (X ++ Y) <-> holds f a X /\ holds f (a + zlen X) Y.
Proof.
  intros f a X Y. unfold holds. rewrite zlen_app. pose proof (zlen_nonneg X). pose proof (zlen_nonneg Y). unfold zlen in *.
  split.
  - intro H1. split; intros i Hi.
    + rewrite H1 by lia. apply app_nth1. lia.
    + rewrite <- Z.add_assoc, H1 by lia. rewrite app_nth2 by lia. f_equal. lia.
  - intros (H1 & H2) i Hi. destruct (Z.ltb_spec i (Z.of_nat (length X))).
    + rewrite app_nth1 by lia. apply H1. lia.
    + rewrite app_nth2 by lia. specialize (H2 (i - Z.of_nat (length X)) ltac:(lia)).
      replace (a + Z.of_nat (length X) + (i - Z.of_nat (length X))) with (a + i) in H2 by lia. rewrite H2. f_equal. lia.
Qed.

Lemma parsed_encoded : forall pt psz ts off, Forall good_tok ts -> holds pt off (encoded ts) ->
  psz = off + zlen (encoded ts) -> parsed pt psz off ts.
Proof.
  intros pt psz. induction ts as [|t ts IH]; intros off F H E; inversion F; subst.
  - constructor. cbn [encoded flat_map]. unfold zlen. cbn [length]. lia.
  - cbn [encoded flat_map] in *. fold (encoded ts) in *. apply holds_app in H. destruct H as (Ht & H).
    rewrite zlen_app in *. pose proof (zlen_nonneg (encoded ts)). pose proof (enc_len t).
    assert (Rec : forall l, l = zlen (enc t) -> parsed pt (off + (zlen (enc t) + zlen (encoded ts))) (off + l) ts).
    { intros l ->. apply IH; auto. lia. }
    assert (B : forall k v, nth_error (enc t) k = Some v -> pt (off + Z.of_nat k) = v).
    { intros k v Hk. assert (k < length (enc t))%nat by (apply nth_error_Some; congruence).
      rewrite (Ht (Z.of_nat k)) by (unfold zlen; lia). rewrite Nat2Z.id. apply nth_error_nth. exact Hk. }
    destruct t as [b|o n]; cbn [enc good_tok] in *.
    + unfold literal, ESC in *. destruct (Z.eqb_spec b 127) as [->|N].
      * apply pa_esc; [lia| | |apply Rec; reflexivity].
        -- rewrite <- (B O 127 eq_refl). f_equal. lia.
        -- rewrite <- (B 1%nat 127 eq_refl). reflexivity.
      * assert (Eb : b = pt off) by (rewrite <- (B O b eq_refl); f_equal; lia).
        rewrite Eb at 2. apply pa_lit; [lia|congruence|]. apply Rec; reflexivity.
    + destruct H2 as (Ho & Hn). rewrite (block_hdr_bytes o n) in * by lia.
      assert (0 <= o / 65536 < 127) by (split; [apply Z.div_pos; lia|apply Z.div_lt_upper_bound; lia]).
      pose proof (B O _ eq_refl) as B0. pose proof (B 1%nat _ eq_refl) as B1. pose proof (B 2%nat _ eq_refl) as B2.
      pose proof (B 3%nat _ eq_refl) as B3. pose proof (B 4%nat _ eq_refl) as B4. pose proof (B 5%nat _ eq_refl) as B5.
      change (Z.of_nat 0) with 0 in B0. change (Z.of_nat 1) with 1 in B1. change (Z.of_nat 2) with 2 in B2.
      change (Z.of_nat 3) with 3 in B3. change (Z.of_nat 4) with 4 in B4. change (Z.of_nat 5) with 5 in B5. rewrite Z.add_0_r in B0.
      assert (Eo : o = pt (off + 1) * 65536 + pt (off + 2) * 256 + pt (off + 3)).
      { rewrite B1, B2, B3. pose proof (Z.div_mod o 256 ltac:(lia)). pose proof (Z.div_mod (o / 256) 256 ltac:(lia)) as D.
        rewrite Z.div_div in D by lia. change (256 * 256) with 65536 in D. lia. }
      assert (En : n = pt (off + 4) * 256 + pt (off + 5)).
      { rewrite B4, B5. pose proof (Z.div_mod n 256 ltac:(lia)). lia. }
      assert (Ec : Copy o n = Copy (pt (off + 1) * 65536 + pt (off + 2) * 256 + pt (off + 3)) (pt (off + 4) * 256 + pt (off + 5))) by congruence.
      rewrite Ec. apply pa_copy; [lia|exact B0|lia|]. apply Rec. reflexivity.
Qed.

(** *** The main loop *)

Lemma diff_step_spec : forall i off, usable i -> 0 <= off < d_sb i ->
  exists t, diff_step i off = Val (enc t, off + tlen t) /\ fine i off t /\ good_tok t /\ 0 < tlen t.
Proof.
  intros i off [US SA SB BA BB NR] Ho. unfold diff_step, BLOCK_HDR_SIZE. cbn zeta.
  set (st := d_sect i * (off / d_sect i)).
  assert (H0 : 0 <= off / d_sect i) by (apply Z.div_pos; lia).
  assert (Hst : 0 <= st <= off).
  { unfold st. pose proof (Z.mul_div_le off (d_sect i) ltac:(lia)). split; [apply Z.mul_nonneg_nonneg; lia|lia]. }
  destruct (find_a_spec (Z.to_nat (d_sa i)) i off st ltac:(lia)) as (ra & -> & Ra). cbn [obind].
  destruct ra as [p|].
  - destruct Ra as (R1 & R2 & R3 & R4).
    destruct (extend_a_spec (Z.to_nat (d_sa i)) i off p 6) as (n & X & N1 & N0 & N2 & N3 & N4); try lia; auto.
    { pose proof (Z.mod_pos_bound off (d_sect i) ltac:(lia)). pose proof (Z.div_mod off (d_sect i) ltac:(lia)).
      symmetry. apply Z.div_unique with (off mod d_sect i + 5); lia. }
    change (6 mod 65536) with 6 in X. rewrite X. cbn [obind]. assert (Hn : n < 65536).
    { destruct N0 as [N0|N0]; [lia|].
      pose proof (Z.div_mod (off + n) (d_sect i) ltac:(lia)). pose proof (Z.mod_pos_bound (off + n) (d_sect i) ltac:(lia)).
      rewrite N0 in H. fold st in H. lia. }
    rewrite (Z.mod_small n) by lia. exists (Copy p n). cbn [enc tlen fine good_tok]. split; [reflexivity|].
    split; [|split; lia]. split; [lia|]. left. unfold from_base. fold st. auto.
  - destruct (find_b_spec (Z.to_nat st) i st off 0 ltac:(lia)) as (rb & -> & Rb). cbn [obind].
    destruct rb as [p|].
    + destruct Rb as (R1 & R2 & R4).
      destruct (extend_b_spec (Z.to_nat st) i st off p 6) as (n & X & N1 & N2 & N4); try lia; auto.
      change (6 mod 65536) with 6 in X. rewrite X. cbn [obind]. assert (Hn : n < 65536).
      { destruct (Z.ltb_spec n 65536); [assumption|]. exfalso. destruct (NR p off R1 ltac:(lia)) as (j & Hj & Ne).
        apply Ne, N4. lia. }
      rewrite (Z.mod_small n) by lia. exists (Copy p n). cbn [enc tlen fine good_tok]. split; [reflexivity|].
      split; [|split; lia]. split; [lia|]. right. split; [lia|]. split; [exact N2|exact N4].
    + exists (Lit (d_b i off)). cbn [enc tlen fine good_tok]. split; [reflexivity|]. split; [reflexivity|]. split; [apply BB|lia].
Qed.

Lemma tail_loop_spec : forall fuel i len p off, usable i -> 0 <= off -> (Z.to_nat (d_sb i - off) <= fuel)%nat ->
  exists ts, tail_loop fuel i len p off = Val (encoded ts, off + total ts) /\ chained i off ts /\ Forall good_tok ts /\ 0 <= total ts /\
    (ts = [] -> len - 6 <= p \/ d_sb i <= off).
Proof.
  induction fuel as [|fuel IH]; intros i len p off U Ho Hf; cbn [tail_loop]; unfold BLOCK_HDR_SIZE.
  - rewrite (proj2 (Z.ltb_ge off (d_sb i))) by lia. rewrite andb_false_r. exists []. cbn [encoded flat_map total chained].
    rewrite Z.add_0_r. split; [reflexivity|]. split; [exact I|]. split; [constructor|]. split; [lia|]. intros _. right. lia.
  - destruct (Z.ltb_spec p (len - 6)); cbn [andb].
    2: { exists []. cbn [encoded flat_map total chained]. rewrite Z.add_0_r. split; [reflexivity|]. split; [exact I|]. split; [constructor|]. split; [lia|]. intros _. left. lia. }
    destruct (Z.ltb_spec off (d_sb i)).
    2: { exists []. cbn [encoded flat_map total chained]. rewrite Z.add_0_r. split; [reflexivity|]. split; [exact I|]. split; [constructor|]. split; [lia|]. intros _. right. lia. }
    destruct (IH i len (p + zlen (literal (d_b i off))) (off + 1) U ltac:(lia) ltac:(lia)) as (ts & E & C & F & T & _).
    rewrite E. cbn [obind]. exists (Lit (d_b i off) :: ts). cbn [encoded flat_map enc total tlen chained fine].
    split; [do 2 f_equal; lia|]. split; [auto|]. split; [constructor; [apply (us_b i U)|exact F]|]. split; [lia|discriminate].
Qed.

Lemma diff_loop_spec : forall fuel i len p off, usable i -> 0 <= off -> (Z.to_nat (d_sb i - off) <= fuel)%nat ->
  exists ts, diff_loop fuel i len p off = Val (encoded ts, off + total ts) /\ chained i off ts /\ Forall good_tok ts /\ 0 <= total ts /\
    (ts = [] -> len - 6 <= p \/ d_sb i <= off).
Proof.
  induction fuel as [|fuel IH]; intros i len p off U Ho Hf; cbn [diff_loop]; unfold BLOCK_HDR_SIZE.
  - rewrite (proj2 (Z.ltb_ge (off + 6) (d_sb i))) by lia. cbn [andb]. apply tail_loop_spec; auto. lia.
  - destruct ((off + 6 <? d_sb i) && (len >? p + 6)) eqn:E; [|apply tail_loop_spec; auto; lia].
    apply andb_true_iff in E. destruct E as (E1 & E2). apply Z.ltb_lt in E1.
    destruct (diff_step_spec i off U ltac:(lia)) as (t & -> & Ft & Gt & Lt). cbn [obind].
    destruct (IH i len (p + zlen (enc t)) (off + tlen t) U ltac:(lia) ltac:(lia)) as (ts & -> & C & F & T & _). cbn [obind].
    exists (t :: ts). cbn [encoded flat_map total chained]. split; [do 2 f_equal; lia|]. split; [auto|].
    split; [constructor; auto|]. split; [lia|discriminate].
Qed.

Lemma encoded_nil : forall ts, encoded ts = [] -> ts = [].
Proof.
  intros [|t ts] E; [reflexivity|]. exfalso. cbn [encoded flat_map] in E. pose proof (enc_len t) as L.
  apply app_eq_nil in E. destruct E as (E & _). rewrite E in L. unfold zlen in L. cbn [length] in L. lia.
Qed.

Lemma good_total : forall ts, Forall good_tok ts -> ts <> [] -> 0 < total ts.
Proof.
  induction 1 as [|t ts Gt F IH]; [congruence|]. intros _. cbn [total].
  assert (0 < tlen t) by (destruct t; cbn [good_tok tlen] in *; lia).
  destruct ts; [cbn [total]; lia|]. specialize (IH ltac:(discriminate)). lia.
Qed.

Lemma diff_all_spec : forall fuel i off, usable i -> 0 <= off -> (Z.to_nat (d_sb i - off) < fuel)%nat ->
  exists ts, diff_all fuel i off = Val (Some (encoded ts)) /\ chained i off ts /\ Forall good_tok ts /\ d_sb i <= off + total ts.
Proof.
  induction fuel as [|fuel IH]; intros i off U Ho Hf; [lia|]. cbn [diff_all]. unfold wb_diff.
  destruct (Z.geb_spec off (d_sb i)).
  { cbn [obind]. exists []. cbn [encoded flat_map chained total]. split; [reflexivity|]. split; [exact I|]. split; [constructor|lia]. }
  pose proof (us_sect i U). unfold BLOCK_HDR_SIZE. rewrite (proj2 (Z.ltb_ge (d_sect i) 6)) by lia.
  destruct (diff_loop_spec (Z.to_nat (d_sb i)) i (d_sect i) 0 off U Ho ltac:(lia)) as (ts & -> & C & F & T & N). cbn [obind].
  destruct (encoded ts) as [|z l] eqn:E.
  { apply encoded_nil in E. destruct (N E); lia. }
  assert (Hne : ts <> []) by (intros ->; discriminate E). pose proof (good_total ts F Hne).
  destruct (IH i (off + total ts) U ltac:(lia) ltac:(lia)) as (ts2 & -> & C2 & F2 & T2). cbn [obind].
  exists (ts ++ ts2). rewrite encoded_app, E. split; [reflexivity|]. split; [apply chained_app; auto|].
  split; [apply Forall_app; auto|]. rewrite total_app. lia.
Qed.

Lemma make_patch_spec : forall i, usable i ->
  exists ts, make_patch i = Val (Some (encoded ts)) /\ chained i 0 ts /\ Forall good_tok ts /\ d_sb i <= total ts.
Proof.
  intros i U. unfold make_patch. pose proof (us_sa i U). pose proof (us_sb i U).
  rewrite (proj2 (Z.eqb_neq (d_sa i) 0)), (proj2 (Z.eqb_neq (d_sb i) 0)) by lia. cbn [orb].
  destruct (diff_all_spec (S (Z.to_nat (d_sb i))) i 0 U ltac:(lia) ltac:(lia)) as (ts & E & C & F & T). exists ts. auto.
Qed.

Lemma good_sane : forall ts, Forall good_tok ts -> Forall sane ts.
Proof. intros ts. apply Forall_impl. intros [b|o n]; unfold sane; cbn [good_tok tlen]; lia. Qed.

(** *** Applying in place *)

Lemma sumz_repeat : forall n x, sumz (repeat x n) = Z.of_nat n * x.
Proof. induction n as [|n IH]; intro x; cbn [repeat sumz]; [lia|]. rewrite IH. lia. Qed.

(** One sector: from the state [about ts] at the start of sector [k]. *)
Lemma sector_out : forall i pt psz blk e k m x ts, usable i -> bytes pt -> 0 <= psz -> 6 <= blk -> (blk | d_sect i) ->
  0 <= k -> midway i e k m -> about pt psz x ts -> chained i (k * d_sect i) ts -> k * d_sect i + total ts = e ->
  exists pre post x', about pt psz x' post /\ chained i (k * d_sect i + total pre) post /\ 0 <= total pre <= d_sect i /\
    (total pre = d_sect i \/ post = []) /\ k * d_sect i + total pre + total post = e /\
    (forall src, patch_calls src pt psz x (repeat blk (Z.to_nat (d_sect i / blk))) = Val (expand src pre, x')) /\
    expand m pre = rdl (d_b i) (k * d_sect i) (Z.to_nat (total pre)).
Proof.
  intros i pt psz blk e k m x ts U Hb Hz Hblk Hdiv Hk M A C E. pose proof (us_sect i U) as US.
  destruct (patch_calls_spec pt psz (repeat blk (Z.to_nat (d_sect i / blk))) Hb Hz) with (x := x) (ts := ts)
    as (pre & post & x' & S1 & A1 & T1 & T2 & R); [| |].
  { apply Forall_forall. intros y Hy. apply repeat_spec in Hy. lia. }
  { exact A. }
  assert (Es : sumz (repeat blk (Z.to_nat (d_sect i / blk))) = d_sect i).
  { rewrite sumz_repeat, Z2Nat.id by (apply Z.div_pos; lia). destruct Hdiv as (q & Hq). rewrite Hq, Z.div_mul by lia. reflexivity. }
  rewrite Es in *.
  assert (Sn : Forall sane ts) by (eapply about_sane; eauto).
  destruct (splits_sane _ _ _ S1 Sn) as (Sp & Sq).
  pose proof (splits_total _ _ _ S1) as Et. pose proof (total_nonneg pre Sp). pose proof (total_nonneg post Sq).
  destruct (splits_chained i _ _ _ ltac:(lia) S1 _ C) as (C1 & C2).
  exists pre, post, x'. split; [exact A1|]. split; [exact C2|]. split; [lia|]. split; [exact T2|]. split; [lia|]. split; [exact R|].
  apply (chain_expand i e k m); auto; lia.
Qed.

Lemma overwrite_out : forall m a o x, inr a (zlen o) x = false -> overwrite m a o x = m x.
Proof. intros. unfold overwrite. rewrite H. reflexivity. Qed.

Lemma midway_next : forall i e k m n, 0 < d_sect i -> midway i e k m -> 0 <= n <= d_sect i -> (n = d_sect i \/ e <= k * d_sect i + n) ->
  midway i e (k + 1) (overwrite m (k * d_sect i) (rdl (d_b i) (k * d_sect i) (Z.to_nat n))).
Proof.
  intros i e k m n HS (M1 & M2) Hn He.
  assert (L : zlen (rdl (d_b i) (k * d_sect i) (Z.to_nat n)) = n) by (unfold zlen; rewrite rdl_len; lia).
  split; intros x Hx.
  - intro Hxe. unfold overwrite. rewrite L. unfold inr.
    destruct (Z.leb_spec (k * d_sect i) x); destruct (Z.ltb_spec x (k * d_sect i + n)); cbn [andb]; try (apply M1; lia); try lia.
    rewrite rdl_nth by lia. f_equal. lia.
  - rewrite overwrite_out; [apply M2; lia|]. rewrite L. unfold inr. rewrite (proj2 (Z.ltb_ge x _)) by lia. apply andb_false_r.
Qed.

Lemma apply_sectors_spec : forall i pt psz blk e, usable i -> bytes pt -> 0 <= psz -> 6 <= blk -> (blk | d_sect i) ->
  forall n k m x ts, 0 <= k -> midway i e k m -> about pt psz x ts -> chained i (k * d_sect i) ts ->
  k * d_sect i + total ts = e \/ ts = [] /\ e <= k * d_sect i ->
  exists m', apply_sectors n pt psz (d_sect i) blk k m x = Val m' /\ midway i e (k + Z.of_nat n) m'.
Proof.
  intros i pt psz blk e U Hb Hz Hblk Hdiv. pose proof (us_sect i U) as US.
  induction n as [|n IH]; intros k m x ts Hk M A C E; cbn [apply_sectors].
  - exists m. split; [reflexivity|]. rewrite Z.add_0_r. exact M.
  - assert (exists x' pre post, about pt psz x' post /\ chained i ((k + 1) * d_sect i) post /\
      ((k + 1) * d_sect i + total post = e \/ post = [] /\ e <= (k + 1) * d_sect i) /\ 
      patch_calls m pt psz x (repeat blk (Z.to_nat (d_sect i / blk))) = Val (expand m pre, x') /\
      midway i e (k + 1) (overwrite m (k * d_sect i) (expand m pre))) as (x' & pre & post & A' & C' & E' & R & M').
    { destruct E as [E|(-> & E)].
      - destruct (sector_out i pt psz blk e k m x ts U Hb Hz Hblk Hdiv Hk M A C E) as (pre & post & x' & A1 & C1 & T1 & T2 & T3 & R & Ex).
        exists x', pre, post. split; [exact A1|]. split.
        { destruct T2 as [T2| ->]; [|exact I]. replace ((k + 1) * d_sect i) with (k * d_sect i + total pre) by lia. exact C1. }
        split. { destruct T2 as [T2| ->]; [left; lia|right; cbn [total] in T3; split; [reflexivity|lia]]. }
        split; [apply R|]. rewrite Ex. apply midway_next; auto; [lia|]. destruct T2 as [T2| ->]; [auto|cbn [total] in T3; lia].
      - destruct (patch_calls_spec pt psz (repeat blk (Z.to_nat (d_sect i / blk))) Hb Hz) with (x := x) (ts := @nil tok)
          as (pre & post & x' & S1 & A1 & T1 & T2 & R); [| |].
        { apply Forall_forall. intros y Hy. apply repeat_spec in Hy. lia. }
        { exact A. }
        inversion S1; subst. exists x', [], []. split; [exact A1|]. split; [exact I|]. split; [right; split; [reflexivity|lia]|].
        split; [apply R|]. change (expand m []) with (rdl (d_b i) (k * d_sect i) (Z.to_nat 0)). apply midway_next; auto; lia. }
    rewrite R. cbn [obind]. destruct (IH (k + 1) _ x' post ltac:(lia) M' A' C' E') as (m' & E2 & M2).
    exists m'. split; [exact E2|]. replace (k + Z.of_nat (S n)) with (k + 1 + Z.of_nat n) by lia. exact M2.
Qed.
