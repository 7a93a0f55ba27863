(** Proofs about the ELF loader. *)
From Verif Require Import Base BaseLemmas HeaderModel Flash FlashLemmas ImageModel ImageSpec ImageProofs ElfModel ElfSpec.
Local Ltac Zify.zify_post_hook ::= idtac.

Lemma nth_sub : forall {A} (l : list A) o n i d, (i < n)%nat -> (o + n <= length l)%nat ->
  nth i (sub l o n) d = nth (o + i) l d.
Proof.
  intros A l o n i d Hi Hl. apply nth_error_nth. rewrite nth_error_sub by assumption. apply nth_error_nth'. lia.
Qed.

Lemma rdl_holds : forall m a X n o, holds m a X -> (o + n <= length X)%nat ->
  rdl m (a + Z.of_nat o) n = sub X o n.
Proof.
  intros m a X n o H Hl. apply nth_ext with (d := 0) (d' := 0).
  - rewrite length_rdl, length_sub by assumption. reflexivity.
  - intros i Hi. rewrite length_rdl in Hi. rewrite rdl_nth, nth_sub by assumption.
    rewrite <- Z.add_assoc, <- Nat2Z.inj_add. rewrite H by (unfold zlen; lia). rewrite Nat2Z.id. reflexivity.
Qed.

Lemma le_bytes_val : forall l, all_bytes l -> le_bytes (length l) (le_val l) = l.
Proof.
  induction l as [|b l IH]; intros H; [reflexivity|]. inversion H; subst. cbn [length le_bytes le_val].
  unfold is_byte in *. rewrite Z.mul_comm, Z_mod_plus_full, Z_div_plus_full by lia.
  rewrite Z.mod_small, Z.div_small by assumption. cbn [Z.add]. f_equal. auto.
Qed.

Lemma all_bytes_rev : forall l, all_bytes l -> all_bytes (rev l).
Proof. intros l H. apply Forall_forall. intros x Hx. apply in_rev in Hx. exact (proj1 (Forall_forall _ _) H x Hx). Qed.

Lemma all_bytes_sub : forall X o n, all_bytes X -> all_bytes (sub X o n).
Proof.
  intros X o n H. apply Forall_forall. intros x Hx. apply (proj1 (Forall_forall _ _) H).
  unfold sub in Hx. rewrite <- (firstn_skipn o X). apply in_or_app. right.
  rewrite <- (firstn_skipn n (skipn o X)). apply in_or_app. left. exact Hx.
Qed.

Lemma bswap_rev : forall l, all_bytes l -> bswap (length l) (le_val l) = le_val (rev l).
Proof. intros l H. unfold bswap. rewrite le_bytes_val by assumption. reflexivity. Qed.

(** The machine reads numbers of the file correctly. *)
Definition reads (e : ecfg) (X : list Z) : Prop :=
  HBE e = negb (little X) \/ SWP e = true.

Lemma get_num : forall e X m a o n, reads e X -> holds m a X -> all_bytes X ->
  0 <= o -> (Z.to_nat o + n <= length X)%nat ->
  getn e (little X) n (ldn (HBE e) m (a + o) n) = num X o n.
Proof.
  intros e X m a o n R H B Ho Hl. unfold getn, ldn, num.
  pose proof (rdl_holds m a X n (Z.to_nat o) H Hl) as E. rewrite Z2Nat.id in E by assumption. rewrite E.
  set (l := sub X (Z.to_nat o) n).
  assert (L : length l = n) by (apply length_sub; assumption).
  assert (Bl : all_bytes l) by (apply all_bytes_sub; assumption).
  destruct R as [R|R].
  - rewrite R. destruct (little X); cbn [negb Bool.eqb]; rewrite andb_false_r; reflexivity.
  - rewrite R. destruct (little X), (HBE e); cbn [andb Bool.eqb]; try reflexivity.
    + rewrite <- (rev_involutive l) at 2. rewrite <- L. rewrite <- (rev_length l). apply bswap_rev. apply all_bytes_rev. exact Bl.
    + rewrite <- L. apply bswap_rev. exact Bl.
Qed.

Lemma le_val_bound : forall l, all_bytes l -> 0 <= le_val l < 256 ^ Z.of_nat (length l).
Proof.
  induction l as [|b l IH]; intros H; [cbn; lia|]. inversion H; subst. specialize (IH H3). unfold is_byte in *.
  cbn [le_val length]. rewrite Nat2Z.inj_succ, Z.pow_succ_r by lia. lia.
Qed.

Lemma num_bound : forall X o n, all_bytes X -> (Z.to_nat o + n <= length X)%nat ->
  0 <= num X o n < 256 ^ Z.of_nat n.
Proof.
  intros X o n B Hl. unfold num. set (l := sub X (Z.to_nat o) n).
  assert (L : length l = n) by (apply length_sub; assumption).
  assert (Bl : all_bytes l) by (apply all_bytes_sub; assumption).
  destruct (little X).
  - rewrite <- L. apply le_val_bound. exact Bl.
  - rewrite <- L, <- (rev_length l). apply le_val_bound. apply all_bytes_rev. exact Bl.
Qed.

Lemma num_nonneg : forall X o n, all_bytes X -> 0 <= num X o n.
Proof.
  intros X o n B. unfold num. set (l := sub X (Z.to_nat o) n).
  assert (Bl : all_bytes l) by (apply all_bytes_sub; assumption).
  destruct (little X); apply le_val_bound; [|apply all_bytes_rev]; exact Bl.
Qed.

Lemma skipn_step : forall {A} (l : list A) i x, nth_error l i = Some x -> skipn i l = x :: skipn (S i) l.
Proof.
  intros A l. induction l as [|y l IH]; intros [|i] x T; cbn in *; try discriminate.
  - congruence.
  - apply IH. exact T.
Qed.

Section File.
Context (X : list Z) (OK : elf_ok X).

Lemma table_at : forall i, (i < Z.to_nat (phdr_count X))%nat ->
  nth_error (segments X) i = Some (segment_at X (phdr_off X + Z.of_nat i * phdr_size X)).
Proof.
  intros i Hi. unfold segments.
  erewrite map_nth_error; [reflexivity|]. rewrite nth_error_nth' with (d := 0%nat) by (rewrite seq_length; exact Hi).
  rewrite seq_nth by exact Hi. reflexivity.
Qed.

Lemma head_nonneg : 0 <= phdr_off X /\ 0 <= phdr_size X /\ 0 <= phdr_count X.
Proof.
  pose proof (ok_bytes X OK) as B. unfold phdr_off, phdr_size, phdr_count.
  destruct (class32 X); repeat split; apply num_nonneg; assumption.
Qed.

Lemma seg_nonneg : forall o, 0 <= s_type (segment_at X o) /\ 0 <= s_off (segment_at X o) /\
  0 <= s_filesz (segment_at X o) /\ 0 <= s_vaddr (segment_at X o) /\ 0 <= s_memsz (segment_at X o).
Proof.
  pose proof (ok_bytes X OK) as B. intro o. unfold segment_at.
  destruct (class32 X); cbn [s_off s_filesz s_type s_vaddr s_memsz]; repeat split; apply num_nonneg; assumption.
Qed.

Lemma row_bound : forall i, (i < Z.to_nat (phdr_count X))%nat ->
  0 <= phdr_off X + Z.of_nat i * phdr_size X /\ 0 <= Z.of_nat i * phdr_size X /\
  phdr_off X + Z.of_nat i * phdr_size X + phdr_size X <= zlen X.
Proof.
  intros i Hi. destruct head_nonneg as (P0 & P1 & P2). pose proof (ok_table X OK) as T.
  assert (K : (Z.of_nat i + 1) * phdr_size X <= phdr_count X * phdr_size X)
    by (apply Z.mul_le_mono_nonneg_r; lia).
  assert (0 <= Z.of_nat i * phdr_size X) by (apply Z.mul_nonneg_nonneg; lia). lia.
Qed.

End File.

Section Load.
Context (e : ecfg) (X : list Z) (a : Z).
Context (OK : elf_ok X) (RD : reads e X) (A0 : 0 <= a) (A1 : a + zlen X <= 2 ^ AW e)
  (LEN : zlen X < 2 ^ 31) (POW : 2 ^ 31 < 2 ^ AW e)
  (SEP : no_overlap (segments X) s_vaddr s_memsz (2 ^ AW e) a (zlen X)).

Lemma content_place : forall m s, holds m a X -> In s (segments X) -> loadable s ->
  0 <= s_off s -> 0 <= s_filesz s ->
  exists m', (dlet m1 <- memcpy_m e m (s_vaddr s) (uw (AW e) (a + s_off s)) (s_filesz s) in
              if s_memsz s >? s_filesz s
              then memset0_m e m1 (uw (AW e) (s_vaddr s + s_filesz s)) (s_memsz s - s_filesz s)
              else Val m1) = Val m' /\
    (forall x, spans (s_vaddr s) (s_memsz s) x -> m' x = content X s (x - s_vaddr s)) /\
    (forall x, ~ spans (s_vaddr s) (s_memsz s) x -> m' x = m x).
Proof.
  intros m s H I L O0 F0. destruct (ok_segs X OK s I L) as (S1 & S2).
  destruct SEP as (_ & SE). destruct (SE s I L) as (V0 & V1 & AP).
  assert (CP : exists m1, memcpy_m e m (s_vaddr s) (uw (AW e) (a + s_off s)) (s_filesz s) = Val m1 /\
     (forall x, spans (s_vaddr s) (s_filesz s) x -> m1 x = content X s (x - s_vaddr s)) /\
     (forall x, ~ spans (s_vaddr s) (s_filesz s) x -> m1 x = m x)).
  { unfold memcpy_m. destruct (Z.eqb_spec (s_filesz s) 0) as [E|E].
    - exists m. split; [reflexivity|]. unfold spans. split; intros; [lia|reflexivity].
    - unfold uw. rewrite Z.mod_small by lia.
      replace (fits e (s_vaddr s) (s_filesz s) && fits e (a + s_off s) (s_filesz s)) with true
        by (symmetry; unfold fits; apply andb_true_intro; split; apply andb_true_intro; split; lia).
      cbn [negb].
      assert (AP' : apart (s_vaddr s) (s_filesz s) (a + s_off s) (s_filesz s)).
      { intros x (B1 & B2). apply (AP x). unfold spans in *. lia. }
      replace ((s_vaddr s <? a + s_off s + s_filesz s) && (a + s_off s <? s_vaddr s + s_filesz s)) with false.
      2:{ symmetry. apply andb_false_iff. rewrite !Z.ltb_ge.
          destruct (Z_le_gt_dec (a + s_off s + s_filesz s) (s_vaddr s)); [left; assumption|].
          destruct (Z_le_gt_dec (s_vaddr s + s_filesz s) (a + s_off s)); [right; assumption|].
          exfalso. destruct (Z_le_gt_dec (s_vaddr s) (a + s_off s)).
          - apply (AP' (a + s_off s)). unfold spans. lia.
          - apply (AP' (s_vaddr s)). unfold spans. lia. }
      eexists. split; [reflexivity|]. cbn beta. split; intros x Hx.
      + replace (inr (s_vaddr s) (s_filesz s) x) with true by (symmetry; apply inr_true; exact Hx).
        unfold spans in Hx. unfold content. replace (x - s_vaddr s <? s_filesz s) with true by lia.
        rewrite <- Z.add_assoc. apply H. lia.
      + replace (inr (s_vaddr s) (s_filesz s) x) with false by (symmetry; apply inr_false; exact Hx). reflexivity. }
  destruct CP as (m1 & E1 & C1 & C2). rewrite E1. cbn [obind].
  rewrite Z.gtb_ltb. destruct (Z.ltb_spec (s_filesz s) (s_memsz s)) as [G|G].
  - unfold memset0_m. destruct (Z.eqb_spec (s_memsz s - s_filesz s) 0); [lia|].
    unfold uw. rewrite Z.mod_small by lia.
    replace (fits e (s_vaddr s + s_filesz s) (s_memsz s - s_filesz s)) with true
      by (symmetry; unfold fits; apply andb_true_intro; split; lia). cbn [negb].
    eexists. split; [reflexivity|]. cbn beta. unfold spans in *. split; intros x Hx.
    + destruct (inr (s_vaddr s + s_filesz s) (s_memsz s - s_filesz s) x) eqn:R.
      * apply inr_true in R. unfold content. replace (x - s_vaddr s <? s_filesz s) with false by lia. reflexivity.
      * apply inr_false in R. apply C1. lia.
    + replace (inr (s_vaddr s + s_filesz s) (s_memsz s - s_filesz s) x) with false by (symmetry; apply inr_false; lia).
      apply C2. lia.
  - exists m1. split; [reflexivity|]. replace (s_memsz s) with (s_filesz s) by lia. auto.
Qed.

Lemma fields_at : forall m i, holds m a X -> (i < Z.to_nat (phdr_count X))%nat ->
  let p := a + (phdr_off X + Z.of_nat i * phdr_size X) in
  let s := segment_at X (phdr_off X + Z.of_nat i * phdr_size X) in
  getn e (little X) 4 (ldn (HBE e) m p 4) = s_type s /\
  fld e (little X) m p (e_offset (class32 X)) = s_off s /\
  fld e (little X) m p (e_vaddr (class32 X)) = s_vaddr s /\
  fld e (little X) m p (e_paddr (class32 X)) = s_paddr s /\
  fld e (little X) m p (e_filesz (class32 X)) = s_filesz s /\
  fld e (little X) m p (e_memsz (class32 X)) = s_memsz s.
Proof.
  intros m i H Hi. cbv zeta. destruct (row_bound X OK i Hi) as (R0 & R1 & R2).
  pose proof (ok_entsize X OK) as EZ. pose proof (ok_bytes X OK) as B.
  set (o := phdr_off X + Z.of_nat i * phdr_size X) in *. clearbody o.
  unfold fld, e_offset, e_vaddr, e_paddr, e_filesz, e_memsz, segment_at. unfold zlen in R2.
  destruct (class32 X); cbn [fst snd s_type s_off s_vaddr s_paddr s_filesz s_memsz];
    repeat split; rewrite <- ?Z.add_assoc; apply get_num; try assumption; lia.
Qed.

Context (cb : option (Z -> Z -> Z -> bool))
  (MAP : forall s, In s (segments X) -> loadable s -> s_memsz s <> 0 -> maps cb s)
  (PAD : forall s, In s (segments X) -> loadable s -> 0 <= s_paddr s < 2 ^ AW e).

Lemma load_loop_ok : forall k i m log, (i + k = Z.to_nat (phdr_count X))%nat -> holds m a X ->
  exists m', load_loop k e (class32 X) (little X) a (a + phdr_off X) (phdr_size X) (Z.of_nat i) cb m log =
      Val (m', log ++ map_calls cb (skipn i (segments X))) /\ holds m' a X /\
    (forall j s x, (i <= j)%nat -> nth_error (segments X) j = Some s -> loadable s ->
       spans (s_vaddr s) (s_memsz s) x -> m' x = content X s (x - s_vaddr s)) /\
    (forall x, (forall j s, (i <= j)%nat -> nth_error (segments X) j = Some s -> loadable s ->
       ~ spans (s_vaddr s) (s_memsz s) x) -> m' x = m x).
Proof.
  induction k as [|k IH]; intros i m log Hk H.
  - exists m. assert (LS : length (segments X) = Z.to_nat (phdr_count X))
      by (unfold segments; rewrite map_length, seq_length; reflexivity).
    rewrite skipn_all2 by lia. cbn [load_loop]. unfold map_calls.
    split; [destruct cb; cbn [filter map]; rewrite app_nil_r; reflexivity|]. split; [exact H|].
    split; [|reflexivity]. intros j s x Hj E. assert (j < length (segments X))%nat by (apply nth_error_Some; congruence). lia.
  - assert (Hi : (i < Z.to_nat (phdr_count X))%nat) by lia.
    destruct (row_bound X OK i Hi) as (R0 & R1 & R2). pose proof (ok_entsize X OK) as EZ.
    destruct (head_nonneg X OK) as (HN & _ & _).
    assert (EZ' : 32 <= phdr_size X) by (destruct (class32 X); lia).
    destruct (fields_at m i H Hi) as (F1 & F2 & F3 & F4 & F5 & F6).
    pose proof (table_at X i Hi) as T.
    set (s := segment_at X (phdr_off X + Z.of_nat i * phdr_size X)) in *.
    destruct (seg_nonneg X OK (phdr_off X + Z.of_nat i * phdr_size X)) as (N1 & N2 & N3 & N4 & N5). fold s in N1, N2, N3, N4, N5.
    assert (In s (segments X)) as I by (eapply nth_error_In; exact T).
    cbn [load_loop]. destruct (Z.leb_spec (2 ^ 31) (Z.of_nat i * phdr_size X)); [lia|].
    replace (uw (AW e) (a + phdr_off X + Z.of_nat i * phdr_size X)) with (a + (phdr_off X + Z.of_nat i * phdr_size X))
      by (unfold uw; rewrite Z.mod_small by lia; ring).
    rewrite F1, F2, F3, F4, F5, F6.
    assert (SK : skipn i (segments X) = s :: skipn (S i) (segments X)).
    { apply skipn_step. exact T. }
    replace (Z.of_nat i + 1) with (Z.of_nat (S i)) by lia.
    destruct (Z.eqb_spec (s_type s) ELF_PT_LOAD) as [L|L].
    + assert (LD : loadable s) by exact L.
      destruct SEP as (SP & SE). destruct (SE s I LD) as (V0 & V1 & AP).
      destruct (ok_segs X OK s I LD) as (S1 & S2).
      destruct (PAD s I LD) as (P0 & P1).
      assert (ZL : 52 <= zlen X) by (pose proof (ok_head X OK) as HD; destruct (class32 X); lia).
      assert (V2 : s_vaddr s < 2 ^ AW e /\ s_memsz s < 2 ^ AW e \/ s_memsz s = 0).
      { destruct (Z.eq_dec (s_memsz s) 0) as [Z0|Z0]; [right; exact Z0|]. left. split; [lia|].
        destruct (Z_lt_le_dec (s_memsz s) (2 ^ AW e)) as [G|G]; [exact G|]. exfalso.
        apply (AP a). unfold spans. lia. }
      destruct (Z.eq_dec (s_memsz s) 0) as [Z0|Z0].
      * (* nothing to load *)
        rewrite Z0. replace (uw (AW e) 0) with 0 by (unfold uw; rewrite Z.mod_0_l by lia; reflexivity).
        rewrite Z.eqb_refl, orb_true_r.
        destruct (IH (S i) m log ltac:(lia) H) as (m' & E & H' & C1 & C2). exists m'.
        split; [|split; [exact H'|split]].
        { rewrite E, SK. unfold map_calls. destruct cb; [|reflexivity]. cbn [filter].
          replace (to_load s) with false by (unfold to_load; rewrite Z0, Z.eqb_refl, andb_false_r; reflexivity). reflexivity. }
        { intros j s' x Hj Ej Ls Sp. destruct (Nat.eq_dec j i) as [->|Nj].
          - rewrite T in Ej. injection Ej as <-. unfold spans in Sp. lia.
          - apply (C1 j); auto. lia. }
        { intros x Hx. apply C2. intros j s' Hj. apply Hx. lia. }
      * destruct V2 as [(V2 & V3)|V2]; [|contradiction].
        assert (UM : uw (AW e) (s_memsz s) = s_memsz s) by (unfold uw; apply Z.mod_small; lia).
        assert (UV : uw (AW e) (s_vaddr s) = s_vaddr s) by (unfold uw; apply Z.mod_small; lia).
        assert (UP : uw (AW e) (s_paddr s) = s_paddr s) by (unfold uw; apply Z.mod_small; lia).
        assert (UO : uw (AW e) (s_off s) = s_off s) by (unfold uw; apply Z.mod_small; lia).
        assert (UF : uw (AW e) (s_filesz s) = s_filesz s) by (unfold uw; apply Z.mod_small; lia).
        rewrite UM, UV, UP, UO, UF. destruct (Z.eqb_spec (s_memsz s) 0); [contradiction|]. cbn [negb orb].
        assert (MC : match cb with
                     | Some g => (g (s_vaddr s) (s_paddr s) (uw 32 (s_memsz s)),
                                  log ++ [(s_vaddr s, s_paddr s, uw 32 (s_memsz s))])
                     | None => (true, log)
                     end = (true, log ++ map_calls cb [s])).
        { pose proof (MAP s I LD Z0) as M. unfold maps, map_calls in *. destruct cb as [g|]; [|rewrite app_nil_r; reflexivity].
          destruct M as (M1 & M2). replace (uw 32 (s_memsz s)) with (s_memsz s) by (unfold uw; rewrite Z.mod_small by lia; reflexivity).
          rewrite M2. cbn [filter]. unfold to_load. rewrite L. destruct (Z.eqb_spec (s_memsz s) 0); [contradiction|]. reflexivity. }
        rewrite MC. cbn [negb].
        destruct (content_place m s H I LD N2 N3) as (m1 & E1 & C1 & C2).
        assert (E1' : forall (Q : flash -> out (flash * list (Z * Z * Z))),
          (dlet m1 <- memcpy_m e m (s_vaddr s) (uw (AW e) (a + s_off s)) (s_filesz s) in
           dlet m2 <- (if s_memsz s >? s_filesz s
              then memset0_m e m1 (uw (AW e) (s_vaddr s + s_filesz s)) (s_memsz s - s_filesz s)
              else Val m1) in Q m2) = Q m1).
        { intro Q. destruct (memcpy_m e m (s_vaddr s) (uw (AW e) (a + s_off s)) (s_filesz s)) as [m0| |]; cbn [obind] in *; try discriminate E1.
          rewrite E1. reflexivity. }
        rewrite E1'. clear E1'.
        assert (H1 : holds m1 a X).
        { intros q Hq. rewrite C2; [apply H, Hq|]. intro Sp. apply (AP (a + q)). split; [exact Sp|]. unfold spans. lia. }
        destruct (IH (S i) m1 (log ++ map_calls cb [s]) ltac:(lia) H1) as (m' & E & H' & D1 & D2).
        exists m'. split; [|split; [exact H'|split]].
        { rewrite E, SK. f_equal. f_equal. rewrite <- app_assoc. f_equal. unfold map_calls. destruct cb; [|reflexivity].
          cbn [filter]. destruct (to_load s); reflexivity. }
        { intros j s' x Hj Ej Ls Sp. destruct (Nat.eq_dec j i) as [->|Nj].
          - rewrite T in Ej. injection Ej as <-. rewrite D2; [apply C1, Sp|].
            intros j' s' Hj' Ej' Ls' Sp'. apply (SP i j' s s' T Ej' ltac:(lia) LD Ls' x). auto.
          - apply (D1 j); auto. lia. }
        { intros x Hx. rewrite D2; [apply C2, (Hx i s); auto|]. intros j s' Hj. apply Hx. lia. }
    + cbn [negb orb]. destruct (IH (S i) m log ltac:(lia) H) as (m' & E & H' & C1 & C2). exists m'.
      split; [|split; [exact H'|split]].
      { rewrite E, SK. unfold map_calls. destruct cb; [|reflexivity]. cbn [filter].
        replace (to_load s) with false by (unfold to_load; destruct (Z.eqb_spec (s_type s) 1); [contradiction|reflexivity]). reflexivity. }
      { intros j s' x Hj Ej Ls Sp. destruct (Nat.eq_dec j i) as [->|Nj].
        - rewrite T in Ej. injection Ej as <-. contradiction.
        - apply (C1 j); auto. lia. }
      { intros x Hx. apply C2. intros j s' Hj. apply Hx. lia. }
Qed.

Context (TY : file_type X = 2) (EN : 0 <= entry_point X < 2 ^ AW e)
  (WIDE : class32 X = true \/ HBE e = negb (little X)).

Lemma load_ok : forall m, holds m a X ->
  exists m', elf_load_image_mmu e m a cb = Val (LOk m' (entry_point X) (map_calls cb (segments X))) /\
    in_memory X m m' /\ holds m' a X.
Proof.
  intros m H. unfold elf_load_image_mmu.
  assert (ZL : 52 <= zlen X /\ (class32 X = false -> 64 <= zlen X)) by (pose proof (ok_head X OK) as HD; destruct (class32 X); split; intros; try discriminate; lia).
  destruct ZL as (ZL & ZL'). unfold zlen in ZL, ZL'.
  pose proof (ok_bytes X OK) as B.
  replace (rdl m a 4) with (sub X 0 4).
  2:{ symmetry. rewrite <- (Z.add_0_r a). apply (rdl_holds m a X 4 0 H). lia. }
  unfold sub. cbn [skipn]. rewrite (ok_magic X OK). cbn [list_eqb ELF_IDENT Z.eqb Pos.eqb andb negb].
  assert (C4 : (m (a + 4) =? 1) = class32 X) by (unfold class32; rewrite (H 4) by (unfold zlen; lia); reflexivity).
  assert (C5 : (m (a + 5) =? 1) = little X) by (unfold little; rewrite (H 5) by (unfold zlen; lia); reflexivity).
  rewrite C4, C5. clear C4 C5.
  rewrite (get_num e X m a 16 2 RD H B) by lia. fold (file_type X). rewrite TY. cbn [ELF_HET_EXEC Z.eqb Pos.eqb negb].
  assert (PO : getn e (little X) 4 (ldn (HBE e) m (a + fst (h_phoff (class32 X))) (snd (h_phoff (class32 X)))) = phdr_off X).
  { unfold phdr_off, h_phoff. destruct (class32 X) eqn:C; cbn [fst snd].
    - apply get_num; try assumption; lia.
    - destruct WIDE as [|W]; [discriminate|]. specialize (ZL' eq_refl).
      rewrite <- (get_num e X m a 32 8 RD H B) by lia. unfold getn. rewrite W.
      destruct (little X); cbn [negb Bool.eqb]; rewrite andb_false_r; reflexivity. }
  rewrite PO. clear PO.
  replace (getn e (little X) 2 (ldn (HBE e) m (a + h_phentsize (class32 X)) 2)) with (phdr_size X).
  2:{ unfold phdr_size, h_phentsize. destruct (class32 X) eqn:C; symmetry; try specialize (ZL' eq_refl); apply get_num; try assumption; lia. }
  replace (getn e (little X) 2 (ldn (HBE e) m (a + h_phnum (class32 X)) 2)) with (phdr_count X).
  2:{ unfold phdr_count, h_phnum. destruct (class32 X) eqn:C; symmetry; try specialize (ZL' eq_refl); apply get_num; try assumption; lia. }
  destruct (head_nonneg X OK) as (P0 & P1 & P2). pose proof (ok_table X OK) as T.
  assert (0 <= phdr_count X * phdr_size X) by (apply Z.mul_nonneg_nonneg; assumption).
  destruct (Z.eq_dec (phdr_count X) 0) as [N0|N0].
  - rewrite N0. cbn [Z.to_nat load_loop obind].
    assert (SG : segments X = []) by (unfold segments; rewrite N0; reflexivity).
    rewrite SG. exists m. split; [|split; [split; [rewrite SG; intros s x []|reflexivity]|exact H]].
    do 2 f_equal; [|unfold map_calls; destruct cb; reflexivity].
    unfold entry_point, fld, h_entry in *. destruct (class32 X) eqn:C; cbn [fst snd]; try specialize (ZL' eq_refl);
      rewrite (get_num e X m a 24 _ RD H B) by lia; unfold uw; apply Z.mod_small; assumption.
  - destruct (row_bound X OK 0 ltac:(lia)) as (_ & _ & R2).
    pose proof (ok_entsize X OK) as EZ.
    assert (EZ' : 32 <= phdr_size X) by (destruct (class32 X); lia).
    replace (uw (AW e) (a + phdr_off X)) with (a + phdr_off X) by (unfold uw; rewrite Z.mod_small by lia; reflexivity).
    destruct (load_loop_ok (Z.to_nat (phdr_count X)) 0 m [] eq_refl H) as (m' & E & H' & C1 & C2).
    cbn [Z.of_nat] in E. rewrite E. cbn [obind app skipn]. exists m'. split; [|split; [split|exact H']].
    + do 2 f_equal.
      unfold entry_point, fld, h_entry in *. destruct (class32 X) eqn:C; cbn [fst snd]; try specialize (ZL' eq_refl);
      rewrite (get_num e X m' a 24 _ RD H' B) by lia; unfold uw; apply Z.mod_small; assumption.
    + intros s x I L Sp. apply In_nth_error in I. destruct I as (j & Ej). apply (C1 j s x ltac:(lia) Ej L Sp).
    + intros x Hx. apply C2. intros j s _ Ej. apply Hx. eapply nth_error_In; exact Ej.
Qed.
End Load.
