(** The check of a scattered image as a whole, copying the segments, and booting. *)
From Verif Require Import Base BaseLemmas HeaderModel HeaderSpec HeaderProofs Flash FlashLemmas ImageModel ImageSpec
  ImageProofs GenuineProofs SwapModel SwapSpec Geometry ElfModel ElfSpec ElfProofs ScatterProofs.
Local Ltac Zify.zify_post_hook ::= idtac.

Lemma holds_rdl : forall f a n, holds f a (rdl f a n).
Proof.
  intros f a n i Hi. unfold zlen in Hi. rewrite length_rdl in Hi. rewrite rdl_nth by lia. f_equal. lia.
Qed.

Lemma filter_split : forall L R, Forall loadable L -> Forall (fun s => ~ loadable s) R ->
  filter (fun s => s_type s =? 1) (L ++ R) = L.
Proof.
  intros L R HL HR. rewrite filter_app. unfold loadable in *.
  replace (filter (fun s => s_type s =? 1) R) with (@nil segment).
  - rewrite app_nil_r. induction HL as [|s L Hs HL IH]; [reflexivity|]. cbn [filter]. rewrite Hs. cbn. f_equal. exact IH.
  - induction HR as [|s R Hs HR IH]; [reflexivity|]. cbn [filter]. destruct (Z.eqb_spec (s_type s) 1); [contradiction|exact IH].
Qed.

Section Boot.
Context (c : cfg) (e : ecfg).
Context (G : geometry c) (AWOK : 32 <= AW e) (TOP : BOOT c + PART c <= 2 ^ AW e).
Local Notation a := (BOOT c + HDR c).
Local Notation hdr f := (rdl f (BOOT c) (Z.to_nat (HDR c))).

Lemma size_nonneg : forall f, bytes f -> 0 <= word f (BOOT c + 4).
Proof.
  intros f Hb. unfold word, le32. pose proof (Hb (BOOT c + 4)). pose proof (Hb (BOOT c + 4 + 1)).
  pose proof (Hb (BOOT c + 4 + 2)). pose proof (Hb (BOOT c + 4 + 3)). unfold is_byte in *. lia.
Qed.

Lemma fw_len : forall f, bytes f -> zlen (firmware c f) = word f (BOOT c + 4).
Proof. intros f Hb. unfold firmware, zlen. rewrite length_rdl. pose proof (size_nonneg f Hb). lia. Qed.

Lemma check_val : forall f pos d, bytes f -> word f (BOOT c) = WOLFBOOT_MAGIC ->
  word f (BOOT c + 4) <= PART c - HDR c ->
  field_at (BOOT c) (hdr f) (c_hash_tag c) pos d -> length d = c_digsz c ->
  scatterable c (BOFF e) (2 ^ AW e) f ->
  elf_check_image_scattered c e f =
    Val (if list_eqb (c_hash c (firstn (pos - 4) (hdr f) ++ assembled f (BOFF e) (firmware c f) (loads (firmware c f)))) d
         then Some (entry_point (firmware c f)) else None).
Proof.
  intros f pos d Hb Mg Sz Fd Ld SC. destruct SC as [OK (PO & PS & LT & L & R & stop & SG & LN & LL & LR & LA & HR & TL) EN PL].
  pose proof (size_nonneg f Hb) as S0. pose proof (fw_len f Hb) as FL.
  set (fw := firmware c f) in *. pose proof (g_hdr c G) as GH. pose proof (g_size c G) as GS. pose proof (g_blk c G) as GB.
  pose proof (g_addr c G) as GA. pose proof (g_sect c G) as GSE. pose proof (g_part c G) as GP.
  assert (HS : hdr_small c) by (unfold hdr_small; lia).
  assert (OI : open_image c f PBOOT = (true, mkImage PBOOT (BOOT c) a (word f (BOOT c + 4)) true false false None)).
  { unfold open_image, image_size. cbn [part_addr]. rewrite Mg, Z.eqb_refl. cbn [negb].
    destruct (Z.gtb_spec (word f (BOOT c + 4)) (PART c - HDR c)); [lia|]. reflexivity. }
  unfold elf_check_image_scattered. rewrite OI. cbn [negb i_hdr i_size].
  destruct (hdr_facts c f (BOOT c) Hb HS) as (F1 & F2 & F3).
  destruct (get_header_val c f (BOOT c) (c_hash_tag c) Hb HS) as (r & E & K). rewrite E. cbn [obind].
  destruct r as [[off len]|].
  2:{ exfalso. eapply field_none; eauto. }
  destruct K as (d' & K1 & K2 & K3 & K4 & K5).
  destruct (field_det _ _ _ _ _ _ _ F1 F3 K1 Fd) as (-> & ->).
  destruct (Nat.eqb_spec len (c_digsz c)) as [Q|Q]; [|congruence]. cbn [negb].
  rewrite feed_header_all by lia. cbn [obind].
  assert (HF : holds f a fw) by apply holds_rdl.
  assert (ZL : 52 <= zlen fw /\ (class32 fw = false -> 64 <= zlen fw))
    by (pose proof (ok_head fw OK) as HD; destruct (class32 fw); split; intros; try discriminate; lia).
  destruct ZL as (ZL & ZL').
  assert (EO : elf_open f a = Some (class32 fw)).
  { unfold elf_open. replace (rdl f a 4) with (sub fw 0 4).
    2:{ symmetry. rewrite <- (Z.add_0_r a). apply (rdl_holds f a fw 4 0 HF). unfold zlen in ZL. lia. }
    unfold sub. cbn [skipn]. rewrite (ok_magic fw OK). cbn [list_eqb ELF_IDENT Z.eqb Pos.eqb andb].
    unfold class32. rewrite (HF 4) by lia. reflexivity. }
  rewrite EO.
  assert (A1 : a + zlen fw <= 2 ^ AW e) by lia.
  assert (LEN : zlen fw < 2 ^ 31) by lia.
  assert (CN : ld f (a + h_phnum (class32 fw)) 2 = phdr_count fw).
  { unfold h_phnum, phdr_count. destruct (class32 fw) eqn:C; try specialize (ZL' eq_refl);
      apply ld_num; auto; lia. }
  assert (POF : fld0 f a (h_phoff (class32 fw)) = phdr_off fw).
  { unfold fld0, h_phoff, phdr_off. destruct (class32 fw) eqn:C; try specialize (ZL' eq_refl); cbn [fst snd];
      apply ld_num; auto; lia. }
  assert (ENF : fld0 f a (h_entry (class32 fw)) = entry_point fw).
  { unfold fld0, h_entry, entry_point. destruct (class32 fw) eqn:C; try specialize (ZL' eq_refl); cbn [fst snd];
      apply ld_num; auto; lia. }
  unfold elf_hdr_size. rewrite CN, POF, ENF.
  assert (EN0 : 0 <= entry_point fw) by (unfold entry_point; destruct (class32 fw); apply num_nonneg; apply (ok_bytes fw OK)).
  assert (PW : 2 ^ 31 < 2 ^ AW e /\ 2 ^ 31 <= 2 ^ (AW e - 1)) by (apply pow_big; exact AWOK).
  assert (PO' : phdr_off fw = ehsize (class32 fw)) by exact PO.
  assert (PS' : phdr_size fw = phsize (class32 fw)) by exact PS.
  assert (UO : uw (AW e) (phdr_off fw) = phdr_off fw).
  { unfold uw. apply Z.mod_small. rewrite PO'. unfold ehsize. destruct (class32 fw); lia. }
  rewrite UO.
  replace (uw (AW e) (entry_point fw)) with (entry_point fw) by (unfold uw; rewrite Z.mod_small by lia; reflexivity).
  rewrite feed_all by lia. cbn [obind].
  destruct (head_nonneg fw OK) as (HN0 & HN1 & HN2).
  destruct L as [|s L]; [contradiction|].
  assert (CP : (0 < Z.to_nat (phdr_count fw))%nat).
  { rewrite <- (segs_length fw). rewrite SG. cbn [app length]. lia. }
  destruct (ph_row fw a OK e AWOK ltac:(lia) A1 PO' PS' 0%nat CP) as (o & Eo & O0 & O1 & T).
  cbn [Z.of_nat] in Eo. rewrite Eo.
  destruct (row_fields f fw a LT HF o O0 O1) as (_ & Rf & _ & _). rewrite Rf.
  rewrite SG in T. cbn [app nth_error] in T. injection T as T. rewrite <- T.
  set (hsz := ehsize (class32 fw) + phdr_count fw * phsize (class32 fw)) in *.
  assert (HZ : (if class32 fw then 52 else 64) + phdr_count fw * (if class32 fw then 32 else 56) = hsz) by reflexivity.
  rewrite HZ in LA.
  assert (H0 : 0 <= hsz).
  { unfold hsz, ehsize, phsize. destruct (class32 fw); lia. }
  assert (NNA : Forall (fun s => 0 <= s_filesz s) (s :: L)).
  { apply Forall_forall. intros s' Hs'. assert (I' : In s' (segments fw)).
    { rewrite SG. apply in_or_app. left. exact Hs'. }
    apply In_nth_error in I'. destruct I' as (j & Ej). apply (seg_ok fw OK j s' Ej). }
  pose proof (laid_le _ _ _ _ NNA LA) as LE.
  pose proof LA as LA'. cbn [laid] in LA'. destruct LA' as (LA0 & _ & LA2).
  pose proof (laid_le _ _ _ _ (Forall_inv_tail NNA) LA2) as LE2. pose proof (Forall_inv NNA) as NS. cbn beta in NS.
  rewrite s32_small by lia. rewrite feed_zeros_all. cbn [obind].
  assert (CL : check_loop (Z.to_nat (phdr_count fw)) c e f (class32 fw) a (phdr_off fw) (phdr_count fw) 0 (-1) =
    Val (rdl f (s_paddr s + BOFF e) (Z.to_nat (s_filesz s)) ++ stream f (BOFF e) (s_off s + s_filesz s) L, stop)).
  { apply (check_loads f fw a LT HF OK c e ltac:(lia) AWOK ltac:(lia) A1 PO' PS') with (i := 0%nat) (R := R) (pos := hsz);
    [destruct PL as (_ & PL); intros s' I' Ls'; destruct (PL s' I' Ls') as (Q1 & Q2 & _); lia|reflexivity|exact SG|exact LL|exact LR|exact LA|lia|exact HR]. }
  rewrite CL.
  cbn [obind]. destruct (Z.ltb_spec stop 0); [lia|].
  destruct (Z.leb_spec (2 ^ (AW e - 1)) (stop + HDR c)); [lia|].
  rewrite sw_small by lia. rewrite Z.gtb_ltb. destruct (Z.ltb_spec (word f (BOOT c + 4)) (stop + HDR c)); [lia|].
  rewrite s32_small by lia. rewrite feed_all by lia. cbn [obind].
  rewrite K3.
  assert (ST : rdl f (BOOT c) (Z.to_nat (BOOT c + Z.of_nat pos - 4 - BOOT c)) ++
       rdl f a (Z.to_nat hsz) ++ repeat 0 (Z.to_nat (s_off s - hsz)) ++
       (rdl f (s_paddr s + BOFF e) (Z.to_nat (s_filesz s)) ++ stream f (BOFF e) (s_off s + s_filesz s) L) ++
       rdl f (a + stop) (Z.to_nat (word f (BOOT c + 4) - stop)) =
     firstn (pos - 4) (hdr f) ++ assembled f (BOFF e) fw (loads fw)).
  { f_equal.
    - rewrite rdl_firstn by lia. f_equal. lia.
    - unfold loads. rewrite SG, filter_split by assumption.
      rewrite (stream_assembled (s :: L) f (BOFF e) fw hsz stop H0 NNA LA) by lia.
      f_equal.
      + change (firstn (Z.to_nat hsz) fw) with (sub fw 0 (Z.to_nat hsz)).
        rewrite <- (rdl_holds f a fw (Z.to_nat hsz) 0 HF) by (unfold zlen in *; lia). cbn [Z.of_nat]. rewrite Z.add_0_r. reflexivity.
      + cbn [stream]. rewrite <- !app_assoc. do 3 f_equal.
        rewrite <- (sub_all fw (Z.to_nat stop) (Z.to_nat (word f (BOOT c + 4) - stop))) by (unfold zlen in *; lia).
        rewrite <- (rdl_holds f a fw) by (auto; unfold zlen in *; lia). f_equal. lia. }
  rewrite ST. destruct (list_eqb _ d); reflexivity.
Qed.

(** Addresses outside the run addresses of the segments. *)
Local Notation outside := (outside (BOFF e)).
Local Notation same_outside := (same_outside (BOFF e)).
Local Notation collides := (collides c (BOFF e)).
Local Notation all_in_place := (all_in_place c (BOFF e)).

Lemma range_in : forall f s x, scatterable c (BOFF e) (2 ^ AW e) f -> In s (segments (firmware c f)) -> loadable s ->
  inr (uw (AW e) (uw (AW e) (s_paddr s) + BOFF e)) (s_filesz s) x = true <-> spans (s_paddr s + BOFF e) (s_filesz s) x.
Proof.
  intros f s x SC I L. destruct (Z_lt_le_dec 0 (s_filesz s)) as [P|P].
  - rewrite (run_addr (firmware c f) e) by (auto; intros s' I' L'; destruct (proj2 (sc_place _ _ _ _ SC) s' I' L') as (Q1 & Q2 & _); lia).
    apply inr_true.
  - split; intro K; [apply inr_true in K|apply inr_true; unfold spans in K]; lia.
Qed.

Lemma same_boot : forall f g x, bytes f -> scatterable c (BOFF e) (2 ^ AW e) f -> same_outside (firmware c f) f g ->
  BOOT c <= x < BOOT c + HDR c + zlen (firmware c f) -> g x = f x.
Proof.
  intros f g x Hb SC (_ & S) Hx. apply S. intros s I L Sp.
  destruct (proj2 (sc_place _ _ _ _ SC) s I L) as (_ & _ & AP). apply (AP x). split; [exact Sp|]. unfold spans. lia.
Qed.

Lemma store_wpc : forall t f, bytes f -> word f (BOOT c + 4) <= PART c - HDR c -> scatterable c (BOFF e) (2 ^ AW e) f ->
  let fw := firmware c f in
  forall k i g, (i + k = Z.to_nat (phdr_count fw))%nat -> same_outside fw f g ->
  wpc t (store_loop k e (class32 fw) a (phdr_off fw) (Z.of_nat i))
    (fun _ g' => same_outside fw f g' /\
       (forall j s, (i <= j)%nat -> nth_error (segments fw) j = Some s -> loadable s -> in_place g' (BOFF e) fw s) /\
       (forall x, (forall j s, (i <= j)%nat -> nth_error (segments fw) j = Some s -> loadable s ->
          ~ spans (s_paddr s + BOFF e) (s_filesz s) x) -> g' x = g x))
    (same_outside fw f) g.
Proof.
  intros t f Hb Sz SC fw. pose proof (g_hdr c G) as GH. pose proof (g_addr c G) as GA. pose proof (g_size c G) as GS.
  pose proof (g_sect c G) as GSE. pose proof (g_part c G) as GP.
  pose proof (size_nonneg f Hb) as S0. pose proof (fw_len f Hb) as FL. fold fw in FL.
  pose proof SC as SC'. destruct SC' as [OK (PO & PS & LT & _) EN PL]. fold fw in OK, PO, PS, LT, EN, PL.
  assert (HF : holds f a fw) by apply holds_rdl.
  assert (A1 : a + zlen fw <= 2 ^ AW e) by lia.
  destruct (pow_big e AWOK) as (PB1 & PB2).
  induction k as [|k IH]; intros i g Hk SO.
  - cbn [store_loop wpc]. split; [exact SO|]. split; [exact SO|]. split; [|reflexivity].
    intros j s Hj Ej. assert (j < length (segments fw))%nat by (apply nth_error_Some; congruence). rewrite segs_length in H. lia.
  - assert (Hi : (i < Z.to_nat (phdr_count fw))%nat) by lia.
    assert (HG : holds g a fw).
    { intros q Hq. rewrite (same_boot f g) by (auto; fold fw; lia). apply HF. exact Hq. }
    destruct (ph_row fw a OK e AWOK ltac:(lia) A1 PO PS i Hi) as (o & E & O0 & O1 & T).
    destruct (row_fields g fw a LT HG o O0 O1) as (F1 & F2 & F3 & F4).
    cbn [store_loop get bind wpc]. rewrite E, F1, F2, F3, F4.
    set (s := segment_at fw o) in *.
    assert (I : In s (segments fw)) by (eapply nth_error_In; exact T).
    destruct (seg_ok fw OK i s T) as (N0 & N1).
    replace (Z.of_nat i + 1) with (Z.of_nat (S i)) by lia.
    destruct (Z.eqb_spec (s_type s) ELF_PT_LOAD) as [L|L]; cbn [negb].
    + assert (LD : loadable s) by exact L. destruct (ok_segs fw OK s I LD) as (S1 & _).
      assert (UF : uw (AW e) (s_filesz s) = s_filesz s) by (unfold uw; apply Z.mod_small; lia).
      assert (UO : uw (AW e) (s_off s) = s_off s) by (unfold uw; apply Z.mod_small; lia).
      rewrite UF, UO, s32_small by lia.
      set (dst := uw (AW e) (uw (AW e) (s_paddr s) + BOFF e)).
      assert (RI : forall x, inr dst (s_filesz s) x = true <-> spans (s_paddr s + BOFF e) (s_filesz s) x)
        by (intro x; apply (range_in f s x SC I LD)).
      assert (OUT : forall x, outside fw x -> inr dst (s_filesz s) x = false).
      { intros x Hx. destruct (inr dst (s_filesz s) x) eqn:R; [|reflexivity]. apply RI in R. exfalso. exact (Hx s I LD R). }
      assert (TRN : forall g1 g2, same_outside fw f g1 -> bytes g2 ->
         (forall x, inr dst (s_filesz s) x = false -> g2 x = g1 x) -> same_outside fw f g2).
      { intros g1 g2 (_ & Q1) B2 Q2. split; [exact B2|]. intros x Hx. rewrite Q2 by (apply OUT, Hx). apply Q1, Hx. }
      set (g1 := erase g dst (s_filesz s)).
      assert (SO1 : same_outside fw f g1).
      { apply (TRN g); [exact SO|apply bytes_erase, SO|]. intros x Hx. unfold g1, erase. rewrite Hx. reflexivity. }
      assert (SRC : forall j, 0 <= j < s_filesz s -> g1 (uw (AW e) (a + s_off s) + j) = nth (Z.to_nat (s_off s + j)) fw 0).
      { intros j Hj. unfold uw. rewrite Z.mod_small by lia. rewrite (same_boot f g1) by (auto; fold fw; lia).
        replace (a + s_off s + j) with (a + (s_off s + j)) by lia. apply HF. lia. }
      set (d := fun j => g1 (uw (AW e) (a + s_off s) + j)).
      assert (SO2 : same_outside fw f (write g1 dst (s_filesz s) d)).
      { apply (TRN g1); [exact SO1| |].
        - apply bytes_write; [apply SO1|]. intros j Hj. unfold d. pose proof (proj1 SO1 (uw (AW e) (a + s_off s) + j)) as BB.
          unfold is_byte in BB. lia.
        - intros x Hx. unfold write. rewrite Hx. reflexivity. }
      split; [exact SO|]. split; [intros g' (_ & B' & O' & _); apply (TRN g); assumption|].
      fold g1. split; [exact SO1|]. split; [intros g' (B' & O' & _); apply (TRN g1); assumption|].
      fold d. eapply wpc_post; [apply (IH (S i) _ ltac:(lia) SO2)|].
      intros [] g' _ (Q1 & Q2 & Q3). split; [exact Q1|]. split.
      * intros j s' Hj Ej Ls. destruct (Nat.eq_dec j i) as [->|Nj]; [|apply (Q2 j s'); auto; lia].
        rewrite T in Ej. injection Ej as <-. intros q Hq.
        rewrite Q3.
        -- assert (R : inr dst (s_filesz s) (s_paddr s + BOFF e + q) = true) by (apply RI; unfold spans; lia).
           assert (DD : dst = s_paddr s + BOFF e).
           { unfold dst. apply (run_addr fw e); auto; [|lia]. intros s' I' L'. destruct (proj2 PL s' I' L') as (Q4 & Q5 & _). lia. }
           unfold write. rewrite R. unfold g1 at 1, erase. rewrite R. unfold d.
           replace (s_paddr s + BOFF e + q - dst) with q by lia. rewrite SRC by lia. apply land_255.
           apply (proj1 (Forall_forall _ _) (ok_bytes fw OK)). apply nth_In. unfold zlen in *. lia.
        -- intros j' s' Hj' Ej' Ls' Sp'. apply (proj1 PL i j' s s' T Ej' ltac:(lia) LD Ls' (s_paddr s + BOFF e + q)).
           split; [unfold spans; lia|exact Sp'].
      * intros x Hx. rewrite Q3 by (intros j' s' Hj'; apply Hx; lia).
        assert (R : inr dst (s_filesz s) x = false).
        { destruct (inr dst (s_filesz s) x) eqn:R; [|reflexivity]. apply RI in R. exfalso. exact (Hx i s (le_n _) T LD R). }
        unfold write. rewrite R. unfold g1, erase. rewrite R. reflexivity.
    + eapply wpc_post; [apply (IH (S i) g ltac:(lia) SO)|].
      intros [] g' _ (Q1 & Q2 & Q3). split; [exact Q1|]. split.
      * intros j s' Hj Ej Ls. destruct (Nat.eq_dec j i) as [->|Nj]; [|apply (Q2 j s'); auto; lia].
        rewrite T in Ej. injection Ej as <-. contradiction.
      * intros x Hx. apply Q3. intros j' s' Hj'. apply Hx. lia.
Qed.

(** Copies that are in place leave the file unchanged. *)
Lemma patch_same : forall fw o d, 0 <= o -> o + zlen d <= zlen fw ->
  (forall i, 0 <= i < zlen d -> nth (Z.to_nat i) d 0 = nth (Z.to_nat (o + i)) fw 0) -> patch fw o d = fw.
Proof.
  intros fw o d H0 H1 H. unfold zlen in *. apply nth_ext with (d := 0) (d' := 0); [apply patch_length; lia|].
  intros i Hi. rewrite patch_length in Hi by lia. unfold patch.
  destruct (Nat.lt_ge_cases i (Z.to_nat o)) as [A|A].
  - rewrite app_nth1 by (rewrite firstn_length; lia).
    rewrite <- (firstn_skipn (Z.to_nat o) fw) at 2. rewrite app_nth1 by (rewrite firstn_length; lia). reflexivity.
  - rewrite app_nth2 by (rewrite firstn_length; lia). rewrite firstn_length.
    replace (Nat.min (Z.to_nat o) (length fw)) with (Z.to_nat o) by lia.
    destruct (Nat.lt_ge_cases (i - Z.to_nat o) (length d)) as [B|B].
    + rewrite app_nth1 by exact B. specialize (H (Z.of_nat (i - Z.to_nat o)) ltac:(lia)). rewrite Nat2Z.id in H. rewrite H.
      f_equal. lia.
    + rewrite app_nth2 by exact B. rewrite <- (firstn_skipn (Z.to_nat o + length d) fw) at 2.
      rewrite (app_nth2 (firstn _ fw)) by (rewrite firstn_length; lia). rewrite firstn_length. f_equal. lia.
Qed.

Lemma assembled_same : forall L f b fw, (forall s, In s L -> 0 <= s_off s /\ 0 <= s_filesz s /\ s_off s + s_filesz s <= zlen fw) ->
  (forall s, In s L -> in_place f b fw s) -> assembled f b fw L = fw.
Proof.
  induction L as [|s L IH]; intros f b fw B P; [reflexivity|]. cbn [assembled].
  destruct (B s (or_introl eq_refl)) as (B0 & B1 & B2).
  rewrite patch_same.
  - apply IH; intros s' I'; [apply B|apply P]; right; exact I'.
  - exact B0.
  - unfold zlen in *. rewrite length_rdl. lia.
  - unfold zlen. rewrite length_rdl. intros i Hi. rewrite rdl_nth by lia. rewrite <- (P s (or_introl eq_refl)) by lia. f_equal. lia.
Qed.

Lemma app_inj_1 : forall {A} (a a' b b' : list A), a ++ b = a' ++ b' -> length a = length a' -> a = a' /\ b = b'.
Proof.
  induction a as [|x a IH]; intros [|y a'] b b' E L; cbn [app length] in *; try discriminate; [auto|].
  pose proof (f_equal (hd x) E) as E1. cbn [hd] in E1. apply (f_equal (@tl A)) in E. cbn [tl] in E.
  destruct (IH a' b b' E) as (-> & ->); [lia|]. subst. auto.
Qed.

Lemma sub_split : forall {A} (l : list A) o n k, sub l o (n + k) = sub l o n ++ sub l (o + n) k.
Proof.
  intros A l o n k. unfold sub. rewrite <- skipn_twice. generalize (skipn o l). intro m.
  rewrite <- (firstn_skipn n m) at 1. rewrite firstn_app, firstn_firstn.
  replace (Nat.min (n + k) n) with n by lia. rewrite firstn_length. f_equal.
  destruct (Nat.le_ge_cases n (length m)) as [Q|Q].
  - f_equal. lia.
  - rewrite (skipn_all2 m) by exact Q. rewrite !firstn_nil. reflexivity.
Qed.

Lemma stream_place : forall L f b fw pos stop, 0 <= pos -> Forall (fun s => 0 <= s_filesz s) L ->
  laid fw pos L stop -> stop <= zlen fw -> stream f b pos L = sub fw (Z.to_nat pos) (Z.to_nat (stop - pos)) ->
  forall s, In s L -> in_place f b fw s.
Proof.
  induction L as [|s L IH]; intros f b fw pos stop P0 N LA SP E s' I; [destruct I|].
  pose proof (Forall_inv N) as N1. pose proof (Forall_inv_tail N) as N2. cbn beta in N1.
  cbn [laid] in LA. destruct LA as (LA0 & _ & LA2). pose proof (laid_le _ _ _ _ N2 LA2) as LE. unfold zlen in SP.
  cbn [stream] in E.
  replace (Z.to_nat (stop - pos)) with (Z.to_nat (s_off s - pos) + (Z.to_nat (s_filesz s) + Z.to_nat (stop - (s_off s + s_filesz s))))%nat in E by lia.
  rewrite !sub_split in E.
  apply app_inj_1 in E. 2:{ rewrite repeat_length, length_sub by lia. reflexivity. }
  destruct E as (_ & E). apply app_inj_1 in E. 2:{ rewrite length_rdl, length_sub by lia. reflexivity. }
  destruct E as (E1 & E2). destruct I as [<-|I].
  - intros i Hi. replace (f (s_paddr s + b + i)) with (nth (Z.to_nat i) (rdl f (s_paddr s + b) (Z.to_nat (s_filesz s))) 0)
      by (rewrite rdl_nth by lia; f_equal; lia).
    rewrite E1. rewrite nth_sub by lia. f_equal. lia.
  - apply (IH f b fw (s_off s + s_filesz s) stop); unfold zlen; auto; try lia. rewrite E2. f_equal. lia.
Qed.

Lemma assembled_place : forall L f b fw pos stop, 0 <= pos -> Forall (fun s => 0 <= s_filesz s) L ->
  laid fw pos L stop -> stop <= zlen fw -> assembled f b fw L = fw -> forall s, In s L -> in_place f b fw s.
Proof.
  intros L f b fw pos stop P0 N LA SP E. apply (stream_place L f b fw pos stop); auto.
  pose proof (laid_le _ _ _ _ N LA) as LE. unfold zlen in SP.
  rewrite (stream_assembled L f b fw pos stop P0 N LA) in E by (unfold zlen; lia).
  assert (E' : fw = firstn (Z.to_nat pos) fw ++ sub fw (Z.to_nat pos) (Z.to_nat (stop - pos)) ++ skipn (Z.to_nat stop) fw).
  { unfold sub. replace (Z.to_nat stop) with (Z.to_nat pos + Z.to_nat (stop - pos))%nat by lia.
    rewrite <- skipn_twice, firstn_skipn, firstn_skipn. reflexivity. }
  rewrite E' in E at 3. apply app_inj_1 in E; [|reflexivity]. destruct E as (_ & E). apply app_inv_tail in E. exact E.
Qed.

Lemma in_place_iff : forall f, bytes f -> scatterable c (BOFF e) (2 ^ AW e) f ->
  assembled f (BOFF e) (firmware c f) (loads (firmware c f)) = firmware c f <-> all_in_place f.
Proof.
  intros f Hb SC. destruct SC as [OK (PO & PS & LT & L & R & stop & SG & LN & LL & LR & LA & HR & TL) EN PL].
  set (fw := firmware c f) in *. pose proof (g_hdr c G) as GH.
  assert (LO : loads fw = L) by (unfold loads; rewrite SG; apply filter_split; assumption).
  assert (NN : forall s, In s (segments fw) -> 0 <= s_off s /\ 0 <= s_filesz s).
  { intros s I. apply In_nth_error in I. destruct I as (j & Ej). apply (seg_ok fw OK j s Ej). }
  assert (IL : forall s, In s (segments fw) -> (loadable s <-> In s L)).
  { intros s I. split; intro Q.
    - rewrite SG in I. apply in_app_or in I. destruct I as [I|I]; [exact I|]. exfalso. exact (proj1 (Forall_forall _ _) LR s I Q).
    - exact (proj1 (Forall_forall _ _) LL s Q). }
  assert (IN : forall s, In s L -> In s (segments fw)) by (intros s I; rewrite SG; apply in_or_app; left; exact I).
  rewrite LO. split; intro Q.
  - unfold ElfSpec.all_in_place. fold fw. intros s I Ls. apply (IL s I) in Ls.
    eapply (assembled_place L f (BOFF e) fw _ stop); [|apply Forall_forall; intros s' I'; apply NN, IN, I'|exact LA|lia|exact Q|exact Ls].
    pose proof (head_nonneg fw OK). destruct (class32 fw); lia.
  - unfold ElfSpec.all_in_place in Q. fold fw in Q. apply assembled_same.
    + intros s I. pose proof (NN s (IN s I)). pose proof (proj1 (ok_segs fw OK s (IN s I) (proj2 (IL s (IN s I)) I))). lia.
    + intros s I. apply Q; [apply IN, I|apply (IL s (IN s I)), I].
Qed.

Lemma scatter_wpc : forall t f, bytes f -> verified c f (BOOT c) -> scatterable c (BOFF e) (2 ^ AW e) f ->
  wpc t (scatter c e)
    (fun en f' => same_outside (firmware c f) f f' /\ firmware c f' = firmware c f /\
       en = entry_point (firmware c f) /\ (all_in_place f' \/ f' = f /\ collides f))
    (same_outside (firmware c f) f) f.
Proof.
  intros t f Hb (Mg & Sz & d & (pos & Fd & Ld & Ed) & _) SC.
  assert (SO : same_outside (firmware c f) f f) by (split; [exact Hb|reflexivity]).
  fold (firmware c f) in Ed.
  unfold scatter. cbn [get bind wpc].
  rewrite (check_val f pos d Hb Mg Sz Fd Ld SC).
  pose proof (in_place_iff f Hb SC) as IP.
  destruct (list_eqb _ d) eqn:Eq.
  - apply list_eqb_iff in Eq. cbn [wpc]. split; [exact SO|]. split; [exact SO|]. split; [reflexivity|]. split; [reflexivity|].
    destruct (list_eq_dec Z.eq_dec (assembled f (BOFF e) (firmware c f) (loads (firmware c f))) (firmware c f)) as [A|A].
    + left. apply IP. exact A.
    + right. split; [reflexivity|]. split; [exact A|]. exists (firstn (pos - 4) (hdr f)). congruence.
  - apply wpc_bind.
    pose proof SC as SC'. destruct SC' as [OK (PO & PS & LT & _) EN PL].
    pose proof (size_nonneg f Hb) as S0. pose proof (fw_len f Hb) as FL.
    pose proof (g_hdr c G) as GH. pose proof (g_addr c G) as GA. pose proof (g_size c G) as GS. pose proof (g_sect c G) as GSE.
    pose proof (g_part c G) as GP.
    set (fw := firmware c f) in *.
    assert (HF : holds f a fw) by apply holds_rdl.
    assert (ZL : 52 <= zlen fw /\ (class32 fw = false -> 64 <= zlen fw))
      by (pose proof (ok_head fw OK) as HD; destruct (class32 fw); split; intros; try discriminate; lia).
    destruct ZL as (ZL & ZL').
    unfold elf_store_image_scattered. cbn [get bind wpc].
    assert (EO : elf_open f a = Some (class32 fw)).
    { unfold elf_open. replace (rdl f a 4) with (sub fw 0 4).
      2:{ symmetry. rewrite <- (Z.add_0_r a). apply (rdl_holds f a fw 4 0 HF). unfold zlen in ZL. lia. }
      unfold sub. cbn [skipn]. rewrite (ok_magic fw OK). cbn [list_eqb ELF_IDENT Z.eqb Pos.eqb andb].
      unfold class32. rewrite (HF 4) by lia. reflexivity. }
    rewrite EO. cbn [bind wpc].
    assert (CN : ld f (a + h_phnum (class32 fw)) 2 = phdr_count fw).
    { unfold h_phnum, phdr_count. destruct (class32 fw) eqn:C; try specialize (ZL' eq_refl);
        apply ld_num; auto; lia. }
    assert (POF : fld0 f a (h_phoff (class32 fw)) = phdr_off fw).
    { unfold fld0, h_phoff, phdr_off. destruct (class32 fw) eqn:C; try specialize (ZL' eq_refl); cbn [fst snd];
        apply ld_num; auto; lia. }
    rewrite CN, POF. destruct (pow_big e AWOK) as (PB1 & PB2).
    assert (PO' : phdr_off fw = ehsize (class32 fw)) by exact PO.
    assert (UO : uw (AW e) (phdr_off fw) = phdr_off fw).
    { unfold uw. apply Z.mod_small. rewrite PO'. unfold ehsize. destruct (class32 fw); lia. }
    rewrite UO.
    eapply wpc_post; [apply (store_wpc t f Hb Sz SC (Z.to_nat (phdr_count fw)) 0 f eq_refl SO)|].
    intros [] g _ (Q1 & Q2 & _). fold fw in Q1, Q2. cbn [get bind wpc].
    assert (SB : forall x, BOOT c <= x < BOOT c + HDR c + zlen fw -> g x = f x) by (intros x Hx; apply (same_boot f g); auto).
    assert (HG : hdr g = hdr f) by (apply rdl_ext; intros i Hi; apply SB; lia).
    assert (WG : forall w, 0 <= w -> w + 4 <= HDR c -> word g (BOOT c + w) = word f (BOOT c + w))
      by (intros w W0 W1; apply word_ext; intros i Hi; apply SB; lia).
    assert (FG : firmware c g = fw).
    { unfold firmware. rewrite (WG 4) by lia. unfold fw, firmware. apply rdl_ext. intros i Hi. apply SB. lia. }
    assert (SG : scatterable c (BOFF e) (2 ^ AW e) g) by (destruct SC; constructor; rewrite FG; assumption).
    assert (AG : all_in_place g).
    { unfold ElfSpec.all_in_place. rewrite FG. intros s I Ls. apply In_nth_error in I. destruct I as (j & Ej). apply (Q2 j s); auto. lia. }
    assert (Bg : bytes g) by apply Q1.
    assert (CV : elf_check_image_scattered c e g = Val (Some (entry_point fw))).
    { rewrite (check_val g pos d Bg); [|rewrite <- (Z.add_0_r (BOOT c)), (WG 0), Z.add_0_r by lia; exact Mg|
        rewrite (WG 4) by lia; exact Sz|rewrite HG; exact Fd|exact Ld|exact SG].
      rewrite (proj2 (in_place_iff g Bg SG) AG). rewrite FG, HG.
      replace (list_eqb _ d) with true; [reflexivity|]. symmetry. apply list_eqb_iff. symmetry. exact Ed. }
    rewrite CV. cbn [wpc]. split; [exact Q1|]. split; [exact Q1|]. split; [exact FG|]. split; [reflexivity|]. left. exact AG.
Qed.
End Boot.
