(** Proofs about images whose segments are copied to their own flash addresses. *)
From Verif Require Import Base BaseLemmas HeaderModel HeaderSpec HeaderProofs Flash FlashLemmas ImageModel ImageSpec
  ImageProofs GenuineProofs SwapModel SwapSpec Geometry ElfModel ElfSpec ElfProofs.
Local Ltac Zify.zify_post_hook ::= idtac.

Lemma feed_all : forall blk f p len, 0 < blk -> feed blk f p len = Val (rdl f p (Z.to_nat len)).
Proof.
  intros blk f p len B. unfold feed.
  assert (K : forall fuel p len, len < Z.of_nat fuel -> feed_blocks fuel blk f p len = Val (rdl f p (Z.to_nat len))).
  { induction fuel as [|fuel IH]; intros q n Hn.
    - cbn [feed_blocks]. destruct (Z.ltb_spec 0 n); [lia|]. replace (Z.to_nat n) with 0%nat by lia. reflexivity.
    - cbn [feed_blocks]. destruct (Z.ltb_spec 0 n).
      + destruct (Z.ltb_spec blk n); [|reflexivity]. rewrite IH by lia. cbn [obind].
        replace (Z.to_nat n) with (Z.to_nat blk + Z.to_nat (n - blk))%nat by lia. rewrite rdl_app.
        rewrite Z2Nat.id by lia. reflexivity.
      + replace (Z.to_nat n) with 0%nat by lia. reflexivity. }
  apply K. lia.
Qed.

Lemma rdl_const : forall n v p, rdl (fun _ => v) p n = repeat v n.
Proof. induction n as [|n IH]; intros v p; cbn [rdl repeat]; [reflexivity|]. rewrite IH. reflexivity. Qed.

Lemma feed_zeros_all : forall len, feed_zeros len = Val (repeat 0 (Z.to_nat len)).
Proof. intro len. unfold feed_zeros. rewrite feed_all by reflexivity. rewrite rdl_const. reflexivity. Qed.

Lemma sw_small : forall w x, 0 < w -> - 2 ^ (w - 1) <= x < 2 ^ (w - 1) -> sw w x = x.
Proof.
  intros w x W H. unfold sw. assert (E : 2 ^ w = 2 * 2 ^ (w - 1)) by (rewrite <- Z.pow_succ_r by lia; f_equal; lia).
  rewrite Z.mod_small by lia. lia.
Qed.

Lemma s32_small : forall x, - 2 ^ 31 <= x < 2 ^ 31 -> s32 x = x.
Proof. intros x H. apply sw_small; [lia|exact H]. Qed.

(** What the check hashes in place of the file from [pos] on. *)
Fixpoint stream (f : flash) (b pos : Z) (L : list segment) : list Z :=
  match L with
  | [] => []
  | s :: L' => repeat 0 (Z.to_nat (s_off s - pos)) ++ rdl f (s_paddr s + b) (Z.to_nat (s_filesz s)) ++
               stream f b (s_off s + s_filesz s) L'
  end.

Lemma skipn_twice : forall {A} (l : list A) i j, skipn i (skipn j l) = skipn (j + i) l.
Proof.
  intros A l. induction l as [|x l IH]; intros i j; [rewrite !skipn_nil; reflexivity|].
  destruct j as [|j]; [reflexivity|]. cbn [skipn Nat.add]. apply IH.
Qed.

Lemma nth_patch_after : forall L o d i, (Z.to_nat o + length d <= i)%nat -> (Z.to_nat o + length d <= length L)%nat ->
  nth i (patch L o d) 0 = nth i L 0.
Proof.
  intros L o d i Hi Hl. unfold patch.
  assert (F : length (firstn (Z.to_nat o) L) = Z.to_nat o) by (rewrite firstn_length; lia).
  rewrite app_nth2 by lia. rewrite F. rewrite app_nth2 by lia.
  rewrite <- (firstn_skipn (Z.to_nat o + length d) L) at 2.
  rewrite (app_nth2 (firstn (Z.to_nat o + length d) L)) by (rewrite firstn_length; lia).
  rewrite firstn_length. f_equal. lia.
Qed.

Lemma patch_length : forall L o d, (Z.to_nat o + length d <= length L)%nat -> length (patch L o d) = length L.
Proof. intros L o d H. unfold patch. rewrite !app_length, firstn_length, skipn_length. lia. Qed.

Lemma laid_patch : forall L fw o d pos stop, 0 <= o -> o + zlen d <= pos -> o + zlen d <= zlen fw ->
  Forall (fun s => 0 <= s_filesz s) L ->
  laid fw pos L stop -> laid (patch fw o d) pos L stop.
Proof.
  unfold zlen. induction L as [|s L IH]; intros fw o d pos stop H0 H1 H2 N H; cbn [laid] in *; [exact H|].
  destruct H as (A & B & D). inversion N; subst. split; [exact A|]. split.
  - intros i Hi. rewrite nth_patch_after by lia. apply B. exact Hi.
  - apply IH; auto. lia.
Qed.

Lemma laid_le : forall L fw pos stop, Forall (fun s => 0 <= s_filesz s) L -> laid fw pos L stop -> pos <= stop.
Proof.
  induction L as [|s L IH]; intros fw pos stop N H; cbn [laid] in H; [lia|]. inversion N; subst.
  destruct H as (A & _ & D). specialize (IH _ _ _ H3 D). lia.
Qed.

Lemma stream_assembled : forall L f b fw pos stop, 0 <= pos -> Forall (fun s => 0 <= s_filesz s) L ->
  laid fw pos L stop -> stop <= zlen fw ->
  assembled f b fw L = firstn (Z.to_nat pos) fw ++ stream f b pos L ++ skipn (Z.to_nat stop) fw.
Proof.
  induction L as [|s L IH]; intros f b fw pos stop P N H Hs.
  - cbn [laid assembled stream app] in *. subst. rewrite firstn_skipn. reflexivity.
  - cbn [laid] in H. destruct H as (A & B & D). inversion N as [|? ? N1 N2]; subst. cbn [assembled stream].
    set (d := rdl f (s_paddr s + b) (Z.to_nat (s_filesz s))).
    assert (Ld : length d = Z.to_nat (s_filesz s)) by apply length_rdl.
    pose proof (laid_le _ _ _ _ N2 D) as LE. unfold zlen in *.
    rewrite (IH f b (patch fw (s_off s) d) (s_off s + s_filesz s) stop); [|lia|exact N2| |].
    + assert (F1 : firstn (Z.to_nat (s_off s + s_filesz s)) (patch fw (s_off s) d) =
                   firstn (Z.to_nat pos) fw ++ repeat 0 (Z.to_nat (s_off s - pos)) ++ d).
      { unfold patch. rewrite (app_assoc (firstn (Z.to_nat (s_off s)) fw)).
        rewrite firstn_app. rewrite app_length, firstn_length.
        replace (Z.to_nat (s_off s + s_filesz s) - (Nat.min (Z.to_nat (s_off s)) (length fw) + length d))%nat with 0%nat by lia.
        cbn [firstn]. rewrite app_nil_r. rewrite firstn_all2 by (rewrite app_length, firstn_length; lia).
        rewrite (app_assoc (firstn (Z.to_nat pos) fw)). f_equal.
        apply nth_ext with (d := 0) (d' := 0).
        - rewrite app_length, !firstn_length, repeat_length. lia.
        - intros i Hi. rewrite firstn_length in Hi.
          assert (E1 : nth i (firstn (Z.to_nat (s_off s)) fw) 0 = nth i fw 0).
          { rewrite <- (firstn_skipn (Z.to_nat (s_off s)) fw) at 2. rewrite app_nth1 by (rewrite firstn_length; lia). reflexivity. }
          rewrite E1. destruct (Nat.lt_ge_cases i (Z.to_nat pos)) as [G|G].
          + rewrite app_nth1 by (rewrite firstn_length; lia).
            rewrite <- (firstn_skipn (Z.to_nat pos) fw) at 1. rewrite app_nth1 by (rewrite firstn_length; lia). reflexivity.
          + rewrite app_nth2 by (rewrite firstn_length; lia). rewrite nth_repeat.
            rewrite <- (Nat2Z.id i). apply B. lia. }
      assert (F2 : skipn (Z.to_nat stop) (patch fw (s_off s) d) = skipn (Z.to_nat stop) fw).
      { unfold patch. rewrite !skipn_app, firstn_length.
        rewrite (skipn_all2 (firstn (Z.to_nat (s_off s)) fw)) by (rewrite firstn_length; lia).
        rewrite (skipn_all2 d) by lia. cbn [app]. rewrite skipn_twice. f_equal. lia. }
      rewrite F1, F2. rewrite <- !app_assoc. reflexivity.
    + apply laid_patch; unfold zlen; auto; lia.
    + rewrite patch_length by lia. exact Hs.
Qed.

Lemma pow_big : forall e, 32 <= AW e -> 2 ^ 31 < 2 ^ AW e /\ 2 ^ 31 <= 2 ^ (AW e - 1).
Proof. intros e H. split; [apply Z.pow_lt_mono_r; lia|apply Z.pow_le_mono_r; lia]. Qed.

Section Check.
Context (f : flash) (fw : list Z) (a : Z) (LT : little fw = true) (H : holds f a fw).
Local Notation segs := (segments fw).
Local Notation is32 := (class32 fw).
Local Notation off := (phdr_off fw).

Lemma ld_num : forall o n, 0 <= o -> o + Z.of_nat n <= zlen fw -> ld f (a + o) n = num fw o n.
Proof.
  intros o n Ho Hn. unfold ld, num. rewrite LT. f_equal. unfold zlen in Hn.
  rewrite <- (rdl_holds f a fw n (Z.to_nat o) H) by lia. rewrite Z2Nat.id by lia. reflexivity.
Qed.

Lemma row_fields : forall o, 0 <= o -> o + phsize is32 <= zlen fw ->
  ld f (a + o) 4 = s_type (segment_at fw o) /\
  fld0 f (a + o) (e_offset is32) = s_off (segment_at fw o) /\
  fld0 f (a + o) (e_paddr is32) = s_paddr (segment_at fw o) /\
  fld0 f (a + o) (e_filesz is32) = s_filesz (segment_at fw o).
Proof.
  intros o H0 H1. unfold fld0, e_offset, e_paddr, e_filesz, segment_at, phsize in *.
  destruct is32; cbn [fst snd s_type s_off s_paddr s_filesz]; rewrite <- !Z.add_assoc; repeat split; apply ld_num; lia.
Qed.

Lemma segs_length : length segs = Z.to_nat (phdr_count fw).
Proof. unfold segments. rewrite map_length, seq_length. reflexivity. Qed.

Context (OK : elf_ok fw).

Lemma seg_ok : forall i s, nth_error segs i = Some s -> 0 <= s_off s /\ 0 <= s_filesz s.
Proof.
  intros i s E. assert (L : (i < length segs)%nat) by (apply nth_error_Some; congruence).
  unfold segments in L. rewrite map_length, seq_length in L.
  rewrite table_at in E by exact L. injection E as <-.
  pose proof (seg_nonneg fw OK (off + Z.of_nat i * phdr_size fw)). tauto.
Qed.

Context (c : cfg) (e : ecfg).
Context (BK : 0 < BLK c) (AWOK : 32 <= AW e)
  (A0 : 0 <= a) (A1 : a + zlen fw <= 2 ^ AW e) (LEN : zlen fw < 2 ^ 31)
  (PO : phdr_off fw = ehsize (class32 fw)) (PS : phdr_size fw = phsize (class32 fw)).

Lemma ph_row : forall i, (i < Z.to_nat (phdr_count fw))%nat ->
  exists o, ph e is32 a off (Z.of_nat i) = a + o /\ 0 <= o /\ o + phsize is32 <= zlen fw /\
    nth_error segs i = Some (segment_at fw o).
Proof.
  intros i Hi. exists (off + Z.of_nat i * phdr_size fw).
  destruct (row_bound fw OK i Hi) as (R0 & R1 & R2). pose proof (head_nonneg fw OK) as (P0 & _ & _).
  assert (0 < phsize is32) by (unfold phsize; destruct is32; lia).
  split; [|split; [exact R0|split; [rewrite <- PS; exact R2|apply table_at; exact Hi]]].
  unfold ph, uw. rewrite <- PS. rewrite Z.mod_small by lia. ring.
Qed.

(** Headers of other types are skipped. *)
Lemma check_skip : forall k i fin, (i + k = Z.to_nat (phdr_count fw))%nat ->
  Forall (fun s => ~ loadable s) (skipn i segs) ->
  check_loop k c e f is32 a off (phdr_count fw) (Z.of_nat i) fin = Val ([], fin).
Proof.
  induction k as [|k IH]; intros i fin Hk N; [reflexivity|].
  assert (Hi : (i < Z.to_nat (phdr_count fw))%nat) by lia.
  destruct (ph_row i Hi) as (o & E & O0 & O1 & T). destruct (row_fields o O0 O1) as (F1 & F2 & F3 & F4).
  cbn [check_loop]. rewrite E, F1. rewrite (skipn_step _ _ _ T) in N. inversion N as [|? ? N1 N2]; subst.
  unfold loadable in N1. destruct (Z.eqb_spec (s_type (segment_at fw o)) ELF_PT_LOAD); [contradiction|]. cbn [negb].
  replace (Z.of_nat i + 1) with (Z.of_nat (S i)) by lia. apply IH; [lia|exact N2].
Qed.

Context (ADR : forall s, In s segs -> loadable s -> 0 <= s_paddr s + BOFF e /\ s_paddr s + BOFF e + s_filesz s <= 2 ^ AW e).

Lemma run_addr : forall s, In s segs -> loadable s -> 0 < s_filesz s ->
  uw (AW e) (uw (AW e) (s_paddr s) + BOFF e) = s_paddr s + BOFF e.
Proof.
  intros s I L N. destruct (ADR s I L) as (B0 & B1). unfold uw.
  rewrite Zplus_mod_idemp_l. apply Z.mod_small. lia.
Qed.

Lemma seg_bytes : forall s, In s segs -> loadable s -> 0 <= s_filesz s ->
  rdl f (uw (AW e) (uw (AW e) (s_paddr s) + BOFF e)) (Z.to_nat (s_filesz s)) =
  rdl f (s_paddr s + BOFF e) (Z.to_nat (s_filesz s)).
Proof.
  intros s I L N. destruct (Z.eq_dec (s_filesz s) 0) as [E|E].
  - rewrite E. reflexivity.
  - rewrite run_addr by (auto; lia). reflexivity.
Qed.

Lemma check_loads : forall k i s L R fin stop pos, (i + k = Z.to_nat (phdr_count fw))%nat ->
  skipn i segs = (s :: L) ++ R -> Forall loadable (s :: L) -> Forall (fun s => ~ loadable s) R ->
  laid fw pos (s :: L) stop -> stop < 2 ^ 31 ->
  match R with [] => True | s :: _ => s_off s <= stop end ->
  check_loop k c e f is32 a off (phdr_count fw) (Z.of_nat i) fin =
    Val (rdl f (s_paddr s + BOFF e) (Z.to_nat (s_filesz s)) ++ stream f (BOFF e) (s_off s + s_filesz s) L, stop).
Proof.
  induction k as [|k IH]; intros i s L R fin stop pos Hk SK LD NR LA ST HR.
  - exfalso. assert (length (skipn i segs) = 0)%nat by (rewrite skipn_length, segs_length; lia).
    rewrite SK in H0. discriminate.
  - assert (Hi : (i < Z.to_nat (phdr_count fw))%nat) by lia.
    destruct (ph_row i Hi) as (o & E & O0 & O1 & T). destruct (row_fields o O0 O1) as (F1 & F2 & F3 & F4).
    rewrite (skipn_step _ _ _ T) in SK. cbn [app] in SK.
    pose proof (f_equal (hd s) SK) as E1. apply (f_equal (@tl _)) in SK. cbn [hd tl] in E1, SK.
    rewrite E1 in *. inversion LD as [|? ? L1 L2]; subst.
    assert (I : In (segment_at fw o) segs) by (eapply nth_error_In; exact T).
    set (s := segment_at fw o) in *.
    destruct (seg_ok i s T) as (N0 & N1). cbn [laid] in LA. destruct LA as (LA0 & LA1 & LA2).
    assert (NN : Forall (fun s => 0 <= s_filesz s) L).
    { apply Forall_forall. intros s' Hs'. assert (I' : In s' segs).
      { rewrite <- (firstn_skipn (S i) segs). apply in_or_app. right. rewrite SK. apply in_or_app. left. exact Hs'. }
      apply In_nth_error in I'. destruct I' as (j & Ej). apply (seg_ok j s' Ej). }
    pose proof (laid_le _ _ _ _ NN LA2) as LE. destruct (pow_big e AWOK) as (PB1 & PB2).
    cbn [check_loop]. rewrite E, F1, F2, F3, F4. unfold loadable in L1. rewrite L1. cbn [ELF_PT_LOAD Z.eqb Pos.eqb negb].
    assert (UF : uw (AW e) (s_filesz s) = s_filesz s) by (unfold uw; apply Z.mod_small; lia).
    assert (UO : uw (AW e) (s_off s) = s_off s) by (unfold uw; apply Z.mod_small; lia).
    rewrite UF, UO. rewrite s32_small by lia. rewrite feed_all by exact BK. cbn [obind].
    rewrite seg_bytes by assumption.
    assert (US : uw (AW e) (s_off s + s_filesz s) = s_off s + s_filesz s) by (unfold uw; apply Z.mod_small; lia).
    rewrite US. replace (Z.of_nat i + 1) with (Z.of_nat (S i)) by lia.
    destruct L as [|s2 L].
    + cbn [laid] in LA2. cbn [app] in SK.
      assert (B : (Z.of_nat i <? phdr_count fw - 1) && (fld0 f (ph e is32 a off (Z.of_nat (S i))) (e_offset is32) >? s_off s + s_filesz s) = false).
      { destruct R as [|r R].
        - apply andb_false_iff. left. apply Z.ltb_ge.
          assert (length (skipn (S i) segs) = 0)%nat by (rewrite SK; reflexivity).
          rewrite skipn_length, segs_length in H0. lia.
        - apply andb_false_iff. right.
          assert (Hi' : (S i < Z.to_nat (phdr_count fw))%nat).
          { rewrite <- segs_length. assert (length (skipn (S i) segs) <> 0)%nat by (rewrite SK; discriminate).
            rewrite skipn_length in H0. lia. }
          destruct (ph_row (S i) Hi') as (o' & E' & O0' & O1' & T'). rewrite E'.
          destruct (row_fields o' O0' O1') as (_ & F2' & _ & _). rewrite F2'.
          rewrite (skipn_step _ _ _ T') in SK. injection SK as E1' _. rewrite E1'.
          rewrite Z.gtb_ltb. apply Z.ltb_ge. lia. }
      rewrite B. rewrite check_skip; [|lia|rewrite SK; exact NR]. cbn [obind stream].
      do 2 f_equal. rewrite sw_small by lia. exact LA2.
    + assert (Hi' : (S i < Z.to_nat (phdr_count fw))%nat).
      { rewrite <- segs_length. assert (length (skipn (S i) segs) <> 0)%nat by (rewrite SK; discriminate).
        rewrite skipn_length in H0. lia. }
      destruct (ph_row (S i) Hi') as (o' & E' & O0' & O1' & T'). rewrite E'.
      destruct (row_fields o' O0' O1') as (_ & F2' & _ & _). rewrite F2'.
      assert (E2 : segment_at fw o' = s2).
      { rewrite (skipn_step _ _ _ T') in SK. cbn [app] in SK. injection SK as E2 _. exact E2. }
      rewrite E2. pose proof LA2 as LA3. cbn [laid] in LA2. destruct LA2 as (LB0 & LB1 & LB2).
      pose proof (Forall_inv NN) as NN1. pose proof (Forall_inv_tail NN) as NN2. subst s2. cbn beta in NN1.
      pose proof (laid_le _ _ _ _ NN2 LB2) as LE2.
      replace (Z.of_nat i <? phdr_count fw - 1) with true by lia. cbn [andb].
      cbn [stream]. rewrite Z.gtb_ltb.
      destruct (Z.ltb_spec (s_off s + s_filesz s) (s_off (segment_at fw o'))) as [G|G].
      * rewrite feed_zeros_all. cbn [obind].
        rewrite (IH (S i) (segment_at fw o') L R fin stop _ ltac:(lia) SK L2 NR LA3 ST HR). cbn [obind].
        replace (uw (AW e) (s_off (segment_at fw o') - (s_off s + s_filesz s))) with (s_off (segment_at fw o') - (s_off s + s_filesz s))
          by (unfold uw; rewrite Z.mod_small by lia; reflexivity).
        reflexivity.
      * rewrite (IH (S i) (segment_at fw o') L R _ stop _ ltac:(lia) SK L2 NR LA3 ST HR). cbn [obind].
        replace (Z.to_nat (s_off (segment_at fw o') - (s_off s + s_filesz s))) with 0%nat by lia. reflexivity.
Qed.
End Check.
