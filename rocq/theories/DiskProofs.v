(** Proofs about disks. *)
From Verif Require Import Base BaseLemmas HeaderModel Flash FlashLemmas DualProofs CryptProofs DiskModel DiskSpec.
Local Ltac Zify.zify_post_hook ::= idtac.

(** ** Buffers *)

Lemma skip_skip : forall {A} (l : list A) m n, skipn n (skipn m l) = skipn (m + n) l.
Proof. intros A l m. revert l. induction m as [|m IH]; intros [|x l] n; cbn [skipn Nat.add]; try reflexivity; [destruct n; reflexivity|apply IH]. Qed.
Lemma put_nil : forall buf, put [] buf = buf.
Proof. reflexivity. Qed.
Lemma put_length : forall d buf, (length d <= length buf)%nat -> length (put d buf) = length buf.
Proof. intros d buf H. unfold put. rewrite app_length, skipn_length. lia. Qed.
Lemma splice_put : forall d e buf, splice (put d buf) (length d) e = put (d ++ e) buf.
Proof.
  intros d e buf. unfold splice, put. rewrite firstn_app, firstn_all, Nat.sub_diag. cbn [firstn]. rewrite app_nil_r, <- app_assoc. do 2 f_equal.
  rewrite skipn_app. rewrite skipn_all2 by lia. cbn [app]. rewrite skip_skip, app_length. f_equal. lia.
Qed.
Lemma splice_put' : forall d e buf n, n = length d -> splice (put d buf) n e = put (d ++ e) buf.
Proof. intros d e buf n ->. apply splice_put. Qed.

Lemma firstn_app_2' : forall {A} (l r : list A) n m, length l = n -> firstn (n + m) (l ++ r) = l ++ firstn m r.
Proof. intros A l r n m <-. apply firstn_app_2. Qed.
Lemma nth_firstn_lt' : forall n (l : list Z) i d, (i < n)%nat -> nth i (firstn n l) d = nth i l d.
Proof. intros. symmetry. apply nth_firstn_lt. assumption. Qed.

(** ** Commands of a reliable drive *)

Lemma dma_small : forall n, 1 <= n <= 2 ^ 22 -> dma_bytes n = n.
Proof. intros n H. unfold dma_bytes. rewrite Z.mod_small by lia. lia. Qed.
Lemma count_small : forall b c, 0 < b -> 1 <= c <= 2 ^ b -> count_field b c = c.
Proof.
  intros b c Hb H. unfold count_field. destruct (Z.eq_dec c (2 ^ b)) as [->|N].
  - rewrite Z.mod_same by lia. reflexivity.
  - rewrite Z.mod_small by lia. destruct (Z.eqb_spec c 0); [lia|reflexivity].
Qed.

Definition bump (st : ata) : ata := mkAta (a_disk st) (a_cached st) (a_cache st) (a_cmds st + 1).

Lemma read_sector_ok : forall h st s c buf o, reliable h -> 1 <= c <= 8192 -> 0 <= s < 2 ^ 48 -> Z.of_nat o + c * SECTOR <= zlen buf ->
  read_sector h st s c buf o = Val (true, bump st, splice buf o (rdl (a_disk st) (s * SECTOR) (Z.to_nat (c * SECTOR)))).
Proof.
  intros h st s c buf o R Hc Hs Hb. unfold read_sector. rewrite R. unfold SECTOR in *. rewrite dma_small, count_small by lia. rewrite Z.min_id.
  destruct (Z.ltb_spec (zlen buf) (Z.of_nat o + c * 512)); [lia|]. unfold read_lba. rewrite Z.mod_small by lia. reflexivity.
Qed.

Lemma invalid_big : 2 ^ 55 <= CACHE_INVALID.
Proof. vm_compute. discriminate. Qed.

(** The cache is right if it holds sector [s]. *)
Definition fresh (st : ata) (s : Z) : Prop :=
  length (a_cache st) = 512%nat /\ (a_cached st = s -> a_cache st = rdl (a_disk st) (s * SECTOR) 512).
Lemma coherent_fresh : forall st s, coherent st -> 0 <= s < 2 ^ 48 -> fresh st s.
Proof.
  intros st s (HL & HC) Hs. split; [exact HL|]. intro E. destruct HC as [K|(_ & K)]; [|rewrite <- E; exact K]. exfalso. pose proof invalid_big. clear HL. lia.
Qed.

Lemma pull_ok : forall h st s, reliable h -> fresh st s -> 0 <= s < 2 ^ 48 ->
  exists st', cache_pull h st s = Val st' /\ a_disk st' = a_disk st /\ a_cached st' = s /\ a_cache st' = rdl (a_disk st) (s * SECTOR) 512.
Proof.
  intros h st s R (HL & HC) Hs. unfold cache_pull. destruct (Z.eqb_spec (a_cached st) s) as [E|E].
  - exists st. repeat split; auto.
  - rewrite read_sector_ok by (auto; unfold SECTOR, zlen; lia). cbn [obind]. eexists. split; [reflexivity|]. cbn [a_disk a_cached a_cache bump]. repeat split.
    change (Z.to_nat (1 * SECTOR)) with 512%nat. unfold splice. cbn [firstn app Nat.add]. rewrite length_rdl, skipn_all2 by lia. apply app_nil_r.
Qed.
Lemma pull_coherent : forall st s, a_cached st = s -> 0 <= s < 2 ^ 48 -> a_cache st = rdl (a_disk st) (s * SECTOR) 512 -> coherent st.
Proof. intros st s <- H E. split; [rewrite E; apply length_rdl|]. right. auto. Qed.

(** ** Reading *)

Lemma split_pos : forall start, 0 <= start -> exists s off, start = s * SECTOR + off /\ 0 <= off < SECTOR /\ 0 <= s /\ start / SECTOR = s /\ start - start / SECTOR * SECTOR = off.
Proof.
  intros start H. unfold SECTOR. exists (start / 512), (start mod 512). pose proof (Z.div_mod start 512 ltac:(lia)). pose proof (Z.mod_pos_bound start 512 ltac:(lia)).
  assert (0 <= start / 512) by (apply Z.div_pos; lia). repeat split; lia.
Qed.

Lemma ata_read_ok : forall h st drv start size buf, reliable h -> coherent st -> drive_ok h drv ->
  0 <= start -> 0 <= size <= 2 ^ 22 -> start + size <= 2 ^ 57 -> size <= zlen buf ->
  exists st', ata_read h st drv start size buf = Val (size, st', put (rdl (a_disk st) start (Z.to_nat size)) buf) /\
    a_disk st' = a_disk st /\ coherent st'.
Proof.
  intros h st drv start size buf R HC (HD1 & HD2) H0 Hsz He Hb. unfold ata_read.
  destruct (Z.ltb_spec drv 0) as [|_]; [lia|]. destruct (Z.leb_spec MAX_DRIVES drv) as [|_]; [lia|]. cbn [orb]. destruct (Z.ltb_spec (last_drive h) drv) as [|_]; [lia|]. clear HD1 HD2.
  destruct (split_pos start H0) as (s & off & ES & OB & S0 & Q1 & Q2). rewrite Q2. rewrite Q1. clear Q1 Q2. cbv zeta.
  set (len := if 0 <? off then Z.min (SECTOR - off) size else 0). set (s1 := if 0 <? off then s + 1 else s).
  assert (SP : s < 2 ^ 48 \/ size = 0 /\ off = 0) by (unfold SECTOR in *; lia).
  assert (LN : 0 <= len <= size /\ (len < size -> s1 * SECTOR = start + len)).
  { unfold len, s1. destruct (Z.ltb_spec 0 off); unfold SECTOR in *; lia. }
  (* first part *)
  assert (A : exists st1, (if 0 <? off then
       dlet st1 <- cache_pull h st s in
       if negb (a_cached st1 =? s) then Val (st1, buf, false)
       else if zlen buf <? len then UB
       else Val (st1, splice buf 0 (sub (a_cache st1) (Z.to_nat off) (Z.to_nat len)), true)
     else Val (st, buf, true)) = Val (st1, put (rdl (a_disk st) start (Z.to_nat len)) buf, true) /\ a_disk st1 = a_disk st /\ coherent st1).
  { destruct (Z.ltb_spec 0 off) as [L|L].
    - destruct (pull_ok h st s R (coherent_fresh st s HC ltac:(lia)) ltac:(lia)) as (st1 & P1 & P2 & P3 & P4). exists st1. rewrite P1. cbn [obind]. rewrite P3, Z.eqb_refl. cbn [negb].
      destruct (Z.ltb_spec (zlen buf) len); [lia|]. split; [|split; [exact P2|apply (pull_coherent st1 s P3 ltac:(lia)); rewrite P2; exact P4]].
      assert (OL : off + len <= 512) by (unfold len; destruct (Z.ltb_spec 0 off); [unfold SECTOR; clear; lia|lia]).
      rewrite P4, rdl_sub by (clear -OL OB L LN; lia).
      change (splice buf 0) with (splice (put [] buf) (length (@nil Z))). rewrite splice_put. cbn [app]. replace (s * SECTOR + Z.of_nat (Z.to_nat off)) with start by lia. reflexivity.
    - exists st. split; [|auto]. unfold len. reflexivity. }
  destruct A as (st1 & A1 & A2 & A3). rewrite A1. clear A1. cbn [obind negb]. clearbody len s1.
  set (size1 := size - len) in *. set (count := size1 / SECTOR).
  assert (CB : 0 <= count /\ count * SECTOR <= size1 < count * SECTOR + SECTOR).
  { assert (SZ : 0 <= size1) by (clear -LN; unfold size1; lia). clear -SZ. clearbody size1. unfold count, SECTOR. pose proof (Z.div_mod size1 512 ltac:(lia)). pose proof (Z.mod_pos_bound size1 512 ltac:(lia)). assert (0 <= size1 / 512) by (apply Z.div_pos; lia). lia. }
  clearbody count.
  assert (B : exists st2, (if 0 <? count then read_sector h st1 s1 count (put (rdl (a_disk st) start (Z.to_nat len)) buf) (Z.to_nat len) else Val (true, st1, put (rdl (a_disk st) start (Z.to_nat len)) buf))
     = Val (true, st2, put (rdl (a_disk st) start (Z.to_nat (len + count * SECTOR))) buf) /\ a_disk st2 = a_disk st /\ coherent st2).
  { destruct (Z.ltb_spec 0 count) as [L|L].
    - exists (bump st1). rewrite read_sector_ok; auto; [|unfold SECTOR in *; lia|unfold SECTOR in *; lia|].
      + split; [|split; [exact A2|destruct A3 as (X & Y); split; [exact X|exact Y]]]. f_equal. f_equal. rewrite splice_put' by (rewrite length_rdl; reflexivity). f_equal.
        rewrite A2. replace (Z.to_nat (len + count * SECTOR)) with (Z.to_nat len + Z.to_nat (count * SECTOR))%nat by (unfold SECTOR in *; lia). rewrite rdl_app. do 2 f_equal. unfold SECTOR in *. lia.
      + unfold zlen in *. rewrite put_length by (rewrite length_rdl; lia). unfold SECTOR in *. lia.
    - assert (count = 0) as -> by lia. exists st1. rewrite Z.mul_0_l, Z.add_0_r. auto. }
  destruct B as (st2 & B1 & B2 & B3). rewrite B1. clear B1. cbn [obind negb].
  set (size2 := size1 - count * SECTOR). destruct (Z.ltb_spec 0 size2) as [L|L].
  - assert (SB : 0 <= s1 + count < 2 ^ 48) by (unfold SECTOR in *; lia). destruct (pull_ok h st2 (s1 + count) R (coherent_fresh _ _ B3 SB) SB) as (st3 & P1 & P2 & P3 & P4). rewrite P1. cbn [obind].
    destruct (Z.ltb_spec (zlen (put (rdl (a_disk st) start (Z.to_nat (len + count * SECTOR))) buf)) (len + count * SECTOR + size2)) as [K|_].
    { exfalso. unfold zlen in *. rewrite put_length in K by (rewrite length_rdl; unfold SECTOR in *; lia). unfold size2, size1 in *. lia. }
    exists st3. split; [|split; [congruence|apply (pull_coherent st3 (s1 + count) P3); [unfold SECTOR in *; lia|rewrite P2; exact P4]]].
    rewrite splice_put' by (rewrite length_rdl; reflexivity). rewrite P4, B2, rdl_firstn by (unfold SECTOR in *; lia).
    replace (len + count * SECTOR + size2) with size by (unfold size2, size1; lia). do 3 f_equal.
    replace (Z.to_nat size) with (Z.to_nat (len + count * SECTOR) + Z.to_nat size2)%nat by (unfold size2, size1, SECTOR in *; lia). rewrite rdl_app. do 2 f_equal. unfold SECTOR in *. lia.
  - exists st2. replace (len + count * SECTOR) with size by (unfold size2, size1 in *; lia). auto.
Qed.

(** ** Writing *)

Lemma write_sector_ok : forall h st s c d, reliable h -> 1 <= c <= 256 -> 0 <= s < 2 ^ 24 -> c * SECTOR <= zlen d ->
  write_sector h st s c d = Val (true, mkAta (fun x => if inr (s * SECTOR) (c * SECTOR) x then nth (Z.to_nat (x - s * SECTOR)) d 0 else a_disk st x) (a_cached st) (a_cache st) (a_cmds st + 1)).
Proof.
  intros h st s c d R Hc Hs Hd. unfold write_sector. rewrite R. unfold SECTOR in *. rewrite dma_small, count_small by lia. rewrite Z.min_id.
  destruct (Z.ltb_spec (zlen d) (c * 512)); [lia|]. unfold write_lba. rewrite Z.mod_small by lia. reflexivity.
Qed.

(** Pulling a sector, patching it, writing it back. *)
Lemma patch_ok : forall h st s o d, reliable h -> fresh st s -> 0 <= s < 2 ^ 24 -> 0 <= o -> o + zlen d <= SECTOR ->
  exists st1 st2, cache_pull h st s = Val st1 /\ a_cached st1 = s /\ cache_commit h (set_cache st1 (splice (a_cache st1) (Z.to_nat o) d)) = Val st2 /\
    (forall x, a_disk st2 x = store (a_disk st) (s * SECTOR + o) d x) /\ coherent st2 /\ a_cached st2 = s.
Proof.
  intros h st s o d R HC Hs Ho Hd. destruct (pull_ok h st s R HC ltac:(lia)) as (st1 & P1 & P2 & P3 & P4). exists st1.
  set (c := splice (a_cache st1) (Z.to_nat o) d).
  assert (LC : length c = 512%nat).
  { unfold c, splice. rewrite !app_length, firstn_length, skipn_length, P4, length_rdl. unfold zlen, SECTOR in *. lia. }
  unfold cache_commit. cbn [set_cache a_cached a_cache]. rewrite P3. pose proof invalid_big as IB. destruct (Z.eqb_spec s CACHE_INVALID) as [|_]; [lia|].
  rewrite write_sector_ok by (auto; unfold SECTOR, zlen; cbn [a_cache set_cache]; lia). cbn [obind set_cache a_cached a_cache a_disk a_cmds].
  eexists. split; [exact P1|]. split; [reflexivity|]. split; [reflexivity|]. cbn [a_disk].
  assert (V : forall i, 0 <= i < 512 -> nth (Z.to_nat i) c 0 = if (o <=? i) && (i <? o + zlen d) then nth (Z.to_nat (i - o)) d 0 else a_disk st (s * SECTOR + i)).
  { intros i Hi. unfold c, splice. rewrite P4. unfold SECTOR in *. unfold zlen in *. destruct (Z.leb_spec o i); cbn [andb].
    - rewrite app_nth2 by (rewrite firstn_length, length_rdl; lia). rewrite firstn_length, length_rdl.
      destruct (Z.ltb_spec i (o + Z.of_nat (length d))).
      + rewrite app_nth1 by lia. f_equal. lia.
      + rewrite app_nth2 by lia. rewrite nth_skip, rdl_nth by lia. f_equal. lia.
    - rewrite app_nth1 by (rewrite firstn_length, length_rdl; lia). rewrite rdl_firstn, rdl_nth by lia. f_equal. lia. }
  split.
  - intro x. unfold store. destruct (inr (s * SECTOR) (1 * SECTOR) x) eqn:E.
    + apply inr_true in E. rewrite V by (unfold SECTOR in *; lia).
      replace (inr (s * SECTOR + o) (zlen d) x) with ((o <=? x - s * SECTOR) && (x - s * SECTOR <? o + zlen d)).
      2:{ unfold inr. f_equal; [destruct (Z.leb_spec o (x - s * SECTOR)); destruct (Z.leb_spec (s * SECTOR + o) x); try reflexivity; lia|].
          destruct (Z.ltb_spec (x - s * SECTOR) (o + zlen d)); destruct (Z.ltb_spec x (s * SECTOR + o + zlen d)); try reflexivity; lia. }
      destruct (_ && _); f_equal; lia.
    + apply inr_false in E. replace (inr (s * SECTOR + o) (zlen d) x) with false; [rewrite P2; reflexivity|]. symmetry. apply inr_false. unfold SECTOR in *. lia.
  - split; [|exact P3]. split; [exact LC|]. right. split; [cbn [a_cached]; lia|]. cbn [a_cached a_cache a_disk].
    apply (nth_ext _ _ 0 0); [rewrite length_rdl; exact LC|]. intros i Hi. rewrite rdl_nth by lia. rewrite P3.
    replace (inr (s * SECTOR) (1 * SECTOR) (s * SECTOR + Z.of_nat i)) with true by (symmetry; apply inr_true; unfold SECTOR; lia). replace (s * SECTOR + Z.of_nat i - s * SECTOR) with (Z.of_nat i) by ring. rewrite Nat2Z.id. reflexivity.
Qed.

Lemma store_app : forall d a l r x, store (store d a l) (a + zlen l) r x = store d a (l ++ r) x.
Proof.
  intros d a l r x. unfold store. destruct (inr (a + zlen l) (zlen r) x) eqn:E.
  - apply inr_true in E. replace (inr a (zlen (l ++ r)) x) with true by (symmetry; apply inr_true; rewrite zlen_app; pose proof (zlen_nonneg l); lia).
    unfold zlen in *. rewrite app_nth2 by lia. f_equal. lia.
  - apply inr_false in E. destruct (inr a (zlen l) x) eqn:F.
    + apply inr_true in F. replace (inr a (zlen (l ++ r)) x) with true by (symmetry; apply inr_true; rewrite zlen_app; pose proof (zlen_nonneg r); lia).
      unfold zlen in *. rewrite app_nth1 by lia. reflexivity.
    + apply inr_false in F. replace (inr a (zlen (l ++ r)) x) with false; [reflexivity|]. symmetry. apply inr_false. rewrite zlen_app. lia.
Qed.
Lemma store_ext : forall d e a l x, (forall y, d y = e y) -> store d a l x = store e a l x.
Proof. intros d e a l x H. unfold store. rewrite H. reflexivity. Qed.
Lemma store_nil : forall d a x, store d a [] x = d x.
Proof. intros d a x. unfold store. replace (inr a (zlen []) x) with false; [reflexivity|]. symmetry. apply inr_false. unfold zlen. cbn. lia. Qed.
Lemma store_out : forall d a l x, ~ (a <= x < a + zlen l) -> store d a l x = d x.
Proof. intros d a l x H. unfold store. apply inr_false in H. rewrite H. reflexivity. Qed.

(** A write of whole sectors that covers the cached one. *)
Definition stale (st : ata) (start size : Z) : Prop :=
  start mod SECTOR = 0 /\ size mod SECTOR = 0 /\ start <= a_cached st * SECTOR < start + size.

Lemma ata_write_ok : forall h st drv start size buf, reliable h -> coherent st -> drive_ok h drv ->
  0 <= start -> 0 <= size <= 2 ^ 17 -> start + size <= 2 ^ 33 -> size <= zlen buf ->
  exists st', ata_write h st drv start size buf = Val (size, st') /\
    (forall x, a_disk st' x = store (a_disk st) start (firstn (Z.to_nat size) buf) x) /\ (~ stale st start size -> coherent st').
Proof.
  intros h st drv start size buf R HC (HD1 & HD2) H0 Hsz He Hb. unfold ata_write.
  destruct (Z.ltb_spec drv 0) as [|_]; [lia|]. destruct (Z.leb_spec MAX_DRIVES drv) as [|_]; [lia|]. destruct (Z.ltb_spec (last_drive h) drv) as [|_]; [lia|].
  destruct (Z.ltb_spec (zlen buf) size) as [|_]; [lia|]. cbn [orb]. clear HD1 HD2.
  destruct (Z.eqb_spec size 0) as [E0|N0].
  { subst size. exists st. split; [reflexivity|]. split; [|intros _; exact HC]. intro x. symmetry. apply store_nil. }
  destruct (split_pos start H0) as (s & off & ES & OB & S0 & Q1 & Q2). rewrite Q2. rewrite Q1. cbv zeta.
  assert (NM : start mod SECTOR = off) by (rewrite Z.mod_eq by (unfold SECTOR; lia); rewrite Q1 in *; lia). clear Q1 Q2.
  set (len := if 0 <? off then Z.min (SECTOR - off) size else 0). set (s1 := if 0 <? off then s + 1 else s).
  assert (SP : s < 2 ^ 24) by (unfold SECTOR in *; lia).
  assert (LN : 0 <= len <= size /\ (len < size -> s1 * SECTOR = start + len) /\ off + len <= SECTOR).
  { unfold len, s1. destruct (Z.ltb_spec 0 off); unfold SECTOR in *; lia. }
  assert (LS : forall n, 0 <= n <= size -> zlen (firstn (Z.to_nat n) buf) = n).
  { intros n Hn. unfold zlen in *. rewrite firstn_length. lia. }
  (* first part *)
  assert (A : exists st1, (if 0 <? off then
       dlet st1 <- cache_pull h st s in
       if negb (a_cached st1 =? s) then Val (st1, false)
       else dlet st2 <- cache_commit h (set_cache st1 (splice (a_cache st1) (Z.to_nat off) (firstn (Z.to_nat len) buf))) in Val (st2, true)
     else Val (st, true)) = Val (st1, true) /\ (forall x, a_disk st1 x = store (a_disk st) start (firstn (Z.to_nat len) buf) x) /\ coherent st1 /\
       (off = 0 -> st1 = st) /\ (0 < off -> a_cached st1 = s)).
  { destruct (Z.ltb_spec 0 off) as [L|L].
    - destruct (patch_ok h st s off (firstn (Z.to_nat len) buf) R (coherent_fresh st s HC ltac:(lia)) ltac:(lia) ltac:(lia)) as (t1 & t2 & P1 & P2 & P3 & P4 & P5 & P6); [rewrite LS by lia; lia|].
      exists t2. rewrite P1. cbn [obind]. rewrite P2, Z.eqb_refl. cbn [negb]. rewrite P3. cbn [obind]. split; [reflexivity|]. split; [intro x; rewrite P4; rewrite ES; reflexivity|]. split; [exact P5|]. split; [lia|intros _; exact P6].
    - exists st. split; [reflexivity|]. split; [intro x; unfold len; symmetry; apply store_nil|]. split; [exact HC|]. split; [reflexivity|lia]. }
  destruct A as (st1 & A1 & A2 & A3 & A4 & A5). rewrite A1. clear A1. cbn [obind negb].
  assert (L1 : 0 < off -> s1 = s + 1) by (unfold s1; destruct (Z.ltb_spec 0 off); lia). assert (L2 : off = 0 -> s1 = s /\ len = 0) by (unfold s1, len; destruct (Z.ltb_spec 0 off); lia).
  clearbody len s1.
  set (size1 := size - len) in *. set (count := size1 / SECTOR).
  assert (CB : 0 <= count /\ count * SECTOR <= size1 < count * SECTOR + SECTOR).
  { assert (SZ : 0 <= size1) by (clear -LN; unfold size1; lia). clear -SZ. clearbody size1. unfold count, SECTOR. pose proof (Z.div_mod size1 512 ltac:(lia)). pose proof (Z.mod_pos_bound size1 512 ltac:(lia)). assert (0 <= size1 / 512) by (apply Z.div_pos; lia). lia. }
  clearbody count.
  assert (B : exists st2, (if 0 <? count then write_sector h st1 s1 count (skipn (Z.to_nat len) buf) else Val (true, st1)) = Val (true, st2) /\
     (forall x, a_disk st2 x = store (a_disk st) start (firstn (Z.to_nat (len + count * SECTOR)) buf) x) /\
     a_cached st2 = a_cached st1 /\ a_cache st2 = a_cache st1 /\ (forall x, ~ (start + len <= x < start + len + count * SECTOR) -> a_disk st2 x = a_disk st1 x)).
  { destruct (Z.ltb_spec 0 count) as [L|L].
    - rewrite write_sector_ok; auto; [|unfold SECTOR in *; lia|unfold SECTOR in *; lia|unfold zlen, SECTOR in *; rewrite skipn_length; lia].
      eexists. split; [reflexivity|]. cbn [a_disk a_cached a_cache]. split; [|split; [reflexivity|split; [reflexivity|]]].
      + intro x. assert (FB : firstn (Z.to_nat (len + count * SECTOR)) buf = firstn (Z.to_nat len) buf ++ sub buf (Z.to_nat len) (Z.to_nat (count * SECTOR))).
        { replace (Z.to_nat (len + count * SECTOR)) with (Z.to_nat len + Z.to_nat (count * SECTOR))%nat by (unfold SECTOR in *; lia).
          unfold sub. rewrite <- (firstn_skipn (Z.to_nat len) buf) at 1. rewrite firstn_app_2' by (unfold zlen in *; rewrite firstn_length; lia). reflexivity. }
        rewrite FB, <- store_app. rewrite LS by lia. unfold store at 1.
        assert (LZ : zlen (sub buf (Z.to_nat len) (Z.to_nat (count * SECTOR))) = count * SECTOR).
        { unfold zlen in *. rewrite length_sub by (unfold SECTOR in *; lia). unfold SECTOR in *. lia. }
        rewrite LZ. replace (s1 * SECTOR) with (start + len) by (unfold SECTOR in *; lia). destruct (inr (start + len) (count * SECTOR) x) eqn:E; [|apply A2].
        apply inr_true in E. unfold sub. rewrite (nth_firstn_lt' (Z.to_nat (count * SECTOR))) by lia. reflexivity.
      + intros x Hx. replace (s1 * SECTOR) with (start + len) by (unfold SECTOR in *; lia). apply inr_false in Hx. rewrite Hx. reflexivity.
    - assert (count = 0) as -> by lia. exists st1. rewrite Z.mul_0_l, Z.add_0_r. repeat split; auto. }
  destruct B as (st2 & B1 & B2 & B3 & B4 & B5). rewrite B1. clear B1. cbn [obind negb].
  set (size2 := size1 - count * SECTOR). destruct (Z.ltb_spec 0 size2) as [L|L].
  - assert (SB : 0 <= s1 + count < 2 ^ 24) by (unfold SECTOR in *; lia).
    assert (F2 : fresh st2 (s1 + count)).
    { destruct (coherent_fresh st1 (s1 + count) A3 ltac:(lia)) as (F1 & F2). split; [rewrite B4; exact F1|]. rewrite B3, B4. intro E. rewrite (F2 E). apply rdl_ext. intros i Hi. symmetry. apply B5. unfold SECTOR in *. lia. }
    destruct (patch_ok h st2 (s1 + count) 0 (sub buf (Z.to_nat (len + count * SECTOR)) (Z.to_nat size2)) R F2 SB ltac:(lia)) as (t3 & t4 & P1 & P2 & P3 & P4 & P5 & _).
    { unfold zlen in *. rewrite length_sub by (unfold size2, size1, SECTOR in *; lia). unfold size2, size1, SECTOR in *; lia. }
    rewrite P1. cbn [obind]. change (Z.to_nat 0) with 0%nat in P3. rewrite P3. cbn [obind]. exists t4.
    replace (len + count * SECTOR + size2) with size by (unfold size2, size1; lia). split; [reflexivity|]. split; [|intros _; exact P5].
    intro x. rewrite P4. rewrite Z.add_0_r. rewrite (store_ext _ _ _ _ _ B2).
    assert (FB : firstn (Z.to_nat size) buf = firstn (Z.to_nat (len + count * SECTOR)) buf ++ sub buf (Z.to_nat (len + count * SECTOR)) (Z.to_nat size2)).
    { replace (Z.to_nat size) with (Z.to_nat (len + count * SECTOR) + Z.to_nat size2)%nat by (unfold size2, size1, SECTOR in *; lia).
      unfold sub. rewrite <- (firstn_skipn (Z.to_nat (len + count * SECTOR)) buf) at 1. rewrite firstn_app_2' by (unfold zlen, SECTOR in *; rewrite firstn_length; lia). reflexivity. }
    rewrite FB, <- store_app. rewrite LS by (unfold SECTOR in *; lia). f_equal. unfold SECTOR in *. lia.
  - exists st2. assert (EZ : len + count * SECTOR = size) by (unfold size2, size1 in *; lia). rewrite EZ in *. split; [reflexivity|]. split; [exact B2|]. intro NS.
    destruct A3 as (C1 & C2). split; [rewrite B4; exact C1|]. rewrite B3, B4. destruct C2 as [C2|(C2 & C3)]; [left; exact C2|]. right. split; [exact C2|].
    rewrite C3. apply rdl_ext. intros i Hi. symmetry. apply B5.
    destruct (Z.eq_dec off 0) as [EO|EO].
    + destruct (L2 EO) as (-> & ->). rewrite (A4 EO) in *. intro K. apply NS. unfold stale. split; [lia|]. split.
      * rewrite <- EZ. rewrite Z.add_0_l. apply Z.mod_mul. unfold SECTOR. lia.
      * clear -K EO ES EZ Hi. unfold SECTOR in *. lia.
    + rewrite (A5 ltac:(lia)). rewrite (L1 ltac:(lia)) in LN. unfold SECTOR in *. lia.
Qed.

(** [injection] would compute the components. *)
Lemma val_inj : forall {A} (a b : A), Val a = Val b -> a = b.
Proof. intros A a b H. exact (match H in _ = v return match v with Val y => a = y | _ => True end with eq_refl => eq_refl end). Qed.
Lemma val_inj2 : forall {A B} (a a' : A) (b b' : B), Val (a, b) = Val (a', b') -> a = a' /\ b = b'.
Proof. intros A B a a' b b' H. apply val_inj in H. split; [exact (f_equal fst H)|exact (f_equal snd H)]. Qed.
Lemma val_inj3 : forall {A B C} (a a' : A) (b b' : B) (c c' : C), Val (a, b, c) = Val (a', b', c') -> a = a' /\ b = b' /\ c = c'.
Proof. intros A B C a a' b b' c c' H. apply val_inj in H. split; [exact (f_equal (fun x => fst (fst x)) H)|]. split; [exact (f_equal (fun x => snd (fst x)) H)|exact (f_equal snd H)]. Qed.
Ltac v1 H := apply val_inj in H; destruct H.
Ltac v2 H := apply val_inj2 in H; destruct H as [<- <-].
Ltac v3 H := apply val_inj3 in H; destruct H as [<- [<- <-]].

(** ** What any write can change, whatever the drive does *)

Lemma pull_disk : forall h st s st', cache_pull h st s = Val st' -> a_disk st' = a_disk st /\ (a_cached st' = s \/ a_cached st' = CACHE_INVALID).
Proof.
  intros h st s st' H. unfold cache_pull in H. destruct (Z.eqb_spec (a_cached st) s) as [E|E]; [v1 H; auto|].
  destruct (read_sector h st s 1 (a_cache st) 0) as [((ok, st1), b)| |] eqn:ER; try discriminate. cbn [obind] in H. v1 H. cbn [a_disk a_cached].
  split; [|destruct ok; auto]. unfold read_sector in ER. destruct (fate h (a_cmds st)); [destruct (_ <? _); [discriminate|]| |]; v3 ER; reflexivity.
Qed.

Lemma write_sector_frame : forall h st s c d ok st', write_sector h st s c d = Val (ok, st') -> 0 <= s -> 1 <= c -> s + c <= 2 ^ 24 ->
  forall x, ~ (s * SECTOR <= x < (s + c) * SECTOR) -> a_disk st' x = a_disk st x.
Proof.
  intros h st s c d ok st' H Hs Hc Hb x Hx. unfold write_sector in H. destruct (fate h (a_cmds st)); [destruct (_ <? _); [discriminate|]| |]; v2 H; cbn [a_disk]; try reflexivity.
  replace (inr _ _ x) with false; [reflexivity|]. symmetry. apply inr_false. unfold write_lba. rewrite Z.mod_small by lia. unfold dma_bytes, SECTOR in *.
  assert (M : (c * 512 - 1) mod 2 ^ 22 <= c * 512 - 1) by (apply Z.mod_le; lia). lia.
Qed.

Lemma commit_frame : forall h st st' s, cache_commit h st = Val st' -> a_cached st = s \/ a_cached st = CACHE_INVALID -> 0 <= s < 2 ^ 24 ->
  forall x, ~ (s * SECTOR <= x < (s + 1) * SECTOR) -> a_disk st' x = a_disk st x.
Proof.
  intros h st st' s H HC Hs x Hx. unfold cache_commit in H. destruct (Z.eqb_spec (a_cached st) CACHE_INVALID) as [E|E]; [v1 H; reflexivity|].
  destruct HC as [HC|HC]; [|contradiction]. rewrite HC in H. destruct (write_sector h st s 1 (a_cache st)) as [(ok, st1)| |] eqn:EW; try discriminate. cbn [obind] in H. v1 H.
  apply (write_sector_frame _ _ _ _ _ _ _ EW); lia.
Qed.

Lemma ata_write_frame : forall h st drv start size buf r st' lo hi, ata_write h st drv start size buf = Val (r, st') ->
  0 <= size -> 0 <= lo -> lo * SECTOR <= start -> start + size <= hi * SECTOR -> hi <= 2 ^ 24 ->
  forall x, ~ (lo * SECTOR <= x < hi * SECTOR) -> a_disk st' x = a_disk st x.
Proof.
  intros h st drv start size buf r st' lo hi H Hsz Hlo H0 He Hh x Hx. unfold ata_write in H. destruct ((drv <? 0) || _ || _ || _); [discriminate|].
  destruct (Z.eqb_spec size 0) as [E0|N0]; [v2 H; reflexivity|].
  assert (HS0 : 0 <= start) by (clear -H0 Hlo; unfold SECTOR in *; lia).
  destruct (split_pos start HS0) as (s & off & ES & OB & S0 & Q1 & Q2). rewrite Q2 in H. rewrite Q1 in H. clear Q1 Q2. cbv zeta in H.
  set (len := if 0 <? off then Z.min (SECTOR - off) size else 0) in *. set (s1 := if 0 <? off then s + 1 else s) in *.
  assert (LN : 0 <= len <= size /\ (len < size -> s1 * SECTOR = start + len)).
  { clear -OB ES Hsz N0. unfold len, s1. destruct (Z.ltb_spec 0 off); unfold SECTOR in *; lia. }
  assert (SR : lo <= s /\ s + 1 <= hi) by (clear -ES OB H0 He Hsz N0; unfold SECTOR in *; lia).
  match type of H with obind ?e _ = _ => destruct e as [(st1, ok)| |] eqn:E1; try discriminate end. cbn [obind] in H.
  assert (A : a_disk st1 x = a_disk st x).
  { destruct (Z.ltb_spec 0 off) as [L|L]; [|v2 E1; reflexivity].
    destruct (cache_pull h st s) as [t1| |] eqn:EP; try discriminate. cbn [obind] in E1. destruct (pull_disk _ _ _ _ EP) as (D1 & D2).
    destruct (negb (a_cached t1 =? s)); [v2 E1; rewrite D1; reflexivity|].
    destruct (cache_commit h _) as [t2| |] eqn:EC; try discriminate. cbn [obind] in E1. v2 E1.
    rewrite (commit_frame _ _ _ s EC); [cbn [set_cache a_disk]; rewrite D1; reflexivity|exact D2|lia|]. clear -SR Hx. unfold SECTOR in *. lia. }
  clear E1. destruct (negb ok); [v2 H; exact A|]. clearbody len s1.
  set (size1 := size - len) in *. set (count := size1 / SECTOR) in *.
  assert (CB : 0 <= count /\ count * SECTOR <= size1 < count * SECTOR + SECTOR).
  { assert (SZ : 0 <= size1) by (clear -LN; unfold size1; lia). clear -SZ. clearbody size1. unfold count, SECTOR. pose proof (Z.div_mod size1 512 ltac:(lia)). pose proof (Z.mod_pos_bound size1 512 ltac:(lia)). assert (0 <= size1 / 512) by (apply Z.div_pos; lia). lia. }
  clearbody count.
  match type of H with obind ?e _ = _ => destruct e as [(ok2, st2)| |] eqn:E2; try discriminate end. cbn [obind] in H.
  assert (B : a_disk st2 x = a_disk st x).
  { destruct (Z.ltb_spec 0 count) as [L|L]; [|v2 E2; exact A]. rewrite <- A.
    assert (K : lo <= s1 /\ s1 + count <= hi) by (clear -CB LN H0 He L; unfold size1, SECTOR in *; lia).
    apply (write_sector_frame _ _ _ _ _ _ _ E2); [lia|lia|lia|]. clear -K Hx. unfold SECTOR in *. lia. }
  clear E2. destruct (negb ok2); [v2 H; exact B|].
  destruct (Z.ltb_spec 0 (size1 - count * SECTOR)) as [L|L]; [|v2 H; exact B].
  destruct (cache_pull h st2 (s1 + count)) as [t1| |] eqn:EP; try discriminate. cbn [obind] in H. destruct (pull_disk _ _ _ _ EP) as (D1 & D2).
  destruct (cache_commit h _) as [t2| |] eqn:EC; try discriminate. cbn [obind] in H. v2 H.
  assert (K : lo <= s1 + count /\ s1 + count + 1 <= hi) by (clear -CB LN H0 He L; unfold size1, SECTOR in *; lia).
  rewrite (commit_frame _ _ _ (s1 + count) EC); [cbn [set_cache a_disk]; rewrite D1; exact B|exact D2|lia|]. clear -K Hx. unfold SECTOR in *. lia.
Qed.

(** Reading never changes the disk. *)
Lemma read_sector_disk : forall h st s c buf o ok st' b, read_sector h st s c buf o = Val (ok, st', b) -> a_disk st' = a_disk st.
Proof.
  intros h st s c buf o ok st' b ER. unfold read_sector in ER. destruct (fate h (a_cmds st)); [destruct (_ <? _); [discriminate|]| |]; v3 ER; reflexivity.
Qed.
Lemma ata_read_disk : forall h st drv start size buf r st' b, ata_read h st drv start size buf = Val (r, st', b) -> a_disk st' = a_disk st.
Proof.
  intros h st drv start size buf r st' b H. unfold ata_read in H. destruct ((drv <? 0) || _); [discriminate|]. destruct (last_drive h <? drv); [v3 H; reflexivity|].
  cbv zeta in H. match type of H with obind ?e _ = _ => destruct e as [((st1, buf1), ok)| |] eqn:E1; try discriminate end. cbn [obind] in H.
  assert (A : a_disk st1 = a_disk st).
  { destruct (0 <? _); [|v3 E1; reflexivity]. destruct (cache_pull h st _) as [t1| |] eqn:EP; try discriminate. cbn [obind] in E1.
    destruct (pull_disk _ _ _ _ EP) as (D1 & _). destruct (negb _); [v3 E1; exact D1|]. destruct (_ <? _); [discriminate|]. v3 E1. exact D1. }
  destruct (negb ok); [v3 H; exact A|].
  match type of H with obind ?e _ = _ => destruct e as [((ok2, st2), buf2)| |] eqn:E2; try discriminate end. cbn [obind] in H.
  assert (B : a_disk st2 = a_disk st).
  { destruct (0 <? _) in E2; [|v3 E2; exact A]. rewrite (read_sector_disk _ _ _ _ _ _ _ _ _ E2). exact A. }
  destruct (negb ok2); [v3 H; exact B|].
  destruct (0 <? _) in H; [|v3 H; exact B].
  destruct (cache_pull h st2 _) as [t1| |] eqn:EP; try discriminate. cbn [obind] in H. destruct (pull_disk _ _ _ _ EP) as (D1 & _).
  destruct (_ <? _) in H; [discriminate|]. v3 H. congruence.
Qed.

(** ** Reads whose commands may not get a slot *)

Lemma pull_keeps : forall h st s st', (forall n, fate h n <> CError) -> coherent st -> 0 <= s < 2 ^ 48 -> cache_pull h st s = Val st' -> coherent st'.
Proof.
  intros h st s st' R HC Hs H. pose proof HC as (HL & _). unfold cache_pull in H. destruct (Z.eqb_spec (a_cached st) s) as [E|E]; [v1 H; exact HC|].
  unfold read_sector in H. specialize (R (a_cmds st)). destruct (fate h (a_cmds st)); [| |congruence].
  - unfold SECTOR in H. rewrite dma_small, count_small in H by lia. rewrite Z.min_id in H. unfold zlen in H. rewrite HL in H. cbn [Z.of_nat] in H.
    destruct (_ <? _) in H; [discriminate|]. cbn [obind] in H. v1 H. unfold read_lba. rewrite Z.mod_small by lia.
    apply (pull_coherent _ s); [reflexivity|exact Hs|]. cbn [a_cache a_disk]. change (Z.to_nat (1 * 512)) with 512%nat. unfold splice, SECTOR. cbn [firstn app Nat.add]. rewrite length_rdl, skipn_all2 by lia. apply app_nil_r.
  - cbn [obind] in H. v1 H. split; [exact HL|]. left. reflexivity.
Qed.

Lemma read_sector_keeps : forall h st s c buf o r st' b, read_sector h st s c buf o = Val (r, st', b) -> coherent st -> coherent st'.
Proof.
  intros h st s c buf o r st' b H HC. unfold read_sector in H. destruct (fate h (a_cmds st)); [destruct (_ <? _); [discriminate|]| |]; v3 H; exact HC.
Qed.

Lemma ata_read_keeps : forall h st drv start size buf r st' b, (forall n, fate h n <> CError) -> coherent st ->
  0 <= start -> 0 <= size -> start + size <= 2 ^ 57 -> ata_read h st drv start size buf = Val (r, st', b) -> coherent st'.
Proof.
  intros h st drv start size buf r st' b R HC H0 H1 H2 H. unfold ata_read in H. destruct (_ || _) in H; [discriminate|]. destruct (_ <? _) in H; [v3 H; exact HC|].
  destruct (split_pos start H0) as (s & off & ES & OB & S0 & Q1 & Q2). rewrite Q2 in H. rewrite Q1 in H. clear Q1 Q2. cbv zeta in H.
  set (len := if 0 <? off then Z.min (SECTOR - off) size else 0) in *. set (s1 := if 0 <? off then s + 1 else s) in *.
  assert (LN : 0 <= len <= size /\ (len < size -> s1 * SECTOR = start + len)).
  { unfold len, s1. destruct (Z.ltb_spec 0 off); unfold SECTOR in *; lia. }
  match type of H with obind ?p _ = _ => destruct p as [((st1, b1), ok)| |] eqn:E1; try discriminate end. cbn [obind] in H.
  assert (C1 : coherent st1).
  { destruct (Z.ltb_spec 0 off) as [L|L]; [|v3 E1; exact HC].
    destruct (cache_pull h st s) as [t| |] eqn:EP; try discriminate. cbn [obind] in E1.
    assert (coherent t) by (apply (pull_keeps h st s t R HC); [unfold SECTOR in *; lia|exact EP]).
    destruct (negb _) in E1; [v3 E1; assumption|]. destruct (_ <? _) in E1; [discriminate|]. v3 E1. assumption. }
  destruct (negb ok) in H; [v3 H; exact C1|]. clear E1. clearbody len s1.
  set (size1 := size - len) in *. set (count := size1 / SECTOR) in *.
  assert (CB : 0 <= count /\ count * SECTOR <= size1 < count * SECTOR + SECTOR).
  { assert (SZ : 0 <= size1) by (clear -LN; unfold size1; lia). clear -SZ. clearbody size1. unfold count, SECTOR. pose proof (Z.div_mod size1 512 ltac:(lia)). pose proof (Z.mod_pos_bound size1 512 ltac:(lia)). assert (0 <= size1 / 512) by (apply Z.div_pos; lia). lia. }
  clearbody count.
  match type of H with obind ?p _ = _ => destruct p as [((ok2, st2), b2)| |] eqn:E2; try discriminate end. cbn [obind] in H.
  assert (C2 : coherent st2).
  { destruct (0 <? count) in E2; [|v3 E2; exact C1]. exact (read_sector_keeps _ _ _ _ _ _ _ _ _ E2 C1). }
  destruct (negb ok2) in H; [v3 H; exact C2|]. destruct (Z.ltb_spec 0 (size1 - count * SECTOR)) as [L|L]; [|v3 H; exact C2].
  destruct (cache_pull h st2 (s1 + count)) as [st3| |] eqn:EP; try discriminate. cbn [obind] in H. destruct (_ <? _) in H; [discriminate|]. v3 H.
  apply (pull_keeps h st2 (s1 + count) _ R C2); [|exact EP]. unfold SECTOR in *. lia.
Qed.
