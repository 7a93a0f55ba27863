(** C35: accesses stay inside the partition.  C39: a disk is an array of bytes. *)
From Verif Require Import Base BaseLemmas HeaderModel Flash FlashLemmas DualProofs CryptProofs DiskModel DiskSpec DiskProofs.
Local Ltac Zify.zify_post_hook ::= idtac.

(** ** Requests *)

Lemma to_int_small : forall v, 0 <= v < 2 ^ 31 -> to_int v = v.
Proof. intros v H. unfold to_int. rewrite Z.mod_small by (change (2 ^ 32) with (2 * 2 ^ 31); lia). destruct (Z.leb_spec (2 ^ 31) v); lia. Qed.
Lemma to_int_le : forall v, 0 <= v -> to_int v <= v.
Proof. intros v H. unfold to_int. assert (v mod 2 ^ 32 <= v) by (apply Z.mod_le; lia). destruct (Z.leb_spec (2 ^ 31) (v mod 2 ^ 32)); [|lia]. pose proof (Z.mod_pos_bound v (2 ^ 32) ltac:(lia)). lia. Qed.

Lemma len_cases : forall p off sz, part_ok p -> 0 <= off <= g_end p - g_start p -> 0 <= sz ->
  (g_start p + off) mod U64 = g_start p + off /\ disk_len p off sz = to_int (avail p off sz).
Proof.
  intros p off sz (_ & _ & H1 & H2) Ho Hs. assert (E : (g_start p + off) mod U64 = g_start p + off) by (apply Z.mod_small; lia). split; [exact E|].
  unfold disk_len, avail. rewrite E. rewrite Z.mod_small by lia. destruct (Z.ltb_spec (g_end p - (g_start p + off)) sz); f_equal; lia.
Qed.

Lemma open_ok : forall h dr drv k p, drive_ok h drv -> is_part dr k p -> open_part dr drv k = Val (Some p).
Proof.
  intros h dr drv k p (D1 & D2) (P1 & P2 & P3). unfold open_part. destruct (Z.ltb_spec drv 0); [lia|]. destruct (Z.ltb_spec MAX_DRIVES drv); [lia|]. cbn [orb].
  destruct (Z.ltb_spec k 0); [lia|]. destruct (Z.ltb_spec MAX_PARTITIONS k); [lia|]. cbn [orb]. destruct (Z.leb_spec MAX_DRIVES drv); [lia|]. rewrite P1, P3. reflexivity.
Qed.

(** A read of an opened partition, at an offset inside it, delivers exactly the bytes of the
    partition from there on: as many as asked for and as there are up to the recorded end. *)
Theorem C35_read : forall h st dr drv k p off sz buf, reliable h -> coherent st -> drive_ok h drv -> is_part dr k p -> part_ok p -> g_end p < 2 ^ 57 ->
  0 <= off <= g_end p - g_start p -> 0 <= sz < U64 -> avail p off sz <= 2 ^ 22 -> avail p off sz <= zlen buf ->
  exists st', disk_read h st dr drv k off sz buf = Val (avail p off sz, st', put (rdl (a_disk st) (g_start p + off) (Z.to_nat (avail p off sz))) buf) /\
    g_start p + off + avail p off sz <= g_end p /\ a_disk st' = a_disk st /\ coherent st'.
Proof.
  intros h st dr drv k p off sz buf R HC HD HI HP HE Ho Hs HA HB. unfold disk_read. rewrite (open_ok h dr drv k p HD HI). cbn [obind].
  destruct (len_cases p off sz HP Ho ltac:(lia)) as (E1 & E2). rewrite E1, E2. assert (A0 : 0 <= avail p off sz /\ g_start p + off + avail p off sz <= g_end p) by (unfold avail in *; lia).
  rewrite to_int_small by (change (2 ^ 31) with (2 ^ 22 * 512); lia). destruct (Z.ltb_spec (avail p off sz) 0); [lia|].
  destruct HP as (_ & _ & H1 & _).
  destruct (ata_read_ok h st drv (g_start p + off) (avail p off sz) buf R HC HD) as (st' & A1 & A2 & A3); try lia. exists st'. split; [exact A1|]. split; [lia|]. split; assumption.
Qed.
Print Assumptions C35_read.

(** Reads change nothing, whatever the arguments and the drive. *)
Theorem C35_read_only : forall h st dr drv k off sz buf r st' b, disk_read h st dr drv k off sz buf = Val (r, st', b) -> a_disk st' = a_disk st.
Proof.
  intros h st dr drv k off sz buf r st' b H. unfold disk_read in H. destruct (open_part dr drv k) as [[p|]| |]; try discriminate; cbn [obind] in H.
  - destruct (_ <? 0) in H; [v3 H; reflexivity|]. exact (ata_read_disk _ _ _ _ _ _ _ _ _ H).
  - v3 H. reflexivity.
Qed.
Print Assumptions C35_read_only.

(** A write to an opened partition below 8 GiB, at an offset inside it, changes no byte outside
    the partition: for every size, every state of the cache and whatever the drive does. *)
Theorem C35_write_inside : forall h st dr drv k p off sz buf r st', is_part dr k p -> part_ok p -> g_end p < 2 ^ 33 ->
  0 <= off <= g_end p - g_start p -> 0 <= sz ->
  disk_write h st dr drv k off sz buf = Val (r, st') ->
  forall x, ~ (g_start p <= x <= g_end p) -> a_disk st' x = a_disk st x.
Proof.
  intros h st dr drv k p off sz buf r st' HI HP HE Ho Hs H x Hx. unfold disk_write in H. destruct (open_part dr drv k) as [[q|]| |] eqn:EO; try discriminate; cbn [obind] in H; [|v2 H; reflexivity].
  assert (q = p) as ->.
  { unfold open_part in EO. destruct HI as (I1 & I2 & I3). rewrite I1, I3 in EO. repeat (destruct (_ || _) in EO; [discriminate|]). destruct (_ <=? _) in EO; [discriminate|]. cbn [negb] in EO. apply val_inj in EO. congruence. }
  destruct (len_cases p off sz HP Ho Hs) as (E1 & E2). rewrite E1, E2 in H. destruct (Z.ltb_spec (to_int (avail p off sz)) 0) as [|L]; [v2 H; reflexivity|].
  assert (A0 : 0 <= avail p off sz /\ g_start p + off + avail p off sz <= g_end p) by (unfold avail in *; lia).
  pose proof (to_int_le (avail p off sz) (proj1 A0)) as TL. destruct HP as (M1 & M2 & H1 & H2).
  pose proof (Z.div_mod (g_start p) SECTOR ltac:(unfold SECTOR; lia)) as D1. pose proof (Z.div_mod (g_end p + 1) SECTOR ltac:(unfold SECTOR; lia)) as D2. rewrite M1 in D1. rewrite M2 in D2.
  set (a := g_start p / SECTOR) in *. set (b := (g_end p + 1) / SECTOR) in *. clearbody a b.
  apply (ata_write_frame _ _ _ _ _ _ _ _ a b H); unfold SECTOR in *; lia.
Qed.
Print Assumptions C35_write_inside.

(** On a reliable drive it stores exactly the bytes given. *)
Theorem C35_write : forall h st dr drv k p off sz buf, reliable h -> coherent st -> drive_ok h drv -> is_part dr k p -> part_ok p -> g_end p < 2 ^ 33 ->
  0 <= off <= g_end p - g_start p -> 0 <= sz < U64 -> avail p off sz <= 2 ^ 17 -> avail p off sz <= zlen buf ->
  exists st', disk_write h st dr drv k off sz buf = Val (avail p off sz, st') /\
    (forall x, a_disk st' x = store (a_disk st) (g_start p + off) (firstn (Z.to_nat (avail p off sz)) buf) x) /\
    (~ stale st (g_start p + off) (avail p off sz) -> coherent st').
Proof.
  intros h st dr drv k p off sz buf R HC HD HI HP HE Ho Hs HA HB. unfold disk_write. rewrite (open_ok h dr drv k p HD HI). cbn [obind].
  destruct (len_cases p off sz HP Ho ltac:(lia)) as (E1 & E2). rewrite E1, E2. assert (A0 : 0 <= avail p off sz /\ g_start p + off + avail p off sz <= g_end p) by (unfold avail in *; lia).
  rewrite to_int_small by (change (2 ^ 31) with (2 ^ 17 * 16384); lia). destruct (Z.ltb_spec (avail p off sz) 0); [lia|].
  destruct HP as (_ & _ & H1 & _). apply ata_write_ok; auto; lia.
Qed.
Print Assumptions C35_write.

(** ** Opening a disk *)

Lemma put_all : forall d buf, length d = length buf -> put d buf = d.
Proof. intros d buf H. unfold put. rewrite skipn_all2 by lia. apply app_nil_r. Qed.
Lemma le_at_rdl : forall d a n o k, (o + k <= n)%nat -> le_at (rdl d a n) o k = le_disk d (a + Z.of_nat o) k.
Proof. intros d a n o k H. unfold le_at, le_disk. rewrite rdl_sub by exact H. reflexivity. Qed.

Lemma find_pte_ok : forall n h st drv i j pte, reliable h -> coherent st -> drive_ok h drv -> length pte = 16%nat -> gpt_entry (a_disk st) j -> 0 <= i <= j -> j < i + Z.of_nat n ->
  exists st', find_pte n h st drv i pte = Val (st', Some (le_disk (a_disk st) (0x1BE + 16 * j + 8) 4)) /\ a_disk st' = a_disk st /\ coherent st'.
Proof.
  induction n as [|n IH]; intros h st drv i j pte R HC HD HL HG Hi Hj; [lia|]. cbn [find_pte]. pose proof HG as (G1 & G2 & G3).
  destruct (ata_read_ok h st drv (0x1BE + 16 * i) 16 pte R HC HD) as (st1 & A1 & A2 & A3); try (unfold zlen; lia). rewrite A1. cbn [obind].
  change (Z.to_nat 16) with 16%nat. rewrite put_all by (rewrite length_rdl; auto). rewrite rdl_nth by lia. change (Z.of_nat 4) with 4. change (0 <? 16) with true. cbn [andb].
  destruct (Z.eqb_spec (a_disk st (0x1BE + 16 * i + 4)) 0xEE) as [E|E].
  - assert (i = j) as -> by (destruct (Z.eq_dec i j); auto; exfalso; apply (G3 i); [lia|exact E]). exists st1. rewrite le_at_rdl by lia. auto.
  - assert (i <> j) by (intros ->; contradiction).
    destruct (IH h st1 drv (i + 1) j (rdl (a_disk st) (0x1BE + 16 * i) 16) R A3 HD ltac:(apply length_rdl)) as (st2 & B1 & B2 & B3); try lia; [rewrite A2; exact HG|].
    exists st2. rewrite B1, A2. split; [reflexivity|]. split; [congruence|exact B3].
Qed.

Lemma read_entries_ok : forall n h st drv sa i pa parts, reliable h -> coherent st -> drive_ok h drv -> (forall i, length (pa i) = 128%nat) ->
  0 <= sa -> 0 <= i -> i + Z.of_nat n <= 16 -> sa * SECTOR + 2048 <= 2 ^ 57 ->
  exists st', read_entries n h st drv sa 128 i pa parts = Val (true, st', parts ++ gpt_parts (a_disk st) (sa * SECTOR + i * 128) n) /\ a_disk st' = a_disk st /\ coherent st'.
Proof.
  induction n as [|n IH]; intros h st drv sa i pa parts R HC HD HL H0 Hi Hn HB; cbn [read_entries gpt_parts].
  - exists st. rewrite app_nil_r. auto.
  - rewrite (Z.mod_small (i * 128)) by lia. rewrite (Z.mod_small (sa * SECTOR + i * 128)) by (unfold U64, SECTOR in *; lia). set (a := sa * SECTOR + i * 128).
    assert (A : 0 <= a /\ a + 128 <= 2 ^ 57) by (unfold a, SECTOR in *; lia).
    destruct (ata_read_ok h st drv a 128 (pa i) R HC HD) as (st1 & A1 & A2 & A3); try (unfold zlen; try rewrite HL; lia). rewrite A1. cbn [obind].
    change (128 <? 0) with false. cbv iota. change (Z.to_nat 128) with 128%nat. rewrite put_all by (rewrite length_rdl, HL; reflexivity).
    rewrite !le_at_rdl by lia. change (Z.of_nat 0) with 0. rewrite Z.add_0_r. change (Z.of_nat 8) with 8. change (Z.of_nat 32) with 32. change (Z.of_nat 40) with 40.
    destruct ((le_disk (a_disk st) a 8 =? 0) && (le_disk (a_disk st) (a + 8) 8 =? 0)); cbn [orb].
    { exists st1. rewrite app_nil_r. auto. }
    destruct (le_disk (a_disk st) (a + 40) 8 <? le_disk (a_disk st) (a + 32) 8).
    { exists st1. rewrite app_nil_r. auto. }
    assert (SK : skipn 56 (rdl (a_disk st) a 128) = rdl (a_disk st) (a + 56) 72).
    { change 128%nat with (56 + 72)%nat. rewrite rdl_app, skipn_app, length_rdl. rewrite skipn_all2 by (rewrite length_rdl; lia). reflexivity. }
    rewrite SK. set (P := mkPart _ _ _).
    destruct (IH h st1 drv sa (i + 1) pa (parts ++ [P]) R A3 HD HL H0 ltac:(lia) ltac:(lia) HB) as (st2 & B1 & B2 & B3). rewrite B1, A2. exists st2. split; [|split; [congruence|exact B3]].
    rewrite <- app_assoc. cbn [app]. replace (a + 128) with (sa * SECTOR + (i + 1) * 128) by (unfold a; ring). reflexivity.
Qed.

(** On a disk with a GPT of the usual layout (entries of 128 bytes) the partitions found are
    exactly those of the table, at most 16. *)
Theorem C35_open : forall h st dr drv pte sig pt pa a, reliable h -> coherent st -> drive_ok h drv -> bytes (a_disk st) ->
  length pte = 16%nat -> length sig = 2%nat -> length pt = 512%nat -> (forall i, length (pa i) = 128%nat) ->
  gpt_header (a_disk st) a -> le_disk (a_disk st) (a + 84) 4 = 128 -> le_disk (a_disk st) (a + 72) 8 * SECTOR + 2048 <= 2 ^ 57 ->
  let parts := gpt_parts (a_disk st) (le_disk (a_disk st) (a + 72) 8 * SECTOR) (Z.to_nat (Z.min (le_disk (a_disk st) (a + 80) 4) MAX_PARTITIONS)) in
  exists st', disk_open h st dr drv (pte, sig, pt) pa = Val (zlen parts, st', mkDrive true parts) /\ a_disk st' = a_disk st /\ coherent st'.
Proof.
  intros h st dr drv pte sig pt pa a R HC HD HB L1 L2 L3 L4 (i & HG & HA & H32 & HS & HM) H128 H57 parts. set (d := a_disk st) in *.
  pose proof HD as (D1 & D2). unfold disk_open. destruct (Z.ltb_spec drv 0); [lia|]. destruct (Z.ltb_spec MAX_DRIVES drv); [lia|]. cbn [orb].
  destruct (find_pte_ok 4 h st drv 0 i pte R HC HD L1 HG) as (st1 & F1 & F2 & F3); [destruct HG as ((G & _) & _); lia|destruct HG as ((G & G') & _); lia|]. fold d in F1, F2. rewrite F1. cbn [obind].
  destruct (ata_read_ok h st1 drv 0x1FE 2 sig R F3 HD) as (st2 & A1 & A2 & A3); try (unfold zlen; lia). rewrite A1, F2. cbn [obind].
  change (Z.to_nat 2) with 2%nat. rewrite put_all by (rewrite length_rdl; auto). rewrite le_at_rdl by lia. change (0x1FE + Z.of_nat 0) with 0x1FE. rewrite HS. cbn [Z.ltb Z.compare Z.eqb Pos.eqb andb negb].
  assert (LB : 0 <= le_disk d (0x1BE + 16 * i + 8) 4).
  { clear -HB. unfold le_disk. pose proof (rdl_bytes 4 d (0x1BE + 16 * i + 8) HB) as B. remember (rdl d (0x1BE + 16 * i + 8) 4) as l. clear Heql HB. induction B as [|b l Hb Hl IH]; cbn [le_val]; [lia|]. unfold is_byte in Hb. lia. }
  rewrite (Z.mul_comm SECTOR), <- HA. rewrite Z.mod_small by (unfold SECTOR in *; lia).
  assert (A0 : 0 <= a) by (rewrite HA; unfold SECTOR; lia).
  destruct (ata_read_ok h st2 drv a SECTOR pt R A3 HD) as (st3 & B1 & B2 & B3); try (unfold zlen, SECTOR; lia). rewrite B1, A2, F2. cbn [obind].
  change (Z.to_nat SECTOR) with 512%nat. rewrite put_all by (rewrite length_rdl; auto). rewrite !le_at_rdl by lia. change (Z.of_nat 0) with 0. rewrite Z.add_0_r.
  change (Z.of_nat 80) with 80. change (Z.of_nat 72) with 72. change (Z.of_nat 84) with 84. rewrite HM, Z.eqb_refl, H128. change (0 <? SECTOR) with true. cbn [negb orb].
  assert (LN : forall a n, 0 <= le_disk d a n).
  { clear -HB. intros a n. unfold le_disk. pose proof (rdl_bytes n d a HB) as B. remember (rdl d a n) as l. clear Heql HB. induction B as [|b l Hb Hl IH]; cbn [le_val]; [lia|]. unfold is_byte in Hb. lia. }
  pose proof (LN (a + 80) 4%nat) as LN1. pose proof (LN (a + 72) 8%nat) as LN2.
  destruct (read_entries_ok (Z.to_nat (Z.min (le_disk d (a + 80) 4) MAX_PARTITIONS)) h st3 drv (le_disk d (a + 72) 8) 0 pa [] R B3 HD L4 LN2 ltac:(lia)) as (st4 & C1 & C2 & C3);
    [unfold MAX_PARTITIONS; lia|exact H57|].
  rewrite C1. cbn [obind]. exists st4. rewrite B2, A2, F2 in C2 |- *. rewrite Z.mul_0_l, Z.add_0_r. cbn [app]. split; [reflexivity|]. split; assumption.
Qed.
Print Assumptions C35_open.

(** The partitions found satisfy [part_ok] unless they have one sector only; the end is recorded
    one sector early. *)
Theorem C35_open_parts : forall d n a p, bytes d -> In p (gpt_parts d a n) ->
  exists first last, p = mkPart ((first * SECTOR) mod U64) ((last * SECTOR - 1) mod U64) (g_name p) /\ length (g_name p) = 36%nat /\
    0 <= first <= last /\ (first < last -> last < 2 ^ 48 -> part_ok p /\ g_start p = first * SECTOR /\ g_end p = last * SECTOR - 1).
Proof.
  induction n as [|n IH]; intros a p HB H; [destruct H|]. cbn [gpt_parts] in H. set (first := le_disk d (a + 32) 8) in *. set (last := le_disk d (a + 40) 8) in *.
  assert (LN : forall a n, 0 <= le_disk d a n).
  { clear -HB. intros a n. unfold le_disk. pose proof (rdl_bytes n d a HB) as B. remember (rdl d a n) as l. clear Heql HB. induction B as [|b l Hb Hl IH]; cbn [le_val]; [lia|]. unfold is_byte in Hb. lia. }
  destruct ((_ && _) || (last <? first)) eqn:E; [destruct H|]. apply orb_false_elim in E as (_ & E). apply Z.ltb_ge in E. cbn [In] in H. destruct H as [<-|H]; [|exact (IH _ _ HB H)].
  exists first, last. cbn [g_name g_start g_end]. split; [reflexivity|]. split; [reflexivity|]. split; [split; [apply LN|exact E]|].
  intros HF H48. assert (F0 : 0 <= first) by apply LN.
  assert (E1 : (first * SECTOR) mod U64 = first * SECTOR) by (apply Z.mod_small; unfold SECTOR, U64; lia). assert (E2 : (last * SECTOR - 1) mod U64 = last * SECTOR - 1) by (apply Z.mod_small; unfold SECTOR, U64; lia).
  unfold part_ok. cbn [g_start g_end]. rewrite E1, E2. split; [|split; reflexivity].
  split; [apply Z.mod_mul; unfold SECTOR; lia|]. split; [replace (last * SECTOR - 1 + 1) with (last * SECTOR) by ring; apply Z.mod_mul; unfold SECTOR; lia|]. split; [unfold SECTOR in *; lia|unfold SECTOR, U64 in *; lia].
Qed.
Print Assumptions C35_open_parts.

(** ** Labels *)

Lemma name_eq_ok : forall label name i, (i + length label <= 36)%nat -> length name = 36%nat -> Forall (fun ch => 0 <= ch < 128) label ->
  name_eq name i label = Val true /\ (sub name i (length label) = label /\ ((i + length label)%nat = 36%nat \/ nth (i + length label) name 0 = 0)) \/
  name_eq name i label = Val false /\ ~ (sub name i (length label) = label /\ ((i + length label)%nat = 36%nat \/ nth (i + length label) name 0 = 0)).
Proof.
  induction label as [|ch r IH]; intros name i Hi HN HF; cbn [name_eq length].
  - rewrite Nat.add_0_r in *. destruct (Nat.ltb_spec i 36) as [L|L]; cbn [andb].
    + destruct (Z.eqb_spec (nth i name 0) 0) as [E|E]; cbn [negb]; [left|right]; split; auto. intros (_ & [K|K]); [lia|contradiction].
    + left. split; [reflexivity|]. split; [reflexivity|]. left. cbn [length] in Hi. lia.
  - inversion HF as [|? ? HC HR]; subst. cbn [length] in Hi. destruct (rd_lt name i ltac:(lia)) as (u & EU). rewrite EU. cbn [obind].
    destruct (Z.leb_spec 128 ch); [lia|].
    assert (SU : forall m, sub name i (S m) = u :: sub name (S i) m).
    { intro m. unfold sub. unfold rd in EU. destruct (nth_error name i) eqn:EN; [|discriminate]. apply val_inj in EU. subst. clear -EN. revert i EN. induction name as [|y name IHn]; intros [|i] EN; try discriminate.
      - cbn in EN. injection EN as ->. reflexivity.
      - cbn [skipn]. cbn [nth_error] in EN. exact (IHn i EN). }
    rewrite SU. destruct (Z.eqb_spec u ch) as [->|N]; cbn [negb].
    + destruct (IH name (S i) ltac:(lia) HN HR) as [(V & K1 & K2)|(V & K)]; [left|right]; (split; [exact V|]).
      * split; [rewrite K1; reflexivity|]. replace (i + S (length r))%nat with (S i + length r)%nat by lia. exact K2.
      * intros (K1 & K2). apply K. injection K1 as K1. split; [exact K1|]. replace (S i + length r)%nat with (i + S (length r))%nat by lia. exact K2.
    + right. split; [reflexivity|]. intros (K & _). injection K as K _. contradiction.
Qed.

(** The label search returns the first partition of that name, -1 if there is none, and stays
    inside the names, unless a name starts with a byte order mark. *)
Theorem C35_label : forall dr drv label, 0 <= drv < MAX_DRIVES -> d_open dr = true -> (length label <= 36)%nat -> Forall (fun ch => 0 <= ch < 128) label ->
  Forall (fun p => length (g_name p) = 36%nat /\ nth 0 (g_name p) 0 <> 0xFEFF) (d_parts dr) ->
  exists r, find_partition_by_label dr drv label = Val r /\
    (r = -1 /\ Forall (fun p => ~ named p label) (d_parts dr) \/
     exists p, 0 <= r /\ nth_error (d_parts dr) (Z.to_nat r) = Some p /\ named p label /\ Forall (fun q => ~ named q label) (firstn (Z.to_nat r) (d_parts dr))).
Proof.
  intros dr drv label HD HO HL HA HF. unfold find_partition_by_label. destruct (Z.ltb_spec drv 0); [lia|]. destruct (Z.ltb_spec MAX_DRIVES drv); [lia|]. cbn [orb].
  destruct (Z.leb_spec MAX_DRIVES drv); [lia|]. rewrite HO. cbn [negb].
  assert (G : forall ps i, 0 <= i -> Forall (fun p => length (g_name p) = 36%nat /\ nth 0 (g_name p) 0 <> 0xFEFF) ps ->
    exists r, find_label ps i label = Val r /\ (r = -1 /\ Forall (fun p => ~ named p label) ps \/
      exists p, i <= r /\ nth_error ps (Z.to_nat (r - i)) = Some p /\ named p label /\ Forall (fun q => ~ named q label) (firstn (Z.to_nat (r - i)) ps))).
  { induction ps as [|p ps IH]; intros i Hi HX; cbn [find_label]; [exists (-1); auto|]. inversion HX as [|? ? (P1 & P2) P3]; subst.
    assert (U : (u16_ascii_eq (g_name p) label = Val true /\ named p label) \/ (u16_ascii_eq (g_name p) label = Val false /\ ~ named p label)).
    { unfold u16_ascii_eq, zlen. destruct (Z.ltb_spec 36 (Z.of_nat (length label))); [lia|]. destruct (rd_lt (g_name p) 0 ltac:(lia)) as (u & EU). rewrite EU. cbn [obind].
      assert (u = nth 0 (g_name p) 0). { unfold rd in EU. destruct (g_name p); [discriminate|]. cbn in *. apply val_inj in EU. congruence. }
      subst u. destruct (Z.eqb_spec (nth 0 (g_name p) 0) 0xFEFF); [contradiction|]. exact (name_eq_ok label (g_name p) 0 ltac:(lia) P1 HA). }
    destruct U as [(-> & N)|(-> & N)]; cbn [obind].
    - exists i. split; [reflexivity|]. right. exists p. rewrite Z.sub_diag. split; [lia|]. split; [reflexivity|]. split; [exact N|constructor].
    - destruct (IH (i + 1) ltac:(lia) P3) as (r & -> & [(K1 & K2)|(q & K1 & K2 & K3 & K4)]); exists r; (split; [reflexivity|]).
      + left. split; [exact K1|]. constructor; assumption.
      + right. exists q. replace (Z.to_nat (r - i)) with (S (Z.to_nat (r - (i + 1)))) by lia. cbn [nth_error firstn]. split; [lia|]. split; [exact K2|]. split; [exact K3|]. constructor; assumption. }
  destruct (G (d_parts dr) 0 ltac:(lia) HF) as (r & V & K). exists r. split; [exact V|]. rewrite Z.sub_0_r in K. exact K.
Qed.
Print Assumptions C35_label.

(** ** Histories *)

Lemma store_ext' : forall d e a l, (forall y, d y = e y) -> forall x, store d a l x = store e a l x.
Proof. intros d e a l H x. apply store_ext, H. Qed.
Lemma array_run_ext : forall dr ops d e, (forall x, d x = e x) -> array_run dr ops d = array_run dr ops e.
Proof.
  intros dr ops. induction ops as [|[k off sz buf|k off data] r IH]; intros d e H; cbn [array_run]; [reflexivity| |]; destruct (nth_error (d_parts dr) (Z.to_nat k)); try reflexivity.
  - rewrite (IH d e H). rewrite (rdl_ext _ d e (g_start g + off) (g_start g + off)) by (intros; apply H). reflexivity.
  - rewrite (IH _ _ (store_ext' d e _ _ H)). reflexivity.
Qed.

(** As long as no write covers whole sectors exactly, every history of reads and writes behaves
    as on an array of bytes: each read returns what was last written. *)
Theorem C39_partial_sectors : forall h dr drv ops st, reliable h -> drive_ok h drv -> coherent st ->
  Forall (op_ok dr) ops -> Forall (partial_write dr) ops ->
  disk_run h dr drv ops st = Val (array_run dr ops (a_disk st)).
Proof.
  intros h dr drv ops. induction ops as [|o ops IH]; intros st R HD HC HO HP; [reflexivity|]. inversion HO as [|? ? O1 O2]; subst. inversion HP as [|? ? P1 P2]; subst.
  destruct o as [k off sz buf|k off data]; cbn [disk_run array_run op_ok] in *.
  - destruct O1 as (p & I & PO & E & Ho & Hs & HA & HB). pose proof I as (I1 & I2 & I3). rewrite I3.
    destruct (C35_read h st dr drv k p off sz buf R HC HD I PO ltac:(lia) Ho Hs ltac:(lia) HB) as (st' & A1 & _ & A2 & A3). rewrite A1. cbn [obind].
    rewrite (IH st' R HD A3 O2 P2). cbn [obind]. rewrite A2. reflexivity.
  - destruct O1 as (p & I & PO & E & Ho & HA). pose proof I as (I1 & I2 & I3). rewrite I3. pose proof (zlen_nonneg data) as Z0.
    destruct (C35_write h st dr drv k p off (zlen data) data R HC HD I PO E Ho ltac:(unfold U64; lia) ltac:(unfold avail; lia) ltac:(unfold avail; lia)) as (st' & A1 & A2 & A3).
    rewrite A1. cbn [obind].
    assert (NS : ~ stale st (g_start p + off) (avail p off (zlen data))).
    { intros (S1 & S2 & S3). destruct PO as (M1 & _). cbn [partial_write] in P1. specialize (P1 p I3). destruct P1 as [P1|[P1|P1]]; [|contradiction|rewrite P1 in S3; lia].
      apply P1. rewrite Z.add_mod, M1, Z.add_0_l, Z.mod_mod in S1 by (unfold SECTOR; lia). exact S1. }
    rewrite (IH st' R HD (A3 NS) O2 P2). cbn [obind]. rewrite (array_run_ext dr ops _ _ A2). reflexivity.
Qed.
Print Assumptions C39_partial_sectors.

Lemma whole_read : forall h st drv start size buf, reliable h -> drive_ok h drv -> start mod SECTOR = 0 -> size mod SECTOR = 0 ->
  0 <= start -> 0 <= size <= 2 ^ 22 -> start + size <= 2 ^ 57 -> size <= zlen buf ->
  exists st', ata_read h st drv start size buf = Val (size, st', put (rdl (a_disk st) start (Z.to_nat size)) buf) /\ a_disk st' = a_disk st.
Proof.
  intros h st drv start size buf R (D1 & D2) M1 M2 H0 Hs He Hb. unfold ata_read. destruct (Z.ltb_spec drv 0); [lia|]. destruct (Z.leb_spec MAX_DRIVES drv); [lia|]. cbn [orb].
  destruct (Z.ltb_spec (last_drive h) drv); [lia|]. pose proof (Z.div_mod start SECTOR ltac:(unfold SECTOR; lia)) as DM. rewrite M1 in DM. replace (start - start / SECTOR * SECTOR) with 0 by lia.
  change (0 <? 0) with false. cbv iota zeta. cbn [obind negb]. rewrite Z.sub_0_r. pose proof (Z.div_mod size SECTOR ltac:(unfold SECTOR; lia)) as DS. rewrite M2 in DS.
  set (c := size / SECTOR) in *. set (s := start / SECTOR) in *. replace (size - c * SECTOR) with 0 by lia. change (0 <? 0) with false. cbv iota.
  assert (C0 : 0 <= c) by (unfold c; apply Z.div_pos; unfold SECTOR; lia).
  destruct (Z.ltb_spec 0 c) as [L|L].
  - rewrite read_sector_ok by (auto; unfold SECTOR in *; lia). cbn [obind negb]. exists (bump st). replace (0 + c * SECTOR) with size by lia. split; [|reflexivity].
    change (splice buf (Z.to_nat 0)) with (splice (put [] buf) (length (@nil Z))). rewrite splice_put. cbn [app]. replace (s * SECTOR) with start by lia. replace (c * SECTOR) with size by lia. reflexivity.
  - cbn [obind negb]. exists st. assert (c = 0) as EC by lia. rewrite EC in *. replace size with 0 by lia. split; reflexivity.
Qed.

Lemma whole_write : forall h st drv start size buf, reliable h -> drive_ok h drv -> start mod SECTOR = 0 -> size mod SECTOR = 0 ->
  0 <= start -> 0 <= size <= 2 ^ 17 -> start + size <= 2 ^ 33 -> size <= zlen buf ->
  exists st', ata_write h st drv start size buf = Val (size, st') /\ (forall x, a_disk st' x = store (a_disk st) start (firstn (Z.to_nat size) buf) x).
Proof.
  intros h st drv start size buf R (D1 & D2) M1 M2 H0 Hs He Hb. unfold ata_write. destruct (Z.ltb_spec drv 0); [lia|]. destruct (Z.leb_spec MAX_DRIVES drv); [lia|].
  destruct (Z.ltb_spec (last_drive h) drv); [lia|]. destruct (Z.ltb_spec (zlen buf) size); [lia|]. cbn [orb].
  destruct (Z.eqb_spec size 0) as [->|N]; [exists st; split; [reflexivity|]; intro x; symmetry; apply store_nil|].
  pose proof (Z.div_mod start SECTOR ltac:(unfold SECTOR; lia)) as DM. rewrite M1 in DM. replace (start - start / SECTOR * SECTOR) with 0 by lia.
  change (0 <? 0) with false. cbv iota zeta. cbn [obind negb]. rewrite Z.sub_0_r. pose proof (Z.div_mod size SECTOR ltac:(unfold SECTOR; lia)) as DS. rewrite M2 in DS.
  set (c := size / SECTOR) in *. set (s := start / SECTOR) in *. replace (size - c * SECTOR) with 0 by lia. change (0 <? 0) with false. cbv iota.
  assert (C0 : 0 < c) by (unfold SECTOR in *; lia). destruct (Z.ltb_spec 0 c) as [_|]; [|lia].
  rewrite write_sector_ok by (auto; unfold SECTOR, zlen in *; cbn [skipn Z.to_nat]; lia). cbn [obind negb]. eexists. replace (0 + c * SECTOR) with size by lia. split; [reflexivity|]. cbn [a_disk].
  intro x. unfold store. replace (s * SECTOR) with start by lia. replace (c * SECTOR) with size by lia.
  assert (FL : zlen (firstn (Z.to_nat size) buf) = size) by (unfold zlen in *; rewrite firstn_length; lia). rewrite FL.
  destruct (inr start size x) eqn:E; [|reflexivity]. apply inr_true in E. cbn [Z.to_nat skipn]. rewrite nth_firstn_lt' by lia. reflexivity.
Qed.

(** The same for histories of accesses to whole sectors. *)
Theorem C39_whole_sectors : forall h dr drv ops st, reliable h -> drive_ok h drv ->
  Forall (op_ok dr) ops -> Forall (whole_sectors dr) ops ->
  disk_run h dr drv ops st = Val (array_run dr ops (a_disk st)).
Proof.
  intros h dr drv ops. induction ops as [|o ops IH]; intros st R HD HO HP; [reflexivity|]. inversion HO as [|? ? O1 O2]; subst. inversion HP as [|? ? P1 P2]; subst.
  destruct o as [k off sz buf|k off data]; cbn [disk_run array_run op_ok whole_sectors] in *.
  - destruct O1 as (p & I & PO & E & Ho & Hs & HA & HB). pose proof I as (I1 & I2 & I3). rewrite I3. destruct P1 as (W1 & W2 & W3). specialize (W3 p I3).
    unfold disk_read. rewrite (open_ok h dr drv k p HD I). cbn [obind]. destruct (len_cases p off sz PO Ho ltac:(lia)) as (E1 & E2). rewrite E1, E2. rewrite W3 in *.
    rewrite to_int_small by (change (2 ^ 31) with (2 ^ 17 * 16384); lia). destruct (Z.ltb_spec sz 0); [lia|]. destruct PO as (M1 & _ & HE & _). unfold avail in W3.
    assert (B1 : 0 <= g_start p + off) by (clear -HE Ho; lia). assert (B2 : 0 <= sz <= 2 ^ 22) by (clear -HA Hs; lia). assert (B3 : g_start p + off + sz <= 2 ^ 57) by (clear -E W3 Ho; lia).
    assert (B4 : (g_start p + off) mod SECTOR = 0) by (rewrite Z.add_mod, M1, W1 by (unfold SECTOR; clear; lia); reflexivity). assert (B5 : sz <= zlen buf) by (clear -HB; lia).
    destruct (whole_read h st drv (g_start p + off) sz buf R HD B4 W2 B1 B2 B3 B5) as (st' & A1 & A2).
    rewrite A1. cbn [obind]. rewrite (IH st' R HD O2 P2). cbn [obind]. rewrite A2. reflexivity.
  - destruct O1 as (p & I & PO & E & Ho & HA). pose proof I as (I1 & I2 & I3). rewrite I3. destruct P1 as (W1 & W2 & W3). specialize (W3 p I3). pose proof (zlen_nonneg data) as Z0.
    unfold disk_write. rewrite (open_ok h dr drv k p HD I). cbn [obind]. destruct (len_cases p off (zlen data) PO Ho ltac:(lia)) as (E1 & E2). rewrite E1, E2. rewrite W3.
    rewrite to_int_small by (change (2 ^ 31) with (2 ^ 17 * 16384); lia). destruct (Z.ltb_spec (zlen data) 0); [lia|]. destruct PO as (M1 & _ & HE & _). unfold avail in W3.
    assert (B1 : 0 <= g_start p + off) by (clear -HE Ho; lia). assert (B2 : 0 <= zlen data <= 2 ^ 17) by (clear -HA Z0; lia). assert (B3 : g_start p + off + zlen data <= 2 ^ 33) by (clear -E W3 Ho; lia).
    assert (B4 : (g_start p + off) mod SECTOR = 0) by (rewrite Z.add_mod, M1, W1 by (unfold SECTOR; clear; lia); reflexivity).
    destruct (whole_write h st drv (g_start p + off) (zlen data) data R HD B4 W2 B1 B2 B3 (Z.le_refl _)) as (st' & A1 & A2).
    rewrite A1. cbn [obind]. rewrite (IH st' R HD O2 P2). cbn [obind]. rewrite (array_run_ext dr ops _ _ A2). reflexivity.
Qed.
Print Assumptions C39_whole_sectors.

(** ** Examples *)

Definition demo_hba : hba := {| fate := fun _ => CDone; last_drive := 0 |}.
Definition demo_name : list Z := [98; 111; 111; 116] ++ repeat 0 32.
(** A disk with two partitions, sectors 40 to 49 and 50 to 50. *)
Definition gpt_ent (first last : Z) : list Z := repeat 7 16 ++ repeat 8 16 ++ le_bytes 8 first ++ le_bytes 8 last ++ repeat 0 8 ++ flat_map (le_bytes 2) demo_name.
Definition demo_mbr : list Z := repeat 0 446 ++ repeat 0 16 ++ ([0; 0; 0; 0; 0xEE; 0; 0; 0] ++ le_bytes 4 1 ++ le_bytes 4 100) ++ repeat 0 32 ++ [0x55; 0xAA].
Definition demo_ptable (n array_sz : Z) : list Z := le_bytes 8 GPT_SIGNATURE ++ repeat 0 64 ++ le_bytes 8 2 ++ le_bytes 4 n ++ le_bytes 4 array_sz ++ repeat 0 424.
Definition demo_bytes (n array_sz : Z) : list Z := demo_mbr ++ demo_ptable n array_sz ++ gpt_ent 40 49 ++ gpt_ent 50 50 ++ repeat 0 256.
Definition disk_of (l : list Z) : flash := fun x => if inr 0 (zlen l) x then nth (Z.to_nat x) l 0 else x mod 251.
Definition start_st (l : list Z) : ata := mkAta (disk_of l) CACHE_INVALID (repeat 0 512) 0.
Definition demo_parts : list gpart := [mkPart 20480 25087 demo_name; mkPart 25600 25599 demo_name].
Definition demo_drive : drive := mkDrive true demo_parts.
Definition closed : drive := mkDrive false [].
Definition locals : list Z * list Z * list Z := (repeat 0 16, repeat 0 2, repeat 0 512).

Example C35_open_run : match disk_open demo_hba (start_st (demo_bytes 128 128)) closed 0 locals (fun _ => repeat 0 128) with Val (n, _, dr) => Some (n, dr) | _ => None end = Some (2, demo_drive).
Proof. vm_compute. reflexivity. Qed.
Lemma disk_of_bytes : forall l, forallb (fun b => (0 <=? b) && (b <? 256)) l = true -> bytes (disk_of l).
Proof.
  intros l H x. unfold disk_of. destruct (inr 0 (zlen l) x) eqn:E.
  - apply inr_true in E. rewrite forallb_forall in H. specialize (H (nth (Z.to_nat x) l 0)). apply andb_prop in H; [|apply nth_In; unfold zlen in E; lia]. destruct H as (H1 & H2). apply Z.leb_le in H1. apply Z.ltb_lt in H2. split; assumption.
  - pose proof (Z.mod_pos_bound x 251 ltac:(lia)). unfold is_byte. lia.
Qed.
Lemma start_coherent : forall l, coherent (start_st l).
Proof. intro l. split; [reflexivity|]. left. reflexivity. Qed.
Example C35_open_hyps : reliable demo_hba /\ coherent (start_st (demo_bytes 128 128)) /\ drive_ok demo_hba 0 /\ bytes (a_disk (start_st (demo_bytes 128 128))) /\
  gpt_header (a_disk (start_st (demo_bytes 128 128))) 512 /\ le_disk (a_disk (start_st (demo_bytes 128 128))) (512 + 84) 4 = 128 /\
  le_disk (a_disk (start_st (demo_bytes 128 128))) (512 + 72) 8 * SECTOR + 2048 <= 2 ^ 57.
Proof.
  split; [intro k; reflexivity|]. split; [apply start_coherent|]. split; [unfold drive_ok, MAX_DRIVES; cbn; lia|]. split; [apply disk_of_bytes; vm_compute; reflexivity|].
  split; [|split; [vm_compute; reflexivity|vm_compute; discriminate]].
  exists 1. split; [|split; [vm_compute; reflexivity|split; [vm_compute; reflexivity|split; vm_compute; reflexivity]]].
  split; [lia|]. split; [vm_compute; reflexivity|]. intros j Hj. assert (j = 0) as -> by lia. vm_compute. discriminate.
Qed.
Example C35_hyps : is_part demo_drive 0 (mkPart 20480 25087 demo_name) /\ part_ok (mkPart 20480 25087 demo_name).
Proof. split; [split; [reflexivity|split; [unfold MAX_PARTITIONS; lia|reflexivity]]|]. unfold part_ok, U64. cbn [g_start g_end]. split; [reflexivity|]. split; [reflexivity|]. lia. Qed.
Definition demo_ops : list dop := [DWrite 0 100 [1; 2; 3]; DRead 0 98 8 (repeat 0 8); DWrite 0 511 (repeat 9 700); DRead 0 500 20 (repeat 0 20); DRead 0 4600 100 (repeat 0 100)].
Definition demo_sectors : list dop := [DRead 0 0 1024 (repeat 0 1024); DWrite 0 512 (repeat 5 1024); DRead 0 1024 512 (repeat 0 512)].
Lemma demo_rd : forall off sz buf, 0 <= off <= 4607 -> 0 <= sz < U64 -> zlen buf = sz -> op_ok demo_drive (DRead 0 off sz buf).
Proof.
  intros off sz buf Ho Hs HB. exists (mkPart 20480 25087 demo_name). split; [exact (proj1 C35_hyps)|]. split; [exact (proj2 C35_hyps)|]. unfold avail. cbn [g_start g_end].
  split; [lia|]. split; [lia|]. split; [exact Hs|]. rewrite HB. lia.
Qed.
Lemma demo_wr : forall off data, 0 <= off <= 4607 -> zlen data <= 2 ^ 17 -> op_ok demo_drive (DWrite 0 off data).
Proof.
  intros off data Ho HB. exists (mkPart 20480 25087 demo_name). split; [exact (proj1 C35_hyps)|]. split; [exact (proj2 C35_hyps)|]. cbn [g_start g_end]. lia.
Qed.
Example C39_hyps : Forall (op_ok demo_drive) demo_ops /\ Forall (partial_write demo_drive) demo_ops /\ Forall (op_ok demo_drive) demo_sectors /\ Forall (whole_sectors demo_drive) demo_sectors.
Proof.
  assert (NE : forall p, nth_error (d_parts demo_drive) (Z.to_nat 0) = Some p -> p = mkPart 20480 25087 demo_name) by (intros p E; cbn in E; injection E as <-; reflexivity).
  split; [|split; [|split]].
  - repeat apply Forall_cons; try apply Forall_nil; first [apply demo_rd; [lia|unfold U64; lia|reflexivity]|apply demo_wr; [lia|vm_compute; discriminate]].
  - repeat apply Forall_cons; try apply Forall_nil; cbn [partial_write]; try exact I; intros p E; left; vm_compute; discriminate.
  - repeat apply Forall_cons; try apply Forall_nil; first [apply demo_rd; [lia|unfold U64; lia|reflexivity]|apply demo_wr; [lia|vm_compute; discriminate]].
  - repeat apply Forall_cons; try apply Forall_nil; cbn [whole_sectors]; (split; [reflexivity|split; [reflexivity|]]); intros p E; rewrite (NE p E); reflexivity.
Qed.
Example C39_run : match disk_run demo_hba demo_drive 0 demo_ops (start_st []) with Val l => map fst l | _ => [] end = [3; 8; 700; 20; 7].
Proof. vm_compute. reflexivity. Qed.

(** ** Limits *)

(** A write that replaces a cached sector leaves the old contents in the cache: the next
    partial read returns them, and the next partial write puts them back on the disk. *)
Theorem C39_refuted : exists h dr drv ops st, reliable h /\ drive_ok h drv /\ coherent st /\ Forall (op_ok dr) ops /\
  disk_run h dr drv ops st <> Val (array_run dr ops (a_disk st)).
Proof.
  exists demo_hba, demo_drive, 0, [DRead 0 0 4 (repeat 0 4); DWrite 0 0 (repeat 7 512); DRead 0 0 4 (repeat 0 4)], (start_st []).
  split; [intro k; reflexivity|]. split; [unfold drive_ok, MAX_DRIVES; cbn; lia|]. split; [apply start_coherent|]. split.
  - apply Forall_cons; [apply demo_rd; [lia|unfold U64; lia|reflexivity]|]. apply Forall_cons; [apply demo_wr; [lia|vm_compute; discriminate]|]. apply Forall_cons; [apply demo_rd; [lia|unfold U64; lia|reflexivity]|]. apply Forall_nil.
  - intro H. assert (A : match disk_run demo_hba demo_drive 0 [DRead 0 0 4 (repeat 0 4); DWrite 0 0 (repeat 7 512); DRead 0 0 4 (repeat 0 4)] (start_st []) with Val l => nth 0 (snd (nth 2 l (0, []))) 0 | _ => 0 end = 149) by (vm_compute; reflexivity).
    rewrite H in A. vm_compute in A. discriminate A.
Qed.
Print Assumptions C39_refuted.
Theorem C39_lost_write_refuted : exists h dr drv st st1 st2 st3 b, reliable h /\ coherent st /\
  disk_read h st dr drv 0 0 4 (repeat 0 4) = Val (4, st1, b) /\
  disk_write h st1 dr drv 0 0 512 (repeat 7 512) = Val (512, st2) /\ disk_write h st2 dr drv 0 100 1 [1] = Val (1, st3) /\
  a_disk st2 20480 = 7 /\ a_disk st3 20480 = a_disk st 20480 /\ a_disk st 20480 <> 7.
Proof.
  exists demo_hba, demo_drive, 0, (start_st []).
  destruct (C35_read demo_hba (start_st []) demo_drive 0 0 (mkPart 20480 25087 demo_name) 0 4 (repeat 0 4)) as (st1 & A1 & _).
  { intro k; reflexivity. } { apply start_coherent. } { unfold drive_ok, MAX_DRIVES; cbn; lia. } { exact (proj1 C35_hyps). } { exact (proj2 C35_hyps). }
  { cbn; lia. } { cbn; lia. } { unfold U64; lia. } { vm_compute; discriminate. } { vm_compute; discriminate. }
  change (avail (mkPart 20480 25087 demo_name) 0 4) with 4 in A1.
  assert (T : match disk_read demo_hba (start_st []) demo_drive 0 0 0 4 (repeat 0 4) with Val (_, st1, _) =>
      match disk_write demo_hba st1 demo_drive 0 0 0 512 (repeat 7 512) with Val (n2, st2) =>
      match disk_write demo_hba st2 demo_drive 0 0 100 1 [1] with Val (n3, st3) => (n2, n3, a_disk st2 20480, a_disk st3 20480) | _ => (0, 0, 0, 0) end | _ => (0, 0, 0, 0) end | _ => (0, 0, 0, 0) end = (512, 1, 7, 149)) by (vm_compute; reflexivity).
  rewrite A1 in T. destruct (disk_write demo_hba st1 demo_drive 0 0 0 512 (repeat 7 512)) as [(n2, st2)| |] eqn:E2; try discriminate T.
  destruct (disk_write demo_hba st2 demo_drive 0 0 100 1 [1]) as [(n3, st3)| |] eqn:E3; try discriminate T.
  assert (T1 := f_equal (fun q => fst (fst (fst q))) T). assert (T2 := f_equal (fun q => snd (fst (fst q))) T). assert (T3 := f_equal (fun q => snd (fst q)) T). assert (T4 := f_equal snd T). cbn [fst snd] in T1, T2, T3, T4. subst n2 n3.
  eexists st1, st2, st3, _. split; [intro k; reflexivity|]. split; [apply start_coherent|]. split; [exact A1|]. split; [exact E2|]. split; [exact E3|]. split; [exact T3|]. split; [rewrite T4; vm_compute; reflexivity|]. vm_compute. discriminate.
Qed.
Print Assumptions C39_lost_write_refuted.

(** A command that the drive fails, or for which there is no slot at the end of a request,
    is reported as success. *)
Theorem C39_failure_refuted : exists h dr drv st buf st' b, drive_ok h drv /\ coherent st /\
  disk_read h st dr drv 0 0 4 buf = Val (4, st', b) /\ b <> rdl (a_disk st) 20480 4.
Proof.
  exists {| fate := fun _ => CNoSlot; last_drive := 0 |}, demo_drive, 0, (start_st []), (repeat 0 4).
  eexists _, _. split; [unfold drive_ok, MAX_DRIVES; cbn; lia|]. split; [apply start_coherent|]. split; [vm_compute; reflexivity|]. vm_compute. discriminate.
Qed.
Print Assumptions C39_failure_refuted.

(** But a read that fails for want of a slot does not spoil later reads: when the next command
    works again, the bytes read are those of the disk. *)
Theorem C39_after_failed_read : forall h h' st dr drv k p off sz buf r st1 b off' sz' buf', (forall n, fate h n <> CError) ->
  reliable h' -> coherent st -> drive_ok h' drv -> is_part dr k p -> part_ok p -> g_end p < 2 ^ 57 ->
  0 <= off <= g_end p - g_start p -> 0 <= sz < U64 -> avail p off sz <= 2 ^ 22 ->
  0 <= off' <= g_end p - g_start p -> 0 <= sz' < U64 -> avail p off' sz' <= 2 ^ 22 -> avail p off' sz' <= zlen buf' ->
  disk_read h st dr drv k off sz buf = Val (r, st1, b) ->
  exists st2, disk_read h' st1 dr drv k off' sz' buf' =
    Val (avail p off' sz', st2, put (rdl (a_disk st) (g_start p + off') (Z.to_nat (avail p off' sz'))) buf').
Proof.
  intros h h' st dr drv k p off sz buf r st1 b off' sz' buf' R R' HC HD HI HP HE Ho Hs HA Ho' Hs' HA' HB' H.
  assert (C1 : coherent st1).
  { unfold disk_read in H. rewrite (open_ok h' dr drv k p HD HI) in H. cbn [obind] in H.
    destruct (len_cases p off sz HP Ho ltac:(lia)) as (E1 & E2). rewrite E1, E2 in H.
    assert (A0 : 0 <= avail p off sz /\ g_start p + off + avail p off sz <= g_end p) by (unfold avail in *; lia).
    rewrite to_int_small in H by (change (2 ^ 31) with (2 ^ 22 * 512); lia). destruct (Z.ltb_spec (avail p off sz) 0); [lia|].
    destruct HP as (_ & _ & H1 & _). eapply ata_read_keeps; [exact R|exact HC| | | |exact H]; lia. }
  destruct (C35_read h' st1 dr drv k p off' sz' buf' R' C1 HD HI HP HE Ho' Hs' HA' HB') as (st2 & A & _).
  exists st2. rewrite A, (C35_read_only _ _ _ _ _ _ _ _ _ _ _ H). reflexivity.
Qed.
Print Assumptions C39_after_failed_read.

Example C39_failed_hyps : exists h st r st1 b, (forall n, fate h n <> CError) /\ coherent st /\
  disk_read h st demo_drive 0 0 3 4 (repeat 0 4) = Val (r, st1, b) /\ r = -1.
Proof.
  exists {| fate := fun _ => CNoSlot; last_drive := 0 |}, (start_st []). eexists _, _, _.
  split; [intros n; discriminate|]. split; [apply start_coherent|]. split; [vm_compute; reflexivity|reflexivity].
Qed.

(** Outcome of a write, as a test. *)
Definition writes (h : hba) (st : ata) (dr : drive) (k off sz : Z) (buf : list Z) (x : Z) : option (Z * Z) :=
  match disk_write h st dr 0 k off sz buf with Val (r, st') => Some (r, a_disk st' x) | _ => None end.
Lemma writes_ok : forall h st dr k off sz buf x r v, writes h st dr k off sz buf x = Some (r, v) -> exists st', disk_write h st dr 0 k off sz buf = Val (r, st') /\ a_disk st' x = v.
Proof.
  intros h st dr k off sz buf x r v H. unfold writes in H. destruct (disk_write h st dr 0 k off sz buf) as [(r', st')| |]; try discriminate. exists st'.
  assert (H1 := f_equal (fun o => match o with Some q => fst q | None => 0 end) H). assert (H2 := f_equal (fun o => match o with Some q => snd q | None => 0 end) H). cbn [fst snd] in H1, H2. subst. auto.
Qed.

(** An offset past the end of the partition passes the check (the difference wraps). *)
Theorem C35_offset_refuted : exists h st dr k p off sz buf r st' x, is_part dr k p /\ part_ok p /\ 0 <= off < U64 /\
  disk_write h st dr 0 k off sz buf = Val (r, st') /\ ~ (g_start p <= x <= g_end p) /\ a_disk st' x <> a_disk st x.
Proof.
  destruct (writes_ok demo_hba (start_st []) demo_drive 0 5000 1 [7] 25480 1 7) as (st' & W & V); [vm_compute; reflexivity|].
  exists demo_hba, (start_st []), demo_drive, 0, (mkPart 20480 25087 demo_name), 5000, 1, [7], 1, st', 25480.
  split; [exact (proj1 C35_hyps)|]. split; [exact (proj2 C35_hyps)|]. split; [unfold U64; lia|]. split; [exact W|]. split; [cbn; lia|]. rewrite V. vm_compute. discriminate.
Qed.
Print Assumptions C35_offset_refuted.

(** A partition of one sector is recorded as ending before it starts: every request passes. *)
Theorem C35_one_sector_refuted : exists h st dr k p buf r st' x, is_part dr k p /\ g_start p = 50 * SECTOR /\ g_end p = 50 * SECTOR - 1 /\
  disk_write h st dr 0 k 0 513 buf = Val (r, st') /\ ~ (50 * SECTOR <= x < 51 * SECTOR) /\ a_disk st' x <> a_disk st x.
Proof.
  destruct (writes_ok demo_hba (start_st []) demo_drive 1 0 513 (repeat 7 513) 26112 513 7) as (st' & W & V); [vm_compute; reflexivity|].
  exists demo_hba, (start_st []), demo_drive, 1, (mkPart 25600 25599 demo_name), (repeat 7 513), 513, st', 26112.
  split; [split; [reflexivity|split; [unfold MAX_PARTITIONS; lia|reflexivity]]|]. split; [reflexivity|]. split; [reflexivity|]. split; [exact W|]. split; [unfold SECTOR; lia|]. rewrite V. vm_compute. discriminate.
Qed.
Print Assumptions C35_one_sector_refuted.

(** The last sector of a partition is out of reach: a request for its ten sectors gets nine
    less one byte. *)
Theorem C35_last_sector_refuted : exists h st dr p, reliable h /\ coherent st /\ is_part dr 0 p /\ g_start p = 40 * SECTOR /\
  (exists l st0, disk_open h (start_st l) closed 0 locals (fun _ => repeat 0 128) = Val (2, st0, dr)) /\
  exists st' b, disk_read h st dr 0 0 0 (10 * SECTOR) (repeat 0 (Z.to_nat 5120)) = Val (9 * SECTOR - 1, st', b).
Proof.
  exists demo_hba, (start_st []), demo_drive, (mkPart 20480 25087 demo_name). split; [intro k; reflexivity|]. split; [apply start_coherent|]. split; [exact (proj1 C35_hyps)|]. split; [reflexivity|]. split.
  - exists (demo_bytes 128 128). destruct C35_open_hyps as (H1 & H2 & H3 & H4 & H5 & H6 & H7).
    destruct (C35_open demo_hba (start_st (demo_bytes 128 128)) closed 0 (repeat 0 16) (repeat 0 2) (repeat 0 512) (fun _ => repeat 0 128) 512 H1 H2 H3 H4 eq_refl eq_refl eq_refl (fun _ => eq_refl) H5 H6 H7) as (st' & A & _).
    exists st'. unfold locals. rewrite A. clear. assert (P : gpt_parts (a_disk (start_st (demo_bytes 128 128))) (le_disk (a_disk (start_st (demo_bytes 128 128))) (512 + 72) 8 * SECTOR)
       (Z.to_nat (Z.min (le_disk (a_disk (start_st (demo_bytes 128 128))) (512 + 80) 4) MAX_PARTITIONS)) = demo_parts) by (vm_compute; reflexivity). rewrite P. reflexivity.
  - destruct (C35_read demo_hba (start_st []) demo_drive 0 0 (mkPart 20480 25087 demo_name) 0 (10 * SECTOR) (repeat 0 (Z.to_nat 5120))) as (st1 & A1 & _).
    { intro k; reflexivity. } { apply start_coherent. } { unfold drive_ok, MAX_DRIVES; cbn; lia. } { exact (proj1 C35_hyps). } { exact (proj2 C35_hyps). }
    { cbn; lia. } { cbn; lia. } { unfold U64, SECTOR; lia. } { vm_compute; discriminate. } { vm_compute; discriminate. }
    change (avail (mkPart 20480 25087 demo_name) 0 (10 * SECTOR)) with (9 * SECTOR - 1) in A1. eexists _, _. exact A1.
Qed.
Print Assumptions C35_last_sector_refuted.

(** Writes use a command with 24 bits of sector number: one past 8 GiB lands elsewhere, here in
    the master boot record. *)
Definition high_part : gpart := mkPart (2 ^ 33) (2 ^ 33 + 5119) demo_name.
Theorem C35_high_write_refuted : exists h st dr p r st', reliable h /\ coherent st /\ is_part dr 0 p /\ part_ok p /\
  disk_write h st dr 0 0 0 512 (repeat 7 512) = Val (r, st') /\ g_start p > 0 /\ a_disk st' 0 <> a_disk st 0.
Proof.
  destruct (writes_ok demo_hba (start_st []) (mkDrive true [high_part]) 0 0 512 (repeat 7 512) 0 512 7) as (st' & W & V); [vm_compute; reflexivity|].
  exists demo_hba, (start_st []), (mkDrive true [high_part]), high_part, 512, st'. split; [intro k; reflexivity|]. split; [apply start_coherent|].
  split; [split; [reflexivity|split; [unfold MAX_PARTITIONS; lia|reflexivity]]|]. split; [unfold part_ok, U64; cbn [g_start g_end high_part]; split; [reflexivity|]; split; [reflexivity|]; lia|].
  split; [exact W|]. split; [reflexivity|]. rewrite V. vm_compute. discriminate.
Qed.
Print Assumptions C35_high_write_refuted.

(** A table whose entries are announced as longer than 128 bytes overruns the entry buffer. *)
Theorem C35_entry_size_refuted : exists h st, reliable h /\ coherent st /\ bytes (a_disk st) /\ disk_open h st closed 0 locals (fun _ => repeat 0 128) = UB.
Proof.
  exists demo_hba, (start_st (demo_bytes 128 129)). split; [intro k; reflexivity|]. split; [apply start_coherent|]. split; [apply disk_of_bytes; vm_compute; reflexivity|]. vm_compute. reflexivity.
Qed.
Print Assumptions C35_entry_size_refuted.

(** Drive number 4 passes the checks although there are 4 drives. *)
Theorem C35_drive_refuted : forall h st dr pte sig pt pa part off sz buf, 0 <= part <= MAX_PARTITIONS ->
  disk_open h st dr 4 (pte, sig, pt) pa = UB /\ disk_read h st dr 4 part off sz buf = UB /\ disk_write h st dr 4 part off sz buf = UB.
Proof.
  intros h st dr pte sig pt pa part off sz buf Hp. split; [reflexivity|]. unfold disk_read, disk_write, open_part. change ((4 <? 0) || (MAX_DRIVES <? 4)) with false. cbv iota.
  destruct (Z.ltb_spec part 0); [lia|]. destruct (Z.ltb_spec MAX_PARTITIONS part); [lia|]. split; reflexivity.
Qed.
Print Assumptions C35_drive_refuted.

(** A name with a byte order mark, compared with a label of 36 characters, is read past its end. *)
Theorem C35_label_refuted : exists dr label, length label = 36%nat /\ Forall (fun ch => 0 <= ch < 128) label /\ Forall (fun p => length (g_name p) = 36%nat) (d_parts dr) /\
  find_partition_by_label dr 0 label = UB.
Proof.
  exists (mkDrive true [mkPart 0 511 (0xFEFF :: repeat 97 35)]), (repeat 97 36). split; [reflexivity|]. split; [apply Forall_forall; intros x Hx; apply repeat_spec in Hx; subst; lia|].
  split; [apply Forall_cons; [reflexivity|apply Forall_nil]|]. vm_compute. reflexivity.
Qed.
Print Assumptions C35_label_refuted.
Example C35_label_hyps : Forall (fun p => length (g_name p) = 36%nat /\ nth 0 (g_name p) 0 <> 0xFEFF) (d_parts demo_drive) /\ find_partition_by_label demo_drive 0 [98; 111; 111; 116] = Val 0 /\ find_partition_by_label demo_drive 0 [98; 111; 111] = Val (-1).
Proof. split; [repeat (apply Forall_cons; [split; [reflexivity|vm_compute; discriminate]|]); apply Forall_nil|]. split; vm_compute; reflexivity. Qed.
