(** Lemmas about the serial flash drivers. *)
From Verif Require Import Base BaseLemmas Flash FlashLemmas SpiSpec SpiModel DualProofs.
Local Ltac Zify.zify_post_hook ::= idtac.

Lemma bits_mod : forall x n m, 0 <= n -> 0 <= m -> Z.shiftr (Z.land x (Z.shiftl (Z.ones n) m)) m = (x / 2 ^ m) mod 2 ^ n.
Proof.
  intros x n m Hn Hm. rewrite Z.shiftr_land, Z.shiftr_shiftl_l by lia. rewrite Z.sub_diag, Z.shiftl_0_r, Z.land_ones by lia.
  rewrite Z.shiftr_div_pow2 by lia. reflexivity.
Qed.

(** The address that three bytes carry. *)
Lemma addr3 : forall a, 0 <= a < 2 ^ 24 -> exists a2 a1 a0, write_address a = [a2; a1; a0] /\ a2 * 65536 + a1 * 256 + a0 = a.
Proof.
  intros a Ha. unfold write_address. eexists _, _, _. split; [reflexivity|].
  change 0xFF0000 with (Z.shiftl (Z.ones 8) 16). change 0xFF00 with (Z.shiftl (Z.ones 8) 8). change 0xFF with (Z.ones 8).
  rewrite !bits_mod, Z.land_ones by lia.
  change (2 ^ 8) with 256. change (2 ^ 16) with 65536. change (2 ^ 24) with 16777216 in Ha.
  pose proof (Z.div_mod a 256 ltac:(lia)) as E0. pose proof (Z.mod_pos_bound a 256 ltac:(lia)).
  pose proof (Z.div_mod (a / 256) 256 ltac:(lia)) as E1. pose proof (Z.mod_pos_bound (a / 256) 256 ltac:(lia)).
  rewrite Z.div_div in E1 by lia. change (256 * 256) with 65536 in E1.
  pose proof (Z.div_mod a 65536 ltac:(lia)). pose proof (Z.mod_pos_bound a 65536 ltac:(lia)).
  rewrite (Z.mod_small (a / 65536) 256) by lia. lia.
Qed.

(** Only the low 24 bits of an address are sent. *)
Lemma write_address_mod : forall a, write_address (a mod 2 ^ 24) = write_address a.
Proof.
  intro a. rewrite <- Z.land_ones by lia. unfold write_address. rewrite <- !Z.land_assoc. reflexivity.
Qed.

Lemma skipn_at : forall {A} (l : list A) i x, nth_error l i = Some x -> skipn i l = x :: skipn (S i) l.
Proof. induction l as [|y l IH]; intros [|i] x H; cbn in *; try discriminate; [congruence|]. apply IH, H. Qed.

Lemma nth_sub' : forall (l : list Z) j n i, (i < n)%nat -> nth i (sub l j n) 0 = nth (j + i) l 0.
Proof. intros l j n i H. unfold sub.
  rewrite <- (nth_firstn_lt (skipn j l) n i 0 H). revert j. induction l as [|y l IH]; intros [|j]; cbn [skipn plus]; try reflexivity.
  - destruct i; reflexivity.
  - apply IH.
Qed.

(** Programming in two steps. *)
Lemma write_split : forall f g a k n d x, 0 <= k -> 0 <= n ->
  (forall x, g x = write f a k d x) -> write g (a + k) n (fun i => d (k + i)) x = write f a (k + n) d x.
Proof.
  intros f g a k n d x Hk Hn H. unfold write in *. rewrite H.
  destruct (inr a (k + n) x) eqn:E; [apply inr_true in E|apply inr_false in E];
  (destruct (inr a k x) eqn:E1; [apply inr_true in E1|apply inr_false in E1]);
  (destruct (inr (a + k) n x) eqn:E2; [apply inr_true in E2|apply inr_false in E2]); try reflexivity; try lia.
  f_equal. f_equal. lia.
Qed.

Section Driver.
Context (c : spicfg) (lat : nat -> nat) (fuel : nat).
Context (OK : spi_ok c) (LAT : forall n, (lat n < fuel)%nat).

Lemma page_pos : 0 < PAGE c /\ PAGE c <= SECTOR c <= 2 ^ 24.
Proof using OK. clear LAT fuel lat.
  destruct OK as (p & s & -> & -> & Hp & Hs). split; [apply Z.pow_pos_nonneg; lia|].
  split; apply Z.pow_le_mono_r; lia.
Qed.
Lemma page_land : forall a, Z.land a (PAGE c - 1) = a mod PAGE c.
Proof using OK. clear LAT fuel lat.
  intro a. destruct OK as (p & s & -> & _ & Hp & _). rewrite <- Z.land_ones by lia. f_equal. rewrite Z.ones_equiv. lia.
Qed.
Lemma sector_land : forall a, Z.land a (Z.lnot (SECTOR c - 1)) = a - a mod SECTOR c.
Proof using OK. clear LAT fuel lat.
  intro a. destruct OK as (p & s & _ & -> & Hp & Hs).
  replace (2 ^ s - 1) with (Z.ones s) by (rewrite Z.ones_equiv; lia).
  rewrite <- Z.ldiff_land, Z.ldiff_ones_r by lia. rewrite Z.shiftr_div_pow2, Z.shiftl_mul_pow2 by lia.
  pose proof (Z.div_mod a (2 ^ s) ltac:(pose proof (Z.pow_pos_nonneg 2 s); lia)). lia.
Qed.
Lemma dvd24 : (PAGE c | SECTOR c) /\ (SECTOR c | 2 ^ 24).
Proof using OK. clear LAT fuel lat.
  destruct OK as (p & s & -> & -> & Hp & Hs). split.
  - exists (2 ^ (s - p)). rewrite <- Z.pow_add_r by lia. f_equal. lia.
  - exists (2 ^ (24 - s)). rewrite <- Z.pow_add_r by lia. f_equal. lia.
Qed.

(** Waiting: the chip with its operation finished. *)
Definition idle (ch : chip) : chip := mkChip (cells ch) (wel ch) 0 (ops ch).

Lemma read_status_eq : forall ch, read_status c lat ch = (tick ch, status ch).
Proof using. clear LAT OK. reflexivity. Qed.

Lemma status0 : forall ch, Z.testbit (status ch) 0 = (0 <? busy ch)%nat.
Proof using. clear LAT OK. intro ch. unfold status. destruct (0 <? busy ch)%nat, (wel ch); reflexivity. Qed.
Lemma status1 : forall ch, Z.testbit (status ch) 1 = wel ch.
Proof using. clear LAT OK. intro ch. unfold status. destruct (0 <? busy ch)%nat, (wel ch); reflexivity. Qed.

Lemma wait_n : forall n ch, (busy ch < n)%nat -> wait_busy_n c lat n ch = Val (idle ch).
Proof using. clear LAT OK.
  induction n as [|n IH]; intros ch H; [lia|]. cbn [wait_busy_n]. rewrite read_status_eq, status0.
  destruct (Nat.ltb_spec 0 (busy ch)) as [P|P].
  - rewrite IH by (cbn [tick busy]; lia). reflexivity.
  - unfold tick, idle. replace (busy ch) with 0%nat by lia. reflexivity.
Qed.
Lemma wait_ok : forall ch, (busy ch < fuel)%nat -> wait_busy c lat fuel ch = Val (idle ch).
Proof using. clear LAT OK. intros ch H. apply wait_n, H. Qed.

Lemma enable_ok : forall ch, busy ch = 0%nat -> (0 < fuel)%nat -> flash_write_enable c lat fuel ch = Val (set_wel (idle ch) true).
Proof using. clear LAT OK.
  intros ch B F. unfold flash_write_enable. destruct fuel as [|n]; [lia|]. cbn [flash_write_enable_n].
  assert (E : spi_cmd c lat ch WREN = set_wel ch true).
  { unfold spi_cmd, xact. cbn [length repeat Z.eqb Pos.eqb RDSR WREN]. rewrite B. reflexivity. }
  rewrite E, read_status_eq, status1. cbn [set_wel wel]. unfold tick, set_wel, idle. cbn [cells wel busy ops]. rewrite B. reflexivity.
Qed.

Lemma xact_prog : forall ch a d, busy ch = 0%nat -> wel ch = true -> 0 <= a < 2 ^ 24 -> d <> [] ->
  fst (xact c lat ch (BYTE_WRITE :: write_address a ++ d)) = after_op lat ch (program c (cells ch) a d).
Proof using. clear LAT OK.
  intros ch a d B W Ha D. destruct (addr3 a Ha) as (a2 & a1 & a0 & -> & E). unfold xact.
  cbn [app]. cbn [Z.eqb Pos.eqb RDSR WREN WRDI CHIP_ERASE SECTOR_ERASE BYTE_WRITE]. rewrite B, W, E. cbn [Nat.ltb Nat.leb andb].
  destruct d as [|b d]; [congruence|]. reflexivity.
Qed.
Lemma xact_erase : forall ch a, busy ch = 0%nat -> wel ch = true -> 0 <= a < 2 ^ 24 ->
  fst (xact c lat ch (SECTOR_ERASE :: write_address a)) = after_op lat ch (sector_erase c (cells ch) a).
Proof using. clear LAT OK.
  intros ch a B W Ha. destruct (addr3 a Ha) as (a2 & a1 & a0 & -> & E). unfold xact.
  cbn [Z.eqb Pos.eqb RDSR WREN WRDI CHIP_ERASE SECTOR_ERASE BYTE_WRITE]. rewrite B, W, E. reflexivity.
Qed.
Lemma xact_read : forall ch a n, busy ch = 0%nat -> 0 <= a < 2 ^ 24 ->
  xact c lat ch (BYTE_READ :: write_address a ++ repeat 255 n) = (ch, [0; 0; 0; 0] ++ answer ch a n).
Proof using. clear LAT OK.
  intros ch a n B Ha. destruct (addr3 a Ha) as (a2 & a1 & a0 & -> & E). unfold xact. cbn [app].
  cbn [Z.eqb Pos.eqb RDSR WREN WRDI CHIP_ERASE SECTOR_ERASE BYTE_WRITE BYTE_READ]. rewrite B, E. cbn [Nat.ltb Nat.leb].
  rewrite repeat_length. reflexivity.
Qed.

Lemma xact_fast : forall ch a n, busy ch = 0%nat -> 0 <= a < 2 ^ 24 ->
  xact c lat ch (FAST_READ :: write_address a ++ repeat 0 1 ++ repeat 0 n) = (ch, [0; 0; 0; 0; 0] ++ answer ch a n).
Proof using. clear LAT OK.
  intros ch a n B Ha. destruct (addr3 a Ha) as (a2 & a1 & a0 & -> & E). unfold xact. cbn [app repeat].
  cbn [Z.eqb Pos.eqb RDSR WREN WRDI CHIP_ERASE SECTOR_ERASE BYTE_WRITE BYTE_READ FAST_READ]. rewrite B, E. cbn [Nat.ltb Nat.leb].
  cbn [length]. rewrite repeat_length, Nat.sub_succ, Nat.sub_0_r. reflexivity.
Qed.

Lemma answer_rdl : forall n ch a, 0 <= a -> a + Z.of_nat n <= 2 ^ 24 -> answer ch a n = rdl (cells ch) a n.
Proof using. clear LAT OK fuel lat.
  intros n ch a H0 H. apply nth_ext with (d := 0) (d' := 0).
  - unfold answer. rewrite map_length, seq_length, length_rdl. reflexivity.
  - intros i Hi. unfold answer in *. rewrite map_length, seq_length in Hi.
    rewrite rdl_nth by lia. rewrite (nth_indep _ 0 (cells ch ((a + Z.of_nat 0) mod 2 ^ 24))) by (rewrite map_length, seq_length; lia).
    rewrite (map_nth (fun i => cells ch ((a + Z.of_nat i) mod 2 ^ 24)) (seq 0 n) 0%nat). rewrite seq_nth by lia.
    rewrite Z.mod_small by lia. reflexivity.
Qed.

(** ** Programming *)

Lemma latch_ok : forall d page off l x, 0 <= off -> off + zlen d <= PAGE c ->
  latch c page off d l x = if inr (page + off) (zlen d) x then nth (Z.to_nat (x - (page + off))) d 0 else l x.
Proof using OK. clear LAT fuel lat.
  induction d as [|b d IH]; intros page off l x H0 H.
  - cbn [latch]. unfold inr, zlen. cbn [length]. destruct (Z.leb_spec (page + off) x), (Z.ltb_spec x (page + off + Z.of_nat 0)); cbn [andb]; try reflexivity; lia.
  - assert (ZL : zlen (b :: d) = 1 + zlen d) by (unfold zlen; cbn [length]; lia). rewrite ZL in *.
    pose proof (zlen_nonneg d) as NN. cbn [latch].
    destruct (Z.eq_dec (off + 1) (PAGE c)) as [Q|Q].
    + assert (zlen d = 0) by lia. destruct d as [|b' d]; [|unfold zlen in *; cbn [length] in *; lia]. cbn [latch].
      destruct (Z.eqb_spec x (page + off)) as [-> |N].
      * replace (inr (page + off) (1 + zlen []) (page + off)) with true by (symmetry; apply inr_true; unfold zlen; cbn [length]; lia).
        rewrite Z.sub_diag. reflexivity.
      * replace (inr (page + off) (1 + zlen []) x) with false; [reflexivity|]. symmetry. apply inr_false. unfold zlen; cbn [length]; lia.
    + rewrite Z.mod_small by (pose proof page_pos; lia). rewrite IH by lia. cbn beta.
      destruct (inr (page + (off + 1)) (zlen d) x) eqn:E1.
      * apply inr_true in E1. replace (inr (page + off) (1 + zlen d) x) with true by (symmetry; apply inr_true; lia).
        replace (Z.to_nat (x - (page + off))) with (S (Z.to_nat (x - (page + (off + 1))))) by lia. reflexivity.
      * apply inr_false in E1. destruct (Z.eqb_spec x (page + off)) as [-> |N].
        -- replace (inr (page + off) (1 + zlen d) (page + off)) with true by (symmetry; apply inr_true; lia).
           rewrite Z.sub_diag. reflexivity.
        -- replace (inr (page + off) (1 + zlen d) x) with false; [reflexivity|]. symmetry. apply inr_false. lia.
Qed.

Lemma land255 : forall b, is_byte b -> Z.land b 255 = b.
Proof using. clear LAT OK fuel lat. intros b H. change 255 with (Z.ones 8). rewrite Z.land_ones by lia. apply Z.mod_small. exact H. Qed.

(** Data that stay inside a page are programmed where they belong. *)
Lemma program_ok : forall f a d x, bytes f -> a mod PAGE c + zlen d <= PAGE c ->
  program c f a d x = write f a (zlen d) (fun i => nth (Z.to_nat i) d 0) x.
Proof using OK. clear LAT fuel lat.
  intros f a d x Hb H. pose proof page_pos as (P & _). pose proof (Z.mod_pos_bound a (PAGE c) P) as MB.
  pose proof (zlen_nonneg d). unfold program, write.
  rewrite latch_ok by lia. replace (a - a mod PAGE c + a mod PAGE c) with a by lia.
  destruct (inr (a - a mod PAGE c) (PAGE c) x) eqn:E.
  - destruct (inr a (zlen d) x); [reflexivity|]. apply land255, Hb.
  - replace (inr a (zlen d) x) with false; [reflexivity|]. symmetry. apply inr_false. apply inr_false in E. lia.
Qed.

Lemma program_bytes : forall f a d, bytes f -> bytes (program c f a d).
Proof using OK. clear LAT fuel lat.
  intros f a d Hb x. unfold program. destruct (inr _ _ x); [|apply Hb]. specialize (Hb x). unfold is_byte in *.
  set (v := latch _ _ _ _ _ x). split; [apply Z.land_nonneg; lia|].
  destruct (Z.eq_dec (f x) 0) as [E|E]; [rewrite E, Z.land_0_l; lia|].
  assert (N : 0 <= Z.land (f x) v) by (apply Z.land_nonneg; lia).
  destruct (Z.eq_dec (Z.land (f x) v) 0) as [E2|E2]; [lia|].
  assert (L : Z.log2 (Z.land (f x) v) < 8); [|apply Z.log2_lt_pow2 in L; lia].
  destruct (Z_lt_le_dec (Z.log2 (Z.land (f x) v)) 8) as [Q|Q]; [exact Q|exfalso].
  assert (B : Z.testbit (Z.land (f x) v) (Z.log2 (Z.land (f x) v)) = true) by (apply Z.bit_log2; lia).
  rewrite Z.land_spec in B. apply andb_prop in B. destruct B as (B & _).
  rewrite Z.bits_above_log2 in B; [discriminate|lia|]. apply Z.log2_lt_pow2; [lia|].
  apply Z.lt_le_trans with (2 ^ 8); [change (2 ^ 8) with 256; lia|apply Z.pow_le_mono_r; lia].
Qed.

(** ** Page writes *)

(** The room from [a] to the end of its page. *)
Definition page_room (a : Z) : Z := PAGE c - a mod PAGE c.

Lemma mod_next : forall a, 0 <= a -> (a + 1) mod PAGE c = if page_room a =? 1 then 0 else a mod PAGE c + 1.
Proof using OK. clear LAT fuel lat.
  intros a H. pose proof page_pos as (P & _). pose proof (Z.mod_pos_bound a (PAGE c) P) as MB.
  rewrite <- Zplus_mod_idemp_l. unfold page_room. destruct (Z.eqb_spec (PAGE c - a mod PAGE c) 1) as [Q|Q].
  - replace (a mod PAGE c + 1) with (PAGE c) by lia. apply Z_mod_same_full.
  - apply Z.mod_small. lia.
Qed.

Lemma page_bytes_ok : forall n buf a j, page_room a = Z.of_nat n -> 0 <= a -> a + Z.of_nat n < 2 ^ 32 -> (0 < n)%nat ->
  forall m, (n <= m)%nat ->
  page_bytes c m buf a j =
    if (j + n <=? length buf)%nat then Val (sub buf j n, a + Z.of_nat n) else UB.
Proof using OK. clear LAT fuel lat.
  induction n as [|n IH]; intros buf a j R A0 A1 NP m Hm; [lia|]. destruct m as [|m]; [lia|]. cbn [page_bytes].
  unfold rd. destruct (nth_error buf j) as [b|] eqn:E.
  2:{ cbn [obind]. apply nth_error_None in E. replace (j + S n <=? length buf)%nat with false; [reflexivity|]. symmetry. apply Nat.leb_gt. lia. }
  cbn [obind]. assert (J : (j < length buf)%nat) by (apply nth_error_Some; congruence).
  assert (SK : skipn j buf = b :: skipn (S j) buf) by (apply skipn_at; exact E).
  unfold u32. rewrite Z.mod_small by lia. rewrite page_land, mod_next by exact A0.
  destruct (Z.eqb_spec (page_room a) 1) as [Q|Q].
  - assert (n = 0%nat) by lia. subst n. cbn [Z.eqb]. replace (j + 1 <=? length buf)%nat with true by (symmetry; apply Nat.leb_le; lia).
    unfold sub. rewrite SK. cbn [firstn]. reflexivity.
  - pose proof page_pos as (P & _). pose proof (Z.mod_pos_bound a (PAGE c) P) as MB.
    destruct (Z.eqb_spec (a mod PAGE c + 1) 0); [lia|].
    assert (R1 : page_room (a + 1) = Z.of_nat n).
    { unfold page_room in *. rewrite mod_next by exact A0. unfold page_room. destruct (Z.eqb_spec (PAGE c - a mod PAGE c) 1); lia. }
    rewrite (IH buf (a + 1) (S j) R1) by lia.
    replace (S j + n <=? length buf)%nat with (j + S n <=? length buf)%nat by (f_equal; lia).
    destruct (Nat.leb_spec (j + S n) (length buf)); [|reflexivity]. cbn [obind]. unfold sub. rewrite SK. cbn [firstn]. f_equal. f_equal. lia.
Qed.

(** ** Multiples of the page size *)
Local Notation page_end := (SpiSpec.page_end c).

Lemma page_end_mod : forall e, page_end e mod PAGE c = 0.
Proof using OK. clear LAT fuel lat.
  intro e. pose proof page_pos as (P & _). unfold SpiSpec.page_end. rewrite Zplus_mod_idemp_r.
  replace (e + - e) with 0 by lia. apply Z.mod_0_l. lia.
Qed.
Lemma page_end_bounds : forall e, e <= page_end e < e + PAGE c.
Proof using OK. clear LAT fuel lat. intro e. pose proof page_pos as (P & _). unfold SpiSpec.page_end. pose proof (Z.mod_pos_bound (- e) (PAGE c) P). lia. Qed.
Lemma page_end_unique : forall e m, m mod PAGE c = 0 -> e <= m < e + PAGE c -> m = page_end e.
Proof using OK. clear LAT fuel lat.
  intros e m M H. pose proof page_pos as (P & _). pose proof (page_end_mod e) as M'. pose proof (page_end_bounds e) as B.
  apply Z.mod_divide in M; [|lia]. apply Z.mod_divide in M'; [|lia]. destruct M as (u & ->), M' as (v & E). rewrite E in *.
  assert (u = v) by nia. congruence.
Qed.
Lemma room_mod : forall a, (a + page_room a) mod PAGE c = 0.
Proof using OK. clear LAT fuel lat.
  intro a. pose proof page_pos as (P & _). unfold page_room. pose proof (Z.div_mod a (PAGE c) ltac:(lia)) as E.
  replace (a + (PAGE c - a mod PAGE c)) with ((a / PAGE c + 1) * PAGE c) by lia. apply Z.mod_mul. lia.
Qed.
Lemma room_bounds : forall a, 1 <= page_room a <= PAGE c.
Proof using OK. clear LAT fuel lat. intro a. pose proof page_pos as (P & _). pose proof (Z.mod_pos_bound a (PAGE c) P). unfold page_room. lia. Qed.


(** One page: either the buffer is too short, or the rest of the page is programmed. *)
Lemma page_step : forall n buf a j len ch, 0 < len -> 0 <= a -> a + page_room a <= 2 ^ 24 -> (busy ch < fuel)%nat -> bytes (cells ch) ->
  ((length buf < j + Z.to_nat (page_room a))%nat /\ write_page_loop c lat fuel (S n) buf a j len ch = UB) \/
  ((j + Z.to_nat (page_room a) <= length buf)%nat /\ exists ch',
     write_page_loop c lat fuel (S n) buf a j len ch =
       write_page_loop c lat fuel n buf (a + page_room a) (j + Z.to_nat (page_room a)) (len - page_room a) ch' /\
     (busy ch' < fuel)%nat /\ bytes (cells ch') /\
     forall x, cells ch' x = write (cells ch) a (page_room a) (get_at buf j) x).
Proof.
  intros n buf a j len ch L A0 A1 B Hb. pose proof (room_bounds a) as R. pose proof page_pos as (P & P1 & P2).
  assert (F : (0 < fuel)%nat) by lia.
  cbn [write_page_loop]. replace (0 <? len) with true by (symmetry; apply Z.ltb_lt; exact L).
  rewrite wait_ok by exact B. cbn [obind]. rewrite enable_ok by (try reflexivity; exact F). cbn [obind].
  rewrite wait_ok by (cbn [set_wel idle busy]; exact F). cbn [obind].
  set (ch3 := idle (set_wel (idle (idle ch)) true)).
  rewrite (page_bytes_ok (Z.to_nat (page_room a))) by (change (2 ^ 32) with (256 * 2 ^ 24); lia).
  destruct (Nat.leb_spec (j + Z.to_nat (page_room a)) (length buf)) as [Q|Q]; [right; split; [exact Q|]|left; split; [exact Q|reflexivity]].
  cbn [obind]. set (d := sub buf j (Z.to_nat (page_room a))).
  assert (LD : length d = Z.to_nat (page_room a)) by (apply length_sub; lia).
  assert (ZD : zlen d = page_room a) by (unfold zlen; lia).
  rewrite xact_prog by first [reflexivity | lia | intro E; rewrite E in LD; cbn [length] in LD; lia].
  rewrite LD, ZD. eexists. split; [f_equal; lia|]. cbn [after_op busy cells].
  split; [apply LAT|]. split; [apply program_bytes, Hb|].
  intro x. rewrite program_ok; [|exact Hb|rewrite ZD; unfold page_room; lia]. rewrite ZD.
  unfold write. destruct (inr a (page_room a) x) eqn:E; [|reflexivity]. apply inr_true in E. cbn [ch3 idle set_wel cells].
  f_equal. unfold d, get_at. apply nth_sub'. lia.
Qed.

Lemma write_ext_data : forall f a n d d' x, (forall i, 0 <= i < n -> d i = d' i) -> write f a n d x = write f a n d' x.
Proof using. clear LAT OK fuel lat. intros f a n d d' x H. unfold write. destruct (inr a n x) eqn:E; [|reflexivity]. apply inr_true in E. rewrite H by lia. reflexivity. Qed.

Lemma page_loop : forall n buf a j len ch, 0 < len <= Z.of_nat n -> 0 <= a -> page_end (a + len) <= 2 ^ 24 ->
  (busy ch < fuel)%nat -> bytes (cells ch) ->
  ((length buf < j + Z.to_nat (page_end (a + len) - a))%nat /\ write_page_loop c lat fuel n buf a j len ch = UB) \/
  ((j + Z.to_nat (page_end (a + len) - a) <= length buf)%nat /\ exists ch',
     write_page_loop c lat fuel n buf a j len ch = Val ch' /\ (busy ch' < fuel)%nat /\ bytes (cells ch') /\
     forall x, cells ch' x = write (cells ch) a (page_end (a + len) - a) (get_at buf j) x).
Proof.
  induction n as [|n IH]; intros buf a j len ch L A0 A1 B Hb; [lia|].
  pose proof (page_end_bounds (a + len)) as PB. pose proof (page_end_mod (a + len)) as PM.
  pose proof (room_bounds a) as R. pose proof (room_mod a) as RM.
  destruct (Z_le_gt_dec len (page_room a)) as [Q|Q].
  - assert (E : page_end (a + len) = a + page_room a) by (symmetry; apply page_end_unique; [exact RM|lia]). rewrite E in *.
    replace (a + page_room a - a) with (page_room a) by lia.
    destruct (page_step n buf a j len ch) as [(S1 & S2)|(S1 & ch' & S2 & S3 & S4 & S5)]; try assumption; try lia; [left; split; assumption|right].
    split; [exact S1|]. exists ch'. split; [|split; [exact S3|split; [exact S4|exact S5]]]. rewrite S2. destruct n; cbn [write_page_loop];
      replace (0 <? len - page_room a) with false by (symmetry; apply Z.ltb_ge; lia); reflexivity.
  - destruct (page_step n buf a j len ch) as [(S1 & S2)|(S1 & ch' & S2 & S3 & S4 & S5)]; try assumption; try lia.
    + left. split; [lia|exact S2].
    + rewrite S2. destruct (IH buf (a + page_room a) (j + Z.to_nat (page_room a))%nat (len - page_room a) ch') as [(T1 & T2)|(T1 & ch2 & T2 & T3 & T4 & T5)];
        try assumption; try lia; replace (a + page_room a + (len - page_room a)) with (a + len) in * by lia; [lia|left; split; [lia|exact T2]|right].
      split; [lia|]. exists ch2. split; [exact T2|split; [exact T3|split; [exact T4|]]]. intro x. rewrite T5.
      rewrite (write_ext_data _ _ _ _ (fun i => get_at buf j (page_room a + i))) by (intros i Hi; unfold get_at; f_equal; lia).
      rewrite (write_split (cells ch)); [f_equal; lia|lia|lia|exact S5].
Qed.

(** ** Erasing *)
Lemma erase_step : forall a ch, 0 <= a < 2 ^ 24 -> (busy ch < fuel)%nat ->
  exists ch', spi_flash_sector_erase c lat fuel a ch = Val (ch', 0) /\ busy ch' = 0%nat /\
    cells ch' = erase (cells ch) (a - a mod SECTOR c) (SECTOR c).
Proof.
  intros a ch A B. pose proof page_pos as (P & P1 & P2). unfold spi_flash_sector_erase. rewrite sector_land.
  rewrite wait_ok by exact B. cbn [obind]. rewrite enable_ok by (try reflexivity; lia). cbn [obind].
  pose proof (Z.mod_pos_bound a (SECTOR c) ltac:(lia)) as MB. pose proof (Z.mod_le a (SECTOR c) ltac:(lia) ltac:(lia)).
  rewrite xact_erase by (try reflexivity; lia). rewrite wait_ok by apply LAT. cbn [obind].
  eexists. split; [reflexivity|]. split; [reflexivity|]. cbn [idle after_op cells set_wel]. unfold sector_erase.
  f_equal. rewrite Zminus_mod_idemp_r. rewrite Z.sub_diag, Z.mod_0_l by lia. lia.
Qed.
(** ** include/hal.h:94-106 *)
Local Notation sectors := (SpiSpec.sectors c).

Lemma erase_two : forall f g a m n x, 0 <= m -> 0 <= n -> (forall x, g x = erase f a m x) -> erase g (a + m) n x = erase f a (m + n) x.
Proof using. clear LAT OK fuel lat.
  intros f g a m n x Hm Hn H. unfold erase in *. rewrite H.
  destruct (inr a (m + n) x) eqn:E; [apply inr_true in E|apply inr_false in E];
  (destruct (inr a m x) eqn:E1; [apply inr_true in E1|apply inr_false in E1]);
  (destruct (inr (a + m) n x) eqn:E2; [apply inr_true in E2|apply inr_false in E2]); try reflexivity; lia.
Qed.

(** What the loop does with any function that erases one sector. *)
Lemma erase_loop_ok : forall (inv : chip -> Prop) erase1,
  (forall a ch, 0 <= a < 2 ^ 24 -> inv ch -> exists ch', erase1 a ch = Val (ch', 0) /\ inv ch' /\
     forall x, cells ch' x = erase (cells ch) (a - a mod SECTOR c) (SECTOR c) x) ->
  forall m k p stop ret ch, (m <= k)%nat -> 0 <= p -> (Z.of_nat m - 1) * SECTOR c <= stop - p < Z.of_nat m * SECTOR c -> stop < 2 ^ 24 -> inv ch ->
  (m = 0%nat -> ret = 0) ->
  exists ch', erase_loop c k erase1 p stop ret ch = Val (ch', 0) /\ inv ch' /\
    forall x, cells ch' x = erase (cells ch) (p - p mod SECTOR c) (Z.of_nat m * SECTOR c) x.
Proof using OK. clear LAT fuel lat.
  intros inv erase1 E1. pose proof page_pos as (P & P1 & P2). change (2 ^ 24) with 16777216 in *.
  induction m as [|m IH]; intros k p stop ret ch K P0 ST S24 I R.
  - assert (Q : erase_loop c k erase1 p stop ret ch = Val (ch, ret)).
    { destruct k; cbn [erase_loop]; replace (p <=? stop) with false by (symmetry; apply Z.leb_gt; lia); reflexivity. }
    specialize (R eq_refl). exists ch. split; [rewrite Q, R; reflexivity|]. split; [exact I|]. intro x. unfold erase.
    replace (inr (p - p mod SECTOR c) (Z.of_nat 0 * SECTOR c) x) with false; [reflexivity|]. symmetry. apply inr_false. lia.
  - destruct k as [|k]; [lia|]. cbn [erase_loop]. replace (p <=? stop) with true by (symmetry; apply Z.leb_le; nia).
    destruct (E1 p ch) as (ch1 & -> & I1 & C1); [nia|exact I|]. cbn [obind Z.eqb negb].
    unfold u32. rewrite (Z.mod_small (p + SECTOR c)) by (change (2 ^ 32) with 4294967296; nia).
    destruct (IH k (p + SECTOR c) stop 0 ch1) as (ch2 & Q2 & I2 & C2); [lia|lia|lia|exact S24|exact I1|reflexivity|].
    exists ch2. split; [exact Q2|]. split; [exact I2|]. intro x. rewrite C2.
    replace ((p + SECTOR c) mod SECTOR c) with (p mod SECTOR c) by (rewrite <- Zplus_mod_idemp_r, Z_mod_same_full, Z.add_0_r; reflexivity).
    replace (p + SECTOR c - p mod SECTOR c) with (p - p mod SECTOR c + SECTOR c) by lia.
    rewrite (erase_two (cells ch)); [f_equal; lia|lia|lia|exact C1].
Qed.

Lemma sectors_bounds : forall len, 0 < len -> 0 < sectors len /\ (sectors len - 1) * SECTOR c < len <= sectors len * SECTOR c.
Proof using OK. clear LAT fuel lat.
  intros len L. pose proof page_pos as (P & P1 & P2). unfold SpiSpec.sectors.
  pose proof (Z.div_mod (len + SECTOR c - 1) (SECTOR c) ltac:(lia)) as E. pose proof (Z.mod_pos_bound (len + SECTOR c - 1) (SECTOR c) ltac:(lia)).
  nia.
Qed.

Lemma ext_erase_ok : forall (inv : chip -> Prop) erase1,
  (forall a ch, 0 <= a < 2 ^ 24 -> inv ch -> exists ch', erase1 a ch = Val (ch', 0) /\ inv ch' /\
     forall x, cells ch' x = erase (cells ch) (a - a mod SECTOR c) (SECTOR c) x) ->
  forall k a len ch, 0 <= a -> 0 < len -> a + len <= 2 ^ 24 -> (Z.to_nat (sectors len) <= k)%nat -> inv ch ->
  exists ch', ext_flash_erase c k erase1 a len ch = Val (ch', 0) /\ inv ch' /\
    forall x, cells ch' x = erase (cells ch) (a - a mod SECTOR c) (sectors len * SECTOR c) x.
Proof using OK. clear LAT fuel lat.
  intros inv erase1 E1 k a len ch A0 L A1 K I. pose proof (sectors_bounds len L) as (S0 & S1).
  unfold ext_flash_erase, u32. rewrite !Z.mod_small by (change (2 ^ 32) with (256 * 2 ^ 24); lia).
  destruct (erase_loop_ok inv erase1 E1 (Z.to_nat (sectors len)) k a (a + len - 1) 0 ch) as (ch' & Q & I' & C').
  - exact K. - exact A0. - rewrite Z2Nat.id by lia. lia. - lia. - exact I. - reflexivity.
  - exists ch'. split; [exact Q|]. split; [exact I'|]. intro x. rewrite C', Z2Nat.id by lia. reflexivity.
Qed.

(** ** One byte at a time *)
Lemma sb_step : forall n buf a j len ch b, 0 < len -> 0 <= a < 2 ^ 24 -> busy ch = 0%nat -> (0 < fuel)%nat -> bytes (cells ch) ->
  nth_error buf j = Some b ->
  exists ch', busy ch' = 0%nat /\ bytes (cells ch') /\ (forall x, cells ch' x = write (cells ch) a 1 (get_at buf j) x) /\
  write_sb_loop c lat fuel (S n) buf a j len ch =
    if Z.land (cells ch a) b =? b then write_sb_loop c lat fuel n buf (a + 1) (S j) (len - 1) ch' else Val (ch', -1).
Proof.
  intros n buf a j len ch b L A B F Hb E. pose proof page_pos as (P & P1 & P2).
  cbn [write_sb_loop]. replace (0 <? len) with true by (symmetry; apply Z.ltb_lt; exact L).
  unfold rd. rewrite E. cbn [obind]. rewrite enable_ok by assumption. cbn [obind].
  rewrite xact_prog by first [reflexivity | assumption | discriminate].
  rewrite wait_ok by apply LAT. cbn [obind].
  set (ch3 := idle _).
  unfold spi_flash_read. rewrite wait_ok by (cbn [ch3 idle busy]; exact F). cbn [obind].
  rewrite xact_read by first [reflexivity | exact A]. rewrite answer_rdl by (change (Z.of_nat (Z.to_nat 1)) with 1; lia).
  cbn [app skipn].
  assert (C3 : forall x, cells ch3 x = write (cells ch) a 1 (get_at buf j) x).
  { intro x. unfold ch3. cbn [idle after_op cells set_wel]. rewrite program_ok; [|exact Hb|].
    - change (zlen [b]) with 1. apply write_ext_data. intros i Hi. replace i with 0 by lia. unfold get_at. rewrite Nat.add_0_r.
      cbn [Z.to_nat nth]. symmetry. apply nth_error_nth, E.
    - change (zlen [b]) with 1. pose proof (Z.mod_pos_bound a (PAGE c) P). lia. }
  assert (V : nth 0 (rdl (cells (idle ch3)) a (Z.to_nat 1)) 0 = Z.land (cells ch a) b).
  { rewrite rdl_nth by (change (Z.to_nat 1) with 1%nat; lia). cbn [idle cells]. rewrite C3. unfold write.
    replace (inr a 1 (a + Z.of_nat 0)) with true by (symmetry; apply inr_true; lia).
    rewrite Z.add_0_r, Z.sub_diag. f_equal. unfold get_at. rewrite Nat.add_0_r. apply nth_error_nth, E. }
  cbn [obind]. rewrite V.
  replace (Z.land (Z.land (cells ch a) b) (Z.lnot b)) with 0 by (rewrite <- Z.land_assoc, Z.land_lnot_diag, Z.land_0_r; reflexivity).
  cbn [Z.eqb]. exists (idle ch3).
  split; [reflexivity|]. split; [apply program_bytes, Hb|]. split; [exact C3|].
  destruct (Z.land (cells ch a) b =? b); cbn [negb]; [|reflexivity].
  rewrite wait_ok by (cbn [idle busy]; exact F). cbn [obind]. unfold u32.
  rewrite Z.mod_small by (change (2 ^ 32) with (256 * 2 ^ 24); lia). reflexivity.
Qed.


Lemma sb_loop : forall n buf a j len ch, 0 <= len <= Z.of_nat n -> 0 <= a -> a + len <= 2 ^ 24 -> busy ch = 0%nat -> (0 < fuel)%nat -> bytes (cells ch) ->
  (j + Z.to_nat len <= length buf)%nat ->
  exists ch' r, write_sb_loop c lat fuel n buf a j len ch = Val (ch', r) /\ busy ch' = 0%nat /\ bytes (cells ch') /\
  ((r = 0 /\ (forall i, 0 <= i < len -> takes (cells ch) (a + i) (get_at buf j i)) /\
    forall x, cells ch' x = write (cells ch) a len (get_at buf j) x) \/
   (r = -1 /\ exists m, 0 <= m < len /\ (forall i, 0 <= i < m -> takes (cells ch) (a + i) (get_at buf j i)) /\
    ~ takes (cells ch) (a + m) (get_at buf j m) /\
    forall x, cells ch' x = write (cells ch) a (m + 1) (get_at buf j) x)).
Proof.
  induction n as [|n IH]; intros buf a j len ch L A0 A1 B F Hb J.
  - assert (len = 0) by lia. subst len. exists ch, 0. split; [reflexivity|]. split; [exact B|]. split; [exact Hb|]. left.
    split; [reflexivity|]. split; [intros; lia|]. intro x. unfold write. replace (inr a 0 x) with false; [reflexivity|]. symmetry; apply inr_false; lia.
  - destruct (Z.eq_dec len 0) as [-> |LN].
    { exists ch, 0. split; [reflexivity|]. split; [exact B|]. split; [exact Hb|]. left.
      split; [reflexivity|]. split; [intros; lia|]. intro x. unfold write. replace (inr a 0 x) with false; [reflexivity|]. symmetry; apply inr_false; lia. }
    destruct (nth_error buf j) as [b|] eqn:E; [|apply nth_error_None in E; lia].
    assert (G : get_at buf j 0 = b) by (unfold get_at; rewrite Nat.add_0_r; apply nth_error_nth, E).
    destruct (sb_step n buf a j len ch b) as (ch1 & B1 & H1 & C1 & ->); try assumption; try lia.
    destruct (Z.eqb_spec (Z.land (cells ch a) b) b) as [Q|Q].
    + destruct (IH buf (a + 1) (S j) (len - 1) ch1) as (ch2 & r & -> & B2 & H2 & D); try assumption; try lia.
      exists ch2, r. split; [reflexivity|]. split; [exact B2|]. split; [exact H2|].
      assert (GS : forall i, 0 <= i -> get_at buf (S j) i = get_at buf j (1 + i)) by (intros i Hi; unfold get_at; f_equal; lia).
      assert (TK : forall i, 0 <= i -> takes (cells ch1) (a + 1 + i) (get_at buf (S j) i) <-> takes (cells ch) (a + (1 + i)) (get_at buf j (1 + i))).
      { intros i Hi. unfold takes. rewrite GS by exact Hi. rewrite C1. unfold write.
        replace (inr a 1 (a + 1 + i)) with false by (symmetry; apply inr_false; lia). replace (a + 1 + i) with (a + (1 + i)) by lia. reflexivity. }
      destruct D as [(-> & D1 & D2)|(-> & m & M & D1 & D2 & D3)]; [left|right].
      * split; [reflexivity|]. split.
        -- intros i Hi. destruct (Z.eq_dec i 0) as [-> |]; [rewrite Z.add_0_r, G; exact Q|].
           replace i with (1 + (i - 1)) by lia. apply TK; [lia|]. apply D1. lia.
        -- intro x. rewrite D2. rewrite (write_ext_data _ _ _ _ (fun i => get_at buf j (1 + i))) by (intros i Hi; apply GS; lia).
           rewrite (write_split (cells ch)); [f_equal; lia|lia|lia|exact C1].
      * split; [reflexivity|]. exists (1 + m). split; [lia|]. split; [|split].
        -- intros i Hi. destruct (Z.eq_dec i 0) as [-> |]; [rewrite Z.add_0_r, G; exact Q|].
           replace i with (1 + (i - 1)) by lia. apply TK; [lia|]. apply D1. lia.
        -- intro T. apply D2. apply TK; [lia|exact T].
        -- intro x. rewrite D3. rewrite (write_ext_data _ _ _ _ (fun i => get_at buf j (1 + i))) by (intros i Hi; apply GS; lia).
           rewrite (write_split (cells ch)); [f_equal; lia|lia|lia|exact C1].
    + exists ch1, (-1). split; [reflexivity|]. split; [exact B1|]. split; [exact H1|]. right. split; [reflexivity|]. exists 0.
      split; [lia|]. split; [intros; lia|]. split; [unfold takes; rewrite Z.add_0_r, G; exact Q|]. exact C1.
Qed.

(** ** The QSPI driver *)
Context (tries : nat) (QLAT : forall n, (lat n < pred tries)%nat).

Lemma qstatus_eq : forall ch, qspi_status c lat ch = (tick ch, status ch).
Proof using. clear QLAT LAT OK. reflexivity. Qed.

Lemma q_ready_n : forall n ch, (busy ch < n)%nat -> q_poll c lat n (fun st => negb (Z.testbit st 0)) ch = (idle ch, true).
Proof using. clear QLAT LAT OK.
  induction n as [|n IH]; intros ch H; [lia|]. cbn [q_poll]. rewrite qstatus_eq, status0.
  destruct (Nat.ltb_spec 0 (busy ch)) as [Q|Q]; cbn [negb].
  - rewrite IH by (cbn [tick busy]; lia). reflexivity.
  - unfold tick, idle. replace (busy ch) with 0%nat by lia. reflexivity.
Qed.
Lemma q_ready : forall ch, (busy ch < pred tries)%nat -> qspi_wait_ready c lat tries ch = (idle ch, true).
Proof using OK QLAT. clear LAT. intros ch H. apply q_ready_n, H. Qed.

Lemma q_enable : forall ch, busy ch = 0%nat -> qspi_write_enable c lat tries ch = (set_wel ch true, true).
Proof using OK QLAT. clear LAT.
  intros ch B. unfold qspi_write_enable. pose proof (QLAT 0) as Q. destruct (pred tries) as [|n]; [lia|]. cbn [q_poll].
  assert (E : transfer_out c lat WREN [] [] ch = set_wel ch true).
  { unfold transfer_out, xact. cbn [app length repeat Z.eqb Pos.eqb RDSR WREN]. rewrite B. reflexivity. }
  rewrite E, qstatus_eq, status0, status1. cbn [set_wel busy wel]. rewrite B. cbn [Nat.ltb Nat.leb negb andb].
  unfold tick, set_wel. cbn [cells wel busy ops]. rewrite B. reflexivity.
Qed.

(** A busy chip does not hear the request, so that the latch stays clear. *)
Lemma q_not_enabled_n : forall n ch, wel ch = false -> exists ch', q_poll c lat n (fun st => Z.testbit st 1 && negb (Z.testbit st 0)) ch = (ch', false) /\
  cells ch' = cells ch /\ busy ch' = (busy ch - n)%nat /\ wel ch' = false /\ ops ch' = ops ch.
Proof using. clear QLAT LAT OK.
  induction n as [|n IH]; intros ch W.
  - exists ch. rewrite Nat.sub_0_r. split; [reflexivity|]. split; [reflexivity|]. split; [reflexivity|]. split; [exact W|reflexivity].
  - cbn [q_poll]. rewrite qstatus_eq, status1, W. cbn [andb]. destruct (IH (tick ch) W) as (ch' & -> & E1 & E2 & E3 & E4).
    exists ch'. cbn [tick cells busy ops] in *. repeat split; try assumption. lia.
Qed.
Lemma q_not_enabled : forall ch, (0 < busy ch)%nat -> wel ch = false -> exists ch', qspi_write_enable c lat tries ch = (ch', false) /\
  cells ch' = cells ch /\ busy ch' = (busy ch - pred tries)%nat /\ wel ch' = false /\ ops ch' = ops ch.
Proof using. clear QLAT LAT OK.
  intros ch B W. unfold qspi_write_enable.
  assert (E : transfer_out c lat WREN [] [] ch = ch).
  { unfold transfer_out, xact. cbn [app length repeat Z.eqb Pos.eqb RDSR WREN]. replace (0 <? busy ch)%nat with true by (symmetry; apply Nat.ltb_lt; exact B). reflexivity. }
  rewrite E. apply q_not_enabled_n, W.
Qed.

Lemma q_erase_step : forall a ch, 0 <= a < 2 ^ 24 -> busy ch = 0%nat ->
  exists ch', qspi_sector_erase c lat tries a ch = Val (ch', 0) /\ busy ch' = 0%nat /\
    cells ch' = erase (cells ch) (a - a mod SECTOR c) (SECTOR c).
Proof using OK QLAT. clear LAT.
  intros a ch A B. unfold qspi_sector_erase. rewrite q_enable by exact B. cbn [negb].
  unfold transfer_out. rewrite app_nil_r. rewrite xact_erase by first [exact B | reflexivity | exact A].
  rewrite q_ready by apply QLAT. eexists. split; [reflexivity|]. split; reflexivity.
Qed.

(** One page of a write: [n] bytes of the buffer from [o] on. *)
Lemma q_page : forall buf a o n ch, 0 <= a < 2 ^ 24 -> (0 < n)%nat -> a mod PAGE c + Z.of_nat n <= PAGE c -> (o + n <= length buf)%nat ->
  busy ch = 0%nat -> bytes (cells ch) ->
  exists ch', qspi_wait_ready c lat tries (transfer_out c lat BYTE_WRITE (write_address a) (sub buf o n) (set_wel ch true)) = (ch', true) /\
    busy ch' = 0%nat /\ bytes (cells ch') /\ forall x, cells ch' x = write (cells ch) a (Z.of_nat n) (get_at buf o) x.
Proof using OK QLAT. clear LAT.
  intros buf a o n ch A N H O B Hb. unfold transfer_out.
  assert (LD : length (sub buf o n) = n) by (apply length_sub; exact O).
  rewrite xact_prog by first [exact B | reflexivity | exact A | intro E; rewrite E in LD; cbn [length] in LD; lia].
  rewrite q_ready by apply QLAT. eexists. split; [reflexivity|]. split; [reflexivity|]. cbn [idle after_op cells set_wel].
  split; [apply program_bytes, Hb|]. intro x. assert (ZD : zlen (sub buf o n) = Z.of_nat n) by (unfold zlen; rewrite LD; reflexivity).
  rewrite program_ok; [|exact Hb|lia]. rewrite ZD. apply write_ext_data. intros i Hi. unfold get_at. apply nth_sub'. lia.
Qed.

Lemma q_loop : forall k buf a len page ret ch, PAGE c < len < 2 ^ 31 -> a mod PAGE c = 0 -> 0 <= a -> 0 <= page ->
  a + (page + Z.of_nat k) * PAGE c <= 2 ^ 24 -> busy ch = 0%nat -> bytes (cells ch) -> (k = 0%nat -> ret = 0) ->
  ((length buf < Z.to_nat ((page + Z.of_nat k) * PAGE c))%nat /\ (0 < k)%nat /\ qspi_write_loop c lat tries k buf a len page ret ch = UB) \/
  (((0 < k)%nat -> (Z.to_nat ((page + Z.of_nat k) * PAGE c) <= length buf)%nat) /\ exists ch', qspi_write_loop c lat tries k buf a len page ret ch = Val (ch', 0) /\
    busy ch' = 0%nat /\ bytes (cells ch') /\
    forall x, cells ch' x = write (cells ch) (a + page * PAGE c) (Z.of_nat k * PAGE c) (get_at buf (Z.to_nat (page * PAGE c))) x).
Proof using OK QLAT. clear LAT.
  pose proof page_pos as (P & P1 & P2).
  induction k as [|k IH]; intros buf a len page ret ch L AM A0 PG A1 B Hb R.
  - right. split; [lia|]. exists ch. cbn [qspi_write_loop]. rewrite R by reflexivity. split; [reflexivity|]. split; [exact B|]. split; [exact Hb|].
    intro x. unfold write. replace (inr (a + page * PAGE c) (Z.of_nat 0 * PAGE c) x) with false; [reflexivity|]. symmetry; apply inr_false; lia.
  - cbn [qspi_write_loop]. rewrite q_enable by exact B. cbn [negb].
    assert (U : (if u32 len >? PAGE c then PAGE c else u32 len) = PAGE c).
    { unfold u32. rewrite Z.mod_small by (change (2 ^ 32) with (2 * 2 ^ 31); lia). rewrite Z.gtb_ltb.
      replace (PAGE c <? len) with true by (symmetry; apply Z.ltb_lt; lia). reflexivity. }
    rewrite U. destruct (Nat.ltb_spec (length buf) (Z.to_nat (page * PAGE c) + Z.to_nat (PAGE c))) as [Q|Q].
    + left. split; [|split; [lia|reflexivity]].
      enough ((page * PAGE c + PAGE c) <= (page + Z.of_nat (S k)) * PAGE c) by lia. nia.
    + assert (A2 : 0 <= a + page * PAGE c < 2 ^ 24) by nia.
      assert (UA : u32 (a + page * PAGE c) = a + page * PAGE c) by (unfold u32; apply Z.mod_small; change (2 ^ 32) with (256 * 2 ^ 24); lia).
      rewrite UA.
      destruct (q_page buf (a + page * PAGE c) (Z.to_nat (page * PAGE c)) (Z.to_nat (PAGE c)) ch) as (ch1 & -> & B1 & H1 & C1);
        try assumption; try lia.
      { rewrite Z.mod_add, AM by lia. lia. }
      cbn [negb].
      destruct (IH buf a len (page + 1) 0 ch1) as [(T1 & T2 & T3)|(T1 & ch2 & T2 & T3 & T4 & T5)]; try assumption; try lia.
      * left. split; [|split; [lia|exact T3]]. replace (page + Z.of_nat (S k)) with (page + 1 + Z.of_nat k) by lia. exact T1.
      * right. split.
        { intros _. destruct k as [|k]; [change (Z.of_nat 1) with 1; nia|].
          replace (page + Z.of_nat (S (S k))) with (page + 1 + Z.of_nat (S k)) by lia. apply T1. lia. }
        exists ch2. split; [exact T2|]. split; [exact T3|]. split; [exact T4|]. intro x. rewrite T5.
        rewrite Z2Nat.id in C1 by lia.
        rewrite (write_ext_data _ _ _ _ (fun i => get_at buf (Z.to_nat (page * PAGE c)) (PAGE c + i))).
        2:{ intros i Hi. unfold get_at. f_equal. nia. }
        replace (a + (page + 1) * PAGE c) with (a + page * PAGE c + PAGE c) by lia.
        rewrite (write_split (cells ch)); [f_equal; lia|lia|lia|exact C1].
Qed.
End Driver.
