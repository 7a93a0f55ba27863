(** Properties of the serial flash drivers: C51, C52.  The chip (SpiSpec) may stay busy for
    any number of status requests after each operation; [fuel] (and [tries] for the QSPI
    driver) is how many requests the driver has time for. *)
From Verif Require Import Base BaseLemmas Flash FlashLemmas SpiSpec SpiModel SpiProofs.

(** A chip in use: 256-byte pages, 4 kB sectors, three status requests per operation. *)
Definition w25 : spicfg := {| PAGE := 256; SECTOR := 4096 |}.
Definition slow (_ : nat) : nat := 3%nat.
Definition fresh : chip := mkChip (fun _ => 255) false 2 0.

Lemma w25_ok : spi_ok w25.
Proof. exists 8, 12. cbn [PAGE SECTOR w25]. repeat split; lia. Qed.
Lemma fresh_bytes : bytes (cells fresh).
Proof. intro x. cbn [cells fresh]. unfold is_byte. lia. Qed.
Lemma slow_lt : forall n, (slow n < 10)%nat.
Proof. intro n. unfold slow. lia. Qed.

(** ** C51: src/spi_flash.c *)

(** Reading gives the cells, whatever the chip was doing before. *)
Theorem C51_read : forall c lat fuel ch a len, spi_ok c -> (busy ch < fuel)%nat -> 0 <= a -> 0 <= len -> a + len <= 2 ^ 24 -> 0 < len ->
  exists ch', spi_flash_read c lat fuel a len ch = Val (ch', (rdl (cells ch) a (Z.to_nat len), len)) /\
    busy ch' = 0%nat /\ cells ch' = cells ch.
Proof.
  intros c lat fuel ch a len OK B A0 L0 A1 L. unfold spi_flash_read. rewrite wait_ok by exact B. cbn [obind].
  rewrite xact_read by first [reflexivity | lia]. rewrite answer_rdl by lia. cbn [app skipn].
  eexists. split; [rewrite Z2Nat.id by lia; reflexivity|]. split; reflexivity.
Qed.
Print Assumptions C51_read.

(** Erasing [len] bytes returns 0 and erases exactly as many sectors as hold [len] bytes, from
    the sector of the address on. *)
Theorem C51_erase : forall c lat fuel k ch a len, spi_ok c -> (forall n, (lat n < fuel)%nat) -> (busy ch < fuel)%nat ->
  0 <= a -> 0 < len -> a + len <= 2 ^ 24 -> (Z.to_nat (sectors c len) <= k)%nat ->
  exists ch', ext_flash_erase c k (spi_flash_sector_erase c lat fuel) a len ch = Val (ch', 0) /\
    forall x, cells ch' x = erase (cells ch) (a - a mod SECTOR c) (sectors c len * SECTOR c) x.
Proof.
  intros c lat fuel k ch a len OK LAT B A0 L A1 K.
  destruct (ext_erase_ok c OK (fun ch => (busy ch < fuel)%nat) (spi_flash_sector_erase c lat fuel)) with (k := k) (a := a) (len := len) (ch := ch)
    as (ch' & Q & _ & C'); try assumption.
  - intros a1 ch1 A I. destruct (erase_step c lat fuel OK LAT a1 ch1 A I) as (ch' & Q1 & Q2 & Q3). exists ch'.
    split; [exact Q1|]. split; [rewrite Q2; specialize (LAT 0%nat); lia|]. intro x. rewrite Q3. reflexivity.
  - exists ch'. split; assumption.
Qed.
Print Assumptions C51_erase.

(** From a sector boundary on, whole sectors: exactly what was asked for. *)
Theorem C51_erase_exact : forall c lat fuel k ch a m, spi_ok c -> (forall n, (lat n < fuel)%nat) -> (busy ch < fuel)%nat ->
  0 <= a -> (SECTOR c | a) -> 0 < m -> a + m * SECTOR c <= 2 ^ 24 -> (Z.to_nat m <= k)%nat ->
  exists ch', ext_flash_erase c k (spi_flash_sector_erase c lat fuel) a (m * SECTOR c) ch = Val (ch', 0) /\
    forall x, cells ch' x = erase (cells ch) a (m * SECTOR c) x.
Proof.
  intros c lat fuel k ch a m OK LAT B A0 AD M A1 K. pose proof (page_pos c OK) as (P & P1 & P2).
  assert (E : sectors c (m * SECTOR c) = m).
  { unfold sectors. replace (m * SECTOR c + SECTOR c - 1) with (SECTOR c - 1 + m * SECTOR c) by lia.
    rewrite Z.div_add, Z.div_small by lia. lia. }
  destruct (C51_erase c lat fuel k ch a (m * SECTOR c) OK LAT B A0) as (ch' & Q & C'); [nia|exact A1|rewrite E; exact K|].
  exists ch'. split; [exact Q|]. intro x. rewrite C', E. f_equal. apply Z.mod_divide in AD; lia.
Qed.
Print Assumptions C51_erase_exact.

Example C51_erase_ex : exists ch', ext_flash_erase w25 2 (spi_flash_sector_erase w25 slow 10) 8192 (2 * 4096) fresh = Val (ch', 0) /\
  forall x, cells ch' x = erase (cells fresh) 8192 (2 * 4096) x.
Proof.
  apply (C51_erase_exact w25 slow 10 2 fresh 8192 2); try (vm_compute; congruence); try exact w25_ok; try exact slow_lt.
  - apply Nat.ltb_lt. reflexivity.
  - exists 2. reflexivity.
  - apply Nat.leb_le. reflexivity.
Qed.

(** Page mode: what is written runs up to the end of the last page, whatever [len] says.  With
    a buffer that reaches so far the call returns 0 and programs exactly those cells. *)
Theorem C51_write : forall c lat fuel ch a buf len, spi_ok c -> (forall n, (lat n < fuel)%nat) -> (busy ch < fuel)%nat -> bytes (cells ch) ->
  0 <= a -> 0 < len -> page_end c (a + len) <= 2 ^ 24 -> page_end c (a + len) - a <= zlen buf ->
  exists ch', spi_flash_write c lat fuel false a buf len ch = Val (ch', 0) /\ busy ch' = 0%nat /\
    forall x, cells ch' x = write (cells ch) a (page_end c (a + len) - a) (get_at buf 0) x.
Proof.
  intros c lat fuel ch a buf len OK LAT B Hb A0 L A1 BL. unfold spi_flash_write, spi_flash_write_page, zlen in *.
  replace (len <? 1) with false by (symmetry; apply Z.ltb_ge; lia).
  destruct (page_loop c lat fuel OK LAT (Z.to_nat len) buf a 0 len ch) as [(T & _)|(_ & ch' & -> & B' & _ & C')]; try assumption; [lia| |].
  - pose proof (page_end_bounds c OK (a + len)). lia.
  - cbn [obind]. rewrite wait_ok by exact B'. cbn [obind]. eexists. split; [reflexivity|]. split; [reflexivity|]. exact C'.
Qed.
Print Assumptions C51_write.

(** So a write that ends on a page boundary programs exactly the data given. *)
Theorem C51_write_exact : forall c lat fuel ch a buf, spi_ok c -> (forall n, (lat n < fuel)%nat) -> (busy ch < fuel)%nat -> bytes (cells ch) ->
  0 <= a -> 0 < zlen buf -> a + zlen buf <= 2 ^ 24 -> (PAGE c | a + zlen buf) ->
  exists ch', spi_flash_write c lat fuel false a buf (zlen buf) ch = Val (ch', 0) /\ busy ch' = 0%nat /\
    forall x, cells ch' x = write (cells ch) a (zlen buf) (get_at buf 0) x.
Proof.
  intros c lat fuel ch a buf OK LAT B Hb A0 L A1 AD. pose proof (page_pos c OK) as (P & P1 & P2).
  assert (E : page_end c (a + zlen buf) = a + zlen buf).
  { unfold page_end. apply Z.divide_opp_r, Z.mod_divide in AD; lia. }
  destruct (C51_write c lat fuel ch a buf (zlen buf) OK LAT B Hb A0 L) as (ch' & Q & B' & C'); rewrite E in *; [lia|lia|].
  exists ch'. split; [exact Q|]. split; [exact B'|]. replace (a + zlen buf - a) with (zlen buf) in C' by lia. exact C'.
Qed.
Print Assumptions C51_write_exact.

Example C51_write_ex : exists ch', spi_flash_write w25 slow 10 false 4352 (repeat 165 (Z.to_nat 512)) 512 fresh = Val (ch', 0) /\ busy ch' = 0%nat /\
  forall x, cells ch' x = write (cells fresh) 4352 512 (get_at (repeat 165 (Z.to_nat 512)) 0) x.
Proof.
  apply (C51_write_exact w25 slow 10 fresh 4352 (repeat 165 (Z.to_nat 512))); try (vm_compute; congruence); try exact w25_ok; try exact slow_lt; try exact fresh_bytes.
  - apply Nat.ltb_lt. reflexivity.
  - exists 19. reflexivity.
Qed.

(** A write of a whole buffer that ends anywhere else always reads past that buffer. *)
Theorem C51_overrun_refuted : forall c lat fuel ch a buf, spi_ok c -> (forall n, (lat n < fuel)%nat) -> (busy ch < fuel)%nat -> bytes (cells ch) ->
  0 <= a -> 0 < zlen buf -> a + zlen buf < 2 ^ 24 -> ~ (PAGE c | a + zlen buf) ->
  spi_flash_write c lat fuel false a buf (zlen buf) ch = UB.
Proof.
  intros c lat fuel ch a buf OK LAT B Hb A0 L A1 AD. pose proof (page_pos c OK) as (P & P1 & P2).
  pose proof (page_end_bounds c OK (a + zlen buf)) as PB. pose proof (page_end_mod c OK (a + zlen buf)) as PM.
  apply Z.mod_divide in PM; [|lia].
  assert (NE : page_end c (a + zlen buf) <> a + zlen buf) by (intro E; rewrite E in PM; contradiction).
  assert (PE : page_end c (a + zlen buf) <= 2 ^ 24).
  { destruct (dvd24 c OK) as (D1 & D2). assert (D : (PAGE c | 2 ^ 24)) by (apply (Z.divide_trans _ (SECTOR c)); assumption).
    destruct PM as (u & E1), D as (v & E2). rewrite E1, E2 in *.
    assert (u * PAGE c < (v + 1) * PAGE c) by lia. assert (u < v + 1) by (apply (Z.mul_lt_mono_pos_r (PAGE c)); lia).
    apply Z.mul_le_mono_nonneg_r; lia. }
  unfold spi_flash_write, spi_flash_write_page, zlen in *.
  replace (Z.of_nat (length buf) <? 1) with false by (symmetry; apply Z.ltb_ge; lia).
  destruct (page_loop c lat fuel OK LAT (Z.to_nat (Z.of_nat (length buf))) buf a 0 (Z.of_nat (length buf)) ch) as [(_ & ->)|(T & _)]; try assumption; [lia|reflexivity|lia].
Qed.
Print Assumptions C51_overrun_refuted.

Example C51_overrun_ex : spi_flash_write w25 slow 10 false 100 [1; 2; 3] 3 fresh = UB.
Proof.
  apply (C51_overrun_refuted w25 slow 10 fresh 100 [1; 2; 3]); try (vm_compute; congruence); try exact w25_ok; try exact slow_lt; try exact fresh_bytes.
  - apply Nat.ltb_lt. reflexivity.
  - intros (z & E). cbn [PAGE w25] in E. change (100 + zlen [1; 2; 3]) with 103 in E. lia.
Qed.

(** And what it reads there goes into the flash.  The state byte of a partition, five bytes
    before its end, is followed by the magic number: writing the state from a variable in
    memory with other data after it destroys the magic number. *)
Theorem C51_state_refuted : ~ (forall c lat fuel ch a buf len, spi_ok c -> (forall n, (lat n < fuel)%nat) -> (busy ch < fuel)%nat -> bytes (cells ch) ->
  0 <= a -> 0 < len -> a + len <= 2 ^ 24 -> page_end c (a + len) - a <= zlen buf ->
  forall ch' r, spi_flash_write c lat fuel false a buf len ch = Val (ch', r) -> forall x, ~ a <= x < a + len -> cells ch' x = cells ch x).
Proof.
  intro H.
  set (magic := fun x => if inr 8188 4 x then nth (Z.to_nat (x - 8188)) [66; 79; 79; 84] 0 else 255).
  set (before := mkChip magic false 0 0).
  specialize (H w25 slow 10%nat before 8187 [112; 0; 0; 0; 0] 1 w25_ok slow_lt).
  assert (E : match spi_flash_write w25 slow 10 false 8187 [112; 0; 0; 0; 0] 1 before with
              | Val (ch', r) => cells ch' 8188 = 0 /\ cells ch' 8187 = 112 | _ => False end) by (vm_compute; split; reflexivity).
  destruct (spi_flash_write w25 slow 10 false 8187 [112; 0; 0; 0; 0] 1 before) as [(ch', r)| |]; try contradiction.
  assert (Q : cells ch' 8188 = cells before 8188).
  { refine (H _ _ _ _ _ _ ch' r eq_refl 8188 _); try (vm_compute; congruence); try lia.
    - cbn [busy before]. lia.
    - intro x. cbn [cells before]. unfold magic, is_byte. destruct (inr 8188 4 x); [|lia].
      destruct (Z.to_nat (x - 8188)) as [|[|[|[|[|]]]]]; cbn [nth]; lia. }
  destruct E as (E & _). rewrite E in Q. vm_compute in Q. discriminate.
Qed.
Print Assumptions C51_state_refuted.

(** Single-byte mode: exactly the data are programmed.  The call returns 0 when every cell
    could take its byte; otherwise it stops with -1 after the first that could not. *)
Theorem C51_single : forall c lat fuel ch a buf len, spi_ok c -> (forall n, (lat n < fuel)%nat) -> (busy ch < fuel)%nat -> bytes (cells ch) ->
  0 <= a -> 0 < len -> a + len <= 2 ^ 24 -> len <= zlen buf ->
  exists ch' r, spi_flash_write c lat fuel true a buf len ch = Val (ch', r) /\ busy ch' = 0%nat /\
  ((r = 0 /\ (forall i, 0 <= i < len -> takes (cells ch) (a + i) (get_at buf 0 i)) /\
    forall x, cells ch' x = write (cells ch) a len (get_at buf 0) x) \/
   (r = -1 /\ exists m, 0 <= m < len /\ (forall i, 0 <= i < m -> takes (cells ch) (a + i) (get_at buf 0 i)) /\
    ~ takes (cells ch) (a + m) (get_at buf 0 m) /\
    forall x, cells ch' x = write (cells ch) a (m + 1) (get_at buf 0) x)).
Proof.
  intros c lat fuel ch a buf len OK LAT B Hb A0 L A1 BL. unfold spi_flash_write, spi_flash_write_sb, zlen in *.
  rewrite wait_ok by exact B. cbn [obind]. replace (len <? 1) with false by (symmetry; apply Z.ltb_ge; lia).
  destruct (sb_loop c lat fuel OK LAT (Z.to_nat len) buf a 0 len (idle ch)) as (ch' & r & Q & B' & _ & D); try assumption; try lia; [reflexivity|].
  exists ch', r. split; [exact Q|]. split; [exact B'|]. exact D.
Qed.
Print Assumptions C51_single.

Example C51_single_ex : exists ch' r, spi_flash_write w25 slow 10 true 254 [1; 2; 3] 3 fresh = Val (ch', r) /\ r = 0.
Proof.
  destruct (C51_single w25 slow 10 fresh 254 [1; 2; 3] 3) as (ch' & r & Q & _ & D); try (vm_compute; congruence); try exact w25_ok; try exact slow_lt; try exact fresh_bytes.
  - apply Nat.ltb_lt. reflexivity.
  - exists ch', r. split; [exact Q|]. destruct D as [(-> & _)|(_ & m & M & _ & T & _)]; [reflexivity|exfalso].
    apply T. unfold takes, get_at. cbn [cells fresh]. assert (M3 : m = 0 \/ m = 1 \/ m = 2) by lia. destruct M3 as [-> |[-> | ->]]; reflexivity.
Qed.

(** From inside a sector on, the sector with the last bytes may be left alone. *)
Theorem C51_erase_refuted : ~ (forall c lat fuel k ch a len, spi_ok c -> (forall n, (lat n < fuel)%nat) -> (busy ch < fuel)%nat ->
  0 <= a -> 0 < len -> a + len <= 2 ^ 24 -> (Z.to_nat (sectors c len) <= k)%nat ->
  exists ch', ext_flash_erase c k (spi_flash_sector_erase c lat fuel) a len ch = Val (ch', 0) /\
    forall x, a <= x < a + len -> cells ch' x = 255).
Proof.
  intro H. set (used := mkChip (fun _ => 0) false 0 0).
  destruct (H w25 slow 10%nat 1%nat used 4000 200 w25_ok slow_lt) as (ch' & Q & C'); try (vm_compute; congruence).
  - cbn [busy used]. lia.
  - apply Nat.leb_le. reflexivity.
  - destruct (C51_erase w25 slow 10 1 used 4000 200 w25_ok slow_lt) as (ch2 & Q2 & C2); try (vm_compute; congruence).
    + cbn [busy used]. lia.
    + apply Nat.leb_le. reflexivity.
    + rewrite Q in Q2. assert (E : ch' = ch2) by congruence. subst ch2. specialize (C' 4100 ltac:(lia)). rewrite C2 in C'. vm_compute in C'. discriminate.
Qed.
Print Assumptions C51_erase_refuted.

(** Nothing to erase at address 0: the loop never ends, and erases the whole chip. *)
Lemma erase_any : forall c lat fuel a ch, spi_ok c -> (forall n, (lat n < fuel)%nat) -> (busy ch < fuel)%nat ->
  exists ch', spi_flash_sector_erase c lat fuel a ch = Val (ch', 0) /\ busy ch' = 0%nat.
Proof.
  intros c lat fuel a ch OK LAT B. unfold spi_flash_sector_erase. rewrite wait_ok by exact B. cbn [obind].
  rewrite enable_ok by (try reflexivity; lia). cbn [obind]. rewrite <- write_address_mod.
  rewrite xact_erase by first [reflexivity | apply Z.mod_pos_bound; reflexivity].
  rewrite wait_ok by apply LAT. cbn [obind]. eexists. split; reflexivity.
Qed.
Theorem C51_empty_refuted : forall c lat fuel ch, spi_ok c -> (forall n, (lat n < fuel)%nat) -> (busy ch < fuel)%nat ->
  forall k, ext_flash_erase c k (spi_flash_sector_erase c lat fuel) 0 0 ch = NoFuel.
Proof.
  intros c lat fuel ch OK LAT B k. unfold ext_flash_erase.
  assert (G : forall k p ret ch, (busy ch < fuel)%nat -> 0 <= p < 2 ^ 32 ->
    erase_loop c k (spi_flash_sector_erase c lat fuel) p (u32 (0 + 0 - 1)) ret ch = NoFuel).
  { clear k ch B. induction k as [|k IH]; intros p ret ch B P; cbn [erase_loop];
      (replace (p <=? u32 (0 + 0 - 1)) with true; [|symmetry; apply Z.leb_le; change (u32 (0 + 0 - 1)) with (2 ^ 32 - 1); lia]); [reflexivity|].
    destruct (erase_any c lat fuel p ch OK LAT B) as (ch' & -> & B'). cbn [obind Z.eqb negb]. apply IH; [lia|].
    unfold u32. apply Z.mod_pos_bound. reflexivity. }
  apply G; [exact B|]. unfold u32. apply Z.mod_pos_bound. reflexivity.
Qed.
Print Assumptions C51_empty_refuted.

(** Addresses past the chip are not refused: they wrap around. *)
Theorem C51_address_refuted : forall c lat fuel a len ch,
  spi_flash_read c lat fuel a len ch = spi_flash_read c lat fuel (a mod 2 ^ 24) len ch.
Proof. intros. unfold spi_flash_read. rewrite write_address_mod. reflexivity. Qed.
Print Assumptions C51_address_refuted.

(** ** C52: src/qspi_flash.c *)

Theorem C52_read : forall c lat ch a len, spi_ok c -> busy ch = 0%nat -> 0 <= a -> 0 < len -> a + len <= 2 ^ 24 ->
  qspi_read c lat a len ch = (ch, (rdl (cells ch) a (Z.to_nat len), len)).
Proof.
  intros c lat ch a len OK B A0 L A1. unfold qspi_read, transfer_in. rewrite Z.gtb_ltb.
  replace (2 ^ 24 <? a) with false by (symmetry; apply Z.ltb_ge; lia).
  rewrite xact_fast by first [exact B | lia]. rewrite answer_rdl by lia. reflexivity.
Qed.
Print Assumptions C52_read.

Theorem C52_erase : forall c lat tries k ch a len, spi_ok c -> (forall n, (lat n < pred tries)%nat) -> busy ch = 0%nat ->
  0 <= a -> 0 < len -> a + len <= 2 ^ 24 -> (Z.to_nat (sectors c len) <= k)%nat ->
  exists ch', ext_flash_erase c k (qspi_sector_erase c lat tries) a len ch = Val (ch', 0) /\ busy ch' = 0%nat /\
    forall x, cells ch' x = erase (cells ch) (a - a mod SECTOR c) (sectors c len * SECTOR c) x.
Proof.
  intros c lat tries k ch a len OK LAT B A0 L A1 K.
  apply (ext_erase_ok c OK (fun ch => busy ch = 0%nat) (qspi_sector_erase c lat tries)); try assumption.
  intros a1 ch1 A I. destruct (q_erase_step c lat OK tries LAT a1 ch1 A I) as (ch' & Q1 & Q2 & Q3). exists ch'.
  split; [exact Q1|]. split; [exact Q2|]. intro x. rewrite Q3. reflexivity.
Qed.
Print Assumptions C52_erase.

(** A write or erase that reports success has left the chip ready: one that is still at work
    when the driver gives up waiting is reported.  This holds from every state of the chip. *)
Lemma q_ready_true : forall c lat n ch ch', q_poll c lat n (fun st => negb (Z.testbit st 0)) ch = (ch', true) -> busy ch' = 0%nat.
Proof.
  induction n as [|n IH]; intros ch ch' H; cbn [q_poll] in H; [discriminate H|]. rewrite qstatus_eq, status0 in H.
  destruct (0 <? busy ch)%nat eqn:E; cbn [negb] in H; [exact (IH _ _ H)|]. assert (X : ch' = tick ch) by congruence. subst ch'.
  apply Nat.ltb_ge in E. cbn [tick busy]. lia.
Qed.

Theorem C52_success : forall c lat tries ch a buf len ch', spi_ok c ->
  (0 < len -> len + PAGE c <= 2 ^ 31 -> qspi_write c lat tries a buf len ch = Val (ch', 0) -> busy ch' = 0%nat) /\
  (qspi_sector_erase c lat tries a ch = Val (ch', 0) -> busy ch' = 0%nat).
Proof.
  intros c lat tries ch a buf len ch' OK. split.
  - intros L LM. unfold qspi_write. pose proof (page_pos c OK) as (P & P1 & P2).
    assert (K : (0 < Z.to_nat (u32 (Z.quot (len + (PAGE c - 1)) (PAGE c))))%nat).
    { rewrite Z.quot_div_nonneg by lia. assert (1 <= (len + (PAGE c - 1)) / PAGE c) by (apply Z.div_le_lower_bound; lia).
      assert ((len + (PAGE c - 1)) / PAGE c < 2 ^ 32). { apply Z.le_lt_trans with (len + (PAGE c - 1)); [apply Z.div_le_upper_bound; nia|]. change (2 ^ 32) with (2 * 2 ^ 31). lia. }
      unfold u32. rewrite Z.mod_small by lia. lia. }
    clear L LM. revert K. generalize (Z.to_nat (u32 (Z.quot (len + (PAGE c - 1)) (PAGE c)))) as k. intros k K.
    assert (G : forall k page ret ch, qspi_write_loop c lat tries k buf a len page ret ch = Val (ch', 0) -> (k = 0%nat /\ ret = 0 /\ ch' = ch) \/ busy ch' = 0%nat).
    { clear K k ch. induction k as [|k IH]; intros page ret ch H; cbn [qspi_write_loop] in H; [left; split; [reflexivity|]; split; congruence|]. right.
      destruct (qspi_write_enable c lat tries ch) as (ch1, ok). destruct ok; cbn [negb] in H.
      - match type of H with (if ?b then _ else _) = _ => destruct b; [discriminate H|] end.
        match type of H with (let '(_, _) := ?x in _) = _ => destruct x as (ch3, ok2) eqn:W end. destruct ok2; cbn [negb] in H; [|congruence].
        destruct (IH _ _ _ H) as [(_ & _ & ->)|B]; [|exact B]. exact (q_ready_true _ _ _ _ _ W).
      - destruct (IH _ _ _ H) as [(_ & X & _)|B]; [discriminate X|exact B]. }
    intro H. destruct (G _ _ _ _ H) as [(X & _)|B]; [lia|exact B].
  - unfold qspi_sector_erase. destruct (qspi_write_enable c lat tries ch) as (ch1, ok). destruct ok; cbn [negb]; [|congruence].
    match goal with |- (let '(_, _) := ?x in _) = _ -> _ => destruct x as (ch3, ok2) eqn:W end. destruct ok2; [|congruence].
    intro H. assert (X : ch3 = ch') by congruence. subst ch3. exact (q_ready_true _ _ _ _ _ W).
Qed.
Print Assumptions C52_success.

(** A slow chip: the write is reported as failed. *)
Example C52_success_ex : match qspi_write w25 (fun _ => 100%nat) 10 4096 [1; 2; 3] 3 (mkChip (fun _ => 255) false 0 0) with
  | Val (ch', r) => r = -1 /\ busy ch' <> 0%nat /\ cells ch' 4096 = 1 | _ => False end.
Proof. vm_compute. repeat split; congruence. Qed.

(** Data within one page: exactly those are programmed. *)
Theorem C52_write_page : forall c lat tries ch a buf, spi_ok c -> (forall n, (lat n < pred tries)%nat) -> busy ch = 0%nat -> bytes (cells ch) ->
  0 <= a < 2 ^ 24 -> 0 < zlen buf -> a mod PAGE c + zlen buf <= PAGE c ->
  exists ch', qspi_write c lat tries a buf (zlen buf) ch = Val (ch', 0) /\ busy ch' = 0%nat /\
    forall x, cells ch' x = write (cells ch) a (zlen buf) (get_at buf 0) x.
Proof.
  intros c lat tries ch a buf OK LAT B Hb A L H. pose proof (page_pos c OK) as (P & P1 & P2). pose proof (Z.mod_pos_bound a (PAGE c) P) as MB.
  unfold qspi_write, zlen in *.
  assert (K : Z.to_nat (u32 (Z.quot (Z.of_nat (length buf) + (PAGE c - 1)) (PAGE c))) = 1%nat).
  { rewrite Z.quot_div_nonneg by lia. replace (Z.of_nat (length buf) + (PAGE c - 1)) with (Z.of_nat (length buf) - 1 + 1 * PAGE c) by lia.
    rewrite Z.div_add, Z.div_small by lia. reflexivity. }
  rewrite K. cbn [qspi_write_loop]. rewrite q_enable by assumption. cbn [negb].
  assert (U : u32 (Z.of_nat (length buf)) = Z.of_nat (length buf)) by (apply Z.mod_small; change (2 ^ 32) with (256 * 2 ^ 24); lia).
  rewrite U. replace (Z.of_nat (length buf) >? PAGE c) with false by (symmetry; rewrite Z.gtb_ltb; apply Z.ltb_ge; lia).
  replace (Z.to_nat (0 * PAGE c)) with 0%nat by lia. rewrite Nat2Z.id.
  replace (length buf <? 0 + length buf)%nat with false by (symmetry; apply Nat.ltb_ge; lia).
  replace (u32 (a + 0 * PAGE c)) with a by (unfold u32; rewrite Z.mod_small; [lia|change (2 ^ 32) with (256 * 2 ^ 24); lia]).
  destruct (q_page c lat OK tries LAT buf a 0 (length buf) ch) as (ch' & -> & B' & _ & C'); try assumption; try lia.
  cbn [negb]. exists ch'. split; [reflexivity|]. split; [exact B'|exact C'].
Qed.
Print Assumptions C52_write_page.

Example C52_page_ex : exists ch', qspi_write w25 slow 10 253 [1; 2; 3] 3 (idle fresh) = Val (ch', 0) /\ busy ch' = 0%nat /\
  forall x, cells ch' x = write (cells fresh) 253 3 (get_at [1; 2; 3] 0) x.
Proof.
  apply (C52_write_page w25 slow 10 (idle fresh) 253 [1; 2; 3]); try (vm_compute; congruence); try exact w25_ok; try exact fresh_bytes; try reflexivity.
  intro n. unfold slow. cbn [pred]. lia. split; vm_compute; congruence.
Qed.

(** More than a page, from a page boundary on: whole pages are taken from the buffer, up to
    the end of the last one.  If the buffer is shorter, the driver reads past its end. *)
Theorem C52_write_pages : forall c lat tries ch a buf len, spi_ok c -> (forall n, (lat n < pred tries)%nat) -> busy ch = 0%nat -> bytes (cells ch) ->
  0 <= a -> (PAGE c | a) -> PAGE c < len -> a + page_end c len <= 2 ^ 24 ->
  (zlen buf < page_end c len -> qspi_write c lat tries a buf len ch = UB) /\
  (page_end c len <= zlen buf -> exists ch', qspi_write c lat tries a buf len ch = Val (ch', 0) /\ busy ch' = 0%nat /\
    forall x, cells ch' x = write (cells ch) a (page_end c len) (get_at buf 0) x).
Proof.
  intros c lat tries ch a buf len OK LAT B Hb A0 AD L A1. pose proof (page_pos c OK) as (P & P1 & P2).
  pose proof (page_end_bounds c OK len) as PB. pose proof (page_end_mod c OK len) as PM.
  apply Z.mod_divide in PM; [|lia]. destruct PM as (m & PM). apply Z.mod_divide in AD; [|lia].
  unfold qspi_write, zlen in *.
  assert (K : u32 (Z.quot (len + (PAGE c - 1)) (PAGE c)) = m).
  { rewrite Z.quot_div_nonneg by lia. assert (Q : (len + (PAGE c - 1)) / PAGE c = m).
    { symmetry. apply Z.div_unique with (r := len + (PAGE c - 1) - m * PAGE c); lia. }
    rewrite Q. apply Z.mod_small. change (2 ^ 32) with (256 * 2 ^ 24). nia. }
  rewrite K.
  assert (M0 : 0 < m) by nia.
  destruct (q_loop c lat OK tries LAT (Z.to_nat m) buf a len 0 0 ch) as [(T1 & _ & T3)|(T1 & ch' & T2 & T3 & _ & T5)]; try assumption; try lia.
  - rewrite Z.add_0_l, Z2Nat.id, <- PM in T1 by lia. split; [intros _; exact T3|lia].
  - specialize (T1 ltac:(lia)). rewrite Z.add_0_l, Z2Nat.id, <- PM in T1 by lia. split; [lia|]. intros _.
    exists ch'. split; [exact T2|]. split; [exact T3|]. intro x. rewrite T5. rewrite Z2Nat.id, <- PM by lia.
    replace (a + 0 * PAGE c) with a by lia. replace (Z.to_nat (0 * PAGE c)) with 0%nat by lia. reflexivity.
Qed.
Print Assumptions C52_write_pages.

Theorem C52_overrun_refuted : forall c lat tries ch a buf, spi_ok c -> (forall n, (lat n < pred tries)%nat) -> busy ch = 0%nat -> bytes (cells ch) ->
  0 <= a -> (PAGE c | a) -> PAGE c < zlen buf -> a + page_end c (zlen buf) <= 2 ^ 24 -> ~ (PAGE c | zlen buf) ->
  qspi_write c lat tries a buf (zlen buf) ch = UB.
Proof.
  intros c lat tries ch a buf OK LAT B Hb A0 AD L A1 ND. pose proof (page_pos c OK) as (P & _).
  pose proof (page_end_bounds c OK (zlen buf)) as PB. pose proof (page_end_mod c OK (zlen buf)) as PM. apply Z.mod_divide in PM; [|lia].
  apply (C52_write_pages c lat tries ch a buf (zlen buf)); try assumption.
  assert (page_end c (zlen buf) <> zlen buf) by (intro E; rewrite E in PM; contradiction). lia.
Qed.
Print Assumptions C52_overrun_refuted.

Example C52_overrun_ex : qspi_write w25 slow 10 512 (repeat 7 (Z.to_nat 300)) 300 (idle fresh) = UB.
Proof.
  apply (C52_overrun_refuted w25 slow 10 (idle fresh) 512 (repeat 7 (Z.to_nat 300))); try (vm_compute; congruence); try exact w25_ok; try exact fresh_bytes; try reflexivity.
  - intro n. unfold slow. cbn [pred]. lia.
  - exists 2. reflexivity.
  - intros (z & E). change (zlen (repeat 7 (Z.to_nat 300))) with 300 in E. cbn [PAGE w25] in E. lia.
Qed.
Example C52_pages_ex : exists ch', qspi_write w25 slow 10 512 (repeat 7 (Z.to_nat 512)) 512 (idle fresh) = Val (ch', 0) /\ busy ch' = 0%nat /\
  forall x, cells ch' x = write (cells fresh) 512 512 (get_at (repeat 7 (Z.to_nat 512)) 0) x.
Proof.
  refine (proj2 (C52_write_pages w25 slow 10 (idle fresh) 512 (repeat 7 (Z.to_nat 512)) 512 w25_ok _ _ fresh_bytes _ _ _ _) _); try (vm_compute; congruence); try reflexivity.
  - intro n. unfold slow. cbn [pred]. lia.
  - exists 2. reflexivity.
Qed.

(** Data that cross a page boundary wrap around in the page. *)
Theorem C52_unaligned_refuted : ~ (forall c lat tries ch a buf, spi_ok c -> (forall n, (lat n < pred tries)%nat) -> busy ch = 0%nat -> bytes (cells ch) ->
  0 <= a -> 0 < zlen buf -> a + zlen buf <= 2 ^ 24 ->
  forall ch', qspi_write c lat tries a buf (zlen buf) ch = Val (ch', 0) -> forall x, cells ch' x = write (cells ch) a (zlen buf) (get_at buf 0) x).
Proof.
  intro H. specialize (H w25 slow 10%nat (idle fresh) 254 [1; 2; 3; 4] w25_ok).
  assert (E : match qspi_write w25 slow 10 254 [1; 2; 3; 4] (zlen [1; 2; 3; 4]) (idle fresh) with
              | Val (ch', r) => r = 0 /\ cells ch' 0 = 3 /\ cells ch' 256 = 255 | _ => False end) by (vm_compute; repeat split).
  destruct (qspi_write w25 slow 10 254 [1; 2; 3; 4] (zlen [1; 2; 3; 4]) (idle fresh)) as [(ch', r)| |]; try contradiction.
  destruct E as (-> & E & _).
  assert (Q : cells ch' 0 = write (cells (idle fresh)) 254 (zlen [1; 2; 3; 4]) (get_at [1; 2; 3; 4] 0) 0).
  { refine (H _ _ _ _ _ _ ch' eq_refl 0); try (vm_compute; congruence); try exact fresh_bytes; try reflexivity. intro n. unfold slow. cbn [pred]. lia. }
  rewrite E in Q. vm_compute in Q. discriminate.
Qed.
Print Assumptions C52_unaligned_refuted.

(** The driver does not wait for a chip that is still busy (the processor was reset during an
    erase, say).  It gives up on the first page, goes on with the others and returns the
    success of the last one. *)
Theorem C52_busy_refuted : forall c lat tries ch a buf, spi_ok c -> (forall n, (lat n < pred tries)%nat) -> bytes (cells ch) ->
  (0 < busy ch)%nat -> (busy ch <= pred tries)%nat -> wel ch = false ->
  0 <= a -> (PAGE c | a) -> zlen buf = 2 * PAGE c -> a + 2 * PAGE c <= 2 ^ 24 ->
  exists ch', qspi_write c lat tries a buf (zlen buf) ch = Val (ch', 0) /\
    forall x, cells ch' x = write (cells ch) (a + PAGE c) (PAGE c) (get_at buf (Z.to_nat (PAGE c))) x.
Proof.
  intros c lat tries ch a buf OK LAT Hb B0 B1 W A0 AD L A1. pose proof (page_pos c OK) as (P & P1 & P2).
  unfold qspi_write. rewrite L.
  assert (K : Z.to_nat (u32 (Z.quot (2 * PAGE c + (PAGE c - 1)) (PAGE c))) = 2%nat).
  { rewrite Z.quot_div_nonneg by lia. replace (2 * PAGE c + (PAGE c - 1)) with (PAGE c - 1 + 2 * PAGE c) by lia.
    rewrite Z.div_add, Z.div_small by lia. reflexivity. }
  rewrite K. cbn [qspi_write_loop]. destruct (q_not_enabled c lat tries ch B0 W) as (ch1 & -> & E1 & E2 & E3 & E4). cbn [negb].
  rewrite q_enable by (try assumption; lia). cbn [negb].
  assert (U : u32 (2 * PAGE c) = 2 * PAGE c) by (apply Z.mod_small; change (2 ^ 32) with (256 * 2 ^ 24); lia). rewrite U.
  replace (2 * PAGE c >? PAGE c) with true by (symmetry; rewrite Z.gtb_ltb; apply Z.ltb_lt; lia).
  replace ((0 + 1) * PAGE c) with (PAGE c) by lia. unfold zlen in L.
  replace (length buf <? Z.to_nat (PAGE c) + Z.to_nat (PAGE c))%nat with false by (symmetry; apply Nat.ltb_ge; lia).
  assert (UA : u32 (a + PAGE c) = a + PAGE c) by (apply Z.mod_small; change (2 ^ 32) with (256 * 2 ^ 24); lia). rewrite UA.
  destruct (q_page c lat OK tries LAT buf (a + PAGE c) (Z.to_nat (PAGE c)) (Z.to_nat (PAGE c)) ch1) as (ch' & -> & B' & _ & C'); try assumption; try lia.
  - apply Z.mod_divide in AD; [|lia]. rewrite <- Zplus_mod_idemp_r, Z_mod_same_full, Z.add_0_r, AD. lia.
  - rewrite E1. exact Hb.
  - cbn [negb]. exists ch'. split; [reflexivity|]. intro x. rewrite C', E1, Z2Nat.id by lia. reflexivity.
Qed.
Print Assumptions C52_busy_refuted.

Example C52_busy_ex : exists ch', qspi_write w25 slow 10 512 (repeat 7 (Z.to_nat 512)) (zlen (repeat 7 (Z.to_nat 512))) fresh = Val (ch', 0) /\
  forall x, cells ch' x = write (cells fresh) 768 256 (get_at (repeat 7 (Z.to_nat 512)) (Z.to_nat 256)) x.
Proof.
  apply (C52_busy_refuted w25 slow 10 fresh 512 (repeat 7 (Z.to_nat 512))); try (vm_compute; congruence); try exact w25_ok; try exact fresh_bytes; try reflexivity.
  - intro n. unfold slow. cbn [pred]. lia.
  - cbn [busy fresh]. lia.
  - cbn [busy fresh pred]. lia.
  - exists 2. reflexivity.
Qed.
