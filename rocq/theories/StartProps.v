(** C87: the caches when an image starts on PowerPC.  C88: the variables when the bootloader
    starts. *)
From Verif Require Import Base StartModel StartSpec.

(** ** C87 *)

Lemma loads_dcbst line c a x : loads line (does line c (Dcbst a)) x = loads line c x.
Proof.
  unfold loads. cbn [does data_lines main]. destruct (data_lines c (x / line)) eqn:E; [reflexivity|].
  unfold loads. rewrite E. now destruct (x / line =? a / line).
Qed.

Lemma dcbst_keeps line x l : forall c, main c x = loads line c x ->
  main (after line c (map Dcbst l)) x = loads line c x.
Proof.
  unfold after. induction l as [|a l IH]; intros c H; cbn [map fold_left]; [exact H|].
  rewrite IH; rewrite loads_dcbst; [reflexivity|]. cbn [does main]. now destruct (x / line =? a / line).
Qed.

(** Effect of a list of dcbst and of a list of icbi. *)
Lemma after_dcbst line l : forall c,
  let c' := after line c (map Dcbst l) in
  data_lines c' = data_lines c /\ code_lines c' = code_lines c /\
  (forall x, loads line c' x = loads line c x) /\
  (forall x, (exists a, In a l /\ a / line = x / line) -> main c' x = loads line c x) /\
  (forall x, ~ (exists a, In a l /\ a / line = x / line) -> main c' x = main c x).
Proof.
  induction l as [|a l IH]; intros c; cbn zeta.
  - repeat split; auto. intros x (a & [] & _).
  - change (after line c (map Dcbst (a :: l))) with (after line (does line c (Dcbst a)) (map Dcbst l)).
    destruct (IH (does line c (Dcbst a))) as (D & C & L & M & O). cbn zeta in *.
    split; [exact D|]. split; [exact C|]. split.
    { intros x. now rewrite L, loads_dcbst. }
    split.
    + intros x (b & [->|I] & E).
      * rewrite dcbst_keeps; rewrite loads_dcbst; [reflexivity|].
        cbn [does main]. rewrite E, Z.eqb_refl. reflexivity.
      * rewrite M, loads_dcbst; eauto.
    + intros x H. rewrite O.
      * cbn [does main]. destruct (x / line =? a / line) eqn:E; [|reflexivity].
        apply Z.eqb_eq in E. exfalso. apply H. exists a. split; [now left|auto].
      * intros (b & J & E). apply H. exists b. split; [now right|auto].
Qed.

Lemma after_icbi line l : forall c,
  let c' := after line c (map Icbi l) in
  data_lines c' = data_lines c /\ main c' = main c /\
  (forall n, (exists a, In a l /\ a / line = n) -> code_lines c' n = None) /\
  (forall n, code_lines c n = None -> code_lines c' n = None) /\
  (forall n, ~ (exists a, In a l /\ a / line = n) -> code_lines c' n = code_lines c n).
Proof.
  induction l as [|a l IH]; intros c; cbn zeta.
  - repeat split; auto. intros x (a & [] & _).
  - unfold after in *. cbn [map fold_left].
    destruct (IH (does line c (Icbi a))) as (D & M & I & K & N). cbn zeta in *.
    split; [exact D|]. split; [exact M|]. split; [|split].
    + intros n (b & [->|J] & E); [|eauto].
      apply K. cbn [does code_lines]. rewrite <- E, Z.eqb_refl. reflexivity.
    + intros n H. apply K. cbn [does code_lines]. now destruct (n =? a / line).
    + intros n H. rewrite N.
      * cbn [does code_lines]. destruct (n =? a / line) eqn:E; auto.
        apply Z.eqb_eq in E. exfalso. apply H. exists a. split; [now left|auto].
      * intros (b & J & E). apply H. exists b. split; [now right|auto].
Qed.

(** The loop visits each line from the first to the last. *)
Lemma lines_val line s e t : 0 < line -> line * t = 2 ^ 32 -> 0 <= s -> e < t -> 0 < s \/ e < t - 1 ->
  forall end_, end_ / line = e ->
  forall fuel i, s <= i -> i <= e + 1 -> i <= t - 1 \/ e < i -> i < t -> (Z.to_nat (e - i + 3) <= fuel)%nat ->
  exists l, line_addresses fuel line (line * i) (line * s) end_ = Val l /\
    forall n, (exists a, In a l /\ a / line = n) <-> i <= n <= e.
Proof.
  intros HL HT HS HE HW end_ <-. induction fuel as [|fuel IH]; intros i R1 R2 R3 R4 F; [lia|].
  cbn [line_addresses].
  assert (Q : (line * i <=? end_) = (i <=? end_ / line)).
  { destruct (Z.leb_spec (line * i) end_), (Z.leb_spec i (end_ / line)); try reflexivity.
    - exfalso. assert (i <= end_ / line) by (apply Z.div_le_lower_bound; lia). lia.
    - exfalso. pose proof (Z.mul_div_le end_ line HL). nia. }
  assert (Q2 : (line * s <=? line * i) = true) by (apply Z.leb_le; nia).
  rewrite Q, Q2, andb_true_r. destruct (Z.leb_spec i (end_ / line)) as [Le|Gt].
  2:{ exists []. split; [reflexivity|]. intros n. split; [intros (a & [] & _)|lia]. }
  assert (N : exists l, line_addresses fuel line ((line * i + line) mod 2 ^ 32) (line * s) end_ = Val l /\
    forall n, (exists a, In a l /\ a / line = n) <-> i + 1 <= n <= end_ / line).
  { destruct (Z.eq_dec (i + 1) t) as [E|NE].
    - replace (line * i + line) with (2 ^ 32) by (rewrite <- HT, <- E; ring).
      rewrite Z.mod_same by lia. destruct fuel as [|fuel]; [lia|]. cbn [line_addresses].
      assert ((line * s <=? 0) = false) as -> by (apply Z.leb_gt; nia).
      rewrite andb_false_r. exists []. split; [reflexivity|].
      intros n. split; [intros (a & [] & _)|lia].
    - replace (line * i + line) with (line * (i + 1)) by ring.
      rewrite Z.mod_small by (rewrite <- HT; nia). apply IH; lia. }
  destruct N as (l & E & N). rewrite E. cbv [obind]. exists (line * i :: l). split; [reflexivity|].
  intros n. split.
  - intros (a & [<-|I] & A).
    + rewrite Z.mul_comm, Z.div_mul in A by lia. lia.
    + assert (X : i + 1 <= n <= end_ / line) by (apply N; eauto). lia.
  - intros X. destruct (Z.eq_dec n i) as [->|NE].
    + exists (line * i). split; [now left|]. rewrite Z.mul_comm, Z.div_mul by lia. reflexivity.
    + destruct (proj2 (N n)) as (a & I & A); [lia|]. exists a. split; [now right|exact A].
Qed.

(** C87, the flush: whatever the caches hold, after it the processor executes in the range what the
    program has stored there.  What the program loads does not change anywhere.  The lines
    are a power of two in size, below 4 KB.  The range may end at the end of the address space unless
    it also begins in the first line. *)
Theorem C87_flush k start size : 0 <= k <= 12 -> 0 <= start -> 0 < size -> start + size <= 2 ^ 32 ->
  2 ^ k <= start \/ start + size <= 2 ^ 32 - 2 ^ k ->
  forall fuel, (Z.to_nat (size / 2 ^ k + 4) <= fuel)%nat ->
  exists ops, flush_cache fuel (2 ^ k) start size = Val ops /\
    forall c, let c' := after (2 ^ k) c ops in
      (forall a, start <= a < start + size -> fetches (2 ^ k) c' a = loads (2 ^ k) c a) /\
      (forall a, loads (2 ^ k) c' a = loads (2 ^ k) c a) /\
      (forall a, a / 2 ^ k < start / 2 ^ k \/ (start + size - 1) / 2 ^ k < a / 2 ^ k ->
                 fetches (2 ^ k) c' a = fetches (2 ^ k) c a).
Proof.
  intros HK HS HZ HE HW fuel HF.
  assert (HL : 0 < 2 ^ k) by (apply Z.pow_pos_nonneg; lia).
  assert (HT : 2 ^ k * 2 ^ (32 - k) = 2 ^ 32) by (rewrite <- Z.pow_add_r by lia; f_equal; lia).
  set (line := 2 ^ k) in *. set (t := 2 ^ (32 - k)) in *. set (s := start / line). set (e := (start + size - 1) / line).
  assert (HT0 : 0 < t) by (unfold t; apply Z.pow_pos_nonneg; lia).
  clearbody line t. clear HK k.
  assert (S0 : 0 <= s) by (apply Z.div_pos; lia).
  assert (ET : e < t) by (apply Z.div_lt_upper_bound; lia).
  assert (SE : s <= e) by (apply Z.div_le_mono; lia).
  assert (DS : start - start mod line = line * s) by (unfold s; pose proof (Z.div_mod start line); lia).
  assert (W : 0 < s \/ e < t - 1).
  { destruct HW as [HW|HW].
    - left. assert (1 <= s) by (apply Z.div_le_lower_bound; lia). lia.
    - right. apply Z.div_lt_upper_bound; [lia|]. nia. }
  assert (CNT : e - s <= size / line + 1).
  { assert (e < s + size / line + 2); [|lia].
    apply Z.div_lt_upper_bound; [lia|].
    pose proof (Z.div_mod start line). pose proof (Z.mod_pos_bound start line HL).
    pose proof (Z.div_mod size line). pose proof (Z.mod_pos_bound size line HL). fold s in H. nia. }
  destruct (lines_val line s e t HL HT S0 ET W (start + size - 1) eq_refl fuel s) as (l & E & N); try lia.
  exists (map Dcbst l ++ map Icbi l). split.
  { unfold flush_cache. rewrite DS, (Z.mod_small (start + size - 1)) by lia. rewrite E. reflexivity. }
  intros c. unfold after. rewrite fold_left_app. cbn zeta.
  destruct (after_dcbst line l c) as (D & C & L & M & O). cbn zeta in *. unfold after in *.
  set (c1 := fold_left (does line) (map Dcbst l) c) in *.
  destruct (after_icbi line l c1) as (D2 & M2 & I2 & K2 & N2). cbn zeta in *. unfold after in *.
  set (c2 := fold_left (does line) (map Icbi l) c1) in *.
  split; [|split].
  - intros a R.
    assert (X : exists b, In b l /\ b / line = a / line).
    { apply N. split; apply Z.div_le_mono; lia. }
    unfold fetches. rewrite I2 by exact X. rewrite M2. apply M, X.
  - intros a. rewrite <- L. unfold loads. now rewrite D2, M2.
  - intros a R.
    assert (X : ~ exists b, In b l /\ b / line = a / line).
    { intros X. apply N in X. fold s e in R. lia. }
    unfold fetches. rewrite N2, C, M2, O by exact X. reflexivity.
Qed.

(** The first 100 bytes of a program stored at 0x1000 are still in the data cache, and old code of
    these lines is in the instruction cache. *)
Example C87_flush_ex :
  let c := {| main := fun _ => 0; data_lines := fun n => if n <? 66 then Some (fun a => a mod 251) else None;
              code_lines := fun _ => Some (fun _ => 7) |} in
  exists ops, flush_cache 100 64 0x1000 100 = Val ops /\ length ops = 4%nat /\
    fetches 64 c 0x1001 = 7 /\ fetches 64 (after 64 c ops) 0x1001 = loads 64 c 0x1001 /\
    loads 64 c 0x1001 = 0x1001 mod 251 /\ fetches 64 (after 64 c ops) 0x1080 = 7.
Proof. eexists. split; [vm_compute; reflexivity|]. vm_compute. repeat split. Qed.

(** C87, the start of an image: its first 32 KB are executed as they were stored. *)
Theorem C87_boot k app : 0 <= k <= 12 -> 2 ^ k <= app -> app + 32768 <= 2 ^ 32 ->
  forall fuel, (Z.to_nat (32768 / 2 ^ k + 4) <= fuel)%nat ->
  exists ops, boot_flush fuel (2 ^ k) app = Val ops /\
    forall c a, app <= a < app + 32768 -> fetches (2 ^ k) (after (2 ^ k) c ops) a = loads (2 ^ k) c a.
Proof.
  intros HK HA HE fuel HF.
  destruct (C87_flush k app 32768 HK) with (fuel := fuel) as (ops & E & P); try lia.
  exists ops. split; [exact E|]. intros c a R. now apply P.
Qed.

(** C87 is false of the rest of a larger image: for every address past the lines of the first 32 KB
    there are caches with which the bytes executed there are not the ones stored, because the store is still
    in the data cache, and others because the instruction cache has an older line. *)
Theorem C87_large_refuted k app : 0 <= k <= 12 -> 2 ^ k <= app -> app + 32768 <= 2 ^ 32 ->
  forall fuel, (Z.to_nat (32768 / 2 ^ k + 4) <= fuel)%nat ->
  exists ops, boot_flush fuel (2 ^ k) app = Val ops /\
    forall a, (app + 32767) / 2 ^ k < a / 2 ^ k ->
      (exists c, (forall n, code_lines c n = None) /\
         fetches (2 ^ k) (after (2 ^ k) c ops) a <> loads (2 ^ k) c a) /\
      (exists c, (forall n, data_lines c n = None) /\
         fetches (2 ^ k) (after (2 ^ k) c ops) a <> loads (2 ^ k) c a).
Proof.
  intros HK HA HE fuel HF.
  destruct (C87_flush k app 32768 HK) with (fuel := fuel) as (ops & E & P); try lia.
  exists ops. split; [exact E|]. intros a R.
  split; [exists {| main := fun _ => 0; data_lines := fun _ => Some (fun _ => 1); code_lines := fun _ => None |}
         |exists {| main := fun _ => 0; data_lines := fun _ => None; code_lines := fun _ => Some (fun _ => 1) |}];
    (split; [reflexivity|]); destruct (P {| main := fun _ => 0; data_lines := fun _ => Some (fun _ => 1); code_lines := fun _ => None |}) as (_ & _ & Q1);
    destruct (P {| main := fun _ => 0; data_lines := fun _ => None; code_lines := fun _ => Some (fun _ => 1) |}) as (_ & _ & Q2);
    cbn zeta in *.
  - rewrite Q1 by (right; replace (app + 32768 - 1) with (app + 32767) by ring; exact R). discriminate.
  - rewrite Q2 by (right; replace (app + 32768 - 1) with (app + 32767) by ring; exact R). discriminate.
Qed.

Example C87_large_ex : (0x100000 + 32767) / 2 ^ 6 < (0x100000 + 32768) / 2 ^ 6.
Proof. reflexivity. Qed.

(** C87 is false of a range from the first line to the last, and of the empty range at address 0: the
    flush does not end. *)
Theorem C87_whole_refuted k start size : 0 <= k <= 12 -> 0 <= start < 2 ^ k ->
  2 ^ 32 - 2 ^ k <= (start + size - 1) mod 2 ^ 32 ->
  forall fuel, flush_cache fuel (2 ^ k) start size = NoFuel.
Proof.
  intros HK HS HE fuel.
  assert (HL : 0 < 2 ^ k) by (apply Z.pow_pos_nonneg; lia).
  assert (HT : 2 ^ k * 2 ^ (32 - k) = 2 ^ 32) by (rewrite <- Z.pow_add_r by lia; f_equal; lia).
  unfold flush_cache. rewrite Z.mod_small by lia. replace (start - start) with 0 by ring.
  set (e := (start + size - 1) mod 2 ^ 32) in *. clearbody e.
  set (line := 2 ^ k) in *. set (t := 2 ^ (32 - k)) in *.
  assert (HT0 : 0 < t) by (unfold t; apply Z.pow_pos_nonneg; lia).
  clearbody line t.
  assert (G : forall f i, 0 <= i < t -> line_addresses f line (line * i) 0 e = NoFuel).
  { induction f as [|f IH]; intros i R; [reflexivity|]. cbn [line_addresses].
    assert ((line * i <=? e) = true) as -> by (apply Z.leb_le; nia).
    assert ((0 <=? line * i) = true) as -> by (apply Z.leb_le; nia). cbn [andb].
    assert (NX : exists j, 0 <= j < t /\ (line * i + line) mod 2 ^ 32 = line * j).
    { destruct (Z.eq_dec (i + 1) t) as [E|NE].
      - exists 0. split; [lia|]. replace (line * i + line) with (2 ^ 32) by (rewrite <- HT, <- E; ring).
        rewrite Z.mod_same by lia. ring.
      - exists (i + 1). split; [lia|]. rewrite Z.mod_small; [ring|]. rewrite <- HT. nia. }
    destruct NX as (j & RJ & ->). rewrite IH by exact RJ. reflexivity. }
  specialize (G fuel 0). rewrite Z.mul_0_r in G. rewrite G by lia. reflexivity.
Qed.

Example C87_whole_ex : 2 ^ 32 - 2 ^ 5 <= (0 + 0 - 1) mod 2 ^ 32.
Proof. discriminate. Qed.

(** ** C88 *)

Lemma copy_data_val : forall w fuel src dst m, (w < fuel)%nat ->
  (src + 4 * Z.of_nat w <= dst \/ dst + 4 * Z.of_nat w <= src) ->
  exists m', copy_data fuel src dst (dst + 4 * Z.of_nat w) m = Val m' /\
    (forall a, dst <= a < dst + 4 * Z.of_nat w -> m' a = m (src + (a - dst))) /\
    (forall a, ~ dst <= a < dst + 4 * Z.of_nat w -> m' a = m a).
Proof.
  induction w as [|w IH]; intros fuel src dst m F D; (destruct fuel as [|fuel]; [lia|]); cbn [copy_data].
  - assert ((dst <? dst + 4 * Z.of_nat 0) = false) as -> by (apply Z.ltb_ge; lia).
    exists m. split; [reflexivity|]. split; [lia|auto].
  - assert ((dst <? dst + 4 * Z.of_nat (S w)) = true) as -> by (apply Z.ltb_lt; lia).
    destruct (IH fuel (src + 4) (dst + 4) (copy_word dst src m)) as (m' & E & I & O); [lia|lia|].
    replace (dst + 4 * Z.of_nat (S w)) with (dst + 4 + 4 * Z.of_nat w) by lia.
    exists m'. split; [exact E|]. split.
    + intros a R. destruct (Z_lt_dec a (dst + 4)) as [Lt|Ge].
      * rewrite O by lia. unfold copy_word.
        destruct (Z.leb_spec dst a), (Z.ltb_spec a (dst + 4)); try lia. reflexivity.
      * rewrite I by lia. replace (src + 4 + (a - (dst + 4))) with (src + (a - dst)) by ring.
        unfold copy_word.
        destruct (Z.leb_spec dst (src + (a - dst))), (Z.ltb_spec (src + (a - dst)) (dst + 4)); cbn [andb]; try reflexivity; lia.
    + intros a R. rewrite O by lia. unfold copy_word.
      destruct (Z.leb_spec dst a), (Z.ltb_spec a (dst + 4)); cbn [andb]; try reflexivity; lia.
Qed.

Lemma zero_bss_val : forall w fuel dst m, (w < fuel)%nat ->
  exists m', zero_bss fuel dst (dst + 4 * Z.of_nat w) m = Val m' /\
    (forall a, dst <= a < dst + 4 * Z.of_nat w -> m' a = 0) /\
    (forall a, ~ dst <= a < dst + 4 * Z.of_nat w -> m' a = m a).
Proof.
  induction w as [|w IH]; intros fuel dst m F; (destruct fuel as [|fuel]; [lia|]); cbn [zero_bss].
  - assert ((dst <? dst + 4 * Z.of_nat 0) = false) as -> by (apply Z.ltb_ge; lia).
    exists m. split; [reflexivity|]. split; [lia|auto].
  - assert ((dst <? dst + 4 * Z.of_nat (S w)) = true) as -> by (apply Z.ltb_lt; lia).
    destruct (IH fuel (dst + 4) (zero_word dst m)) as (m' & E & I & O); [lia|].
    replace (dst + 4 * Z.of_nat (S w)) with (dst + 4 + 4 * Z.of_nat w) by lia.
    exists m'. split; [exact E|]. split.
    + intros a R. destruct (Z_lt_dec a (dst + 4)) as [Lt|Ge]; [|apply I; lia].
      rewrite O by lia. unfold zero_word.
      destruct (Z.leb_spec dst a), (Z.ltb_spec a (dst + 4)); try lia. reflexivity.
    + intros a R. rewrite O by lia. unfold zero_word.
      destruct (Z.leb_spec dst a), (Z.ltb_spec a (dst + 4)); cbn [andb]; try reflexivity; lia.
Qed.

(** C88: when main is called every variable has its initial value and the rest of memory is as it was,
    whatever memory contained. *)
Theorem C88_initialised s : laid_out s ->
  forall fuel, (Z.to_nat ((end_data s - start_data s) / 4) < fuel)%nat ->
  (Z.to_nat ((end_bss s - start_bss s) / 4) < fuel)%nat ->
  forall m, exists m', reset fuel s m = Val m' /\ initialised s m m'.
Proof.
  intros (D & DW & B & BW & DIS & ST) fuel F1 F2 m.
  set (wd := Z.to_nat ((end_data s - start_data s) / 4)) in *.
  set (wb := Z.to_nat ((end_bss s - start_bss s) / 4)) in *.
  assert (ED : end_data s = start_data s + 4 * Z.of_nat wd).
  { unfold wd. rewrite Z2Nat.id by (apply Z.div_pos; lia).
    pose proof (Z.div_mod (end_data s - start_data s) 4). lia. }
  assert (EB : end_bss s = start_bss s + 4 * Z.of_nat wb).
  { unfold wb. rewrite Z2Nat.id by (apply Z.div_pos; lia).
    pose proof (Z.div_mod (end_bss s - start_bss s) 4). lia. }
  clearbody wd wb.
  destruct (copy_data_val wd fuel (stored_data s) (start_data s) m F1) as (m1 & E1 & I1 & O1); [lia|].
  destruct (zero_bss_val wb fuel (start_bss s) m1 F2) as (m2 & E2 & I2 & O2).
  exists m2. split.
  { unfold reset. rewrite ED, E1. cbv [obind]. rewrite EB. exact E2. }
  unfold initialised. rewrite ED, EB in *. split; [|split].
  - intros a R. rewrite O2 by lia. now apply I1.
  - exact I2.
  - intros a R1 R2. rewrite O2, O1 by assumption. reflexivity.
Qed.

(** Two words with values, three without; the values are in flash. *)
Example C88_ex :
  let s := {| stored_data := 0x4000; start_data := 0x20000000; end_data := 0x20000008;
              start_bss := 0x20000008; end_bss := 0x20000014 |} in
  laid_out s /\
  match reset 10 s (fun a => a mod 256 + 1) with
  | Val m => map m [0x20000000; 0x20000007; 0x20000008; 0x20000013; 0x20000014] = [1; 8; 0; 0; 0x15]
  | _ => False
  end.
Proof. split; [unfold laid_out; cbn; lia|vm_compute; reflexivity]. Qed.

(** C88 depends on the linker script: if the variables do not end at a word, up to three bytes after them
    are overwritten. *)
Theorem C88_unaligned_refuted : exists s m m',
  (end_bss s - start_bss s) mod 4 <> 0 /\ reset 10 s m = Val m' /\
  ~ start_data s <= 0x20000007 < end_data s /\ ~ start_bss s <= 0x20000007 < end_bss s /\
  m' 0x20000007 <> m 0x20000007.
Proof.
  exists {| stored_data := 0x4000; start_data := 0x20000000; end_data := 0x20000000;
            start_bss := 0x20000000; end_bss := 0x20000005 |}, (fun _ => 9).
  eexists. split; [discriminate|]. split; [reflexivity|]. cbn [start_data end_data start_bss end_bss].
  split; [lia|]. split; [lia|]. discriminate.
Qed.

Print Assumptions C87_flush.
Print Assumptions C87_boot.
Print Assumptions C87_large_refuted.
Print Assumptions C87_whole_refuted.
Print Assumptions C88_initialised.
Print Assumptions C88_unaligned_refuted.
