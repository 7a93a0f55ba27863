(** Properties of the encryption: C30, C31, C37, C38. *)
From Verif Require Import Base BaseLemmas HeaderModel Flash FlashLemmas ImageModel TrailerModel Geometry SwapSpec Sample CryptModel CryptSpec CryptProofs.
Local Ltac Zify.zify_post_hook ::= idtac.

(** ** C30: the AES counter block *)

(** The counter block for block [n] is the nonce plus [n], as 128-bit big-endian numbers. *)
Theorem C30_counter : forall nonce n, all_bytes nonce -> length nonce = 16%nat -> 0 <= n < 2 ^ 32 ->
  all_bytes (aes_set_iv nonce n) /\ length (aes_set_iv nonce n) = 16%nat /\
  be_val (aes_set_iv nonce n) = (be_val nonce + n) mod 2 ^ 128.
Proof. exact set_iv_ok. Qed.
Print Assumptions C30_counter.

(** Different blocks of a partition never share a counter block. *)
Theorem C30_distinct : forall nonce n m, all_bytes nonce -> length nonce = 16%nat -> 0 <= n < 2 ^ 32 -> 0 <= m < 2 ^ 32 ->
  aes_set_iv nonce n = aes_set_iv nonce m -> n = m.
Proof.
  intros nonce n m Hb L Hn Hm E. destruct (set_iv_ok nonce n Hb L Hn) as (_ & _ & V1). destruct (set_iv_ok nonce m Hb L Hm) as (_ & _ & V2). rewrite E in V1.
  rewrite V1 in V2. clear V1 E. pose proof (be_val_range nonce Hb) as R. unfold zlen in R. rewrite L in R. change (256 ^ Z.of_nat 16) with (2 ^ 128) in R.
  pose proof (Z.div_mod (be_val nonce + n) (2 ^ 128) ltac:(lia)) as D1. pose proof (Z.div_mod (be_val nonce + m) (2 ^ 128) ltac:(lia)) as D2. rewrite V2 in D1.
  assert (2 ^ 32 < 2 ^ 128) by reflexivity. set (q1 := (be_val nonce + n) / 2 ^ 128) in *. set (q2 := (be_val nonce + m) / 2 ^ 128) in *.
  assert (Q : q1 = q2) by nia. rewrite Q in D1. lia.
Qed.
Print Assumptions C30_distinct.

Fixpoint steps (C : cipher) (n : nat) (s : St C) : St C := match n with O => s | S k => steps C k (next C s) end.

(** Counting on from a block, as the signing tool does over a whole file, is the same as
    seeking to the later block, as the bootloader does for every read. *)
Theorem C30_seek : forall E nonce a n, all_bytes nonce -> length nonce = 16%nat -> 0 <= a -> a + Z.of_nat n < 2 ^ 32 ->
  steps (aes_cipher E nonce) n (aes_set_iv nonce a) = aes_set_iv nonce (a + Z.of_nat n).
Proof.
  intros E nonce a n Hb L. revert a. induction n as [|n IH]; intros a Ha Hn; cbn [steps].
  - rewrite Z.add_0_r. reflexivity.
  - pose proof (aes_lawful (fun _ => []) nonce Hb L ltac:(intro; constructor)) as (_ & Nx & _). cbn [next seek aes_cipher] in *.
    rewrite Nx by lia. rewrite IH by lia. f_equal. lia.
Qed.
Print Assumptions C30_seek.

(** A nonce whose low words overflow. *)
Definition demo_nonce : list Z := [1; 2; 3; 4; 5; 6; 7; 8; 255; 255; 255; 255; 255; 255; 255; 254].
Example C30_hyps : all_bytes demo_nonce /\ length demo_nonce = 16%nat /\
  aes_set_iv demo_nonce 3 = [1; 2; 3; 4; 5; 6; 7; 9; 0; 0; 0; 0; 0; 0; 0; 1].
Proof. split; [repeat (constructor; [unfold is_byte; lia|]); constructor|]. split; reflexivity. Qed.

(** ** C31: the encrypted external flash *)

(** Whole blocks are stored encrypted, and nothing else changes. *)
Theorem C31_write : forall e f a data, ext_ok e -> all_bytes data ->
  0 <= a -> a mod EBS (EC e) = 0 -> 0 < zlen data <= CSZ e -> zlen data mod EBS (EC e) = 0 -> a + zlen data <= plain_from e ->
  blank e f a (zlen data) ->
  exists f', enc_write e true f (UPD e + a) data (zlen data) = Val (0, f') /\ stores e f' a data /\
    forall x, ~ (UPD e + a <= x < UPD e + a + zlen data) -> f' x = f x.
Proof.
  intros e f a data HO HD Ha Am (L0 & LC) Lm HP HE. pose proof HO as ((HB & _) & _ & _ & HS & _).
  assert (PF : plain_from e <= SFO e - EBS (EC e)) by (unfold plain_from; pose proof (Z.mul_div_le (SFO e - EBS (EC e)) (EBS (EC e)) HB); lia).
  rewrite enc_write_ok by (auto; lia). assert (EF : firstn (Z.to_nat (zlen data)) data = data) by (unfold zlen; rewrite Nat2Z.id; apply firstn_all). rewrite EF.
  eexists. split; [reflexivity|]. split; [apply write_stores; auto|]. intros x Hx. apply write_out. exact Hx.
Qed.
Print Assumptions C31_write.

(** A stream of chunks, each of whole blocks. *)
Theorem C31_chunks : forall e chunks f a, ext_ok e -> 0 <= a -> a mod EBS (EC e) = 0 ->
  Forall (fun x => all_bytes x /\ 0 < zlen x <= CSZ e /\ zlen x mod EBS (EC e) = 0) chunks ->
  a + zlen (concat chunks) <= plain_from e -> blank e f a (zlen (concat chunks)) ->
  exists f', enc_writes e f (UPD e + a) chunks = Val (Some f') /\ stores e f' a (concat chunks) /\
    forall x, ~ (UPD e + a <= x < UPD e + a + zlen (concat chunks)) -> f' x = f x.
Proof.
  intros e chunks. induction chunks as [|x r IH]; intros f a HO Ha Am HF HP HE; cbn [enc_writes concat] in *.
  - exists f. split; [reflexivity|]. split; [|intros; reflexivity]. intros i Hi. unfold zlen in Hi. cbn [length] in Hi. lia.
  - inversion HF as [|? ? (X1 & X2 & X3) HR]; subst. assert (ZA : zlen (x ++ concat r) = zlen x + zlen (concat r)) by (unfold zlen; rewrite app_length; lia).
    assert (NN : 0 <= zlen (concat r)) by (unfold zlen; lia). rewrite ZA in *.
    destruct (C31_write e f a x HO X1 Ha Am X2 X3 ltac:(lia)) as (f1 & R1 & S1 & F1); [intros i Hi; apply HE; lia|].
    rewrite R1. cbn [obind]. change (0 =? 0) with true. cbv iota. replace (UPD e + a + zlen x) with (UPD e + (a + zlen x)) by ring.
    assert (Am' : (a + zlen x) mod EBS (EC e) = 0) by (rewrite Z.add_mod, Am, X3 by (destruct HO as ((HB & _) & _); lia); apply Z.mod_0_l; destruct HO as ((HB & _) & _); lia).
    assert (HP' : a + zlen x + zlen (concat r) <= plain_from e) by (clear -HP; lia).
    destruct (IH f1 (a + zlen x) HO ltac:(clear -Ha X2; lia) Am' HR HP') as (f2 & R2 & S2 & F2).
    { intros i Hi. rewrite F1 by (clear -Hi; lia). replace (UPD e + (a + zlen x) + i) with (UPD e + a + (zlen x + i)) by ring. apply HE. clear -Hi X2. lia. }
    exists f2. split; [exact R2|]. split.
    + intros i Hi. rewrite ZA in Hi. destruct (Z.lt_ge_cases i (zlen x)) as [L|L].
      * rewrite F2 by (clear -L; lia). rewrite (S1 i) by (clear -L Hi; lia). f_equal. rewrite app_nth1 by (clear -L Hi; unfold zlen in L; lia). reflexivity.
      * specialize (S2 (i - zlen x) ltac:(clear -L Hi; lia)). replace (UPD e + (a + zlen x) + (i - zlen x)) with (UPD e + a + i) in S2 by ring. rewrite S2. f_equal.
        -- rewrite app_nth2 by (clear -L Hi; unfold zlen in L; lia). f_equal. clear -L Hi. unfold zlen. lia.
        -- f_equal. ring.
    + intros y Hy. rewrite F2 by (clear -Hy X2; lia). apply F1. clear -Hy NN. lia.
Qed.
Print Assumptions C31_chunks.

(** A read inside what is stored gives the plaintext, whatever the cipher did before. *)
Theorem C31_read : forall e cur f a P o n, ext_ok e -> 0 <= a -> stores e f a P -> a + zlen P <= plain_from e ->
  0 <= o < zlen P -> o + n <= zlen P -> readable e (a + o) n ->
  dec_read e true cur f (UPD e + (a + o)) n = Val (n, firstn (Z.to_nat n) (skipn (Z.to_nat o) P)).
Proof.
  intros e cur f a P o n HO Ha S HP Ho Hn (N0 & HR). pose proof HO as ((HB & _) & _ & _ & HS & _).
  assert (PF : plain_from e <= SFO e - EBS (EC e)) by (unfold plain_from; pose proof (Z.mul_div_le (SFO e - EBS (EC e)) (EBS (EC e)) HB); lia).
  assert (PS : a + o + n <= PSZ e) by (clear -HS PF HP Hn HB; lia). assert (AO : 0 <= a + o < plain_from e) by (clear -Ha HP Ho; lia).
  rewrite (dec_read_ok e cur f (a + o) n HO AO N0 PS HR). rewrite (stores_read e f a P o n HO S) by (clear -N0 Ho Hn; lia). reflexivity.
Qed.
Print Assumptions C31_read.

(** What a stream of chunks wrote is what any later read returns. *)
Theorem C31_round_trip : forall e chunks f a cur o n, ext_ok e -> 0 <= a -> a mod EBS (EC e) = 0 ->
  Forall (fun x => all_bytes x /\ 0 < zlen x <= CSZ e /\ zlen x mod EBS (EC e) = 0) chunks ->
  a + zlen (concat chunks) <= plain_from e -> blank e f a (zlen (concat chunks)) ->
  0 <= o < zlen (concat chunks) -> o + n <= zlen (concat chunks) -> readable e (a + o) n ->
  exists f', enc_writes e f (UPD e + a) chunks = Val (Some f') /\
    dec_read e true cur f' (UPD e + (a + o)) n = Val (n, firstn (Z.to_nat n) (skipn (Z.to_nat o) (concat chunks))).
Proof.
  intros e chunks f a cur o n HO Ha Am HF HP HE Ho Hn HR. destruct (C31_chunks e chunks f a HO Ha Am HF HP HE) as (f' & R & S & _).
  exists f'. split; [exact R|]. apply C31_read; auto.
Qed.
Print Assumptions C31_round_trip.

(** The end of the partition, with the update state and the sector flags, is not encrypted:
    it is written and read as it is, with or without a key. *)
Theorem C31_flags_plain : forall e kok cur f a data n, ext_ok e -> 0 <= a < PSZ e -> plain_from e <= a -> 0 <= n <= zlen data ->
  enc_write e kok f (UPD e + a) data n = Val (0, write f (UPD e + a) n (fun i => nth (Z.to_nat i) data 0)) /\
  dec_read e kok cur f (UPD e + a) n = Val (n, rdl f (UPD e + a) (Z.to_nat n)).
Proof.
  intros e kok cur f a data n HO Ha HP Hn. pose proof HO as ((HB & _) & _). split.
  - unfold enc_write. rewrite in_update by lia. replace (UPD e + a - UPD e) with a by ring. rewrite plain_block_spec by exact HB.
    destruct (Z.leb_spec (plain_from e) a) as [_|]; [|lia]. rewrite ext_write_ok by lia. reflexivity.
  - unfold dec_read. rewrite (upd_mod e a HO). replace (UPD e + a - a mod EBS (EC e)) with (UPD e + (a - a mod EBS (EC e))) by ring.
    pose proof (Z.mod_pos_bound a (EBS (EC e)) HB). pose proof (Z.mod_le a (EBS (EC e)) ltac:(lia) HB).
    rewrite in_update by lia. replace (UPD e + a - UPD e) with a by ring. rewrite plain_block_spec by exact HB.
    destruct (Z.leb_spec (plain_from e) a) as [_|]; [|lia]. reflexivity.
Qed.
Print Assumptions C31_flags_plain.

(** Without a usable key the encrypted area is neither written nor read. *)
Theorem C31_no_key : forall e cur f a data n, ext_ok e -> 0 <= a < plain_from e ->
  enc_write e false f (UPD e + a) data n = Val (-1, f) /\ dec_read e false cur f (UPD e + a) n = Val (-1, []).
Proof.
  intros e cur f a data n HO Ha. pose proof HO as ((HB & _) & _ & _ & HS & _).
  assert (PF : plain_from e <= SFO e - EBS (EC e)) by (unfold plain_from; pose proof (Z.mul_div_le (SFO e - EBS (EC e)) (EBS (EC e)) HB); lia). split.
  - unfold enc_write. rewrite in_update by lia. replace (UPD e + a - UPD e) with a by ring. rewrite plain_block_spec by exact HB.
    destruct (Z.leb_spec (plain_from e) a) as [|_]; [lia|]. reflexivity.
  - unfold dec_read. rewrite (upd_mod e a HO). replace (UPD e + a - a mod EBS (EC e)) with (UPD e + (a - a mod EBS (EC e))) by ring.
    pose proof (Z.mod_pos_bound a (EBS (EC e)) HB). pose proof (Z.mod_le a (EBS (EC e)) ltac:(lia) HB).
    rewrite in_update by lia. replace (UPD e + a - UPD e) with a by ring. rewrite plain_block_spec by exact HB.
    destruct (Z.leb_spec (plain_from e) a) as [|_]; [lia|]. reflexivity.
Qed.
Print Assumptions C31_no_key.

(** Exactly the other reads overrun the caller's buffer. *)
Theorem C31_read_overrun : forall e cur f a n, ext_ok e -> 0 <= a < plain_from e -> 0 <= n -> a + n <= PSZ e ->
  (dec_read e true cur f (UPD e + a) n = UB <-> ~ readable e a n).
Proof.
  intros e cur f a n HO Ha Hn HS. pose proof HO as ((HB & _) & _ & _ & HSF & _).
  assert (PF : plain_from e <= SFO e - EBS (EC e)) by (unfold plain_from; pose proof (Z.mul_div_le (SFO e - EBS (EC e)) (EBS (EC e)) HB); lia).
  pose proof (Z.mod_pos_bound a (EBS (EC e)) HB) as R. pose proof (Z.mod_le a (EBS (EC e)) ltac:(lia) HB) as RL.
  destruct (Z.eq_dec (a mod EBS (EC e)) 0) as [E0|E0]; [|destruct (Z.lt_ge_cases n (EBS (EC e) - a mod EBS (EC e))) as [L|L]].
  - split; intro H; [|exfalso; apply H; split; [exact Hn|left; exact E0]].
    rewrite (dec_read_ok e cur f a n HO Ha Hn HS (or_introl E0)) in H. discriminate H.
  - split; intro H; [intros (_ & [Z0|Z0]); lia|]. unfold dec_read. rewrite (upd_mod e a HO).
    replace (UPD e + a - a mod EBS (EC e)) with (UPD e + (a - a mod EBS (EC e))) by ring.
    rewrite in_update by lia. replace (UPD e + a - UPD e) with a by ring. rewrite plain_block_spec by exact HB.
    destruct (Z.leb_spec (plain_from e) a) as [|_]; [lia|]. cbn [negb]. destruct (Z.eqb_spec (a mod EBS (EC e)) 0) as [|_]; [contradiction|].
    destruct (Z.ltb_spec n (EBS (EC e) - a mod EBS (EC e))) as [_|]; [|lia]. reflexivity.
  - split; intro H; [|exfalso; apply H; split; [exact Hn|right; lia]].
    rewrite (dec_read_ok e cur f a n HO Ha Hn HS (or_intror L)) in H. discriminate H.
Qed.
Print Assumptions C31_read_overrun.

(** An aligned write of at least one block stores the whole blocks and drops the rest. *)
Theorem C31_write_whole_blocks : forall e f a data len, ext_ok e -> 0 <= a < plain_from e -> a mod EBS (EC e) = 0 ->
  EBS (EC e) <= len <= zlen data -> len <= CSZ e -> a + len <= PSZ e ->
  let step := len / EBS (EC e) * EBS (EC e) in
  enc_write e true f (UPD e + a) data len = enc_write e true f (UPD e + a) (firstn (Z.to_nat step) data) step.
Proof.
  intros e f a data len HO Ha Am Hl HC HS step. pose proof HO as ((HB & _) & _ & _ & HSF & _).
  assert (PF : plain_from e <= SFO e - EBS (EC e)) by (unfold plain_from; pose proof (Z.mul_div_le (SFO e - EBS (EC e)) (EBS (EC e)) HB); lia).
  assert (ST : EBS (EC e) <= step <= len).
  { unfold step. pose proof (Z.mul_div_le len (EBS (EC e)) HB). assert (1 <= len / EBS (EC e)) by (apply Z.div_le_lower_bound; lia). nia. }
  assert (SM : step mod EBS (EC e) = 0) by apply Z_mod_mult.
  assert (ZF : zlen (firstn (Z.to_nat step) data) = step) by (unfold zlen in *; rewrite firstn_length; lia).
  rewrite (enc_write_ok e f a (firstn (Z.to_nat step) data) step) by (auto; lia).
  rewrite firstn_firstn, Nat.min_id.
  unfold enc_write. rewrite (upd_mod e a HO), Am. cbn [Z.eqb]. rewrite in_update by lia. replace (UPD e + a - UPD e) with a by ring.
  rewrite plain_block_spec by exact HB. destruct (Z.leb_spec (plain_from e) a) as [|_]; [lia|]. cbn [negb].
  destruct (Z.ltb_spec len (EBS (EC e))) as [|_]; [lia|]. rewrite Z.ltb_irrefl. cbn [fst snd obind]. fold step.
  destruct (Z.ltb_spec step 0) as [|_]; [lia|]. destruct (Z.ltb_spec (CSZ e) step) as [|_]; [lia|]. destruct (Z.ltb_spec (zlen data) step) as [|_]; [lia|]. cbn [orb].
  replace (process (EC e) (seek (EC e) (a / EBS (EC e))) 0 (firstn (Z.to_nat step) data)) with
    (process (EC e) (seek (EC e) (a / EBS (EC e))) (a mod EBS (EC e)) (firstn (Z.to_nat step) data)) by (rewrite Am; reflexivity).
  pose proof HO as (Lw & _ & _ & _ & HPS & _).
  rewrite process_stream; [|exact Lw|lia|rewrite ZF; apply div_bound; [exact HB|lia|lia]].
  rewrite ext_write_ok; [reflexivity|]. unfold zlen in *. rewrite encrypted_length. lia.
Qed.
Print Assumptions C31_write_whole_blocks.

(** An aligned write shorter than a block is undefined unless a whole block of data can be
    read. *)
Theorem C31_write_short : forall e f a data len, ext_ok e -> 0 <= a < plain_from e -> a mod EBS (EC e) = 0 ->
  0 < len < EBS (EC e) -> zlen data < EBS (EC e) -> enc_write e true f (UPD e + a) data len = UB.
Proof.
  intros e f a data len HO Ha Am Hl HD. pose proof HO as ((HB & _) & _ & _ & HSF & _).
  assert (PF : plain_from e <= SFO e - EBS (EC e)) by (unfold plain_from; pose proof (Z.mul_div_le (SFO e - EBS (EC e)) (EBS (EC e)) HB); lia).
  unfold enc_write. rewrite (upd_mod e a HO), Am. cbn [Z.eqb]. rewrite in_update by lia. replace (UPD e + a - UPD e) with a by ring.
  rewrite plain_block_spec by exact HB. destruct (Z.leb_spec (plain_from e) a) as [|_]; [lia|]. cbn [negb].
  destruct (Z.ltb_spec len (EBS (EC e))) as [_|]; [|lia]. destruct (Z.ltb_spec len (EBS (EC e))) as [_|]; [|lia].
  rewrite Z.sub_0_r. destruct (Z.ltb_spec (zlen data) (EBS (EC e))) as [_|]; [|lia]. reflexivity.
Qed.
Print Assumptions C31_write_short.

(** A device. *)
Definition demo_E (s : list Z) : list Z := map (fun b => (7 * b + 13) mod 256) s.
Definition demo_ext : ext :=
  {| EC := aes_cipher demo_E demo_nonce; UPD := 4096; PSZ := 1024; SWP := 8192; SSZ := 256; SFO := 960; CSZ := 256 |}.
Lemma demo_ext_ok : ext_ok demo_ext.
Proof.
  split; [|cbn; lia]. apply aes_lawful; [apply C30_hyps|reflexivity|]. intro s. unfold demo_E, all_bytes. apply Forall_forall.
  intros x H. apply in_map_iff in H as (b & <- & _). unfold is_byte. apply Z.mod_pos_bound. lia.
Qed.
Definition demo_erased : flash := fun _ => 255.
Definition demo_chunk (b : Z) (n : nat) : list Z := map (fun i => (b + 3 * Z.of_nat i) mod 256) (seq 0 n).

Example C31_hyps :
  let chunks := [demo_chunk 5 48; demo_chunk 9 16] in
  ext_ok demo_ext /\ plain_from demo_ext = 944 /\
  Forall (fun x => all_bytes x /\ 0 < zlen x <= CSZ demo_ext /\ zlen x mod EBS (EC demo_ext) = 0) chunks /\
  32 + zlen (concat chunks) <= plain_from demo_ext /\ blank demo_ext demo_erased 32 (zlen (concat chunks)) /\
  readable demo_ext (32 + 40) 20 /\ 0 <= 40 < zlen (concat chunks) /\ 40 + 20 <= zlen (concat chunks) /\
  obind (enc_writes demo_ext demo_erased (4096 + 32) chunks)
    (fun r => match r with Some f => dec_read demo_ext true ([], 0) f (4096 + 72) 20 | None => UB end) =
  Val (20, firstn 20 (skipn 40 (concat chunks))).
Proof.
  cbv zeta. split; [exact demo_ext_ok|]. split; [reflexivity|]. split.
  { repeat (apply Forall_cons; [split; [|vm_compute; split; [split; [reflexivity|discriminate]|reflexivity]]|]); [| |apply Forall_nil].
    all: apply Forall_forall; intros x H; apply in_map_iff in H as (i & <- & _); unfold is_byte; apply Z.mod_pos_bound; lia. }
  split; [vm_compute; discriminate|]. split; [intros i _; reflexivity|]. split; [split; [lia|right; vm_compute; discriminate]|].
  split; [vm_compute; split; [discriminate|reflexivity]|]. split; [vm_compute; discriminate|]. vm_compute. reflexivity.
Qed.

(** A read that starts and ends inside one block overruns the caller's buffer. *)
Theorem C31_short_read_refuted : exists e f a P cur o n, ext_ok e /\ stores e f a P /\ a + zlen P <= plain_from e /\
  0 <= a /\ 0 <= o /\ 0 < n /\ o + n <= zlen P /\ dec_read e true cur f (UPD e + (a + o)) n = UB.
Proof.
  exists demo_ext, (fun x => Z.lxor 7 (stream (EC demo_ext) (x - 4096))), 0, (repeat 7 32), ([], 0), 4, 8. split; [exact demo_ext_ok|]. split.
  - intros i Hi. cbv beta. replace (UPD demo_ext + 0 + i - 4096) with (0 + i) by (cbn [UPD demo_ext]; ring). f_equal.
    change (zlen (repeat 7 32)) with 32 in Hi. assert (N : forall k, (k < 32)%nat -> nth k (repeat 7 32) 0 = 7) by (intros k Hk; do 32 (destruct k as [|k]; [reflexivity|]); lia).
    symmetry. apply N. lia.
  - vm_compute. repeat split; try discriminate; reflexivity.
Qed.
Print Assumptions C31_short_read_refuted.

(** The bytes after the last whole block of a write are dropped, and success is reported. *)
Theorem C31_partial_block_refuted : exists e a data f', ext_ok e /\ all_bytes data /\ a mod EBS (EC e) = 0 /\
  0 < zlen data <= CSZ e /\ a + zlen data <= plain_from e /\ 0 <= a /\
  enc_write e true demo_erased (UPD e + a) data (zlen data) = Val (0, f') /\ ~ stores e f' a data.
Proof.
  eexists demo_ext, 0, (repeat 7 20), _. split; [exact demo_ext_ok|]. split; [apply Forall_forall; intros x H; apply repeat_spec in H; subst; unfold is_byte; lia|].
  split; [reflexivity|]. split; [vm_compute; split; [reflexivity|discriminate]|]. split; [vm_compute; discriminate|]. split; [lia|]. split.
  - unfold enc_write. change (part_address demo_ext (UPD demo_ext + 0)) with EUPDATE. cbv iota.
    change (plain_block demo_ext ((UPD demo_ext + 0 - UPD demo_ext) / EBS (EC demo_ext))) with false. cbv iota. cbn [negb]. reflexivity.
  - intro S. specialize (S 18 ltac:(vm_compute; split; [discriminate|reflexivity])). vm_compute in S. discriminate.
Qed.
Print Assumptions C31_partial_block_refuted.

(** A write shorter than a block reads past the end of the caller's data. *)
Theorem C31_short_write_refuted : exists e a data, ext_ok e /\ all_bytes data /\ a mod EBS (EC e) = 0 /\ 0 < zlen data /\
  0 <= a /\ a + zlen data <= plain_from e /\ enc_write e true demo_erased (UPD e + a) data (zlen data) = UB.
Proof.
  exists demo_ext, 0, (repeat 7 8). split; [exact demo_ext_ok|]. split; [apply Forall_forall; intros x H; apply repeat_spec in H; subst; unfold is_byte; lia|].
  split; [reflexivity|]. split; [reflexivity|]. split; [lia|]. split; [vm_compute; discriminate|]. reflexivity.
Qed.
Print Assumptions C31_short_write_refuted.

(** A write that starts inside a block destroys what was stored before it in that block,
    even if the rest of the block is erased. *)
Theorem C31_unaligned_write_refuted : exists e f f' a data before, ext_ok e /\ all_bytes data /\
  stores e f 0 before /\ zlen before < a /\ blank e f a (zlen data) /\ (a + zlen data) mod EBS (EC e) = 0 /\ a + zlen data <= plain_from e /\
  enc_write e true f (UPD e + a) data (zlen data) = Val (0, f') /\ ~ stores e f' 0 before.
Proof.
  eexists demo_ext, (fun x => if x <? 4096 + 4 then Z.lxor 7 (stream (EC demo_ext) (x - 4096)) else 255), _, 8, (repeat 9 8), (repeat 7 4). split; [exact demo_ext_ok|].
  split; [apply Forall_forall; intros x H; apply repeat_spec in H; subst; unfold is_byte; lia|]. split.
  { intros i Hi. change (zlen (repeat 7 4)) with 4 in Hi. cbn [UPD demo_ext]. destruct (Z.ltb_spec (4096 + 0 + i) (4096 + 4)); [|lia].
    replace (4096 + 0 + i - 4096) with (0 + i) by ring. f_equal. assert (C : i = 0 \/ i = 1 \/ i = 2 \/ i = 3) by lia.
    destruct C as [ -> |[ -> |[ -> | -> ]]]; reflexivity. }
  split; [reflexivity|]. split.
  { intros i Hi. change (zlen (repeat 9 8)) with 8 in Hi. cbn [UPD demo_ext]. destruct (Z.ltb_spec (4096 + 8 + i) (4096 + 4)); [lia|reflexivity]. }
  split; [reflexivity|]. split; [vm_compute; discriminate|]. split.
  - unfold enc_write. change (part_address demo_ext (UPD demo_ext + 8)) with EUPDATE. cbv iota.
    change (plain_block demo_ext ((UPD demo_ext + 8 - UPD demo_ext) / EBS (EC demo_ext))) with false. cbv iota. cbn [negb]. reflexivity.
  - intro S. specialize (S 0 ltac:(vm_compute; split; [discriminate|reflexivity])). vm_compute in S. discriminate.
Qed.
Print Assumptions C31_unaligned_write_refuted.

(** A write that starts inside a block: if the block and what follows are erased, the bytes
    are stored as well, the rest of that block is spoilt, nothing else changes. *)
Theorem C31_write_unaligned : forall e f a data, ext_ok e -> all_bytes data -> 0 <= a ->
  let r := a mod EBS (EC e) in
  0 < r -> EBS (EC e) - r <= zlen data <= CSZ e -> (a + zlen data) mod EBS (EC e) = 0 -> a + zlen data <= plain_from e ->
  blank e f (a - r) (r + zlen data) ->
  exists f', enc_write e true f (UPD e + a) data (zlen data) = Val (0, f') /\ stores e f' a data /\
    forall x, ~ (UPD e + (a - r) <= x < UPD e + a + zlen data) -> f' x = f x.
Proof.
  intros e f a data HO HD Ha r Hr (HL & HC) Em HP HE. pose proof HO as (Lw & HU & U0 & HSF & HPS & _). pose proof Lw as (HB & _).
  assert (PF : plain_from e <= SFO e - EBS (EC e)) by (unfold plain_from; pose proof (Z.mul_div_le (SFO e - EBS (EC e)) (EBS (EC e)) HB); lia).
  set (B := EBS (EC e)) in *. assert (R : 0 <= r < B) by (apply Z.mod_pos_bound; exact HB).
  assert (AR : 0 <= a - r) by (unfold r; pose proof (Z.mod_le a B Ha HB); lia).
  assert (DR : (a - r) / B = a / B) by (unfold r; pose proof (Z.div_mod a B ltac:(lia)) as DM; symmetry; apply (Z.div_unique_pos _ _ _ 0); lia).
  assert (MR : (a - r) mod B = 0) by (unfold r; pose proof (Z.div_mod a B ltac:(lia)) as DM; symmetry; apply (Z.mod_unique_pos _ _ (a / B)); lia).
  set (h := B - r) in *. set (n := zlen data - h) in *.
  assert (MA : (a + h) mod B = 0) by (replace (a + h) with (a - r + 1 * B) by (unfold h; ring); rewrite Z_mod_plus_full; exact MR).
  assert (Nm : n mod B = 0).
  { replace n with ((a + zlen data) - (a + h)) by (unfold n; ring). rewrite Zminus_mod, Em, MA. reflexivity. }
  unfold enc_write. rewrite (upd_mod e a HO). fold B r. destruct (Z.eqb_spec r 0) as [E|_]; [lia|]. fold h.
  replace (UPD e + a - r) with (UPD e + (a - r)) by ring. replace (UPD e + a - UPD e) with a by ring.
  rewrite in_update by lia. unfold B at 2. rewrite plain_block_spec by exact HB. destruct (Z.leb_spec (plain_from e) a) as [|_]; [unfold n, h in *; lia|]. cbn [negb].
  assert (SZ : (zlen data <? (if zlen data + h <? B then B else zlen data + h)) = true).
  { apply Z.ltb_lt. destruct (Z.ltb_spec (zlen data + h) B); unfold h in *; lia. }
  fold B. rewrite SZ. clear SZ.
  destruct (Z.ltb_spec (zlen data) h) as [|_]; [unfold h in *; lia|].
  set (block := firstn (Z.to_nat r) (ext_read f (UPD e + (a - r)) B) ++ firstn (Z.to_nat h) data).
  assert (L1 : length (firstn (Z.to_nat r) (ext_read f (UPD e + (a - r)) B)) = Z.to_nat r).
  { rewrite firstn_length. pose proof (ext_read_len f (UPD e + (a - r)) B ltac:(lia)) as L. unfold zlen in L. lia. }
  assert (L2 : length (firstn (Z.to_nat h) data) = Z.to_nat h) by (rewrite firstn_length; unfold zlen, h in *; lia).
  assert (LB : zlen block = B) by (unfold zlen, block; rewrite app_length, L1, L2; unfold h; lia).
  replace (process (EC e) (seek (EC e) (a / B)) 0 block) with (process (EC e) (seek (EC e) ((a - r) / B)) ((a - r) mod B) block) by (rewrite DR, MR; reflexivity).
  unfold B at 1 2. rewrite process_stream; [|exact Lw|exact AR|rewrite LB; apply div_bound; [exact HB|lia|fold B; lia]]. fold B.
  rewrite ext_write_ok by (unfold zlen; rewrite encrypted_length; unfold zlen in LB; lia). cbn [obind fst snd]. fold n.
  assert (SN : n / B * B = n) by (pose proof (Z.div_mod n B ltac:(lia)); lia). rewrite SN.
  assert (N0 : 0 <= n) by (unfold n, h in *; lia). assert (ZS : zlen (skipn (Z.to_nat h) data) = n) by (unfold zlen in *; rewrite skipn_length; unfold n, h in *; lia).
  destruct (Z.ltb_spec n 0) as [|_]; [lia|]. destruct (Z.ltb_spec (CSZ e) n) as [|_]; [unfold n, h in *; lia|].
  destruct (Z.ltb_spec (zlen (skipn (Z.to_nat h) data)) n) as [|_]; [lia|]. cbn [orb]. rewrite LB.
  replace (a - r + B) with (a + h) by (unfold h; ring).
  rewrite firstn_all2 by (unfold zlen in ZS; lia).
  unfold B at 1 2. rewrite process_stream; [|exact Lw|lia|rewrite ZS; apply div_bound; [exact HB|lia|unfold n; fold B; lia]]. fold B.
  replace (UPD e + a + h) with (UPD e + (a + h)) by ring.
  rewrite ext_write_ok by (unfold zlen in *; rewrite encrypted_length; lia).
  cbn [obind]. eexists. split; [reflexivity|]. set (f1 := write f (UPD e + (a - r)) B _).
  assert (HB' : forall i, 0 <= i < zlen data -> is_byte (nth (Z.to_nat i) data 0)).
  { intros i Hi. unfold all_bytes in HD. rewrite Forall_forall in HD. apply HD, nth_In. unfold zlen in Hi. lia. }
  split.
  - intros i Hi. destruct (Z.lt_ge_cases i h) as [L|L].
    + rewrite write_out by lia. unfold f1. rewrite write_in by (unfold h in *; lia). replace (UPD e + a + i - (UPD e + (a - r))) with (r + i) by ring.
      replace (UPD e + a + i) with (UPD e + (a - r) + (r + i)) by ring. rewrite HE by lia.
      rewrite encrypted_nth by (unfold zlen in LB; unfold h in *; lia). rewrite Z2Nat.id by lia. replace (a - r + (r + i)) with (a + i) by ring.
      assert (NB : nth (Z.to_nat (r + i)) block 0 = nth (Z.to_nat i) data 0).
      { unfold block. rewrite app_nth2 by lia. rewrite L1. replace (Z.to_nat (r + i) - Z.to_nat r)%nat with (Z.to_nat i) by lia. symmetry. apply DualProofs.nth_firstn_lt. lia. }
      rewrite NB. apply land_255. apply lxor_byte; [apply HB', Hi|apply stream_byte; apply HO].
    + rewrite write_in by (unfold n; lia). replace (UPD e + a + i - (UPD e + (a + h))) with (i - h) by ring.
      assert (F1 : f1 (UPD e + a + i) = 255).
      { unfold f1. rewrite write_out by (unfold h in *; lia). replace (UPD e + a + i) with (UPD e + (a - r) + (r + i)) by ring. apply HE. lia. }
      rewrite F1. rewrite encrypted_nth by (unfold zlen in ZS; lia). rewrite Z2Nat.id by lia. replace (a + h + (i - h)) with (a + i) by ring.
      rewrite nth_skip. replace (Z.to_nat h + Z.to_nat (i - h))%nat with (Z.to_nat i) by (unfold h in *; lia).
      apply land_255. apply lxor_byte; [apply HB', Hi|apply stream_byte; apply HO].
  - intros x Hx. rewrite write_out by (unfold n, h in *; lia). unfold f1. apply write_out. unfold h in *. lia.
Qed.
Print Assumptions C31_write_unaligned.

Example C31_unaligned_hyps : exists e f a data, ext_ok e /\ all_bytes data /\ 0 < a mod EBS (EC e) /\
  EBS (EC e) - a mod EBS (EC e) <= zlen data <= CSZ e /\ (a + zlen data) mod EBS (EC e) = 0 /\ a + zlen data <= plain_from e /\
  blank e f (a - a mod EBS (EC e)) (a mod EBS (EC e) + zlen data).
Proof.
  exists demo_ext, demo_erased, 4, (repeat 7 28). split; [exact demo_ext_ok|]. split; [apply Forall_forall; intros x H; apply repeat_spec in H; subst; unfold is_byte; lia|].
  split; [reflexivity|]. split; [vm_compute; split; discriminate|]. split; [reflexivity|]. split; [vm_compute; discriminate|]. intros i Hi. reflexivity.
Qed.

(** The swap area takes bytes as they are (they are ciphertext already). *)
Theorem C31_swap_raw : forall e kok f i data n, 0 <= i < SSZ e -> SWP e + SSZ e <= UPD e \/ UPD e + PSZ e <= SWP e ->
  0 <= n <= zlen data ->
  enc_write e kok f (SWP e + i) data n = Val (0, write f (SWP e + i) n (fun j => nth (Z.to_nat j) data 0)).
Proof.
  intros e kok f i data n Hi HD Hn. unfold enc_write. replace (part_address e (SWP e + i)) with ESWAP.
  - rewrite ext_write_ok by lia. reflexivity.
  - unfold part_address. destruct (Z.leb_spec (UPD e) (SWP e + i)), (Z.ltb_spec (SWP e + i) (UPD e + PSZ e)); cbn [andb]; try lia;
      destruct (Z.leb_spec (SWP e) (SWP e + i)), (Z.ltb_spec (SWP e + i) (SWP e + SSZ e)); cbn [andb]; try lia; reflexivity.
Qed.
Print Assumptions C31_swap_raw.

(** ** C37: images encrypted by the signing tool *)

(** What the tool writes: the file, encrypted from block 0 on; for AES padded with 0xFF to a
    whole block. *)
Theorem C37_tool : forall pad C file, lawful C -> zlen file + 16 < 2 ^ 32 ->
  exists enc, sign_tool pad C file = Val enc /\ firstn (length file) enc = encrypted C 0 file /\
    (if pad then zlen enc mod 16 = 0 /\ zlen enc < zlen file + 16 else length enc = length file).
Proof.
  intros pad C file Lw HL. assert (HB : 0 < EBS C) by apply Lw. unfold sign_tool.
  pose proof (sign_encrypt_ok (length file) pad C file 0 Lw ltac:(lia) ltac:(lia)) as E. rewrite Z.div_0_l, Z.mod_0_l in E by lia.
  eexists. split; [apply E; apply div_bound; [exact HB|unfold zlen; lia|lia]|]. split.
  - rewrite firstn_encrypted, firstn_app, Nat.sub_diag, firstn_all. cbn [firstn]. rewrite app_nil_r. reflexivity.
  - destruct pad.
    + unfold zlen. rewrite encrypted_length, app_length, repeat_length. unfold pad_len, ENC_BLOCK_SIZE. generalize (length file). intro n.
      pose proof (Nat.div_mod n 16 ltac:(lia)) as DM. pose proof (Nat.mod_upper_bound n 16 ltac:(lia)) as MB.
      destruct (Nat.eq_dec (n mod 16) 0) as [Z0|Z0].
      * rewrite Z0 in *. change ((16 - 0) mod 16)%nat with 0%nat. rewrite Nat.add_0_r in *. split; [|lia].
        symmetry. apply (Z.mod_unique_pos _ _ (Z.of_nat (n / 16))); lia.
      * rewrite (Nat.mod_small (16 - n mod 16)) by lia. split; [|lia]. symmetry. apply (Z.mod_unique_pos _ _ (Z.of_nat (n / 16) + 1)); lia.
    + rewrite encrypted_length, app_length. cbn [length]. lia.
Qed.
Print Assumptions C37_tool.

(** Put at the start of the update partition, it is read back as the original file. *)
Theorem C37_update_partition : forall e pad file enc f cur o n, ext_ok e -> zlen file <= plain_from e ->
  sign_tool pad (EC e) file = Val enc -> raw e f 0 enc ->
  0 <= o < zlen file -> o + n <= zlen file -> readable e o n ->
  dec_read e true cur f (UPD e + o) n = Val (n, firstn (Z.to_nat n) (skipn (Z.to_nat o) file)).
Proof.
  intros e pad file enc f cur o n HO HP HT HR Ho Hn Hr. pose proof HO as (Lw & _ & _ & HS & HPS & S16). pose proof Lw as (HB & _).
  assert (PF : plain_from e <= SFO e - EBS (EC e)) by (unfold plain_from; pose proof (Z.mul_div_le (SFO e - EBS (EC e)) (EBS (EC e)) HB); lia).
  assert (LE : zlen file <= zlen enc /\ firstn (length file) enc = encrypted (EC e) 0 file).
  { unfold sign_tool in HT. pose proof (sign_encrypt_ok (length file) pad (EC e) file 0 Lw ltac:(lia) ltac:(lia)) as E. rewrite Z.div_0_l, Z.mod_0_l in E by lia.
    rewrite E in HT.
    2:{ apply div_bound; [exact HB|unfold zlen; lia|]. clear -HP PF HS HPS S16. lia. }
    injection HT as <-. split.
    - unfold zlen. rewrite encrypted_length, app_length. lia.
    - rewrite firstn_encrypted, firstn_app, Nat.sub_diag, firstn_all. cbn [firstn]. rewrite app_nil_r. reflexivity. }
  destruct LE as (LE & EE).
  assert (S : stores e f 0 file).
  { intros i Hi. rewrite HR by lia. assert (N : nth (Z.to_nat i) enc 0 = nth (Z.to_nat i) (firstn (length file) enc) 0) by (apply DualProofs.nth_firstn_lt; unfold zlen in Hi; lia).
    rewrite N, EE, encrypted_nth by (unfold zlen in Hi; lia). rewrite Z2Nat.id by lia. reflexivity. }
  pose proof (C31_read e cur f 0 file o n HO ltac:(lia) S ltac:(lia) Ho Hn) as R. rewrite Z.add_0_l in R. apply R. exact Hr.
Qed.
Print Assumptions C37_update_partition.

(** Copied to RAM, it is decrypted to the original file: every byte of it, and nothing is
    written after the last block of the file. *)
Theorem C37_ram : forall pad C hdr file enc rest, lawful C -> image_file hdr file -> zlen file + EBS C < 2 ^ 32 -> 16 <= EBS C ->
  sign_tool pad C file = Val enc -> zlen file + EBS C - 1 <= zlen (enc ++ rest) ->
  exists d, ram_decrypt C true hdr (enc ++ rest) = Val (Some d) /\ firstn (length file) d = file /\ zlen d < zlen file + EBS C.
Proof.
  intros pad C hdr file enc rest Lw ((H1 & H2) & H3 & H4) HL H16 HT HR. assert (HB : 0 < EBS C) by apply Lw.
  destruct (C37_tool pad C file Lw ltac:(lia)) as (enc' & T & E & LEN). rewrite T in HT. injection HT as ->.
  assert (LE : (length file <= length enc)%nat).
  { assert (L : length (firstn (length file) enc) = length file) by (rewrite E; apply encrypted_length). rewrite firstn_length in L. lia. }
  destruct (ram_decrypt_ok C hdr file (enc ++ rest) Lw ltac:(lia) ltac:(lia) HL H3 H4 HR) as (d & D1 & D2 & D3).
  - rewrite firstn_app. replace (length file - length enc)%nat with 0%nat by lia. cbn [firstn]. rewrite app_nil_r. exact E.
  - exists d. split; [exact D1|]. split; [exact D2|]. rewrite D3. destruct (blocks_of_ok C (zlen file) HB ltac:(unfold zlen; lia)) as (_ & B & _). lia.
Qed.
Print Assumptions C37_ram.

(** A small image: 16-byte header, 9 bytes of firmware. *)
Definition demo_file : list Z := le_bytes 4 WOLFBOOT_MAGIC ++ le_bytes 4 9 ++ [1; 2; 3; 4; 5; 6; 7; 8] ++ [11; 12; 13; 14; 15; 16; 17; 18; 19].
Example C37_hyps : image_file 16 demo_file /\ zlen demo_file <= plain_from demo_ext /\ readable demo_ext 3 20 /\
  match sign_tool true (EC demo_ext) demo_file with
  | Val enc => zlen enc = 32 /\ zlen demo_file + EBS (EC demo_ext) - 1 <= zlen (enc ++ repeat 0 8) /\
      enc <> demo_file ++ repeat 255 7 /\
      match ram_decrypt (EC demo_ext) true 16 (enc ++ repeat 0 8) with Val (Some d) => firstn 25 d = demo_file | _ => False end /\
      dec_read demo_ext true ([], 0) (fun x => nth (Z.to_nat (x - 4096)) enc 255) (4096 + 3) 20 = Val (20, firstn 20 (skipn 3 demo_file))
  | _ => False
  end.
Proof.
  split; [split; [vm_compute; split; discriminate|split; reflexivity]|]. split; [vm_compute; discriminate|].
  split; [split; [lia|right; vm_compute; discriminate]|]. vm_compute. repeat split; discriminate.
Qed.

(** ** C38: storage of the encryption key *)

(** Setting the key stores key and nonce, marks the trailer, and changes nothing else. *)
Theorem C38_set : forall c k f, 0 < SECT c -> bytes f -> all_bytes k -> 0 < zlen k ->
  let a := BOOT c + PART c - zlen k in
  4 <= a mod SECT c -> a mod SECT c + zlen k <= SECT c ->
  exists f', run (set_key c k) f = Done tt f' /\ get_key c (zlen k) f' = k /\ word f' (a - 4) = WOLFBOOT_MAGIC_TRAIL /\
    (forall x, ~ (a - 4 <= x < a + zlen k) -> f' x = f x).
Proof.
  intros c k f HS Hf Hk Hn a H4 HE. destruct (set_key_run c k f HS Hf Hk Hn H4 HE) as (f' & R & G & M & F). exists f'. split; [exact R|]. split; [exact G|].
  split; [|exact F]. fold a. change (secret_addr c (zlen k)) with a in M. unfold word.
  pose proof (M 0 ltac:(lia)) as M0. pose proof (M 1 ltac:(lia)) as M1. pose proof (M 2 ltac:(lia)) as M2. pose proof (M 3 ltac:(lia)) as M3.
  rewrite Z.add_0_r in M0. rewrite M0, M1, M2, M3. reflexivity.
Qed.
Print Assumptions C38_set.

(** Erasing it leaves no byte of it, and a key the loader refuses to use. *)
Theorem C38_erase : forall c n m f, 0 < SECT c -> bytes f -> 0 < n -> 0 < m <= n ->
  let a := BOOT c + PART c - n in
  4 <= a mod SECT c -> a mod SECT c + n <= SECT c ->
  exists f', run (erase_key c n) f = Done tt f' /\ get_key c n f' = repeat 255 (Z.to_nat n) /\
    key_usable (firstn (Z.to_nat m) (get_key c n f')) = false /\
    (forall x, ~ (a - 4 <= x < a + n) -> f' x = f x).
Proof.
  intros c n m f HS Hf Hn Hm a H4 HE.
  assert (U : forall l, l = repeat 255 (Z.to_nat n) -> key_usable (firstn (Z.to_nat m) l) = false).
  { intros l ->. unfold key_usable. replace (firstn (Z.to_nat m) (repeat 255 (Z.to_nat n))) with (repeat 255 (Z.to_nat m)).
    - rewrite forallb_repeat. reflexivity.
    - assert (L : (Z.to_nat m <= Z.to_nat n)%nat) by lia. revert L. generalize (Z.to_nat m) (Z.to_nat n). clear. induction n as [|m IH]; intros n L; [reflexivity|].
      destruct n as [|n]; [lia|]. cbn [repeat firstn]. rewrite <- IH by lia. reflexivity. }
  unfold erase_key. cbn [bind get run]. destruct (forallb (fun b => b =? 255) (get_key c n f)) eqn:E.
  - exists f. split; [reflexivity|]. assert (G : get_key c n f = repeat 255 (Z.to_nat n)).
    { rewrite (forallb_all 255 _ E). f_equal. unfold get_key, ext_read. apply length_rdl. }
    split; [exact G|]. split; [apply U; exact G|]. intros; reflexivity.
  - assert (ZL : zlen (repeat 255 (Z.to_nat n)) = n) by (unfold zlen; rewrite repeat_length; lia).
    destruct (set_key_run c (repeat 255 (Z.to_nat n)) f) as (f' & R & G & M & F); rewrite ?ZL; auto.
    + apply Forall_forall. intros x H. apply repeat_spec in H. subst. unfold is_byte. lia.
    + rewrite ZL in *. exists f'. split; [exact R|]. split; [exact G|]. split; [apply U; exact G|exact F].
Qed.
Print Assumptions C38_erase.

Definition demo_key : list Z := demo_chunk 77 48.
Example C38_hyps : all_bytes demo_key /\ zlen demo_key = 48 /\
  4 <= (BOOT demo + PART demo - zlen demo_key) mod SECT demo /\ (BOOT demo + PART demo - zlen demo_key) mod SECT demo + zlen demo_key <= SECT demo /\
  match run (set_key demo demo_key) (fun x => x mod 251) with
  | Done tt f' => get_key demo 48 f' = demo_key /\ key_usable (firstn 32 (get_key demo 48 f')) = true /\
      match run (erase_key demo 48) f' with Done tt f'' => get_key demo 48 f'' = repeat 255 48 /\ f'' 1024 = 1024 mod 251 | _ => False end
  | _ => False
  end.
Proof.
  split; [apply Forall_forall; intros x H; apply in_map_iff in H as (i & <- & _); unfold is_byte; apply Z.mod_pos_bound; lia|].
  split; [reflexivity|]. split; [vm_compute; discriminate|]. split; [vm_compute; discriminate|]. vm_compute. repeat split.
Qed.

(** A power failure while the key is set can lose the old key without storing the new one,
    and wipes the firmware bytes and the boot state in the same sector. *)
Theorem C38_power_fail_refuted : exists c k f f', 0 < SECT c /\ bytes f /\ all_bytes k /\
  4 <= (BOOT c + PART c - zlen k) mod SECT c /\ (BOOT c + PART c - zlen k) mod SECT c + zlen k <= SECT c /\
  crash (tear_std c) (set_key c k) f f' /\ get_key c (zlen k) f' <> k /\ get_key c (zlen k) f' <> get_key c (zlen k) f /\
  f' (BOOT c + PART c - zlen k - 5) <> f (BOOT c + PART c - zlen k - 5).
Proof.
  exists demo, demo_key, (fun x => x mod 251), (erase (fun x => x mod 251) 1408 128).
  split; [reflexivity|]. split; [intro x; unfold is_byte; pose proof (Z.mod_pos_bound x 251 ltac:(lia)) as B; clear -B; lia|].
  split; [exact (proj1 C38_hyps)|]. split; [vm_compute; discriminate|]. split; [vm_compute; discriminate|]. split.
  - unfold set_key. cbn [bind get crash]. right. right. left. reflexivity.
  - split; [vm_compute; discriminate|]. split; [vm_compute; discriminate|]. vm_compute. discriminate.
Qed.
Print Assumptions C38_power_fail_refuted.
