(** C34: the OTP keystore. *)
From Verif Require Import Base BaseLemmas HeaderModel Flash FlashLemmas ImageProofs GenuineProofs OtpModel OtpSpec OtpProofs.
Local Ltac Zify.zify_post_hook ::= idtac.

(** ** Queries *)

(** The number of keys is the one announced by a proper header, if they fit, else 0. *)
Theorem C34_count : forall h m stack, otp_ok h -> zlen stack = OTP_HDR_SIZE ->
  exists n, num_pubkeys h m stack = Val n /\ key_count h m n.
Proof. exact count_ok. Qed.
Print Assumptions C34_count.

(** Whatever the OTP area holds, no query is undefined: every access lies inside the area and
    inside the buffers. An offered slot is returned byte for byte, any other id is refused. *)
Theorem C34_query : forall h m stack cache id n, otp_ok h -> bytes m ->
  zlen stack = OTP_HDR_SIZE -> zlen cache = SLOT h -> id_ok h id -> key_count h m n ->
  (0 <= id < n ->
     slot_addr h id + SLOT h <= OB h + OSZ h /\
     get_buffer h m stack cache id = Val (Some (rdl m (slot_addr h id + 16) (Z.to_nat (KPS h)))) /\
     get_size h m stack cache id = Val (int32 (word m (slot_addr h id + 12))) /\
     get_mask h m stack cache id = Val (word m (slot_addr h id + 8)) /\
     get_key_type h m stack cache id = Val (word m (slot_addr h id + 4))) /\
  (~ 0 <= id < n ->
     get_buffer h m stack cache id = Val None /\ get_size h m stack cache id = Val (-1) /\
     get_mask h m stack cache id = Val 0 /\ get_key_type h m stack cache id = Val (2 ^ 32 - 1)).
Proof.
  intros h m stack cache id n HO Hm HS HC HI HN. pose proof (get_slot_ok h m stack cache id n HO HS HC Hm HI HN) as G.
  unfold get_buffer, get_size, get_mask, get_key_type. rewrite G. cbn [obind]. split; intro H.
  - destruct (Z.leb_spec 0 id) as [_|]; [|lia]. destruct (Z.ltb_spec id n) as [_|]; [|lia]. cbn [andb].
    assert (NM : id < MAXKEYS h) by (destruct HN as [(_ & L)|(-> & _)]; clear -H L + clear -H; lia).
    destruct (max_room h id HO ltac:(lia)) as (_ & R). split; [exact R|].
    assert (W : forall o, (o + 4 <= 16)%nat -> u32_at (slot_at h m id) o = word m (slot_addr h id + Z.of_nat o)).
    { intros o Ho. unfold u32_at, slot_at. rewrite word_rdl. change (firstn 4 (skipn o (rdl m (slot_addr h id) (Z.to_nat (SLOT h))))) with (sub (rdl m (slot_addr h id) (Z.to_nat (SLOT h))) o 4). rewrite rdl_sub; [reflexivity|]. destruct HO as (_ & _ & K & _). unfold SLOT. lia. }
    rewrite !W by lia. repeat split. unfold slot_at. f_equal. f_equal.
    replace (Z.to_nat (SLOT h)) with (16 + Z.to_nat (KPS h))%nat by (destruct HO as (_ & _ & K & _); unfold SLOT; lia).
    rewrite rdl_app, skipn_app, length_rdl. rewrite skipn_all2 by (rewrite length_rdl; lia). reflexivity.
  - destruct (Z.leb_spec 0 id); destruct (Z.ltb_spec id n); cbn [andb]; try (exfalso; lia); repeat split; reflexivity.
Qed.
Print Assumptions C34_query.

(** The hash that identifies a key covers exactly the stored key when its size is honest. *)
Theorem C34_key_hash : forall h m stack cache id n, otp_ok h -> bytes m ->
  zlen stack = OTP_HDR_SIZE -> zlen cache = SLOT h -> id_ok h id -> key_count h m n ->
  0 <= id < n -> KPS h < 2 ^ 31 -> word m (slot_addr h id + 12) <= KPS h ->
  key_sha_input h m stack cache id = Val (Some (rdl m (slot_addr h id + 16) (Z.to_nat (word m (slot_addr h id + 12))))).
Proof.
  intros h m stack cache id n HO Hm HS HC HI HN Hid HK HW. destruct (proj1 (C34_query h m stack cache id n HO Hm HS HC HI HN) Hid) as (_ & B & Z1 & _).
  unfold key_sha_input. rewrite B, Z1. cbn [obind]. set (w := word m (slot_addr h id + 12)) in *.
  assert (W0 : 0 <= w).
  { apply (word_range m (slot_addr h id + 12) Hm). }
  unfold int32. destruct (Z.leb_spec (2 ^ 31) w); [lia|]. destruct (Z.ltb_spec w 0); [lia|]. unfold zlen. rewrite length_rdl.
  destruct (Z.ltb_spec (Z.of_nat (Z.to_nat (KPS h))) w); [lia|]. rewrite rdl_firstn by lia. reflexivity.
Qed.
Print Assumptions C34_key_hash.

(** ** Provisioning *)

(** On an erased OTP area the primer stores the keys so that the queries give back exactly
    those keys, and touches nothing else. *)
Theorem C34_provision : forall h version m keys stack cache, otp_ok h -> bytes m -> OB h mod 2 = 0 -> SLOT h mod 4 = 0 ->
  otp_erased h m -> 0 <= version < 2 ^ 32 ->
  Z.of_nat (length keys) <= MAXKEYS h -> MAXKEYS h < 2 ^ 16 -> Forall (fun k => all_bytes k /\ zlen k = SLOT h) keys ->
  zlen stack = OTP_HDR_SIZE -> zlen cache = SLOT h ->
  exists m', primer h version m keys = Val (Some m') /\
    num_pubkeys h m' stack = Val (Z.of_nat (length keys)) /\
    (forall id, (id < length keys)%nat ->
       get_buffer h m' stack cache (Z.of_nat id) = Val (Some (skipn 16 (nth id keys []))) /\
       get_size h m' stack cache (Z.of_nat id) = Val (int32 (u32_at (nth id keys []) 12)) /\
       get_mask h m' stack cache (Z.of_nat id) = Val (u32_at (nth id keys []) 8) /\
       get_key_type h m' stack cache (Z.of_nat id) = Val (u32_at (nth id keys []) 4)) /\
    (forall x, ~ (OB h <= x < slot_addr h (Z.of_nat (length keys))) -> m' x = m x).
Proof.
  intros h version m keys stack cache HO Hm OE S4 HE HV HN HM HF HS HC. pose proof HO as (H1 & H2 & H3 & H4 & H5). unfold primer.
  assert (HB : all_bytes (otp_hdr (Z.of_nat (length keys)) version)).
  { unfold otp_hdr, all_bytes. rewrite !Forall_app. split; [|split; [|split]]; try apply le_bytes_bytes. unfold OTP_MAGIC. repeat (apply Forall_cons; [unfold is_byte; lia|]). apply Forall_nil. }
  assert (HL : zlen (otp_hdr (Z.of_nat (length keys)) version) = 16).
  { unfold otp_hdr, zlen. rewrite !app_length, !le_bytes_length. reflexivity. }
  assert (SP : 16 < SLOT h) by (unfold SLOT; lia). unfold OTP_HDR_SIZE in *.
  destruct (otp_write_ok h m (OB h) 16 (otp_hdr (Z.of_nat (length keys)) version)) as (m1 & W1 & V1 & F1); try lia; auto.
  { intros j Hj. apply HE. lia. }
  rewrite W1. cbn [obind].
  assert (S0 : slot_addr h 0 = OB h + 16) by (unfold slot_addr, OTP_HDR_SIZE; ring).
  assert (SE : slot_addr h (Z.of_nat (length keys)) <= OB h + OSZ h).
  { unfold slot_addr, MAXKEYS, OTP_HDR_SIZE in *. pose proof (Z.mul_div_le (OSZ h - 16) (SLOT h) ltac:(lia)). nia. }
  assert (SG : slot_addr h 0 <= slot_addr h (Z.of_nat (length keys))) by (unfold slot_addr; nia).
  destruct (prime_keys_ok h keys m1 0 HO S4 OE ltac:(lia)) as (m2 & W2 & V2 & F2); try (rewrite Z.add_0_l); auto.
  { intros x Hx. rewrite F1 by lia. apply HE. lia. }
  rewrite Z.add_0_l in F2. exists m2. split; [exact W2|].
  assert (HD : rdl m2 (OB h) 16 = otp_hdr (Z.of_nat (length keys)) version).
  { apply (nth_ext _ _ 0 0); [rewrite length_rdl; unfold zlen in HL; lia|]. intros j Hj. rewrite length_rdl in Hj. rewrite rdl_nth by exact Hj. rewrite F2 by lia. rewrite V1 by lia. f_equal. lia. }
  assert (NK : num_pubkeys h m2 stack = Val (Z.of_nat (length keys))).
  { unfold num_pubkeys, OTP_HDR_SIZE. rewrite otp_read_ok by (auto; lia). cbn [obind]. change (Z.to_nat 16) with 16%nat. rewrite skipn_all2 by (unfold zlen in HS; lia).
    rewrite app_nil_r, HD. change (firstn 8 (otp_hdr (Z.of_nat (length keys)) version)) with OTP_MAGIC. rewrite (proj2 (list_eqb_eq OTP_MAGIC OTP_MAGIC) eq_refl). cbn [negb].
    assert (N8 : nth 8 (otp_hdr (Z.of_nat (length keys)) version) 0 + 256 * nth 9 (otp_hdr (Z.of_nat (length keys)) version) 0 = Z.of_nat (length keys)).
    { transitivity (le_val (le_bytes 2 (Z.of_nat (length keys)))); [cbn [otp_hdr OTP_MAGIC app nth le_bytes le_val]; lia|]. apply le_val_bytes. change (256 ^ Z.of_nat 2) with (2 ^ 16). lia. }
    rewrite N8. destruct (Z.ltb_spec (MAXKEYS h) (Z.of_nat (length keys))); [lia|reflexivity]. }
  split; [exact NK|]. split.
  - intros id Hid.
    assert (B2 : bytes m2).
    { (* every byte is one of the old memory or of the data written *)
      intro x. destruct (Z.lt_ge_cases x (OB h)) as [L|L]; [rewrite F2, F1 by lia; apply Hm|].
      destruct (Z.lt_ge_cases x (OB h + 16)) as [L2|L2].
      - rewrite F2 by lia. replace x with (OB h + (x - OB h)) by ring. rewrite V1 by lia. unfold all_bytes in HB. rewrite Forall_forall in HB. apply HB, nth_In. unfold zlen in HL. lia.
      - destruct (Z.lt_ge_cases x (slot_addr h (Z.of_nat (length keys)))) as [L3|L3]; [|rewrite F2, F1 by lia; apply Hm].
        set (q := (x - slot_addr h 0) / SLOT h). pose proof (Z.div_mod (x - slot_addr h 0) (SLOT h) ltac:(lia)) as DM. fold q in DM. pose proof (Z.mod_pos_bound (x - slot_addr h 0) (SLOT h) ltac:(lia)) as MB.
        set (r := (x - slot_addr h 0) mod SLOT h) in *. assert (Q0 : 0 <= q) by (apply Z.div_pos; lia).
        assert (QN : q < Z.of_nat (length keys)).
        { unfold q. apply Z.div_lt_upper_bound; [lia|]. unfold slot_addr in *. rewrite (Z.mul_comm (SLOT h)). lia. }
        specialize (V2 (Z.to_nat q) ltac:(lia)). rewrite Z.add_0_l, Z2Nat.id in V2 by lia.
        assert (XE : m2 x = nth (Z.to_nat r) (slot_at h m2 q) 0).
        { unfold slot_at. rewrite rdl_nth by lia. f_equal. rewrite Z2Nat.id by lia. unfold slot_addr in *. lia. }
        rewrite XE, V2. rewrite Forall_forall in HF. destruct (HF (nth (Z.to_nat q) keys [])) as (KB & KL); [apply nth_In; lia|].
        unfold all_bytes in KB. rewrite Forall_forall in KB. apply KB, nth_In. unfold zlen in KL. lia. }
    assert (HK : key_count h m2 (Z.of_nat (length keys))).
    { destruct (count_ok h m2 stack HO HS) as (k & K1 & K2). rewrite NK in K1. injection K1 as <-. exact K2. }
    assert (HI : id_ok h (Z.of_nat id)) by (unfold id_ok; split; [nia|]; unfold MAXKEYS in *; lia).
    pose proof (get_slot_ok h m2 stack cache (Z.of_nat id) _ HO HS HC B2 HI HK) as G.
    destruct (Z.leb_spec 0 (Z.of_nat id)) as [_|]; [|lia]. destruct (Z.ltb_spec (Z.of_nat id) (Z.of_nat (length keys))) as [_|]; [|lia]. cbn [andb] in G.
    specialize (V2 id Hid). rewrite Z.add_0_l in V2. rewrite V2 in G. unfold get_buffer, get_size, get_mask, get_key_type. rewrite G. repeat split; reflexivity.
  - intros x Hx. rewrite F2, F1 by lia. reflexivity.
Qed.
Print Assumptions C34_provision.

(** ** Satisfiability *)

Definition demo_otp : otp := {| OB := 150990848; OSZ := 1024; KPS := 64; H5 := false |}.
Definition demo_key (id type mask size : Z) (k : list Z) (n : nat) : list Z :=
  le_bytes 4 id ++ le_bytes 4 type ++ le_bytes 4 mask ++ le_bytes 4 size ++ k ++ repeat 0 (n - length k).
Definition demo_keys : list (list Z) :=
  [demo_key 0 2 4294967295 64 (map Z.of_nat (seq 1 64)) 64; demo_key 1 2 1 64 (map Z.of_nat (seq 100 64)) 64].

Example C34_hyps : otp_ok demo_otp /\ OB demo_otp mod 2 = 0 /\ SLOT demo_otp mod 4 = 0 /\ bytes (fun _ => 255) /\ otp_erased demo_otp (fun _ => 255) /\
  Z.of_nat (length demo_keys) <= MAXKEYS demo_otp /\ MAXKEYS demo_otp = 12 /\ Forall (fun k => all_bytes k /\ zlen k = SLOT demo_otp) demo_keys /\ id_ok demo_otp 1.
Proof.
  split; [unfold otp_ok; repeat split; vm_compute; congruence|]. split; [reflexivity|]. split; [reflexivity|]. split; [intro x; unfold is_byte; lia|]. split; [intros x _; reflexivity|].
  split; [vm_compute; discriminate|]. split; [reflexivity|]. split; [|unfold id_ok; split; vm_compute; congruence].
  apply Forall_forall. intros k Hk. split.
  - apply Forall_forall. intros b Hb. assert (A : forallb (fun k => forallb (fun b => (0 <=? b) && (b <? 256)) k) demo_keys = true) by (vm_compute; reflexivity).
    rewrite forallb_forall in A. specialize (A k Hk). rewrite forallb_forall in A. specialize (A b Hb). apply andb_prop in A as (A1 & A2). apply Z.leb_le in A1. apply Z.ltb_lt in A2. split; assumption.
  - destruct Hk as [<-|[<-|[]]]; reflexivity.
Qed.
Example C34_run :
  match primer demo_otp 1 (fun _ => 255) demo_keys with
  | Val (Some m) => (num_pubkeys demo_otp m (repeat 0 16), get_buffer demo_otp m (repeat 0 16) (repeat 0 80) 1, get_mask demo_otp m (repeat 0 16) (repeat 0 80) 1, get_buffer demo_otp m (repeat 0 16) (repeat 0 80) 2)
  | _ => (UB, UB, UB, UB)
  end = (Val 2, Val (Some (map Z.of_nat (seq 100 64))), Val 1, Val None).
Proof. vm_compute. reflexivity. Qed.

(** ** Limits *)

(** ED448 keys have 57 bytes, so slots have 73: reading 16 bits at a time, a query writes one
    byte past the slot cache. *)
Definition ed448_otp (h5 : bool) : otp := {| OB := 150990848; OSZ := 1024; KPS := 57; H5 := h5 |}.
Definition at_otp (h : otp) (l : list Z) : flash := fun x => if (OB h <=? x) && (x <? OB h + zlen l) then nth (Z.to_nat (x - OB h)) l 0 else 255.
Theorem C34_odd_slot_refuted : exists h m stack cache, KPS h = 57 /\ bytes m /\ zlen stack = OTP_HDR_SIZE /\ zlen cache = SLOT h /\
  num_pubkeys h m stack = Val 1 /\ get_buffer h m stack cache 0 = UB.
Proof.
  exists (ed448_otp false), (at_otp (ed448_otp false) (otp_hdr 1 1)), (repeat 0 16), (repeat 0 73).
  split; [reflexivity|]. split.
  { intro x. unfold at_otp. destruct (_ && _) eqn:E; [|unfold is_byte; lia].
    assert (A : Forall (fun b => is_byte b) (otp_hdr 1 1)) by (repeat (apply Forall_cons; [unfold is_byte; split; [vm_compute; discriminate|reflexivity]|]); apply Forall_nil).
    rewrite Forall_forall in A. apply A, nth_In. apply andb_prop in E as (E1 & E2). apply Z.leb_le in E1. apply Z.ltb_lt in E2. unfold zlen in E2. lia. }
  split; [reflexivity|]. split; [reflexivity|]. split; [vm_compute; reflexivity|]. vm_compute. reflexivity.
Qed.
Print Assumptions C34_odd_slot_refuted.

(** On the STM32H5 the second slot then starts at an odd address, which the driver declines:
    the primer reports nothing, two keys are announced, one is stored. *)
Definition ed448_keys : list (list Z) := [demo_key 0 5 1 57 (map Z.of_nat (seq 1 57)) 60; demo_key 1 5 1 57 (map Z.of_nat (seq 100 57)) 60].
Theorem C34_odd_slot_provision_refuted : exists h m keys m' stack, KPS h = 57 /\ otp_erased h m /\ zlen stack = OTP_HDR_SIZE /\
  Forall (fun k => zlen k = sizeof_slot h) keys /\ primer h 1 m keys = Val (Some m') /\
  num_pubkeys h m' stack = Val 2 /\ slot_at h m' 1 <> firstn 73 (nth 1 keys []).
Proof.
  exists (ed448_otp true), (fun _ => 255), ed448_keys.
  assert (A : match primer (ed448_otp true) 1 (fun _ => 255) ed448_keys with Val (Some m') => (num_pubkeys (ed448_otp true) m' (repeat 0 16), nth 3 (slot_at (ed448_otp true) m' 1) 0) | _ => (UB, 0) end = (Val 2, 255)) by (vm_compute; reflexivity).
  destruct (primer (ed448_otp true) 1 (fun _ => 255) ed448_keys) as [[m'|]| |] eqn:E; [|discriminate A..].
  exists m', (repeat 0 16).
  assert (A1 := f_equal fst A). assert (A2 := f_equal snd A). cbn [fst snd] in A1, A2.
  split; [reflexivity|]. split; [intros x _; reflexivity|]. split; [reflexivity|]. split; [repeat (apply Forall_cons; [vm_compute; reflexivity|]); apply Forall_nil|].
  split; [reflexivity|]. split; [exact A1|]. intro H. rewrite H in A2. vm_compute in A2. discriminate A2.
Qed.
Print Assumptions C34_odd_slot_provision_refuted.

(** The generator of OTP images places slots at the size of the first key: with keys of
    different sizes the target looks for the second one elsewhere. *)
Definition mixed_keys : list (list Z) := [demo_key 0 1 1 32 (map Z.of_nat (seq 1 32)) 64; demo_key 1 2 1 64 (map Z.of_nat (seq 100 64)) 64].
Theorem C34_mixed_keys_refuted : exists h keys stack cache, otp_ok h /\ Forall (fun k => zlen k = SLOT h) keys /\ zlen stack = OTP_HDR_SIZE /\ zlen cache = SLOT h /\
  let m := at_otp h (gen_file 1 keys) in
  num_pubkeys h m stack = Val 2 /\ get_buffer h m stack cache 1 <> Val (Some (skipn 16 (nth 1 keys []))).
Proof.
  exists demo_otp, mixed_keys, (repeat 0 16), (repeat 0 80). split; [exact (proj1 C34_hyps)|]. split; [repeat (apply Forall_cons; [vm_compute; reflexivity|]); apply Forall_nil|].
  split; [reflexivity|]. split; [reflexivity|]. cbv zeta. split; [vm_compute; reflexivity|]. intro H.
  assert (A : match get_buffer demo_otp (at_otp demo_otp (gen_file 1 mixed_keys)) (repeat 0 16) (repeat 0 80) 1 with Val (Some l) => nth 0 l 0 | _ => 0 end = 255) by (vm_compute; reflexivity).
  rewrite H in A. vm_compute in A. discriminate A.
Qed.
Print Assumptions C34_mixed_keys_refuted.

(** A stored size above the slot makes the key hash read past the cache. *)
Theorem C34_key_hash_refuted : exists h m stack cache n, otp_ok h /\ zlen stack = OTP_HDR_SIZE /\ zlen cache = SLOT h /\
  num_pubkeys h m stack = Val n /\ 0 < n /\ key_sha_input h m stack cache 0 = UB.
Proof.
  exists demo_otp, (at_otp demo_otp (otp_hdr 1 1 ++ demo_key 0 2 1 65 (map Z.of_nat (seq 1 64)) 64)), (repeat 0 16), (repeat 0 80), 1.
  split; [exact (proj1 C34_hyps)|]. split; [reflexivity|]. split; [reflexivity|]. split; [vm_compute; reflexivity|]. split; [reflexivity|]. vm_compute. reflexivity.
Qed.
Print Assumptions C34_key_hash_refuted.

(** Locking blocks: a length that is no multiple of the block is rounded up after the check,
    so a lock up to one byte past the last block shifts by 32. *)
Theorem C34_lock_refuted : exists h a len, otp_ok h /\ OB h <= a /\ set_readonly h a len = UB.
Proof.
  exists {| OB := 150994944; OSZ := 2048; KPS := 64; H5 := true |}, 150994944, 2049.
  split; [unfold otp_ok; repeat split; vm_compute; congruence|]. split; [vm_compute; discriminate|]. vm_compute. reflexivity.
Qed.
Print Assumptions C34_lock_refuted.
(** Locking a range inside the area is defined. *)
Theorem C34_lock : forall h a len, OSZ h = 2048 -> 0 <= OB h -> OB h + OSZ h < 2 ^ 31 -> OB h <= a -> 0 < len -> a + len <= OB h + OSZ h -> (a - OB h) mod 64 = 0 ->
  exists v, set_readonly h a len = Val (Some v) /\
    forall x, OB h <= x < OB h + OSZ h -> Z.testbit v ((x - OB h) / 64) = true <-> (a - OB h) / 64 <= (x - OB h) / 64 <= (a + len - 1 - OB h) / 64.
Proof.
  intros h a len HS HB H31 Ha Hl He HA. unfold set_readonly. rewrite Z.mod_small by (change (2 ^ 32) with (2 * 2 ^ 31); lia).
  set (s := (a - OB h) / 64). pose proof (Z.div_mod (a - OB h) 64 ltac:(lia)) as DA. fold s in DA. rewrite HA in DA.
  pose proof (Z.div_mod len 64 ltac:(lia)) as DL. pose proof (Z.mod_pos_bound len 64 ltac:(lia)) as BL. set (q := len / 64) in *. set (r := len mod 64) in *.
  assert (S0 : 0 <= s) by (apply Z.div_pos; lia). assert (Q0 : 0 <= q) by (apply Z.div_pos; lia).
  set (c := if r =? 0 then q else q + 1).
  assert (C : 64 * c - 64 < len <= 64 * c) by (unfold c; destruct (Z.eqb_spec r 0); lia). clearbody c.
  destruct (Z.ltb_spec 32 (s + q)) as [|_]; [lia|]. destruct (Z.ltb_spec 32 (s + c)) as [|_]; [lia|].
  eexists. split; [reflexivity|].
  assert (LE : (a + len - 1 - OB h) / 64 = s + c - 1).
  { symmetry. apply (Z.div_unique_pos _ _ _ (len - 1 - 64 * (c - 1))); lia. }
  rewrite LE.
  assert (FB : forall n v k, 0 <= k -> Z.testbit (fold_left Z.lor (map (fun i => Z.shiftl 1 (s + Z.of_nat i)) (seq 0 n)) v) k = Z.testbit v k || ((s <=? k) && (k <? s + Z.of_nat n))).
  { intros n v k Hk. induction n as [|n IH].
    - cbn [seq map fold_left]. destruct (Z.leb_spec s k); destruct (Z.ltb_spec k (s + Z.of_nat 0)); cbn [andb]; rewrite ?orb_false_r; try reflexivity. lia.
    - rewrite seq_S, map_app, fold_left_app. cbn [map fold_left]. rewrite Z.lor_spec, IH. rewrite Z.shiftl_spec by lia.
      replace (Z.testbit 1 (k - (s + Z.of_nat (0 + n)))) with (k =? s + Z.of_nat n).
      2:{ destruct (Z.eqb_spec k (s + Z.of_nat n)) as [->|N]; [rewrite Nat.add_0_l, Z.sub_diag; reflexivity|]. destruct (Z.lt_ge_cases k (s + Z.of_nat n)); [rewrite Z.testbit_neg_r by lia; reflexivity|].
          symmetry. apply (Z.bits_above_log2 1); [lia|]. change (Z.log2 1) with 0. lia. }
      rewrite <- orb_assoc. f_equal. rewrite Nat2Z.inj_succ. destruct (Z.leb_spec s k); destruct (Z.ltb_spec k (s + Z.of_nat n)); destruct (Z.eqb_spec k (s + Z.of_nat n)); destruct (Z.ltb_spec k (s + Z.succ (Z.of_nat n))); cbn [andb orb]; try reflexivity; lia. }
  intros x Hx. rewrite FB by (apply Z.div_pos; lia). rewrite Z.testbit_0_l. cbn [orb]. rewrite Bool.andb_true_iff, Z.leb_le, Z.ltb_lt. lia.
Qed.
Print Assumptions C34_lock.
