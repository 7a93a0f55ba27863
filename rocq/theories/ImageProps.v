(** Theorems about opening and verifying images: C08, C09, C10, C11. *)
From Verif Require Import Base BaseLemmas HeaderModel HeaderSpec HeaderProofs Flash FlashLemmas
  ImageModel ImageSpec ImageProofs GenuineProofs Sample.

(** C08: integrity verification always terminates and accepts exactly when the stored
    digest is the hash of the header up to the digest field followed by every firmware
    byte, whatever the block size. *)
Theorem C08_integrity : forall c f img,
  bytes f -> 8 <= HDR c < 65544 ->
  0 < BLK c -> 0 <= i_size img -> i_size img + BLK c < 2 ^ 32 ->
  let h := rdl f (i_hdr img) (Z.to_nat (HDR c)) in
  let fw := rdl f (i_base img) (Z.to_nat (i_size img)) in
  exists ok img', verify_integrity c f img = Val (ok, img') /\
    (ok = true <-> exists d, intact c (i_hdr img) h fw d) /\
    (ok = true -> i_sha_ok img' = true /\ exists d, i_sha img' = Some d /\ intact c (i_hdr img) h fw d) /\
    (ok = false -> img' = img).
Proof.
  intros c f img Hb Hh H1 H2 H3 h fw.
  destruct (verify_integrity_spec c f img Hb Hh (conj H1 (conj H2 H3))) as [(d & I & E)|(N & E)];
    rewrite E; eexists _, _; split; try reflexivity.
  - split; [split; [intros _; exists d; exact I|reflexivity]|].
    split; [intros _; split; [reflexivity|exists d; split; [reflexivity|exact I]]|discriminate].
  - split; [split; [discriminate|intros (d & I); exfalso; exact (N d I)]|].
    split; [discriminate|reflexivity].
Qed.
Print Assumptions C08_integrity.

(** Changing a firmware byte changes the outcome whenever it changes the hash: two images
    with the same header and different firmware are both accepted only on a collision. *)
Theorem C08_same_header_collision : forall c base h fw1 fw2 d1 d2,
  all_bytes h -> zlen h < 65544 ->
  intact c base h fw1 d1 -> intact c base h fw2 d2 ->
  exists pre, c_hash c (pre ++ fw1) = c_hash c (pre ++ fw2).
Proof.
  intros c base h fw1 fw2 d1 d2 Hb Hz (o1 & F1 & _ & E1) (o2 & F2 & _ & E2).
  destruct (field_det _ _ _ _ _ _ _ Hb Hz F1 F2) as (-> & ->).
  exists (firstn (o2 - 4) h). congruence.
Qed.
Print Assumptions C08_same_header_collision.

(** Without the size bound the claim is false: the 32-bit position wraps around and the
    hash loop never ends (sizes this large pass wolfBoot_open_image_address in builds
    without fixed partitions). *)
Theorem C08_wrap_refuted : forall c f base, BLK c = 256 ->
  forall fuel, feed_image fuel c f base (2 ^ 32 - 1) 0 = NoFuel.
Proof.
  intros c f base Hb fuel. apply feed_image_wraps; [exact Hb|split; reflexivity || lia|reflexivity].
Qed.
Print Assumptions C08_wrap_refuted.

Definition demo_flash : flash := store 1024 demo_old (store 2048 demo_new (fun _ => 255)).
Lemma demo_flash_bytes : bytes demo_flash.
Proof.
  apply store_bytes; [apply check_bytes_ok; vm_compute; reflexivity|].
  apply store_bytes; [apply check_bytes_ok; vm_compute; reflexivity|]. intro x. unfold is_byte. lia.
Qed.
(** An accepted image, and the same image with one firmware byte changed, rejected. *)
Example C08_accepts :
  match verify_integrity demo demo_flash (snd (open_image demo demo_flash PUPDATE)) with
  | Val (ok, _) => ok | _ => false end = true /\
  let g := fun x => if x =? 2048 + 263 then 1 else demo_flash x in
  match verify_integrity demo g (snd (open_image demo g PUPDATE)) with
  | Val (ok, _) => ok | _ => true end = false.
Proof. vm_compute. auto. Qed.

(** C09: after a successful integrity check (so [d] is the image's digest), authenticity
    verification accepts exactly authentic images, and never panics. *)
Theorem C09_authenticity : forall c f img d,
  bytes f -> 8 <= HDR c < 65544 -> i_sha img = Some d -> i_sig_ok img = false ->
  exists r img', verify_authenticity c f img = Val (r, img') /\ r <> VPanic /\
    (r = Accept <-> authentic c f (i_hdr img) (rdl f (i_hdr img) (Z.to_nat (HDR c))) d) /\
    (r = Accept <-> i_sig_ok img' = true).
Proof.
  intros c f img d Hb Hh Hs Hg.
  destruct (verify_authenticity_spec c f img d Hb Hh Hs Hg) as [(A & E)|(N & img' & E & G)]; rewrite E.
  - exists Accept, (set_sig img true). split; [reflexivity|]. split; [discriminate|].
    split; split; intros; auto.
  - exists Reject, img'. split; [reflexivity|]. split; [discriminate|].
    split; split; intro H; try discriminate; [exfalso; exact (N H)|congruence].
Qed.
Print Assumptions C09_authenticity.

(** End to end: a genuine image stored at an even address is opened, and accepted by both
    checks. *)
Theorem C09_genuine_accepted : forall c f p X v,
  bytes f -> 8 <= HDR c < 65544 -> p <> PSWAP -> Z.odd (part_addr c p) = false ->
  0 < BLK c -> PART c + BLK c < 2 ^ 32 -> 0 <= SECT c ->
  genuine c X v -> holds f (part_addr c p) X ->
  exists img1 img2 img3, open_image c f p = (true, img1) /\
    verify_integrity c f img1 = Val (true, img2) /\
    verify_authenticity c f img2 = Val (Accept, img3) /\ sanity img3 = true /\
    i_base img3 = part_addr c p + HDR c /\ i_size img3 = zlen X - HDR c /\
    get_image_version c f p = Val v.
Proof.
  intros c f p X v Hb Hh Hp Ho B1 B2 Hs HX Hold.
  destruct (stored_integrity c f p X v Hb Hh Ho (conj B1 B2) Hs HX Hold) as (d & S & E).
  exists (stored_image c p X false false None), (stored_image c p X true false (Some d)),
    (stored_image c p X true true (Some d)).
  split; [apply (stored_open c f p X v); auto|]. split; [exact E|].
  split; [apply (stored_authenticity c f p X v); auto|].
  split; [reflexivity|]. split; [reflexivity|]. split; [reflexivity|].
  apply (stored_version c f p X v); auto.
Qed.
Print Assumptions C09_genuine_accepted.
Example C09_hyps : genuine demo demo_new 5 /\ holds demo_flash (part_addr demo PUPDATE) demo_new.
Proof.
  split; [exact demo_new_genuine|]. apply store_other; [left; vm_compute; discriminate|].
  apply store_holds.
Qed.

(** With two signatures and no preceding integrity check the claim is false: the second
    verification is then given the hash of the second key instead of the image digest.
    Witness: an image whose second "signature" only covers the key hash is accepted,
    although it is rejected when integrity was checked first. *)
Definition hyb : cfg := {|
  BOOT := 1024; UPDATE := 2048; SWAP := 4096; UFLAGS := 2560; PART := 512; SECT := 128; HDR := 64; FB := 32;
  BLK := 48; c_hash_tag := HDR_SHA256; c_digsz := 4; c_auth := 0x200;
  c_hash := demo_hash; c_keys := [(Some [4; 5; 6], 0x2)]; c_sigsz := 4;
  c_verify := (fun n d s => list_eqb s (demo_sign d)); c_hybrid := true; c_sigsz2 := 4;
  c_verify2 := (fun _ d s => list_eqb s (demo_sign d)); c_allow_downgrade := false |}.
Definition hyb_image : list Z :=
  let fw := demo_fw1 in
  let pre := demo_pre 3 fw in
  let d := demo_hash (pre ++ fw) in
  let k := demo_hash [4; 5; 6] in
  pre ++ [3; 0; 4; 0] ++ d ++ [16; 0; 4; 0] ++ k ++ [0x12; 0; 4; 0] ++ k ++
  [32; 0; 4; 0] ++ demo_sign d ++ [0x22; 0; 4; 0] ++ demo_sign k ++ fw.
Theorem C09_hybrid_without_integrity_refuted :
  exists f img img2, open_image hyb f PBOOT = (true, img) /\
    (exists img', verify_authenticity hyb f img = Val (Accept, img')) /\
    verify_integrity hyb f img = Val (true, img2) /\
    (exists img', verify_authenticity hyb f img2 = Val (Reject, img')).
Proof.
  exists (store 1024 hyb_image (fun _ => 255)).
  eexists _, _. split; [vm_compute; reflexivity|]. split; [eexists; vm_compute; reflexivity|].
  split; [vm_compute; reflexivity|]. eexists; vm_compute; reflexivity.
Qed.
Print Assumptions C09_hybrid_without_integrity_refuted.

(** C10: the key lookup returns the lowest slot whose key hashes to the hint, and fails
    exactly when there is none. *)
Theorem C10_key_lookup : forall c hint buf,
  match fst (keyslot_id_by_sha c hint buf) with
  | Some n => slot_hash c n = Some hint /\ (forall m, (m < n)%nat -> slot_hash c m <> Some hint)
  | None => forall n, slot_hash c n <> Some hint
  end.
Proof.
  intros c hint buf. destruct (keyslot_spec c hint buf) as [(n & N & E)|(N & b & E)]; rewrite E; exact N.
Qed.
Print Assumptions C10_key_lookup.
(** Slot masks are enforced: a key not allowed for a partition id never authenticates it. *)
Theorem C10_mask_enforced : forall c f img d r img',
  bytes f -> 8 <= HDR c < 65544 -> i_sha img = Some d -> i_sig_ok img = false ->
  verify_authenticity c f img = Val (r, img') -> r = Accept ->
  exists off b0 b1 n hoff hint k mask,
    let h := rdl f (i_hdr img) (Z.to_nat (HDR c)) in
    field_at (i_hdr img) h HDR_IMG_TYPE off [b0; b1] /\
    field_at (i_hdr img) h HDR_PUBKEY hoff hint /\ slot_hash c n = Some hint /\
    nth_error (c_keys c) n = Some (k, mask) /\ Z.testbit mask (b0 mod 16) = true.
Proof.
  intros c f img d r img' Hb Hh Hs Hg E Hr. subst r.
  destruct (verify_authenticity_spec c f img d Hb Hh Hs Hg) as [(A & _)|(_ & i2 & E2 & _)];
    [|rewrite E2 in E; discriminate].
  destruct A as (id & n & s & (off & b0 & b1 & T1 & T2 & ->) & (ho & hint & K1 & K2 & (K3 & _) & (k & m & K4 & K5)) & _).
  exists off, b0, b1, n, ho, hint, k, m. cbv zeta. repeat split; assumption.
Qed.
Print Assumptions C10_mask_enforced.
Example C10_hyps :
  fst (keyslot_id_by_sha demo (demo_hash [4; 5; 6]) []) = Some 2%nat /\
  fst (keyslot_id_by_sha demo [0; 0; 0; 0] []) = Some 0%nat /\
  fst (keyslot_id_by_sha demo [9; 9; 9; 9] []) = None.
Proof. vm_compute. auto. Qed.

(** C11: an image that opens successfully lies inside its partition; otherwise no
    firmware address is handed out. *)
Theorem C11_open_bounds : forall c f p ok img,
  bytes f -> p <> PSWAP -> open_image c f p = (ok, img) ->
  (ok = true <->
     word f (part_addr c p) = WOLFBOOT_MAGIC /\ word f (part_addr c p + 4) <= PART c - HDR c) /\
  (ok = true -> i_base img = part_addr c p + HDR c /\ 0 <= i_size img /\
     i_base img + i_size img <= part_addr c p + PART c /\
     i_size img = word f (part_addr c p + 4)) /\
  (ok = false -> i_base img = 0) /\
  i_sha_ok img = false /\ i_sig_ok img = false.
Proof.
  intros c f p ok img Hb Hp E. destruct ok.
  - destruct (open_image_ok c f p img Hb Hp E) as (H1 & H2 & H3 & H4 & H5 & H6 & H7 & H8 & H9).
    rewrite <- H3. repeat split; auto; try lia; discriminate.
  - destruct (open_image_bad c f p img Hp E) as (H1 & H2 & H3 & H4 & H5 & H6).
    split; [split; [discriminate|lia]|]. repeat split; auto; discriminate.
Qed.
Print Assumptions C11_open_bounds.
Example C11_hyps : fst (open_image demo demo_flash PBOOT) = true /\
  fst (open_image demo (store 1028 [193; 1; 0; 0] demo_flash) PBOOT) = false.
Proof. vm_compute. auto. Qed.
