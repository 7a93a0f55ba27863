(** Opening and verifying an image.  Sources: src/image.c, include/image.h,
    include/wolfboot/wolfboot.h, src/libwolfboot.c (get_image_version/type).
    Build modelled: WOLFBOOT_FIXED_PARTITIONS, internal flash (no EXT_FLASH, MMU, TPM,
    wolfHSM, Renesas), signature checking on, SHA selected by configuration. *)
From Verif Require Import Base HeaderModel Flash.

(** A build configuration together with the external primitives.
    Addresses and sizes: include/target.h; UFLAGS is PART_UPDATE_ENDFLAGS
    (src/libwolfboot.c:154-160, before the end of the boot partition with FLAGS_HOME); FB is FLASHBUFFER_SIZE, BLK is
    WOLFBOOT_SHA_BLOCK_SIZE.  [c_keys]: the keystore (include/keystore.h:55-59), one entry
    per slot: key buffer ([None]: keystore_get_buffer returns NULL or the size is negative)
    and permission mask.  [c_hash], [c_verify], [c_verify2]: the hash function and the
    primary/secondary signature verification (src/image.c:60-737), applied to the slot, the
    digest bytes and the signature bytes found at the given pointer. *)
Record cfg := {
  BOOT : Z; UPDATE : Z; SWAP : Z; UFLAGS : Z;
  PART : Z; SECT : Z; HDR : Z; FB : Z; BLK : Z;
  c_hash_tag : Z; c_digsz : nat; c_auth : Z;
  c_hash : list Z -> list Z;
  c_keys : list (option (list Z) * Z);
  c_sigsz : nat; c_verify : nat -> list Z -> list Z -> bool;
  c_hybrid : bool; c_sigsz2 : nat; c_verify2 : nat -> list Z -> list Z -> bool;
  c_allow_downgrade : bool
}.

(** include/wolfboot/wolfboot.h:105-124 image type encoding. *)
Definition TYPE_AUTH_MASK : Z := 0xFF00.
Definition TYPE_PART_MASK : Z := 0x000F.
Definition TYPE_WOLFBOOT : Z := 0x0000.
Definition TYPE_APP : Z := 0x0001.

(** Partition identifiers, include/wolfboot/wolfboot.h:298-300. *)
Inductive part := PBOOT | PUPDATE | PSWAP.
Definition part_addr (c : cfg) (p : part) : Z :=
  match p with PBOOT => BOOT c | PUPDATE => UPDATE c | PSWAP => SWAP c end.
Definition part_eqb (p q : part) : bool :=
  match p, q with
  | PBOOT, PBOOT | PUPDATE, PUPDATE | PSWAP, PSWAP => true
  | _, _ => false
  end.

(** include/image.h:193-212 [struct wolfBoot_image].  [i_sha] is what [sha_hash] points to:
    simplification, the bytes rather than the pointer; nothing is written to flash between
    the two verification steps. *)
Record image := mkImage {
  i_part : part; i_hdr : Z; i_base : Z; i_size : Z;
  i_hdr_ok : bool; i_sha_ok : bool; i_sig_ok : bool; i_sha : option (list Z)
}.

(** src/image.c:1128-1132. *)
Definition image_size (f : flash) (a : Z) : Z := word f (a + 4).

(** src/image.c:1144-1184 and 1220-1282, [wolfBoot_open_image(img, part)]: return value
    (true for 0) and image.  [img] is zeroed first; hdr_ok is set before the header is
    looked at; on a bad magic the size stays 0 and fw_base NULL; on an excessive size the
    size is clamped and fw_base stays NULL. *)
Definition open_image (c : cfg) (f : flash) (p : part) : bool * image :=
  let a := part_addr c p in
  match p with
  | PSWAP => (true, mkImage PSWAP a a (SECT c) true false false None)
  | _ =>
    if negb (word f a =? WOLFBOOT_MAGIC)
    then (false, mkImage p a 0 0 true false false None)
    else if image_size f a >? PART c - HDR c
    then (false, mkImage p a 0 (PART c - HDR c) true false false None)
    else (true, mkImage p a (a + HDR c) (image_size f a) true false false None)
  end.

(** Header bytes of an image and field lookup: src/image.c:740-748 [get_header]. *)
Definition hdr_bytes (c : cfg) (f : flash) (a : Z) : list Z := rdl f a (Z.to_nat (HDR c)).
Definition get_header (c : cfg) (f : flash) (a : Z) (ty : Z) : out (option (nat * nat)) :=
  find_header a (hdr_bytes c f a) ty.

(** src/image.c:822-849 [header_sha256], the loop: bytes fed to the hash between [p] and
    [e] in blocks. *)
Fixpoint feed_header (fuel : nat) (c : cfg) (f : flash) (p e : Z) : out (list Z) :=
  if p <? e then
    match fuel with
    | O => NoFuel
    | S fuel' =>
      let blksz := if e - p <? BLK c then e - p else BLK c in
      dlet r <- feed_header fuel' c f (p + blksz) e in
      Val (rdl f p (Z.to_nat blksz) ++ r)
    end
  else Val [].

(** src/image.c:858-881 [image_sha256], the do-while loop with [position] a uint32_t and
    get_sha_block (760-772) returning NULL beyond the image. *)
Fixpoint feed_image (fuel : nat) (c : cfg) (f : flash) (base size pos : Z) : out (list Z) :=
  match fuel with
  | O => NoFuel
  | S fuel' =>
    if pos >? size then Val []
    else
      let blksz := if (pos + BLK c) mod 2 ^ 32 >? size then size - pos else BLK c in
      let pos' := (pos + blksz) mod 2 ^ 32 in
      let here := rdl f (base + pos) (Z.to_nat blksz) in
      if pos' <? size then
        dlet r <- feed_image fuel' c f base size pos' in Val (here ++ r)
      else Val here
  end.

(** src/image.c:822-881 (and the SHA-384/SHA3 twins 910-1115): [image_hash].  [None] is the
    error return -1.  The hash of a sequence of updates is the hash of the concatenation. *)
Definition image_hash (c : cfg) (f : flash) (img : image) : out (option (list Z)) :=
  dlet r <- get_header c f (i_hdr img) (c_hash_tag c) in
  match r with
  | None => Val None
  | Some (off, len) =>
    if negb (len =? c_digsz c)%nat then Val None
    else
      let e := i_hdr img + Z.of_nat off - 4 in
      dlet h <- feed_header (S (Z.to_nat (HDR c))) c f (i_hdr img) e in
      dlet b <- feed_image (S (Z.to_nat (i_size img))) c f (i_base img) (i_size img) 0 in
      Val (Some (c_hash c (h ++ b)))
  end.

Fixpoint list_eqb (a b : list Z) : bool :=
  match a, b with
  | [], [] => true
  | x :: a', y :: b' => (x =? y) && list_eqb a' b'
  | _, _ => false
  end.

(** src/image.c:1314-1328 [wolfBoot_verify_integrity]: true for 0. *)
Definition verify_integrity (c : cfg) (f : flash) (img : image) : out (bool * image) :=
  dlet r <- get_header c f (i_hdr img) (c_hash_tag c) in
  match r with
  | None => Val (false, img)
  | Some (off, len) =>
    if negb (len =? c_digsz c)%nat then Val (false, img)
    else
      dlet d <- image_hash c f img in
      match d with
      | None => Val (false, img)
      | Some digest =>
        let stored := rdl f (i_hdr img + Z.of_nat off) len in
        if list_eqb digest stored
        then Val (true, mkImage (i_part img) (i_hdr img) (i_base img) (i_size img)
                          (i_hdr_ok img) true (i_sig_ok img) (Some stored))
        else Val (false, img)
      end
  end.

(** src/image.c:891-905 [key_sha256]: zeros for an unusable key. *)
Definition key_hash (c : cfg) (k : option (list Z)) : list Z :=
  match k with Some b => c_hash c b | None => repeat 0 (c_digsz c) end.

(** src/image.c:1768-1779 [keyslot_id_by_sha] from slot [id] on.  [buf] is the global
    [digest] buffer; its last value is returned too. *)
Fixpoint keyslot_from (c : cfg) (ks : list (option (list Z) * Z)) (id : nat) (hint buf : list Z)
  : option nat * list Z :=
  match ks with
  | [] => (None, buf)
  | (k, _) :: ks' =>
    if list_eqb (key_hash c k) hint then (Some id, key_hash c k)
    else keyslot_from c ks' (S id) hint (key_hash c k)
  end.
Definition keyslot_id_by_sha (c : cfg) (hint buf : list Z) : option nat * list Z :=
  keyslot_from c (c_keys c) 0 hint buf.

(** keystore_get_mask: 0 for a slot that does not exist. *)
Definition key_mask (c : cfg) (slot : nat) : Z :=
  match nth_error (c_keys c) slot with Some (_, m) => m | None => 0 end.

(** [((1U << id) & mask) == (1U << id)]. *)
Definition mask_allows (mask id : Z) : bool :=
  Z.land (Z.shiftl 1 id) mask =? Z.shiftl 1 id.

Inductive verdict := Accept | Reject | VPanic.

Definition set_sig (img : image) (b : bool) : image :=
  mkImage (i_part img) (i_hdr img) (i_base img) (i_size img) (i_hdr_ok img) (i_sha_ok img) b
    (i_sha img).
Definition set_sha (img : image) (d : list Z) : image :=
  mkImage (i_part img) (i_hdr img) (i_base img) (i_size img) (i_hdr_ok img) (i_sha_ok img)
    (i_sig_ok img) (Some d).

(** The [n] bytes a signature verification reads through the pointer left by get_header:
    NULL (address 0) when the field is absent, whatever the field's declared size. *)
Definition sig_bytes (f : flash) (hdr : Z) (r : option (nat * nat)) (n : nat) : list Z :=
  rdl f (match r with Some (off, _) => hdr + Z.of_nat off | None => 0 end) n.

(** src/image.c:1627-1734 [wolfBoot_verify_authenticity]: [Accept] for 0, [Reject] for -1
    and -2, [VPanic] for CONFIRM_MASK_VALID (include/image.h:820-822).  [buf] is the
    content of the global [digest] buffer, which keyslot_id_by_sha overwrites; when
    sha_hash was NULL it points to that buffer. *)
Definition verify_authenticity (c : cfg) (f : flash) (img : image) : out (verdict * image) :=
  let hdr := i_hdr img in
  dlet sig <- get_header c f hdr HDR_SIGNATURE in
  dlet hint <- get_header c f hdr HDR_PUBKEY in
  match hint with
  | None => Val (Reject, img)
  | Some (hoff, hlen) =>
    if negb (hlen =? c_digsz c)%nat then Val (Reject, img)
    else
      match keyslot_id_by_sha c (rdl f (hdr + Z.of_nat hoff) hlen) [] with
      | (None, _) => Val (Reject, img)
      | (Some slot, buf) =>
        dlet ty <- get_header c f hdr HDR_IMG_TYPE in
        match ty with
        | None => Val (Reject, img)
        | Some (toff, tlen) =>
          if negb (tlen =? 2)%nat then Val (Reject, img)
          else
            let image_type := half f (hdr + Z.of_nat toff) in
            if negb (Z.land image_type TYPE_AUTH_MASK =? c_auth c) then Val (Reject, img)
            else
              dlet sha <- (match i_sha img with
                           | Some d => Val (Some (d, false))
                           | None => dlet d <- image_hash c f img in
                                     Val (match d with Some d => Some (d, true) | None => None end)
                           end) in
              match sha with
              | None => Val (Reject, img)
              | Some (digest, in_buf) =>
                let img := set_sha img digest in
                let id := Z.land image_type TYPE_PART_MASK in
                if negb (mask_allows (key_mask c slot) id) then Val (Reject, img)
                else if negb (mask_allows (key_mask c slot) id) then Val (VPanic, img)
                else
                  let ok1 := c_verify c slot digest (sig_bytes f hdr sig (c_sigsz c)) in
                  let img := set_sig img (i_sig_ok img || ok1) in
                  if negb (i_sig_ok img) then Val (Reject, img)
                  else if negb (c_hybrid c) then Val (Accept, img)
                  else
                    let img := set_sig img false in
                    dlet hint2 <- get_header c f hdr HDR_SECONDARY_PUBKEY in
                    match hint2 with
                    | None => Val (Reject, img)
                    | Some (h2off, h2len) =>
                      if negb (h2len =? c_digsz c)%nat then Val (Reject, img)
                      else
                        match keyslot_id_by_sha c (rdl f (hdr + Z.of_nat h2off) h2len) buf with
                        | (None, _) => Val (Reject, img)
                        | (Some slot2, buf2) =>
                          if negb (mask_allows (key_mask c slot2) id) then Val (Reject, img)
                          else
                            dlet sig2 <- get_header c f hdr HDR_SECONDARY_SIGNATURE in
                            let digest2 := if in_buf then buf2 else digest in
                            let ok2 := c_verify2 c slot2 digest2
                                         (sig_bytes f hdr sig2 (c_sigsz2 c)) in
                            let img := set_sig img ok2 in
                            Val (if ok2 then Accept else Reject, img)
                        end
                    end
              end
        end
      end
  end.

(** src/libwolfboot.c:1137-1218 get_image_version / get_image_type for the boot and update
    partitions: the blob functions (1025-1083) applied to the header in memory.  Here the
    value is loaded from flash, where reading past the header is harmless. *)
Definition get_image_version (c : cfg) (f : flash) (p : part) : out Z :=
  let a := part_addr c p in
  if negb (word f a =? WOLFBOOT_MAGIC) then Val 0
  else dlet r <- get_header c f a HDR_VERSION in
       match r with
       | None => Val 0
       | Some (off, len) => if (len =? 0)%nat then Val 0 else Val (word f (a + Z.of_nat off))
       end.
Definition get_image_type (c : cfg) (f : flash) (p : part) : out Z :=
  let a := part_addr c p in
  if negb (word f a =? WOLFBOOT_MAGIC) then Val 0
  else dlet r <- get_header c f a HDR_IMG_TYPE in
       match r with
       | None => Val 0
       | Some (off, len) => if (len =? 0)%nat then Val 0 else Val (half f (a + Z.of_nat off))
       end.

(** include/image.h:816-818 PART_SANITY_CHECK passes. *)
Definition sanity (img : image) : bool := i_hdr_ok img && i_sha_ok img && i_sig_ok img.
