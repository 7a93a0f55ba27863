(** Model of the image-header parser.  Source: src/libwolfboot.c. *)
From Verif Require Import Base.

(** include/wolfboot/wolfboot.h:46 IMAGE_HEADER_OFFSET = 2 * sizeof(uint32_t). *)
Definition IMAGE_HEADER_OFFSET : nat := 8.

(** include/wolfboot/wolfboot.h:60 WOLFBOOT_MAGIC (little-endian build). *)
Definition WOLFBOOT_MAGIC : Z := 0x464C4F57.
(** include/wolfboot/wolfboot.h:61 WOLFBOOT_MAGIC_TRAIL. *)
Definition WOLFBOOT_MAGIC_TRAIL : Z := 0x544F4F42.

(** include/wolfboot/wolfboot.h:64-83: header field tags. *)
Definition HDR_VERSION : Z := 0x01.
Definition HDR_TIMESTAMP : Z := 0x02.
Definition HDR_SHA256 : Z := 0x03.
Definition HDR_IMG_TYPE : Z := 0x04.
Definition HDR_IMG_DELTA_BASE : Z := 0x05.
Definition HDR_IMG_DELTA_SIZE : Z := 0x06.
Definition HDR_IMG_DELTA_BASE_HASH : Z := 0x07.
Definition HDR_PUBKEY : Z := 0x10.
Definition HDR_SECONDARY_CIPHER : Z := 0x11.
Definition HDR_SECONDARY_PUBKEY : Z := 0x12.
Definition HDR_SHA3_384 : Z := 0x13.
Definition HDR_SHA384 : Z := 0x14.
Definition HDR_IMG_DELTA_INVERSE : Z := 0x15.
Definition HDR_IMG_DELTA_INVERSE_SIZE : Z := 0x16.
Definition HDR_SIGNATURE : Z := 0x20.
Definition HDR_POLICY_SIGNATURE : Z := 0x21.
Definition HDR_SECONDARY_SIGNATURE : Z := 0x22.
Definition HDR_PADDING : Z := 0xFF.

(** src/libwolfboot.c:836-869, the [while] loop of [wolfBoot_find_header].
    [h] is the whole header buffer of IMAGE_HEADER_SIZE bytes, whose first byte has
    address [base]; pointer [p] of the C code is [base + p], [max_p] is
    [base + length h].  A read beyond [h] is [UB].  The result is the offset of the
    value (stored through [ptr]) and the returned length, [None] for "return 0" with
    [*ptr == NULL]. *)
Fixpoint find_loop (fuel : nat) (base : Z) (h : list Z) (ty : Z) (p : nat)
  : out (option (nat * nat)) :=
  match fuel with
  | O => NoFuel
  | S fuel' =>
    if (p + 4 <? length h)%nat then
      dlet b0 <- rd h p in
      dlet b1 <- rd h (p + 1) in
      let htype := le16 b0 b1 in
      if htype =? 0 then Val None
      else if (b0 =? HDR_PADDING) || Z.odd (base + Z.of_nat p)
      then find_loop fuel' base h ty (p + 1)
      else
        dlet b2 <- rd h (p + 2) in
        dlet b3 <- rd h (p + 3) in
        let len := le16 b2 b3 in
        if 4 + len >? (zlen h - Z.of_nat IMAGE_HEADER_OFFSET) mod 65536 then Val None
        else if Z.of_nat p + 4 + len >? zlen h then Val None
        else if htype =? ty then Val (Some (p + 4, Z.to_nat len)%nat)
        else find_loop fuel' base h ty (p + 4 + Z.to_nat len)
    else Val None
  end.

(** src/libwolfboot.c:822-871 [wolfBoot_find_header(haystack, type, &ptr)] with
    [haystack = base + 8].  The test [p > max_p] (line 830) is [8 > length h].
    Fuel [length h + 1] is shown sufficient (every iteration advances [p]). *)
Definition find_header (base : Z) (h : list Z) (ty : Z) : out (option (nat * nat)) :=
  if (length h <? IMAGE_HEADER_OFFSET)%nat then Val None
  else find_loop (S (length h)) base h ty IMAGE_HEADER_OFFSET.

(** A 32-bit little-endian load [*(uint32_t* )(h + off)] (after [im2n],
    src/libwolfboot.c:891-899); UB beyond the buffer. *)
Definition load32 (h : list Z) (off : nat) : out Z :=
  dlet b0 <- rd h off in
  dlet b1 <- rd h (off + 1) in
  dlet b2 <- rd h (off + 2) in
  dlet b3 <- rd h (off + 3) in
  Val (le32 b0 b1 b2 b3).

(** A 16-bit little-endian load (with [im2ns], src/libwolfboot.c:911-918). *)
Definition load16 (h : list Z) (off : nat) : out Z :=
  dlet b0 <- rd h off in
  dlet b1 <- rd h (off + 1) in
  Val (b0 + 256 * b1).

(** src/libwolfboot.c:1025-1048 [wolfBoot_get_blob_version], non-encrypted build. *)
Definition get_blob_version (base : Z) (h : list Z) : out Z :=
  dlet magic <- load32 h 0 in
  if negb (magic =? WOLFBOOT_MAGIC) then Val 0
  else
    dlet r <- find_header base h HDR_VERSION in
    match r with
    | None => Val 0
    | Some (off, len) => if (len =? 0)%nat then Val 0 else load32 h off
    end.

(** src/libwolfboot.c:1061-1083 [wolfBoot_get_blob_type], non-encrypted build. *)
Definition get_blob_type (base : Z) (h : list Z) : out Z :=
  dlet magic <- load32 h 0 in
  if negb (magic =? WOLFBOOT_MAGIC) then Val 0
  else
    dlet r <- find_header base h HDR_IMG_TYPE in
    match r with
    | None => Val 0
    | Some (off, len) => if (len =? 0)%nat then Val 0 else load16 h off
    end.

(** src/libwolfboot.c:1099-1120 [wolfBoot_get_blob_diffbase_version], little-endian
    build (the C code omits [im2n] here). *)
Definition get_blob_diffbase_version (base : Z) (h : list Z) : out Z :=
  dlet magic <- load32 h 0 in
  if negb (magic =? WOLFBOOT_MAGIC) then Val 0
  else
    dlet r <- find_header base h HDR_IMG_DELTA_BASE in
    match r with
    | None => Val 0
    | Some (off, len) => if (len =? 0)%nat then Val 0 else load32 h off
    end.
