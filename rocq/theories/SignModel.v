(** Model of the header layout performed by the signing tool.
    Source: tools/keytools/sign.c, function make_header_ex (lines 1046-1582). *)
From Verif Require Import Base HeaderModel.

(** sign.c:248-249: hash algorithms; the value of [CMD.hash_algo] is also the tag of the
    digest field (include/wolfboot/wolfboot.h:67,75,76). *)
Inductive hash_algo := A_SHA256 | A_SHA384 | A_SHA3.
Definition hash_tag (a : hash_algo) : Z :=
  match a with A_SHA256 => HDR_SHA256 | A_SHA384 => HDR_SHA384 | A_SHA3 => HDR_SHA3_384 end.

(** Delta parameters, sign.c:1047-1050 and 1123-1164. *)
Record delta_opts := {
  d_base : Z; d_size : Z; d_inv_off : Z; d_inv_size : Z;
  d_base_hash : option (list Z)          (* None: CMD.no_base_sha *)
}.

(** The command-line choices that influence the header (struct cmd_options,
    sign.c:244-284) together with the already computed key digests and signatures.
    [o_sign] is [None] for NO_SIGN; it maps the image digest to the signature bytes. *)
Record sign_opts := {
  o_version : Z;
  o_timestamp : option Z;                (* None: CMD.no_ts *)
  o_img_type : Z;                        (* CMD.sign & 0xFF00 | partition_id (| 0xD0) *)
  o_delta : option delta_opts;
  o_custom : list (Z * list Z);          (* CMD.custom_tlv[] *)
  o_algo : hash_algo;
  o_pubkey_hash : list Z;
  o_secondary : option (Z * list Z);     (* CMD.secondary_sign, hash of second key *)
  o_sign : option (list Z -> list Z);
  o_sign2 : option (list Z -> list Z);   (* CMD.hybrid *)
  o_policy : option (list Z)             (* CMD.policy_sign *)
}.

(** sign.c:222-229 header_append_tag (with header_append_u16, 217-221) appended at
    [header_idx = length h].  The 16-bit truncation of the length argument is left to the
    theorem's hypotheses (lengths below 65536). *)
Definition put_tag (tag : Z) (d : list Z) (h : list Z) : list Z :=
  h ++ le_bytes 2 tag ++ le_bytes 2 (zlen d) ++ d.

(** sign.c:1043 [ALIGN_8(x) while ((x % 8) != 4) x++]: the buffer was filled with 0xFF by
    memset (line 1076), so skipping appends 0xFF bytes. *)
Definition align8 (h : list Z) : list Z :=
  h ++ repeat 255 ((12 - length h mod 8) mod 8)%nat.
(** sign.c:1044 [ALIGN_4(x) while ((x % 4) != 0) x++]. *)
Definition align4 (h : list Z) : list Z :=
  h ++ repeat 255 ((4 - length h mod 4) mod 4)%nat.

(** sign.c:1091-1121: magic, size, version, optional timestamp, image type. *)
Definition lay_fixed (o : sign_opts) (image_sz : Z) : list Z :=
  let h := le_bytes 4 WOLFBOOT_MAGIC ++ le_bytes 4 image_sz in
  let h := align8 (put_tag HDR_VERSION (le_bytes 4 (o_version o)) h) in
  let h := match o_timestamp o with
           | Some ts => put_tag HDR_TIMESTAMP (le_bytes 8 ts) h
           | None => h end in
  put_tag HDR_IMG_TYPE (le_bytes 2 (o_img_type o)) h.

(** sign.c:1123-1164. *)
Definition lay_delta (o : sign_opts) (h : list Z) : list Z :=
  match o_delta o with
  | None => h
  | Some d =>
    let h := align4 h in
    let h := put_tag HDR_IMG_DELTA_BASE (le_bytes 4 (d_base d)) h in
    let h := put_tag HDR_IMG_DELTA_SIZE (le_bytes 4 (d_size d)) h in
    let h := align4 h in
    let h := put_tag HDR_IMG_DELTA_INVERSE (le_bytes 4 (d_inv_off d)) h in
    let h := put_tag HDR_IMG_DELTA_INVERSE_SIZE (le_bytes 4 (d_inv_size d)) h in
    match d_base_hash d with
    | None => h
    | Some bh => put_tag HDR_IMG_DELTA_BASE_HASH bh (align8 h)
    end
  end.

(** sign.c:1166-1185. *)
Definition lay_custom (o : sign_opts) (h : list Z) : list Z :=
  fold_left (fun h tv => put_tag (fst tv) (snd tv) (align8 h)) (o_custom o) h.

(** sign.c:1187-1241, 1264-1301, 1330-1364: key digests; the three algorithms differ in
    where they align. *)
Definition lay_keys (o : sign_opts) (h : list Z) : list Z :=
  let h := align8 h in
  let h := align8 (put_tag HDR_PUBKEY (o_pubkey_hash o) h) in
  let h := match o_secondary o with
           | None => h
           | Some (cipher, h2) =>
             let h := put_tag HDR_SECONDARY_CIPHER (le_bytes 2 cipher) h in
             let h := match o_algo o with A_SHA256 => align8 h | _ => h end in
             put_tag HDR_SECONDARY_PUBKEY h2 h
           end in
  align8 h.

(** sign.c:1091-1364: the header bytes that are hashed (header[0..header_idx)). *)
Definition signed_prefix (o : sign_opts) (image_sz : Z) : list Z :=
  lay_keys o (lay_custom o (lay_delta o (lay_fixed o image_sz))).

(** sign.c:1408 and 1559-1576: digest and signatures. *)
Definition lay_sigs (o : sign_opts) (digest : list Z) (h : list Z) : list Z :=
  let h := put_tag (hash_tag (o_algo o)) digest h in
  match o_sign o with
  | None => h
  | Some sg =>
    let h := put_tag HDR_SIGNATURE (sg digest) (align8 h) in
    let h := match o_sign2 o with
             | None => h
             | Some sg2 => put_tag HDR_SECONDARY_SIGNATURE (sg2 digest) (align8 h) end in
    match o_policy o with
    | None => h
    | Some p => put_tag HDR_POLICY_SIGNATURE p (align8 h)
    end
  end.

(** sign.c:1046-1582 make_header_ex: the header written to the output file.  The buffer
    has [header_sz] bytes; writing beyond it is a heap overflow (UB): the tool has no
    check.  [hash] is the selected hash function. *)
Definition make_header (hash : list Z -> list Z) (header_sz : nat) (o : sign_opts)
    (image : list Z) : out (list Z) :=
  let pre := signed_prefix o (zlen image) in
  let digest := hash (pre ++ image) in
  let h := lay_sigs o digest pre in
  if (header_sz <? length h)%nat then UB
  else Val (h ++ repeat 255 (header_sz - length h)).

(** sign.c:295-340 sign_tool_find_header: same text as the bootloader's lookup with
    [CMD.header_sz] for IMAGE_HEADER_SIZE. *)
Definition sign_tool_find_header := find_header.
