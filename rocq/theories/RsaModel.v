(** RSA signatures of images.  Source: src/image.c:300-450 (software verification), with
    include/image.h:809-814.  The payload of the signature is at the end of the array
    [output], so that nothing after it may be read. *)
From Verif Require Import Base OtpModel.

(** src/image.c:317-330 [DecodeAsn1Tag]: the length in the tag and the new index. *)
Definition decode_tag (input : list Z) (idx : nat) (tag : Z) : out (option (Z * nat)) :=
  dlet b <- rd input idx in
  if negb (b =? tag) then Val None
  else
    dlet tag_len <- rd input (S idx) in
    if tag_len + Z.of_nat (S (S idx)) >? zlen input then Val None
    else Val (Some (tag_len, S (S idx))).

(** src/image.c:331-358 [RsaDecodeSignature]: where the digest starts and its length. *)
Definition rsa_decode (input : list Z) : out (option (nat * Z)) :=
  dlet r1 <- decode_tag input 0 48 in
  match r1 with
  | None => Val None
  | Some (_, i1) =>
    dlet r2 <- decode_tag input i1 48 in
    match r2 with
    | None => Val None
    | Some (algo_len, i2) =>
      dlet r3 <- decode_tag input (i2 + Z.to_nat algo_len) 4 in
      match r3 with
      | None => Val None
      | Some (digest_len, i3) => Val (Some (i3, digest_len))
      end
    end
  end.

(** XMEMCMP of the digest with [n] bytes from [l\[i\]] on. *)
Definition same_at (l : list Z) (i n : nat) (h : list Z) : out bool :=
  if (i + n <=? length l)%nat then Val (list_eqb h (sub l i n)) else UB.

(** src/image.c:361-450 [wolfBoot_verify_signature_rsa]: whether the signature is confirmed.
    [verify_inline] is wc_RsaSSL_VerifyInline with the public key, [None] for an error (also
    one of the key); [enc] is false with NO_RSA_SIG_ENCODING; [dig] is
    WOLFBOOT_SHA_DIGEST_SIZE. *)
Definition verify_signature_rsa (enc : bool) (dig : nat) (verify_inline : list Z -> option (list Z)) (sha_hash sig : list Z) : out bool :=
  match verify_inline sig with
  | None => Val false
  | Some d =>
    if enc && (zlen d >? Z.of_nat dig) then
      dlet r <- rsa_decode d in
      match r with
      | None => Val false
      | Some (i, ret) => if ret =? Z.of_nat dig then same_at d i dig sha_hash else Val false
      end
    else if zlen d =? Z.of_nat dig then same_at d 0 dig sha_hash
    else Val false
  end.
