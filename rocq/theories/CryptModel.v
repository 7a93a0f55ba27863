(** Encryption of the external flash, of signed images, and storage of the key.
    Source: src/libwolfboot.c:1336-1919, include/encrypt.h, tools/keytools/sign.c:1604-1690.
    The block functions AES and ChaCha are oracles. *)
From Verif Require Import Base HeaderModel Flash ImageModel TrailerModel.

(** ** Counters *)

(** A 32-bit big-endian load and store: [wb_reverse_word32] of a little-endian word. *)
Definition be32 (b0 b1 b2 b3 : Z) : Z := b3 + 256 * b2 + 65536 * b1 + 16777216 * b0.
Definition be_bytes (w : Z) : list Z := [w / 16777216 mod 256; w / 65536 mod 256; w / 256 mod 256; w mod 256].

(** src/libwolfboot.c:1630-1634: the carry, over the words 2, 1, 0. *)
Fixpoint carry (ws : list Z) : list Z :=
  match ws with
  | [] => []
  | w :: r => let w' := (w + 1) mod 2 ^ 32 in if negb (w' =? 0) then w' :: r else w' :: carry r
  end.

(** src/libwolfboot.c:1616-1642 [aes_set_iv]: the counter block for [iv_ctr].  [nonce] is the
    16-byte stored nonce; a shorter list stands for undefined bytes. *)
Definition aes_set_iv (nonce : list Z) (iv_ctr : Z) : list Z :=
  let b i := nth i nonce 0 in
  let w i := be32 (b (4 * i)%nat) (b (4 * i + 1)%nat) (b (4 * i + 2)%nat) (b (4 * i + 3)%nat) in
  let w3 := (w 3%nat + iv_ctr) mod 2 ^ 32 in
  let hi := if w3 <? iv_ctr then carry [w 2%nat; w 1%nat; w 0%nat] else [w 2%nat; w 1%nat; w 0%nat] in
  concat (map be_bytes (rev hi)) ++ be_bytes w3.

(** wolfCrypt [IncrementAesCounter]: the 16 bytes as a big-endian counter, plus one.
    [inc_rev] works from the last byte on. *)
Fixpoint inc_rev (l : list Z) : list Z :=
  match l with
  | [] => []
  | b :: r => let b' := (b + 1) mod 256 in if negb (b' =? 0) then b' :: r else b' :: inc_rev r
  end.
Definition inc_counter (l : list Z) : list Z := rev (inc_rev (rev l)).

(** ** Stream ciphers *)

(** A cipher with a key and a nonce: [seek n] is [crypto_set_iv(nonce, n)], [key_block] the
    keystream of a block, [next] the step to the next block. *)
Record cipher : Type := {
  EBS : Z;                      (* ENCRYPT_BLOCK_SIZE, include/wolfboot/wolfboot.h:363-374 *)
  St : Type;
  seek : Z -> St;
  key_block : St -> list Z;
  next : St -> St
}.

(** include/encrypt.h:57-59: AES in counter mode. *)
Definition aes_cipher (E : list Z -> list Z) (nonce : list Z) : cipher :=
  {| EBS := 16; St := list Z; seek := aes_set_iv nonce; key_block := E; next := inc_counter |}.
(** include/encrypt.h:43-46: ChaCha with its 32-bit block counter. *)
Definition chacha_cipher (E : Z -> list Z) : cipher :=
  {| EBS := 64; St := Z; seek := fun n => n mod 2 ^ 32; key_block := E; next := fun n => (n + 1) mod 2 ^ 32 |}.

(** [wc_AesCtrEncrypt] and [wc_Chacha_Process]: byte [o] of the current block is the next
    one to be used. *)
Fixpoint process (C : cipher) (s : St C) (o : Z) (data : list Z) : list Z * (St C * Z) :=
  match data with
  | [] => ([], (s, o))
  | b :: r =>
    let (s', o') := if o + 1 <? EBS C then (s, o + 1) else (next C s, 0) in
    let (r', q) := process C s' o' r in
    (Z.lxor b (nth (Z.to_nat o) (key_block C s) 0) :: r', q)
  end.

(** ** External flash *)

Record ext : Type := {
  EC : cipher;
  UPD : Z;      (* WOLFBOOT_PARTITION_UPDATE_ADDRESS *)
  PSZ : Z;      (* WOLFBOOT_PARTITION_SIZE *)
  SWP : Z;      (* WOLFBOOT_PARTITION_SWAP_ADDRESS *)
  SSZ : Z;      (* WOLFBOOT_SECTOR_SIZE *)
  SFO : Z;      (* START_FLAGS_OFFSET, src/libwolfboot.c:83 *)
  CSZ : Z       (* NVM_CACHE_SIZE, src/libwolfboot.c:104 *)
}.

(** src/libwolfboot.c:1659-1680 [part_address], with non-zero addresses. *)
Inductive parts := EUPDATE | ESWAP | ENONE.
Definition part_address (e : ext) (a : Z) : parts :=
  if (UPD e <=? a) && (a <? UPD e + PSZ e) then EUPDATE
  else if (SWP e <=? a) && (a <? SWP e + SSZ e) then ESWAP
  else ENONE.

(** [ext_flash_write] from a buffer: reading past its end, or a negative length, is
    undefined.  [ext_flash_read] of a non-negative length. *)
Definition ext_write (f : flash) (a : Z) (buf : list Z) (n : Z) : out flash :=
  if (0 <=? n) && (n <=? zlen buf) then Val (write f a n (fun i => nth (Z.to_nat i) buf 0)) else UB.
Definition ext_read (f : flash) (a n : Z) : list Z := rdl f a (Z.to_nat n).

(** [iv_counter >= (START_FLAGS_OFFSET - ENCRYPT_BLOCK_SIZE) / ENCRYPT_BLOCK_SIZE]. *)
Definition plain_block (e : ext) (iv : Z) : bool := (SFO e - EBS (EC e)) / EBS (EC e) <=? iv.

(** src/libwolfboot.c:1696-1764 [ext_flash_encrypt_write]: the result and the flash.
    [kok]: the key is usable ([crypto_init] does not fail).  [len] is below 2^30. *)
Definition enc_write (e : ext) (kok : bool) (f : flash) (address : Z) (data : list Z) (len : Z) : out (Z * flash) :=
  let C := EC e in
  let B := EBS C in
  let row_offset := address mod B in
  let row_address := address - row_offset in
  let sz := if row_offset =? 0 then len else len + (B - row_offset) in
  let sz := if sz <? B then B else sz in
  match part_address e address with
  | ENONE => Val (-1, f)
  | ESWAP => dlet f' <- ext_write f address data len in Val (0, f')
  | EUPDATE =>
    let iv := (address - UPD e) / B in
    if plain_block e iv then dlet f' <- ext_write f address data len in Val (0, f')
    else if negb kok then Val (-1, f)
    else
      dlet (f, address, data, sz, st) <-
        (if len <? sz then
           let step := B - row_offset in
           if zlen data <? step then UB
           else
             let block := firstn (Z.to_nat row_offset) (ext_read f row_address B) ++ firstn (Z.to_nat step) data in
             let (enc, st) := process C (seek C iv) 0 block in
             dlet f' <- ext_write f row_address enc B in
             Val (f', address + step, skipn (Z.to_nat step) data, len - step, st)
         else Val (f, address, data, sz, (seek C iv, 0))) in
      let step := sz / B * B in
      if (step <? 0) || (CSZ e <? step) || (zlen data <? step) then UB
      else
        let (cache, _) := process C (fst st) (snd st) (firstn (Z.to_nat step) data) in
        dlet f' <- ext_write f address cache step in Val (0, f')
  end.

(** src/libwolfboot.c:1780-1871 [ext_flash_decrypt_read] into a buffer of [len] bytes: the
    result and the bytes stored.  [cur] is the cipher's state before the call. *)
Definition dec_read (e : ext) (kok : bool) (cur : St (EC e) * Z) (f : flash) (address len : Z) : out (Z * list Z) :=
  let C := EC e in
  let B := EBS C in
  let row_offset := address mod B in
  let row_address := address - row_offset in
  let iv := (address - UPD e) / B in
  let go (st : St C * Z) : out (Z * list Z) :=
    let head := B - row_offset in
    if negb (row_offset =? 0) && (len <? head) then UB
    else
      let (hd, st) := if row_offset =? 0 then ([], st)
                      else let (d, st') := process C (fst st) (snd st) (ext_read f row_address B) in (skipn (Z.to_nat row_offset) d, st') in
      let address := if row_offset =? 0 then address else address + head in
      let rem := if row_offset =? 0 then len else len - head in
      let n := rem / B * B in
      if n <? 0 then UB
      else
        let (mid, st) := process C (fst st) (snd st) (ext_read f address n) in
        let (tl, _) := process C (fst st) (snd st) (ext_read f (address + n) B) in
        let tl := if 0 <? rem - n then firstn (Z.to_nat (rem - n)) tl else [] in
        Val (len, hd ++ mid ++ tl)
  in
  match part_address e row_address with
  | ENONE => Val (-1, [])
  | ESWAP => go cur
  | EUPDATE =>
    if plain_block e iv then Val (len, ext_read f address len)
    else if negb kok then Val (-1, [])
    else go (seek C iv, 0)
  end.

(** ** Images *)

(** tools/keytools/sign.c:1658-1690: the signed file in pieces of 16 bytes; with AES the last
    one is padded with 0xFF. *)
Definition ENC_BLOCK_SIZE : nat := 16.
Fixpoint sign_encrypt (fuel : nat) (pad : bool) (C : cipher) (st : St C * Z) (file : list Z) : out (list Z) :=
  match file with
  | [] => Val []
  | _ =>
    match fuel with
    | O => NoFuel
    | S fuel' =>
      let piece := firstn ENC_BLOCK_SIZE file in
      let piece := if pad then piece ++ repeat 255 (ENC_BLOCK_SIZE - length piece) else piece in
      let (enc, st') := process C (fst st) (snd st) piece in
      dlet r <- sign_encrypt fuel' pad C st' (skipn ENC_BLOCK_SIZE file) in Val (enc ++ r)
    end
  end.
(** The tool starts at block 0 of the same nonce. *)
Definition sign_tool (pad : bool) (C : cipher) (file : list Z) : out (list Z) :=
  sign_encrypt (length file) pad C (seek C 0, 0) file.

(** src/libwolfboot.c:1907-1915: the loop of [wolfBoot_ram_decrypt]; [total] is
    [len + IMAGE_HEADER_SIZE].  Reading past the source is undefined. *)
Fixpoint ram_blocks (fuel : nat) (C : cipher) (src : list Z) (iv total : Z) : out (list Z) :=
  if iv * EBS C <? total then
    match fuel with
    | O => NoFuel
    | S fuel' =>
      if zlen src <? EBS C then UB
      else
        let (d, _) := process C (seek C iv) 0 (firstn (Z.to_nat (EBS C)) src) in
        dlet r <- ram_blocks fuel' C (skipn (Z.to_nat (EBS C)) src) (iv + 1) total in Val (d ++ r)
    end
  else Val [].

(** src/libwolfboot.c:996-1010 [decrypt_header]: the header's blocks; [None] if the magic is
    wrong. *)
Definition decrypt_header (C : cipher) (hdr : Z) (src : list Z) : out (option (list Z)) :=
  dlet h <- ram_blocks (length src) C src 0 hdr in
  Val (if le_val (firstn 4 h) =? WOLFBOOT_MAGIC then Some h else None).

(** src/libwolfboot.c:1887-1919 [wolfBoot_ram_decrypt] with header size [hdr] (a multiple of
    the block): [None] is -1, otherwise what is stored at the destination. *)
Definition ram_decrypt (C : cipher) (kok : bool) (hdr : Z) (src : list Z) : out (option (list Z)) :=
  if negb kok then Val None
  else
    dlet h <- decrypt_header C hdr src in
    match h with
    | None => Val None
    | Some h =>
      let len := le_val (firstn 4 (skipn 4 h)) in
      dlet d <- ram_blocks (length src) C src 0 ((len + hdr) mod 2 ^ 32) in Val (Some d)
    end.

(** ** The key *)

(** ENCRYPT_TMP_SECRET_OFFSET, src/libwolfboot.c:77-78, without TRAILER_SKIP: the last
    [n] = ENCRYPT_KEY_SIZE + ENCRYPT_NONCE_SIZE bytes of the boot partition. *)
Definition secret_addr (c : cfg) (n : Z) : Z := BOOT c + PART c - n.

(** src/libwolfboot.c:1358-1431 [hal_set_key], 1444-1449 [wolfBoot_set_encrypt_key], builds
    without MMU, NVM_FLASH_WRITEONCE and FLAGS_HOME.  [k] is the key followed by the nonce;
    the key area and the magic below it are inside one sector. *)
Definition set_key (c : cfg) (k : list Z) : prog unit :=
  let n := zlen k in
  let addr := secret_addr c n in
  let align := addr / SECT c * SECT c in
  let off := addr mod SECT c in
  let! cache <- get (fun f i => f (align + i)) in
  Er align (SECT c)
    (Wr align (SECT c)
       (fun i => if inr (off - 4) 4 i then magic_byte (i - (off - 4))
                 else if inr off n i then nth (Z.to_nat (i - off)) k 0 else cache i)
       (Ret tt)).

(** src/libwolfboot.c:1464-1481 [wolfBoot_get_encrypt_key]. *)
Definition get_key (c : cfg) (n : Z) (f : flash) : list Z := ext_read f (secret_addr c n) n.

(** src/libwolfboot.c:1490-1510 [wolfBoot_erase_encrypt_key]. *)
Definition erase_key (c : cfg) (n : Z) : prog unit :=
  let! k <- get (get_key c n) in
  if forallb (fun b => b =? 255) k then Ret tt else set_key c (repeat 255 (Z.to_nat n)).

(** src/libwolfboot.c:1538-1545, 1584-1590: [crypto_init] refuses a key of all 0xFF or all 0;
    [k] is the key without the nonce. *)
Definition key_usable (k : list Z) : bool := negb (forallb (fun b => b =? 255) k) && negb (forallb (fun b => b =? 0) k).
