(** Keys in one-time programmable memory. Source: src/flash_otp_keystore.c,
    include/otp_keystore.h, include/keystore.h:43-52, hal/stm32h7.c:552-616,
    hal/stm32h5.c:606-682, tools/keytools/otp. *)
From Verif Require Import Base HeaderModel Flash.

Record otp : Type := {
  OB : Z;       (* FLASH_OTP_BASE *)
  OSZ : Z;      (* OTP_SIZE; FLASH_OTP_END is OB + OSZ - 1 *)
  KPS : Z;      (* KEYSTORE_PUBKEY_SIZE *)
  H5 : bool     (* the driver of the STM32H5, else of the STM32H7 *)
}.

(** include/keystore.h:51-52, include/otp_keystore.h:41, 59. *)
Definition OTP_HDR_SIZE : Z := 16.
Definition SLOT (h : otp) : Z := 16 + KPS h.
Definition MAXKEYS (h : otp) : Z := (OSZ h - OTP_HDR_SIZE) / SLOT h.
Definition OEND (h : otp) : Z := OB h + OSZ h - 1.

(** A 16-bit access outside the OTP area is undefined. *)
Definition in_otp (h : otp) (a : Z) : bool := (OB h <=? a) && (a + 1 <=? OEND h).

(** hal/stm32h7.c:601-616, hal/stm32h5.c:666-682 [hal_flash_otp_read], the loop: [room] bytes
    of the destination are left. (The 16-bit counter of the H5 does not matter: the loop ends
    at FLASH_OTP_END first.) *)
Fixpoint otp_read_loop (fuel : nat) (h : otp) (m : flash) (a i len room : Z) : out (list Z) :=
  if (i <? len) && (a <=? OEND h - 1) then
    match fuel with
    | O => NoFuel
    | S fuel' =>
      if negb (in_otp h a) || (room <? 2) then UB
      else dlet r <- otp_read_loop fuel' h m (a + 2) (i + 2) len (room - 2) in Val (m a :: m (a + 1) :: r)
    end
  else Val [].
(** [buf] is the destination, of which [len] bytes are asked for; [None] is -1. *)
Definition otp_read (h : otp) (m : flash) (a len : Z) (buf : list Z) : out (option (list Z)) :=
  if negb ((OB h <=? a) && (a <=? OEND h)) then Val None
  else dlet r <- otp_read_loop (Z.to_nat len) h m a 0 len (zlen buf) in Val (Some (r ++ skipn (length r) buf)).

(** "WOLFBOOT", include/otp_keystore.h:57. *)
Definition OTP_MAGIC : list Z := [87; 79; 76; 70; 66; 79; 79; 84].
Definition list_eqb (l r : list Z) : bool := (Nat.eqb (length l) (length r)) && forallb (fun x => fst x =? snd x) (combine l r).

(** src/flash_otp_keystore.c:34-46 [keystore_num_pubkeys]; [stack] is what the header buffer
    held before. *)
Definition num_pubkeys (h : otp) (m : flash) (stack : list Z) : out Z :=
  dlet r <- otp_read h m (OB h) OTP_HDR_SIZE stack in
  match r with
  | None => Val 0
  | Some hdr =>
    if negb (list_eqb (firstn 8 hdr) OTP_MAGIC) then Val 0
    else
      let count := nth 8 hdr 0 + 256 * nth 9 hdr 0 in
      if MAXKEYS h <? count then Val 0 else Val count
  end.

(** src/flash_otp_keystore.c:53-58 and the same lines of the other queries: the slot cache
    after the read.  [id] is an [int]; a product or sum outside its range is undefined. *)
Definition get_slot (h : otp) (m : flash) (stack cache : list Z) (id : Z) : out (option (list Z)) :=
  dlet n <- num_pubkeys h m stack in
  if n <=? id then Val None
  else
    let o := id * SLOT h in
    if (o <? - 2 ^ 31) || (2 ^ 31 <=? o) || (2 ^ 31 <=? OB h + OTP_HDR_SIZE + o) then UB
    else otp_read h m ((OB h + OTP_HDR_SIZE + o) mod 2 ^ 32) (SLOT h) cache.

Definition u32_at (l : list Z) (o : nat) : Z := le_val (firstn 4 (skipn o l)).
Definition int32 (v : Z) : Z := if 2 ^ 31 <=? v then v - 2 ^ 32 else v.

(** src/flash_otp_keystore.c:50-61 [keystore_get_buffer]: the key bytes pointed to. *)
Definition get_buffer (h : otp) (m : flash) (stack cache : list Z) (id : Z) : out (option (list Z)) :=
  dlet r <- get_slot h m stack cache id in Val (match r with None => None | Some s => Some (skipn 16 s) end).
(** :63-74 [keystore_get_size]. *)
Definition get_size (h : otp) (m : flash) (stack cache : list Z) (id : Z) : out Z :=
  dlet r <- get_slot h m stack cache id in Val (match r with None => -1 | Some s => int32 (u32_at s 12) end).
(** :76-87 [keystore_get_mask]. *)
Definition get_mask (h : otp) (m : flash) (stack cache : list Z) (id : Z) : out Z :=
  dlet r <- get_slot h m stack cache id in Val (match r with None => 0 | Some s => u32_at s 8 end).
(** :89-100 [keystore_get_key_type]. *)
Definition get_key_type (h : otp) (m : flash) (stack cache : list Z) (id : Z) : out Z :=
  dlet r <- get_slot h m stack cache id in Val (match r with None => 2 ^ 32 - 1 | Some s => u32_at s 4 end).

(** src/image.c:891-905 [key_sha256]: the bytes that are hashed; [None] leaves the hash 0.
    Reading past the cached key is undefined. *)
Definition key_sha_input (h : otp) (m : flash) (stack cache : list Z) (id : Z) : out (option (list Z)) :=
  dlet k <- get_buffer h m stack cache id in
  dlet sz <- get_size h m stack cache id in
  match k with
  | None => Val None
  | Some key => if sz <? 0 then Val None else if zlen key <? sz then UB else Val (Some (firstn (Z.to_nat sz) key))
  end.

(** ** Provisioning *)

(** hal/stm32h7.c:552-599, hal/stm32h5.c:606-664 [hal_flash_otp_write], the loop: the H7
    programs 2 bytes at a time, the H5 4.  Reading past the data, or programming outside the
    area, is undefined.  Bits can only be cleared; the H5 driver hangs ([None]) if they are
    not what was to be written. *)
Definition wstep (h : otp) : Z := if H5 h then 4 else 2.
Fixpoint otp_write_loop (fuel : nat) (h : otp) (m : flash) (a i len : Z) (data : list Z) : out (option flash) :=
  if (i <? len) && (a <=? OEND h - 1) then
    match fuel with
    | O => NoFuel
    | S fuel' =>
      if negb (in_otp h a) || negb (in_otp h (a + wstep h - 2)) || (zlen data <? wstep h) then UB
      else
        let m' := write m a (wstep h) (fun k => nth (Z.to_nat k) data 0) in
        if H5 h && negb (list_eqb (rdl m' a 4) (firstn 4 data)) then Val None
        else otp_write_loop fuel' h m' (a + wstep h) (i + wstep h) len (skipn (Z.to_nat (wstep h)) data)
    end
  else Val (Some m).
Definition otp_write (h : otp) (m : flash) (a : Z) (data : list Z) (len : Z) : out (option flash) :=
  if negb ((OB h <=? a) && (a <=? OEND h)) || (H5 h && Z.odd a) then Val (Some m)
  else otp_write_loop (Z.to_nat len) h m a 0 (if H5 h then len / 2 * 2 else len) data.

(** [struct wolfBoot_otp_hdr], include/otp_keystore.h:50-55. *)
Definition otp_hdr (n version : Z) : list Z := OTP_MAGIC ++ le_bytes 2 n ++ le_bytes 2 0 ++ le_bytes 4 version.

(** [sizeof(struct keystore_slot)]: a multiple of 4. *)
Definition sizeof_slot (h : otp) : Z := (SLOT h + 3) / 4 * 4.

(** tools/keytools/otp/otp-keystore-primer.c:53-58: the keys, from number [i] on. *)
Fixpoint prime_keys (h : otp) (m : flash) (i : Z) (keys : list (list Z)) : out (option flash) :=
  match keys with
  | [] => Val (Some m)
  | k :: r =>
    dlet m' <- otp_write h m (OB h + OTP_HDR_SIZE + i * SLOT h) k (sizeof_slot h) in
    match m' with None => Val None | Some m' => prime_keys h m' (i + 1) r end
  end.
(** tools/keytools/otp/otp-keystore-primer.c:32-72; each key is a [struct keystore_slot],
    padding included. *)
Definition primer (h : otp) (version : Z) (m : flash) (keys : list (list Z)) : out (option flash) :=
  dlet m1 <- otp_write h m (OB h) (otp_hdr (Z.of_nat (length keys)) version) 16 in
  match m1 with None => Val None | Some m1 => prime_keys h m1 0 keys end.

(** tools/keytools/otp/otp-keystore-gen.c:46-99: the file; the slots have the size of the
    first key. *)
Definition gen_file (version : Z) (keys : list (list Z)) : list Z :=
  let slot_size := 16 + u32_at (hd [] keys) 12 in
  otp_hdr (Z.of_nat (length keys)) version ++ concat (map (firstn (Z.to_nat slot_size)) keys).

(** hal/stm32h5.c:579-604 [hal_flash_otp_set_readonly]: the bits turned on; a shift by 32 or
    more is undefined. *)
Definition set_readonly (h : otp) (a len : Z) : out (option Z) :=
  let start_block := (a - OB h) mod 2 ^ 32 / 64 in
  let count := len / 64 in
  if 32 <? start_block + count then Val None
  else
    let count := if len mod 64 =? 0 then count else count + 1 in
    if 32 <? start_block + count then UB
    else Val (Some (fold_left Z.lor (map (fun i => Z.shiftl 1 (start_block + Z.of_nat i)) (seq 0 (Z.to_nat count))) 0)).
