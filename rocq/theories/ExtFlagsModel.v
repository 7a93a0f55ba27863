(** Partition flags in external flash.  Source: src/libwolfboot.c.
    Build modelled: EXT_FLASH, where the flags of each partition are in external or in internal
    flash (FLAGS_BOOT_EXT, FLAGS_UPDATE_EXT; lines 141, 154, 159); no NVM_FLASH_WRITEONCE, no
    FLAGS_INVERT, no EXT_ENCRYPTED.  Processors of either byte order.
    Simplification: one address space for both memories, as in Flash.v, and external reads and
    writes do not fail. *)
From Verif Require Import Base HeaderModel Flash ImageModel TrailerModel.

(** [X_be]: the processor is big-endian (arch.mk:790, 816, 838, 862).  [X_ext p]: the flags of
    [p] are in external flash (PART_BOOT_EXT, PART_UPDATE_EXT). *)
Record xcfg := { X_be : bool; X_ext : part -> bool }.

(** src/libwolfboot.c:116 [static uint32_t ext_cache]: its four bytes in the order of memory. *)
Definition cache := Z -> Z.

(** src/libwolfboot.c:135 [wolfboot_magic_trail]: its bytes in the order of memory. *)
Definition magic_mem (x : xcfg) (i : Z) : Z := magic_byte (if X_be x then 3 - i else i).

(** src/libwolfboot.c:399-441 [get_trailer_at]: the four bytes at the pointer it returns, which
    its callers read at once, and the cache. *)
Definition x_get_trailer_at (x : xcfg) (c : cfg) (p : part) (at_ : Z) (k : cache) : prog (cache * cache) :=
  get (fun f => let b := fun i => f (trailer_addr c p at_ + i) in (b, if X_ext x p then b else k)).

(** src/libwolfboot.c:460-461, 476-477: [ext_cache &= ~0xFF; ext_cache |= val].  The lowest 8
    bits of a word are its first byte in memory, or the last one on a big-endian processor. *)
Definition put_low (x : xcfg) (k : cache) (v : Z) : cache :=
  fun i => if i =? (if X_be x then 3 else 0) then v else k i.

(** src/libwolfboot.c:453-487 [set_trailer_at]. *)
Definition x_set_trailer_at (x : xcfg) (c : cfg) (p : part) (at_ v : Z) (k : cache) : prog cache :=
  if X_ext x p then
    let k' := put_low x k v in Wr (trailer_addr c p at_) 4 k' (Ret k')
  else Wr (trailer_addr c p at_) 1 (fun _ => v) (Ret k).

(** src/libwolfboot.c:496-522 [set_partition_magic]. *)
Definition x_set_magic (x : xcfg) (c : cfg) (p : part) (k : cache) : prog cache :=
  Wr (trailer_addr c p 0) 4 (magic_mem x) (Ret k).

(** [*magic == WOLFBOOT_MAGIC_TRAIL] on the four bytes. *)
Definition is_magic (x : xcfg) (b : cache) : bool :=
  (b 0 =? magic_mem x 0) && (b 1 =? magic_mem x 1) && (b 2 =? magic_mem x 2) && (b 3 =? magic_mem x 3).

(** src/libwolfboot.c:594-596 and 621-623. *)
Definition x_need_magic (x : xcfg) (c : cfg) (p : part) (k : cache) : prog cache :=
  let! (m, k) <- x_get_trailer_at x c p 0 k in
  if is_magic x m then Ret k else x_set_magic x c p k.

(** src/libwolfboot.c:589-602 [wolfBoot_set_partition_state]. *)
Definition x_set_state (x : xcfg) (c : cfg) (p : part) (newst : Z) (k : cache) : prog cache :=
  let! k <- x_need_magic x c p k in
  let! (s, k) <- x_get_trailer_at x c p 1 k in
  if s 0 =? newst then Ret k else x_set_trailer_at x c p 1 newst k.

(** src/libwolfboot.c:613-633 [wolfBoot_set_update_sector_flag]. *)
Definition x_set_flag (x : xcfg) (c : cfg) (sector newflag : Z) (k : cache) : prog cache :=
  let pos := flag_pos sector in
  let! k <- x_need_magic x c PUPDATE k in
  let! (b, k) <- x_get_trailer_at x c PUPDATE (2 + pos) k in
  let fl := b 0 in
  let v := if flag_low sector
           then Z.lor (Z.land fl 0xF0) (Z.land newflag 0x0F)
           else Z.lor (Z.shiftl (Z.land newflag 0x0F) 4) (Z.land fl 0x0F) in
  if v =? fl then Ret k else x_set_trailer_at x c PUPDATE (2 + pos) v k.

(** src/libwolfboot.c:644-656 [wolfBoot_get_partition_state]: [None] is -1. *)
Definition x_get_state (x : xcfg) (c : cfg) (p : part) (k : cache) : prog (option Z * cache) :=
  let! (m, k) <- x_get_trailer_at x c p 0 k in
  if is_magic x m then
    let! (s, k) <- x_get_trailer_at x c p 1 k in Ret (Some (s 0), k)
  else Ret (None, k).

(** src/libwolfboot.c:670-684 [wolfBoot_get_update_sector_flag]: [None] is -1. *)
Definition x_get_flag (x : xcfg) (c : cfg) (sector : Z) (k : cache) : prog (option Z * cache) :=
  let! (m, k) <- x_get_trailer_at x c PUPDATE 0 k in
  if is_magic x m then
    let! (b, k) <- x_get_trailer_at x c PUPDATE (2 + flag_pos sector) k in
    Ret (Some (if flag_low sector then Z.land (b 0) 0x0F else Z.shiftr (Z.land (b 0) 0xF0) 4), k)
  else Ret (None, k).

(** src/libwolfboot.c:735-781 [wolfBoot_update_trigger] with a driver that erases the whole
    sector. *)
Definition x_trigger (x : xcfg) (c : cfg) (k : cache) : prog cache :=
  Er ((endflags c PUPDATE - 1) / SECT c * SECT c) (SECT c) (x_set_state x c PUPDATE ST_UPDATING k).

(** src/libwolfboot.c:791-806 [wolfBoot_success]. *)
Definition x_success (x : xcfg) (c : cfg) (k : cache) : prog cache := x_set_state x c PBOOT ST_SUCCESS k.
