(** Partition trailers: state byte and sector flags.  Source: src/libwolfboot.c.
    Build modelled: internal flash, no NVM_FLASH_WRITEONCE, no FLAGS_INVERT,
    no EXT_ENCRYPTED, TRAILER_SKIP 0. *)
From Verif Require Import Base HeaderModel Flash ImageModel.

(** include/wolfboot/wolfboot.h:308-316. *)
Definition ST_NEW : Z := 0xFF.
Definition ST_UPDATING : Z := 0x70.
Definition ST_FINAL : Z := 0x30.
Definition ST_TESTING : Z := 0x10.
Definition ST_SUCCESS : Z := 0x00.
(** include/image.h:105-108 sector flags. *)
Definition SF_NEW : Z := 0x0F.
Definition SF_SWAPPING : Z := 0x07.
Definition SF_BACKUP : Z := 0x03.
Definition SF_UPDATED : Z := 0x00.

(** src/libwolfboot.c:136-160: PART_BOOT_ENDFLAGS and PART_UPDATE_ENDFLAGS. *)
Definition endflags (c : cfg) (p : part) : Z :=
  match p with PUPDATE => UFLAGS c | _ => part_addr c p + PART c end.

(** src/libwolfboot.c:399-441 [get_trailer_at(part, at)]: the address. *)
Definition trailer_addr (c : cfg) (p : part) (at_ : Z) : Z := endflags c p - (4 + at_).

(** src/libwolfboot.c:531-578: magic at 0, state at 1, sector flags at 2 + pos. *)
Definition magic_addr (c : cfg) (p : part) : Z := trailer_addr c p 0.
Definition state_addr (c : cfg) (p : part) : Z := trailer_addr c p 1.
Definition flags_addr (c : cfg) (pos : Z) : Z := trailer_addr c PUPDATE (2 + pos).

Definition has_magic (c : cfg) (f : flash) (p : part) : bool :=
  word f (magic_addr c p) =? WOLFBOOT_MAGIC_TRAIL.

(** Bytes of [wolfboot_magic_trail] in memory. *)
Definition magic_byte (i : Z) : Z := nth (Z.to_nat i) (le_bytes 4 WOLFBOOT_MAGIC_TRAIL) 0.

(** src/libwolfboot.c:496-522 [set_partition_magic] with the plain macro of line 353. *)
Definition set_partition_magic (c : cfg) (p : part) : prog unit :=
  Wr (magic_addr c p) 4 magic_byte (Ret tt).

(** src/libwolfboot.c:453-487 [set_trailer_at] with the plain macro of line 352. *)
Definition set_trailer_at (c : cfg) (p : part) (at_ v : Z) : prog unit :=
  Wr (trailer_addr c p at_) 1 (fun _ => v) (Ret tt).

(** src/libwolfboot.c:589-602 [wolfBoot_set_partition_state]. *)
Definition set_partition_state (c : cfg) (p : part) (newst : Z) : prog unit :=
  (let! m <- get (fun f => has_magic c f p) in
   if m then Ret tt else set_partition_magic c p) ;;
  (let! st <- get (fun f => f (state_addr c p)) in
   if st =? newst then Ret tt else set_trailer_at c p 1 newst).

(** src/libwolfboot.c:644-656 [wolfBoot_get_partition_state]: [None] is -1, with the
    caller's variable left unchanged. *)
Definition get_partition_state (c : cfg) (f : flash) (p : part) : option Z :=
  if has_magic c f p then Some (f (state_addr c p)) else None.

(** [uint8_t pos = sector >> 1] with [sector] a uint16_t parameter; the low nibble is used
    iff [sector == (pos << 1)] (lines 619, 626, 674, 679). *)
Definition flag_pos (sector : Z) : Z := (sector mod 65536 / 2) mod 256.
Definition flag_low (sector : Z) : bool := sector mod 65536 =? 2 * flag_pos sector.

(** src/libwolfboot.c:613-633 [wolfBoot_set_update_sector_flag]. *)
Definition set_update_sector_flag (c : cfg) (sector newflag : Z) : prog unit :=
  let pos := flag_pos sector in
  (let! m <- get (fun f => has_magic c f PUPDATE) in
   if m then Ret tt else set_partition_magic c PUPDATE) ;;
  (let! fl <- get (fun f => f (flags_addr c pos)) in
   let v := if flag_low sector
            then Z.lor (Z.land fl 0xF0) (Z.land newflag 0x0F)
            else Z.lor (Z.shiftl (Z.land newflag 0x0F) 4) (Z.land fl 0x0F) in
   if v =? fl then Ret tt else set_trailer_at c PUPDATE (2 + pos) v).

(** src/libwolfboot.c:670-684 [wolfBoot_get_update_sector_flag]: [None] is -1. *)
Definition get_update_sector_flag (c : cfg) (f : flash) (sector : Z) : option Z :=
  if has_magic c f PUPDATE then
    let fl := f (flags_addr c (flag_pos sector)) in
    Some (if flag_low sector then Z.land fl 0x0F else Z.shiftr (Z.land fl 0xF0) 4)
  else None.

(** src/libwolfboot.c:735-781 [wolfBoot_update_trigger].  [er] is the length actually
    erased for a request of SECTOR_FLAGS_SIZE = SECT - 5 bytes (lines 90 and 758): flash
    drivers erase whole pages ([er = SECT]); hal/sim.c erases exactly what is asked
    ([er = SECT - 5]). *)
Definition update_trigger (c : cfg) (er : Z) : prog unit :=
  let last_sector := (endflags c PUPDATE - 1) / SECT c * SECT c in
  Er last_sector er (set_partition_state c PUPDATE ST_UPDATING).

(** src/libwolfboot.c:791-806 [wolfBoot_success]. *)
Definition success (c : cfg) : prog unit := set_partition_state c PBOOT ST_SUCCESS.
