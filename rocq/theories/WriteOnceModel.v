(** Trailer storage with NVM_FLASH_WRITEONCE: two sectors, never reprogrammed in place.
    Source: src/libwolfboot.c.  Builds modelled: internal flash, no FLAGS_HOME, no
    FLAGS_INVERT, NVM_CACHE_SIZE = WOLFBOOT_SECTOR_SIZE (a power of two). *)
From Verif Require Import Base HeaderModel Flash ImageModel TrailerModel SwapModel.

(** src/libwolfboot.c:136-160 without FLAGS_HOME: PART_BOOT_ENDFLAGS and PART_UPDATE_ENDFLAGS. *)
Definition end_of (c : cfg) (p : part) : Z := part_addr c p + PART c.

(** Address of the trailer byte at offset [off] below the end of copy [s]:
    [get_base_offset(base, SECTOR_SIZE * s + off)], src/libwolfboot.c:182-185. *)
Definition at_ (c : cfg) (p : part) (s off : Z) : Z := end_of c p - (SECT c * s + off).

(** src/libwolfboot.c:244-268: the loop of [nvm_select_fresh_sector]. *)
Fixpoint sel_loop (fuel : nat) (c : cfg) (f : flash) (p : part) (off : Z) : Z :=
  match fuel with
  | O => 0
  | S fuel' =>
    let b0 := f (at_ c p 0 off) in
    let b1 := f (at_ c p 1 off) in
    if (b0 =? 255) && negb (b1 =? 255) then 1
    else if negb (b0 =? 255) && (b1 =? 255) then 0
    else if (b0 =? 255) && (b1 =? 255)
    then if f (at_ c p 0 (off - 1)) <? f (at_ c p 1 (off - 1)) then 0 else 1
    else sel_loop fuel' c f p (off + 1)
  end.

(** src/libwolfboot.c:225-268: the choice. *)
Definition nvm_sel (c : cfg) (f : flash) (p : part) : Z :=
  let m0 := word f (at_ c p 0 4) =? WOLFBOOT_MAGIC_TRAIL in
  let m1 := word f (at_ c p 1 4) =? WOLFBOOT_MAGIC_TRAIL in
  if m0 && negb m1 then 0
  else if negb m0 && m1 then 1
  else if negb m0 && negb m1 then 0
  else sel_loop (Z.to_nat (SECT c - 4)) c f p 4.

(** src/libwolfboot.c:192-278 [nvm_select_fresh_sector]: the unselected copy is erased
    unless its last word is blank. *)
Definition select (c : cfg) (p : part) : prog Z :=
  let! s <- get (fun f => nvm_sel c f p) in
  let a := part_addr c p + PART c - SECT c - SECT c * (1 - s) in
  let! w <- get (fun f => word f (a + SECT c - 4)) in
  (if w =? 2 ^ 32 - 1 then Ret tt else Er a (SECT c) (Ret tt)) ;; Ret s.

(** src/libwolfboot.c:305-312: the write of the cache in pieces of FLASHBUFFER_SIZE. *)
Fixpoint write_cache (fuel : nat) (c : cfg) (a : Z) (d : Z -> Z) (off : Z) : prog unit :=
  if off <? SECT c then
    match fuel with
    | O => Stuck
    | S fuel' => Wr (a + off) (FB c) (fun i => d (off + i)) (write_cache fuel' c a d (off + FB c))
    end
  else Ret tt.

(** src/libwolfboot.c:290-322 [trailer_write]. *)
Definition nvm_write (c : cfg) (p : part) (addr val : Z) : prog unit :=
  let align := addr / SECT c * SECT c in
  let off := addr mod SECT c in
  let! s <- select c p in
  let addr_read := align - s * SECT c in
  let! cache <- get (fun f i => if i =? off then val else f (addr_read + i)) in
  let addr_write := align - (1 - s) * SECT c in
  Er addr_write (SECT c)
    (write_cache (Z.to_nat (SECT c)) c addr_write cache 0 ;;
     Er addr_read (SECT c) (Ret tt)).

(** src/libwolfboot.c:333-349 [partition_magic_write]: the destination is not erased. *)
Definition nvm_magic_write (c : cfg) (p : part) (addr : Z) : prog unit :=
  let off := addr mod SECT c in
  let base := addr - off in
  let! s <- select c p in
  let addr_read := base - s * SECT c in
  let addr_write := base - (1 - s) * SECT c in
  let! cache <- get (fun f i => if inr off 4 i then magic_byte (i - off) else f (addr_read + i)) in
  Wr addr_write (SECT c) cache (Er addr_read (SECT c) (Ret tt)).

(** src/libwolfboot.c:399-441 [get_trailer_at]: the byte, and the magic word. *)
Definition nvm_byte (c : cfg) (p : part) (pos : Z) : prog Z :=
  let! s <- select c p in get (fun f => f (at_ c p s (4 + pos))).
Definition nvm_magic (c : cfg) (p : part) : prog bool :=
  let! s <- select c p in get (fun f => word f (at_ c p s 4) =? WOLFBOOT_MAGIC_TRAIL).

(** src/libwolfboot.c:453-487, 496-522. *)
Definition nvm_set (c : cfg) (p : part) (pos val : Z) : prog unit := nvm_write c p (end_of c p - (4 + pos)) val.
Definition nvm_set_magic (c : cfg) (p : part) : prog unit := nvm_magic_write c p (end_of c p - 4).

(** src/libwolfboot.c:589-603 [wolfBoot_set_partition_state]. *)
Definition nvm_set_state (c : cfg) (p : part) (newst : Z) : prog unit :=
  (let! m <- nvm_magic c p in if m then Ret tt else nvm_set_magic c p) ;;
  (let! st <- nvm_byte c p 1 in if st =? newst then Ret tt else nvm_set c p 1 newst).

(** src/libwolfboot.c:644-656 [wolfBoot_get_partition_state]. *)
Definition nvm_get_state (c : cfg) (p : part) : prog (option Z) :=
  let! m <- nvm_magic c p in
  if m then (let! st <- nvm_byte c p 1 in Ret (Some st)) else Ret None.

(** src/libwolfboot.c:614-633 [wolfBoot_set_update_sector_flag]. *)
Definition nvm_set_flag (c : cfg) (sector newflag : Z) : prog unit :=
  (let! m <- nvm_magic c PUPDATE in if m then Ret tt else nvm_set_magic c PUPDATE) ;;
  (let! fl <- nvm_byte c PUPDATE (2 + flag_pos sector) in
   let v := if flag_low sector then Z.lor (Z.land fl 0xF0) (Z.land newflag 0x0F)
            else Z.lor (Z.land newflag 0x0F * 16) (Z.land fl 0x0F) in
   if v =? fl then Ret tt else nvm_set c PUPDATE (2 + flag_pos sector) v).

(** src/libwolfboot.c:668-684 [wolfBoot_get_update_sector_flag]. *)
Definition nvm_get_flag (c : cfg) (sector : Z) : prog (option Z) :=
  let! m <- nvm_magic c PUPDATE in
  if m then
    let! fl <- nvm_byte c PUPDATE (2 + flag_pos sector) in
    Ret (Some (if flag_low sector then Z.land fl 0x0F else Z.land fl 0xF0 / 16))
  else Ret None.

(** src/libwolfboot.c:734-780 [wolfBoot_update_trigger]. *)
Definition nvm_trigger (c : cfg) : prog unit :=
  let last_sector := (end_of c PUPDATE - 1) / SECT c * SECT c in
  let! s <- select c PUPDATE in
  let! cache <- get (fun f i => f (last_sector - SECT c * s + i)) in
  Er (last_sector - SECT c * (1 - s)) (SECT c)
    (Wr (last_sector - SECT c * (1 - s)) (SECT c) cache
      (Er (last_sector - SECT c * s) (SECT c)
        (nvm_set_state c PUPDATE ST_UPDATING))).

(** src/libwolfboot.c:790-806 [wolfBoot_success]. *)
Definition nvm_success (c : cfg) : prog unit := nvm_set_state c PBOOT ST_SUCCESS.
