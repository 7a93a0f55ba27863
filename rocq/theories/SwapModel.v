(** The boot routine with the interruptible swap.  Source: src/update_flash.c.
    Build modelled: internal flash for both partitions, no DELTA_UPDATES, EXT_ENCRYPTED,
    NVM_FLASH_WRITEONCE, RAM_CODE, WOLFBOOT_FLASH_MULTI_SECTOR_ERASE, TPM, ELF scattering.
    32-bit unsigned arithmetic on sizes is written without wrap-around: open_image bounds
    every fw_size by PART - HDR and the theorems assume PART + SECT < 2^31. *)
From Verif Require Import Base HeaderModel Flash ImageModel TrailerModel.

(** Running a pure computation of the model inside a program: UB or missing fuel is
    [Stuck]. *)
Definition pure {A} (g : flash -> out A) : prog A :=
  Rd (fun f => match g f with Val a => Ret a | UB => Stuck | NoFuel => Stuck end).

(** [wolfBoot_verify_integrity(img)] and [wolfBoot_verify_authenticity(img)]; result true
    for "not negative". *)
Definition integrity (c : cfg) (img : image) : prog (bool * image) :=
  pure (fun f => verify_integrity c f img).
Definition authenticity (c : cfg) (img : image) : prog (bool * image) :=
  let! r <- pure (fun f => verify_authenticity c f img) in
  match r with
  | (Accept, img') => Ret (true, img')
  | (Reject, img') => Ret (false, img')
  | (VPanic, _) => Panic
  end.

(** [verify_integrity(img) < 0 || verify_authenticity(img) < 0], short-circuited. *)
Definition verify_both (c : cfg) (img : image) : prog (bool * image) :=
  let! (ok, img1) <- integrity c img in
  if ok then authenticity c img1 else Ret (false, img1).

(** src/update_flash.c:136-208 [wolfBoot_copy_sector]: the loop at 194-203. *)
Fixpoint copy_loop (fuel : nat) (c : cfg) (src_addr dst_addr src_off limit pos : Z) : prog unit :=
  if pos <? SECT c then
    match fuel with
    | O => Stuck
    | S fuel' =>
      (if src_off + pos <? limit
       then Rd (fun f => Wr (dst_addr + pos) (FB c) (fun i => f (src_addr + pos + i)) (Ret tt))
       else Ret tt) ;;
      copy_loop fuel' c src_addr dst_addr src_off limit (pos + FB c)
    end
  else Ret tt.

(** src/update_flash.c:136-208.  [src == dst] never occurs in the calls below. *)
Definition copy_sector (c : cfg) (src dst : image) (sector : Z) : prog unit :=
  let off := sector * SECT c in
  let src_off := if part_eqb (i_part src) PSWAP then 0 else off in
  let dst_off := if part_eqb (i_part dst) PSWAP then 0 else off in
  Er (i_hdr dst + dst_off) (SECT c)
    (copy_loop (Z.to_nat (SECT c)) c (i_hdr src + src_off) (i_hdr dst + dst_off) src_off
       (i_size src + HDR c + FB c) 0).

(** src/update_flash.c:241-336 [wolfBoot_swap_and_final_erase(resume)].  [u] is the
    indeterminate value of the local [updateState] when the update trailer has no magic.
    Returns false for -1 (nothing to resume), true for 0. *)
Definition swap_and_final_erase (c : cfg) (u : Z) (resume : bool) : prog bool :=
  Rd (fun f =>
  let boot := snd (open_image c f PBOOT) in
  let update := snd (open_image c f PUPDATE) in
  let swap := snd (open_image c f PSWAP) in
  let update_state := match get_partition_state c f PUPDATE with Some s => s | None => u end in
  let tmp_boot_pos := PART c - SECT c - SECT c in
  let swap_done := word f (i_hdr boot + tmp_boot_pos) =? WOLFBOOT_MAGIC_TRAIL in
  if resume && negb swap_done && negb (update_state =? ST_FINAL) then Ret false
  else
    (if negb (update_state =? ST_FINAL) then
       copy_sector c boot swap (tmp_boot_pos / SECT c) ;;
       set_partition_state c PUPDATE ST_FINAL
     else Ret tt) ;;
    Er (i_hdr boot + (PART c - SECT c)) (SECT c)
    ((if tmp_boot_pos <? i_size boot + HDR c
      then copy_sector c swap boot (tmp_boot_pos / SECT c)
      else Er (i_hdr boot + tmp_boot_pos) (SECT c) (Ret tt)) ;;
     set_partition_state c PBOOT ST_TESTING ;;
     Er (i_hdr update + (PART c - SECT c)) (SECT c) (Ret true))).

(** src/update_flash.c:567-578 [wolfBoot_get_total_size]. *)
Definition get_total_size (c : cfg) (boot update : image) : Z :=
  if i_size update + HDR c >? i_size boot + HDR c then i_size update + HDR c
  else i_size boot + HDR c.

Definition set_size (img : image) (n : Z) : image :=
  mkImage (i_part img) (i_hdr img) (i_base img) n (i_hdr_ok img) (i_sha_ok img) (i_sig_ok img)
    (i_sha img).

(** [if (((sector + 1) * sector_size) < WOLFBOOT_PARTITION_SIZE) set flag]. *)
Definition store_flag (c : cfg) (sector flag : Z) : prog unit :=
  if (sector + 1) * SECT c <? PART c then set_update_sector_flag c sector flag else Ret tt.

(** src/update_flash.c:719-748: one [switch (flag)] with its fall-through. *)
Definition swap_backup (c : cfg) (boot swap : image) (sector : Z) : prog unit :=
  copy_sector c swap boot sector ;; store_flag c sector SF_UPDATED.
Definition swap_swapping (c : cfg) (boot update swap : image) (sector : Z) : prog unit :=
  copy_sector c boot update sector ;; store_flag c sector SF_BACKUP ;;
  swap_backup c boot swap sector.
Definition swap_new (c : cfg) (boot update swap : image) (sector : Z) : prog unit :=
  copy_sector c update swap sector ;; store_flag c sector SF_SWAPPING ;;
  swap_swapping c boot update swap sector.
Definition swap_sector (c : cfg) (boot update swap : image) (sector flag : Z) : prog unit :=
  if flag =? SF_NEW then swap_new c boot update swap sector
  else if flag =? SF_SWAPPING then swap_swapping c boot update swap sector
  else if flag =? SF_BACKUP then swap_backup c boot swap sector
  else Ret tt.

(** src/update_flash.c:715-768: the swap loop.  Returns the final [sector]. *)
Fixpoint swap_loop (fuel : nat) (c : cfg) (boot update swap : image) (total sector : Z) : prog Z :=
  if sector * SECT c <? total then
    match fuel with
    | O => Stuck
    | S fuel' =>
      let! flag <- get (fun f => match get_update_sector_flag c f sector with
                                 | Some fl => fl | None => SF_NEW end) in
      swap_sector c boot update swap sector flag ;;
      let sector := sector + 1 in
      if sector =? 1 then
        Rd (fun f =>
          let boot := snd (open_image c f PBOOT) in
          let update := snd (open_image c f PUPDATE) in
          let fw_size := i_size boot in
          let boot := set_size boot (i_size update) in
          let update := set_size update fw_size in
          swap_loop fuel' c boot update swap (get_total_size c boot update) sector)
      else swap_loop fuel' c boot update swap total sector
    end
  else Ret sector.

(** src/update_flash.c:791-805: erase the remaining sectors of both partitions. *)
Fixpoint erase_rest (fuel : nat) (c : cfg) (boot update : image) (sector : Z) : prog unit :=
  if sector * SECT c <? PART c - SECT c then
    match fuel with
    | O => Stuck
    | S fuel' =>
      Er (i_hdr boot + sector * SECT c) (SECT c)
        (Er (i_hdr update + sector * SECT c) (SECT c)
          (erase_rest fuel' c boot update (sector + 1)))
    end
  else Ret tt.

(** Enough iterations for any loop over the sectors of a partition. *)
Definition sector_fuel (c : cfg) : nat := Z.to_nat (PART c).

(** src/update_flash.c:623-664: the checks made when no swap is in progress
    (first sector flag NEW).  True: continue. *)
Definition update_checks (c : cfg) (fallback : bool) (update : image) (update_type : Z) : prog bool :=
  if negb (Z.land update_type TYPE_PART_MASK =? TYPE_APP)
     || negb (Z.land update_type TYPE_AUTH_MASK =? c_auth c) then Ret false
  else if i_size update >? PART c - SECT c - 1 then Ret false
  else if negb (i_hdr_ok update) then Ret false
  else
    let! (ok, update) <- verify_both c update in
    if negb ok then Ret false
    else if negb (sanity update) then Panic
    else
      let! cur_ver <- pure (fun f => get_image_version c f PBOOT) in
      let! upd_ver <- pure (fun f => get_image_version c f PUPDATE) in
      Ret (c_allow_downgrade c || fallback || (cur_ver <? upd_ver)).

(** src/update_flash.c:580-875 [wolfBoot_update(fallback_allowed)]: true for 0, false for
    -1. *)
Definition update (c : cfg) (u : Z) (fallback : bool) : prog bool :=
  Rd (fun f =>
  let update := snd (open_image c f PUPDATE) in
  let boot := snd (open_image c f PBOOT) in
  let swap := snd (open_image c f PSWAP) in
  let total := get_total_size c boot update in
  if total <=? HDR c then Ret false
  else
    let! update_type <- pure (fun f => get_image_type c f PUPDATE) in
    let! flag <- get (fun f => match get_update_sector_flag c f 0 with
                               | Some fl => fl | None => SF_NEW end) in
    let! go <- (if flag =? SF_NEW then update_checks c fallback update update_type
                else Ret true) in
    if negb go then Ret false
    else
      let! sector <- swap_loop (sector_fuel c) c boot update swap total 0 in
      erase_rest (sector_fuel c) c boot update sector ;;
      swap_and_final_erase c u false ;;
      Ret true).

(** [wolfBoot_open_image(&boot, PART_BOOT) < 0 || verify_integrity < 0 ||
    verify_authenticity < 0], short-circuited; true when none fails. *)
Definition open_and_verify (c : cfg) (p : part) : prog (bool * image) :=
  let! (ok, img) <- get (fun f => open_image c f p) in
  if ok then verify_both c img else Ret (false, img).

(** src/update_flash.c:1050-1082 and 1107: verify, emergency update, final check, boot.
    The result is the address handed to do_boot. *)
Definition boot_stage (c : cfg) (upd : prog bool) : prog Z :=
  let! (ok, img) <- open_and_verify c PBOOT in
  let! img <- (if ok then Ret img
               else
                 let! r <- upd in
                 if negb r then Panic
                 else
                   let! (ok2, img2) <- open_and_verify c PBOOT in
                   if ok2 then Ret img2 else Panic) in
  if sanity img then Ret (i_base img) else Panic.

(** src/update_flash.c:987-1112 [wolfBoot_start].  [u i] are the indeterminate values of
    [updateState] in the calls of swap_and_final_erase. *)
Definition start (c : cfg) (u : nat -> Z) : prog Z :=
  let! (boot_state, update_state) <-
    get (fun f => (get_partition_state c f PBOOT, get_partition_state c f PUPDATE)) in
  let! resumed <- swap_and_final_erase c (u 0%nat) true in
  (if resumed then Ret tt
   else if match boot_state with Some s => s =? ST_TESTING | None => false end
   then update c (u 1%nat) true ;; Ret tt
   else if match update_state with Some s => s =? ST_UPDATING | None => false end
   then update c (u 1%nat) false ;; Ret tt
   else Ret tt) ;;
  boot_stage c (update c (u 2%nat) true).
