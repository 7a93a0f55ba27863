(** The boot routine of DISABLE_BACKUP builds, and the self-update of the bootloader.
    Source: src/update_flash.c.  Build modelled: as in SwapModel, with DISABLE_BACKUP
    (respectively RAM_CODE) defined. *)
From Verif Require Import Base HeaderModel Flash ImageModel TrailerModel SwapModel.

(** src/update_flash.c:845-848: copy the update over the boot partition.  Returns the
    final [sector]. *)
Fixpoint direct_copy (fuel : nat) (c : cfg) (update boot : image) (total sector : Z) : prog Z :=
  if sector * SECT c <? total then
    match fuel with
    | O => Stuck
    | S fuel' =>
      copy_sector c update boot sector ;; direct_copy fuel' c update boot total (sector + 1)
    end
  else Ret sector.

(** src/update_flash.c:855-858: erase the remainder of the boot partition, trailer
    included. *)
Fixpoint direct_erase (fuel : nat) (c : cfg) (boot : image) (sector : Z) : prog unit :=
  if sector * SECT c <? PART c then
    match fuel with
    | O => Stuck
    | S fuel' => Er (i_hdr boot + sector * SECT c) (SECT c) (direct_erase fuel' c boot (sector + 1))
    end
  else Ret tt.

(** src/update_flash.c:580-875 [wolfBoot_update] with DISABLE_BACKUP: lines 580-664 as in
    [SwapModel.update], then 834-861. *)
Definition update_direct (c : cfg) (fallback : bool) : prog bool :=
  Rd (fun f =>
  let update := snd (open_image c f PUPDATE) in
  let boot := snd (open_image c f PBOOT) in
  let total := get_total_size c boot update in
  if total <=? HDR c then Ret false
  else
    let! update_type <- pure (fun f => get_image_type c f PUPDATE) in
    let! flag <- get (fun f => match get_update_sector_flag c f 0 with
                               | Some fl => fl | None => SF_NEW end) in
    let! go <- (if flag =? SF_NEW then update_checks c fallback update update_type
                else Ret true) in
    if negb go then Ret false
    else
      let! sector <- direct_copy (sector_fuel c) c update boot total 0 in
      direct_erase (sector_fuel c) c boot sector ;;
      set_partition_state c PBOOT ST_SUCCESS ;;
      Ret true).

(** src/update_flash.c:987-1112 [wolfBoot_start] with DISABLE_BACKUP (no resumption). *)
Definition start_direct (c : cfg) : prog Z :=
  let! (boot_state, update_state) <-
    get (fun f => (get_partition_state c f PBOOT, get_partition_state c f PUPDATE)) in
  (if match boot_state with Some s => s =? ST_TESTING | None => false end
   then update_direct c true ;; Ret tt
   else if match update_state with Some s => s =? ST_UPDATING | None => false end
   then update_direct c false ;; Ret tt
   else Ret tt) ;;
  boot_stage c (update_direct c true).

(** ** Self-update *)

(** The bootloader's own region: ARCH_FLASH_OFFSET, which is also the address of
    [_start_text], and the compiled-in [wolfboot_version]. *)
Record self := { s_base : Z; s_version : Z }.

(** src/update_flash.c:66-71 [wolfBoot_erase_bootloader] and the loop 92-98 of
    [wolfBoot_self_update]; the guard [src_offset + pos < fw_size + HDR + FB] is implied by
    the loop condition. *)
Fixpoint self_copy (fuel : nat) (c : cfg) (s : self) (src : image) (pos : Z) : prog unit :=
  if pos <? i_size src then
    match fuel with
    | O => Stuck
    | S fuel' =>
      (if HDR c + pos <? i_size src + HDR c + FB c
       then Rd (fun f => Wr (s_base s + pos) (FB c) (fun i => f (i_hdr src + HDR c + pos + i)) (Ret tt))
       else Ret tt) ;;
      self_copy fuel' c s src (pos + FB c)
    end
  else Ret tt.
Definition self_update (c : cfg) (s : self) (src : image) : prog unit :=
  Er (s_base s) (BOOT c - s_base s) (self_copy (Z.to_nat (i_size src)) c s src 0).

(** src/update_flash.c:107-131 [wolfBoot_check_self_update]; true when the code ends in
    arch_reboot().  wolfBoot_erase_partition: src/libwolfboot.c:693-724. *)
Definition check_self_update (c : cfg) (s : self) : prog bool :=
  let! st <- get (fun f => get_partition_state c f PUPDATE) in
  if negb (match st with Some st => st =? ST_UPDATING | None => false end) then Ret false
  else
    let! (ok, update) <- get (fun f => open_image c f PUPDATE) in
    if negb ok then Ret false
    else
      let! ty <- pure (fun f => get_image_type c f PUPDATE) in
      if negb (ty =? Z.lor TYPE_WOLFBOOT (c_auth c)) then Ret false
      else
        let! v <- pure (fun f => get_image_version c f PUPDATE) in
        if v <=? s_version s then Er (UPDATE c) (PART c) (Ret false)
        else
          let! (ok, update) <- verify_both c update in
          if negb ok then Ret false
          else if negb (sanity update) then Panic
          else self_update c s update ;; Ret true.
