(** The boot routine of a DELTA_UPDATES build.  Source: src/update_flash.c,
    src/libwolfboot.c.  Otherwise the build of SwapModel: internal flash, no EXT_ENCRYPTED,
    NVM_FLASH_WRITEONCE or DISABLE_BACKUP.  [blk] is DELTA_BLOCK_SIZE. *)
From Verif Require Import Base HeaderModel Flash ImageModel TrailerModel SwapModel DeltaModel.

(** include/wolfboot/wolfboot.h:77-78, 113. *)
Definition TYPE_DIFF : Z := 0x00D0.

(** A four-byte header field, read as the code does: [None] if it is missing or has another
    size.  The loads ignore alignment. *)
Definition word_field (c : cfg) (f : flash) (a ty : Z) : out (option Z) :=
  dlet r <- get_header c f a ty in
  match r with
  | Some (off, len) => if (len =? 4)%nat then Val (Some (word f (a + Z.of_nat off))) else Val None
  | None => Val None
  end.

(** src/libwolfboot.c:935-989 [wolfBoot_get_delta_info(PART_UPDATE, inverse, ...)]: [None]
    for -1, else offset (0 for the direct patch, whose offset is not read), size, and the
    base hash field (offset in the header and size). *)
Definition get_delta_info (c : cfg) (f : flash) (inverse : bool) : out (option (Z * Z * option (nat * nat))) :=
  let a := UPDATE c in
  if negb (word f a =? WOLFBOOT_MAGIC) then Val None
  else
    dlet o <- (if inverse then word_field c f a HDR_IMG_DELTA_INVERSE else Val (Some 0)) in
    match o with
    | None => Val None
    | Some img_offset =>
      dlet s <- word_field c f a (if inverse then HDR_IMG_DELTA_INVERSE_SIZE else HDR_IMG_DELTA_SIZE) in
      match s with
      | None => Val None
      | Some img_size =>
        dlet h <- get_header c f a HDR_IMG_DELTA_BASE_HASH in
        Val (Some (img_offset, img_size, h))
      end
    end.

(** src/libwolfboot.c:1099-1120 and include/wolfboot/wolfboot.h:399: the base version recorded
    in a delta image, 0 if there is none. *)
Definition get_diffbase_version (c : cfg) (f : flash) (p : part) : out Z :=
  let a := part_addr c p in
  if negb (word f a =? WOLFBOOT_MAGIC) then Val 0
  else dlet r <- get_header c f a HDR_IMG_DELTA_BASE in
       match r with
       | None => Val 0
       | Some (off, len) => if (len =? 0)%nat then Val 0 else Val (word f (a + Z.of_nat off))
       end.

(** Memory as the decoder sees it: from the boot header on, and from the patch on. *)
Definition from (f : flash) (a : Z) : Z -> Z := fun x => f (a + x).

(** src/update_flash.c:445-473 ([store]) and 479-487: decode up to one sector, [blk] bytes at
    a time, storing the output in the swap area or discarding it.  [None]: the decoder
    failed. *)
Fixpoint patch_sector (fuel : nat) (c : cfg) (blk : Z) (boot update swap : image) (poff psz : Z) (store : bool)
  (len : Z) (x : pctx) : prog (option pctx) :=
  if len <? SECT c then
    match fuel with
    | O => Stuck
    | S fuel' =>
      let! r <- pure (fun f => wb_patch (from f (i_hdr boot)) (from f (i_hdr update + poff)) psz x blk) in
      match r with
      | None => Ret None
      | Some (o, x1) =>
        if zlen o =? 0 then Ret (Some x1)
        else
          (if store then Wr (i_hdr swap + len) (zlen o) (fun i => nth (Z.to_nat i) o 0) (Ret tt) else Ret tt) ;;
          patch_sector fuel' c blk boot update swap poff psz store (len + zlen o) x1
      end
    end
  else Ret (Some x).

(** src/update_flash.c:440-519: the loop over the sectors.  [None]: error; otherwise the
    final [sector]. *)
Fixpoint delta_loop (fuel : nat) (c : cfg) (blk : Z) (boot update swap : image) (poff psz total sector : Z)
  (x : pctx) : prog (option Z) :=
  if sector * SECT c <? total then
    match fuel with
    | O => Stuck
    | S fuel' =>
      let! flag <- get (fun f => get_update_sector_flag c f sector) in
      let fresh := match flag with None => true | Some fl => fl =? SF_NEW end in
      let! r <- (if fresh
                 then Er (i_hdr swap) (SECT c)
                   (let! r <- patch_sector (Z.to_nat (SECT c)) c blk boot update swap poff psz true 0 x in
                    match r with
                    | None => Ret None
                    | Some x1 => set_update_sector_flag c sector SF_SWAPPING ;; Ret (Some x1)
                    end)
                 else patch_sector (Z.to_nat (SECT c)) c blk boot update swap poff psz false 0 x) in
      match r with
      | None => Ret None
      | Some x1 =>
        (if fresh || match flag with None => false | Some fl => fl =? SF_SWAPPING end
         then copy_sector c swap boot sector ;; store_flag c sector SF_UPDATED
         else Ret tt) ;;
        if sector =? 0 then
          Rd (fun f =>
            let update_size := (image_size f (BOOT c) + HDR c) mod 2 ^ 32 in
            let total := if update_size >? total then update_size else total in
            if total <=? HDR c then Ret None
            else if total >? PART c then Ret None
            else delta_loop fuel' c blk boot update swap poff psz total (sector + 1) x1)
        else delta_loop fuel' c blk boot update swap poff psz total (sector + 1) x1
      end
    end
  else Ret (Some sector).

(** src/update_flash.c:522-529: erase the rest of the boot partition. *)
Fixpoint erase_boot_rest (fuel : nat) (c : cfg) (boot : image) (sector : Z) : prog unit :=
  if sector * SECT c <? PART c - SECT c then
    match fuel with
    | O => Stuck
    | S fuel' => Er (i_hdr boot + sector * SECT c) (SECT c) (erase_boot_rest fuel' c boot (sector + 1))
    end
  else Ret tt.

(** src/update_flash.c:345-546 [wolfBoot_delta_update]: true for 0. *)
Definition delta_update (c : cfg) (blk u : Z) (boot update swap : image) (inverse resume : bool) : prog bool :=
  let total := get_total_size c boot update in
  let! info <- pure (fun f => get_delta_info c f inverse) in
  match info with
  | None => Ret false
  | Some (img_offset, img_size, bh) =>
    let! cur_v <- pure (fun f => get_image_version c f PBOOT) in
    let! upd_v <- pure (fun f => get_image_version c f PUPDATE) in
    let! base_v <- pure (fun f => get_diffbase_version c f PUPDATE) in
    let bhsz := match bh with Some (_, n) => n | None => O end in
    if negb (bhsz =? c_digsz c)%nat && negb (bhsz =? 0)%nat then Ret false
    else
      let! bb <- pure (fun f => get_header c f (i_hdr boot) (c_hash_tag c)) in
      let! same_base <- get (fun f =>
        match bh with
        | Some (off, n) =>
          if (n =? c_digsz c)%nat then
            match bb with
            | Some (boff, bn) => list_eqb (rdl f (i_hdr boot + Z.of_nat boff) bn) (rdl f (UPDATE c + Z.of_nat off) bn)
            | None => true
            end
          else true
        | None => true
        end) in
      let ok := if inverse then ((cur_v =? upd_v) && (base_v <? cur_v)) || resume
                else resume || ((cur_v =? base_v) && same_base) in
      if negb ok then Ret false
      else
        match wb_patch_init (i_size boot + HDR c) img_size with
        | None => Ret false
        | Some x =>
          let poff := if inverse then img_offset else HDR c in
          let! r <- delta_loop (sector_fuel c) c blk boot update swap poff img_size total 0 x in
          match r with
          | None => Ret false
          | Some sector =>
            erase_boot_rest (sector_fuel c) c boot sector ;;
            swap_and_final_erase c u false ;;
            Ret true
          end
        end
  end.

(** src/update_flash.c:580-875 [wolfBoot_update(fallback_allowed)] with the delta branch of
    lines 666-703. *)
Definition update_delta (c : cfg) (blk u : Z) (fallback : bool) : prog bool :=
  Rd (fun f =>
  let update := snd (open_image c f PUPDATE) in
  let boot := snd (open_image c f PBOOT) in
  let swap := snd (open_image c f PSWAP) in
  let total := get_total_size c boot update in
  if total <=? HDR c then Ret false
  else
    let! update_type <- pure (fun f => get_image_type c f PUPDATE) in
    let! flag <- get (fun f => match get_update_sector_flag c f 0 with
                               | Some fl => fl | None => SF_NEW end) in
    let! go <- (if flag =? SF_NEW then update_checks c fallback update update_type
                else Ret true) in
    if negb go then Ret false
    else if Z.land update_type 0x00F0 =? TYPE_DIFF then
      let! cur_v <- pure (fun f => get_image_version c f PBOOT) in
      let! up_v <- pure (fun f => get_image_version c f PUPDATE) in
      let inverse := up_v <=? cur_v in
      let! st <- get (fun f => get_partition_state c f PUPDATE) in
      match (if negb (flag =? SF_NEW) || (cur_v =? 0) then st else None) with
      | Some s => delta_update c blk u boot update swap (negb (s =? ST_UPDATING)) true
      | None =>
        (if negb inverse && fallback then set_partition_state c PUPDATE ST_UPDATING else Ret tt) ;;
        delta_update c blk u boot update swap inverse false
      end
    else
      let! sector <- swap_loop (sector_fuel c) c boot update swap total 0 in
      erase_rest (sector_fuel c) c boot update sector ;;
      swap_and_final_erase c u false ;;
      Ret true).

(** src/update_flash.c:987-1112 [wolfBoot_start]. *)
Definition start_delta (c : cfg) (blk : Z) (u : nat -> Z) : prog Z :=
  let! (boot_state, update_state) <-
    get (fun f => (get_partition_state c f PBOOT, get_partition_state c f PUPDATE)) in
  let! resumed <- swap_and_final_erase c (u 0%nat) true in
  (if resumed then Ret tt
   else if match boot_state with Some s => s =? ST_TESTING | None => false end
   then update_delta c blk (u 1%nat) true ;; Ret tt
   else if match update_state with Some s => s =? ST_UPDATING | None => false end
   then update_delta c blk (u 1%nat) false ;; Ret tt
   else Ret tt) ;;
  boot_stage c (update_delta c blk (u 2%nat) true).
