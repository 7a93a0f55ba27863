(** ELF images.  Sources: src/elf.c, include/elf.h, src/image.c:1333-1606
    (elf_check_image_scattered), src/update_flash.c:818-832 and 1077-1092.
    Memory and memory-mapped flash are one address space.  Debug output left out. *)
From Verif Require Import Base HeaderModel Flash ImageModel TrailerModel SwapModel NobackupModel.

(** A build: [AW] bits of uintptr_t and unsigned long (32 or 64), [HBE] BIG_ENDIAN_ORDER,
    [SWP] ELF_ENDIAN_SUPPORT, [BOFF] the BASE_OFF of src/elf.c:182-186. *)
Record ecfg := { AW : Z; HBE : bool; SWP : bool; BOFF : Z }.

(** Conversion to an unsigned and to a signed type of [w] bits, and to int. *)
Definition uw (w x : Z) : Z := x mod 2 ^ w.
Definition sw (w x : Z) : Z := (x + 2 ^ (w - 1)) mod 2 ^ w - 2 ^ (w - 1).
Definition s32 (x : Z) : Z := sw 32 x.

(** A load of [n] bytes from [a] in the byte order of the machine. *)
Definition ldn (be : bool) (m : flash) (a : Z) (n : nat) : Z :=
  if be then le_val (rev (rdl m a n)) else le_val (rdl m a n).

(** __builtin_bswap16/32/64: the argument is converted to [n] bytes first. *)
Definition bswap (n : nat) (x : Z) : Z := le_val (rev (le_bytes n x)).

(** include/elf.h:143-157, GET16/GET32/GET64 ([n] = 2, 4, 8). *)
Definition getn (e : ecfg) (is_le : bool) (n : nat) (x : Z) : Z :=
  if SWP e && Bool.eqb is_le (HBE e) then bswap n x else x.

(** include/elf.h:33-53 constants. *)
Definition ELF_IDENT : list Z := [127; 69; 76; 70].
Definition ELF_HET_EXEC : Z := 2.
Definition ELF_PT_LOAD : Z := 1.

(** Field offsets and sizes of elf32_header / elf64_header, include/elf.h:55-116. *)
Definition h_entry (is32 : bool) : Z * nat := if is32 then (24, 4%nat) else (24, 8%nat).
Definition h_phoff (is32 : bool) : Z * nat := if is32 then (28, 4%nat) else (32, 8%nat).
Definition h_phentsize (is32 : bool) : Z := if is32 then 42 else 54.
Definition h_phnum (is32 : bool) : Z := if is32 then 44 else 56.
Definition ehsize (is32 : bool) : Z := if is32 then 52 else 64.

(** elf32_program_header / elf64_program_header, include/elf.h:83-92, 130-139. *)
Definition e_offset (is32 : bool) : Z * nat := if is32 then (4, 4%nat) else (8, 8%nat).
Definition e_vaddr (is32 : bool) : Z * nat := if is32 then (8, 4%nat) else (16, 8%nat).
Definition e_paddr (is32 : bool) : Z * nat := if is32 then (12, 4%nat) else (24, 8%nat).
Definition e_filesz (is32 : bool) : Z * nat := if is32 then (16, 4%nat) else (32, 8%nat).
Definition e_memsz (is32 : bool) : Z * nat := if is32 then (20, 4%nat) else (40, 8%nat).
Definition phsize (is32 : bool) : Z := if is32 then 32 else 56.

(** GET_H64 / GET_E64 (include/elf.h:159, 162): a field of natural size. *)
Definition fld (e : ecfg) (is_le : bool) (m : flash) (p : Z) (on : Z * nat) : Z :=
  getn e is_le (snd on) (ldn (HBE e) m (p + fst on) (snd on)).

(** memcpy and memset of [n] bytes: undefined when a range leaves the address space, and
    when source and destination overlap. *)
Definition fits (e : ecfg) (a n : Z) : bool := (0 <=? a) && (a + n <=? 2 ^ AW e).
Definition memcpy_m (e : ecfg) (m : flash) (dst src n : Z) : out flash :=
  if n =? 0 then Val m
  else if negb (fits e dst n && fits e src n) then UB
  else if (dst <? src + n) && (src <? dst + n) then UB
  else Val (fun x => if inr dst n x then m (src + (x - dst)) else m x).
Definition memset0_m (e : ecfg) (m : flash) (dst n : Z) : out flash :=
  if n =? 0 then Val m
  else if negb (fits e dst n) then UB
  else Val (fun x => if inr dst n x then 0 else m x).

(** src/elf.c:90-140, the loop over program headers with [k] iterations to go; [cb] is
    mmu_cb ([None] is NULL; it returns 0 for true), called with a 32-bit size
    (include/elf.h:168); [log] collects its calls.  Simplification: mapping a range does not
    change the modelled memory.  [i * entry_size] is computed in int. *)
Fixpoint load_loop (k : nat) (e : ecfg) (is32 is_le : bool) (image off esz i : Z)
    (cb : option (Z -> Z -> Z -> bool)) (m : flash) (log : list (Z * Z * Z))
  : out (flash * list (Z * Z * Z)) :=
  match k with
  | O => Val (m, log)
  | S k' =>
    if 2 ^ 31 <=? i * esz then UB
    else
      let p := uw (AW e) (off + i * esz) in
      let ty := getn e is_le 4 (ldn (HBE e) m p 4) in
      let paddr := uw (AW e) (fld e is_le m p (e_paddr is32)) in
      let vaddr := uw (AW e) (fld e is_le m p (e_vaddr is32)) in
      let memsz := uw (AW e) (fld e is_le m p (e_memsz is32)) in
      let offset := uw (AW e) (fld e is_le m p (e_offset is32)) in
      let filesz := uw (AW e) (fld e is_le m p (e_filesz is32)) in
      let next := load_loop k' e is32 is_le image off esz (i + 1) cb in
      if negb (ty =? ELF_PT_LOAD) || (memsz =? 0) then next m log
      else
        let '(mapped, log') := match cb with
                               | None => (true, log)
                               | Some g => (g vaddr paddr (uw 32 memsz), log ++ [(vaddr, paddr, uw 32 memsz)])
                               end in
        if negb mapped then next m log'
        else
          dlet m1 <- memcpy_m e m vaddr (uw (AW e) (image + offset)) filesz in
          dlet m2 <- (if memsz >? filesz
                      then memset0_m e m1 (uw (AW e) (vaddr + filesz)) (memsz - filesz)
                      else Val m1) in
          next m2 log'
  end.

(** Result of [elf_load_image_mmu]: the error code, or memory, entry point and mapping calls. *)
Inductive loaded :=
| LErr (code : Z)
| LOk (m : flash) (entry : Z) (log : list (Z * Z * Z)).

(** src/elf.c:55-145 [elf_load_image_mmu]. *)
Definition elf_load_image_mmu (e : ecfg) (m : flash) (image : Z)
    (cb : option (Z -> Z -> Z -> bool)) : out loaded :=
  if negb (list_eqb (rdl m image 4) ELF_IDENT) then Val (LErr (-1))
  else
    let is32 := m (image + 4) =? 1 in
    let is_le := m (image + 5) =? 1 in
    if negb (getn e is_le 2 (ldn (HBE e) m (image + 16) 2) =? ELF_HET_EXEC) then Val (LErr (-2))
    else
      let phoff := getn e is_le 4 (ldn (HBE e) m (image + fst (h_phoff is32)) (snd (h_phoff is32))) in
      let off := uw (AW e) (image + phoff) in
      let esz := getn e is_le 2 (ldn (HBE e) m (image + h_phentsize is32) 2) in
      let cnt := getn e is_le 2 (ldn (HBE e) m (image + h_phnum is32) 2) in
      dlet (m', log) <- load_loop (Z.to_nat cnt) e is32 is_le image off esz 0 cb m [] in
      Val (LOk m' (uw (AW e) (fld e is_le m' image (h_entry is32))) log).

(** src/update_ram.c:272-277, ELF images in the RAM boot: where the image at [image] is
    started; [None] when the loader has undefined behaviour. *)
Definition ram_entry (e : ecfg) (m : flash) (image : Z) : out (flash * Z) :=
  dlet r <- elf_load_image_mmu e m image None in
  match r with
  | LErr _ => Val (m, image)
  | LOk m' en _ => Val (m', en)
  end.

(** ** Images whose segments are copied to their own flash addresses *)

(** src/elf.c:148-159 [elf_open]: [Some is_elf32], [None] for -1. *)
Definition elf_open (f : flash) (a : Z) : option bool :=
  if list_eqb (rdl f a 4) ELF_IDENT then Some (f (a + 4) =? 1) else None.

(** src/elf.c:161-178 [elf_hdr_size] of an opened image.  From here on fields are read in
    the byte order of the machine, which is little-endian. *)
Definition ld (f : flash) (a : Z) (n : nat) : Z := le_val (rdl f a n).
Definition fld0 (f : flash) (p : Z) (on : Z * nat) : Z := ld f (p + fst on) (snd on).
Definition elf_hdr_size (f : flash) (a : Z) (is32 : bool) : Z :=
  ehsize is32 + ld f (a + h_phnum is32) 2 * phsize is32.

(** The address of ph[i]. *)
Definition ph (e : ecfg) (is32 : bool) (a off i : Z) : Z := uw (AW e) (a + off + i * phsize is32).

(** src/elf.c:207-237 and 249-279: the loop of [elf_store_image_scattered], internal flash.
    The length passed to the flash driver is an int. *)
Fixpoint store_loop (k : nat) (e : ecfg) (is32 : bool) (a off i : Z) : prog unit :=
  match k with
  | O => Ret tt
  | S k' =>
    let! (ty, (paddr, (offset, filesz))) <- get (fun f =>
      let p := ph e is32 a off i in
      (ld f p 4, (uw (AW e) (fld0 f p (e_paddr is32)), (uw (AW e) (fld0 f p (e_offset is32)),
                  uw (AW e) (fld0 f p (e_filesz is32)))))) in
    if negb (ty =? ELF_PT_LOAD) then store_loop k' e is32 a off (i + 1)
    else
      let dst := uw (AW e) (paddr + BOFF e) in
      Er dst (s32 filesz)
        (Rd (fun f =>
           Wr dst (s32 filesz) (fun j => f (uw (AW e) (a + offset) + j))
             (store_loop k' e is32 a off (i + 1))))
  end.

(** src/elf.c:188-283 [elf_store_image_scattered] for the image whose manifest header is
    at [hdr]; the return value is not used by the callers. *)
Definition elf_store_image_scattered (c : cfg) (e : ecfg) (hdr : Z) : prog unit :=
  let a := hdr + HDR c in
  let! r <- get (fun f => elf_open f a) in
  match r with
  | None => Ret tt
  | Some is32 =>
    let! (cnt, off) <- get (fun f => (ld f (a + h_phnum is32) 2, uw (AW e) (fld0 f a (h_phoff is32)))) in
    store_loop (Z.to_nat cnt) e is32 a off 0
  end.

(** The loops that feed [len] bytes from [p] on to the hash in blocks of [blk], e.g.
    src/image.c:1388-1397; [len] is an int. *)
Fixpoint feed_blocks (fuel : nat) (blk : Z) (f : flash) (p len : Z) : out (list Z) :=
  if 0 <? len then
    match fuel with
    | O => NoFuel
    | S fuel' =>
      if blk <? len then
        dlet r <- feed_blocks fuel' blk f (p + blk) (len - blk) in
        Val (rdl f p (Z.to_nat blk) ++ r)
      else Val (rdl f p (Z.to_nat len))
    end
  else Val [].
Definition feed (blk : Z) (f : flash) (p len : Z) : out (list Z) :=
  feed_blocks (S (Z.to_nat len)) blk f p len.

(** src/image.c:1333, 1417-1425, 1471-1480: zeros fed in place of the bytes between segments. *)
Definition PADDING_BLOCK_SIZE : Z := 64.
Definition feed_zeros (len : Z) : out (list Z) := feed PADDING_BLOCK_SIZE (fun _ => 0) 0 len.

(** src/image.c:1426-1484 and 1511-1569: the loop over program headers; bytes fed so far in
    order and [final_offset]. *)
Fixpoint check_loop (k : nat) (c : cfg) (e : ecfg) (f : flash) (is32 : bool) (a off cnt i fin : Z)
  : out (list Z * Z) :=
  match k with
  | O => Val ([], fin)
  | S k' =>
    let p := ph e is32 a off i in
    let paddr := uw (AW e) (fld0 f p (e_paddr is32)) in
    let offset := uw (AW e) (fld0 f p (e_offset is32)) in
    let filesz := uw (AW e) (fld0 f p (e_filesz is32)) in
    if negb (ld f p 4 =? ELF_PT_LOAD) then check_loop k' c e f is32 a off cnt (i + 1) fin
    else
      dlet s <- feed (BLK c) f (uw (AW e) (paddr + BOFF e)) (s32 filesz) in
      let stop := uw (AW e) (offset + filesz) in
      let noff := fld0 f (ph e is32 a off (i + 1)) (e_offset is32) in
      if (i <? cnt - 1) && (noff >? stop) then
        dlet z <- feed_zeros (uw (AW e) (noff - stop)) in
        dlet (r, fin') <- check_loop k' c e f is32 a off cnt (i + 1) fin in
        Val (s ++ z ++ r, fin')
      else
        dlet (r, fin') <- check_loop k' c e f is32 a off cnt (i + 1)
                            (sw (AW e) stop) in
        Val (s ++ r, fin')
  end.

(** src/image.c:1341-1603 [elf_check_image_scattered(PART_BOOT, &entry)]: [None] is a
    negative return value, [Some entry] is 0.  [final_offset + IMAGE_HEADER_SIZE] is signed. *)
Definition elf_check_image_scattered (c : cfg) (e : ecfg) (f : flash) : out (option Z) :=
  let '(ok, img) := open_image c f PBOOT in
  if negb ok then Val None
  else
    dlet r <- get_header c f (i_hdr img) (c_hash_tag c) in
    match r with
    | None => Val None
    | Some (hoff, hlen) =>
      if negb (hlen =? c_digsz c)%nat then Val None
      else
        dlet h <- feed_header (S (Z.to_nat (HDR c))) c f (i_hdr img) (i_hdr img + Z.of_nat hoff - 4) in
        let a := i_hdr img + HDR c in
        match elf_open f a with
        | None => Val None
        | Some is32 =>
          let hsz := elf_hdr_size f a is32 in
          dlet eh <- feed (BLK c) f a hsz in
          let cnt := ld f (a + h_phnum is32) 2 in
          let off := uw (AW e) (fld0 f a (h_phoff is32)) in
          let entry := uw (AW e) (fld0 f a (h_entry is32)) in
          dlet z <- feed_zeros (s32 (fld0 f (ph e is32 a off 0) (e_offset is32) - hsz)) in
          dlet (s, fin) <- check_loop (Z.to_nat cnt) c e f is32 a off cnt 0 (-1) in
          if fin <? 0 then Val None
          else if 2 ^ (AW e - 1) <=? fin + HDR c then UB
          else if fin + HDR c >? sw (AW e) (i_size img) then Val None
          else
            dlet t <- feed (BLK c) f (a + fin) (s32 (i_size img - fin)) in
            if list_eqb (c_hash c (h ++ eh ++ z ++ s ++ t)) (rdl f (i_hdr img + Z.of_nat hoff) hlen)
            then Val (Some entry) else Val None
        end
    end.

(** src/update_flash.c:1077-1092 (and 818-832): check the copied segments, copy them again
    if they are wrong, check again; the address the application is started at. *)
Definition scatter (c : cfg) (e : ecfg) : prog Z :=
  let! r <- get (elf_check_image_scattered c e) in
  match r with
  | Val (Some en) => Ret en
  | Val None =>
    let! _ <- elf_store_image_scattered c e (BOOT c) in
    let! r2 <- get (elf_check_image_scattered c e) in
    match r2 with
    | Val (Some en) => Ret en
    | Val None => Panic
    | _ => Stuck
    end
  | _ => Stuck
  end.

(** src/update_flash.c:987-1112 [wolfBoot_start] with WOLFBOOT_ELF_SCATTERED: the address
    the application is started at. *)
Definition start_scattered (c : cfg) (e : ecfg) (u : nat -> Z) : prog Z :=
  start c u ;; scatter c e.

(** src/update_flash.c:580-875 [wolfBoot_update] with DISABLE_BACKUP and
    WOLFBOOT_ELF_SCATTERED: [NobackupModel.update_direct] with lines 818-832 before the copy;
    and [wolfBoot_start] with it. *)
Definition update_direct_scattered (c : cfg) (e : ecfg) (fallback : bool) : prog bool :=
  Rd (fun f =>
  let update := snd (open_image c f PUPDATE) in
  let boot := snd (open_image c f PBOOT) in
  let total := get_total_size c boot update in
  if total <=? HDR c then Ret false
  else
    let! update_type <- pure (fun f => get_image_type c f PUPDATE) in
    let! flag <- get (fun f => match get_update_sector_flag c f 0 with
                               | Some fl => fl | None => SF_NEW end) in
    let! go <- (if flag =? SF_NEW then update_checks c fallback update update_type
                else Ret true) in
    if negb go then Ret false
    else
      let! _ <- scatter c e in
      let! sector <- direct_copy (sector_fuel c) c update boot total 0 in
      direct_erase (sector_fuel c) c boot sector ;;
      set_partition_state c PBOOT ST_SUCCESS ;;
      Ret true).
Definition start_direct_scattered (c : cfg) (e : ecfg) : prog Z :=
  let! (boot_state, update_state) <-
    get (fun f => (get_partition_state c f PBOOT, get_partition_state c f PUPDATE)) in
  (if match boot_state with Some s => s =? ST_TESTING | None => false end
   then update_direct_scattered c e true ;; Ret tt
   else if match update_state with Some s => s =? ST_UPDATING | None => false end
   then update_direct_scattered c e false ;; Ret tt
   else Ret tt) ;;
  boot_stage c (update_direct_scattered c e true) ;;
  scatter c e.
