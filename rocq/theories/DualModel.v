(** Boot selection by version: partition choice in dual-boot builds, the loader with
    hardware-assisted bank swap (src/update_flash_hwswap.c) and the loader that runs images
    from RAM (src/update_ram.c).
    Builds modelled: WOLFBOOT_FIXED_PARTITIONS, WOLFBOOT_DUALBOOT, no encryption, no ELF,
    FIT or DTS handling (update_ram.c:226-320). *)
From Verif Require Import Base HeaderModel Flash ImageModel TrailerModel SwapModel.

(** [active ^= 1]. *)
Definition other (p : part) : part := match p with PBOOT => PUPDATE | _ => PBOOT end.

(** src/libwolfboot.c:693-724 [wolfBoot_erase_partition]. *)
Definition erase_partition (c : cfg) (p : part) : prog unit :=
  Er (part_addr c p) (match p with PSWAP => SECT c | _ => PART c end) (Ret tt).

(** src/libwolfboot.c:1239-1273 [wolfBoot_dualboot_candidate]: [None] for -1.  Versions are
    uint32_t. *)
Definition dualboot_candidate (c : cfg) : prog (option part) :=
  let! boot_v <- pure (fun f => get_image_version c f PBOOT) in
  let! update_v <- pure (fun f => get_image_version c f PUPDATE) in
  if (boot_v =? 0) && (update_v =? 0) then Ret None
  else
    let both := (boot_v >? 0) && (update_v >? 0) in
    let candidate := if boot_v =? 0 then PUPDATE
                     else if both && (update_v >? boot_v) then PUPDATE else PBOOT in
    let fallback_possible := negb (boot_v =? 0) && both in
    let! st <- get (fun f => get_partition_state c f candidate) in
    if fallback_possible && match st with Some s => s =? ST_TESTING | None => false end
    then erase_partition c candidate ;; Ret (Some (other candidate))
    else Ret (Some candidate).

(** src/libwolfboot.c:1324-1332 [wolfBoot_fallback_is_possible]. *)
Definition fallback_is_possible (c : cfg) (f : flash) : out bool :=
  dlet boot_v <- get_image_version c f PBOOT in
  dlet update_v <- get_image_version c f PUPDATE in
  Val (negb ((boot_v =? 0) || (update_v =? 0))).

(** "First time we boot this update": UPDATING becomes TESTING. *)
Definition start_trial (c : cfg) (p : part) : prog unit :=
  let! st <- get (fun f => get_partition_state c f p) in
  if match st with Some s => s =? ST_UPDATING | None => false end
  then set_partition_state c p ST_TESTING else Ret tt.

(** ** Hardware-assisted swap *)

(** src/update_flash_hwswap.c:52-70: verify, erase a failing image and try the other one. *)
Fixpoint hw_loop (fuel : nat) (c : cfg) (active : part) : prog part :=
  match fuel with
  | O => Stuck
  | S fuel' =>
    let! (ok, _) <- open_and_verify c active in
    if ok then Ret active
    else
      let! fb <- pure (fallback_is_possible c) in
      if negb fb then Panic
      else erase_partition c active ;; hw_loop fuel' c (other active)
  end.

(** src/update_flash_hwswap.c:41-81: up to the bank swap.  The loop is given three rounds;
    the theorems show that it never needs more. *)
Definition hw_select (c : cfg) : prog part :=
  let! cand <- dualboot_candidate c in
  match cand with
  | None => Panic
  | Some p =>
    let! active <- hw_loop 3 c p in
    (if part_eqb active PBOOT then start_trial c PBOOT else Ret tt) ;;
    Ret active
  end.

(** [hal_flash_dualbank_swap]: the two banks exchange addresses. *)
Definition swap_banks (c : cfg) (f : flash) : flash :=
  fun x => if inr (BOOT c) (PART c) x then f (x - BOOT c + UPDATE c)
           else if inr (UPDATE c) (PART c) x then f (x - UPDATE c + BOOT c)
           else f x.

(** src/update_flash_hwswap.c:41-106 [wolfBoot_start] on parts where the swap returns: the
    address given to do_boot. *)
Definition hw_start (c : cfg) (f : flash) : outcome Z :=
  match run (hw_select c) f with
  | Done PUPDATE f1 => run (start_trial c PBOOT ;; Ret (BOOT c + HDR c)) (swap_banks c f1)
  | Done _ f1 => Done (BOOT c + HDR c) f1
  | Panicked f1 => Panicked f1
  | Wrong => Wrong
  end.

(** ** Running from RAM *)

(** src/libwolfboot.c:1025-1043 [wolfBoot_get_blob_version] on a header at [a]. *)
Definition blob_version (c : cfg) (m : flash) (a : Z) : out Z :=
  if negb (word m a =? WOLFBOOT_MAGIC) then Val 0
  else dlet r <- get_header c m a HDR_VERSION in
       match r with
       | None => Val 0
       | Some (off, len) => if (len =? 0)%nat then Val 0 else Val (word m (a + Z.of_nat off))
       end.

(** [n] bytes [d] stored in memory [m] from [a] on. *)
Definition load (m : flash) (a n : Z) (d : Z -> Z) : flash := fun x => if inr a n x then d (x - a) else m x.

(** src/update_ram.c:53-98 [wolfBoot_ramboot]: success and the new RAM.  [rd a n] is
    [ext_flash_read]: return value and bytes delivered.  [ret <= 0] at 73 is a comparison of
    signed integers.  The size is not checked before the image is read. *)
Definition ramboot (c : cfg) (rd : Z -> Z -> Z * (Z -> Z)) (m : flash) (src dst : Z) : out (bool * flash) :=
  let (r1, d1) := rd src (HDR c) in
  let m1 := load m dst (HDR c) d1 in
  if negb (r1 =? HDR c) then Val (false, m1)
  else
    dlet v <- blob_version c m1 dst in
    if (v =? 0) || (v >=? 2 ^ 31) then Val (false, m1)
    else
      let size := image_size m1 dst in
      let (r2, d2) := rd (src + HDR c) size in
      Val (negb (r2 <? 0), load m1 (dst + HDR c) size d2).

(** src/image.c:1144-1184 [wolfBoot_open_image_address(img, image)]. *)
Definition open_image_address (c : cfg) (m : flash) (img : image) (a : Z) : bool * image :=
  if negb (word m a =? WOLFBOOT_MAGIC) then (false, img)
  else if image_size m a >? PART c - HDR c
  then (false, mkImage (i_part img) (i_hdr img) (i_base img) (PART c - HDR c) (i_hdr_ok img) (i_sha_ok img) (i_sig_ok img) (i_sha img))
  else
    let hdr := if i_hdr_ok img then i_hdr img else a in
    (true, mkImage (i_part img) hdr (hdr + HDR c) (image_size m a) true (i_sha_ok img) (i_sig_ok img) (i_sha img)).

(** Verification of an image in RAM, as [verify_both]. *)
Definition verify_ram (c : cfg) (m : flash) (img : image) : prog (bool * image) :=
  let! (ok, img1) <- pure (fun _ => verify_integrity c m img) in
  if ok then
    let! r <- pure (fun _ => verify_authenticity c m img1) in
    match r with
    | (Accept, img') => Ret (true, img')
    | (Reject, img') => Ret (false, img')
    | (VPanic, _) => Panic
    end
  else Ret (false, img1).

(** src/update_ram.c:121-196: the loop.  [img] keeps its flags from one round to the next.
    [rd f] reads flash
    [f]: see [ramboot].  Result: the partition, the RAM. *)
Fixpoint ram_loop (fuel : nat) (c : cfg) (rd : flash -> Z -> Z -> Z * (Z -> Z)) (la : Z) (img : image) (m : flash) (active : part)
  : prog (part * flash) :=
  match fuel with
  | O => Stuck
  | S fuel' =>
    let! (ok, m1) <- pure (fun f => ramboot c (rd f) m (part_addr c active) (la - HDR c)) in
    let! (ok2, img2) <-
      (if ok then
         let (o, img1) := open_image_address c m1 img (la - HDR c) in
         if o then verify_ram c m1 img1 else Ret (false, img1)
       else Ret (false, img)) in
    if ok2 then Ret (active, m1)
    else
      let! fb <- pure (fallback_is_possible c) in
      if negb fb then Panic else ram_loop fuel' c rd la img2 m1 (other active)
  end.

(** src/update_ram.c:102-224 [wolfBoot_start] with WOLFBOOT_USE_RAMBOOT, [la] =
    WOLFBOOT_LOAD_ADDRESS: the partition chosen and the RAM when do_boot(la) is called.
    [fuel]: number of rounds of the loop. *)
Definition ram_start (fuel : nat) (c : cfg) (rd : flash -> Z -> Z -> Z * (Z -> Z)) (la : Z) (m : flash) : prog (part * flash) :=
  let! cand <- dualboot_candidate c in
  match cand with
  | None => Panic
  | Some p =>
    let! (active, m') <- ram_loop fuel c rd la (mkImage PBOOT 0 0 0 false false false None) m p in
    start_trial c active ;;
    Ret (active, m')
  end.
