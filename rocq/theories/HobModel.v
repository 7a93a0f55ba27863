(** Model of src/x86/hob.c, src/multiboot.c, src/boot_x86_fsp.c:128-143 and
    src/x86/linux_loader.c.  A memory area is the list of its bytes, a pointer into it an
    offset; accesses outside are [UB].  Debug output left out.  The machine is
    little-endian (x86). *)
From Verif Require Import Base.

Definition u32 (x : Z) : Z := x mod 2 ^ 32.

(** A load and a store of [n] bytes. *)
Definition ldw (l : list Z) (o n : nat) : out Z :=
  if (o + n <=? length l)%nat then Val (le_val (sub l o n)) else UB.
Definition stw (l : list Z) (o : nat) (d : list Z) : out (list Z) :=
  if (o + length d <=? length l)%nat
  then Val (firstn o l ++ d ++ skipn (o + length d) l) else UB.

Fixpoint list_eqb (a b : list Z) : bool :=
  match a, b with
  | [], [] => true
  | x :: a', y :: b' => (x =? y) && list_eqb a' b'
  | _, _ => false
  end.

(** * hob.c *)

(** hob_get_type, hob_get_length, hob_get_next, hob.c:50-85; include/x86/hob.h:62-66 *)
Definition hob_get_type (m : list Z) (it : nat) : out Z := ldw m it 2.
Definition hob_get_length (m : list Z) (it : nat) : out Z := ldw m (it + 2) 2.
Definition hob_get_next (m : list Z) (it : nat) : out nat :=
  dlet n <- hob_get_length m it in Val (it + Z.to_nat n)%nat.

(** Offsets in struct efi_hob_resource_descriptor, include/x86/hob.h:162-169. *)
Definition r_owner : nat := 8.
Definition r_type : nat := 24.
Definition r_start : nat := 32.
Definition r_length : nat := 40.

(** EFI_HOB_TYPE_*, EFI_RESOURCE_*, include/x86/hob.h:31-45, 119-128 *)
Definition TYPE_RESOURCE : Z := 3.
Definition TYPE_END : Z := 65535.
Definition RESOURCE_SYSTEM_MEMORY : Z := 0.
Definition RESOURCE_RESERVED : Z := 5.

(** hob_guid_equals, hob.c:97-100 *)
Definition hob_guid_equals (m : list Z) (a : nat) (guid : list Z) : out bool :=
  if (a + 16 <=? length m)%nat then Val (list_eqb (sub m a 16) guid) else UB.

(** hob_find_resource_by_guid, hob.c:113-132; [None] is NULL *)
Fixpoint hob_find_resource_by_guid (fuel : nat) (m : list Z) (it : nat) (guid : list Z) : out (option nat) :=
  match fuel with
  | O => NoFuel
  | S f =>
    dlet t <- hob_get_type m it in
    if t =? TYPE_END then Val None else
    dlet found <-
      (if t =? TYPE_RESOURCE then
         dlet rt <- ldw m (it + r_type) 4 in
         if rt =? RESOURCE_RESERVED then hob_guid_equals m (it + r_owner) guid else Val false
       else Val false) in
    if found : bool then Val (Some it) else
    dlet it' <- hob_get_next m it in
    hob_find_resource_by_guid f m it' guid
  end.

(** hob_fsp_reserved_guid, hob.c:33-39 *)
Definition hob_fsp_reserved_guid : list Z :=
  le_bytes 4 1772590937 ++ le_bytes 2 4979 ++ le_bytes 2 17255 ++ [166; 196; 199; 245; 158; 253; 152; 110].

(** get_top_address, boot_x86_fsp.c:128-143: [None] is -1 *)
Definition get_top_address (fuel : nat) (m : list Z) (hoblist : nat) : out (option Z) :=
  dlet r <- hob_find_resource_by_guid fuel m hoblist hob_fsp_reserved_guid in
  match r with
  | None => Val None
  | Some it => dlet v <- ldw m (it + r_start) 8 in Val (Some v)
  end.

(** hob_iterate_memory_map, hob.c:165-184; the callback changes a state [S] *)
Fixpoint hob_iterate_memory_map {S : Type} (fuel : nat) (m : list Z) (it : nat)
    (cb : S -> Z -> Z -> Z -> out (S * Z)) (s : S) : out (S * Z) :=
  match fuel with
  | O => NoFuel
  | Datatypes.S f =>
    dlet t <- hob_get_type m it in
    if t =? TYPE_END then Val (s, 0) else
    dlet (s, r) <-
      (if t =? TYPE_RESOURCE then
         dlet a <- ldw m (it + r_start) 8 in
         dlet n <- ldw m (it + r_length) 8 in
         dlet ty <- ldw m (it + r_type) 4 in
         cb s a n ty
       else Val (s, 0)) in
    if negb (r =? 0) then Val (s, r) else
    dlet it' <- hob_get_next m it in
    hob_iterate_memory_map f m it' cb s
  end.

(** * multiboot.c *)

(** mb2_find_header, multiboot.c:333-352: the offset found.  [size] is an int. *)
Fixpoint find_loop (n : nat) (image : list Z) (i : nat) : out (option nat) :=
  match n with
  | O => Val None
  | S n' =>
    dlet w <- ldw image (4 * i) 4 in
    if w =? 3897708758 then Val (Some (4 * i)%nat) else find_loop n' image (S i)
  end.
Definition MB2_HEADER_MAX_OFF : Z := 32768 - 4.
Definition mb2_find_header (image : list Z) (size : Z) : out (option nat) :=
  let size := if size >? MB2_HEADER_MAX_OFF / 4 then MB2_HEADER_MAX_OFF else size in
  find_loop (Z.to_nat (Z.quot size 4)) image 0.

(** mb2_align_address_up, multiboot.c:90-96, for an area that starts at address [base]:
    the offset of the aligned address *)
Definition mb2_align_address_up (base : Z) (o : Z) (align : Z) : Z :=
  let mask := align - 1 in
  Z.land (base + o + mask) (Z.lnot mask) - base.

(** mb2_find_tag_by_type, multiboot.c:98-109 *)
Fixpoint mb2_find_tag_by_type (fuel : nat) (h : list Z) (base : Z) (tag : nat) (type : Z) : out (option nat) :=
  match fuel with
  | O => NoFuel
  | S f =>
    dlet t <- ldw h tag 2 in
    if t =? 0 then Val None else
    if t =? type then Val (Some tag) else
    dlet n <- ldw h (tag + 4) 4 in
    mb2_find_tag_by_type f h base (Z.to_nat (mb2_align_address_up base (Z.of_nat tag + n) 8)) type
  end.

(** The information being built: the buffer and what is left of max_size. *)
Record info := { buf : list Z; max_size : Z }.

(** a store of a 32-bit or 64-bit field into the buffer *)
Definition put (n : nat) (i : info) (o : nat) (v : Z) : out info :=
  dlet b <- stw (buf i) o (le_bytes n v) in Val {| buf := b; max_size := max_size i |}.
Definition take (i : info) (n : Z) : info := {| buf := buf i; max_size := max_size i - n |}.

(** mb2_start_mem_map, multiboot.c:111-121 *)
Definition mb2_start_mem_map (i : info) (tag : nat) : out info :=
  dlet i <- put 4 i tag 6 in
  dlet i <- put 4 i (tag + 8) 24 in
  dlet i <- put 4 i (tag + 12) 0 in
  put 4 i (tag + 4) 16.

(** mb2_add_mem_entry_cb, multiboot.c:130-153 *)
Definition mb2_add_mem_entry_cb (hdr : nat) (i : info) (baseAddr length type : Z) : out (info * Z) :=
  if max_size i <? 24 then Val (i, -1) else
  let i := take i 24 in
  dlet size <- ldw (buf i) (hdr + 4) 4 in
  let e := (hdr + Z.to_nat size)%nat in
  dlet i <- put 8 i e baseAddr in
  dlet i <- put 8 i (e + 8) length in
  dlet i <- put 4 i (e + 16) (if type =? RESOURCE_SYSTEM_MEMORY then 1 else 2) in
  dlet i <- put 4 i (e + 20) 0 in
  dlet size <- ldw (buf i) (hdr + 4) 4 in
  dlet i <- put 4 i (hdr + 4) (u32 (size + 24)) in
  Val (i, 0).

(** mb2_add_mem_basic_info_cb, multiboot.c:155-167 *)
Definition mb2_add_mem_basic_info_cb (hdr : nat) (i : info) (baseAddr length type : Z) : out (info * Z) :=
  dlet i <- (if baseAddr =? 0 then put 4 i (hdr + 8) (u32 (length / 1024)) else Val i) in
  dlet i <- (if baseAddr =? 1 * 1024 * 1024 then put 4 i (hdr + 12) (u32 (length / 1024)) else Val i) in
  Val (i, 0).

(** mb2_add_basic_mem_info, multiboot.c:170-201: new position and return value *)
Definition mb2_add_basic_mem_info (fuel : nat) (hobs : list Z) (i : info) (idx : nat) : out (info * nat * Z) :=
  if max_size i <? 16 then Val (i, idx, -1) else
  let i := take i 16 in
  dlet i <- put 4 i idx 4 in
  dlet i <- put 4 i (idx + 4) 16 in
  dlet i <- put 4 i (idx + 8) 0 in
  dlet i <- put 4 i (idx + 12) 0 in
  dlet (i, r) <- hob_iterate_memory_map fuel hobs 0 (mb2_add_mem_basic_info_cb idx) i in
  if negb (r =? 0) then Val (i, idx, r) else
  Val (i, (idx + 16)%nat, 0).

(** mb2_add_mem_map, multiboot.c:203-234 *)
Definition mb2_add_mem_map (fuel : nat) (hobs : list Z) (i : info) (idx : nat) : out (info * nat * Z) :=
  if max_size i <? 16 then Val (i, idx, -1) else
  let i := take i 16 in
  dlet i <- mb2_start_mem_map i idx in
  dlet (i, r) <- hob_iterate_memory_map fuel hobs 0 (mb2_add_mem_entry_cb idx) i in
  if negb (r =? 0) then Val (i, idx, r) else
  dlet size <- ldw (buf i) (idx + 4) 4 in
  Val (i, (idx + Z.to_nat size)%nat, 0).

(** the loop of multiboot.c:259-277 over the requested tags from [req] in the header [h] *)
Fixpoint requests (n : nat) (fuel : nat) (hobs h : list Z) (req : nat) (i : info) (idx : nat)
    : out (info * nat * Z) :=
  match n with
  | O => Val (i, idx, 0)
  | S n' =>
    dlet t <- ldw h req 4 in
    dlet (i, idx, r) <-
      (if t =? 4 then mb2_add_basic_mem_info fuel hobs i idx
       else if t =? 6 then mb2_add_mem_map fuel hobs i idx
       else Val (i, idx, -1)) in
    if negb (r =? 0) then Val (i, idx, r) else
    requests n' fuel hobs h (req + 4) i idx
  end.

(** conversion to int *)
Definition s32 (x : Z) : Z := (x + 2 ^ 31) mod 2 ^ 32 - 2 ^ 31.

(** mb2_build_boot_info_header, multiboot.c:236-282: the buffer and the return value.  [h]
    is the memory from the Multiboot2 header on, at address [base].  Pointers and size_t are
    64 bits wide. *)
Definition mb2_build_boot_info_header (fuel : nat) (b : list Z) (h : list Z) (base : Z)
    (hobs : list Z) (max_size_ : Z) : out (list Z * Z) :=
  if max_size_ <? 8 then Val (b, -1) else
  let i := {| buf := b; max_size := max_size_ - 8 |} in
  dlet i <- put 4 i 4 0 in
  dlet req <- mb2_find_tag_by_type fuel h base 16 1 in
  match req with
  | None => Val (buf i, -1)
  | Some tag =>
    dlet size <- ldw h (tag + 4) 4 in
    let requested_tags := s32 ((size - 8) mod 2 ^ 64 / 4) in
    dlet (i, idx, r) <- requests (Z.to_nat requested_tags) fuel hobs h (tag + 8) i 8 in
    if negb (r =? 0) then Val (buf i, r) else
    dlet i <- put 4 i 0 (u32 (Z.of_nat idx)) in
    Val (buf i, 0)
  end.

(** * linux_loader.c *)

(** Offsets in struct boot_params, include/x86/linux_loader.h:86-121. *)
Definition P_E820_ENTRIES : nat := 488.   (* 0x1e8 *)
Definition P_HDR : nat := 497.            (* 0x1f1 *)
Definition P_E820_TABLE : nat := 720.     (* 0x2d0 *)
Definition P_SIZE : nat := 4096.
(** sizeof(struct setup_header), linux_loader.h:43-83 *)
Definition SETUP_HEADER_SIZE : nat := 123.

(** e820_add_entry_cb, linux_loader.c:71-83; the state is the zero page *)
Definition e820_add_entry_cb (bp : list Z) (start length type : Z) : out (list Z * Z) :=
  dlet n <- ldw bp P_E820_ENTRIES 1 in
  let map := (P_E820_TABLE + 20 * Z.to_nat n)%nat in
  dlet bp <- stw bp map (le_bytes 8 start) in
  dlet bp <- stw bp (map + 8) (le_bytes 8 length) in
  dlet bp <- stw bp (map + 16) (le_bytes 4 (if type =? RESOURCE_SYSTEM_MEMORY then 1 else 2)) in
  dlet bp <- stw bp P_E820_ENTRIES (le_bytes 1 (n + 1)) in
  Val (bp, 0).

(** What the kernel is started with: memory writes (address, bytes), entry point, zero page. *)
Record launch := { writes : list (Z * list Z); entry : Z; zero_page : list Z }.

(** load_linux, linux_loader.c:108-150; [image]: the memory from the image on.
    [None]: panic.  Simplification: what overlapping copies would do is not modelled; the
    copies are listed.  setup_sects is the first byte of the header, syssize the word at 3,
    type_of_loader the byte at 31, code32_start the word at 35, cmd_line_ptr the word at 55. *)
Definition load_linux (fuel : nat) (image hobs cmd_line : list Z) : out (option launch) :=
  let param := repeat 0 P_SIZE in
  dlet hdr <- (if (P_HDR + SETUP_HEADER_SIZE <=? length image)%nat
               then Val (sub image P_HDR SETUP_HEADER_SIZE) else UB) in
  dlet param <- stw param P_HDR hdr in
  dlet (param, ret) <- hob_iterate_memory_map fuel hobs 0 e820_add_entry_cb param in
  if negb (ret =? 0) then Val None else
  dlet setup_sects <- ldw param P_HDR 1 in
  let param_size := if negb (setup_sects =? 0) then (setup_sects + 1) * 512 else 5 * 512 in
  dlet param <- stw param (P_HDR + 31) (le_bytes 1 255) in
  dlet param <- stw param (P_HDR + 55) (le_bytes 4 65536) in
  dlet syssize <- ldw param (P_HDR + 3) 4 in
  let kernel_size := u32 (syssize * 16) in
  if Z.of_nat (length image) <? param_size + kernel_size then UB else
  dlet code32 <- ldw param (P_HDR + 35) 4 in
  Val (Some {| writes := [(65536, cmd_line ++ [0]);
                          (1048576, sub image (Z.to_nat param_size) (Z.to_nat kernel_size))];
               entry := code32; zero_page := param |}).
