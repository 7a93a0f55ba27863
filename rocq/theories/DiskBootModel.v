(** Booting from disk (src/update_disk.c).  Disk builds have no fixed partitions
    (WOLFBOOT_NO_PARTITIONS in config/examples/x86_fsp_qemu.config and kontron_vx3060_s2.config). *)
From Verif Require Import Base HeaderModel Flash ImageModel DualModel DiskModel.

(** The disk part: the controller and the opened drive; BOOT_DISK is 0. [d_A] and [d_B] are
    BOOT_PART_A and BOOT_PART_B (src/update_disk.c:57-66: 0 and 1, or 5 and 6). *)
Record source : Type := { s_hba : hba; s_drive : drive; d_A : Z; d_B : Z }.
(** The memory for the image: from the end of wolfBoot rounded up to 16 bytes
    (src/update_disk.c:139), to the top of low usable memory. *)
Record room : Type := { r_load : Z; r_top : Z }.

(** Reading [n] bytes at [off] of partition [part] into memory [m] at [a], where [space] bytes
    may be written: the return value, the disk, the memory. *)
Definition read_to (s : source) (st : ata) (part off n : Z) (m : flash) (a space : Z) : out (Z * ata * flash) :=
  dlet (p, b) <- disk_read (s_hba s) st (s_drive s) 0 part off n (rdl m a (Z.to_nat space)) in
  let (r, st') := p in
  Val (r, st', load m a space (fun i => nth (Z.to_nat i) b 0)).

(** src/update_disk.c:113-116 and 120-123.  [p_hdr] is at address 0 of [stk], the stack (it is
    aligned to 16 bytes, 80); [stk] is arbitrary before. *)
Definition read_version (c : cfg) (s : source) (st : ata) (part : Z) (stk : flash) : out (Z * ata * flash) :=
  dlet (p, stk') <- read_to s st part 0 (HDR c) stk 0 (HDR c) in
  let (r, st') := p in
  if r =? HDR c then dlet v <- blob_version c stk' 0 in Val (to_int v, st', stk')
  else Val (0, st', stk').

(** src/update_disk.c:176-184: the image is read in pieces of 512 bytes.  [off] is load_off.
    Writing past the top of low memory is undefined.  [fuel] bounds the number of reads. *)
Fixpoint load_image (fuel : nat) (c : cfg) (s : source) (w : room) (st : ata) (part size off : Z) (m : flash) : out (bool * ata * flash) :=
  match fuel with
  | O => NoFuel
  | S fuel' =>
    dlet (p, m') <- read_to s st part off 512 m (r_load w + off) (Z.min 512 (r_top w - (r_load w + off))) in
    let (r, st') := p in
    if r <? 0 then Val (false, st', m')
    else
      let off' := (off + r) mod 2 ^ 32 in
      if off' <? (size + HDR c) mod 2 ^ 32 then load_image fuel' c s w st' part size off' m'
      else Val (true, st', m')
  end.

(** src/image.c:1144-1184 [wolfBoot_open_image_address] without fixed partitions. *)
Definition open_loaded (c : cfg) (m : flash) (img : image) (a : Z) : bool * image :=
  if negb (word m a =? WOLFBOOT_MAGIC) then (false, img)
  else
    let hdr := if i_hdr img =? 0 then a else i_hdr img in
    (true, mkImage (i_part img) hdr (hdr + HDR c) (image_size m a) true (i_sha_ok img) (i_sig_ok img) (i_sha img)).

(** One round of the loop, src/update_disk.c:141-221: the image is accepted (break with no
    failure), the other partition is to be tried, or the loop is left for the panic. *)
Inductive attempt := Accepted | TryOther | GiveUp.
Record world : Type := mkWorld { w_disk : ata; w_stk : flash; w_mem : flash; w_img : image }.
Definition round (fuel : nat) (c : cfg) (s : source) (w : room) (part : Z) (x : world) : out (attempt * world) :=
  dlet (p, stk1) <- read_to s (w_disk x) part 0 (HDR c) (w_stk x) 0 (HDR c) in
  let (r, st1) := p in
  if negb (r =? HDR c) then Val (TryOther, mkWorld st1 stk1 (w_mem x) (w_img x))
  else
    let size := word stk1 4 in
    if size >? (r_top w - r_load w) mod 2 ^ 32 then Val (GiveUp, mkWorld st1 stk1 (w_mem x) (w_img x))
    else
      dlet (q, m1) <- load_image fuel c s w st1 part size 0 (w_mem x) in
      let (ok, st2) := q in
      if negb ok then Val (TryOther, mkWorld st2 stk1 m1 (w_img x))
      else
        let (o, img1) := open_loaded c m1 (w_img x) (r_load w) in
        if negb o then Val (TryOther, mkWorld st2 stk1 m1 img1)
        else
          dlet (i, img2) <- verify_integrity c m1 img1 in
          if negb i then Val (TryOther, mkWorld st2 stk1 m1 img2)
          else
            dlet (a, img3) <- verify_authenticity c m1 img2 in
            match a with
            | Accept => Val (Accepted, mkWorld st2 stk1 m1 img3)
            | Reject => Val (TryOther, mkWorld st2 stk1 m1 img3)
            | VPanic => Val (GiveUp, mkWorld st2 stk1 m1 img3)
            end.

(** src/update_disk.c:141-225: [n] rounds are left; [None] is a panic.  [b]: partition B is
    selected. *)
Fixpoint rounds (n : nat) (fuel : nat) (c : cfg) (s : source) (w : room) (b : bool) (x : world) : out (option (bool * world)) :=
  match n with
  | O => Val None
  | S n' =>
    dlet (a, x') <- round fuel c s w (if b then d_B s else d_A s) x in
    match a with
    | Accepted => Val (Some (b, x'))
    | TryOther => rounds n' fuel c s w (negb b) x'
    | GiveUp => Val None
    end
  end.
(** src/update_disk.c:68 MAX_FAILURES. *)
Definition MAX_FAILURES : nat := 4.

(** src/update_disk.c:78-237 [wolfBoot_start] once the disk is open: the partition chosen and
    the memory when do_boot is called at [i_base], or [None] for a panic. *)
Definition boot_opened (fuel : nat) (c : cfg) (s : source) (w : room) (st : ata) (stk m : flash) : out (option (bool * world)) :=
  dlet (p1, stk1) <- read_version c s st (d_A s) stk in
  let (vA, st1) := p1 in
  dlet (p2, stk2) <- read_version c s st1 (d_B s) stk1 in
  let (vB, st2) := p2 in
  if (vB =? 0) && (vA =? 0) then Val None
  else rounds MAX_FAILURES fuel c s w (vA <? vB) (mkWorld st2 stk2 m (mkImage PBOOT 0 0 0 false false false None)).

(** The same with [disk_open] (105); [lc] and [pa] as there. *)
Definition disk_start (fuel : nat) (c : cfg) (h : hba) (A B : Z) (w : room) (st : ata) (lc : list Z * list Z * list Z) (pa : Z -> list Z) (stk m : flash)
  : out (option (bool * world)) :=
  dlet (p, dr) <- disk_open h st (mkDrive false []) 0 lc pa in
  let (r, st1) := p in
  if r <? 0 then Val None
  else boot_opened fuel c {| s_hba := h; s_drive := dr; d_A := A; d_B := B |} w st1 stk m.
