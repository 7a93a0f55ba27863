(** Disks: the ATA driver with its one-sector cache (src/x86/ata.c:687-885) and partitions
    (src/x86/gpt.c). One drive is modelled; drives share no state. *)
From Verif Require Import Base HeaderModel Flash.

(** ** Commands *)

(** What becomes of a command: done; no free command slot (src/x86/ata.c:221-236, -1); or the
    drive reports an error, which 713 and 743 ignore.  A failed command transfers nothing
    (in general: part of the data). *)
Inductive cres := CDone | CNoSlot | CError.

(** src/x86/ata.c:73-83 [struct ata_drive]: the drive as an array of bytes, the cache, and the
    number of commands issued. *)
Record ata : Type := mkAta { a_disk : flash; a_cached : Z; a_cache : list Z; a_cmds : Z }.
(** Surroundings: fate of each command, [ata_drive_count]. *)
Record hba : Type := { fate : Z -> cres; last_drive : Z }.

(** src/x86/ata.c:39-42. *)
Definition SECTOR : Z := 512.
Definition CACHE_INVALID : Z := 0xBADF00DBADC0FFEE.
Definition MAX_DRIVES : Z := 4.

(** [n] bytes [d] put into [buf] at [o]. *)
Definition splice (buf : list Z) (o : nat) (d : list Z) : list Z := firstn o buf ++ d ++ skipn (o + length d) buf.

(** src/x86/ata.c:94-99, 269: the byte count of a transfer is stored less one in 22 bits. *)
Definition dma_bytes (n : Z) : Z := (n - 1) mod 2 ^ 22 + 1.
(** READ DMA EXT takes a 48-bit sector number, WRITE DMA (0xCA, include/x86/ata.h:92) one of 28
    bits: 24 from lba0..lba2, 4 from the low bits of the device register, which 740 leaves 0. *)
Definition read_lba (s : Z) : Z := s mod 2 ^ 48.
Definition write_lba (s : Z) : Z := s mod 2 ^ 24.
(** The count of WRITE DMA has 8 bits, 0 for 256; that of READ DMA EXT 16 bits. *)
Definition count_field (bits c : Z) : Z := if c mod 2 ^ bits =? 0 then 2 ^ bits else c mod 2 ^ bits.

(** src/x86/ata.c:687-715 [ata_drive_read_sector] into [buf] from [o] on: [false] is -1.
    A transfer past the end of the buffer is undefined. *)
Definition read_sector (h : hba) (st : ata) (start count : Z) (buf : list Z) (o : nat) : out (bool * ata * list Z) :=
  let st' := mkAta (a_disk st) (a_cached st) (a_cache st) (a_cmds st + 1) in
  match fate h (a_cmds st) with
  | CNoSlot => Val (false, st', buf)
  | CError => Val (true, st', buf)
  | CDone =>
    let n := Z.min (dma_bytes (count * SECTOR)) (count_field 16 count * SECTOR) in
    if zlen buf <? Z.of_nat o + n then UB
    else Val (true, st', splice buf o (rdl (a_disk st) (read_lba start * SECTOR) (Z.to_nat n)))
  end.

(** src/x86/ata.c:717-745 [ata_drive_write_sector] of the bytes [d]. Reading past them is
    undefined. *)
Definition write_sector (h : hba) (st : ata) (start count : Z) (d : list Z) : out (bool * ata) :=
  let st' k := mkAta k (a_cached st) (a_cache st) (a_cmds st + 1) in
  match fate h (a_cmds st) with
  | CNoSlot => Val (false, st' (a_disk st))
  | CError => Val (true, st' (a_disk st))
  | CDone =>
    let n := Z.min (dma_bytes (count * SECTOR)) (count_field 8 count * SECTOR) in
    if zlen d <? n then UB
    else let a := write_lba start * SECTOR in
         Val (true, st' (fun x => if inr a n x then nth (Z.to_nat (x - a)) d 0 else a_disk st x))
  end.

(** ** The sector cache *)

(** src/x86/ata.c:753-763 [ata_cache_pull]. *)
Definition cache_pull (h : hba) (st : ata) (sector : Z) : out ata :=
  if a_cached st =? sector then Val st
  else
    dlet (p, buf) <- read_sector h st sector 1 (a_cache st) 0 in
    let (ok, st1) := p in
    Val (mkAta (a_disk st1) (if ok then sector else CACHE_INVALID) buf (a_cmds st1)).

(** src/x86/ata.c:765-771 [ata_cache_commit]. *)
Definition cache_commit (h : hba) (st : ata) : out ata :=
  if a_cached st =? CACHE_INVALID then Val st
  else dlet (ok, st1) <- write_sector h st (a_cached st) 1 (a_cache st) in Val st1.

Definition set_cache (st : ata) (c : list Z) : ata := mkAta (a_disk st) (a_cached st) c (a_cmds st).

(** src/x86/ata.c:785-824 [ata_drive_read]: the return value and the buffer. [size] is a
    uint32_t.  The drive array has [MAX_DRIVES] entries. *)
Definition ata_read (h : hba) (st : ata) (drv start size : Z) (buf : list Z) : out (Z * ata * list Z) :=
  if (drv <? 0) || (MAX_DRIVES <=? drv) then UB
  else if last_drive h <? drv then Val (-1, st, buf)
  else
  let s := start / SECTOR in
  let off := start - s * SECTOR in
  let len := if 0 <? off then Z.min (SECTOR - off) size else 0 in
  dlet (st1, buf1, ok) <-
    (if 0 <? off then
       dlet st1 <- cache_pull h st s in
       if negb (a_cached st1 =? s) then Val (st1, buf, false)
       else if zlen buf <? len then UB
       else Val (st1, splice buf 0 (sub (a_cache st1) (Z.to_nat off) (Z.to_nat len)), true)
     else Val (st, buf, true)) in
  if negb ok then Val (-1, st1, buf1)
  else
  let s1 := if 0 <? off then s + 1 else s in
  let size1 := size - len in
  let count := size1 / SECTOR in
  dlet (p, buf2) <-
    (if 0 <? count then read_sector h st1 s1 count buf1 (Z.to_nat len) else Val (true, st1, buf1)) in
  let (ok2, st2) := p in
  if negb ok2 then Val (-1, st2, buf2)
  else
  let o := len + count * SECTOR in
  let size2 := size1 - count * SECTOR in
  if 0 <? size2 then
    dlet st3 <- cache_pull h st2 (s1 + count) in
    if zlen buf2 <? o + size2 then UB
    else Val (o + size2, st3, splice buf2 (Z.to_nat o) (firstn (Z.to_nat size2) (a_cache st3)))
  else Val (o, st2, buf2).

(** src/x86/ata.c:838-885 [ata_drive_write]. *)
Definition ata_write (h : hba) (st : ata) (drv start size : Z) (buf : list Z) : out (Z * ata) :=
  if (drv <? 0) || (MAX_DRIVES <=? drv) || (last_drive h <? drv) || (zlen buf <? size) then UB
  else if size =? 0 then Val (0, st)
  else
  let s := start / SECTOR in
  let off := start - s * SECTOR in
  let len := if 0 <? off then Z.min (SECTOR - off) size else 0 in
  dlet (st1, ok) <-
    (if 0 <? off then
       dlet st1 <- cache_pull h st s in
       if negb (a_cached st1 =? s) then Val (st1, false)
       else dlet st2 <- cache_commit h (set_cache st1 (splice (a_cache st1) (Z.to_nat off) (firstn (Z.to_nat len) buf))) in Val (st2, true)
     else Val (st, true)) in
  if negb ok then Val (-1, st1)
  else
  let s1 := if 0 <? off then s + 1 else s in
  let size1 := size - len in
  let count := size1 / SECTOR in
  dlet (ok2, st2) <-
    (if 0 <? count then write_sector h st1 s1 count (skipn (Z.to_nat len) buf) else Val (true, st1)) in
  if negb ok2 then Val (-1, st2)
  else
  let o := len + count * SECTOR in
  let size2 := size1 - count * SECTOR in
  if 0 <? size2 then
    dlet st3 <- cache_pull h st2 (s1 + count) in
    dlet st4 <- cache_commit h (set_cache st3 (splice (a_cache st3) 0 (sub buf (Z.to_nat o) (Z.to_nat size2)))) in
    Val (o + size2, st4)
  else Val (o, st2).

(** ** Partitions *)

Definition U64 : Z := 2 ^ 64.
Definition le_at (l : list Z) (o n : nat) : Z := le_val (sub l o n).
(** Conversion to [int]. *)
Definition to_int (v : Z) : Z := if 2 ^ 31 <=? v mod 2 ^ 32 then v mod 2 ^ 32 - 2 ^ 32 else v mod 2 ^ 32.

(** src/x86/gpt.c:104-125 [struct disk_partition], [struct disk_drive]; a name is 36 uint16_t. *)
Record gpart : Type := mkPart { g_start : Z; g_end : Z; g_name : list Z }.
Record drive : Type := mkDrive { d_open : bool; d_parts : list gpart }.
Definition MAX_PARTITIONS : Z := 16.
(** src/x86/gpt.c:43. *)
Definition GPT_SIGNATURE : Z := 0x5452415020494645.

Fixpoint u16s (n : nat) (l : list Z) : list Z :=
  match n with O => [] | S n' => le_at l 0 2 :: u16s n' (skipn 2 l) end.

(** src/x86/gpt.c:182-191: the first MBR entry of type GPT, from number [i] on; [pte] is the
    entry buffer.  Result: the state and the first sector. *)
Fixpoint find_pte (n : nat) (h : hba) (st : ata) (drv i : Z) (pte : list Z) : out (ata * option Z) :=
  match n with
  | O => Val (st, None)
  | S n' =>
    dlet (p, pte') <- ata_read h st drv (0x1BE + 16 * i) 16 pte in
    let (r, st') := p in
    if (0 <? r) && (nth 4 pte' 0 =? 0xEE) then Val (st', Some (le_at pte' 8 4))
    else find_pte n' h st' drv (i + 1) pte'
  end.

(** src/x86/gpt.c:239-269: the partition entries, from number [i] on, [n] to go. [pa i] is what
    the entry buffer (128 bytes) held before.  Result: whether -1 is returned, and the table. *)
Fixpoint read_entries (n : nat) (h : hba) (st : ata) (drv start_array array_sz i : Z) (pa : Z -> list Z) (parts : list gpart)
  : out (bool * ata * list gpart) :=
  match n with
  | O => Val (true, st, parts)
  | S n' =>
    let address := (start_array * SECTOR + (i * array_sz) mod 2 ^ 32) mod U64 in
    dlet (p, e) <- ata_read h st drv address array_sz (pa i) in
    let (r, st') := p in
    if r <? 0 then Val (false, st', parts)
    else if (le_at e 0 8 =? 0) && (le_at e 8 8 =? 0) then Val (true, st', parts)
    else
      let first := le_at e 32 8 in
      let last := le_at e 40 8 in
      if last <? first then Val (true, st', parts)
      else read_entries n' h st' drv start_array array_sz (i + 1) pa
             (parts ++ [mkPart ((first * SECTOR) mod U64) ((last * SECTOR - 1) mod U64) (u16s 36 (skipn 56 e))])
  end.

(** src/x86/gpt.c:166-274 [disk_open]. [stk] gives the uninitialised locals: 16, 2 and 512
    bytes; [pa] see above. *)
Definition disk_open (h : hba) (st : ata) (dr : drive) (drv : Z) (stk : list Z * list Z * list Z) (pa : Z -> list Z) : out (Z * ata * drive) :=
  let '(pte, sig, pt) := stk in
  if (drv <? 0) || (MAX_DRIVES <? drv) then Val (-1, st, dr)
  else
    dlet (st1, lba) <- find_pte 4 h st drv 0 pte in
    match lba with
    | None => Val (-1, st1, dr)
    | Some lba =>
      dlet (p2, sig') <- ata_read h st1 drv 0x1FE 2 sig in
      let (r2, st2) := p2 in
      if negb ((0 <? r2) && (le_at sig' 0 2 =? 0xAA55)) then Val (-1, st2, dr)
      else
        dlet (p3, pt') <- ata_read h st2 drv ((SECTOR * lba) mod 2 ^ 32) SECTOR pt in
        let (r3, st3) := p3 in
        if negb (0 <? r3) || negb (le_at pt' 0 8 =? GPT_SIGNATURE) then Val (-1, st3, mkDrive true [])
        else
          dlet (q, parts) <- read_entries (Z.to_nat (Z.min (le_at pt' 80 4) MAX_PARTITIONS)) h st3 drv (le_at pt' 72 8) (le_at pt' 84 4) 0 pa [] in
          let (ok, st4) := q in
          Val (if ok then zlen parts else -1, st4, mkDrive true parts)
    end.

(** src/x86/gpt.c:288-307 [open_part]: [None] is NULL. *)
Definition open_part (dr : drive) (drv part : Z) : out (option gpart) :=
  if (drv <? 0) || (MAX_DRIVES <? drv) then Val None
  else if (part <? 0) || (MAX_PARTITIONS <? part) then Val None
  else if MAX_DRIVES <=? drv then UB
  else if negb (d_open dr) then Val None
  else Val (nth_error (d_parts dr) (Z.to_nat part)).

(** src/x86/gpt.c:326-340, 359-373: the length passed to the driver. *)
Definition disk_len (p : gpart) (off sz : Z) : Z :=
  let avail := (g_end p - (g_start p + off) mod U64) mod U64 in
  if avail <? sz then to_int avail else to_int sz.
(** src/x86/gpt.c:323-341 [disk_read]. *)
Definition disk_read (h : hba) (st : ata) (dr : drive) (drv part off sz : Z) (buf : list Z) : out (Z * ata * list Z) :=
  dlet p <- open_part dr drv part in
  match p with
  | None => Val (-1, st, buf)
  | Some p =>
    let len := disk_len p off sz in
    if len <? 0 then Val (-1, st, buf)
    else ata_read h st drv ((g_start p + off) mod U64) len buf
  end.
(** src/x86/gpt.c:356-374 [disk_write]. *)
Definition disk_write (h : hba) (st : ata) (dr : drive) (drv part off sz : Z) (buf : list Z) : out (Z * ata) :=
  dlet p <- open_part dr drv part in
  match p with
  | None => Val (-1, st)
  | Some p =>
    let len := disk_len p off sz in
    if len <? 0 then Val (-1, st)
    else ata_write h st drv ((g_start p + off) mod U64) len buf
  end.

(** src/x86/gpt.c:133-156 [disk_u16_ascii_eq]: [ascii] without its terminator; a name has 36
    elements, reading past them is undefined.  A [char] above 127 converts to 0xFFxx. *)
Fixpoint name_eq (name : list Z) (i : nat) (ascii : list Z) : out bool :=
  match ascii with
  | [] => if (i <? 36)%nat && negb (nth i name 0 =? 0) then Val false else Val true
  | ch :: r =>
    dlet u <- rd name i in
    if negb (u =? (if 128 <=? ch then 0xFF00 + ch else ch)) then Val false else name_eq name (S i) r
  end.
Definition u16_ascii_eq (name ascii : list Z) : out bool :=
  if 36 <? zlen ascii then Val false
  else dlet u <- rd name 0 in name_eq name (if u =? 0xFEFF then 1 else 0) ascii.
(** src/x86/gpt.c:376-394 [disk_find_partition_by_label]. *)
Fixpoint find_label (ps : list gpart) (i : Z) (label : list Z) : out Z :=
  match ps with
  | [] => Val (-1)
  | p :: r => dlet b <- u16_ascii_eq (g_name p) label in if b then Val i else find_label r (i + 1) label
  end.
Definition find_partition_by_label (dr : drive) (drv : Z) (label : list Z) : out Z :=
  if (drv <? 0) || (MAX_DRIVES <? drv) then Val (-1)
  else if MAX_DRIVES <=? drv then UB
  else if negb (d_open dr) then Val (-1)
  else find_label (d_parts dr) 0 label.
