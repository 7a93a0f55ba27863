(** Specification of disks and partitions. *)
From Verif Require Import Base HeaderModel Flash DiskModel.

(** Every command succeeds. *)
Definition reliable (h : hba) : Prop := forall k, fate h k = CDone.
(** A drive that was found. *)
Definition drive_ok (h : hba) (drv : Z) : Prop := 0 <= drv <= last_drive h /\ last_drive h < MAX_DRIVES.

(** The cache holds what is on the disk. *)
Definition coherent (st : ata) : Prop :=
  length (a_cache st) = 512%nat /\
  (a_cached st = CACHE_INVALID \/ 0 <= a_cached st < 2 ^ 48 /\ a_cache st = rdl (a_disk st) (a_cached st * SECTOR) 512).

(** The bytes [l] stored at [a]. *)
Definition store (d : flash) (a : Z) (l : list Z) : flash := fun x => if inr a (zlen l) x then nth (Z.to_nat (x - a)) l 0 else d x.

(** The bytes [d] at the front of the buffer, the rest as before. *)
Definition put (d buf : list Z) : list Z := d ++ skipn (length d) buf.

(** A partition as left by [disk_open]: whole sectors, not empty. *)
Definition part_ok (p : gpart) : Prop :=
  g_start p mod SECTOR = 0 /\ (g_end p + 1) mod SECTOR = 0 /\ 0 <= g_start p < g_end p /\ g_end p < U64.
(** [p] is partition number [k] of drive [dr]. *)
Definition is_part (dr : drive) (k : Z) (p : gpart) : Prop :=
  d_open dr = true /\ 0 <= k < MAX_PARTITIONS /\ nth_error (d_parts dr) (Z.to_nat k) = Some p.
(** Bytes a request for [sz] bytes at [off] can have. *)
Definition avail (p : gpart) (off sz : Z) : Z := Z.min sz (g_end p - g_start p - off).

(** ** The partition table, read from the bytes of the disk *)

Definition le_disk (d : flash) (a : Z) (n : nat) : Z := le_val (rdl d a n).
(** MBR entry [i] announces a GPT; it is the first one. *)
Definition gpt_entry (d : flash) (i : Z) : Prop :=
  0 <= i < 4 /\ d (0x1BE + 16 * i + 4) = 0xEE /\ forall j, 0 <= j < i -> d (0x1BE + 16 * j + 4) <> 0xEE.
(** The GPT header is at [a]. *)
Definition gpt_header (d : flash) (a : Z) : Prop :=
  exists i, gpt_entry d i /\ a = le_disk d (0x1BE + 16 * i + 8) 4 * SECTOR /\ a < 2 ^ 32 /\
    le_disk d 0x1FE 2 = 0xAA55 /\ le_disk d a 8 = GPT_SIGNATURE.
(** The partitions: entries of 128 bytes from [a] on, up to the first one that is unused or
    ends before it starts. *)
Fixpoint gpt_parts (d : flash) (a : Z) (n : nat) : list gpart :=
  match n with
  | O => []
  | S n' =>
    let first := le_disk d (a + 32) 8 in
    let last := le_disk d (a + 40) 8 in
    if (le_disk d a 8 =? 0) && (le_disk d (a + 8) 8 =? 0) || (last <? first) then []
    else mkPart ((first * SECTOR) mod U64) ((last * SECTOR - 1) mod U64) (u16s 36 (rdl d (a + 56) 72)) :: gpt_parts d (a + 128) n'
  end.

(** The name of a partition is [label] (ASCII): equal, then end of the name or a 0. *)
Definition named (p : gpart) (label : list Z) : Prop :=
  firstn (length label) (g_name p) = label /\ (length label = 36%nat \/ nth (length label) (g_name p) 0 = 0).

(** ** Histories *)

Inductive dop := DRead (k off sz : Z) (buf : list Z) | DWrite (k off : Z) (data : list Z).
(** Reads and writes through the disk API: the results. *)
Fixpoint disk_run (h : hba) (dr : drive) (drv : Z) (ops : list dop) (st : ata) : out (list (Z * list Z)) :=
  match ops with
  | [] => Val []
  | DRead k off sz buf :: r =>
    dlet (q, b) <- disk_read h st dr drv k off sz buf in
    let (n, st') := q in
    dlet l <- disk_run h dr drv r st' in Val ((n, b) :: l)
  | DWrite k off data :: r =>
    dlet (n, st') <- disk_write h st dr drv k off (zlen data) data in
    dlet l <- disk_run h dr drv r st' in Val ((n, []) :: l)
  end.
(** The same on a plain array of bytes [d]. *)
Fixpoint array_run (dr : drive) (ops : list dop) (d : flash) : list (Z * list Z) :=
  match ops with
  | [] => []
  | DRead k off sz buf :: r =>
    match nth_error (d_parts dr) (Z.to_nat k) with
    | Some p => (avail p off sz, put (rdl d (g_start p + off) (Z.to_nat (avail p off sz))) buf) :: array_run dr r d
    | None => []
    end
  | DWrite k off data :: r =>
    match nth_error (d_parts dr) (Z.to_nat k) with
    | Some p =>
      let n := avail p off (zlen data) in
      (n, []) :: array_run dr r (store d (g_start p + off) (firstn (Z.to_nat n) data))
    | None => []
    end
  end.

(** Requests inside a partition, of moderate size. *)
Definition op_ok (dr : drive) (o : dop) : Prop :=
  match o with
  | DRead k off sz buf => exists p, is_part dr k p /\ part_ok p /\ g_end p < 2 ^ 33 /\ 0 <= off <= g_end p - g_start p /\ 0 <= sz < U64 /\
      avail p off sz <= 2 ^ 17 /\ avail p off sz <= zlen buf
  | DWrite k off data => exists p, is_part dr k p /\ part_ok p /\ g_end p < 2 ^ 33 /\ 0 <= off <= g_end p - g_start p /\
      zlen data <= 2 ^ 17
  end.
(** Not a write of whole sectors. *)
Definition partial_write (dr : drive) (o : dop) : Prop :=
  match o with
  | DRead _ _ _ _ => True
  | DWrite k off data => forall p, nth_error (d_parts dr) (Z.to_nat k) = Some p -> off mod SECTOR <> 0 \/ avail p off (zlen data) mod SECTOR <> 0 \/ avail p off (zlen data) = 0
  end.
(** An access to whole sectors. *)
Definition whole_sectors (dr : drive) (o : dop) : Prop :=
  match o with
  | DRead k off sz _ => off mod SECTOR = 0 /\ sz mod SECTOR = 0 /\ forall p, nth_error (d_parts dr) (Z.to_nat k) = Some p -> avail p off sz = sz
  | DWrite k off data => off mod SECTOR = 0 /\ zlen data mod SECTOR = 0 /\ forall p, nth_error (d_parts dr) (Z.to_nat k) = Some p -> avail p off (zlen data) = zlen data
  end.
