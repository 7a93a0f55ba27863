(** A serial NOR flash chip after its data sheet: 16 MB, three address bytes.  A transaction
    is what happens between selecting and deselecting the chip: bytes are sent, and as many
    come back. *)
From Verif Require Import Base Flash.

(** Sizes of a page and of an erase sector: powers of two. *)
Record spicfg := { PAGE : Z; SECTOR : Z }.
Definition spi_ok (c : spicfg) : Prop :=
  exists p s, PAGE c = 2 ^ p /\ SECTOR c = 2 ^ s /\ 0 <= p /\ p <= s <= 24.

(** [wel]: write enable latch.  [busy]: how many more times the chip will report to be
    busy.  [ops] counts programming and erasing. *)
Record chip := mkChip { cells : flash; wel : bool; busy : nat; ops : nat }.

Definition RDSR : Z := 5.
Definition WREN : Z := 6.
Definition WRDI : Z := 4.
Definition SECTOR_ERASE : Z := 32.
Definition CHIP_ERASE : Z := 96.
Definition BYTE_READ : Z := 3.
Definition FAST_READ : Z := 11.
Definition BYTE_WRITE : Z := 2.

Section Chip.
Context (c : spicfg) (lat : nat -> nat).
(** [lat n]: how often the chip reports to be busy after its n-th operation. *)

Definition status (ch : chip) : Z :=
  (if (0 <? busy ch)%nat then 1 else 0) + (if wel ch then 2 else 0).
Definition tick (ch : chip) : chip := mkChip (cells ch) (wel ch) (pred (busy ch)) (ops ch).

(** The status register is sent for as long as the host asks. *)
Fixpoint polls (ch : chip) (tx : list Z) : chip * list Z :=
  match tx with
  | [] => (ch, [])
  | _ :: tx' => let '(ch', r) := polls (tick ch) tx' in (ch', status ch :: r)
  end.

Definition set_wel (ch : chip) (b : bool) : chip := mkChip (cells ch) b (busy ch) (ops ch).
Definition after_op (ch : chip) (f : flash) : chip := mkChip f false (lat (ops ch)) (S (ops ch)).

(** The page buffer: bytes sent to it from offset [off] on wrap around at its end. *)
Fixpoint latch (page off : Z) (d : list Z) (l : Z -> Z) : Z -> Z :=
  match d with
  | [] => l
  | b :: d' => latch page ((off + 1) mod PAGE c) d' (fun x => if x =? page + off then b else l x)
  end.
Definition program (f : flash) (a : Z) (d : list Z) : flash :=
  let page := a - a mod PAGE c in
  fun x => if inr page (PAGE c) x then Z.land (f x) (latch page (a mod PAGE c) d (fun _ => 255) x) else f x.
Definition sector_erase (f : flash) (a : Z) : flash := erase f (a - a mod SECTOR c) (SECTOR c).

Definition answer (ch : chip) (a : Z) (n : nat) : list Z :=
  map (fun i => cells ch ((a + Z.of_nat i) mod 2 ^ 24)) (seq 0 n).

(** One transaction.  A busy chip hears only requests for its status; programming and
    erasing need the write enable latch. *)
Definition xact (ch : chip) (tx : list Z) : chip * list Z :=
  let junk := repeat 0 (length tx) in
  match tx with
  | [] => (ch, [])
  | cmd :: args =>
    if cmd =? RDSR then let '(ch', r) := polls ch args in (ch', 0 :: r)
    else if (0 <? busy ch)%nat then (ch, junk)
    else if cmd =? WREN then (set_wel ch true, junk)
    else if cmd =? WRDI then (set_wel ch false, junk)
    else if cmd =? CHIP_ERASE then (if wel ch then after_op ch (erase (cells ch) 0 (2 ^ 24)) else ch, junk)
    else
      match args with
      | a2 :: a1 :: a0 :: data =>
        let a := a2 * 65536 + a1 * 256 + a0 in
        if cmd =? SECTOR_ERASE then
          (if wel ch && (length data =? 0)%nat then after_op ch (sector_erase (cells ch) a) else ch, junk)
        else if cmd =? BYTE_WRITE then
          (if wel ch && negb (length data =? 0)%nat then after_op ch (program (cells ch) a data) else ch, junk)
        else if cmd =? BYTE_READ then (ch, [0; 0; 0; 0] ++ answer ch a (length data))
        else if cmd =? FAST_READ then (ch, [0; 0; 0; 0; 0] ++ answer ch a (length data - 1))
        else (ch, junk)
      | _ => (ch, junk)
      end
  end.
End Chip.

(** ** What the drivers are for *)

(** The first multiple of the page size from [e] on, and how many sectors hold [len] bytes. *)
Definition page_end (c : spicfg) (e : Z) : Z := e + (- e) mod PAGE c.
Definition sectors (c : spicfg) (len : Z) : Z := (len + SECTOR c - 1) / SECTOR c.

(** Byte [i] of the memory from [buf\[j\]] on. *)
Definition get_at (buf : list Z) (j : nat) (i : Z) : Z := nth (j + Z.to_nat i) buf 0.

(** A cell can take a byte: programming clears bits only. *)
Definition takes (f : flash) (a : Z) (b : Z) : Prop := Z.land (f a) b = b.
