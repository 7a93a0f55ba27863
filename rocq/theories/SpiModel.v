(** The drivers of serial flash chips.  Sources: src/spi_flash.c, src/qspi_flash.c (three
    address bytes, QSPI_DATA_MODE_SPI) and include/hal.h:92-106.  What the code sends and
    receives between spi_cs_on and spi_cs_off is one transaction of SpiSpec.  Loops that
    wait for the chip get [fuel]. *)
From Verif Require Import Base Flash SpiSpec.

Definition u32 (x : Z) : Z := x mod 2 ^ 32.

Section Driver.
Context (c : spicfg) (lat : nat -> nat) (fuel : nat).

(** src/spi_flash.c:63-71 [write_address]. *)
Definition write_address (a : Z) : list Z :=
  [Z.shiftr (Z.land a 0xFF0000) 16; Z.shiftr (Z.land a 0xFF00) 8; Z.land a 0xFF].

(** src/spi_flash.c:73-83 [read_status]. *)
Definition read_status (ch : chip) : chip * Z :=
  let '(ch', r) := xact c lat ch [RDSR; 255] in (ch', nth 1 r 0).

(** src/spi_flash.c:85-91 [spi_cmd]. *)
Definition spi_cmd (ch : chip) (cmd : Z) : chip := fst (xact c lat ch [cmd]).

(** src/spi_flash.c:107-113 [wait_busy]. *)
Fixpoint wait_busy_n (n : nat) (ch : chip) : out chip :=
  match n with
  | O => NoFuel
  | S n' =>
    let '(ch1, st) := read_status ch in
    if Z.testbit st 0 then wait_busy_n n' ch1 else Val ch1
  end.
Definition wait_busy : chip -> out chip := wait_busy_n fuel.

(** src/spi_flash.c:93-100 [flash_write_enable]. *)
Fixpoint flash_write_enable_n (n : nat) (ch : chip) : out chip :=
  match n with
  | O => NoFuel
  | S n' =>
    let '(ch1, st) := read_status (spi_cmd ch WREN) in
    if Z.testbit st 1 then Val ch1 else flash_write_enable_n n' ch1
  end.
Definition flash_write_enable : chip -> out chip := flash_write_enable_n fuel.

(** src/spi_flash.c:129-135: the bytes of one page, from [buf\[j\]] on; the address and how
    many bytes were sent.  The loop looks at the address only. *)
Fixpoint page_bytes (n : nat) (buf : list Z) (address : Z) (j : nat) : out (list Z * Z) :=
  match n with
  | O => NoFuel
  | S n' =>
    dlet b <- rd buf j in
    let address1 := u32 (address + 1) in
    if Z.land address1 (PAGE c - 1) =? 0 then Val ([b], address1)
    else
      dlet (l, address2) <- page_bytes n' buf address1 (S j) in
      Val (b :: l, address2)
  end.

(** src/spi_flash.c:115-140 [spi_flash_write_page]. *)
Fixpoint write_page_loop (n : nat) (buf : list Z) (address : Z) (j : nat) (len : Z) (ch : chip) : out chip :=
  if 0 <? len then
    match n with
    | O => NoFuel
    | S n' =>
      dlet ch1 <- wait_busy ch in
      dlet ch2 <- flash_write_enable ch1 in
      dlet ch3 <- wait_busy ch2 in
      dlet (l, address1) <- page_bytes (Z.to_nat (PAGE c)) buf address j in
      let ch4 := fst (xact c lat ch3 (BYTE_WRITE :: write_address address ++ l)) in
      write_page_loop n' buf address1 (j + length l) (len - zlen l) ch4
    end
  else Val ch.
Definition spi_flash_write_page (address : Z) (buf : list Z) (len : Z) (ch : chip) : out (chip * Z) :=
  if len <? 1 then Val (ch, -1)
  else
    dlet ch1 <- write_page_loop (Z.to_nat len) buf address 0 len ch in
    dlet ch2 <- wait_busy ch1 in
    Val (ch2, 0).

(** src/spi_flash.c:252-269 [spi_flash_read]: the bytes and the return value. *)
Definition spi_flash_read (address len : Z) (ch : chip) : out (chip * (list Z * Z)) :=
  dlet ch1 <- wait_busy ch in
  let n := Z.to_nat len in
  let '(ch2, r) := xact c lat ch1 (BYTE_READ :: write_address address ++ repeat 255 n) in
  Val (ch2, (skipn 4 r, Z.of_nat n)).

(** src/spi_flash.c:142-174 [spi_flash_write_sb]. *)
Fixpoint write_sb_loop (n : nat) (buf : list Z) (address : Z) (j : nat) (len : Z) (ch : chip) : out (chip * Z) :=
  if 0 <? len then
    match n with
    | O => NoFuel
    | S n' =>
      dlet b <- rd buf j in
      dlet ch1 <- flash_write_enable ch in
      let ch2 := fst (xact c lat ch1 (BYTE_WRITE :: write_address address ++ [b])) in
      dlet ch3 <- wait_busy ch2 in
      dlet (ch4, (r, _)) <- spi_flash_read address 1 ch3 in
      let verify := nth 0 r 0 in
      if Z.land verify (Z.lnot b) =? 0 then
        if negb (verify =? b) then Val (ch4, -1)
        else dlet ch5 <- wait_busy ch4 in write_sb_loop n' buf (u32 (address + 1)) (S j) (len - 1) ch5
      else dlet ch5 <- wait_busy ch4 in write_sb_loop n' buf address j len ch5
    end
  else Val (ch, 0).
Definition spi_flash_write_sb (address : Z) (buf : list Z) (len : Z) (ch : chip) : out (chip * Z) :=
  dlet ch1 <- wait_busy ch in
  if len <? 1 then Val (ch1, -1) else write_sb_loop (Z.to_nat len) buf address 0 len ch1.

(** src/spi_flash.c:271-278 [spi_flash_write]; [sst] is chip_write_mode. *)
Definition spi_flash_write (sst : bool) (address : Z) (buf : list Z) (len : Z) (ch : chip) : out (chip * Z) :=
  if sst then spi_flash_write_sb address buf len ch else spi_flash_write_page address buf len ch.

(** src/spi_flash.c:222-236 [spi_flash_sector_erase]. *)
Definition spi_flash_sector_erase (address : Z) (ch : chip) : out (chip * Z) :=
  let address := Z.land address (Z.lnot (SECTOR c - 1)) in
  dlet ch1 <- wait_busy ch in
  dlet ch2 <- flash_write_enable ch1 in
  let ch3 := fst (xact c lat ch2 (SECTOR_ERASE :: write_address address)) in
  dlet ch4 <- wait_busy ch3 in
  Val (ch4, 0).

(** include/hal.h:94-106 [ext_flash_erase] over [erase1], with [k] iterations of fuel. *)
Fixpoint erase_loop (k : nat) (erase1 : Z -> chip -> out (chip * Z)) (p stop : Z) (ret : Z) (ch : chip) : out (chip * Z) :=
  if p <=? stop then
    match k with
    | O => NoFuel
    | S k' =>
      dlet (ch1, r) <- erase1 p ch in
      if negb (r =? 0) then Val (ch1, r) else erase_loop k' erase1 (u32 (p + SECTOR c)) stop r ch1
    end
  else Val (ch, ret).
Definition ext_flash_erase (k : nat) (erase1 : Z -> chip -> out (chip * Z)) (address len : Z) (ch : chip) : out (chip * Z) :=
  erase_loop k erase1 (u32 address) (u32 (address + len - 1)) 0 ch.

(** ** src/qspi_flash.c *)

(** QSPI_FLASH_READY_TRIES. *)
Context (tries : nat).

(** src/qspi_flash.c:129-141, qspi_command_simple and the hardware's qspi_transfer:
    command, address, [dummy] bytes, then data out of or into a buffer.  Simplification:
    the transfer itself never fails. *)
Definition transfer_out (cmd : Z) (addr : list Z) (data : list Z) (ch : chip) : chip :=
  fst (xact c lat ch (cmd :: addr ++ data)).
Definition transfer_in (cmd : Z) (addr : list Z) (dummy n : nat) (ch : chip) : chip * list Z :=
  let '(ch', r) := xact c lat ch (cmd :: addr ++ repeat 0 dummy ++ repeat 0 n) in
  (ch', skipn (1 + length addr + dummy) r).

(** src/qspi_flash.c:216-238 [qspi_status]. *)
Definition qspi_status (ch : chip) : chip * Z :=
  let '(ch', r) := transfer_in RDSR [] 0 1 ch in (ch', nth 0 r 0).

(** The loops at 184-191 and 246-251: true when the condition was met before the last try. *)
Fixpoint q_poll (n : nat) (want : Z -> bool) (ch : chip) : chip * bool :=
  match n with
  | O => (ch, false)
  | S n' => let '(ch1, st) := qspi_status ch in if want st then (ch1, true) else q_poll n' want ch1
  end.

(** src/qspi_flash.c:169-206 [qspi_write_enable]; true for 0. *)
Definition qspi_write_enable (ch : chip) : chip * bool :=
  q_poll (pred tries) (fun st => Z.testbit st 1 && negb (Z.testbit st 0)) (transfer_out WREN [] [] ch).

(** src/qspi_flash.c:240-258 [qspi_wait_ready]. *)
Definition qspi_wait_ready (ch : chip) : chip * bool :=
  q_poll (pred tries) (fun st => negb (Z.testbit st 0)) ch.

(** src/qspi_flash.c:354-379 [spi_flash_sector_erase]. *)
Definition qspi_sector_erase (address : Z) (ch : chip) : out (chip * Z) :=
  let '(ch1, ok) := qspi_write_enable ch in
  if negb ok then Val (ch1, -1)
  else
    let ch2 := transfer_out SECTOR_ERASE (write_address address) [] ch1 in
    let '(ch3, ok2) := qspi_wait_ready ch2 in
    Val (ch3, if ok2 then 0 else -1).

(** src/qspi_flash.c:381-417 [spi_flash_read] with FAST_READ; FLASH_DEVICE_SIZE is 16 MB. *)
Definition qspi_read (address len : Z) (ch : chip) : chip * (list Z * Z) :=
  if address >? 2 ^ 24 then (ch, ([], -1))
  else
    let '(ch', r) := transfer_in FAST_READ (write_address address) 1 (Z.to_nat len) ch in (ch', (r, len)).

(** src/qspi_flash.c:419-466 [spi_flash_write]: the loop over pages. *)
Fixpoint qspi_write_loop (k : nat) (buf : list Z) (address len page : Z) (ret : Z) (ch : chip) : out (chip * Z) :=
  match k with
  | O => Val (ch, ret)
  | S k' =>
    let '(ch1, ok) := qspi_write_enable ch in
    if negb ok then qspi_write_loop k' buf address len (page + 1) (-1) ch1
    else
      let xferSz := if u32 len >? PAGE c then PAGE c else u32 len in
      let addr := u32 (address + page * PAGE c) in
      let o := Z.to_nat (page * PAGE c) in
      if (length buf <? o + Z.to_nat xferSz)%nat then UB
      else
        let ch2 := transfer_out BYTE_WRITE (write_address addr) (sub buf o (Z.to_nat xferSz)) ch1 in
        let '(ch3, ok2) := qspi_wait_ready ch2 in
        if negb ok2 then Val (ch3, -1) else qspi_write_loop k' buf address len (page + 1) 0 ch3
  end.
Definition qspi_write (address : Z) (buf : list Z) (len : Z) (ch : chip) : out (chip * Z) :=
  qspi_write_loop (Z.to_nat (u32 (Z.quot (len + (PAGE c - 1)) (PAGE c)))) buf address len 0 0 ch.
End Driver.
