(** Model of src/pci.c: configuration space access and enumeration.  Debug output is left
    out.  [pci_pre_enum_cb] is the variant without WOLFBOOT_TGL (src/pci.c:402-420), which
    skips nothing. *)
From Verif Require Import Base PciSpec.

(** Unsigned 32-bit and 8-bit truncation. *)
Definition u32 (x : Z) : Z := x mod 2 ^ 32.
Definition u8 (x : Z) : Z := x mod 256.
Definition not32 (x : Z) : Z := 2 ^ 32 - 1 - u32 x.

(** src/pci.c:94-100 *)
Definition align_up (address alignment : Z) : Z := Z.land (u32 (address + alignment - 1)) (not32 (alignment - 1)).
Definition align_down (address alignment : Z) : Z := Z.land address (not32 (alignment - 1)).

(** src/pci.c:102-111; [None] for -1. *)
Definition pci_align_check_up (address alignment limit : Z) : option Z :=
  let a := align_up address alignment in
  if (a <? address) || (a >=? limit) then None else Some a.

(** The two ways to reach the configuration space: memory-mapped at a base address
    (PCI_USE_ECAM), or through the ports 0xcf8 and 0xcfc; there, the host bridge ignores bits
    24..30 of the address or, [Ports true], uses bits 24..27 as high bits of the register. *)
Inductive mech := Ecam (base : Z) | Ports (extended : bool).

(** The ECAM range lies below 4 GB and is aligned to its 256 MB. *)
Definition mech_ok (mc : mech) : Prop :=
  match mc with
  | Ecam base => 0 <= base /\ base mod 2 ^ 28 = 0 /\ base + 2 ^ 28 <= 2 ^ 32
  | Ports ext => ext = false
  end.

Section Access.
Context (m : machine) (mc : mech).

(** src/pci.c:139-147: [+] binds tighter than [|]. *)
Definition ecam_address (base bus dev func off : Z) : Z :=
  u32 (Z.lor (Z.lor (Z.lor (base + Z.shiftl (Z.land bus 255) 20)
    (Z.shiftl (Z.land dev 31) 15)) (Z.shiftl (Z.land func 7) 12)) (Z.land off 4095)).

(** Hardware: what a memory address in the ECAM range selects. *)
Definition ecam_bus (base a : Z) : Z := (a - base) / 2 ^ 20.
Definition ecam_dev (base a : Z) : Z := (a - base) / 2 ^ 15 mod 32.
Definition ecam_fun (base a : Z) : Z := (a - base) / 2 ^ 12 mod 8.
Definition ecam_reg (base a : Z) : Z := (a - base) mod 4096 / 4.

(** mmio_read32, mmio_write32 (src/x86/common.c:66-88) on that range; an unaligned access is
    split by the processor into the bytes of two registers. *)
Definition ecam_read (st : regs) (base a : Z) : Z :=
  let rdr r := reg_read m st (ecam_bus base a) (ecam_dev base a) (ecam_fun base a) r in
  let k := 8 * (a mod 4) in
  if k =? 0 then rdr (ecam_reg base a)
  else u32 (Z.lor (Z.shiftr (rdr (ecam_reg base a)) k) (Z.shiftl (rdr (ecam_reg base a + 1)) (32 - k))).
Definition ecam_write (st : regs) (base a v : Z) : regs :=
  let wr st r lanes v := reg_write m st (ecam_bus base a) (ecam_dev base a) (ecam_fun base a) r lanes v in
  let k := 8 * (a mod 4) in
  if k =? 0 then wr st (ecam_reg base a) (2 ^ 32 - 1) v
  else wr (wr st (ecam_reg base a) (2 ^ 32 - 2 ^ k) (u32 (Z.shiftl v k)))
          (ecam_reg base a + 1) (2 ^ k - 1) (Z.shiftr v (32 - k)).

(** src/pci.c:206-213, PCI_IO_CONFIG_ADDR *)
Definition io_address (bus dev fn off : Z) : Z :=
  u32 (Z.lor (Z.lor (Z.lor (Z.lor (Z.lor (2 ^ 31) (Z.shiftl bus 16)) (Z.shiftl dev 11)) (Z.shiftl fn 8))
    (Z.shiftl (Z.land off 3840) 16)) (Z.land off 255)).

(** Hardware: what the address port selects; the two low bits are ignored. *)
Definition port_reg (ext : bool) (a : Z) : Z := field a 2 6 + (if ext then 64 * field a 24 4 else 0).
Definition port_read (st : regs) (ext : bool) (a : Z) : Z :=
  if Z.testbit a 31 then reg_read m st (field a 16 8) (field a 11 5) (field a 8 3) (port_reg ext a) else 2 ^ 32 - 1.
Definition port_write (st : regs) (ext : bool) (a v : Z) : regs :=
  if Z.testbit a 31 then reg_write m st (field a 16 8) (field a 11 5) (field a 8 3) (port_reg ext a) (2 ^ 32 - 1) v else st.

(** src/pci.c:215-233 *)
Definition io_read32 (st : regs) (ext : bool) (bus dev func off : Z) : Z := port_read st ext (io_address bus dev func off).
Definition io_write32 (st : regs) (ext : bool) (bus dev func off v : Z) : regs := port_write st ext (io_address bus dev func off) v.

(** src/pci.c:271-289; [off] is a uint8_t. *)
Definition pci_config_read32 (st : regs) (bus dev fun_ off : Z) : Z :=
  match mc with
  | Ecam base => ecam_read st base (ecam_address base bus dev fun_ (u8 off))
  | Ports ext => io_read32 st ext bus dev fun_ (u8 off)
  end.
Definition pci_config_write32 (st : regs) (bus dev fun_ off v : Z) : regs :=
  match mc with
  | Ecam base => ecam_write st base (ecam_address base bus dev fun_ (u8 off)) v
  | Ports ext => io_write32 st ext bus dev fun_ (u8 off) v
  end.

(** src/pci.c:161-176, 235-252: the port variant hands the composed address, not the offset,
    to [pci_io_config_read32]. *)
Definition pci_config_read16 (st : regs) (bus dev fun_ off : Z) : Z :=
  match mc with
  | Ecam base =>
      let a := ecam_address base bus dev fun_ (u8 off) in
      let data := ecam_read st base (Z.land a (not32 3)) in
      if Z.land a 3 =? 0 then Z.land data 65535 else Z.shiftr data 16
  | Ports ext =>
      let a := io_address bus dev fun_ (u8 off) in
      if negb (Z.land a 1 =? 0) then 65535 else
      let data := io_read32 st ext bus dev fun_ (Z.land a (not32 3)) in
      if Z.land a 3 =? 0 then Z.land data 65535 else Z.shiftr data 16
  end.

(** src/pci.c:178-194, 254-267 *)
Definition pci_config_write16 (st : regs) (bus dev fun_ off value : Z) : regs :=
  match mc with
  | Ecam base =>
      let a := ecam_address base bus dev fun_ (u8 off) in
      let a4 := Z.land a (not32 3) in
      let reg := ecam_read st base a4 in
      ecam_write st base a4
        (if Z.land a 3 =? 0 then Z.lor (Z.land reg 4294901760) value
         else Z.lor (Z.land reg 65535) (u32 (Z.shiftl value 16)))
  | Ports ext =>
      let a := io_address bus dev fun_ (u8 off) in
      if negb (Z.land a 1 =? 0) then st else
      let a4 := Z.land a (not32 3) in
      let reg := io_read32 st ext bus dev fun_ a4 in
      io_write32 st ext bus dev fun_ a4
        (if Z.land a 3 =? 0 then Z.lor (Z.land reg 4294901760) value
         else Z.lor (Z.land reg 65535) (u32 (Z.shiftl value 16)))
  end.

(** src/pci.c:311-323 *)
Definition pci_config_write8 (st : regs) (bus dev fun_ off value : Z) : regs :=
  let off_aligned := align_down off 4 in
  let reg := pci_config_read32 st bus dev fun_ off_aligned in
  let shift := Z.land off 3 * 8 in
  let mask := u32 (Z.shiftl 255 shift) in
  pci_config_write32 st bus dev fun_ off_aligned
    (Z.lor (Z.land reg (not32 mask)) (u32 (Z.shiftl value shift))).

(** src/pci.c:325-338 *)
Definition pci_config_read8 (st : regs) (bus dev fun_ off : Z) : Z :=
  let off_aligned := align_down off 4 in
  let reg := pci_config_read32 st bus dev fun_ off_aligned in
  let shift := Z.land off 3 * 8 in
  let mask := u32 (Z.shiftl 255 shift) in
  Z.shiftr (Z.land reg mask) shift.

(** src/pci.c:369-383 *)
Definition pci_enum_is_64bit (v : Z) : bool := Z.shiftr (Z.land v 6) 1 =? 2.
Definition pci_enum_is_prefetch (v : Z) : bool := negb (Z.land v 8 =? 0).
Definition pci_enum_is_mmio (v : Z) : bool := Z.land v 1 =? 0.

(** src/pci.c:340-367 *)
Definition pci_get_mmio_addr (st : regs) (bus dev fun_ bar : Z) : Z :=
  if bar >=? 6 then 0 else
  let reg := pci_config_read32 st bus dev fun_ (16 + bar * 8) in
  if negb (pci_enum_is_mmio reg) then 0 else
  let addr := Z.land reg 4294967280 in
  if pci_enum_is_64bit reg
  then Z.lor addr (Z.shiftl (pci_config_read32 st bus dev fun_ (20 + bar * 8)) 32)
  else addr.

(** src/pci.c:385-400; uintptr_t has 64 bits, [align] 32, so [~align] clears the upper half. *)
Definition pci_enum_next_aligned32 (address align limit : Z) : option Z :=
  let al := u32 (align - 1) in
  let addr := Z.land (address + al) (not32 al) in
  if (addr >? 4294967295) || (addr <? address) || (addr >=? limit) then None else Some addr.

(** struct pci_enum_info, include/pci.h:107-114 *)
Record info := { mem : Z; mem_limit : Z; io : Z; mem_pf : Z; mem_pf_limit : Z; curr_bus : Z }.

Definition cursor (i : info) (k : space) : Z := match k with MemS => mem i | PfS => mem_pf i | IoS => io i end.
Definition limit (i : info) (k : space) : Z := match k with MemS => mem_limit i | PfS => mem_pf_limit i | IoS => 4294967295 end.
Definition set_cursor (i : info) (k : space) (v : Z) : info :=
  match k with
  | MemS => {| mem := v; mem_limit := mem_limit i; io := io i; mem_pf := mem_pf i; mem_pf_limit := mem_pf_limit i; curr_bus := curr_bus i |}
  | PfS => {| mem := mem i; mem_limit := mem_limit i; io := io i; mem_pf := v; mem_pf_limit := mem_pf_limit i; curr_bus := curr_bus i |}
  | IoS => {| mem := mem i; mem_limit := mem_limit i; io := v; mem_pf := mem_pf i; mem_pf_limit := mem_pf_limit i; curr_bus := curr_bus i |}
  end.
Definition set_bus (i : info) (v : Z) : info :=
  {| mem := mem i; mem_limit := mem_limit i; io := io i; mem_pf := mem_pf i; mem_pf_limit := mem_pf_limit i; curr_bus := v |}.

(** src/pci.c:430-528.  Result: registers, info, [*is_64bit], and whether 0 is returned.
    The label restore_bar writes to the register at [bar_idx]. *)
Definition pci_program_bar (st : regs) (i : info) (bus dev fun_ bar_idx : Z) : regs * info * bool * bool :=
  let bar_off := 16 + bar_idx * 4 in
  let orig_bar := pci_config_read32 st bus dev fun_ bar_off in
  let st := pci_config_write32 st bus dev fun_ bar_off 4294967295 in
  let bar_value := pci_config_read32 st bus dev fun_ bar_off in
  if bar_value =? 0 then (pci_config_write32 st bus dev fun_ bar_idx orig_bar, i, false, true) else
  let place st k is64 bar_align :=
    let length := u32 (not32 bar_align + 1) in
    let align := if length <? 4096 then 4096 else length in
    match pci_enum_next_aligned32 (cursor i k) align (limit i k) with
    | None => (pci_config_write32 st bus dev fun_ bar_idx orig_bar, i, is64, false)
    | Some v =>
        let st := pci_config_write32 st bus dev fun_ bar_off v in
        let st := if is64 : bool then pci_config_write32 st bus dev fun_ (bar_off + 4) 0 else st in
        (st, set_cursor i k (u32 (v + length)), is64, true)
    end in
  if pci_enum_is_mmio bar_value then
    let bar_align := Z.land bar_value 4294967280 in
    let k := if pci_enum_is_prefetch bar_value then PfS else MemS in
    if pci_enum_is_64bit bar_value then
      let orig_bar2 := pci_config_read32 st bus dev fun_ (bar_off + 4) in
      let st := pci_config_write32 st bus dev fun_ (bar_off + 4) 4294967295 in
      if negb (pci_config_read32 st bus dev fun_ (bar_off + 4) =? 4294967295)
      then (pci_config_write32 (pci_config_write32 st bus dev fun_ (bar_off + 4) orig_bar2) bus dev fun_ bar_idx orig_bar,
            i, false, true)
      else place st k true bar_align
    else place st k false bar_align
  else
    let bar_align := Z.land bar_value 4294967292 in
    let bar_align := if Z.land bar_align 4294901760 =? 0 then Z.lor bar_align 4294901760 else bar_align in
    place st IoS false bar_align.

(** src/pci.c:556-567: the loop of [pci_program_bars] from [_bar_idx] on; [n] bounds it. *)
Fixpoint bars_loop (n : nat) (st : regs) (i : info) (bus dev fun_ bar_idx : Z) : regs * info :=
  match n with
  | O => (st, i)
  | S n =>
      if negb (bar_idx <? 6) then (st, i) else
      let '(st, i, is64, ok) := pci_program_bar st i bus dev fun_ bar_idx in
      if negb ok then (st, i) else
      bars_loop n st i bus dev fun_ (bar_idx + (if is64 : bool then 2 else 1))
  end.

(** src/pci.c:545-572 *)
Definition pci_program_bars (st : regs) (i : info) (bus dev fun_ : Z) : regs * info :=
  let orig_cmd := pci_config_read16 st bus dev fun_ 4 in
  let st := pci_config_write16 st bus dev fun_ 4 0 in
  let '(st, i) := bars_loop 6 st i bus dev fun_ 0 in
  (pci_config_write16 st bus dev fun_ 4 orig_cmd, i).

(** src/pci.c:663-720: one window after the bus behind the bridge was enumerated.  [w] writes
    base and limit, [off] disables the window, [bit] is the command bit.  [None]: goto err. *)
Definition close_window (start align : Z) (k : space) (w : regs -> Z -> Z -> regs) (off : regs -> regs) (bit : Z)
  (st : regs) (i : info) (cmd : Z) : option (regs * info * Z) :=
  if negb (start =? cursor i k) then
    match pci_align_check_up (cursor i k) align (limit i k) with
    | None => None
    | Some e => Some (w st start (u32 (e - 1)), set_cursor i k e, Z.lor cmd bit)
    end
  else Some (off st, i, cmd).

(** src/pci.c:612-732, pci_program_bridge; [enum] is [pci_enum_bus].  [info] is changed even
    if the bridge fails.  On error the caller ignores the result. *)
Definition pci_program_bridge (enum : regs -> info -> Z -> out (regs * info))
  (st : regs) (i : info) (bus dev fun_ : Z) : out (regs * info) :=
  let cmd := pci_config_read16 st bus dev fun_ 4 in
  let st := pci_config_write16 st bus dev fun_ 4 0 in
  let i := set_bus i (u8 (curr_bus i + 1)) in
  let st := pci_config_write8 st bus dev fun_ 24 bus in
  let st := pci_config_write8 st bus dev fun_ 25 (curr_bus i) in
  let st := pci_config_write8 st bus dev fun_ 26 255 in
  let err st i cmd := Val (pci_config_write16 st bus dev fun_ 4 cmd, i) in
  match pci_align_check_up (mem_pf i) 1048576 (mem_pf_limit i) with
  | None => err st i cmd
  | Some pf_start =>
  let i := set_cursor i PfS pf_start in
  match pci_align_check_up (mem i) 1048576 (mem_limit i) with
  | None => err st i cmd
  | Some mem_start =>
  let i := set_cursor i MemS mem_start in
  match pci_align_check_up (io i) 4096 4294967295 with
  | None => err st i cmd
  | Some io_start =>
  let i := set_cursor i IoS io_start in
  dlet (st, i) <- enum st i (curr_bus i) in
  let st := pci_config_write8 st bus dev fun_ 26 (curr_bus i) in
  let w16 o st a b := pci_config_write16 (pci_config_write16 st bus dev fun_ o (Z.shiftr a 16)) bus dev fun_ (o + 2) (Z.shiftr b 16) in
  let off16 o st := pci_config_write16 (pci_config_write16 st bus dev fun_ o 65535) bus dev fun_ (o + 2) 0 in
  let w8 st a b := pci_config_write8 (pci_config_write8 st bus dev fun_ 48 (u8 (Z.shiftr a 8))) bus dev fun_ 50 (u8 (Z.shiftr b 8)) in
  let off8 st := pci_config_write8 (pci_config_write8 st bus dev fun_ 48 255) bus dev fun_ 50 0 in
  match close_window pf_start 1048576 PfS (w16 36) (off16 36) 2 st i cmd with
  | None => err st i cmd
  | Some (st, i, cmd) =>
  match close_window mem_start 1048576 MemS (w16 32) (off16 32) 2 st i cmd with
  | None => err st i cmd
  | Some (st, i, cmd) =>
  match close_window io_start 4096 IoS w8 off8 1 st i cmd with
  | None => err st i cmd
  | Some (st, i, cmd) => err st i (Z.lor cmd 4)
  end end end end end end.

(** src/pci.c:753-784: the loop over functions from [fun_] on, [n] of them left. *)
Fixpoint fun_loop (enum : regs -> info -> Z -> out (regs * info)) (n : nat)
  (st : regs) (i : info) (bus dev fun_ : Z) : out (regs * info) :=
  match n with
  | O => Val (st, i)
  | S n =>
      if pci_config_read32 st bus dev fun_ 0 =? 4294967295 then fun_loop enum n st i bus dev (fun_ + 1) else
      let header_type := pci_config_read16 st bus dev fun_ 14 in
      dlet (st, i) <- (if Z.land header_type 127 =? 0 then Val (pci_program_bars st i bus dev fun_)
                       else pci_program_bridge enum st i bus dev fun_) in
      if (fun_ =? 0) && (Z.land header_type 128 =? 0) then Val (st, i)
      else fun_loop enum n st i bus dev (fun_ + 1)
  end.

(** src/pci.c:744-785: the loop over devices. *)
Fixpoint dev_loop (enum : regs -> info -> Z -> out (regs * info)) (n : nat)
  (st : regs) (i : info) (bus dev : Z) : out (regs * info) :=
  match n with
  | O => Val (st, i)
  | S n =>
      if pci_config_read32 st bus dev 0 0 =? 4294967295 then dev_loop enum n st i bus (dev + 1) else
      dlet (st, i) <- fun_loop enum 8 st i bus dev 0 in
      dev_loop enum n st i bus (dev + 1)
  end.

(** src/pci.c:734-789; [depth] bounds the recursion through bridges.  Always returns 0. *)
Fixpoint pci_enum_bus (depth : nat) (st : regs) (i : info) (bus : Z) : out (regs * info) :=
  match depth with
  | O => NoFuel
  | S d => dev_loop (pci_enum_bus d) 32 st i bus 0
  end.

(** src/pci.c:791-809 *)
Definition pci_pre_enum (st : regs) : regs :=
  let st := pci_config_write32 st 0 0 0 228 (Z.land (pci_config_read32 st 0 0 0 228) (not32 32768)) in
  pci_config_write32 st 0 0 0 84 (Z.lor (pci_config_read32 st 0 0 0 84) 128).

(** src/pci.c:893-912, with the windows as parameters. *)
Definition pci_enum_do (depth : nat) (st : regs) (mmio_base mmio_length pf_base pf_length io_base : Z) : out (regs * info) :=
  pci_enum_bus depth (pci_pre_enum st)
    {| mem := u32 mmio_base; mem_limit := u32 (mmio_base + (mmio_length - 1)); io := io_base;
       mem_pf := u32 pf_base; mem_pf_limit := u32 (pf_base + (pf_length - 1)); curr_bus := 0 |} 0.

End Access.
