(** Start of the bootloader and, on PowerPC, the caches when it starts the image.  Sources:
    src/boot_arm.c, src/boot_ppc.c, src/boot_riscv.c, src/boot_arm32.c. *)
From Verif Require Import Base.

(** ** Initial values of the variables *)

(** Memory by bytes; a 32-bit load followed by a store moves four bytes unchanged. *)
Definition bytes_mem := Z -> Z.
Definition copy_word (dst src : Z) (m : bytes_mem) : bytes_mem :=
  fun x => if (dst <=? x) && (x <? dst + 4) then m (src + (x - dst)) else m x.
Definition zero_word (dst : Z) (m : bytes_mem) : bytes_mem :=
  fun x => if (dst <=? x) && (x <? dst + 4) then 0 else m x.

(** src/boot_arm.c:226-233, src/boot_ppc.c:122-130, src/boot_riscv.c:55-62.  Addresses do not wrap
    around. *)
Fixpoint copy_data (fuel : nat) (src dst end_ : Z) (m : bytes_mem) : out bytes_mem :=
  match fuel with
  | O => NoFuel
  | S n => if dst <? end_ then copy_data n (src + 4) (dst + 4) end_ (copy_word dst src m) else Val m
  end.

(** src/boot_arm.c:235-240, src/boot_ppc.c:132-138, src/boot_riscv.c:64-69,
    src/boot_arm32.c:40-45. *)
Fixpoint zero_bss (fuel : nat) (dst end_ : Z) (m : bytes_mem) : out bytes_mem :=
  match fuel with
  | O => NoFuel
  | S n => if dst <? end_ then zero_bss n (dst + 4) end_ (zero_word dst m) else Val m
  end.

(** The symbols of the linker script. *)
Record sections := { stored_data : Z; start_data : Z; end_data : Z; start_bss : Z; end_bss : Z }.

(** src/boot_arm.c:190-246 [isr_reset], src/boot_ppc.c:116-142 [boot_entry_C] and
    src/boot_riscv.c:47-76 [_reset], up to the call of main, without the set-up of the watchdog, the
    stacks and the MPU (C84). *)
Definition reset (fuel : nat) (s : sections) (m : bytes_mem) : out bytes_mem :=
  dlet m <- copy_data fuel (stored_data s) (start_data s) (end_data s) m in
  zero_bss fuel (start_bss s) (end_bss s) m.

(** ** Caches of PowerPC *)

(** src/boot_ppc.c:152-155, 159-162: the addresses of one of the loops, for lines of [line]
    bytes.  [uint32_t] addresses. *)
Fixpoint line_addresses (fuel : nat) (line addr start end_ : Z) : out (list Z) :=
  match fuel with
  | O => NoFuel
  | S n =>
      if (addr <=? end_) && (start <=? addr) then
        dlet l <- line_addresses n line ((addr + line) mod 2 ^ 32) start end_ in Val (addr :: l)
      else Val []
  end.

(** The operations of the processor, in order. *)
Inductive cache_op := Dcbst (a : Z) | Icbi (a : Z).

(** src/boot_ppc.c:145-166 [flush_cache]; [start_addr & ~(CACHE_LINE_SIZE - 1)] rounds down. *)
Definition flush_cache (fuel : nat) (line start_addr size : Z) : out (list cache_op) :=
  let start := start_addr - start_addr mod line in
  let end_ := (start_addr + size - 1) mod 2 ^ 32 in
  dlet l1 <- line_addresses fuel line start start end_ in
  dlet l2 <- line_addresses fuel line start start end_ in
  Val (map Dcbst l1 ++ map Icbi l2).

(** hal/nxp_ppc.h:179-181. *)
Definition L1_CACHE_SZ : Z := 32 * 1024.

(** src/boot_ppc.c:169-210 [do_boot]: what it does to the caches before it enters the image. *)
Definition boot_flush (fuel : nat) (line app_offset : Z) : out (list cache_op) :=
  flush_cache fuel line app_offset L1_CACHE_SZ.
