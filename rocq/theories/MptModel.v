(** The MultiProcessor table for the operating system.  Sources: src/x86/mptable.c,
    include/x86/mptable.h. *)
From Verif Require Import Base.

(** Little-endian bytes of a field. *)
Fixpoint field (n : nat) (v : Z) : list Z :=
  match n with O => [] | S k => v mod 256 :: field k (v / 256) end.

(** include/x86/mptable.h:78-120: the entries; all are packed. *)
Definition cpu_bytes (id ver flags sign : Z) : list Z :=
  [0; id mod 256; ver mod 256; flags] ++ field 4 sign ++ field 4 0 ++ field 4 0 ++ field 4 0.
Definition bus_bytes (id : Z) (name : list Z) : list Z := [1; id] ++ name.
Definition ioapic_bytes (id : Z) : list Z := [2; id; 0x20; 1] ++ field 4 0xfec00000.
Definition int_bytes (flag bus irq apic pin : Z) : list Z := [3; 0] ++ field 2 flag ++ [bus; irq; apic; pin].
Definition lint_bytes (type bus irq apic pin : Z) : list Z := [4; type] ++ field 2 0 ++ [bus; irq; apic; pin].

(** "PCI" and "ISA" in a field of six bytes. *)
Definition PCI : list Z := [80; 67; 73; 0; 0; 0].
Definition ISA : list Z := [73; 83; 65; 0; 0; 0].

(** include/x86/mptable.h:143. *)
Definition MPTABLE_LOAD_BASE : Z := 0x100.

(** include/x86/mptable.h:28-39; [checksum] is the byte at offset 10. *)
Definition float_bytes (spec_rev checksum : Z) : list Z :=
  [95; 77; 80; 95] ++ field 4 (MPTABLE_LOAD_BASE + 16) ++ [1; spec_rev; checksum; 0; 128; 0; 0; 0].

(** include/x86/mptable.h:44-56; the checksum is the byte at offset 7. *)
Definition header_bytes (len checksum : Z) (oem product : list Z) : list Z :=
  [80; 67; 77; 80] ++ field 2 len ++ [1; checksum] ++ oem ++ product ++ field 4 0 ++ field 2 0 ++ field 2 0 ++
  field 4 0xfee00000 ++ field 4 0.

(** A target: the constants of its table and its numbers of processors. *)
Record target := { t_rev : Z; t_oem : list Z; t_product : list Z; t_cpus : nat; t_rest : list (list Z) }.

(** src/x86/mptable.c:30-244, include/x86/mptable.h:153-159. *)
Definition kontron : target :=
  {| t_rev := 4; t_oem := repeat 0 8; t_product := repeat 0 12; t_cpus := 4;
     t_rest := [bus_bytes 0 PCI; bus_bytes 1 ISA; ioapic_bytes 2;
       int_bytes 0 1 0 2 2; int_bytes 0xd 1 9 2 9; int_bytes 0 1 1 2 1; int_bytes 0 1 3 2 3;
       int_bytes 0 1 4 2 4; int_bytes 0 1 5 2 5; int_bytes 0 1 6 2 6; int_bytes 0 1 7 2 7;
       int_bytes 0 1 8 2 8; int_bytes 0 1 9 2 9; int_bytes 0 1 0xa 2 0xa; int_bytes 0 1 0xb 2 0xb;
       int_bytes 0 1 0xc 2 0xc; int_bytes 0 1 0xd 2 0xd; int_bytes 0 1 0xe 2 0xe; int_bytes 0 1 0xf 2 0xf;
       int_bytes 0xf 0 (30 * 4) 2 16] |}.

(** src/x86/mptable.c:247-447, include/x86/mptable.h:145-151. *)
Definition qemu : target :=
  {| t_rev := 1; t_oem := [119; 111; 108; 102; 83; 83; 76; 0];
     t_product := [119; 111; 108; 102; 66; 111; 111; 116; 0; 0; 0; 0]; t_cpus := 1;
     t_rest := [bus_bytes 0 PCI; bus_bytes 1 ISA; ioapic_bytes 0;
       int_bytes 1 0 (2 * 4) 0 0xb; int_bytes 1 0 (0x1f * 4) 0 0x10;
       int_bytes 0 1 0 0 2; int_bytes 0 1 1 0 1; int_bytes 0 1 3 0 3; int_bytes 0 1 4 0 4;
       int_bytes 0 1 6 0 6; int_bytes 0 1 7 0 7; int_bytes 0 1 8 0 8; int_bytes 0 1 0xc 0 0xc;
       int_bytes 0 1 0xd 0 0xd; int_bytes 0 1 0xe 0 0xe; int_bytes 0 1 0xf 0 0xf;
       lint_bytes 3 1 0 0 0; lint_bytes 1 1 0 0xFF 1] |}.

(** src/x86/mptable.c:511-533: the processors.  [apic_id] and [apic_ver] are the registers and
    [sign] the result of cpuid. *)
Definition other_cpu (apic_ver sign : Z) (i : nat) : list Z :=
  cpu_bytes (Z.of_nat i * 2) (Z.land apic_ver 0xff) 1 sign.
Definition cpus_bytes (t : target) (apic_id apic_ver sign : Z) : list Z :=
  cpu_bytes (Z.shiftr apic_id 24) (Z.land apic_ver 0xff) 3 sign ++
  concat (map (other_cpu apic_ver sign) (seq 1 (t_cpus t - 1))).

(** src/x86/mptable.c:463-490 [calc_checksum]: the sum in a byte and its negation. *)
Fixpoint sum8 (c : Z) (l : list Z) : Z :=
  match l with [] => c | b :: l => sum8 ((c + b) mod 256) l end.
Definition negate (c : Z) : Z := (- (if c <? 128 then c else c - 256)) mod 256.

(** src/x86/mptable.c:492-536 [mptable_setup]: the bytes at MPTABLE_LOAD_BASE.  The length is a
    constant of the table (src/x86/mptable.c:49-54). *)
Definition entries_bytes (t : target) (apic_id apic_ver sign : Z) : list Z :=
  cpus_bytes t apic_id apic_ver sign ++ concat (t_rest t).
Definition base_table_len (t : target) : Z :=
  44 + 20 * Z.of_nat (t_cpus t) + 8 * Z.of_nat (length (t_rest t)).
Definition table_bytes (t : target) (apic_id apic_ver sign : Z) : list Z :=
  let entries := entries_bytes t apic_id apic_ver sign in
  let header c := header_bytes (base_table_len t) c (t_oem t) (t_product t) in
  let table := header (negate (sum8 0 (header 0 ++ entries))) ++ entries in
  float_bytes (t_rev t) (negate (sum8 0 (float_bytes (t_rev t) 0))) ++ table.

Definition mptable_setup (t : target) (apic_id apic_ver sign : Z) (m : Z -> Z) : Z -> Z :=
  let l := table_bytes t apic_id apic_ver sign in
  fun a => if (MPTABLE_LOAD_BASE <=? a) && (a <? MPTABLE_LOAD_BASE + Z.of_nat (length l))
           then nth (Z.to_nat (a - MPTABLE_LOAD_BASE)) l 0 else m a.
