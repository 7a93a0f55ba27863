(** How an entry of the TLB translates addresses (E500CORERM 2.12.5, E6500RM 2.13.10). *)
From Verif Require Import Base TlbModel.

(** Bits [lo, lo + n) of a register, counted from the least significant one. *)
Definition bits (r lo n : Z) : Z := r / 2 ^ lo mod 2 ^ n.

(** The entry that is written: which TLB and which entry of it. *)
Definition selected (m : mas) : Z * Z := (bits (mas0 m) 28 2, bits (mas0 m) 16 12).

Definition valid (m : mas) : bool := bits (mas1 m) 31 1 =? 1.
Definition protected (m : mas) : bool := bits (mas1 m) 30 1 =? 1.
Definition process (m : mas) : Z := bits (mas1 m) 16 14.
Definition space (m : mas) : Z := bits (mas1 m) 12 1.
(** Size of the page: 4^n KB on e500 and e5500, 2^n KB on e6500. *)
Definition page_size (e6500 : bool) (m : mas) : Z :=
  if e6500 then 2 ^ (10 + bits (mas1 m) 7 5) else 2 ^ (10 + 2 * bits (mas1 m) 8 4).
Definition attributes (m : mas) : Z := bits (mas2 m) 0 5.
Definition permissions (m : mas) : Z := bits (mas3 m) 0 6.

(** The physical address of an effective address, if the entry is for it: the bits below the page size
    come from the address, the others from the entry; MAS7 has the high bits of the page number. *)
Definition translates (e6500 : bool) (m : mas) (ea : Z) : option Z :=
  let s := page_size e6500 m in
  if valid m && (ea / s =? bits (mas2 m) 12 20 * 4096 / s)
  then Some ((mas7 m * 2 ^ 32 + bits (mas3 m) 12 20 * 4096) / s * s + ea mod s) else None.

(** The size that a size code stands for; at least 4 KB and at most 4 GB. *)
Definition size_of (e6500 : bool) (tsize : Z) : Z := if e6500 then 2 ^ (10 + tsize) else 2 ^ (10 + 2 * tsize).
Definition size_code (e6500 : bool) (tsize : Z) : Prop := if e6500 then 2 <= tsize <= 22 else 1 <= tsize <= 11.
