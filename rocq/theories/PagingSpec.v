(** What the paging properties refer to: how the processor translates addresses.
    This is the hardware, not wolfBoot's code; it follows the Intel Software Developer's
    Manual, volume 3A, section 4.5 (4-level paging).  Simplification: the accessed, dirty,
    caching, global, user and execute-disable bits do not enter the translation, and bits
    reserved as zero are not checked. *)
From Verif Require Import Base.

(** Memory as 64-bit words; only addresses that are multiples of 8 are used. *)
Definition memory := Z -> Z.

Definition present (e : Z) : bool := Z.testbit e 0.
Definition writable (e : Z) : bool := Z.testbit e 1.
Definition large (e : Z) : bool := Z.testbit e 7.

(** Bits 51..[n] of an entry: the physical address of a page of [2^n] bytes. *)
Definition page (n e : Z) : Z := (e mod 2 ^ 52) / 2 ^ n * 2 ^ n.

(** Index into the table consulted at step [k] (0: the root table). *)
Definition index (k : nat) (va : Z) : Z := (va / 2 ^ (39 - 9 * Z.of_nat k)) mod 512.

(** The entry for [va] in the table at [t]. *)
Definition slot (k : nat) (t va : Z) : Z := t + 8 * index k va.

(** Physical address and write permission of a linear address; [None]: page fault. *)
Definition translate (m : memory) (cr3 va : Z) : option (Z * bool) :=
  let e4 := m (slot 0 cr3 va) in
  if negb (present e4) then None else
  let e3 := m (slot 1 (page 12 e4) va) in
  if negb (present e3) then None else
  if large e3 then Some (page 30 e3 + va mod 2 ^ 30, writable e4 && writable e3) else
  let e2 := m (slot 2 (page 12 e3) va) in
  if negb (present e2) then None else
  if large e2 then
    Some (page 21 e2 + va mod 2 ^ 21, writable e4 && writable e3 && writable e2) else
  let e1 := m (slot 3 (page 12 e2) va) in
  if negb (present e1) then None else
  Some (page 12 e1 + va mod 2 ^ 12, writable e4 && writable e3 && writable e2 && writable e1).

(** Linear addresses: 48 bits, sign-extended to 64. *)
Definition canonical (va : Z) : Prop := 0 <= va < 2 ^ 47 \/ 2 ^ 64 - 2 ^ 47 <= va < 2 ^ 64.

(** The table consulted at step [k] of the translation of [va]. *)
Fixpoint table (m : memory) (cr3 : Z) (k : nat) (va : Z) : option Z :=
  match k with
  | O => Some cr3
  | S j =>
    match table m cr3 j va with
    | None => None
    | Some t =>
      let e := m (slot j t va) in
      if present e && negb (large e && (1 <=? j)%nat) then Some (page 12 e) else None
    end
  end.

(** The bits of [va] that select the table consulted at step [k]. *)
Definition prefix (k : nat) (va : Z) : Z := (va / 2 ^ (48 - 9 * Z.of_nat k)) mod 2 ^ (9 * Z.of_nat k).

(** [p] lies in the page at [t]. *)
Definition in_page (t p : Z) : Prop := t <= p < t + 4096.

(** Page tables as boot code builds them: every entry is empty, or is present, writable,
    without bits 52..63; there are no 1 GiB pages; no page is used as a table twice; the
    tables do not lie in the free pages from [lo] to [hi]. *)
Record sane (m : memory) (cr3 lo hi : Z) : Prop := {
  sane_entry : forall k va t, (k < 4)%nat -> table m cr3 k va = Some t ->
    let e := m (slot k t va) in
    e = 0 \/ (0 <= e < 2 ^ 52 /\ present e = true /\ writable e = true /\
              (k = 1%nat -> large e = false));
  sane_page : forall k va t, (k < 4)%nat -> table m cr3 k va = Some t ->
    0 <= t /\ t mod 4096 = 0 /\ (t < lo \/ hi <= t);
  sane_once : forall k va k' va' t, (k < 4)%nat -> (k' < 4)%nat ->
    table m cr3 k va = Some t -> table m cr3 k' va' = Some t ->
    k = k' /\ prefix k va = prefix k va' }.
