(** What the PCI properties refer to: the machine behind the configuration space.
    This is the hardware, not wolfBoot's code; it follows the PCI Local Bus Specification
    3.0 (chapters 3.2.2, 6) and the PCI-to-PCI Bridge Specification 1.2 (chapter 3). *)
From Verif Require Import Base.

(** A function at its device and function number on a bus, with the functions on the bus
    behind it when it is a bridge.  [id] names the function. *)
Inductive fn := Fn (id : nat) (dev fun_ : Z) (behind : list fn).

(** Contents of the configuration registers: function, number of the 32-bit register. *)
Definition regs := nat -> Z -> Z.

(** A machine: the functions on bus 0, and which bits of each register can be written;
    the others are wired.  Simplification: status bits that are cleared by writing ones are
    treated as wired. *)
Record machine := { root : list fn; writable : nat -> Z -> Z }.

(** [field v p n]: bits [p .. p+n-1] of [v]. *)
Definition field (v p n : Z) : Z := Z.land (Z.shiftr v p) (Z.ones n).

(** Register 3: header type in bits 16..22, multi-function bit 23. *)
Definition header_type (st : regs) (id : nat) : Z := field (st id 3) 16 7.
Definition multifunction (st : regs) (id : nat) : bool := Z.testbit (st id 3) 23.

(** Register 6 of a bridge: primary, secondary, subordinate bus number. *)
Definition secondary (st : regs) (id : nat) : Z := field (st id 6) 8 8.
Definition subordinate (st : regs) (id : nat) : Z := field (st id 6) 16 8.

(** A bridge passes on configuration cycles for the buses secondary..subordinate. *)
Definition claims (st : regs) (b : Z) (f : fn) : bool :=
  let 'Fn id _ _ _ := f in
  (header_type st id =? 1) && (secondary st id <=? b) && (b <=? subordinate st id).

(** The bus a configuration cycle for bus number [b] ends on, starting on bus [l] with
    number [n]: bridges forward it.  (At most 255 hops: numbers increase.)  If two bridges
    claim the cycle, the first one is taken. *)
Fixpoint route (hops : nat) (st : regs) (l : list fn) (n b : Z) : option (list fn) :=
  if b =? n then Some l else
  match hops with
  | O => None
  | S h => match find (claims st b) l with
           | Some (Fn id _ _ l') => route h st l' (secondary st id) b
           | None => None
           end
  end.

Definition at_slot (d f : Z) (x : fn) : bool := let 'Fn _ d' f' _ := x in (d' =? d) && (f' =? f).

Definition target (m : machine) (st : regs) (b d f : Z) : option nat :=
  match route 256 st (root m) 0 b with
  | Some l => match find (at_slot d f) l with Some (Fn id _ _ _) => Some id | None => None end
  | None => None
  end.

(** Reading register [r]; without a function there, all ones. *)
Definition reg_read (m : machine) (st : regs) (b d f r : Z) : Z :=
  match target m st b d f with Some id => st id r | None => 2 ^ 32 - 1 end.

(** [merge k o v]: the bits of [v] selected by [k], the others from [o]. *)
Definition merge (k o v : Z) : Z := Z.lor (Z.ldiff o k) (Z.land v k).

Definition set_reg (st : regs) (id : nat) (r v : Z) : regs :=
  fun id' r' => if Nat.eqb id' id && (r' =? r) then v else st id' r'.

(** Writing the bytes of register [r] selected by [lanes] (a bit mask). *)
Definition reg_write (m : machine) (st : regs) (b d f r lanes v : Z) : regs :=
  match target m st b d f with
  | Some id => set_reg st id r (merge (Z.land (writable m id r) lanes) (st id r) v)
  | None => st
  end.

(** How a base address register is wired: nothing; memory of [2^s] bytes, [pf] if it is
    prefetchable, with 32 or 64 address bits (the latter takes the next register, too);
    I/O ports. *)
Inductive bar := NoBar | Mem (s : Z) (pf wide : bool) | Upper | Io (s : Z) (wide : bool).

(** [wired m st id i b]: base address register [i] (configuration register 4+i) of function
    [id] is wired as [b]. *)
Definition wired (m : machine) (st : regs) (id : nat) (i : Z) (b : bar) : Prop :=
  let v := st id (4 + i) in let w := writable m id (4 + i) in
  0 <= v < 2 ^ 32 /\
  match b with
  | NoBar => v = 0 /\ w = 0
  | Mem s pf wide => 4 <= s <= 31 /\ w = 2 ^ 32 - 2 ^ s /\
      v mod 2 ^ s = (if wide then 4 else 0) + (if pf then 8 else 0)
  | Upper => w = 2 ^ 32 - 1
  | Io s wide => 2 <= s <= 15 /\ (w = if wide then 2 ^ 32 - 2 ^ s else 2 ^ 16 - 2 ^ s) /\
      v mod 2 ^ s = 1 /\ (wide = false -> v < 2 ^ 16)
  end.

(** The six base address registers of a device. *)
Fixpoint bars_ok (l : list bar) : bool :=
  match l with
  | [] => true
  | Mem _ _ true :: Upper :: l' => bars_ok l'
  | Mem _ _ true :: _ => false
  | Upper :: _ => false
  | _ :: l' => bars_ok l'
  end.

(** Address spaces.  Prefetchable and other memory are allocated apart. *)
Inductive space := MemS | PfS | IoS.
Definition space_of (b : bar) : option space :=
  match b with Mem _ true _ => Some PfS | Mem _ false _ => Some MemS | Io _ _ => Some IoS | _ => None end.
Definition size_of (b : bar) : Z := match b with Mem s _ _ | Io s _ => 2 ^ s | _ => 0 end.

(** The address a function responds at, for a base address register wired as [b]: the
    register without its [s] low bits. *)
Definition base_of (st : regs) (id : nat) (i : Z) (b : bar) : Z :=
  match b with Mem s _ _ | Io s _ => st id (4 + i) / 2 ^ s * 2 ^ s | _ => 0 end.

(** Windows of a bridge: memory, register 8; prefetchable memory, register 9.  Addresses
    from base to limit are forwarded; 1 MB granularity. *)
Definition win_reg (k : space) : Z := match k with PfS => 9 | _ => 8 end.
Definition win_base (st : regs) (id : nat) (k : space) : Z := field (st id (win_reg k)) 4 12 * 2 ^ 20.
Definition win_limit (st : regs) (id : nat) (k : space) : Z := field (st id (win_reg k)) 20 12 * 2 ^ 20 + (2 ^ 20 - 1).
Definition in_window (st : regs) (id : nat) (k : space) (a : Z) : Prop := win_base st id k <= a <= win_limit st id k.

(** I/O window of a bridge: register 7, bits 4..7 and 12..15; 4 KB granularity. *)
Definition io_base (st : regs) (id : nat) : Z := field (st id 7) 4 4 * 2 ^ 12.
Definition io_limit (st : regs) (id : nat) : Z := field (st id 7) 12 4 * 2 ^ 12 + (2 ^ 12 - 1).

(** * Conforming machines *)

(** A function and all functions behind it. *)
Fixpoint fns (x : fn) : list fn := let 'Fn _ _ _ l := x in x :: flat_map fns l.
Definition all_fns (l : list fn) : list fn := flat_map fns l.
Definition fid (x : fn) : nat := let 'Fn id _ _ _ := x in id.
Definition ids (l : list fn) : list nat := map fid (all_fns l).
(** Position on the bus. *)
Definition place (x : fn) : Z := let 'Fn _ d f _ := x in 8 * d + f.

(** What is known of each function: [Some l] is a device with base address registers [l],
    [None] a bridge. *)
Definition description := nat -> option (list bar).

(** A function as it is after reset. *)
Definition fn_ok (D : description) (m : machine) (st : regs) (x : fn) : Prop :=
  let 'Fn id d f l := x in
  0 <= d < 32 /\ 0 <= f < 8 /\
  (forall r, 0 <= st id r < 2 ^ 32 /\ 0 <= writable m id r < 2 ^ 32) /\
  (* vendor and device number, status, class code *)
  st id 0 <> 2 ^ 32 - 1 /\ writable m id 0 = 0 /\ writable m id 1 < 2 ^ 16 /\ writable m id 2 = 0 /\
  match D id with
  | Some bl => header_type st id = 0 /\ l = [] /\ length bl = 6%nat /\ bars_ok bl = true /\
      forall i b, nth_error bl i = Some b -> wired m st id (Z.of_nat i) b
  | None => header_type st id = 1 /\ subordinate st id = 0 /\ writable m id 6 = 2 ^ 24 - 1 /\
      writable m id 8 = 4293984240 /\ writable m id 9 = 4293984240 /\
      Z.testbit (writable m id 1) 1 = true /\ Z.testbit (writable m id 1) 2 = true
  end.

(** A bus, listed by device and function number: other functions than number 0 belong to
    multi-function devices. *)
Definition bus_ok (st : regs) (l : list fn) : Prop :=
  (forall p x q y t, l = p ++ x :: q ++ y :: t -> place x < place y) /\
  forall id d f l', In (Fn id d f l') l -> f <> 0 -> exists id0 l0, In (Fn id0 d 0 l0) l /\ multifunction st id0 = true.

Definition conforming (D : description) (m : machine) (st : regs) : Prop :=
  NoDup (ids (root m)) /\ (forall x, In x (all_fns (root m)) -> fn_ok D m st x) /\
  bus_ok st (root m) /\ forall id d f l, In (Fn id d f l) (all_fns (root m)) -> bus_ok st l.

(** Address space that suffices for a machine: twice the size of each region, at least
    two pages; for each bridge twice the granularity of its windows. *)
Definition space_eqb (a b : space) : bool := match a, b with MemS, MemS | PfS, PfS | IoS, IoS => true | _, _ => false end.
Definition granularity (k : space) : Z := match k with IoS => 4096 | _ => 2 ^ 20 end.
Definition bar_need (k : space) (b : bar) : Z :=
  match space_of b with Some k' => if space_eqb k k' then 2 * Z.max 4096 (size_of b) else 0 | None => 0 end.
Definition zsum (l : list Z) : Z := fold_right Z.add 0 l.
Definition fn_need (D : description) (k : space) (x : fn) : Z :=
  match D (fid x) with Some bl => zsum (map (bar_need k) bl) | None => 2 * granularity k end.
Definition need (D : description) (k : space) (l : list fn) : Z := zsum (map (fn_need D k) (all_fns l)).

(** Number of bridges. *)
Definition bridges (D : description) (l : list fn) : nat :=
  length (filter (fun x => match D (fid x) with None => true | _ => false end) (all_fns l)).

(** [region D st id n k a b]: base address register [n] of device [id] makes it respond at
    [a .. b-1] in the space [k]. *)
Definition region (D : description) (st : regs) (id n : nat) (k : space) (a b : Z) : Prop :=
  exists bl bd, D id = Some bl /\ nth_error bl n = Some bd /\ space_of bd = Some k /\
    a = base_of st id (Z.of_nat n) bd /\ b = a + size_of bd.

(** The resources given to the enumeration suffice for the machine: memory and prefetchable
    memory below 4 GB, I/O ports below 64 KB, 255 buses. *)
Definition enough (D : description) (m : machine) (mem_start mem_len pf_start pf_len io_start : Z) : Prop :=
  0 <= mem_start /\ need D MemS (root m) < mem_len /\ mem_start + mem_len <= 2 ^ 32 /\
  0 <= pf_start /\ need D PfS (root m) < pf_len /\ pf_start + pf_len <= 2 ^ 32 /\
  0 <= io_start /\ io_start + need D IoS (root m) <= 2 ^ 16 /\
  (bridges D (root m) <= 255)%nat.

(** An access to byte [off] of a function's first 256 bytes. *)
Definition slot_ok (b d f off : Z) : Prop := 0 <= b < 256 /\ 0 <= d < 32 /\ 0 <= f < 8 /\ 0 <= off < 256.

(** Registers have 32 bits. *)
Definition sound (m : machine) (st : regs) : Prop := forall id r, 0 <= st id r < 2 ^ 32 /\ 0 <= writable m id r < 2 ^ 32.
