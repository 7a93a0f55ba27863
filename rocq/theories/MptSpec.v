(** The MultiProcessor specification 1.4, as an operating system reads the table. *)
From Verif Require Import Base.

Definition read (m : Z -> Z) (a : Z) (n : nat) : list Z := map (fun i => m (a + Z.of_nat i)) (seq 0 n).
Fixpoint number (l : list Z) : Z := match l with [] => 0 | b :: l => b + 256 * number l end.
Definition total (l : list Z) : Z := fold_right Z.add 0 l.

Inductive entry :=
| Processor (id version flags signature features : Z)
| Bus (id : Z) (name : list Z)
| IoApic (id version flags address : Z)
| Interrupt (type flag bus irq apic pin : Z)
| LocalInterrupt (type flag bus irq apic pin : Z).

(** The entries from their bytes: 20 for a processor, 8 for the others.  None if the bytes do not
    end with an entry, or for an unknown type. *)
Fixpoint entries (fuel : nat) (l : list Z) : option (list entry) :=
  match fuel with
  | O => None
  | S n =>
      match l with
      | [] => Some []
      | t :: a :: b :: c :: d0 :: d1 :: d2 :: d3 :: rest =>
          if t =? 0 then
            match rest with
            | f0 :: f1 :: f2 :: f3 :: _ :: _ :: _ :: _ :: _ :: _ :: _ :: _ :: rest =>
                option_map (cons (Processor a b c (number [d0; d1; d2; d3]) (number [f0; f1; f2; f3]))) (entries n rest)
            | _ => None
            end
          else
            match t with
            | 1 => option_map (cons (Bus a [b; c; d0; d1; d2; d3])) (entries n rest)
            | 2 => option_map (cons (IoApic a b c (number [d0; d1; d2; d3]))) (entries n rest)
            | 3 => option_map (cons (Interrupt a (number [b; c]) d0 d1 d2 d3)) (entries n rest)
            | 4 => option_map (cons (LocalInterrupt a (number [b; c]) d0 d1 d2 d3)) (entries n rest)
            | _ => None
            end
      | _ => None
      end
  end.

(** A floating pointer at [p], on a multiple of 16, with signature "_MP_" and a sum of zero, points to a table with
    signature "PCMP", whose bytes sum to zero and consist of the header and the entries [es]. *)
Definition describes (m : Z -> Z) (p : Z) (es : list entry) : Prop :=
  p mod 16 = 0 /\ read m p 4 = [95; 77; 80; 95] /\ m (p + 8) = 1 /\ total (read m p 16) mod 256 = 0 /\
  let a := number (read m (p + 4) 4) in
  read m a 4 = [80; 67; 77; 80] /\
  let len := Z.to_nat (number (read m (a + 4) 2)) in
  total (read m a len) mod 256 = 0 /\ exists fuel, entries fuel (read m (a + 44) (len - 44)) = Some es.

(** The number of entries that the header gives. *)
Definition entry_count (m : Z -> Z) (p : Z) : Z := number (read m (number (read m (p + 4) 4) + 34) 2).

(** Identifiers of the processors and I/O APICs. *)
Definition ids (es : list entry) : list Z :=
  flat_map (fun e => match e with Processor i _ _ _ _ => [i] | IoApic i _ _ _ => [i] | _ => [] end) es.

(** The devices of the two boards: buses, the I/O APIC and the wiring of interrupts. *)
Definition pci : list Z := [80; 67; 73; 0; 0; 0].
Definition isa : list Z := [73; 83; 65; 0; 0; 0].
Definition wire (apic irq : Z) : entry := Interrupt 0 0 1 irq apic irq.
Definition kontron_devices : list entry :=
  [Bus 0 pci; Bus 1 isa; IoApic 2 0x20 1 0xfec00000; Interrupt 0 0 1 0 2 2; Interrupt 0 13 1 9 2 9] ++
  map (wire 2) [1; 3; 4; 5; 6; 7; 8; 9; 10; 11; 12; 13; 14; 15] ++ [Interrupt 0 15 0 120 2 16].
Definition qemu_devices : list entry :=
  [Bus 0 pci; Bus 1 isa; IoApic 0 0x20 1 0xfec00000; Interrupt 0 1 0 8 0 11; Interrupt 0 1 0 124 0 16;
   Interrupt 0 0 1 0 0 2] ++ map (wire 0) [1; 3; 4; 6; 7; 8; 12; 13; 14; 15] ++
  [LocalInterrupt 3 0 1 0 0 0; LocalInterrupt 1 0 1 0 255 1].
