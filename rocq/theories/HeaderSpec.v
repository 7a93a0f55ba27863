(** Independent reading of an image header: a sequence of padding bytes and
    type/length/value records.  Nothing here refers to the parser's code. *)
From Verif Require Import Base.

Inductive item : Type :=
| Pad (b : Z)                       (* one skipped byte *)
| Rec (ty : Z) (data : list Z).     (* a type/length/value record *)

Definition item_bytes (i : item) : list Z :=
  match i with
  | Pad b => [b]
  | Rec ty d => [ty mod 256; ty / 256; zlen d mod 256; zlen d / 256] ++ d
  end.

Definition items_bytes (l : list item) : list Z := concat (map item_bytes l).

(** [placed n addr items rest]: laid out from address [addr], [items] is a legal
    reading of a header of which [rest] bytes remain after them.  At an even address a
    skipped byte is 0xFF and a record starts with a non-zero type whose low byte is not
    0xFF; at an odd address only single bytes can be skipped.  A skipped byte at an odd
    address is never followed by zero if it is itself zero (that would be the end
    marker), and no item starts within the last four bytes. *)
Fixpoint placed (addr : Z) (items : list item) (rest : list Z) : Prop :=
  match items with
  | [] => True
  | i :: items' =>
    let after := items_bytes items' ++ rest in
    match i with
    | Pad b =>
        (4 <= length after)%nat /\ is_byte b /\
        (b = 255 \/ (Z.odd addr = true /\ ~ (b = 0 /\ hd 1 after = 0)))
    | Rec ty d =>
        Z.odd addr = false /\ 0 < ty < 65536 /\ ty mod 256 <> 255 /\
        zlen d < 65536 /\ (1 <= length (d ++ after))%nat
    end /\ placed (addr + zlen (item_bytes i)) items' rest
  end.

(** Where reading stops: fewer than five bytes left, an end marker (two zero bytes),
    or a record whose declared length does not fit in what is left. *)
Definition stops (addr : Z) (rest : list Z) : Prop :=
  (length rest <= 4)%nat \/
  (exists t, rest = 0 :: 0 :: t) \/
  (Z.odd addr = false /\
   exists b0 b1 b2 b3 t,
     rest = b0 :: b1 :: b2 :: b3 :: t /\ b0 <> 255 /\ ~ (b0 = 0 /\ b1 = 0) /\
     zlen t < b2 + 256 * b3).

(** First record of type [ty]. *)
Fixpoint first_rec (ty : Z) (items : list item) : option (list Z) :=
  match items with
  | [] => None
  | Pad _ :: l => first_rec ty l
  | Rec t d :: l => if t =? ty then Some d else first_rec ty l
  end.

(** Byte offset (from the start of the item area) of the first record's value. *)
Fixpoint first_off (ty : Z) (items : list item) : nat :=
  match items with
  | [] => 0%nat
  | Pad _ :: l => S (first_off ty l)
  | Rec t d :: l => if t =? ty then 4%nat else (4 + length d + first_off ty l)%nat
  end.

(** A complete reading of header [h] stored at address [base]: 8 bytes of magic and
    size, the items, and an unread remainder at which reading stops. *)
Definition reads_as (base : Z) (h : list Z) (items : list item) : Prop :=
  exists pre rest,
    h = pre ++ items_bytes items ++ rest /\ length pre = 8%nat /\
    placed (base + 8) items rest /\
    stops (base + 8 + zlen (items_bytes items)) rest.
