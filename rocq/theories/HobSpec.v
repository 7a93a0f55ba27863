(** What the properties about the memory list of the firmware refer to: hand-off blocks
    (UEFI Platform Initialization Specification, volume 3, chapter 5), the Multiboot2
    boot information (Multiboot2 Specification 2.0, sections 3.1 and 3.6) and the Linux
    x86 boot protocol (Documentation/arch/x86/boot.rst, zero-page.rst). *)
From Verif Require Import Base.

(** * Hand-off blocks *)

(** A resource descriptor. *)
Record descriptor := { owner : list Z; rtype : Z; attr : Z; start : Z; len : Z }.

(** A block: a resource descriptor (possibly followed by bytes of a later version), or
    another block of type [ty]. *)
Inductive hob := Resource (d : descriptor) (extra : list Z) | Other (ty : Z) (body : list Z).

(** Header: type, length of the whole block, reserved. *)
Definition block (ty : Z) (body : list Z) : list Z :=
  le_bytes 2 ty ++ le_bytes 2 (8 + zlen body) ++ le_bytes 4 0 ++ body.

Definition hob_bytes (h : hob) : list Z :=
  match h with
  | Resource d x =>
      block 3 (owner d ++ le_bytes 4 (rtype d) ++ le_bytes 4 (attr d) ++
               le_bytes 8 (start d) ++ le_bytes 8 (len d) ++ x)
  | Other ty b => block ty b
  end.

Definition END_OF_HOB_LIST : Z := 65535.

(** The list, with its end marker, in memory. *)
Definition hob_list (l : list hob) : list Z := concat (map hob_bytes l) ++ block END_OF_HOB_LIST [].

Definition desc_ok (d : descriptor) : Prop :=
  length (owner d) = 16%nat /\ 0 <= rtype d < 2 ^ 32 /\ 0 <= attr d < 2 ^ 32 /\
  0 <= start d < 2 ^ 64 /\ 0 <= len d < 2 ^ 64.

Definition hob_ok (h : hob) : Prop :=
  match h with
  | Resource d x => desc_ok d /\ 48 + zlen x < 65536
  | Other ty b => 0 <= ty < 65535 /\ ty <> 3 /\ 8 + zlen b < 65536
  end.

(** The resource descriptors, in order. *)
Fixpoint descriptors (l : list hob) : list descriptor :=
  match l with
  | [] => []
  | Resource d _ :: l' => d :: descriptors l'
  | Other _ _ :: l' => descriptors l'
  end.

(** Visiting the descriptors in order until a visit returns something other than 0. *)
Fixpoint visit {S : Type} (f : S -> descriptor -> out (S * Z)) (s : S) (ds : list descriptor) : out (S * Z) :=
  match ds with
  | [] => Val (s, 0)
  | d :: ds' => dlet (s, r) <- f s d in if r =? 0 then visit f s ds' else Val (s, r)
  end.

(** Types of resources (volume 3, 5.5). *)
Definition SYSTEM_MEMORY : Z := 0.
Definition IO_PORTS : Z := 2.
Definition MEMORY_RESERVED : Z := 5.

(** The owner of the memory the silicon package keeps: 69a79759-1373-4367-a6c4-c7f59efd986e
    (FSP External Architecture Specification, 12.2.1). *)
Definition FSP_RESERVED_GUID : list Z :=
  le_bytes 4 1772590937 ++ le_bytes 2 4979 ++ le_bytes 2 17255 ++ [166; 196; 199; 245; 158; 253; 152; 110].

(** * Multiboot2 *)

(** Kinds of memory in the memory map: available, reserved. *)
Definition kind (d : descriptor) : Z := if rtype d =? SYSTEM_MEMORY then 1 else 2.

Definition map_entry (d : descriptor) : list Z :=
  le_bytes 8 (start d) ++ le_bytes 8 (len d) ++ le_bytes 4 (kind d) ++ le_bytes 4 0.

(** Tag 6, the memory map. *)
Definition map_tag (ds : list descriptor) : list Z :=
  le_bytes 4 6 ++ le_bytes 4 (16 + 24 * zlen ds) ++ le_bytes 4 24 ++ le_bytes 4 0 ++
  concat (map map_entry ds).

(** Tag 4, kilobytes from address 0 and from 1 MB. *)
Definition basic_tag (lower upper : Z) : list Z :=
  le_bytes 4 4 ++ le_bytes 4 16 ++ le_bytes 4 lower ++ le_bytes 4 upper.

(** The length in kilobytes of the last of the descriptors that starts at [a]. *)
Definition kilobytes_at (a : Z) (ds : list descriptor) : Z :=
  fold_left (fun k d => if start d =? a then len d / 1024 mod 2 ^ 32 else k) ds 0.

(** The tag asked for by a request; [None]: not a kind of request wolfBoot knows. *)
Definition tag_for (ds : list descriptor) (r : Z) : option (list Z) :=
  if r =? 4 then Some (basic_tag (kilobytes_at 0 ds) (kilobytes_at (2 ^ 20) ds))
  else if r =? 6 then Some (map_tag ds)
  else None.

Fixpoint tags_for (ds : list descriptor) (rs : list Z) : option (list Z) :=
  match rs with
  | [] => Some []
  | r :: rs' => match tag_for ds r, tags_for ds rs' with
                | Some a, Some b => Some (a ++ b)
                | _, _ => None
                end
  end.

(** Header tags of the kernel: type, flags, contents; the tags are padded to multiples of
    8 bytes and end with a tag of type 0. *)
Record htag := { ty : Z; flags : Z; body : list Z }.
Definition padding (n : Z) : list Z := repeat 0 (Z.to_nat ((- n) mod 8)).
Definition htag_bytes (t : htag) : list Z :=
  le_bytes 2 (ty t) ++ le_bytes 2 (flags t) ++ le_bytes 4 (8 + zlen (body t)) ++ body t ++
  padding (zlen (body t)).
Definition htags (l : list htag) : list Z := concat (map htag_bytes l) ++ le_bytes 2 0 ++ le_bytes 2 0 ++ le_bytes 4 8.
Definition htag_ok (t : htag) : Prop :=
  0 < ty t < 65536 /\ 8 + zlen (body t) < 2 ^ 32.

(** An information request asks for the tags [rs]. *)
Definition request (fl : Z) (rs : list Z) : htag :=
  {| ty := 1; flags := fl; body := concat (map (le_bytes 4) rs) |}.

(** Reading boot information: from offset 8, each tag has a type and a size; the next tag
    starts at the following multiple of 8; a tag of type 0 and size 8 ends the list, within
    the total size. *)
Definition word (l : list Z) (o : nat) : Z := le_val (sub l o 4).
Fixpoint terminated (fuel : nat) (l : list Z) (o : Z) : bool :=
  if word l 0 <? o + 8 then false else
  let t := word l (Z.to_nat o) in
  let n := word l (Z.to_nat o + 4) in
  if (t =? 0) && (n =? 8) then true else
  match fuel with
  | O => false
  | S f => if n <? 8 then false else terminated f l ((o + n + 7) / 8 * 8)
  end.

(** * Linux *)

Definition e820_entry (d : descriptor) : list Z :=
  le_bytes 8 (start d) ++ le_bytes 8 (len d) ++ le_bytes 4 (kind d).

(** The boot parameters ("zero page"): the number of memory ranges at 0x1e8, the setup header
    of the image at 0x1f1 with the loader type 0xff at 0x210 and the address of the command
    line at 0x228, the memory ranges at 0x2d0 (at most 128), everything else zero. *)
Definition boot_parameters (image : list Z) (cmd_line : Z) (ds : list descriptor) : list Z :=
  repeat 0 488 ++ le_bytes 1 (zlen ds) ++ repeat 0 8 ++
  sub image 497 31 ++ [255] ++ sub image 529 23 ++ le_bytes 4 cmd_line ++ sub image 556 64 ++
  repeat 0 100 ++ concat (map e820_entry ds) ++ repeat 0 (3376 - 20 * length ds).

(** Where the 32-bit code starts in an image: after the boot sector and the setup sectors
    (4 if the field at 0x1f1 is 0); its size in bytes (0x1f4 counts 16-byte units); its entry
    point (0x214). *)
Definition code_offset (image : list Z) : Z :=
  let s := le_val (sub image 497 1) in 512 * (1 + if s =? 0 then 4 else s).
Definition code_size (image : list Z) : Z := 16 * word image 500.
Definition code_entry (image : list Z) : Z := word image 532.
