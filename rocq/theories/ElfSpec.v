(** What an ELF file means, after the ELF standard: the fields of the file header and the
    program headers at their standard offsets, in the byte order the file declares. *)
From Verif Require Import Base Flash ImageModel ImageSpec.

Record segment := mkSeg {
  s_type : Z; s_off : Z; s_vaddr : Z; s_paddr : Z; s_filesz : Z; s_memsz : Z
}.
Definition loadable (s : segment) : Prop := s_type s = 1.

Section File.
Context (X : list Z).

Definition is_elf : Prop := firstn 4 X = [127; 69; 76; 70].
Definition class32 : bool := nth 4 X 0 =? 1.
Definition little : bool := nth 5 X 0 =? 1.

(** The number stored in [n] bytes from offset [o] on. *)
Definition num (o : Z) (n : nat) : Z :=
  let l := sub X (Z.to_nat o) n in le_val (if little then l else rev l).

Definition file_type : Z := num 16 2.
Definition entry_point : Z := if class32 then num 24 4 else num 24 8.
Definition phdr_off : Z := if class32 then num 28 4 else num 32 8.
Definition phdr_size : Z := if class32 then num 42 2 else num 54 2.
Definition phdr_count : Z := if class32 then num 44 2 else num 56 2.

Definition segment_at (o : Z) : segment :=
  if class32
  then mkSeg (num o 4) (num (o + 4) 4) (num (o + 8) 4) (num (o + 12) 4) (num (o + 16) 4) (num (o + 20) 4)
  else mkSeg (num o 4) (num (o + 8) 8) (num (o + 16) 8) (num (o + 24) 8) (num (o + 32) 8) (num (o + 40) 8).
Definition segments : list segment :=
  map (fun i => segment_at (phdr_off + Z.of_nat i * phdr_size)) (seq 0 (Z.to_nat phdr_count)).

(** A file whose headers and loadable segments lie inside it. *)
Record elf_ok : Prop := {
  ok_bytes : all_bytes X;
  ok_magic : is_elf;
  ok_class : nth 4 X 0 = 1 \/ nth 4 X 0 = 2;
  ok_order : nth 5 X 0 = 1 \/ nth 5 X 0 = 2;
  ok_head : (if class32 then 52 else 64) <= zlen X;
  ok_entsize : (if class32 then 32 else 56) <= phdr_size;
  ok_table : phdr_off + phdr_count * phdr_size <= zlen X;
  ok_segs : forall s, In s segments -> loadable s ->
    s_off s + s_filesz s <= zlen X /\ s_filesz s <= s_memsz s
}.

(** Byte [i] of a segment in memory: from the file, then zeros. *)
Definition content (s : segment) (i : Z) : Z :=
  if i <? s_filesz s then nth (Z.to_nat (s_off s + i)) X 0 else 0.
End File.

Definition spans (a n x : Z) : Prop := a <= x < a + n.
Definition apart (a n b m : Z) : Prop := forall x, ~ (spans a n x /\ spans b m x).

(** Memory [m'] is [m] with the loadable segments of [X] in place. *)
Definition in_memory (X : list Z) (m m' : flash) : Prop :=
  (forall s x, In s (segments X) -> loadable s -> spans (s_vaddr s) (s_memsz s) x ->
     m' x = content X s (x - s_vaddr s)) /\
  (forall x, (forall s, In s (segments X) -> loadable s -> ~ spans (s_vaddr s) (s_memsz s) x) -> m' x = m x).

(** The loadable segments occupy disjoint ranges [addr s, addr s + size s), all below
    [top] and away from the [n] bytes at [a]. *)
Definition no_overlap (segs : list segment) (addr size : segment -> Z) (top a n : Z) : Prop :=
  (forall i j s t, nth_error segs i = Some s -> nth_error segs j = Some t -> i <> j ->
     loadable s -> loadable t -> apart (addr s) (size s) (addr t) (size t)) /\
  (forall s, In s segs -> loadable s ->
     0 <= addr s /\ addr s + size s <= top /\ apart (addr s) (size s) a n).

(** ** Files whose segments are run from flash *)

(** [L] with the bytes from offset [o] on replaced by those of [d]. *)
Definition patch (L : list Z) (o : Z) (d : list Z) : list Z :=
  firstn (Z.to_nat o) L ++ d ++ skipn (Z.to_nat o + length d) L.

(** The file [fw] as far as it can be recovered from flash: the contents of each segment
    are taken from its run address, the rest from the file. *)
Fixpoint assembled (f : flash) (b : Z) (fw : list Z) (segs : list segment) : list Z :=
  match segs with
  | [] => fw
  | s :: segs' =>
    assembled f b (patch fw (s_off s) (rdl f (s_paddr s + b) (Z.to_nat (s_filesz s)))) segs'
  end.

(** From [pos] to [stop] the file consists of the segments in order, with only zeros
    between them. *)
Fixpoint laid (fw : list Z) (pos : Z) (segs : list segment) (stop : Z) : Prop :=
  match segs with
  | [] => pos = stop
  | s :: segs' =>
    pos <= s_off s /\ (forall i, pos <= i < s_off s -> nth (Z.to_nat i) fw 0 = 0) /\
    laid fw (s_off s + s_filesz s) segs' stop
  end.

(** The layout the scattered-image check relies on: program headers right after the file
    header, loadable segments first and in file order, zeros between them, and at least
    [tail] more bytes in the file after the last one. *)
Definition orderly (fw : list Z) (tail : Z) : Prop :=
  let eh := if class32 fw then 52 else 64 in
  let es := if class32 fw then 32 else 56 in
  phdr_off fw = eh /\ phdr_size fw = es /\ little fw = true /\
  exists L R stop, segments fw = L ++ R /\ L <> [] /\ Forall loadable L /\
    Forall (fun s => ~ loadable s) R /\
    laid fw (eh + phdr_count fw * es) L stop /\
    match R with [] => True | s :: _ => s_off s <= stop end /\
    stop + tail <= zlen fw.

(** The segment is in place at its run address. *)
Definition in_place (f : flash) (b : Z) (fw : list Z) (s : segment) : Prop :=
  forall i, 0 <= i < s_filesz s -> f (s_paddr s + b + i) = nth (Z.to_nat (s_off s + i)) fw 0.

(** The firmware of the image in the boot partition. *)
Definition firmware (c : cfg) (f : flash) : list Z :=
  rdl f (BOOT c + HDR c) (Z.to_nat (word f (BOOT c + 4))).
Definition loads (fw : list Z) : list segment := filter (fun s => s_type s =? 1) (segments fw).

(** The firmware is an ELF file in the layout above; its segments have disjoint run
    addresses (run addresses in the file plus [b], below [top]) away from the boot image. *)
Record scatterable (c : cfg) (b top : Z) (f : flash) : Prop := {
  sc_elf : elf_ok (firmware c f);
  sc_layout : orderly (firmware c f) (HDR c);
  sc_entry : entry_point (firmware c f) < top;
  sc_place : no_overlap (segments (firmware c f)) (fun s => s_paddr s + b) s_filesz top
               (BOOT c) (HDR c + zlen (firmware c f))
}.

(** Addresses that are not run addresses; flash [g] differs from [f] at run addresses only. *)
Definition outside (b : Z) (fw : list Z) (x : Z) : Prop :=
  forall s, In s (segments fw) -> loadable s -> ~ spans (s_paddr s + b) (s_filesz s) x.
Definition same_outside (b : Z) (fw : list Z) (f g : flash) : Prop :=
  bytes g /\ forall x, outside b fw x -> g x = f x.

(** Every loadable segment is in place; the hash function has a collision between the
    firmware and what is found when the segments are read back. *)
Definition all_in_place (c : cfg) (b : Z) (f : flash) : Prop :=
  forall s, In s (segments (firmware c f)) -> loadable s -> in_place f b (firmware c f) s.
Definition collides (c : cfg) (b : Z) (f : flash) : Prop :=
  let found := assembled f b (firmware c f) (loads (firmware c f)) in
  found <> firmware c f /\ exists pre, c_hash c (pre ++ found) = c_hash c (pre ++ firmware c f).

(** The mapping calls made for the segments: one per loadable segment that is not empty. *)
Definition to_load (s : segment) : bool := (s_type s =? 1) && negb (s_memsz s =? 0).
Definition map_calls (cb : option (Z -> Z -> Z -> bool)) (segs : list segment) : list (Z * Z * Z) :=
  match cb with
  | None => []
  | Some _ => map (fun s => (s_vaddr s, s_paddr s, s_memsz s)) (filter to_load segs)
  end.
Definition maps (cb : option (Z -> Z -> Z -> bool)) (s : segment) : Prop :=
  match cb with None => True | Some g => s_memsz s < 2 ^ 32 /\ g (s_vaddr s) (s_paddr s) (s_memsz s) = true end.
