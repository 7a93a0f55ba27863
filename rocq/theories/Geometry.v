(** What a sensible flash layout is.  The conditions are those of the target.h files
    shipped with the code and of the checks in its build system. *)
From Verif Require Import Base HeaderModel Flash ImageModel.

(** The two address ranges do not overlap. *)
Definition disjoint (a n b m : Z) : Prop := a + n <= b \/ b + m <= a.

Record geometry (c : cfg) : Prop := {
  g_fb : 4 <= FB c;
  g_sect : SECT c mod FB c = 0 /\ 8 <= SECT c;
  g_part : PART c mod SECT c = 0 /\ 2 * SECT c <= PART c;
  g_size : PART c + SECT c < 2 ^ 31;
  g_hdr : 12 <= HDR c <= PART c - SECT c /\ HDR c < 65544;
  g_addr : 0 <= BOOT c /\ 0 <= UPDATE c /\ 0 <= SWAP c;
  g_even : Z.odd (BOOT c) = false /\ Z.odd (UPDATE c) = false;
  g_align : UPDATE c mod SECT c = 0;
  g_disj1 : disjoint (BOOT c) (PART c) (UPDATE c) (PART c);
  g_disj2 : disjoint (BOOT c) (PART c) (SWAP c) (SECT c);
  g_disj3 : disjoint (UPDATE c) (PART c) (SWAP c) (SECT c);
  g_flags : UFLAGS c = UPDATE c + PART c \/ (UFLAGS c = BOOT c + PART c - 8 /\ BOOT c mod SECT c = 0);
  g_blk : 0 < BLK c /\ PART c + BLK c < 2 ^ 32
}.

(** The flags of the update partition are at its end (the default), or in front of the boot
    partition's (FLAGS_HOME). *)
Definition own_flags (c : cfg) : Prop := UFLAGS c = UPDATE c + PART c.
Definition home_flags (c : cfg) : Prop := UFLAGS c = BOOT c + PART c - 8.
(** They are in the last sector of the partition at [b]. *)
Definition flags_at (c : cfg) (b : Z) : Prop := (own_flags c /\ b = UPDATE c) \/ (home_flags c /\ b = BOOT c).

(** The sector flags of the whole partition fit in the trailer sector, and there are at
    most 512 sectors (the flag index has 8 bits, two sectors per byte). *)
Definition flags_room (c : cfg) : Prop :=
  PART c / SECT c <= 512 /\ 6 + PART c / SECT c / 2 <= SECT c /\
  (own_flags c \/ 14 + PART c / SECT c / 2 <= SECT c).
(** The default layout: the update partition's flags are in its own last sector. *)
Definition flags_fit (c : cfg) : Prop := own_flags c /\ flags_room c.
