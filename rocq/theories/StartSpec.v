(** What C87 and C88 mean: the caches of a processor that does not keep them coherent, and the
    initial values of variables. *)
From Verif Require Import Base StartModel.

(** ** Caches *)

(** A data cache that holds stores back from memory, and an instruction cache that does not see
    them.  Both hold any set of lines, by number; the contents of a line are by address. *)
Record caches := { main : Z -> Z; data_lines : Z -> option (Z -> Z); code_lines : Z -> option (Z -> Z) }.

(** What a load of the program sees at address [a], and what the processor executes there. *)
Definition loads (line : Z) (c : caches) (a : Z) : Z :=
  match data_lines c (a / line) with Some l => l a | None => main c a end.
Definition fetches (line : Z) (c : caches) (a : Z) : Z :=
  match code_lines c (a / line) with Some l => l a | None => main c a end.

(** The instructions: dcbst writes the line of an address to memory and keeps it, icbi drops it from
    the instruction cache. *)
Definition does (line : Z) (c : caches) (o : cache_op) : caches :=
  match o with
  | Dcbst a =>
      {| main := fun x => if x / line =? a / line then loads line c x else main c x;
         data_lines := data_lines c; code_lines := code_lines c |}
  | Icbi a =>
      {| main := main c; data_lines := data_lines c;
         code_lines := fun n => if n =? a / line then None else code_lines c n |}
  end.
Definition after (line : Z) (c : caches) (l : list cache_op) : caches := fold_left (does line) l c.

(** ** Variables *)

(** [m'] is [m] with the variables at their initial values: those with a value have the stored one,
    the others are zero, and nothing else is changed. *)
Definition initialised (s : sections) (m m' : Z -> Z) : Prop :=
  (forall a, start_data s <= a < end_data s -> m' a = m (stored_data s + (a - start_data s))) /\
  (forall a, start_bss s <= a < end_bss s -> m' a = 0) /\
  (forall a, ~ start_data s <= a < end_data s -> ~ start_bss s <= a < end_bss s -> m' a = m a).

(** The sections consist of words, the variables do not overlap, and the stored values are elsewhere. *)
Definition laid_out (s : sections) : Prop :=
  start_data s <= end_data s /\ (end_data s - start_data s) mod 4 = 0 /\
  start_bss s <= end_bss s /\ (end_bss s - start_bss s) mod 4 = 0 /\
  (end_data s <= start_bss s \/ end_bss s <= start_data s) /\
  (stored_data s + (end_data s - start_data s) <= start_data s \/ end_data s <= stored_data s).
