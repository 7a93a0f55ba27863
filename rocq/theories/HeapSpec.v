(** Specification of an allocator, and of a sane pool. *)
From Verif Require Import Base HeapModel.

Inductive op := Malloc (n : Z) | Free (ptr : Z).

(** The live allocations, as the caller sees them: pointer and requested size. *)
Definition ledger := list (Z * Z).
Fixpoint drop (ptr : Z) (l : ledger) : ledger :=
  match l with
  | [] => []
  | x :: r => if fst x =? ptr then r else x :: drop ptr r
  end.

(** A history of calls: what the caller holds afterwards, and the pool. *)
Definition step (o : op) (s : ledger * pool) : ledger * pool :=
  match o with
  | Malloc n => let (a, p') := xmalloc n (snd s) in (if a =? 0 then fst s else (a, n) :: fst s, p')
  | Free ptr => (drop ptr (fst s), xfree ptr (snd s))
  end.
Definition history (os : list op) (s : ledger * pool) : ledger * pool := fold_left (fun s o => step o s) os s.

Definition apart (a n b m : Z) : Prop := a + n <= b \/ b + m <= a.

(** Memory as the linker lays it out: the buffers are apart and not at address 0. *)
Fixpoint placed (p : pool) : Prop :=
  match p with
  | [] => True
  | s :: r => 0 < s_addr s /\ Forall (fun t => apart (s_addr s) (s_room s) (s_addr t) (s_room t) /\ s_addr s <> s_addr t) r /\ placed r
  end.

(** Table and buffers agree. *)
Definition fits (p : pool) : Prop := Forall (fun s => s_size s <= s_room s) p.
Definition unused (p : pool) : Prop := Forall (fun s => s_used s = false) p.

(** Live allocations do not overlap. *)
Fixpoint disjoint (l : ledger) : Prop :=
  match l with
  | [] => True
  | x :: r => Forall (fun y => apart (fst x) (snd x) (fst y) (snd y)) r /\ disjoint r
  end.
