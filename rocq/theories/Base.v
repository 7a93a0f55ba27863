(** Shared vocabulary: bytes, little-endian words, list slices. *)
From Coq Require Export ZArith List Lia Bool.
From Coq Require Export ZifyBool ZifyNat ZifyN.
Export ListNotations.
Open Scope Z_scope.

Ltac Zify.zify_post_hook ::= Z.div_mod_to_equations.

(** A byte value. *)
Definition is_byte (b : Z) : Prop := 0 <= b < 256.
Definition all_bytes (l : list Z) : Prop := Forall is_byte l.

(** C expression [p[0] | (p[1] << 8)] on two bytes. *)
Definition le16 (b0 b1 : Z) : Z := Z.lor b0 (Z.shiftl b1 8).

(** A 32-bit little-endian load from four bytes. *)
Definition le32 (b0 b1 b2 b3 : Z) : Z :=
  b0 + 256 * b1 + 65536 * b2 + 16777216 * b3.

(** Bytes of a 16/32/64-bit value in memory order on a little-endian machine. *)
Fixpoint le_bytes (n : nat) (v : Z) : list Z :=
  match n with
  | O => []
  | S n' => v mod 256 :: le_bytes n' (v / 256)
  end.

(** Value of a little-endian byte string. *)
Fixpoint le_val (l : list Z) : Z :=
  match l with
  | [] => 0
  | b :: l' => b + 256 * le_val l'
  end.

(** [sub l off n]: the [n] bytes of [l] starting at [off]. *)
Definition sub {A} (l : list A) (off n : nat) : list A := firstn n (skipn off l).

Definition zlen {A} (l : list A) : Z := Z.of_nat (length l).

(** Outcome of a piece of C code: a value, undefined behaviour (out-of-bounds
    access), or exhausted fuel.  The last one is never a legal result in a theorem. *)
Inductive out (A : Type) : Type :=
| Val (a : A)
| UB
| NoFuel.
Arguments Val {A} a.
Arguments UB {A}.
Arguments NoFuel {A}.

Definition obind {A B} (x : out A) (f : A -> out B) : out B :=
  match x with Val a => f a | UB => UB | NoFuel => NoFuel end.
Notation "'dlet' x <- e 'in' k" := (obind e (fun x => k))
  (at level 200, x pattern, e at level 100, k at level 200).

(** A C array read. *)
Definition rd {A} (l : list A) (i : nat) : out A :=
  match nth_error l i with Some b => Val b | None => UB end.
