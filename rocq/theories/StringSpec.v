(** What ISO C says about the functions of <string.h>. *)
From Verif Require Import Base StringModel.

(** [n] bytes from [a] on may be accessed. *)
Definition ok_range (m : mem) (a n : Z) : Prop := forall x, a <= x < a + n -> m x <> None.
(** All memory cells hold bytes. *)
Definition byte_mem (m : mem) : Prop := forall a v, m a = Some v -> is_byte v.
(** The bytes [l] are at [a]; the string [l] (without its terminator) is at [a]. *)
Definition holds (m : mem) (a : Z) (l : list Z) : Prop := forall i, (i < length l)%nat -> m (a + Z.of_nat i) = Some (nth i l 0).
Definition is_str (l : list Z) : Prop := Forall (fun c => 0 < c < 256) l.
Definition cstr (m : mem) (a : Z) (l : list Z) : Prop := is_str l /\ holds m a (l ++ [0]).

(** [m'] is [m] with the bytes [l] at [a]. *)
Definition stored (m m' : mem) (a : Z) (l : list Z) : Prop :=
  forall x, m' x = if (a <=? x) && (x <? a + zlen l) then Some (nth (Z.to_nat (x - a)) l 0) else m x.
(** [m'] is [m] with [n] bytes copied from [s] to [d], as if through a temporary array. *)
Definition moved (m m' : mem) (d s n : Z) : Prop :=
  forall x, m' x = if (d <=? x) && (x <? d + n) then m (s + (x - d)) else m x.

(** Comparison of byte strings, and the results of the comparison functions. *)
Fixpoint lex (l1 l2 : list Z) : comparison :=
  match l1, l2 with
  | [], [] => Eq
  | [], _ => Lt
  | _, [] => Gt
  | x :: r1, y :: r2 => match x ?= y with Eq => lex r1 r2 | c => c end
  end.
Definition sign_is (v : Z) (c : comparison) : Prop := (v ?= 0) = c.
(** Letters in lower case. *)
Definition lower (c : Z) : Z := if (65 <=? c) && (c <=? 90) then c + 32 else c.

(** ** Numbers *)

(** Value of a digit, of a string of digits. *)
Definition dval (c : Z) : Z := if c <? 58 then c - 48 else c - 55.
Definition is_digit (base c : Z) : Prop := (48 <= c <= 57 \/ 65 <= c <= 70) /\ dval c < base.
Fixpoint value (base acc : Z) (l : list Z) : Z :=
  match l with [] => acc | c :: r => value base (acc * base + dval c) r end.
(** [l] is the usual notation of [v]. *)
Definition numeral (base : Z) (l : list Z) (v : Z) : Prop :=
  Forall (is_digit base) l /\ value base 0 l = v /\ l <> [] /\ (hd 0 l = 48 -> l = [48]).
