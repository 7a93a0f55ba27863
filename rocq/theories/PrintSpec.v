(** What a format of printf means: its pieces, the arguments they take and what they print. *)
From Coq Require Import ZArith List.
From Verif Require Import Base StringSpec.

Inductive piece :=
| Text (c : Z)
| Percent
| Number (conv : Z) (pad : option Z) (size : list Z) (v : Z)   (* "%d", "%08lx", ... *)
| Pointer (v : Z)
| String_ (l : list Z)
| Char (c : Z).

(** How a piece is written in the format. *)
Definition written_as (p : piece) : list Z :=
  match p with
  | Text c => [c]
  | Percent => [37; 37]
  | Number conv pad size _ => 37 :: match pad with Some k => [48; 48 + k] | None => [] end ++ size ++ [conv]
  | Pointer _ => [37; 112]
  | String_ _ => [37; 115]
  | Char _ => [37; 99]
  end.

(** What it prints: hexadecimal digits are capital letters, padded numbers have zeros in front. *)
Definition base_of (conv : Z) : Z := if conv =? 120 then 16 else 10.
Definition width (pad : option Z) : nat := match pad with Some k => Z.to_nat k | None => 0 end.
Definition shown (p : piece) (o : list Z) : Prop :=
  match p with
  | Text c => o = [c]
  | Percent => o = [37]
  | Number conv pad _ v => exists l, numeral (base_of conv) l (Z.abs v) /\
      o = (if v <? 0 then [45] else []) ++ repeat 48 (width pad - length l) ++ l
  | Pointer v => exists l, numeral 16 l v /\ o = 48 :: 120 :: l
  | String_ l => o = l
  | Char c => o = [c]
  end.
