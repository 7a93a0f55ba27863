(** Specification of the factory image: every part at its address, the fill byte elsewhere. *)
From Verif Require Import Base BinModel.
From Coq Require Import Permutation.

(** [qsort] by address: some permutation in which addresses do not decrease. *)
Fixpoint ascending (es : list part_in) : Prop :=
  match es with
  | e :: r => (forall e', In e' r -> p_addr e <= p_addr e') /\ ascending r
  | [] => True
  end.
Definition sorted_of (es es' : list part_in) : Prop := Permutation es es' /\ ascending es'.

(** Address [a] belongs to [e]. *)
Definition covers (e : part_in) (a : Z) : Prop := p_addr e <= a < p_addr e + zlen (p_data e).

(** The byte of the file that ends up at address [a], if the file goes to [base]. *)
Definition at_addr (base : Z) (out : list Z) (a : Z) : Z := nth (Z.to_nat (a - base)) out (-1).

(** The lowest address of the parts, and the address behind the last one. *)
Definition lowest (es : list part_in) (b : Z) : Prop :=
  (exists e, In e es /\ p_addr e = b) /\ forall e, In e es -> b <= p_addr e.
Definition highest (es : list part_in) (t : Z) : Prop :=
  (exists e, In e es /\ p_addr e + zlen (p_data e) = t) /\ forall e, In e es -> p_addr e + zlen (p_data e) <= t.

(** The addresses are positive 64-bit numbers, and so are the ends of the parts. *)
Definition in_range (e : part_in) : Prop := 0 <= p_addr e /\ p_addr e + zlen (p_data e) < 2 ^ 63.

(** In front of every part but the lowest there is another one, less than [INT_MAX] away. *)
Definition close (es : list part_in) : Prop :=
  forall e, In e es -> lowest es (p_addr e) \/
    exists e', In e' es /\ p_addr e' < p_addr e /\ p_addr e - (p_addr e' + zlen (p_data e')) < 2 ^ 31 - 1.

(** The file the user wants. *)
Definition factory (es : list part_in) (out : list Z) : Prop :=
  exists b t, lowest es b /\ highest es t /\ zlen out = t - b /\
    (forall e i, In e es -> 0 <= i < zlen (p_data e) -> at_addr b out (p_addr e + i) = nth (Z.to_nat i) (p_data e) 0) /\
    (forall a, b <= a < t -> (forall e, In e es -> ~ covers e a) -> at_addr b out a = 255).

(** No address belongs to two parts. *)
Definition apart (es : list part_in) : Prop :=
  ForallOrdPairs (fun e1 e2 => forall a, covers e1 a -> ~ covers e2 a) es.

(** ** Numbers as text *)
Definition hex_digit (d : Z) : Z := if d <? 10 then 48 + d else 87 + d.
Definition value (b : Z) (ds : list Z) : Z := fold_left (fun v d => v * b + d) ds 0.
