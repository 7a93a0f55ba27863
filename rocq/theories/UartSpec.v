(** What the remote flash property refers to: a memory, the operations on it, and their
    results. *)
From Verif Require Import Base.

(** A call of the flash interface.  [Lock] is either of the lock and unlock calls;
    [Version v] reports the running version to the other side. *)
Inductive op := Read (a : Z) (n : nat) | Write (a : Z) (d : list Z) | Erase (a : Z) (n : nat) | Lock | Version (v : Z).

(** What a call returns, and the bytes it read. *)
Definition result := (Z * list Z)%type.

Definition cells (f : Z -> Z) (a : Z) (n : nat) : list Z := map (fun i => f (a + Z.of_nat i)) (seq 0 n).
Definition over (f : Z -> Z) (a : Z) (d : list Z) : Z -> Z :=
  fun x => if (a <=? x) && (x <? a + zlen d) then nth (Z.to_nat (x - a)) d 0 else f x.

(** The operation done on a memory at hand. *)
Definition effect (o : op) (f : Z -> Z) : (Z -> Z) * result :=
  match o with
  | Read a n => (f, (Z.of_nat n, cells f a n))
  | Write a d => (over f a d, (zlen d, []))
  | Erase a n => (over f a (repeat 255 n), (0, []))
  | Lock => (f, (0, []))
  | Version _ => (f, (0, []))
  end.

(** The call reports success.  (The version report returns nothing in C: here 0 if all of it
    was acknowledged.) *)
Definition succeeded (o : op) (r : result) : Prop :=
  fst r = match o with Read _ n => Z.of_nat n | Write _ d => zlen d | _ => 0 end.

(** [replay f h]: the calls and results [h] are those of a memory at hand with contents [f]. *)
Fixpoint replay (f : Z -> Z) (h : list (op * result)) : Prop :=
  match h with
  | [] => True
  | (o, r) :: h' => r = snd (effect o f) /\ replay (fst (effect o f)) h'
  end.

(** The memory after the calls [h]. *)
Fixpoint after (f : Z -> Z) (h : list (op * result)) : Z -> Z :=
  match h with [] => f | (o, _) :: h' => after (fst (effect o f)) h' end.

(** Calls within a memory of [size] bytes. *)
Definition in_range (size : Z) (o : op) : Prop :=
  match o with
  | Read a n | Erase a n => 0 <= a /\ a + Z.of_nat n <= size
  | Write a d => 0 <= a /\ a + zlen d <= size /\ all_bytes d
  | Lock => True
  | Version v => 0 <= v < 2 ^ 32
  end.
