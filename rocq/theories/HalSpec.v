(** On-chip flash: what a caller of [hal_flash_write] and [hal_flash_erase] relies on
    (include/hal.h, docs/HAL.md).  The chip is an array of bytes indexed by address. *)
From Verif Require Import Base.

Definition mem := Z -> Z.

(** Equal contents. *)
Definition same (m m' : mem) : Prop := forall x, m x = m' x.

(** The contents with the bytes [d] at address [a]. *)
Definition patch (m : mem) (a : Z) (d : list Z) : mem :=
  fun x => if (a <=? x) && (x <? a + zlen d) then nth (Z.to_nat (x - a)) d 0 else m x.

(** The contents with the [n] bytes at [a] erased. *)
Definition wipe (m : mem) (a n : Z) : mem :=
  fun x => if (a <=? x) && (x <? a + n) then 255 else m x.

(** The [n] bytes at [a] are erased. *)
Definition blank (m : mem) (a n : Z) : Prop := forall x, a <= x < a + n -> m x = 255.

(** Storing [d] at [a] needs no bit to go from 0 to 1. *)
Definition clears (m : mem) (a : Z) (d : list Z) : Prop :=
  forall x, a <= x < a + zlen d -> Z.land (m x) (patch m a d x) = patch m a d x.

(** The write call returned 0, the bytes are there, nothing else changed. *)
Definition written (r : out (mem * Z)) (m : mem) (a : Z) (d : list Z) : Prop :=
  exists m', r = Val (m', 0) /\ same m' (patch m a d).

(** The request was refused and the chip was left alone. *)
Definition refused (r : out (mem * Z)) (m : mem) : Prop :=
  exists m', r = Val (m', -1) /\ same m' m.

(** The erase call returned 0, every page of size [ps] that contains one of the [n] bytes
    at [a] is erased, and nothing else changed. *)
Definition erased (r : out (mem * Z)) (m : mem) (ps a n : Z) : Prop :=
  exists m', r = Val (m', 0) /\
    forall x, m' x = if (a / ps <=? x / ps) && (x / ps <=? (a + n - 1) / ps) then 255 else m x.

(** A flash made of sectors of different sizes: sector [i] goes from the [i]-th to the next
    address of a growing list. *)
Fixpoint growing (l : list Z) : Prop :=
  match l with
  | x :: ((y :: _) as l') => x < y /\ growing l'
  | _ => True
  end.

Definition in_sector (tab : list Z) (i : nat) (x : Z) : Prop :=
  (S i < length tab)%nat /\ nth i tab 0 <= x < nth (S i) tab 0.

(** As [erased], for a flash with the sectors [tab]. *)
Definition sectors_erased (r : out (mem * Z)) (m : mem) (tab : list Z) (a n : Z) : Prop :=
  exists m', r = Val (m', 0) /\
    forall x,
      ((exists i y, in_sector tab i x /\ in_sector tab i y /\ a <= y < a + n) -> m' x = 255) /\
      (~ (exists i y, in_sector tab i x /\ in_sector tab i y /\ a <= y < a + n) -> m' x = m x).
