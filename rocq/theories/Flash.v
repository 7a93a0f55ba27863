(** Flash memory, programs that mutate it, uninterrupted execution and power failure. *)
From Verif Require Import Base HeaderModel.

(** One address space; every cell holds a byte ([bytes f]). *)
Definition flash := Z -> Z.
Definition bytes (f : flash) : Prop := forall x, is_byte (f x).

(** [x] is one of the [n] addresses from [a]. *)
Definition inr (a n x : Z) : bool := (a <=? x) && (x <? a + n).

(** hal/sim.c:250-266 [hal_flash_erase]: memset 0xFF over exactly [len] bytes. *)
Definition erase (f : flash) (a n : Z) : flash := fun x => if inr a n x then 255 else f x.

(** hal/sim.c:187-215 [hal_flash_write] with NOR semantics (FLASH_MULTI_SECTOR_WRITE
    aside): programming can only clear bits.  [d i] is the i-th source byte. *)
Definition write (f : flash) (a n : Z) (d : Z -> Z) : flash :=
  fun x => if inr a n x then Z.land (f x) (d (x - a)) else f x.

(** 32-bit and 16-bit little-endian loads. *)
Definition word (f : flash) (a : Z) : Z := le32 (f a) (f (a + 1)) (f (a + 2)) (f (a + 3)).
Definition half (f : flash) (a : Z) : Z := f a + 256 * f (a + 1).

(** The [n] bytes at address [a], as a list. *)
Fixpoint rdl (f : flash) (a : Z) (n : nat) : list Z :=
  match n with O => [] | S n' => f a :: rdl f (a + 1) n' end.

(** Code that mutates flash.  [Panic] is wolfBoot_panic() (an endless loop on the target);
    [Stuck] is undefined behaviour or exhausted loop fuel. *)
Inductive prog (A : Type) : Type :=
| Ret (a : A)
| Rd (k : flash -> prog A)
| Er (a n : Z) (k : prog A)
| Wr (a n : Z) (d : Z -> Z) (k : prog A)
| Panic
| Stuck.
Arguments Ret {A} a.
Arguments Rd {A} k.
Arguments Er {A} a n k.
Arguments Wr {A} a n d k.
Arguments Panic {A}.
Arguments Stuck {A}.

Fixpoint bind {A B} (p : prog A) (k : A -> prog B) : prog B :=
  match p with
  | Ret a => k a
  | Rd r => Rd (fun f => bind (r f) k)
  | Er a n p' => Er a n (bind p' k)
  | Wr a n d p' => Wr a n d (bind p' k)
  | Panic => Panic
  | Stuck => Stuck
  end.
Notation "'let!' x <- p 'in' k" := (bind p (fun x => k))
  (at level 200, x pattern, p at level 100, k at level 200).
Notation "p ;; k" := (bind p (fun _ => k)) (at level 100, k at level 200).

(** Reading a value computed from the current flash. *)
Definition get {A} (g : flash -> A) : prog A := Rd (fun f => Ret (g f)).

(** Uninterrupted execution. *)
Inductive outcome (A : Type) : Type :=
| Done (a : A) (f : flash)
| Panicked (f : flash)
| Wrong.
Arguments Done {A} a f.
Arguments Panicked {A} f.
Arguments Wrong {A}.

Fixpoint run {A} (p : prog A) (f : flash) : outcome A :=
  match p with
  | Ret a => Done a f
  | Rd r => run (r f) f
  | Er a n p' => run p' (erase f a n)
  | Wr a n d p' => run p' (write f a n d)
  | Panic => Panicked f
  | Stuck => Wrong
  end.

(** ** Power failure *)

(** How operations may be torn.  [atomic_erase a]: the erase starting at [a] is assumed to
    complete once started.  [guarded w]: the tear does not *forge* the trailer magic in the
    32-bit word at [w]. *)
Record tear := { atomic_erase : Z -> Prop; guarded : Z -> Prop }.

(** A tear may leave the magic at a guarded word only if it was there before or would have
    been there afterwards. *)
Definition no_forge (t : tear) (before after f' : flash) : Prop :=
  forall w, guarded t w -> word f' w = WOLFBOOT_MAGIC_TRAIL ->
    word before w = WOLFBOOT_MAGIC_TRAIL \/ word after w = WOLFBOOT_MAGIC_TRAIL.

(** An interrupted erase leaves arbitrary bytes in its range. *)
Definition torn_erase (t : tear) (a n : Z) (f f' : flash) : Prop :=
  ~ atomic_erase t a /\ bytes f' /\ (forall x, inr a n x = false -> f' x = f x) /\
  no_forge t f (erase f a n) f'.

(** An interrupted write of at most four bytes (trailer magic, state, flags) leaves in
    every byte any bit pattern between the old and the new one; a longer one (image data)
    leaves arbitrary bytes. *)
Definition torn_write (t : tear) (a n : Z) (d : Z -> Z) (f f' : flash) : Prop :=
  bytes f' /\ (forall x, inr a n x = false -> f' x = f x) /\
  (n <= 4 -> forall x, inr a n x = true ->
     exists m, f' x = Z.lor (Z.land (f x) (d (x - a))) (Z.land (f x) m)) /\
  no_forge t f (write f a n d) f'.

(** Flash contents power failure can leave behind: before, inside or after any operation. *)
Fixpoint crash {A} (t : tear) (p : prog A) (f f' : flash) : Prop :=
  match p with
  | Ret _ => f' = f
  | Panic => f' = f
  | Stuck => f' = f
  | Rd r => crash t (r f) f f'
  | Er a n p' => f' = f \/ torn_erase t a n f f' \/ crash t p' (erase f a n) f'
  | Wr a n d p' => f' = f \/ torn_write t a n d f f' \/ crash t p' (write f a n d) f'
  end.
