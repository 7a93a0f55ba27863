(** Specification of the two-sector trailer. *)
From Verif Require Import Base HeaderModel Flash ImageModel TrailerModel WriteOnceModel.

(** ** Power failures *)

(** A torn erase: each byte is either untouched or erased. *)
Definition byte_erase (a n : Z) (f f' : flash) : Prop :=
  bytes f' /\ forall x, if inr a n x then f' x = f x \/ f' x = 255 else f' x = f x.
(** A torn write: a first part is done, of the next byte only some of the bits are cleared
    ([m] has the others), the rest is not started. *)
Definition seq_write (a n : Z) (d : Z -> Z) (f f' : flash) : Prop :=
  exists k m, 0 <= k < n /\ is_byte m /\
    forall x, f' x = if inr a k x then Z.land (f x) (d (x - a))
                     else if x =? a + k then Z.land (f x) (Z.lor (d k) m) else f x.

(** Contents a power failure can leave behind. *)
Fixpoint cut {A} (p : prog A) (f f' : flash) : Prop :=
  match p with
  | Ret _ => f' = f
  | Panic => f' = f
  | Stuck => f' = f
  | Rd r => cut (r f) f f'
  | Er a n p' => f' = f \/ byte_erase a n f f' \/ cut p' (erase f a n) f'
  | Wr a n d p' => f' = f \/ seq_write a n d f f' \/ cut p' (write f a n d) f'
  end.

(** The same with an erase that may be torn within a byte: some bits already read one. *)
Definition bit_erase (a n : Z) (f f' : flash) : Prop :=
  bytes f' /\ forall x, if inr a n x then exists m, f' x = Z.lor (f x) m else f' x = f x.
Fixpoint cut_bits {A} (p : prog A) (f f' : flash) : Prop :=
  match p with
  | Ret _ => f' = f
  | Panic => f' = f
  | Stuck => f' = f
  | Rd r => cut_bits (r f) f f'
  | Er a n p' => f' = f \/ bit_erase a n f f' \/ cut_bits p' (erase f a n) f'
  | Wr a n d p' => f' = f \/ seq_write a n d f f' \/ cut_bits p' (write f a n d) f'
  end.

(** ** Contents *)

(** A trailer: the state byte, then the sector flags; none of them is the erased value. *)
Definition trailer_ok (c : cfg) (T : list Z) : Prop :=
  Forall (fun b => 0 <= b < 255) T /\ zlen T <= SECT c - 5.

(** Trailer [T] is stored in the copy that ends at [e]: the magic in the last word, then [T]
    downwards, then erased bytes. *)
Definition copy_at (c : cfg) (f : flash) (e : Z) (T : list Z) : Prop :=
  word f (e - 4) = WOLFBOOT_MAGIC_TRAIL /\
  forall i, 0 <= i < SECT c - 4 -> f (e - 5 - i) = nth (Z.to_nat i) T 255.

(** The partition's trailer is [T]: one copy has it, the other one is not valid. *)
Definition trailer_is (c : cfg) (f : flash) (p : part) (T : list Z) : Prop :=
  let e0 := part_addr c p + PART c in
  let e1 := part_addr c p + PART c - SECT c in
  bytes f /\ trailer_ok c T /\
  ((copy_at c f e0 T /\ word f (e1 - 4) <> WOLFBOOT_MAGIC_TRAIL) \/
   (copy_at c f e1 T /\ word f (e0 - 4) <> WOLFBOOT_MAGIC_TRAIL)).

(** No trailer: both sectors erased, except perhaps for the remains of a first magic. *)
Definition trailer_none (c : cfg) (f : flash) (p : part) : Prop :=
  let e0 := part_addr c p + PART c in
  let e1 := part_addr c p + PART c - SECT c in
  bytes f /\ word f (e1 - 4) <> WOLFBOOT_MAGIC_TRAIL /\
  forall x, e0 - 2 * SECT c <= x < e0 -> ~ (e1 - 4 <= x < e1) -> f x = 255.

(** [T] with byte number [i] replaced, or added at the end. *)
Definition update (T : list Z) (i : nat) (v : Z) : list Z := firstn i T ++ v :: skipn (S i) T.

(** ** Operations *)

(** The flag of a sector is half a byte: even sectors have the low half. *)
Definition flag_in (b sector : Z) : Z := if Z.even sector then b mod 16 else b / 16.
Definition with_flag (b sector v : Z) : Z := if Z.even sector then b / 16 * 16 + v else v * 16 + b mod 16.
Definition flag_index (sector : Z) : nat := S (Z.to_nat (sector / 2)).

Inductive op : Type :=
| SetState (v : Z)
| SetFlag (sector v : Z)
| Trigger
| GetState
| GetFlag (sector : Z).

Definition code (c : cfg) (p : part) (o : op) : prog unit :=
  match o with
  | SetState v => nvm_set_state c p v
  | SetFlag k v => nvm_set_flag c k v
  | Trigger => nvm_trigger c
  | GetState => nvm_get_state c p ;; Ret tt
  | GetFlag k => nvm_get_flag c k ;; Ret tt
  end.

(** Contents of a trailer: [None] if there is none. *)
Definition contents : Type := option (list Z).

(** When an operation may be used: no byte becomes the erased value, and bytes are used in
    order (as the loop over the sectors does). *)
Definition usable (c : cfg) (p : part) (o : op) (a : contents) : Prop :=
  match o with
  | SetState v => 0 <= v < 255
  | SetFlag k v => p = PUPDATE /\ 0 <= k < 512 /\ k / 2 + 2 <= SECT c - 5 /\ 0 <= v < 15 /\
                   exists T, a = Some T /\ (flag_index k <= length T)%nat
  | Trigger => p = PUPDATE
  | GetState => True
  | GetFlag k => p = PUPDATE /\ 0 <= k < 512 /\ k / 2 + 2 <= SECT c - 4
  end.

Definition effect (o : op) (a : contents) : contents :=
  match o, a with
  | SetState v, Some T => Some (update T 0 v)
  | SetState v, None => Some [v]
  | Trigger, Some T => Some (update T 0 ST_UPDATING)
  | Trigger, None => Some [ST_UPDATING]
  | SetFlag k v, Some T => Some (update T (flag_index k) (with_flag (nth (flag_index k) T 255) k v))
  | _, _ => a
  end.

(** After an interruption: nothing happened, or everything, or the first trailer was begun. *)
Definition interrupted (o : op) (a b : contents) : Prop :=
  b = a \/ b = effect o a \/ (a = None /\ effect o a <> None /\ b = Some []).

(** Reading the flash [f] gives [a]. *)
Definition reads (c : cfg) (f : flash) (p : part) (a : contents) : Prop :=
  match a with
  | None => exists f', run (nvm_magic c p) f = Done false f'
  | Some T => trailer_ok c T /\ (exists f', run (nvm_magic c p) f = Done true f') /\
      forall i, 0 <= i < SECT c - 4 -> exists f', run (nvm_byte c p (1 + i)) f = Done (nth (Z.to_nat i) T 255) f'
  end.

Definition starts (c : cfg) (f : flash) (p : part) (a : contents) : Prop :=
  match a with None => trailer_none c f p | Some T => trailer_is c f p T end.

(** Histories of complete and interrupted operations. *)
Inductive history (c : cfg) (p : part) : flash -> contents -> Prop :=
| h_start : forall f a, starts c f p a -> history c p f a
| h_done : forall f a o g, history c p f a -> usable c p o a -> run (code c p o) f = Done tt g ->
    history c p g (effect o a)
| h_cut : forall f a o g b, history c p f a -> usable c p o a -> cut (code c p o) f g ->
    interrupted o a b -> reads c g p b -> history c p g b.

(** The partitions are aligned to sectors. *)
Definition aligned (c : cfg) (p : part) : Prop := part_addr c p mod SECT c = 0.
