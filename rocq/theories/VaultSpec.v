(** What a client of the key vault expects: named byte strings, opened for reading or for
    rewriting through sixteen handles. *)
From Verif Require Import Base Flash VaultModel.

(** An open handle: its object, whether it is read-only, and its position. *)
Record ahandle : Type := mkA { a_key : key; a_ro : bool; a_off : nat }.
Record vstore : Type := mkV { v_objs : list (key * list Z); v_open : list (option ahandle) }.
Definition empty_store : vstore := mkV [] (repeat None MAX_OPEN).

Definition key_eqb (a b : key) : bool :=
  let '(t1, k1, o1) := a in let '(t2, k2, o2) := b in (t1 =? t2) && (k1 =? k2) && (o1 =? o2).
Fixpoint vget (l : list (key * list Z)) (k : key) : option (list Z) :=
  match l with
  | [] => None
  | (k', d) :: r => if key_eqb k k' then Some d else vget r k
  end.
Fixpoint vset (l : list (key * list Z)) (k : key) (d : list Z) : list (key * list Z) :=
  match l with
  | [] => [(k, d)]
  | (k', d') :: r => if key_eqb k k' then (k', d) :: r else (k', d') :: vset r k d
  end.
Fixpoint free_slot (l : list (option ahandle)) : option nat :=
  match l with
  | [] => None
  | None :: _ => Some O
  | Some _ :: r => match free_slot r with Some i => Some (S i) | None => None end
  end.

(** At most [items] objects of at most [room] bytes. *)
Definition spec_call (items room : nat) (o : vop) (s : vstore) : vres * vstore :=
  match o with
  | OpOpen k ro =>
    match free_slot (v_open s) with
    | None => (ROpen (Failed SESSION_COUNT_E), s)
    | Some i =>
      match vget (v_objs s) k with
      | None =>
        if ro then (ROpen (Failed NOT_AVAILABLE_E), s)
        else if (length (v_objs s) <? items)%nat then
          (ROpen (Opened i), mkV (vset (v_objs s) k []) (set_nth (v_open s) i (Some (mkA k false 0))))
        else (ROpen (Failed FIND_FULL_E), s)
      | Some _ =>
        (ROpen (Opened i),
         mkV (if ro then v_objs s else vset (v_objs s) k []) (set_nth (v_open s) i (Some (mkA k ro 0))))
      end
    end
  | OpClose i => (RClosed, mkV (v_objs s) (set_nth (v_open s) i None))
  | OpRead i len =>
    match nth i (v_open s) None with
    | None => (RRead (-1) [], s)
    | Some h =>
      match vget (v_objs s) (a_key h) with
      | None => (RRead (-1) [], s)
      | Some d =>
        let l := firstn (Z.to_nat len) (skipn (a_off h) d) in
        (RRead (zlen l) l, mkV (v_objs s) (set_nth (v_open s) i (Some (mkA (a_key h) (a_ro h) (a_off h + length l)))))
      end
    end
  | OpWrite i data =>
    match nth i (v_open s) None with
    | None => (RWrote (-1), s)
    | Some h =>
      if a_ro h then (RWrote (-1), s)
      else
        match vget (v_objs s) (a_key h) with
        | None => (RWrote (-1), s)
        | Some d =>
          let l := firstn (room - length d) data in
          (RWrote (zlen l), mkV (vset (v_objs s) (a_key h) (d ++ l))
                                (set_nth (v_open s) i (Some (mkA (a_key h) false (length d + length l)))))
        end
    end
  end.
Fixpoint spec_calls (items room : nat) (os : list vop) (s : vstore) : list vres * vstore :=
  match os with
  | [] => ([], s)
  | o :: os' =>
    let (r, s) := spec_call items room o s in
    let (rs, s) := spec_calls items room os' s in
    (r :: rs, s)
  end.

(** A client's obligations: 32-bit ids other than two reserved token ids, one of sixteen
    handles, [int] lengths, and no second handle for writing an object while one is open. *)
Definition key_ok (k : key) : Prop :=
  let '(ty, tok, obj) := k in
  0 <= ty < 2 ^ 32 /\ 0 <= tok < 2 ^ 32 /\ 0 <= obj < 2 ^ 32 /\ tok <> INVALID /\ tok <> VMAGIC.
Definition no_writer (s : vstore) (k : key) : Prop :=
  forall i h, nth i (v_open s) None = Some h -> a_key h = k -> a_ro h = true.
Definition call_ok (s : vstore) (o : vop) : Prop :=
  match o with
  | OpOpen k ro => key_ok k /\ (ro = false -> no_writer s k)
  | OpClose i => (i < MAX_OPEN)%nat
  | OpRead i len => (i < MAX_OPEN)%nat /\ 0 <= len < 2 ^ 31
  | OpWrite i data => (i < MAX_OPEN)%nat /\ all_bytes data /\ zlen data < 2 ^ 31
  end.
Fixpoint calls_ok (items room : nat) (os : list vop) (s : vstore) : Prop :=
  match os with
  | [] => True
  | o :: os' => call_ok s o /\ calls_ok items room os' (snd (spec_call items room o s))
  end.

(** Geometry: an aligned vault, whole objects in a sector, whole headers in the table, and the
    bitmap within the first 32 bytes. *)
Definition vcfg_ok (c : vcfg) : Prop :=
  0 <= VB c /\ VB c mod VSEC c = 0 /\ 160 <= VSEC c /\ VSEC c mod 32 = 0 /\
  8 <= OSZ c < 2 ^ 31 /\ VSEC c mod OSZ c = 0 /\ 0 < MAXI c < 224 /\
  MAXI c * OSZ c < 2 ^ 32.
(** How many objects there can be, and how long. *)
Definition items (c : vcfg) : nat := Nat.min (Z.to_nat (MAXI c)) (Z.to_nat ((VSEC c - HDROFF) / HDRSZ)).
Definition room (c : vcfg) : nat := Z.to_nat (OSZ c - 8).

(** Successive boots: all handles are closed, the objects stay. *)
Definition reboot (s : vstore) : vstore := mkV (v_objs s) (repeat None MAX_OPEN).
Fixpoint spec_boots (items room : nat) (oss : list (list vop)) (s : vstore) : list (list vres) * vstore :=
  match oss with
  | [] => ([], s)
  | os :: oss' =>
    let (rs, s) := spec_calls items room os (reboot s) in
    let (rss, s) := spec_boots items room oss' s in
    (rs :: rss, s)
  end.
Fixpoint boots_ok (items room : nat) (oss : list (list vop)) (s : vstore) : Prop :=
  match oss with
  | [] => True
  | os :: oss' => calls_ok items room os (reboot s) /\ boots_ok items room oss' (snd (spec_calls items room os (reboot s)))
  end.

(** The object a call is about. *)
Definition about (s : vstore) (o : vop) : option key :=
  match o with
  | OpOpen k _ => Some k
  | OpWrite i _ => match nth i (v_open s) None with Some h => Some (a_key h) | None => None end
  | _ => None
  end.

(** Power failure between two flash operations: [f'] is one of the contents on the way. *)
Fixpoint stops {A} (p : prog A) (f f' : flash) : Prop :=
  match p with
  | Ret _ | Panic | Stuck => f' = f
  | Rd r => stops (r f) f f'
  | Er a n p' => f' = f \/ stops p' (erase f a n) f'
  | Wr a n d p' => f' = f \/ stops p' (write f a n d) f'
  end.

(** [g'] from [g]: any number of boots in which the client creates [k] first and power fails
    during that call. *)
Inductive retried (c : vcfg) (k : key) : flash -> flash -> Prop :=
| no_retry : forall g, retried c k g g
| one_retry : forall g g1 g2, stops (call c (OpOpen k false) no_handles) g g1 -> retried c k g1 g2 -> retried c k g g2.
