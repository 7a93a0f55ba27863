(** Device trees, and what it means that a blob holds one (Devicetree Specification 0.4,
    chapter 5, version 17, without NOP tokens). *)
From Verif Require Import Base.

(** A node: its name, its properties in order, its children in order. *)
Inductive tree := Node (name : list Z) (props : list (list Z * list Z)) (kids : list tree).
Definition t_name (t : tree) : list Z := let (n, _, _) := t in n.
Definition t_props (t : tree) : list (list Z * list Z) := let (_, ps, _) := t in ps.
Definition t_kids (t : tree) : list tree := let (_, _, ks) := t in ks.

(** The tokens of the structure block. *)
Inductive tok := KBegin (name : list Z) | KProp (name data : list Z) | KEnd | KFin.
Fixpoint flat (t : tree) : list tok :=
  match t with
  | Node n ps ks => KBegin n :: map (fun p => KProp (fst p) (snd p)) ps ++ flat_map flat ks ++ [KEnd]
  end.

Definition be32 (v : Z) : list Z := [v / 2 ^ 24 mod 256; v / 2 ^ 16 mod 256; v / 2 ^ 8 mod 256; v mod 256].
Definition up4 (x : Z) : Z := (x + 3) / 4 * 4.
Definition t_size (k : tok) : Z :=
  match k with
  | KBegin n => 4 + up4 (zlen n + 1)
  | KProp _ d => 12 + up4 (zlen d)
  | KEnd | KFin => 4
  end.
Fixpoint size (ts : list tok) : Z := match ts with [] => 0 | k :: ts' => t_size k + size ts' end.

(** [l] is the token [k]; the names of properties are in the strings block [strs], at any
    place; padding has any value. *)
Definition is_tok (strs : list Z) (k : tok) (l : list Z) : Prop :=
  zlen l = t_size k /\
  match k with
  | KBegin n => exists pad, l = be32 1 ++ n ++ [0] ++ pad
  | KProp n d =>
    exists at_ pad, l = be32 3 ++ be32 (zlen d) ++ be32 at_ ++ d ++ pad /\ 0 <= at_ < 2 ^ 32 /\
      exists before after, strs = before ++ n ++ [0] ++ after /\ zlen before = at_
  | KEnd => l = be32 2
  | KFin => l = be32 9
  end.
Fixpoint are_toks (strs : list Z) (ts : list tok) (l : list Z) : Prop :=
  match ts with
  | [] => l = []
  | k :: ts' => exists l1 l2, l = l1 ++ l2 /\ is_tok strs k l1 /\ are_toks strs ts' l2
  end.

(** Names are non-empty sequences of bytes other than zero, or empty. *)
Definition cstr (s : list Z) : Prop := Forall (fun c => 0 < c < 256) s.
Definition good_tok (k : tok) : Prop :=
  match k with KBegin n => cstr n | KProp n d => cstr n /\ all_bytes d | _ => True end.

(** A device tree and the rest of the blob's header: total size, CPU id, offset and content of
    the memory reservations (everything between header and structure block). *)
Record dt : Type := mkDT { d_total : Z; d_rsv : Z; d_comp : Z; d_cpu : Z; d_pre : list Z; d_tree : tree }.
Definition header (total os oss rsv comp cpu sss ss : Z) : list Z :=
  be32 0xD00DFEED ++ be32 total ++ be32 os ++ be32 oss ++ be32 rsv ++ be32 17 ++ be32 comp ++ be32 cpu ++ be32 sss ++ be32 ss.
(** The blob [b] holds [d]; [used] bytes are in use. *)
Definition dtb (b : list Z) (d : dt) (used : Z) : Prop :=
  exists st gap strs slack,
    let os := 40 + zlen (d_pre d) in
    let oss := os + zlen st + zlen gap in
    b = header (d_total d) os oss (d_rsv d) (d_comp d) (d_cpu d) (zlen strs) (zlen st) ++ d_pre d ++ st ++ gap ++ strs ++ slack /\
    used = oss + zlen strs /\ used <= d_total d <= zlen b /\ zlen b < 2 ^ 31 /\
    0 <= d_rsv d < 2 ^ 32 /\ 0 <= d_comp d <= 17 /\ 0 <= d_cpu d < 2 ^ 32 /\ all_bytes b /\
    Forall good_tok (flat (d_tree d)) /\ are_toks strs (flat (d_tree d) ++ [KFin]) st.

(** ** Positions *)

(** The node reached by a path of child numbers, and its offset in the structure block. *)
Definition props_size (ps : list (list Z * list Z)) : Z := fold_right (fun p n => 12 + up4 (zlen (snd p)) + n) 0 ps.
Fixpoint node_at (path : list nat) (o : Z) (t : tree) : option (Z * tree) :=
  match path with
  | [] => Some (o, t)
  | i :: path' =>
    match t with
    | Node n ps ks =>
      match nth_error ks i with
      | None => None
      | Some k => node_at path' (o + 4 + up4 (zlen n + 1) + props_size ps + size (flat_map flat (firstn i ks))) k
      end
    end
  end.
(** The tree with the node at a path changed. *)
Fixpoint upd {A} (l : list A) (i : nat) (f : A -> A) : list A :=
  match l, i with
  | [], _ => []
  | x :: r, O => f x :: r
  | x :: r, S i' => x :: upd r i' f
  end.
Fixpoint edit (path : list nat) (f : tree -> tree) (t : tree) : tree :=
  match path with
  | [] => f t
  | i :: path' => match t with Node n ps ks => Node n ps (upd ks i (edit path' f)) end
  end.
Definition with_tree (d : dt) (t : tree) : dt := mkDT (d_total d) (d_rsv d) (d_comp d) (d_cpu d) (d_pre d) t.

(** All nodes in document order, with their offsets. *)
Fixpoint nodes (o : Z) (t : tree) : list (Z * tree) :=
  match t with
  | Node n ps ks =>
    (o, t) :: (fix go o ks := match ks with [] => [] | k :: r => nodes o k ++ go (o + size (flat k)) r end)
                (o + 4 + up4 (zlen n + 1) + props_size ps) ks
  end.

(** ** Operations on trees *)

Definition seqb (a b : list Z) : bool := if list_eq_dec Z.eq_dec a b then true else false.
(** The first property with a name. *)
Fixpoint prop_get (ps : list (list Z * list Z)) (name : list Z) : option (list Z) :=
  match ps with
  | [] => None
  | (n, d) :: r => if seqb n name then Some d else prop_get r name
  end.
(** Replaces the first property with that name; otherwise the new one comes first. *)
Fixpoint prop_replace (ps : list (list Z * list Z)) (name data : list Z) : list (list Z * list Z) :=
  match ps with
  | [] => []
  | (n, d) :: r => if seqb n name then (n, data) :: r else (n, d) :: prop_replace r name data
  end.
Definition prop_set (name data : list Z) (t : tree) : tree :=
  match t with
  | Node n ps ks => Node n (match prop_get ps name with Some _ => prop_replace ps name data | None => (name, data) :: ps end) ks
  end.
Definition add_kid (name : list Z) (t : tree) : tree := match t with Node n ps ks => Node n ps (Node name [] [] :: ks) end.
Definition del_kid (i : nat) (t : tree) : tree := match t with Node n ps ks => Node n ps (firstn i ks ++ skipn (S i) ks) end.
(** A node's name, or its name without the unit address. *)
Definition name_matches (s n : list Z) : bool :=
  seqb s n || (negb (existsb (Z.eqb 64) s) && seqb (s ++ [64]) (firstn (S (length s)) n)).
(** The strings of a property that holds a list of strings. *)
Definition strings (ss : list (list Z)) : list Z := flat_map (fun s => s ++ [0]) ss.
(** The strings separated by zeros. *)
Fixpoint words (d : list Z) : list (list Z) :=
  match d with
  | [] => []
  | c :: r => if c =? 0 then [] :: words r else match words r with [] => [[c]] | w :: ws => (c :: w) :: ws end
  end.
Definition string_list (d : list Z) : Prop := exists l, Forall cstr l /\ d = strings l.
Definition has_word (s d : list Z) : bool := existsb (fun x => seqb x s) (words d).
(** The offset of the first node that passes a test; [FDT_ERR_NOTFOUND] without one. *)
Definition first_of {A} (test : A -> bool) (l : list (Z * A)) : Z :=
  match find (fun x => test (snd x)) l with Some (o, _) => o | None => -6 end.
(** The bytes [l] are in [b] at the address [a]. *)
Definition holds (b : list Z) (a : Z) (l : list Z) : Prop := exists A E, b = A ++ l ++ E /\ zlen A = a.
(** Searches continue after a node, or start at the root: the nodes they visit. *)
Inductive from (d : dt) : Z -> list (Z * tree) -> Prop :=
| from_start : forall start, start < 0 -> from d start (nodes 0 (d_tree d))
| from_node : forall l1 q x l2, nodes 0 (d_tree d) = l1 ++ (q, x) :: l2 -> from d q l2.
(** [b'] is as long as [b] and equal to it from [n] on. *)
Definition same_tail (n : Z) (b b' : list Z) : Prop := zlen b' = zlen b /\ skipn (Z.to_nat n) b' = skipn (Z.to_nat n) b.

(** ** Images in a tree *)

(** The first node in document order with a name; with a property that is the given string. *)
Definition named_node (t : tree) (name : list Z) : option (Z * tree) := find (fun x => seqb (t_name (snd x)) name) (nodes 0 t).
Definition with_prop (t : tree) (name val : list Z) : option (Z * tree) :=
  find (fun x => match prop_get (t_props (snd x)) name with Some v => seqb v (val ++ [0]) | None => false end) (nodes 0 t).
(** An address: a property of four or eight bytes; 0 otherwise. *)
Definition address (x : tree) (name : list Z) : Z :=
  match prop_get (t_props x) name with Some v => if (zlen v =? 8) || (zlen v =? 4) then le_val (rev v) else 0 | None => 0 end.
