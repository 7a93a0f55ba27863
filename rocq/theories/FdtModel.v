(** Flattened device trees: lookup, fix-up and FIT images.  Source: src/fdt.c, include/fdt.h.
    A blob is the list of bytes of the caller's buffer, addresses are relative to it.  Accesses
    to the ten header words are not checked: the buffer is assumed to hold a header. *)
From Verif Require Import Base StringModel.

Definition blob : Type := list Z.
Definition be32b (v : Z) : list Z := rev (le_bytes 4 v).
Definition be_val (l : list Z) : Z := le_val (rev l).

Definition ldb (b : blob) (a : Z) : out Z :=
  if a <? 0 then UB else match nth_error b (Z.to_nat a) with Some v => Val v | None => UB end.
(** [n] bytes from [a] on. *)
Definition lds (b : blob) (a n : Z) : out (list Z) :=
  if n <=? 0 then Val []
  else if (a <? 0) || (zlen b <? a + n) then UB else Val (sub b (Z.to_nat a) (Z.to_nat n)).
Definition ld32 (b : blob) (a : Z) : out Z := dlet l <- lds b a 4 in Val (be_val l).
(** Stores of the bytes [l] at [a]. *)
Definition stb (b : blob) (a : Z) (l : list Z) : out blob :=
  if zlen l <=? 0 then Val b
  else if (a <? 0) || (zlen b <? a + zlen l) then UB
  else Val (firstn (Z.to_nat a) b ++ l ++ skipn (Z.to_nat (a + zlen l)) b).
(** [memmove] inside the blob; see C42 for the function itself. *)
Definition mv (b : blob) (d s n : Z) : out blob := dlet l <- lds b s n in stb b d l.

(** include/fdt.h:114-125: header words by their index. *)
Definition h32 (b : blob) (i : nat) : Z := be_val (sub b (4 * i) 4).
Definition magic (b : blob) : Z := h32 b 0.
Definition totalsize (b : blob) : Z := h32 b 1.
Definition off_struct (b : blob) : Z := h32 b 2.
Definition off_strings (b : blob) : Z := h32 b 3.
Definition version (b : blob) : Z := h32 b 5.
Definition last_comp (b : blob) : Z := h32 b 6.
Definition size_strings (b : blob) : Z := h32 b 8.
Definition size_struct (b : blob) : Z := h32 b 9.
Definition set_h32 (b : blob) (i : nat) (v : Z) : out blob := stb b (4 * Z.of_nat i) (be32b (v mod 2 ^ 32)).

Definition FDT_MAGIC : Z := 0xD00DFEED.
Definition FDT_SW_MAGIC : Z := 0x2FF20112.
Definition BEGIN_NODE : Z := 1.
Definition END_NODE : Z := 2.
Definition PROP : Z := 3.
Definition NOP : Z := 4.
Definition FEND : Z := 9.
Definition ERR_BADMAGIC : Z := -1.
Definition ERR_BADVERSION : Z := -2.
Definition ERR_BADSTRUCTURE : Z := -3.
Definition ERR_BADOFFSET : Z := -4.
Definition ERR_BADSTATE : Z := -5.
Definition ERR_NOTFOUND : Z := -6.
Definition ERR_NOSPACE : Z := -7.
Definition ERR_TRUNCATED : Z := -8.
Definition ERR_INTERNAL : Z := -9.
Definition ERR_EXISTS : Z := -10.

Definition align4 (x : Z) : Z := (x + 3) / 4 * 4.
(** include/fdt.h:80-82 [FDT_TAGALIGN], stored in an [int]. *)
Definition tagalign (x : Z) : Z := to_int (align4 x).

(** src/fdt.c:76-81 [fdt_data_size_]. *)
Definition data_size (b : blob) : Z := to_int (off_strings b + size_strings b).

(** src/fdt.c:83-103 [fdt_offset_ptr]; [len] is [unsigned]. *)
Definition offset_ptr (b : blob) (off len : Z) : option Z :=
  let abs := (off + off_struct b) mod 2 ^ 32 in
  if off <? 0 then None
  else if (abs <? off) || ((abs + len) mod 2 ^ 32 <? abs) || (totalsize b <? (abs + len) mod 2 ^ 32) then None
  else if (0x11 <=? version b) && (((off + len) mod 2 ^ 32 <? off) || (size_struct b <? (off + len) mod 2 ^ 32)) then None
  else Some (off_struct b + off).

(** src/fdt.c:121-127: skips a node's name; the offset after its zero. *)
Fixpoint skip_name (fuel : nat) (b : blob) (off : Z) : out (option Z) :=
  match fuel with
  | O => NoFuel
  | S fuel' =>
    match offset_ptr b off 1 with
    | None => Val None
    | Some p => dlet v <- ldb b p in if v =? 0 then Val (Some (to_int (off + 1))) else skip_name fuel' b (to_int (off + 1))
    end
  end.
(** src/fdt.c:105-159 [fdt_next_tag]: the tag and the next offset. *)
Definition next_tag (b : blob) (start : Z) : out (Z * Z) :=
  let finish tag off :=
    match offset_ptr b start ((off - start) mod 2 ^ 32) with
    | None => Val (FEND, ERR_BADSTRUCTURE)
    | Some _ => Val (tag, tagalign off)
    end in
  match offset_ptr b start 4 with
  | None => Val (FEND, ERR_TRUNCATED)
  | Some p =>
    dlet tag <- ld32 b p in
    let off := to_int (start + 4) in
    if tag =? BEGIN_NODE then
      dlet r <- skip_name (S (length b)) b off in
      match r with None => Val (FEND, ERR_BADSTRUCTURE) | Some off => finish tag off end
    else if tag =? PROP then
      match offset_ptr b off 4 with
      | None => Val (FEND, ERR_BADSTRUCTURE)
      | Some p =>
        dlet len <- ld32 b p in
        let off := to_int (off + 8 + len) in
        let off := if (version b <? 0x10) && (8 <=? len) && negb ((off - len) mod 2 ^ 32 mod 8 =? 0) then to_int (off + 4) else off in
        finish tag off
      end
    else if (tag =? FEND) || (tag =? END_NODE) || (tag =? NOP) then finish tag off
    else Val (FEND, ERR_BADSTRUCTURE)
  end.

(** src/fdt.c:161-168 [fdt_check_node_offset_] and 170-177 [fdt_check_prop_offset_]. *)
Definition check_offset (tag : Z) (b : blob) (off : Z) : out Z :=
  if (off <? 0) || negb (off mod 4 =? 0) then Val ERR_BADOFFSET
  else dlet (t, next) <- next_tag b off in Val (if t =? tag then next else ERR_BADOFFSET).
Definition check_node_offset : blob -> Z -> out Z := check_offset BEGIN_NODE.
Definition check_prop_offset : blob -> Z -> out Z := check_offset PROP.

(** src/fdt.c:179-201 [fdt_next_property_]. *)
Fixpoint next_property_ (fuel : nat) (b : blob) (off : Z) : out Z :=
  match fuel with
  | O => NoFuel
  | S fuel' =>
    dlet (tag, next) <- next_tag b off in
    if tag =? FEND then Val (if 0 <=? next then ERR_BADSTRUCTURE else next)
    else if tag =? PROP then Val off
    else if tag =? NOP then next_property_ fuel' b next
    else Val ERR_NOTFOUND
  end.
(** src/fdt.c:466-480 [fdt_first_property_offset], [fdt_next_property_offset]. *)
Definition first_property_offset (fuel : nat) (b : blob) (node : Z) : out Z :=
  dlet off <- check_node_offset b node in if off <? 0 then Val off else next_property_ fuel b off.
Definition next_property_offset (fuel : nat) (b : blob) (off : Z) : out Z :=
  dlet off <- check_prop_offset b off in if off <? 0 then Val off else next_property_ fuel b off.

(** src/string.c [strlen] on the blob, see C42. *)
Fixpoint strlen_at (fuel : nat) (b : blob) (a : Z) : out Z :=
  match fuel with
  | O => NoFuel
  | S fuel' => dlet v <- ldb b a in if v =? 0 then Val 0 else dlet n <- strlen_at fuel' b (a + 1) in Val (n + 1)
  end.
(** [memcmp] of the blob at [a] and the bytes [s]: are they equal? *)
Fixpoint eq_at (b : blob) (a : Z) (s : list Z) : out bool :=
  match s with
  | [] => Val true
  | c :: s' => dlet v <- ldb b a in if v =? c then eq_at b (a + 1) s' else Val false
  end.

(** Result of a property lookup: the address of the property, its length and its offset; or
    the error. *)
Inductive found := Found (prop len off : Z) | Missing (err : Z).

(** src/fdt.c:482-500 [fdt_get_property_by_offset]: address and length. *)
Definition property_by_offset (b : blob) (off : Z) : out (option Z * Z) :=
  dlet err <- check_prop_offset b off in
  if err <? 0 then Val (None, err)
  else dlet len <- ld32 b (off_struct b + off + 4) in Val (Some (off_struct b + off), to_int len).
(** src/fdt.c:203-232 [fdt_get_property]; 523-530 [fdt_get_string]. *)
Fixpoint property_loop (fuel fuel' : nat) (b : blob) (name : list Z) (off : Z) : out found :=
  if off <? 0 then Val (Missing off)
  else
    match fuel with
    | O => NoFuel
    | S fuel1 =>
      dlet (prop, len) <- property_by_offset b off in
      match prop with
      | None => Val (Missing ERR_INTERNAL)
      | Some prop =>
        dlet nameoff <- ld32 b (prop + 8) in
        let p := off_strings b + to_int nameoff in
        dlet slen <- strlen_at (S (length b)) b p in
        dlet same <- (if to_int slen =? zlen name then eq_at b p name else Val false) in
        if same then Val (Found prop len off)
        else dlet off <- next_property_offset fuel' b off in property_loop fuel1 fuel' b name off
      end
    end.
Definition get_property (fuel : nat) (b : blob) (node : Z) (name : list Z) : out found :=
  dlet off <- first_property_offset fuel b node in property_loop fuel fuel b name off.

(** src/fdt.c:240-256 [fdt_splice_]. *)
Definition splice (b : blob) (p oldlen newlen : Z) : out (Z * blob) :=
  let e := data_size b in
  if (p + oldlen <? p) || (e <? p + oldlen) then Val (ERR_BADOFFSET, b)
  else if (p <? 0) || (e - oldlen + newlen <? 0) then Val (ERR_BADOFFSET, b)
  else if totalsize b <? e - oldlen + newlen then Val (ERR_NOSPACE, b)
  else dlet b <- mv b (p + newlen) (p + oldlen) (e - p - oldlen) in Val (0, b).
(** src/fdt.c:258-269 [fdt_splice_struct_]. *)
Definition splice_struct (b : blob) (p oldlen newlen : Z) : out (Z * blob) :=
  dlet (err, b) <- splice b p oldlen newlen in
  if err =? 0 then
    dlet b <- set_h32 b 9 (size_struct b + (newlen - oldlen)) in
    dlet b <- set_h32 b 3 (off_strings b + (newlen - oldlen)) in
    Val (0, b)
  else Val (err, b).
(** src/fdt.c:271-289 [fdt_resize_property_]: error, property and blob. *)
Definition resize_property (fuel : nat) (b : blob) (node : Z) (name : list Z) (len : Z) : out (Z * Z * blob) :=
  dlet r <- get_property fuel b node name in
  match r with
  | Found prop oldlen _ =>
    dlet (err, b) <- splice_struct b (prop + 12) (tagalign oldlen) (tagalign len) in
    if err =? 0 then dlet b <- stb b (prop + 4) (be32b (len mod 2 ^ 32)) in Val (0, prop, b)
    else Val (err, prop, b)
  | Missing err => Val (err, 0, b)
  end.

(** src/fdt.c:303-315 [fdt_find_string_]: [n] places from [i] on; [s] with its zero. *)
Fixpoint find_string (n : nat) (b : blob) (tab i : Z) (s : list Z) : out (option Z) :=
  match n with
  | O => Val None
  | S n' => dlet same <- eq_at b (tab + i) s in if same then Val (Some i) else find_string n' b tab (i + 1) s
  end.
(** src/fdt.c:317-339 [fdt_find_add_string_] with 291-301 [fdt_splice_string_]: the offset or
    the error, whether the string is new, the blob. *)
Definition find_add_string (b : blob) (s : list Z) : out (Z * bool * blob) :=
  let tab := off_strings b in
  let len := zlen s + 1 in
  dlet r <- find_string (Z.to_nat (size_strings b - len + 1)) b tab 0 (s ++ [0]) in
  match r with
  | Some i => Val (i, false, b)
  | None =>
    let i := size_strings b in
    dlet (err, b) <- splice b (tab + i) 0 len in
    if err =? 0 then
      dlet b <- set_h32 b 8 (size_strings b + len) in
      dlet b <- stb b (tab + i) (s ++ [0]) in
      Val (i, true, b)
    else Val (err, false, b)
  end.
(** src/fdt.c:341-369 [fdt_add_property_]; 234-238 [fdt_del_last_string_]. *)
Definition add_property (b : blob) (node : Z) (name : list Z) (len : Z) : out (Z * Z * blob) :=
  dlet next <- check_node_offset b node in
  if next <? 0 then Val (next, 0, b)
  else
    dlet (nameoff, allocated, b) <- find_add_string b name in
    if nameoff <? 0 then Val (nameoff, 0, b)
    else
      let prop := off_struct b + next in
      dlet (err, b) <- splice_struct b prop 0 (12 + tagalign len) in
      if err =? 0 then
        dlet b <- stb b prop (be32b PROP) in
        dlet b <- stb b (prop + 8) (be32b (nameoff mod 2 ^ 32)) in
        dlet b <- stb b (prop + 4) (be32b (len mod 2 ^ 32)) in
        Val (0, prop, b)
      else if allocated then dlet b <- set_h32 b 8 (size_strings b - (zlen name + 1)) in Val (err, prop, b)
      else Val (err, prop, b).
(** src/fdt.c:533-561 [fdt_setprop]. *)
Definition setprop (fuel : nat) (b : blob) (node : Z) (name val : list Z) : out (Z * blob) :=
  if to_int (totalsize b) <=? 0 then Val (3, b)
  else
    dlet (err, prop, b) <- resize_property fuel b node name (zlen val) in
    dlet (err, prop, b) <-
      (if err =? ERR_NOTFOUND then add_property b node name (zlen val) else Val (err, prop, b)) in
    if err =? 0 then dlet b <- stb b (prop + 12) val in Val (0, b)
    else Val (err, b).

(** src/fdt.c:563-578 [fdt_getprop]: address and length of the value, or the error. *)
Definition getprop (fuel : nat) (b : blob) (node : Z) (name : list Z) : out (option Z * Z) :=
  dlet r <- get_property fuel b node name in
  match r with
  | Found prop len off =>
    if (version b <? 0x10) && negb ((off + 12) mod 8 =? 0) && (8 <=? len mod 2 ^ 32) then Val (Some (prop + 16), len)
    else Val (Some (prop + 12), len)
  | Missing err => Val (None, err)
  end.
(** src/fdt.c:580-596 [fdt_getprop_address]; 0 is the null pointer. *)
Definition getprop_address (fuel : nat) (b : blob) (node : Z) (name : list Z) : out Z :=
  dlet (val, len) <- getprop fuel b node name in
  match val with
  | Some a =>
    if (len =? 8) || (len =? 4) then dlet l <- lds b a len in Val (be_val l) else Val 0
  | None => Val 0
  end.

(** src/fdt.c:408-424 [fdt_check_header]. *)
Definition check_header (b : blob) : Z :=
  if magic b =? FDT_MAGIC then
    if version b <? 0x10 then ERR_BADVERSION
    else if 0x11 <? last_comp b then ERR_BADVERSION else 0
  else if magic b =? FDT_SW_MAGIC then
    if size_struct b =? 0 then ERR_BADSTATE else 0
  else ERR_BADMAGIC.
(** src/fdt.c:426-464 [fdt_next_node]; [None] is a null [depth]. *)
Fixpoint next_node_loop (fuel : nat) (b : blob) (off : Z) (depth : option Z) : out (Z * option Z) :=
  match fuel with
  | O => NoFuel
  | S fuel' =>
    dlet (tag, next) <- next_tag b off in
    if tag =? BEGIN_NODE then Val (off, match depth with Some d => Some (d + 1) | None => None end)
    else if tag =? END_NODE then
      match depth with
      | Some d => if d - 1 <? 0 then Val (next, Some (d - 1)) else next_node_loop fuel' b next (Some (d - 1))
      | None => next_node_loop fuel' b next None
      end
    else if tag =? FEND then
      Val (if (0 <=? next) || ((next =? ERR_TRUNCATED) && match depth with None => true | _ => false end) then ERR_NOTFOUND else next, depth)
    else next_node_loop fuel' b next depth
  end.
Definition next_node (fuel : nat) (b : blob) (off : Z) (depth : option Z) : out (Z * option Z) :=
  if 0 <=? off then
    dlet next <- check_node_offset b off in
    if next <? 0 then Val (next, depth) else next_node_loop fuel b next depth
  else next_node_loop fuel b 0 depth.

(** src/fdt.c:501-521 [fdt_get_name]: address and length, or the error. *)
Definition get_name (b : blob) (node : Z) : out (option Z * Z) :=
  let err := check_header b in
  if negb (err =? 0) then Val (None, err)
  else
    dlet err <- check_node_offset b node in
    if err <? 0 then Val (None, err)
    else dlet n <- strlen_at (S (length b)) b (off_struct b + node + 4) in Val (Some (off_struct b + node + 4), to_int n).

(** src/fdt.c:598-617 [fdt_find_node_offset]. *)
Fixpoint find_node_loop (fuel fuel' : nat) (b : blob) (name : list Z) (off : Z) : out Z :=
  if off <? 0 then Val off
  else
    match fuel with
    | O => NoFuel
    | S fuel1 =>
      dlet (nstr, nlen) <- get_name b off in
      dlet same <- (match nstr with
                    | Some p => if nlen =? zlen name then eq_at b p name else Val false
                    | None => Val false
                    end) in
      if same then Val off
      else dlet (off, _) <- next_node fuel' b off None in find_node_loop fuel1 fuel' b name off
    end.
Definition find_node_offset (fuel : nat) (b : blob) (start : Z) (name : list Z) : out Z :=
  dlet (off, _) <- next_node fuel b start None in find_node_loop fuel fuel b name off.

(** src/fdt.c:619-639 [fdt_find_prop_offset]. *)
Fixpoint find_prop_loop (fuel fuel' : nat) (b : blob) (name val : list Z) (off : Z) : out Z :=
  if off <? 0 then Val off
  else
    match fuel with
    | O => NoFuel
    | S fuel1 =>
      dlet (v, len) <- getprop fuel' b off name in
      dlet same <- (match v with
                    | Some p => if len =? zlen val + 1 then eq_at b p (val ++ [0]) else Val false
                    | None => Val false
                    end) in
      if same then Val off
      else dlet (off, _) <- next_node fuel' b off None in find_prop_loop fuel1 fuel' b name val off
    end.
Definition find_prop_offset (fuel : nat) (b : blob) (start : Z) (name val : list Z) : out Z :=
  dlet (off, _) <- next_node fuel b start None in find_prop_loop fuel fuel b name val off.

(** src/fdt.c:658-670: the strings of a "compatible" property; [memchr] gives the place of the
    first zero among [len] bytes. *)
Fixpoint zero_at (n : nat) (b : blob) (a : Z) : out (option Z) :=
  match n with
  | O => Val None
  | S n' => dlet v <- ldb b a in if v =? 0 then Val (Some a) else zero_at n' b (a + 1)
  end.
Fixpoint compatible_loop (fuel : nat) (b : blob) (s : list Z) (p len : Z) : out bool :=
  if len <? zlen s then Val false
  else
    match fuel with
    | O => NoFuel
    | S fuel' =>
      dlet same <- eq_at b p (s ++ [0]) in
      if same then Val true
      else
        dlet z <- zero_at (Z.to_nat len) b p in
        match z with
        | Some q => compatible_loop fuel' b s (q + 1) (len - (q - p + 1))
        | None => compatible_loop fuel' b s p len
        end
    end.
(** "compatible" *)
Definition s_compatible : list Z := [99; 111; 109; 112; 97; 116; 105; 98; 108; 101].
(** src/fdt.c:646-672 [fdt_node_offset_by_compatible]. *)
Fixpoint by_compatible_loop (fuel fuel' : nat) (b : blob) (s : list Z) (off : Z) : out Z :=
  if off <? 0 then Val off
  else
    match fuel with
    | O => NoFuel
    | S fuel1 =>
      dlet (v, len) <- getprop fuel' b off s_compatible in
      dlet same <- (match v with Some p => compatible_loop fuel' b s p len | None => Val false end) in
      if same then Val off
      else dlet (off, _) <- next_node fuel' b off None in by_compatible_loop fuel1 fuel' b s off
    end.
Definition node_offset_by_compatible (fuel : nat) (b : blob) (start : Z) (s : list Z) : out Z :=
  dlet (off, _) <- next_node fuel b start None in by_compatible_loop fuel fuel b s off.

(** src/fdt.c:371-385 [fdt_nodename_eq_]. *)
Definition nodename_eq (b : blob) (off : Z) (s : list Z) : out bool :=
  match offset_ptr b (to_int (off + 4)) ((zlen s + 1) mod 2 ^ 32) with
  | None => Val false
  | Some p =>
    dlet same <- eq_at b p s in
    if same then
      dlet v <- ldb b (p + zlen s) in
      Val ((v =? 0) || (negb (existsb (fun c => c =? 64) s) && (v =? 64)))
    else Val false
  end.
(** src/fdt.c:387-403 [fdt_subnode_offset_namelen]. *)
Fixpoint subnode_loop (fuel fuel' : nat) (b : blob) (s : list Z) (off depth : Z) : out Z :=
  if (0 <=? off) && (0 <=? depth) then
    match fuel with
    | O => NoFuel
    | S fuel1 =>
      dlet same <- (if depth =? 1 then nodename_eq b off s else Val false) in
      if same then Val off
      else
        dlet (off, d) <- next_node fuel' b off (Some depth) in
        subnode_loop fuel1 fuel' b s off (match d with Some d => d | None => depth end)
    end
  else if depth <? 0 then Val ERR_NOTFOUND else Val off.
Definition subnode_offset (fuel : nat) (b : blob) (off : Z) (s : list Z) : out Z := subnode_loop fuel fuel b s off 0.

(** src/fdt.c:694-700: the first tag that is no property. *)
Fixpoint skip_props (fuel : nat) (b : blob) (off : Z) : out Z :=
  match fuel with
  | O => NoFuel
  | S fuel' =>
    dlet (tag, next) <- next_tag b off in
    if (tag =? PROP) || (tag =? NOP) then skip_props fuel' b next else Val off
  end.
(** src/fdt.c:674-714 [fdt_add_subnode]. *)
Definition add_subnode (fuel : nat) (b : blob) (parent : Z) (name : list Z) : out (Z * blob) :=
  let err := check_header b in
  if negb (err =? 0) then Val (err, b)
  else
    dlet off <- subnode_offset fuel b parent name in
    if 0 <=? off then Val (ERR_EXISTS, b)
    else if negb (off =? ERR_NOTFOUND) then Val (off, b)
    else
      dlet (_, next) <- next_tag b parent in
      dlet off <- skip_props fuel b next in
      let nh := off_struct b + off in
      let namesz := tagalign (zlen name + 1) in
      let nodelen := 4 + namesz + 4 in
      dlet (err, b) <- splice_struct b nh 0 nodelen in
      if err =? 0 then
        dlet b <- stb b nh (be32b BEGIN_NODE) in
        dlet b <- stb b (nh + 4) (repeat 0 (Z.to_nat namesz)) in
        dlet b <- stb b (nh + 4) name in
        dlet b <- stb b (nh + nodelen - 4) (be32b END_NODE) in
        Val (off, b)
      else Val (err, b).

(** src/fdt.c:726-730: the end of a node. *)
Fixpoint end_loop (fuel fuel' : nat) (b : blob) (off depth : Z) : out Z :=
  if (0 <=? off) && (0 <=? depth) then
    match fuel with
    | O => NoFuel
    | S fuel1 =>
      dlet (off, d) <- next_node fuel' b off (Some depth) in
      end_loop fuel1 fuel' b off (match d with Some d => d | None => depth end)
    end
  else Val off.
(** src/fdt.c:716-736 [fdt_del_node]. *)
Definition del_node (fuel : nat) (b : blob) (node : Z) : out (Z * blob) :=
  let err := check_header b in
  if negb (err =? 0) then Val (err, b)
  else
    dlet e <- end_loop fuel fuel b node 0 in
    if e <? 0 then Val (e, b) else splice_struct b (off_struct b + node) (e - node) 0.

(** src/fdt.c:739-744 [fdt_shrink]. *)
Definition shrink (b : blob) : out blob := set_h32 b 1 (data_size b).

(** src/fdt.c:747-769 [fdt_fixup_str], [fdt_fixup_val], [fdt_fixup_val64]. *)
Definition fixup_str (fuel : nat) (b : blob) (node : Z) (name str : list Z) : out (Z * blob) := setprop fuel b node name (str ++ [0]).
Definition fixup_val (fuel : nat) (b : blob) (node : Z) (name : list Z) (val : Z) : out (Z * blob) :=
  setprop fuel b node name (rev (le_bytes 4 val)).
Definition fixup_val64 (fuel : nat) (b : blob) (node : Z) (name : list Z) (val : Z) : out (Z * blob) :=
  setprop fuel b node name (rev (le_bytes 8 val)).

(** ** FIT images *)

Definition s_configurations : list Z := [99; 111; 110; 102; 105; 103; 117; 114; 97; 116; 105; 111; 110; 115].
Definition s_default : list Z := [100; 101; 102; 97; 117; 108; 116].
Definition s_kernel : list Z := [107; 101; 114; 110; 101; 108].
Definition s_fdt : list Z := [102; 100; 116].
Definition s_type : list Z := [116; 121; 112; 101].
Definition s_flat_dt : list Z := [102; 108; 97; 116; 95; 100; 116].
Definition s_data : list Z := [100; 97; 116; 97].
Definition s_load : list Z := [108; 111; 97; 100].
Definition s_entry : list Z := [101; 110; 116; 114; 121].

(** The string at [a]. *)
Definition cstr_at (b : blob) (a : Z) : out (list Z) := dlet n <- strlen_at (S (length b)) b a in lds b a n.
(** src/fdt.c:794-803 and 804-813: the name of the node with the given "type". *)
Definition name_of_type (fuel : nat) (b : blob) (ty : list Z) : out (option Z) :=
  dlet off <- find_prop_offset fuel b (-1) s_type ty in
  if 0 <? off then dlet (v, len) <- get_name b off in Val (if 0 <? len then v else None) else Val None.
(** src/fdt.c:773-821 [fit_find_images]: addresses of the names of the configuration, the
    kernel and the device tree. *)
Definition fit_find_images (fuel : nat) (b : blob) : out (option Z * option Z * option Z) :=
  dlet off <- find_node_offset fuel b (-1) s_configurations in
  dlet conf <- (if 0 <? off then dlet (v, len) <- getprop fuel b off s_default in Val (if 0 <? len then v else None) else Val None) in
  dlet (kernel, flat) <-
    (match conf with
     | Some c =>
       dlet s <- cstr_at b c in
       dlet off <- find_node_offset fuel b (-1) s in
       if 0 <? off then
         dlet (k, _) <- getprop fuel b off s_kernel in
         dlet (f, _) <- getprop fuel b off s_fdt in Val (k, f)
       else Val (None, None)
     | None => Val (None, None)
     end) in
  dlet kernel <- (match kernel with Some _ => Val kernel | None => name_of_type fuel b s_kernel end) in
  dlet flat <- (match flat with Some _ => Val flat | None => name_of_type fuel b s_flat_dt end) in
  Val (conf, kernel, flat).

(** src/fdt.c:823-852 [fit_load_image] of the blob at address [base]: the pointer returned (0 if
    null), the length, and the copy made: destination and bytes. *)
Definition fit_load_image (fuel : nat) (base : Z) (b : blob) (image : list Z) : out (Z * Z * option (Z * list Z)) :=
  dlet off <- find_node_offset fuel b (-1) image in
  if 0 <? off then
    dlet (data, len) <- getprop fuel b off s_data in
    dlet load <- getprop_address fuel b off s_load in
    dlet entry <- getprop_address fuel b off s_entry in
    match data with
    | None => Val (0, len, None)
    | Some a =>
      if negb (load =? 0) && negb (base + a =? load) then
        if len <? 0 then UB
        else dlet l <- lds b a len in Val (if entry =? 0 then load else entry, len, Some (load, l))
      else Val (base + a, len, None)
    end
  else Val (0, 0, None).
