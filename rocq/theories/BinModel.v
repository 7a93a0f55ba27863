(** tools/bin-assemble/bin-assemble.c: the tool that puts the bootloader and the images
    together into one file for the factory.

    Simplifications: 64-bit [size_t] and [long]; the files do not change while the tool runs,
    opening and reading them succeeds, and the output takes every byte written to it. *)
From Verif Require Import Base.

(** lines 54-58: [binentry_t], with the contents of the file. *)
Record part_in := mkPart { p_addr : Z; p_data : list Z }.

Definition SZ_MAX : Z := 2 ^ 64.
Definition LONG_HI : Z := 2 ^ 63 - 1.
Definition INT_HI : Z := 2 ^ 31 - 1.
(** lines 37-43. *)
Definition BLOCK : nat := 1024.
Definition FILL : Z := 255.

(** ** line 101: [strtol(s, &endptr, 0)], characters as their codes *)
Definition is_blank (ch : Z) : bool := (ch =? 32) || ((9 <=? ch) && (ch <=? 13)).
Definition digit_of (ch : Z) : Z :=
  if (48 <=? ch) && (ch <=? 57) then ch - 48
  else if (97 <=? ch) && (ch <=? 122) then ch - 87
  else if (65 <=? ch) && (ch <=? 90) then ch - 55 else 99.
Fixpoint digits (b acc : Z) (s : list Z) : Z * list Z :=
  match s with
  | ch :: r => if digit_of ch <? b then digits b (acc * b + digit_of ch) r else (acc, s)
  | [] => (acc, [])
  end.
Fixpoint skip_blank (s : list Z) : list Z :=
  match s with ch :: r => if is_blank ch then skip_blank r else s | [] => [] end.
Definition clamp (v : Z) : Z := Z.max (- (LONG_HI + 1)) (Z.min LONG_HI v).
Definition number (s : list Z) : option (Z * list Z) :=
  match s with
  | 48 :: x :: d :: r => if ((x =? 120) || (x =? 88)) && (digit_of d <? 16) then Some (digits 16 0 (d :: r)) else Some (digits 8 0 s)
  | 48 :: _ => Some (digits 8 0 s)
  | d :: _ => if digit_of d <? 10 then Some (digits 10 0 s) else None
  | [] => None
  end.
Definition strtol (s : list Z) : Z * list Z :=
  let s1 := skip_blank s in
  let '(neg, s2) := match s1 with
                    | 45 :: r => (true, r)
                    | 43 :: r => (false, r)
                    | _ => (false, s1) end in
  match number s2 with
  | Some (v, rest) => (clamp (if neg then - v else v), rest)
  | None => (0, s)
  end.

(** lines 101-105: characters that are left only give a message; the value goes to a
    [size_t]. *)
Definition address_arg (s : list Z) : Z := fst (strtol s) mod SZ_MAX.

(** lines 128-144: the check for overlaps, in the order of the addresses. *)
Fixpoint no_overlap (es : list part_in) : bool :=
  match es with
  | e :: ((e' :: _) as r) => if (p_addr e + zlen (p_data e)) mod SZ_MAX >? p_addr e' then false else no_overlap r
  | _ => true
  end.

(** lines 169-177: whole blocks of fill. *)
Fixpoint fill_blocks (fuel : nat) (cur addr : Z) (out : list Z) : option (Z * list Z) :=
  if (cur + Z.of_nat BLOCK) mod SZ_MAX <? addr then
    match fuel with
    | O => None
    | S fuel' => fill_blocks fuel' ((cur + Z.of_nat BLOCK) mod SZ_MAX) addr (out ++ repeat FILL BLOCK)
    end
  else Some (cur, out).
(** lines 178-186: single bytes of fill. *)
Fixpoint fill_bytes (fuel : nat) (cur addr : Z) (out : list Z) : option (Z * list Z) :=
  if cur <? addr then
    match fuel with
    | O => None
    | S fuel' => fill_bytes fuel' ((cur + 1) mod SZ_MAX) addr (out ++ [FILL])
    end
  else Some (cur, out).
(** lines 191-215: the file, block by block, until a read comes short. *)
Fixpoint copy_file (fuel : nat) (cur : Z) (data out : list Z) : option (Z * list Z) :=
  let blk := firstn BLOCK data in
  let cur := (cur + zlen blk) mod SZ_MAX in
  let out := out ++ blk in
  if (length blk <? BLOCK)%nat then Some (cur, out)
  else match fuel with O => None | S fuel' => copy_file fuel' cur (skipn BLOCK data) out end.

(** lines 156-222: one entry. *)
Definition add_part (st : Z * list Z) (e : part_in) : option (Z * list Z) :=
  let '(cur, out) := st in
  let fill_sz := (p_addr e - cur) mod SZ_MAX in
  match (if (0 <? fill_sz) && (fill_sz <? INT_HI) then
           match fill_blocks (Z.to_nat fill_sz) cur (p_addr e) out with
           | Some (cur, out) => fill_bytes (Z.to_nat fill_sz) cur (p_addr e) out
           | None => None
           end
         else Some (cur, out)) with
  | Some (cur, out) => copy_file (length (p_data e)) cur (p_data e) out
  | None => None
  end.
Fixpoint add_parts (st : Z * list Z) (es : list part_in) : option (Z * list Z) :=
  match es with
  | [] => Some st
  | e :: r => match add_part st e with Some st' => add_parts st' r | None => None end
  end.

(** What the tool ends with: an error and no file, or the file. *)
Inductive result := Refused | Made (out : list Z) | Out_of_fuel.

(** lines 128-226, after the sort of line 126: [es] in the order [qsort] leaves. *)
Definition assemble (es : list part_in) : result :=
  if no_overlap es then
    match es with
    | [] => Refused
    | e :: _ => match add_parts (p_addr e, []) es with Some (_, out) => Made out | None => Out_of_fuel end
    end
  else Refused.
