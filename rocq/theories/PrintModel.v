(** The bootloader's own printf.  Source: src/string.c (PRINTF_ENABLED and DEBUG_UART, no
    WOLFBOOT_USE_STDLIBC).  [uart_writenum] is [writenum] of StringModel.v. *)
From Verif Require Import Base StringModel.

(** A variable argument as the calling conventions pass it: a register or stack slot of the size
    [w] of [unsigned long], with the string it points to if it does.  A [long long] takes two
    slots if [w] is 4. *)
Record slot := mkSlot { s_val : Z; s_str : option (list Z) }.

(** [va_arg(argp, int)] takes the low 32 bits of the next slot; [va_arg(argp, char* )] the slot. *)
Definition next_int (a : list slot) : out (Z * list slot) :=
  match a with [] => UB | s :: r => Val (to_int (s_val s), r) end.
Definition next_str (a : list slot) : out (list Z * list slot) :=
  match a with [] => UB | s :: r => match s_str s with Some l => Val (l, r) | None => UB end end.

(** src/string.c:356-376: the length and size letters.  The end of the list is the final zero.
    Simplification: a length beyond [int], whose shift is undefined, is [UB]. *)
Fixpoint formatters (fmt : list Z) (zeropad : bool) (maxdigits : Z) : out (list Z * bool * Z) :=
  match fmt with
  | [] => Val ([], zeropad, maxdigits)
  | c :: r =>
      if (48 <=? c) && (c <=? 57) then
        let zeropad := if c =? 48 then true else zeropad in
        let maxdigits := maxdigits * 256 + (c - 48) in
        if 2 ^ 31 <=? maxdigits then UB else formatters r zeropad maxdigits
      else if c =? 108 then formatters r zeropad maxdigits
      else if c =? 122 then formatters r zeropad maxdigits
      else Val (fmt, zeropad, maxdigits)
  end.

(** src/string.c:378-415: one conversion: what is printed and the remaining arguments. *)
Definition convert (w c : Z) (zeropad : bool) (maxdigits : Z) (a : list slot) : out (list Z * list slot) :=
  if c =? 37 then Val ([37], a)
  else if (c =? 117) || (c =? 105) || (c =? 100) then
    dlet (n, a) <- next_int a in dlet o <- writenum w n 10 zeropad maxdigits in Val (o, a)
  else if (c =? 112) || (c =? 120) then
    dlet (n, a) <- next_int a in dlet o <- writenum w n 16 zeropad maxdigits in
    Val ((if c =? 112 then [48; 120] else []) ++ o, a)
  else if c =? 115 then next_str a
  else if c =? 99 then dlet (n, a) <- next_int a in Val ([n mod 256], a)
  else Val ([], a).

(** src/string.c:342-418 [uart_vprintf]: all that is given to [uart_write].  After a [%] at the
    end of the format, line 416 steps over the final zero and line 346 reads behind it. *)
Fixpoint vprintf (fuel : nat) (w : Z) (fmt : list Z) (a : list slot) : out (list Z) :=
  match fuel with
  | O => NoFuel
  | S n =>
      match fmt with
      | [] => Val []
      | c :: r =>
          if negb (c =? 37) then dlet o <- vprintf n w r a in Val (c :: o)
          else
            dlet (fmt, zeropad, maxdigits) <- formatters r false 0 in
            match fmt with
            | [] => UB
            | c :: r =>
                dlet (o, a) <- convert w c zeropad maxdigits a in
                dlet o' <- vprintf n w r a in Val (o ++ o')
            end
      end
  end.
