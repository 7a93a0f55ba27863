(** The C library functions of src/string.c (used unless WOLFBOOT_USE_STDLIBC), and the number
    output of its printf.  Memory is a partial function: an access outside is undefined. *)
From Verif Require Import Base.

Definition mem : Type := Z -> option Z.
Definition ld (m : mem) (a : Z) : out Z := match m a with Some v => Val v | None => UB end.
Definition st (m : mem) (a v : Z) : out mem :=
  match m a with Some _ => Val (fun x => if x =? a then Some v else m x) | None => UB end.

(** Conversions to [int] and from [char]; plain [char] is signed if [sc]. *)
Definition to_int (v : Z) : Z := (v + 2 ^ 31) mod 2 ^ 32 - 2 ^ 31.
Definition chr (sc : bool) (v : Z) : Z := if sc && (128 <=? v) then v - 256 else v.

(** src/string.c:81-90 [memset]. *)
Fixpoint memset (n : nat) (s c : Z) (m : mem) : out mem :=
  match n with
  | O => Val m
  | S n' => dlet m' <- st m s (c mod 256) in memset n' (s + 1) c m'
  end.

(** src/string.c:277-279: the loop of [memcpy]. *)
Fixpoint copy_bytes (n : nat) (d s : Z) (m : mem) : out mem :=
  match n with
  | O => Val m
  | S n' => dlet v <- ld m s in dlet m' <- st m d v in copy_bytes n' (d + 1) (s + 1) m'
  end.
(** A word: all bytes are read, then all are written. *)
Fixpoint ld_word (w : nat) (a : Z) (m : mem) : out (list Z) :=
  match w with
  | O => Val []
  | S w' => dlet v <- ld m a in dlet l <- ld_word w' (a + 1) m in Val (v :: l)
  end.
Fixpoint st_word (l : list Z) (a : Z) (m : mem) : out mem :=
  match l with
  | [] => Val m
  | v :: l' => dlet m' <- st m a v in st_word l' (a + 1) m'
  end.
(** src/string.c:269-274: [k] words of [w] bytes. *)
Fixpoint copy_words (k w : nat) (d s : Z) (m : mem) : out mem :=
  match k with
  | O => Val m
  | S k' => dlet l <- ld_word w s m in dlet m' <- st_word l d m in copy_words k' w (d + Z.of_nat w) (s + Z.of_nat w) m'
  end.
(** src/string.c:257-282 [memcpy]; [fast] is FAST_MEMCPY, [w] the size of [unsigned long]. *)
Definition memcpy (fast : bool) (w : nat) (d s n : Z) (m : mem) : out mem :=
  let W := Z.of_nat w in
  if fast && (d mod W =? 0) && (s mod W =? 0) then
    let k := n / W in
    dlet m' <- copy_words (Z.to_nat k) w d s m in
    copy_bytes (Z.to_nat (n - k * W)) (d + k * W) (s + k * W) m'
  else copy_bytes (Z.to_nat n) d s m.

(** src/string.c:294-296: the loop of [memmove] from index [k - 1] down to 0. *)
Fixpoint copy_down (k : nat) (d s : Z) (m : mem) : out mem :=
  match k with
  | O => Val m
  | S k' => dlet v <- ld m (s + Z.of_nat k') in dlet m' <- st m (d + Z.of_nat k') v in copy_down k' d s m'
  end.
(** src/string.c:286-302 [memmove]: the index is an [int]. *)
Definition memmove (fast : bool) (w : nat) (d s n : Z) (m : mem) : out mem :=
  if d =? s then Val m
  else if s <? d then copy_down (Z.to_nat (to_int (n - 1) + 1)) d s m
  else memcpy fast w d s n m.

(** src/string.c:213-227 [memcmp]. *)
Fixpoint memcmp (n : nat) (a b : Z) (m : mem) : out Z :=
  match n with
  | O => Val 0
  | S n' =>
    dlet x <- ld m a in dlet y <- ld m b in
    if x - y =? 0 then memcmp n' (a + 1) (b + 1) m else Val (x - y)
  end.

(** src/string.c:229-239 [memchr]. *)
Fixpoint memchr (n : nat) (s c : Z) (m : mem) : out (option Z) :=
  match n with
  | O => Val None
  | S n' => dlet v <- ld m s in if v =? c mod 256 then Val (Some s) else memchr n' (s + 1) c m
  end.

(** src/string.c:246-254 [strlen]. *)
Fixpoint strlen (fuel : nat) (s : Z) (m : mem) : out Z :=
  match fuel with
  | O => NoFuel
  | S f => dlet v <- ld m s in if v =? 0 then Val 0 else dlet n <- strlen f (s + 1) m in Val (1 + n)
  end.

(** src/string.c:105-116 [strcmp]; [fold] (src/string.c:119-134 [strcasecmp]) ignores a
    difference of 32. *)
Fixpoint str_cmp (fuel : nat) (sc fold : bool) (a b : Z) (m : mem) : out Z :=
  match fuel with
  | O => NoFuel
  | S f =>
    dlet x <- ld m a in
    if x =? 0 then Val 0
    else
      dlet y <- ld m b in
      let diff := chr sc x - chr sc y in
      let diff := if fold && ((diff =? -32) || (diff =? 32)) then 0 else diff in
      if diff =? 0 then str_cmp f sc fold (a + 1) (b + 1) m else Val diff
  end.
Definition strcmp (fuel : nat) (sc : bool) := str_cmp fuel sc false.
Definition strcasecmp (fuel : nat) (sc : bool) := str_cmp fuel sc true.

(** src/string.c:136-154 [strncasecmp]. *)
Fixpoint strncasecmp_loop (fuel : nat) (sc : bool) (i n a b : Z) (m : mem) : out Z :=
  match fuel with
  | O => NoFuel
  | S f =>
    dlet x <- ld m a in
    if x =? 0 then Val 0
    else
      dlet y <- ld m b in
      let diff := chr sc x - chr sc y in
      let diff := if (diff =? -32) || (diff =? 32) then 0 else diff in
      if n <? i + 1 then Val diff
      else if diff =? 0 then strncasecmp_loop f sc (i + 1) n (a + 1) (b + 1) m else Val diff
  end.
Definition strncasecmp (fuel : nat) (sc : bool) (n a b : Z) (m : mem) : out Z := strncasecmp_loop fuel sc 0 n a b m.

(** src/string.c:173-187 [strncmp]. *)
Fixpoint strncmp (n : nat) (a b : Z) (m : mem) : out Z :=
  match n with
  | O => Val 0
  | S n' =>
    dlet x <- ld m a in dlet y <- ld m b in
    if negb (x - y =? 0) || (x =? 0) then Val (x - y) else strncmp n' (a + 1) (b + 1) m
  end.

(** src/string.c:189-200 [strncpy]. *)
Fixpoint strncpy (n : nat) (d s : Z) (m : mem) : out mem :=
  match n with
  | O => Val m
  | S n' => dlet v <- ld m s in dlet m' <- st m d v in dlet v' <- ld m' s in
            if v' =? 0 then Val m' else strncpy n' (d + 1) (s + 1) m'
  end.

(** src/string.c:202-211 [strcpy]. *)
Fixpoint strcpy (fuel : nat) (d s : Z) (m : mem) : out mem :=
  match fuel with
  | O => NoFuel
  | S f => dlet v <- ld m s in dlet m' <- st m d v in dlet v' <- ld m' s in
           if v' =? 0 then Val m' else strcpy f (d + 1) (s + 1) m'
  end.

(** src/string.c:97-100, 162-168: the loops of [strcat] and [strncat], which evaluate
    [strlen(src)] anew every time. *)
Fixpoint cat_loop (fuel : nat) (lim : option Z) (i j d s : Z) (m : mem) : out (Z * mem) :=
  match fuel with
  | O => NoFuel
  | S f =>
    dlet n <- strlen fuel s m in
    if i <? n then
      if match lim with Some l => l <=? j | None => false end then Val (j, m)
      else dlet v <- ld m (s + i) in dlet m' <- st m (d + j) v in cat_loop f lim (i + 1) (j + 1) d s m'
    else Val (j, m)
  end.
(** src/string.c:92-103 [strcat]. *)
Definition strcat (fuel : nat) (d s : Z) (m : mem) : out mem :=
  dlet j0 <- strlen fuel d m in
  dlet (j, m') <- cat_loop fuel None 0 j0 d s m in st m' (d + j) 0.
(** src/string.c:157-171 [strncat]; [z] is the number of values of [size_t]. *)
Definition strncat (fuel : nat) (z d s n : Z) (m : mem) : out mem :=
  dlet j0 <- strlen fuel d m in
  dlet (j, m') <- cat_loop fuel (Some ((n - 1) mod z)) 0 j0 d s m in st m' (d + j) 0.

(** ** Printing numbers *)

(** Writing [l] at index [i] of a local array. *)
Definition put (buf : list Z) (i : Z) (l : list Z) : out (list Z) :=
  if (0 <=? i) && (i + zlen l <=? zlen buf) then
    Val (firstn (Z.to_nat i) buf ++ l ++ skipn (Z.to_nat i + length l) buf)
  else UB.
(** src/string.c:311 [kDigitLut]. *)
Definition digit (v : Z) : Z := if v <? 10 then 48 + v else 55 + v.
(** src/string.c:326-330: the digits are stored from the end of the buffer. *)
Fixpoint num_loop (fuel : nat) (base val sz : Z) (buf : list Z) : out (Z * list Z) :=
  match fuel with
  | O => NoFuel
  | S f =>
    dlet buf' <- put buf (zlen buf - sz - 1) [digit (val mod base)] in
    let val' := val / base in
    if 0 <? val' then num_loop f base val' (sz + 1) buf' else Val (sz + 1, buf')
  end.
(** src/string.c:307-337 [uart_writenum]: what is given to [uart_write]; [w] is the size of
    [unsigned long], [num] a 32-bit [int].  Negating the least [int] is undefined. *)
Definition writenum (w num base : Z) (zeropad : bool) (maxdigits : Z) : out (list Z) :=
  let size := w * 2 + 1 in
  let md := if maxdigits =? 0 then 8 else maxdigits in
  let md := if size <? md then size else md in
  let buf := repeat 0 (Z.to_nat size) in
  let neg := (base =? 10) && (num <? 0) in
  if neg && (num =? - 2 ^ 31) then UB
  else
    let val := if neg then - num else num mod 2 ^ 32 in
    dlet buf <- (if neg then put buf 0 [45] else Val buf) in
    let i := if neg then 1 else 0 in
    dlet buf <- (if zeropad then put buf i (repeat 48 (Z.to_nat md)) else Val buf) in
    dlet (sz, buf) <- num_loop 40 base val 0 buf in
    let i := if zeropad && (sz <? md) then i + (md - sz) else i in
    dlet buf <- put buf i (skipn (Z.to_nat (size - sz)) buf) in
    Val (firstn (Z.to_nat (i + sz)) buf).
