(** The allocator of the crypto library. Source: src/xmalloc.c. *)
From Verif Require Import Base.

(** src/xmalloc.c:44-48 [struct xmalloc_slot], with the static buffer it points to.
    [s_room] is the length of that buffer. *)
Record slot : Type := { s_addr : Z; s_size : Z; s_used : bool; s_room : Z }.
Definition pool := list slot.

Definition use (s : slot) (b : bool) : slot := {| s_addr := s_addr s; s_size := s_size s; s_used := b; s_room := s_room s |}.

(** src/xmalloc.c:404-435 [XMALLOC]: the pointer (0 for NULL) and the pool.  The list ends
    where the entry with a NULL address is. *)
Fixpoint xmalloc (n : Z) (p : pool) : Z * pool :=
  match p with
  | [] => (0, [])
  | s :: r =>
    if (n =? s_size s) && negb (s_used s) then (s_addr s, use s true :: r)
    else let (a, r') := xmalloc n r in (a, s :: r')
  end.

(** src/xmalloc.c:437-452 [XFREE]. *)
Fixpoint xfree (ptr : Z) (p : pool) : pool :=
  match p with
  | [] => []
  | s :: r => if (ptr =? s_addr s) && s_used s then use s false :: r else s :: xfree ptr r
  end.

(** ** The static pools

    Sizes of the buffers, declared and in the pool table, for 4-byte words and digits.  The
    type sizes of wolfCrypt's TFM structures are parameters. *)
Definition buf := (Z * Z)%type. (* length of the array, size in the table *)

(** src/xmalloc.c:53-61, 202-206: the hash block, for SHA-256 (64-byte blocks) and
    SHA-384 (128-byte blocks). *)
Definition sha_256_buf : buf := (64 * 4, 64 * 4).
Definition sha_384_buf : buf := (128 / 4 * 4, 128 / 4 * 4).

(** src/xmalloc.c:69-131, 203-225: SP math, ECC.  [pt] MP_POINT_SIZE, [cs] MP_CURVE_SPECS_SIZE,
    [w] digits per number, [mont] MP_MONTGOMERY_SIZE. *)
Definition sp_ecc_asm (hash : buf) (cs pt w : Z) (mont : list Z) : list buf :=
  [hash; (cs, cs); (pt * 2, pt * 2); (pt * 2, pt * 2)] ++ map (fun x => (x, x)) mont ++
  [(pt * 17, pt * 17); (4 * 18 * w, 4 * 18 * w); (4 * 2 * w * 6, 4 * 2 * w * 6); (pt, pt)].
Definition sp_ecc_c (hash : buf) (cs pt w mont : Z) : list buf :=
  [hash; (cs, cs); (pt * 2, pt * 2); (pt * 2, pt * 3); (4 * (2 * w * 6), 4 * (2 * w * 6)); (mont, mont);
   (pt * 17, pt * 17); (4 * 18 * w, 4 * 18 * w); (4 * (4 * w + 3), 4 * (4 * w + 3)); (pt, pt)].
Definition ecc256_asm := sp_ecc_asm sha_256_buf 72 196 8 [].
Definition ecc384_asm := sp_ecc_asm sha_256_buf 104 292 12 [8 * 12].
Definition ecc521_asm := sp_ecc_asm sha_256_buf 144 412 17 [8 * 12].
Definition ecc256_c := sp_ecc_c sha_256_buf 72 220 9 (8 * 2 * 8).
Definition ecc384_c := sp_ecc_c sha_256_buf 104 364 15 (8 * 2 * 12).
Definition ecc521_c := sp_ecc_c sha_256_buf 144 508 21 (8 * 2 * 12).

(** src/xmalloc.c:251-263: Ed25519; 266-288: Ed448, [g] the size of [ge448_p2]. *)
Definition ed25519 : list buf := [sha_256_buf; (8 * 16 * 4, 8 * 16)].
Definition ed448 (g : Z) : list buf := [sha_256_buf; (448 / 4 * 4, 448); (448 / 4 * 4, 448); (g, g); (g, g)].

(** src/xmalloc.c:292-372: RSA with SP math ([w] digits) and with TFM ([mi] the size of
    [mp_int], [mr] of the reduction buffer). *)
Definition rsa_asm (w : Z) : list buf := [sha_256_buf; (224, 224); (4 * w * 5, 4 * w * 5)].
Definition rsa_c (w : Z) : list buf := [sha_256_buf; (224, 224); (4 * w * 5, 4 * w * 5); (4 * (w * 4 + 3), 4 * (w * 4 + 3))].
Definition rsa_tfm (mi mr : Z) : list buf :=
  [sha_256_buf; (224, 224); (mi, mi); (mi * 3, mi * 3); (mi, mi); (mi, mi); (mi * 5, mi * 5); (mr, mr)].

(** src/xmalloc.c:132-199, 226-248: ECC with TFM on 32-bit targets. *)
Definition ecc_tfm (mi pt mr : Z) (b0 : Z) (b1 : list Z) : list buf :=
  [sha_256_buf; (mi, mi); (380, 380)] ++ repeat (mi, mi) 7 ++ [(mi * 5, mi * 5)] ++ repeat (pt, pt) 6 ++
  [(b0, b0)] ++ map (fun x => (x, x)) b1 ++ [(mr, mr)].

(** The pool at start-up; [place] is where the linker puts buffer number [i]. *)
Definition make_pool (bs : list buf) (place : nat -> Z) : pool :=
  map (fun x => let '(i, b) := x in {| s_addr := place i; s_size := snd b; s_used := false; s_room := fst b |})
    (combine (seq 0 (length bs)) bs).
