(** Delta updates: the patch decoder and the diff encoder.  Source: src/delta.c.
    Memory regions are total functions from offsets to bytes: the code does no bounds check
    on the offsets it finds in a patch, and [wb_diff] reads past the end of its inputs. *)
From Verif Require Import Base Flash.

(** src/delta.c:29 [ESC], 37-43 [struct block_hdr]. *)
Definition ESC : Z := 127.
Definition BLOCK_HDR_SIZE : Z := 6.

(** ** Decoder *)

(** include/delta.h:31-44 [struct wb_patch_ctx] without the constant fields (source and
    patch base and size, passed as arguments below) and without the cache (see below). *)
Record pctx := mkP { p_off : Z; p_matching : bool; p_blk_sz : Z; p_blk_off : Z }.

(** src/delta.c:55-70 [wb_patch_init]: [None] for -1. *)
Definition wb_patch_init (ssz psz : Z) : option pctx :=
  if (ssz =? 0) || (psz =? 0) then None else Some (mkP 0 false 0 0).

(** src/delta.c:119-167: one iteration of the loop.  [pp k] is [pp[k]]; the result is the
    bytes stored at [dst + dst_off] and the new state, or [UB] when the copy would go past
    the [len] bytes of the destination. *)
Definition patch_step (src pp : Z -> Z) (len dst_off : Z) (x : pctx) : out (list Z * pctx) :=
  if p_matching x then
    let sz := p_blk_sz x mod 65536 in
    let sz := if sz >? len then len else sz in
    if dst_off + sz >? len then UB
    else
      Val (rdl src (p_blk_off x) (Z.to_nat sz),
           if p_blk_sz x >? len then mkP (p_off x) true (p_blk_sz x - len) (p_blk_off x + len)
           else mkP (p_off x) false 0 0)
  else if pp 0 =? ESC then
    if pp 1 =? ESC then Val ([ESC], mkP (p_off x + 2) false (p_blk_sz x) (p_blk_off x))
    else
      let src_off := pp 1 * 65536 + pp 2 * 256 + pp 3 in
      let sz := pp 4 * 256 + pp 5 in
      if sz >? len - dst_off then
        let copy_sz := len - dst_off in
        Val (rdl src src_off (Z.to_nat copy_sz),
             mkP (p_off x + BLOCK_HDR_SIZE) true (sz - copy_sz) (src_off + copy_sz))
      else Val (rdl src src_off (Z.to_nat sz), mkP (p_off x + BLOCK_HDR_SIZE) false (p_blk_sz x) 0)
  else Val ([pp 0], mkP (p_off x + 1) false (p_blk_sz x) (p_blk_off x)).

(** src/delta.c:118-168: the loop, patch memory-mapped at [pt] (92-96). *)
Fixpoint patch_loop (fuel : nat) (src pt : Z -> Z) (psz len dst_off : Z) (x : pctx) : out (list Z * pctx) :=
  if (p_matching x || (p_off x <? psz)) && (dst_off <? len) then
    match fuel with
    | O => NoFuel
    | S fuel' =>
      dlet (o, x1) <- patch_step src (fun k => pt (p_off x + k)) len dst_off x in
      dlet (o2, x2) <- patch_loop fuel' src pt psz len (dst_off + zlen o) x1 in
      Val (o ++ o2, x2)
    end
  else Val ([], x).

(** src/delta.c:103-170 [wb_patch(ctx, dst, len)]: [None] for -1, otherwise the bytes
    written to [dst] (their number is the result) and the new context. *)
Definition wb_patch (src pt : Z -> Z) (psz : Z) (x : pctx) (len : Z) : out (option (list Z * pctx)) :=
  if len <? BLOCK_HDR_SIZE then Val None
  else dlet r <- patch_loop (Z.to_nat (psz + len + 7)) src pt psz len 0 x in Val (Some r).

(** src/delta.c:72-90 [patch_read_cache] of EXT_FLASH builds.  The cache is the offset it
    was filled from (None for 0xFFFFFFFF) and the memory it was filled from; reading an
    index outside its DELTA_PATCH_BLOCK_SIZE (1024) bytes is [UB].  Returns [pp] (of which
    BLOCK_HDR_SIZE bytes may be used) and the new cache. *)
Definition CACHE_SIZE : Z := 1024.
Definition cache : Type := option (Z * (Z -> Z)).
Definition patch_read_cache (pt : Z -> Z) (h : cache) (off : Z) : out ((Z -> Z) * cache) :=
  let fill := Val (fun k => pt (off + k), Some (off, pt)) in
  match h with
  | Some (st, m) =>
      if st =? off then Val (fun k => m (st + k), h)
      else if off <? st + (CACHE_SIZE - BLOCK_HDR_SIZE) then
        if (off <? st) || (CACHE_SIZE <? off - st + BLOCK_HDR_SIZE) then UB
        else Val (fun k => m (st + (off - st) + k), h)
      else fill
  | None => fill
  end.

(** src/delta.c:118-168 in EXT_FLASH builds. *)
Fixpoint patch_loop_ext (fuel : nat) (src pt : Z -> Z) (psz len dst_off : Z) (x : pctx) (h : cache)
  : out (list Z * pctx * cache) :=
  if (p_matching x || (p_off x <? psz)) && (dst_off <? len) then
    match fuel with
    | O => NoFuel
    | S fuel' =>
      dlet (pp, h1) <- patch_read_cache pt h (p_off x) in
      dlet (o, x1) <- patch_step src pp len dst_off x in
      dlet (o2, x2, h2) <- patch_loop_ext fuel' src pt psz len (dst_off + zlen o) x1 h1 in
      Val (o ++ o2, x2, h2)
    end
  else Val ([], x, h).

Definition wb_patch_ext (src pt : Z -> Z) (psz : Z) (x : pctx) (h : cache) (len : Z)
  : out (option (list Z * pctx * cache)) :=
  if len <? BLOCK_HDR_SIZE then Val None
  else dlet r <- patch_loop_ext (Z.to_nat (psz + len + 7)) src pt psz len 0 x h in Val (Some r).

(** ** Encoder *)

(** [memcmp(f + a, g + b, n) == 0]. *)
Fixpoint same (n : nat) (f : Z -> Z) (a : Z) (g : Z -> Z) (b : Z) : bool :=
  match n with
  | O => true
  | S n' => (f a =? g b) && same n' f (a + 1) g (b + 1)
  end.

(** src/delta.c:284-289, 342-347: a block header; [uint16_t match_len]. *)
Definition block_hdr (blk_start match_len : Z) : list Z :=
  [ESC; Z.land (Z.shiftr blk_start 16) 255; Z.land (Z.shiftr blk_start 8) 255; Z.land blk_start 255;
   Z.land (Z.shiftr match_len 8) 255; Z.land match_len 255].

(** src/delta.c:308-311: one literal byte. *)
Definition literal (b : Z) : list Z := if b =? ESC then [ESC; ESC] else [b].

(** The inputs of [wb_diff]: [src_a], [size_a], [src_b], [size_b] (struct wb_diff_ctx) and
    [wolfboot_sector_size]. *)
Record din := { d_a : Z -> Z; d_sa : Z; d_b : Z -> Z; d_sb : Z; d_sect : Z }.

(** src/delta.c:268-282: extend a match with the base image.  Returns the new [off_b] and
    [match_len]. *)
Fixpoint extend_a (fuel : nat) (i : din) (b_start pa off match_len : Z) : out (Z * Z) :=
  match fuel with
  | O => NoFuel
  | S fuel' =>
    if d_a i pa =? d_b i off then
      if pa + 1 >=? d_sa i then Val (off, match_len)
      else if b_start / d_sect i <? (off + 1) / d_sect i then Val (off, match_len)
      else extend_a fuel' i b_start (pa + 1) (off + 1) ((match_len + 1) mod 65536)
    else Val (off, match_len)
  end.

(** src/delta.c:249-257, 292: look for six equal bytes in the base image from [pa]. *)
Fixpoint find_a (fuel : nat) (i : din) (off pa : Z) : out (option Z) :=
  if pa <? d_sa i then
    match fuel with
    | O => NoFuel
    | S fuel' =>
      if d_sa i - pa <? BLOCK_HDR_SIZE then Val None
      else if d_sb i - off <? BLOCK_HDR_SIZE then Val None
      else if d_sect i - off mod d_sect i <? BLOCK_HDR_SIZE then Val None
      else if same 6 (d_a i) pa (d_b i) off then Val (Some pa)
      else find_a fuel' i off (pa + 1)
    end
  else Val None.

(** src/delta.c:325-339: extend a match with the target image itself. *)
Fixpoint extend_b (fuel : nat) (i : din) (pb_end pb off match_len : Z) : out (Z * Z) :=
  match fuel with
  | O => NoFuel
  | S fuel' =>
    if d_b i pb =? d_b i off then
      let pb := pb + 1 in
      if pb >=? pb_end then Val (off, match_len)
      else extend_b fuel' i pb_end pb (off + 1) ((match_len + 1) mod 65536)
    else Val (off, match_len)
  end.

(** src/delta.c:297-316, 351: look for six equal bytes in the target before [pb_end]. *)
Fixpoint find_b (fuel : nat) (i : din) (pb_end off pb : Z) : out (option Z) :=
  if pb <? pb_end then
    match fuel with
    | O => NoFuel
    | S fuel' =>
      if d_sb i - off <? BLOCK_HDR_SIZE then Val None
      else if d_sb i - pb <? BLOCK_HDR_SIZE then Val None
      else if d_sect i >? pb_end - pb then Val None
      else if same 6 (d_b i) pb (d_b i) off then Val (Some pb)
      else find_b fuel' i pb_end off (pb + 1)
    end
  else Val None.

(** src/delta.c:231-365: one iteration of the main loop: the bytes appended to the patch and
    the new [off_b].  The tests [p_off < len] of the inner loops always hold there (loop
    condition at 231) and are omitted. *)
Definition diff_step (i : din) (off : Z) : out (list Z * Z) :=
  let page_start := off / d_sect i in
  let start := d_sect i * page_start in
  dlet ra <- find_a (Z.to_nat (d_sa i)) i off start in
  match ra with
  | Some pa =>
      dlet (off', n) <- extend_a (Z.to_nat (d_sa i)) i off (pa + BLOCK_HDR_SIZE) (off + BLOCK_HDR_SIZE) BLOCK_HDR_SIZE in
      Val (block_hdr pa n, off')
  | None =>
      dlet rb <- find_b (Z.to_nat start) i start off 0 in
      match rb with
      | Some pb =>
          dlet (off', n) <- extend_b (Z.to_nat start) i start (pb + BLOCK_HDR_SIZE) (off + BLOCK_HDR_SIZE) BLOCK_HDR_SIZE in
          Val (block_hdr pb n, off')
      | None => Val (literal (d_b i off), off + 1)
      end
  end.

(** src/delta.c:366-374: literals up to the end of the target. *)
Fixpoint tail_loop (fuel : nat) (i : din) (len p_off off : Z) : out (list Z * Z) :=
  if (p_off <? len - BLOCK_HDR_SIZE) && (off <? d_sb i) then
    match fuel with
    | O => NoFuel
    | S fuel' =>
      let o := literal (d_b i off) in
      dlet (o2, off2) <- tail_loop fuel' i len (p_off + zlen o) (off + 1) in
      Val (o ++ o2, off2)
    end
  else Val ([], off).

(** src/delta.c:231-374. *)
Fixpoint diff_loop (fuel : nat) (i : din) (len p_off off : Z) : out (list Z * Z) :=
  if (off + BLOCK_HDR_SIZE <? d_sb i) && (len >? p_off + BLOCK_HDR_SIZE) then
    match fuel with
    | O => NoFuel
    | S fuel' =>
      dlet (o, off1) <- diff_step i off in
      dlet (o2, off2) <- diff_loop fuel' i len (p_off + zlen o) off1 in
      Val (o ++ o2, off2)
    end
  else tail_loop (Z.to_nat (d_sb i)) i len p_off off.

(** src/delta.c:217-376 [wb_diff(ctx, patch, len)]: [None] for -1, otherwise the patch bytes
    and the new [off_b]. *)
Definition wb_diff (i : din) (off len : Z) : out (option (list Z * Z)) :=
  if off >=? d_sb i then Val (Some ([], off))
  else if len <? BLOCK_HDR_SIZE then Val None
  else dlet r <- diff_loop (Z.to_nat (d_sb i)) i len 0 off in Val (Some r).

(** tools/keytools/sign.c:1898-1917 (and 1932-1951): call [wb_diff] with blocks of one
    sector until it returns 0.  [None]: error. *)
Fixpoint diff_all (fuel : nat) (i : din) (off : Z) : out (option (list Z)) :=
  match fuel with
  | O => NoFuel
  | S fuel' =>
    dlet r <- wb_diff i off (d_sect i) in
    match r with
    | None => Val None
    | Some ([], _) => Val (Some [])
    | Some (o, off') =>
        dlet r2 <- diff_all fuel' i off' in
        match r2 with None => Val None | Some o2 => Val (Some (o ++ o2)) end
    end
  end.

(** src/delta.c:203-215 [wb_diff_init] then the loop: [None] for an error. *)
Definition make_patch (i : din) : out (option (list Z)) :=
  if (d_sa i =? 0) || (d_sb i =? 0) then Val None
  else diff_all (S (Z.to_nat (d_sb i))) i 0.
