(** Specification of delta patches: the instruction stream a patch stands for. *)
From Verif Require Import Base Flash DeltaModel.

(** A patch is a sequence of literal bytes and of copies of [n] bytes of the base image
    from offset [o]. *)
Inductive tok := Lit (b : Z) | Copy (o n : Z).

Definition tlen (t : tok) : Z := match t with Lit _ => 1 | Copy _ n => n end.
Fixpoint total (ts : list tok) : Z := match ts with [] => 0 | t :: ts' => tlen t + total ts' end.

(** What the instructions produce from a base image. *)
Definition expand1 (src : Z -> Z) (t : tok) : list Z :=
  match t with Lit b => [b] | Copy o n => rdl src o (Z.to_nat n) end.
Definition expand (src : Z -> Z) (ts : list tok) : list Z := flat_map (expand1 src) ts.

(** The instructions written at [off] in a patch of [psz] bytes: 0x7F 0x7F is the byte
    0x7F, 0x7F followed by a 24-bit offset and a 16-bit length (big endian) is a copy,
    anything else is itself. *)
Inductive parsed (pt : Z -> Z) (psz : Z) : Z -> list tok -> Prop :=
| pa_end : forall off, psz <= off -> parsed pt psz off []
| pa_lit : forall off ts, off < psz -> pt off <> 127 -> parsed pt psz (off + 1) ts ->
    parsed pt psz off (Lit (pt off) :: ts)
| pa_esc : forall off ts, off < psz -> pt off = 127 -> pt (off + 1) = 127 -> parsed pt psz (off + 2) ts ->
    parsed pt psz off (Lit 127 :: ts)
| pa_copy : forall off ts, off < psz -> pt off = 127 -> pt (off + 1) <> 127 -> parsed pt psz (off + 6) ts ->
    parsed pt psz off
      (Copy (pt (off + 1) * 65536 + pt (off + 2) * 256 + pt (off + 3)) (pt (off + 4) * 256 + pt (off + 5)) :: ts).

(** Calling the decoder repeatedly with buffers of the given sizes; the concatenated
    output. *)
Fixpoint patch_calls (src pt : Z -> Z) (psz : Z) (x : pctx) (lens : list Z) : out (list Z * pctx) :=
  match lens with
  | [] => Val ([], x)
  | len :: lens' =>
      dlet r <- wb_patch src pt psz x len in
      match r with
      | None => UB
      | Some (o, x1) => dlet (o2, x2) <- patch_calls src pt psz x1 lens' in Val (o ++ o2, x2)
      end
  end.
Fixpoint patch_calls_ext (src pt : Z -> Z) (psz : Z) (x : pctx) (h : cache) (lens : list Z) : out (list Z * pctx * cache) :=
  match lens with
  | [] => Val ([], x, h)
  | len :: lens' =>
      dlet r <- wb_patch_ext src pt psz x h len in
      match r with
      | None => UB
      | Some (o, x1, h1) => dlet (o2, x2, h2) <- patch_calls_ext src pt psz x1 h1 lens' in Val (o ++ o2, x2, h2)
      end
  end.

Fixpoint sumz (l : list Z) : Z := match l with [] => 0 | x :: l' => x + sumz l' end.

(** Applying a patch over the base image itself, sector by sector (the way
    wolfBoot_delta_update uses the decoder): each sector of [sect] bytes is produced with
    buffers of [blk] bytes while the base is unchanged, then replaces that sector. *)
Definition overwrite (m : Z -> Z) (a : Z) (o : list Z) : Z -> Z :=
  fun x => if inr a (zlen o) x then nth (Z.to_nat (x - a)) o 0 else m x.
Fixpoint apply_sectors (n : nat) (pt : Z -> Z) (psz sect blk : Z) (k : Z) (m : Z -> Z) (x : pctx) : out (Z -> Z) :=
  match n with
  | O => Val m
  | S n' =>
      dlet (o, x1) <- patch_calls m pt psz x (repeat blk (Z.to_nat (sect / blk))) in
      apply_sectors n' pt psz sect blk (k + 1) (overwrite m (k * sect) o) x1
  end.

(** The pairs of images for which the encoder's output is correct: sectors of 7 bytes to
    64 KiB, images of at most 0x7F0000 bytes, and no 64 KiB of the target (or of the memory
    read past its end) repeated later. *)
Record usable (i : din) : Prop := {
  us_sect : 6 < d_sect i <= 65536;
  us_sa : 0 < d_sa i <= 8323072;
  us_sb : 0 < d_sb i <= 8323072;
  us_a : bytes (d_a i);
  us_b : bytes (d_b i);
  us_rep : forall o d, 0 <= o -> o + 65536 <= d < d_sb i ->
    exists j, 0 <= j < 65536 /\ d_b i (o + j) <> d_b i (d + j) }.
