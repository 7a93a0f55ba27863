(** Specification of booting from disk. *)
From Verif Require Import Base HeaderModel HeaderSpec Flash ImageModel ImageSpec SwapSpec DiskModel DiskSpec DiskBootModel.

(** The header size is sensible; images are hashed in blocks of a size that divides 2^32
    (WOLFBOOT_SHA_BLOCK_SIZE is 256). *)
Definition cfg_ok (c : cfg) : Prop := 8 <= HDR c < 65544 /\ 0 < BLK c <= 512 /\ 2 ^ 32 mod BLK c = 0.
(** The memory for images. *)
Definition room_ok (w : room) : Prop := 0 <= r_load w <= r_top w /\ r_top w < 2 ^ 32 /\ r_load w mod 16 = 0.

(** The image at [a] (header, and as much firmware as the header says) is intact and carries a
    valid signature by an allowed key. *)
Definition valid (c : cfg) (m : flash) (a : Z) : Prop :=
  word m a = WOLFBOOT_MAGIC /\
  exists d,
    intact c a (rdl m a (Z.to_nat (HDR c))) (rdl m (a + HDR c) (Z.to_nat (word m (a + 4)))) d /\
    authentic c m a (rdl m a (Z.to_nat (HDR c))) d.

(** Drive and cache hold bytes. *)
Definition byte_disk (st : ata) : Prop := bytes (a_disk st) /\ all_bytes (a_cache st).

(** The bytes image [p] claims to have. *)
Definition total (c : cfg) (d : flash) (p : gpart) : Z := HDR c + word d (g_start p + 4).
(** They are inside the partition, and memory has room for them rounded up to a sector. *)
Definition fits (c : cfg) (d : flash) (w : room) (p : gpart) : Prop :=
  total c d p <= g_end p - g_start p /\ r_load w + total c d p + 511 <= r_top w.
(** Memory [m] has a copy of the image in partition [p]. *)
Definition loaded (c : cfg) (d : flash) (w : room) (p : gpart) (m : flash) : Prop :=
  bytes m /\ forall i, 0 <= i < total c d p -> m (r_load w + i) = d (g_start p + i).
(** Some copy of it was found invalid. *)
Definition rejected (c : cfg) (d : flash) (w : room) (p : gpart) : Prop := exists m, loaded c d w p m /\ ~ valid c m (r_load w).

(** The header at [a], wherever it is copied, has version [v]. *)
Definition header_version (c : cfg) (d : flash) (a v : Z) : Prop :=
  forall m, bytes m -> (forall i, 0 <= i < HDR c -> m i = d (a + i)) -> version_at c m 0 v.

(** Partitions A and B of an opened, reliable drive 0. *)
Record disk_ok (s : source) (pA pB : gpart) : Prop := {
  k_reliable : reliable (s_hba s);
  k_drive : drive_ok (s_hba s) 0;
  k_A : is_part (s_drive s) (d_A s) pA;
  k_B : is_part (s_drive s) (d_B s) pB;
  k_pA : part_ok pA /\ g_end pA < 2 ^ 57;
  k_pB : part_ok pB /\ g_end pB < 2 ^ 57 }.

(** The outcome of trying [p] (B if [b]), then [q]. *)
Inductive decided (c : cfg) (d : flash) (w : room) (b : bool) (p q : gpart) : option (bool * world) -> Prop :=
| de_first : forall x, loaded c d w p (w_mem x) -> valid c (w_mem x) (r_load w) -> i_base (w_img x) = r_load w + HDR c ->
    decided c d w b p q (Some (b, x))
| de_second : forall x, rejected c d w p -> loaded c d w q (w_mem x) -> valid c (w_mem x) (r_load w) -> i_base (w_img x) = r_load w + HDR c ->
    decided c d w b p q (Some (negb b, x))
| de_none : rejected c d w p -> rejected c d w q -> decided c d w b p q None.
