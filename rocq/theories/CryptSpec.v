(** Specification of the encryption. *)
From Verif Require Import Base HeaderModel Flash ImageModel TrailerModel CryptModel.

(** Value of a big-endian byte string. *)
Fixpoint be_val (l : list Z) : Z :=
  match l with
  | [] => 0
  | b :: r => b * 256 ^ zlen r + be_val r
  end.

(** Keystream byte number [a] of the device. *)
Definition stream (C : cipher) (a : Z) : Z := nth (Z.to_nat (a mod EBS C)) (key_block C (seek C (a / EBS C))) 0.

(** [P] encrypted from keystream byte [a] on. *)
Fixpoint encrypted (C : cipher) (a : Z) (P : list Z) : list Z :=
  match P with
  | [] => []
  | b :: r => Z.lxor b (stream C a) :: encrypted C (a + 1) r
  end.

(** Stepping is seeking to the next block, and the keystream consists of bytes. *)
Definition lawful (C : cipher) : Prop :=
  0 < EBS C /\ (forall n, 0 <= n -> n + 1 < 2 ^ 32 -> next C (seek C n) = seek C (n + 1)) /\
  (forall s, all_bytes (key_block C s)).

(** The flash holds [P], encrypted, at offset [a] of the update partition. *)
Definition stores (e : ext) (f : flash) (a : Z) (P : list Z) : Prop :=
  forall i, 0 <= i < zlen P -> f (UPD e + a + i) = Z.lxor (nth (Z.to_nat i) P 0) (stream (EC e) (a + i)).

(** The part of the update partition that is encrypted ends here. *)
Definition plain_from (e : ext) : Z := (SFO e - EBS (EC e)) / EBS (EC e) * EBS (EC e).

(** Sane addresses: the update partition starts at a block boundary, the flags are inside it;
    blocks have at least 16 bytes (16 with AES, 64 with ChaCha). *)
Definition ext_ok (e : ext) : Prop :=
  lawful (EC e) /\ UPD e mod EBS (EC e) = 0 /\ 0 < UPD e /\ 0 <= SFO e <= PSZ e /\ PSZ e + EBS (EC e) < 2 ^ 32 /\ 16 <= EBS (EC e).

(** An application that writes chunks one after the other, stopping at an error. *)
Fixpoint enc_writes (e : ext) (f : flash) (a : Z) (chunks : list (list Z)) : out (option flash) :=
  match chunks with
  | [] => Val (Some f)
  | x :: r => dlet (v, f') <- enc_write e true f a x (zlen x) in if v =? 0 then enc_writes e f' (a + zlen x) r else Val None
  end.

(** The [n] bytes of the update partition from offset [a] are erased. *)
Definition blank (e : ext) (f : flash) (a n : Z) : Prop := forall i, 0 <= i < n -> f (UPD e + a + i) = 255.

(** Reads the function supports: the range starts at a block boundary, or reaches the end of
    its first block. *)
Definition readable (e : ext) (a n : Z) : Prop :=
  0 <= n /\ (a mod EBS (EC e) = 0 \/ EBS (EC e) - a mod EBS (EC e) <= n).

(** [P] is at offset [a] of the update partition, as it is. *)
Definition raw (e : ext) (f : flash) (a : Z) (P : list Z) : Prop :=
  forall i, 0 <= i < zlen P -> f (UPD e + a + i) = nth (Z.to_nat i) P 0.

(** A signed image: magic, size field, and as many bytes as the size says after the header. *)
Definition image_file (hdr : Z) (file : list Z) : Prop :=
  8 <= hdr <= zlen file /\ le_val (firstn 4 file) = WOLFBOOT_MAGIC /\ zlen file = hdr + le_val (firstn 4 (skipn 4 file)).
