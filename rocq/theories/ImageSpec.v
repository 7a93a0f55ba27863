(** What it means for a stored image to be intact and authentic, in terms of the header
    reading of HeaderSpec and the external primitives only. *)
From Verif Require Import Base HeaderModel HeaderSpec Flash ImageModel.

(** In a header [h] stored at address [base], the first field of type [ty] has value [d],
    stored [off] bytes after the start of the header. *)
Definition field_at (base : Z) (h : list Z) (ty : Z) (off : nat) (d : list Z) : Prop :=
  exists items, reads_as base h items /\ first_rec ty items = Some d /\
                off = (8 + first_off ty items)%nat.

Definition no_field (base : Z) (h : list Z) (ty : Z) : Prop :=
  exists items, reads_as base h items /\ first_rec ty items = None.

(** Integrity of header [h] (at [base]) with firmware bytes [fw]: the digest field has the
    right size and equals the hash of the header up to that field (its four bytes of
    type and length excluded) followed by the firmware. *)
Definition intact (c : cfg) (base : Z) (h fw d : list Z) : Prop :=
  exists off, field_at base h (c_hash_tag c) off d /\ length d = c_digsz c /\
    d = c_hash c (firstn (off - 4) h ++ fw).

(** The lowest keystore slot whose key hashes to [hint]; an unusable key hashes to zeros. *)
Definition slot_hash (c : cfg) (n : nat) : option (list Z) :=
  match nth_error (c_keys c) n with
  | Some (Some k, _) => Some (c_hash c k)
  | Some (None, _) => Some (repeat 0 (c_digsz c))
  | None => None
  end.
Definition names_slot (c : cfg) (hint : list Z) (n : nat) : Prop :=
  slot_hash c n = Some hint /\ forall m, (m < n)%nat -> slot_hash c m <> Some hint.

(** The key in slot [n] may sign images of partition id [id]. *)
Definition allowed (c : cfg) (n : nat) (id : Z) : Prop :=
  exists k mask, nth_error (c_keys c) n = Some (k, mask) /\ Z.testbit mask id = true.

(** The bytes presented to signature verification: [n] bytes from the start of the
    signature field's value (from address 0 if there is none). *)
Definition presented (f : flash) (base : Z) (h : list Z) (ty : Z) (n : nat) (s : list Z) : Prop :=
  (exists off d, field_at base h ty off d /\ s = rdl f (base + Z.of_nat off) n) \/
  (no_field base h ty /\ s = rdl f 0 n).

(** The key hint field [ty] names slot [n], which may sign images of this id. *)
Definition signer (c : cfg) (base : Z) (h : list Z) (ty : Z) (id : Z) (n : nat) : Prop :=
  exists off hint, field_at base h ty off hint /\ length hint = c_digsz c /\
    names_slot c hint n /\ allowed c n id.

(** Image type: authentication method in the high byte, partition id in the low nibble. *)
Definition type_ok (c : cfg) (base : Z) (h : list Z) (id : Z) : Prop :=
  exists off b0 b1, field_at base h HDR_IMG_TYPE off [b0; b1] /\
    256 * b1 = c_auth c /\ id = b0 mod 16.

(** Authenticity of an image whose digest is [digest]. *)
Definition authentic (c : cfg) (f : flash) (base : Z) (h digest : list Z) : Prop :=
  exists id n s,
    type_ok c base h id /\ signer c base h HDR_PUBKEY id n /\
    presented f base h HDR_SIGNATURE (c_sigsz c) s /\ c_verify c n digest s = true /\
    (c_hybrid c = true ->
     exists n2 s2, signer c base h HDR_SECONDARY_PUBKEY id n2 /\
       presented f base h HDR_SECONDARY_SIGNATURE (c_sigsz2 c) s2 /\
       c_verify2 c n2 digest s2 = true).

(** ** Stored images as byte lists *)

(** The bytes of [X] are stored from address [a] on. *)
Definition holds (f : flash) (a : Z) (X : list Z) : Prop :=
  forall i, 0 <= i < zlen X -> f (a + i) = nth (Z.to_nat i) X 0.

Definition hdr_of (c : cfg) (X : list Z) : list Z := firstn (Z.to_nat (HDR c)) X.
Definition fw_of (c : cfg) (X : list Z) : list Z := skipn (Z.to_nat (HDR c)) X.

(** The version recorded in an image. *)
Definition image_version (c : cfg) (X : list Z) (v : Z) : Prop :=
  exists off d, field_at 0 (hdr_of c X) HDR_VERSION off d /\ length d = 4%nat /\ v = le_val d.

(** The header [h] carries valid signatures of [digest], by keys allowed for application
    images, inside the header. *)
Definition signed (c : cfg) (h digest : list Z) : Prop :=
  exists n off s, type_ok c 0 h TYPE_APP /\ signer c 0 h HDR_PUBKEY TYPE_APP n /\
    field_at 0 h HDR_SIGNATURE off s /\ length s = c_sigsz c /\ c_verify c n digest s = true /\
    (c_hybrid c = true ->
     exists n2 off2 s2, signer c 0 h HDR_SECONDARY_PUBKEY TYPE_APP n2 /\
       field_at 0 h HDR_SECONDARY_SIGNATURE off2 s2 /\ length s2 = c_sigsz2 c /\
       c_verify2 c n2 digest s2 = true).

(** A properly signed application image of version [v] that fits in a partition: header and
    non-empty firmware. *)
Record genuine (c : cfg) (X : list Z) (v : Z) : Prop := {
  gn_bytes : all_bytes X;
  gn_len : HDR c < zlen X;
  gn_fit : zlen X <= PART c - SECT c;
  gn_magic : le_val (firstn 4 X) = WOLFBOOT_MAGIC;
  gn_size : le_val (sub X 4 4) = zlen X - HDR c;
  gn_ver : image_version c X v;
  gn_signed : exists d, intact c 0 (hdr_of c X) (fw_of c X) d /\ signed c (hdr_of c X) d
}.
