(** What the signing tool is asked to put in a header, as an ordered list of fields,
    with no layout information. *)
From Verif Require Import Base HeaderModel SignModel.

Definition opt_field {A} (o : option A) (f : A -> Z * list Z) : list (Z * list Z) :=
  match o with Some a => [f a] | None => [] end.

(** Fields covered by the digest. *)
Definition hashed_fields (o : sign_opts) : list (Z * list Z) :=
  [(HDR_VERSION, le_bytes 4 (o_version o))]
  ++ opt_field (o_timestamp o) (fun t => (HDR_TIMESTAMP, le_bytes 8 t))
  ++ [(HDR_IMG_TYPE, le_bytes 2 (o_img_type o))]
  ++ match o_delta o with
     | None => []
     | Some d =>
         [(HDR_IMG_DELTA_BASE, le_bytes 4 (d_base d));
          (HDR_IMG_DELTA_SIZE, le_bytes 4 (d_size d));
          (HDR_IMG_DELTA_INVERSE, le_bytes 4 (d_inv_off d));
          (HDR_IMG_DELTA_INVERSE_SIZE, le_bytes 4 (d_inv_size d))]
         ++ opt_field (d_base_hash d) (fun h => (HDR_IMG_DELTA_BASE_HASH, h))
     end
  ++ o_custom o
  ++ [(HDR_PUBKEY, o_pubkey_hash o)]
  ++ match o_secondary o with
     | None => []
     | Some (c, h2) => [(HDR_SECONDARY_CIPHER, le_bytes 2 c); (HDR_SECONDARY_PUBKEY, h2)]
     end.

(** All fields, given the image digest. *)
Definition all_fields (o : sign_opts) (digest : list Z) : list (Z * list Z) :=
  hashed_fields o
  ++ [(hash_tag (o_algo o), digest)]
  ++ match o_sign o with
     | None => []
     | Some sg =>
         [(HDR_SIGNATURE, sg digest)]
         ++ opt_field (o_sign2 o) (fun s => (HDR_SECONDARY_SIGNATURE, s digest))
         ++ opt_field (o_policy o) (fun p => (HDR_POLICY_SIGNATURE, p))
     end.

(** First field with a given tag. *)
Fixpoint field (ty : Z) (l : list (Z * list Z)) : option (list Z) :=
  match l with
  | [] => None
  | (t, d) :: r => if t =? ty then Some d else field ty r
  end.

(** A field value that a header can carry. *)
Definition ok_data (d : list Z) : Prop := d <> [] /\ zlen d < 65536 /\ all_bytes d.

(** Options accepted by the command line (sign.c:2477-2589): custom tags are 0x0030 or
    more and no byte of them is 0xFF; digests have even length (32 or 48). *)
Definition ok_opts (o : sign_opts) : Prop :=
  (forall t d, In (t, d) (o_custom o) ->
     0x30 <= t < 65536 /\ t mod 256 <> 255 /\ t / 256 <> 255 /\ ok_data d) /\
  ok_data (o_pubkey_hash o) /\
  (forall d bh, o_delta o = Some d -> d_base_hash d = Some bh -> ok_data bh) /\
  (forall c h2, o_secondary o = Some (c, h2) -> ok_data h2) /\
  (forall p, o_policy o = Some p -> ok_data p).
