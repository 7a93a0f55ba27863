(** Theorem C03: headers laid out by the signing tool are read back by the bootloader. *)
From Verif Require Import Base HeaderModel SignModel SignSpec SignProofs.

Theorem C03_fields_round_trip : forall hash header_sz o image h base,
  ok_opts o -> Z.odd base = false -> Z.of_nat header_sz < 65544 ->
  let digest := hash (signed_prefix o (zlen image) ++ image) in
  ok_data digest ->
  (forall sg, o_sign o = Some sg -> ok_data (sg digest)) ->
  (forall sg, o_sign2 o = Some sg -> ok_data (sg digest)) ->
  make_header hash header_sz o image = Val h ->
  length h = header_sz /\ all_bytes h /\
  forall ty,
    match field ty (all_fields o digest) with
    | Some d => exists off, find_header base h ty = Val (Some (off, length d)) /\
                            sub h off (length d) = d
    | None => find_header base h ty = Val None
    end.
Proof. exact make_header_lookup. Qed.
Print Assumptions C03_fields_round_trip.

(** The bootloader hashes the header bytes before the digest field (offset minus four) and
    the image: exactly what the tool hashed. *)
Theorem C03_same_bytes_hashed : forall hash header_sz o image h base,
  ok_opts o -> Z.odd base = false -> Z.of_nat header_sz < 65544 ->
  let prefix := signed_prefix o (zlen image) in
  let digest := hash (prefix ++ image) in
  ok_data digest ->
  (forall sg, o_sign o = Some sg -> ok_data (sg digest)) ->
  (forall sg, o_sign2 o = Some sg -> ok_data (sg digest)) ->
  make_header hash header_sz o image = Val h ->
  exists off,
    find_header base h (hash_tag (o_algo o)) = Val (Some (off, length digest)) /\
    sub h off (length digest) = digest /\
    firstn (off - 4) h = prefix /\
    firstn 8 h = le_bytes 4 WOLFBOOT_MAGIC ++ le_bytes 4 (zlen image).
Proof. exact make_header_digest. Qed.
Print Assumptions C03_same_bytes_hashed.

(** A concrete case: timestamp, delta fields, two custom fields, secondary key, both
    signatures and a policy, with a toy 32-byte "hash". *)
Definition sample_opts : sign_opts := {|
  o_version := 0x01020304; o_timestamp := Some 0x65000000; o_img_type := 0x02D1;
  o_delta := Some {| d_base := 3; d_size := 4000; d_inv_off := 4096; d_inv_size := 77;
                     d_base_hash := Some (repeat 5 32) |};
  o_custom := [(0x30, [1; 2; 3]); (0x1234, [9])];
  o_algo := A_SHA384; o_pubkey_hash := repeat 7 48;
  o_secondary := Some (0x300, repeat 8 48);
  o_sign := Some (fun _ => repeat 1 64); o_sign2 := Some (fun _ => repeat 2 96);
  o_policy := Some (repeat 3 68) |}.

Example C03_hyps : exists h,
  ok_opts sample_opts /\
  make_header (fun l => repeat (fold_right Z.add 0 l mod 256) 48) 1024 sample_opts [1; 2; 3] = Val h /\
  find_header 0 h 0x1234 <> Val None.
Proof.
  eexists. split; [|split; [vm_compute; reflexivity|vm_compute; discriminate]].
  assert (H : forall b n, is_byte b -> (0 < n)%nat -> Z.of_nat n < 65536 -> ok_data (repeat b n)).
  { intros b n Hb Hn Hn2. split; [destruct n; [lia|discriminate]|]. split.
    - unfold zlen. rewrite repeat_length. lia.
    - apply Forall_forall. intros x Hx. apply repeat_spec in Hx. subst. exact Hb. }
  unfold ok_opts, sample_opts.
  cbn [o_custom o_pubkey_hash o_delta o_secondary o_policy].
  split; [|split; [|split; [|split]]].
  - intros t d [E|[E|[]]]; inversion E; subst; repeat split; try lia; try discriminate;
      try (repeat constructor; unfold is_byte; lia); vm_compute; reflexivity.
  - apply H; [unfold is_byte; lia | lia | lia].
  - intros d bh E E2. inversion E; subst. cbn [d_base_hash] in E2. inversion E2.
    apply (H 5 32%nat); [unfold is_byte; lia | lia | lia].
  - intros c h2 E. inversion E. apply (H 8 48%nat); [unfold is_byte; lia | lia | lia].
  - intros q E. inversion E. apply (H 3 68%nat); [unfold is_byte; lia | lia | lia].
Qed.

(** The tool has no check that the fields fit in the header: with a 256-byte header the
    same options make it write beyond its buffer. *)
Theorem C03_overflow_refuted :
  make_header (fun l => repeat (fold_right Z.add 0 l mod 256) 48) 256 sample_opts [1; 2; 3] = UB.
Proof. vm_compute. reflexivity. Qed.
Print Assumptions C03_overflow_refuted.
