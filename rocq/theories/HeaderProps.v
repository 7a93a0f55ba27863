(** Theorems about header parsing: C01, C02, C04. *)
From Verif Require Import Base HeaderModel HeaderSpec HeaderProofs BlobProofs.

(** C01. *)
Theorem C01_lookup_safe : forall base h ty,
  all_bytes h ->
  exists r, find_header base h ty = Val r /\
    (forall off len, r = Some (off, len) -> (12 <= off /\ off + len <= length h)%nat).
Proof. exact find_header_safe. Qed.
Print Assumptions C01_lookup_safe.

(** A header used as a witness below: magic, size, version field, one padding run, type
    field, end. *)
Definition sample_header : list Z :=
  [0x57; 0x4F; 0x4C; 0x46; 0; 1; 0; 0;
   1; 0; 4; 0; 7; 0; 0; 0; 255; 255; 255; 255;
   4; 0; 2; 0; 1; 2; 0; 0; 9; 9; 9; 9].
Definition sample_items : list item :=
  [Rec 1 [7; 0; 0; 0]; Pad 255; Pad 255; Pad 255; Pad 255; Rec 4 [1; 2]].

Example C01_hyps : all_bytes sample_header /\
  find_header 0 sample_header HDR_IMG_TYPE = Val (Some (24, 2)%nat).
Proof. split; [repeat constructor; unfold is_byte; lia | vm_compute; reflexivity]. Qed.

(** C02: every header has a reading, and lookup is what the reading says. *)
Theorem C02_reading_exists : forall base h,
  all_bytes h -> (8 <= length h)%nat -> exists items, reads_as base h items.
Proof. exact reads_as_exists. Qed.
Print Assumptions C02_reading_exists.

Theorem C02_lookup_first_field : forall base h items ty,
  all_bytes h -> zlen h < 65544 -> reads_as base h items ->
  find_header base h ty =
    Val (match first_rec ty items with
         | Some d => Some (8 + first_off ty items, length d)%nat
         | None => None
         end) /\
  (forall d, first_rec ty items = Some d -> sub h (8 + first_off ty items) (length d) = d).
Proof. exact find_header_reads. Qed.
Print Assumptions C02_lookup_first_field.

Example C02_hyps : reads_as 0 sample_header sample_items.
Proof.
  exists [0x57; 0x4F; 0x4C; 0x46; 0; 1; 0; 0], [0; 0; 9; 9; 9; 9].
  split; [reflexivity|]. split; [reflexivity|]. split.
  - cbn. unfold is_byte. repeat (split; try lia; try (left; lia)).
  - right. left. eexists. reflexivity.
Qed.

(** The length bound of C02 is needed: with a header of 65544 bytes or slightly more the
    16-bit truncation in the code hides every field. *)
Definition big_header : list Z :=
  [0x57; 0x4F; 0x4C; 0x46; 0; 1; 0; 0; 1; 0; 4; 0; 7; 0; 0; 0] ++ repeat 255 (Z.to_nat 65528).
Theorem C02_huge_header_refuted :
  exists h items, all_bytes h /\ reads_as 0 h items /\
    first_rec HDR_VERSION items = Some [7; 0; 0; 0] /\
    find_header 0 h HDR_VERSION = Val None.
Proof.
  exists big_header, (Rec 1 [7; 0; 0; 0] :: repeat (Pad 255) (Z.to_nat 65524)).
  assert (Hr : forall n, repeat 255 (n + 4) = repeat 255 n ++ [255; 255; 255; 255]).
  { induction n as [|n IH]; cbn; [reflexivity|]. f_equal. exact IH. }
  assert (Hi : forall n, items_bytes (repeat (Pad 255) n) = repeat 255 n).
  { induction n as [|n IH]; [reflexivity|]. cbn [repeat]. rewrite items_bytes_cons, IH. reflexivity. }
  split; [|split; [|split]].
  - unfold big_header, all_bytes. apply Forall_app. split; [repeat constructor; unfold is_byte; lia|].
    apply Forall_forall. intros x Hx. apply repeat_spec in Hx. subst. unfold is_byte. lia.
  - exists [0x57; 0x4F; 0x4C; 0x46; 0; 1; 0; 0], [255; 255; 255; 255].
    split; [|split; [reflexivity|split]].
    + unfold big_header. rewrite items_bytes_cons, Hi.
      replace (Z.to_nat 65528) with (Z.to_nat 65524 + 4)%nat by lia. rewrite Hr.
      generalize (repeat 255 (Z.to_nat 65524)). intro l. reflexivity.
    + assert (Hp : forall n a, placed a (repeat (Pad 255) n) [255; 255; 255; 255]).
      { induction n as [|n IH]; intro a; [exact I|]. cbn [repeat placed]. split; [|apply IH].
        unfold is_byte. rewrite app_length. cbn [length]. split; [lia|]. split; [lia|]. left; reflexivity. }
      cbn [placed]. split; [|apply Hp]. cbn. split; [reflexivity|]. lia.
    + left. cbn. lia.
  - reflexivity.
  - vm_compute. reflexivity.
Qed.
Print Assumptions C02_huge_header_refuted.

(** C04. *)
Theorem C04_version : forall base h items,
  all_bytes h -> (8 <= length h)%nat -> zlen h < 65544 -> reads_as base h items ->
  (forall d, first_rec HDR_VERSION items = Some d -> d = [] \/ (4 <= length d)%nat) ->
  get_blob_version base h =
    Val (if le_val (firstn 4 h) =? WOLFBOOT_MAGIC then
           match first_rec HDR_VERSION items with
           | Some d => le_val (firstn 4 d)
           | None => 0
           end
         else 0).
Proof. exact (fun base h items => blob32 get_blob_version HDR_VERSION base h items eq_refl). Qed.
Print Assumptions C04_version.

Theorem C04_diffbase : forall base h items,
  all_bytes h -> (8 <= length h)%nat -> zlen h < 65544 -> reads_as base h items ->
  (forall d, first_rec HDR_IMG_DELTA_BASE items = Some d -> d = [] \/ (4 <= length d)%nat) ->
  get_blob_diffbase_version base h =
    Val (if le_val (firstn 4 h) =? WOLFBOOT_MAGIC then
           match first_rec HDR_IMG_DELTA_BASE items with
           | Some d => le_val (firstn 4 d)
           | None => 0
           end
         else 0).
Proof. exact (fun base h items => blob32 get_blob_diffbase_version HDR_IMG_DELTA_BASE base h items eq_refl). Qed.
Print Assumptions C04_diffbase.

Theorem C04_type : forall base h items,
  all_bytes h -> (8 <= length h)%nat -> zlen h < 65544 -> reads_as base h items ->
  (forall d, first_rec HDR_IMG_TYPE items = Some d -> d = [] \/ (2 <= length d)%nat) ->
  get_blob_type base h =
    Val (if le_val (firstn 4 h) =? WOLFBOOT_MAGIC then
           match first_rec HDR_IMG_TYPE items with
           | Some d => le_val (firstn 2 d)
           | None => 0
           end
         else 0).
Proof. exact blob16. Qed.
Print Assumptions C04_type.

Example C04_hyps : get_blob_version 0 sample_header = Val 7 /\
  get_blob_type 0 sample_header = Val 0x201 /\ get_blob_diffbase_version 0 sample_header = Val 0.
Proof. vm_compute. repeat split. Qed.

(** Without the size hypothesis the claim is false: a two-byte version field at the very
    end of the header makes the read-out leave the header buffer. *)
Theorem C04_short_field_refuted :
  exists h, all_bytes h /\ length h = 16%nat /\ get_blob_version 0 h = UB.
Proof.
  exists ([0x57; 0x4F; 0x4C; 0x46; 0; 0; 0; 0] ++ [255; 255] ++ [1; 0; 2; 0; 7; 7])%list.
  split; [repeat constructor; unfold is_byte; lia|]. split; [reflexivity|].
  vm_compute. reflexivity.
Qed.
Print Assumptions C04_short_field_refuted.
