(** Version / type / delta-base read-out (C04). *)
From Verif Require Import Base BaseLemmas HeaderModel HeaderSpec HeaderProofs.

Lemma rd_sub : forall {A} (l : list A) o n i x,
  (i < n)%nat -> rd (sub l o n) i = Val x -> rd l (o + i) = Val x.
Proof. intros A l o n i x Hi H. unfold rd in *. rewrite nth_error_sub in H by assumption. exact H. Qed.

Lemma load32_ok : forall h off b0 b1 b2 b3 t n,
  (4 <= n)%nat -> sub h off n = b0 :: b1 :: b2 :: b3 :: t ->
  load32 h off = Val (le32 b0 b1 b2 b3).
Proof.
  intros h off b0 b1 b2 b3 t n Hn E. unfold load32.
  rewrite <- (Nat.add_0_r off) at 1.
  rewrite (rd_sub h off n 0 b0) by (try lia; rewrite E; reflexivity). cbn [obind].
  rewrite (rd_sub h off n 1 b1) by (try lia; rewrite E; reflexivity). cbn [obind].
  rewrite (rd_sub h off n 2 b2) by (try lia; rewrite E; reflexivity). cbn [obind].
  rewrite (rd_sub h off n 3 b3) by (try lia; rewrite E; reflexivity). reflexivity.
Qed.

Lemma load16_ok : forall h off b0 b1 t n,
  (2 <= n)%nat -> sub h off n = b0 :: b1 :: t ->
  load16 h off = Val (b0 + 256 * b1).
Proof.
  intros h off b0 b1 t n Hn E. unfold load16.
  rewrite <- (Nat.add_0_r off) at 1.
  rewrite (rd_sub h off n 0 b0) by (try lia; rewrite E; reflexivity). cbn [obind].
  rewrite (rd_sub h off n 1 b1) by (try lia; rewrite E; reflexivity). reflexivity.
Qed.

Lemma le32_val : forall b0 b1 b2 b3, le_val [b0; b1; b2; b3] = le32 b0 b1 b2 b3.
Proof. intros. unfold le32. cbn [le_val]. lia. Qed.

Lemma load32_head : forall h, (8 <= length h)%nat -> load32 h 0 = Val (le_val (firstn 4 h)).
Proof.
  intros h Hl. do 4 (destruct h as [|? h]; [cbn in Hl; lia|]).
  cbn [firstn]. rewrite le32_val. reflexivity.
Qed.

Lemma blob32 : forall (get : Z -> list Z -> out Z) ty base h items,
  (get = fun base h =>
    dlet magic <- load32 h 0 in
    if negb (magic =? WOLFBOOT_MAGIC) then Val 0
    else
      dlet r <- find_header base h ty in
      match r with
      | None => Val 0
      | Some (off, len) => if (len =? 0)%nat then Val 0 else load32 h off
      end) ->
  all_bytes h -> (8 <= length h)%nat -> zlen h < 65544 -> reads_as base h items ->
  (forall d, first_rec ty items = Some d -> d = [] \/ (4 <= length d)%nat) ->
  get base h =
    Val (if le_val (firstn 4 h) =? WOLFBOOT_MAGIC then
           match first_rec ty items with
           | Some d => le_val (firstn 4 d)
           | None => 0
           end
         else 0).
Proof.
  intros get ty base h items Hg Hb Hl8 Hlen Hr Hd. rewrite Hg. cbv beta. rewrite load32_head by assumption.
  cbn [obind]. destruct (le_val (firstn 4 h) =? WOLFBOOT_MAGIC); cbn [negb]; [|reflexivity].
  destruct (find_header_reads base h items ty Hb Hlen Hr) as (E & Es). rewrite E. cbn [obind].
  destruct (first_rec ty items) as [d|] eqn:Ed; [|reflexivity].
  specialize (Es d eq_refl). destruct (Hd d eq_refl) as [->|H4]; [reflexivity|].
  destruct (Nat.eqb_spec (length d) 0); [lia|].
  do 4 (destruct d as [|? d]; [cbn in H4; lia|]).
  rewrite (load32_ok _ _ _ _ _ _ _ _ H4 Es). cbn [firstn]. rewrite le32_val. reflexivity.
Qed.

Lemma blob16 : forall base h items,
  all_bytes h -> (8 <= length h)%nat -> zlen h < 65544 -> reads_as base h items ->
  (forall d, first_rec HDR_IMG_TYPE items = Some d -> d = [] \/ (2 <= length d)%nat) ->
  get_blob_type base h =
    Val (if le_val (firstn 4 h) =? WOLFBOOT_MAGIC then
           match first_rec HDR_IMG_TYPE items with
           | Some d => le_val (firstn 2 d)
           | None => 0
           end
         else 0).
Proof.
  intros base h items Hb Hl8 Hlen Hr Hd. unfold get_blob_type. rewrite load32_head by assumption.
  cbn [obind]. destruct (le_val (firstn 4 h) =? WOLFBOOT_MAGIC); cbn [negb]; [|reflexivity].
  destruct (find_header_reads base h items HDR_IMG_TYPE Hb Hlen Hr) as (E & Es). rewrite E. cbn [obind].
  destruct (first_rec HDR_IMG_TYPE items) as [d|] eqn:Ed; [|reflexivity].
  specialize (Es d eq_refl). destruct (Hd d eq_refl) as [->|H4]; [reflexivity|].
  destruct (Nat.eqb_spec (length d) 0); [lia|].
  do 2 (destruct d as [|? d]; [cbn in H4; lia|]).
  rewrite (load16_ok _ _ _ _ _ _ H4 Es). cbn [firstn le_val]. f_equal. lia.
Qed.
