(** A small concrete configuration and image builder, used only to show that the hypotheses
    of the theorems are met by non-trivial cases, and as witnesses of refutations.  The
    hash and signature are toys. *)
From Verif Require Import Base BaseLemmas HeaderModel HeaderSpec HeaderProofs Flash FlashLemmas
  ImageModel ImageSpec ImageProofs Geometry.

Definition demo_hash (l : list Z) : list Z :=
  le_bytes 4 (fold_left (fun a b => (a * 31 + b + 1) mod 2 ^ 32) l 7).
Definition demo_sign (d : list Z) : list Z := map (fun b => (b + 1) mod 256) d.

Definition demo : cfg := {|
  BOOT := 1024; UPDATE := 2048; SWAP := 4096; UFLAGS := 2560; PART := 512; SECT := 128; HDR := 64; FB := 32;
  BLK := 48; c_hash_tag := HDR_SHA256; c_digsz := 4; c_auth := 0x200;
  c_hash := demo_hash;
  c_keys := [(None, 0xFF); (Some [1; 2; 3], 0x1); (Some [4; 5; 6], 0x2)]; c_sigsz := 4;
  c_verify := (fun n d s => (n =? 2)%nat && list_eqb s (demo_sign d)); c_hybrid := false; c_sigsz2 := 0;
  c_verify2 := (fun _ _ _ => false); c_allow_downgrade := false |}.

Definition demo_pre (ver : Z) (fw : list Z) : list Z :=
  le_bytes 4 WOLFBOOT_MAGIC ++ le_bytes 4 (zlen fw) ++ [1; 0; 4; 0] ++ le_bytes 4 ver ++
  [4; 0; 2; 0; 1; 2; 255; 255].
Definition pad_to (n : nat) (l : list Z) : list Z := l ++ repeat 255 (n - length l).
Definition demo_image (ver : Z) (fw : list Z) : list Z :=
  let pre := demo_pre ver fw in
  let d := demo_hash (pre ++ fw) in
  pad_to 64 (pre ++ [3; 0; 4; 0] ++ d ++ [16; 0; 4; 0] ++ demo_hash [4; 5; 6] ++
             [32; 0; 4; 0] ++ demo_sign d) ++ fw.

(** [f] with the bytes of [L] stored from [a]. *)
Definition store (a : Z) (L : list Z) (f : flash) : flash :=
  fun x => if inr a (zlen L) x then nth (Z.to_nat (x - a)) L 0 else f x.

Lemma store_bytes : forall a L f, all_bytes L -> bytes f -> bytes (store a L f).
Proof.
  intros a L f HL Hf x. unfold store. destruct (inr a (zlen L) x) eqn:E; [|apply Hf].
  apply inr_true in E. apply (proj1 (Forall_forall _ _) HL). apply nth_In. unfold zlen in E. lia.
Qed.

Lemma store_holds : forall a L f, holds (store a L f) a L.
Proof.
  intros a L f i Hi. unfold store. replace (inr a (zlen L) (a + i)) with true.
  - f_equal. lia.
  - symmetry. apply inr_true. lia.
Qed.

Lemma store_other : forall a L f b M, a + zlen L <= b \/ b + zlen M <= a -> holds f b M ->
  holds (store a L f) b M.
Proof.
  intros a L f b M Hd H i Hi. unfold store. replace (inr a (zlen L) (b + i)) with false; [apply H, Hi|].
  symmetry. apply inr_false. lia.
Qed.

Definition check_bytes (l : list Z) : bool := forallb (fun b => (0 <=? b) && (b <? 256)) l.
Lemma check_bytes_ok : forall l, check_bytes l = true -> all_bytes l.
Proof.
  intros l H. apply Forall_forall. intros x Hx. unfold check_bytes in H.
  rewrite forallb_forall in H. specialize (H x Hx). unfold is_byte. lia.
Qed.

Lemma field_by : forall base h ty off len d, check_bytes h = true -> (8 <= length h)%nat ->
  zlen h < 65544 -> find_header base h ty = Val (Some (off, len)) -> sub h off len = d ->
  field_at base h ty off d.
Proof.
  intros base h ty off len d Hb Hl Hz E Hs. apply check_bytes_ok in Hb.
  destruct (find_field _ _ _ _ Hb Hl Hz E) as (d' & F & _ & S). congruence.
Qed.

Ltac demo_field := eapply field_by; [vm_compute; reflexivity|apply Nat.leb_le; vm_compute; reflexivity|vm_compute; reflexivity|
  vm_compute; reflexivity|vm_compute; reflexivity].

Definition demo_hint : list Z := Eval vm_compute in demo_hash [4; 5; 6].
Lemma demo_names : names_slot demo demo_hint 2.
Proof.
  split; [vm_compute; reflexivity|]. intros m Hm.
  destruct m as [|[|m]]; [| |lia]; vm_compute; discriminate.
Qed.

(** Two images: version 3 with 70 bytes of firmware, version 5 with 200 (so that it uses
    three sectors, the last one beside the trailer). *)
Definition demo_fw1 : list Z := map (fun i => Z.of_nat (i * 7 mod 251)) (seq 1 70).
Definition demo_fw2 : list Z := map (fun i => Z.of_nat (i * 11 mod 241)) (seq 5 200).
Definition demo_old : list Z := Eval vm_compute in demo_image 3 demo_fw1.
Definition demo_new : list Z := Eval vm_compute in demo_image 5 demo_fw2.

Ltac demo_genuine :=
  constructor;
  [ apply check_bytes_ok; vm_compute; reflexivity
  | vm_compute; reflexivity
  | vm_compute; discriminate
  | vm_compute; reflexivity
  | vm_compute; reflexivity
  | eexists _, _; split; [demo_field|split; [vm_compute; reflexivity|vm_compute; reflexivity]]
  | eexists; split;
    [ eexists; split; [demo_field|split; [vm_compute; reflexivity|vm_compute; reflexivity]]
    | exists 2%nat; eexists _, _; split;
      [ eexists _, _, _; split; [demo_field|split; vm_compute; reflexivity]
      | split;
        [ eexists _, _; split; [demo_field|split; [vm_compute; reflexivity|split;
            [exact demo_names|exists (Some [4; 5; 6]), 2; split; vm_compute; reflexivity]]]
        | split; [demo_field|split; [vm_compute; reflexivity|split; [vm_compute; reflexivity|
            let H := fresh in intro H; discriminate H]]]]]]].

Lemma demo_old_genuine : genuine demo demo_old 3.
Proof. demo_genuine. Qed.
Lemma demo_new_genuine : genuine demo demo_new 5.
Proof. demo_genuine. Qed.

Lemma demo_geometry : geometry demo.
Proof.
  constructor; unfold disjoint; cbn; try lia; auto; try (left; lia); split; reflexivity || lia.
Qed.
