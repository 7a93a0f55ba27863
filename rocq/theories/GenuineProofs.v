(** A genuine image stored in flash is opened and verified successfully. *)
From Verif Require Import Base BaseLemmas HeaderModel HeaderSpec HeaderProofs Flash FlashLemmas
  ImageModel ImageSpec ImageProofs.

(** ** Readings depend on the parity of the address only *)

Lemma placed_parity : forall items a b rest, Z.odd a = Z.odd b -> placed a items rest -> placed b items rest.
Proof.
  induction items as [|i items IH]; intros a b rest Ho H; cbn [placed] in *; [trivial|].
  destruct H as (H1 & H2). split.
  - destruct i; [|rewrite <- Ho; exact H1].
    destruct H1 as (A & B & C). split; [exact A|]. split; [exact B|]. rewrite <- Ho. exact C.
  - apply (IH (a + zlen (item_bytes i))); [|exact H2]. rewrite !Z.odd_add, Ho. reflexivity.
Qed.

Lemma reads_parity : forall a b h items, Z.odd a = Z.odd b -> reads_as a h items -> reads_as b h items.
Proof.
  intros a b h items Ho (pre & rest & H1 & H2 & H3 & H4). exists pre, rest.
  split; [exact H1|]. split; [exact H2|]. split.
  - eapply placed_parity; [|exact H3]. rewrite !Z.odd_add, Ho. reflexivity.
  - destruct H4 as [H|[H|(H & K)]]; [left; exact H|right; left; exact H|right; right].
    split; [|exact K]. rewrite <- H, !Z.odd_add, Ho. reflexivity.
Qed.

Lemma field_parity : forall a b h ty off d, Z.odd a = Z.odd b -> field_at a h ty off d -> field_at b h ty off d.
Proof.
  intros a b h ty off d Ho (items & H1 & H2). exists items. split; [|exact H2].
  eapply reads_parity; eauto.
Qed.

Lemma signer_parity : forall c a b h ty id n, Z.odd a = Z.odd b -> signer c a h ty id n -> signer c b h ty id n.
Proof.
  intros c a b h ty id n Ho (off & hint & H & K). exists off, hint. split; [|exact K].
  eapply field_parity; eauto.
Qed.

Lemma type_parity : forall c a b h id, Z.odd a = Z.odd b -> type_ok c a h id -> type_ok c b h id.
Proof.
  intros c a b h id Ho (off & b0 & b1 & H & K). exists off, b0, b1. split; [|exact K].
  eapply field_parity; eauto.
Qed.

Lemma intact_parity : forall c a b h fw d, Z.odd a = Z.odd b -> intact c a h fw d -> intact c b h fw d.
Proof.
  intros c a b h fw d Ho (off & H & K). exists off. split; [|exact K]. eapply field_parity; eauto.
Qed.

(** ** Bytes of a stored image *)

Lemma nth_error_ext : forall {A} (l1 l2 : list A), length l1 = length l2 ->
  (forall i d, (i < length l1)%nat -> nth i l1 d = nth i l2 d) -> l1 = l2.
Proof.
  intros A l1 l2 Hl H. destruct l1 as [|x l1].
  - destruct l2; [reflexivity|discriminate].
  - apply nth_ext with (d := x) (d' := x); [exact Hl|]. intros n Hn. apply H, Hn.
Qed.

Lemma holds_sub : forall f a X o n, holds f a X -> (o + n <= length X)%nat ->
  rdl f (a + Z.of_nat o) n = sub X o n.
Proof.
  intros f a X o n H Hl. apply nth_error_ext.
  - rewrite length_rdl, length_sub by lia. reflexivity.
  - intros i d Hi. rewrite length_rdl in Hi. rewrite rdl_nth by exact Hi.
    replace (a + Z.of_nat o + Z.of_nat i) with (a + Z.of_nat (o + i)) by lia.
    rewrite H by (unfold zlen; lia). rewrite Nat2Z.id.
    unfold sub. rewrite (nth_indep (firstn n (skipn o X)) d 0) by (rewrite firstn_length, skipn_length; lia).
    rewrite <- (firstn_skipn o X) at 1. rewrite app_nth2 by (rewrite firstn_length; lia).
    rewrite firstn_length, Nat.min_l by lia. replace (o + i - o)%nat with i by lia.
    rewrite <- (firstn_skipn n (skipn o X)) at 1. rewrite app_nth1; [reflexivity|].
    rewrite firstn_length, skipn_length. lia.
Qed.

Lemma sub_0 : forall {A} (l : list A) n, sub l 0 n = firstn n l.
Proof. reflexivity. Qed.

Lemma word_rdl : forall f a, word f a = le_val (rdl f a 4).
Proof.
  intros. unfold word, le32. cbn [rdl le_val].
  replace (a + 1 + 1) with (a + 2) by lia. replace (a + 2 + 1) with (a + 3) by lia. lia.
Qed.

Lemma half_rdl : forall f a, half f a = le_val (rdl f a 2).
Proof. intros. unfold half. cbn [rdl le_val]. lia. Qed.

Lemma holds_hdr : forall c f a X, holds f a X -> 0 <= HDR c <= zlen X -> hdr_bytes c f a = hdr_of c X.
Proof.
  intros c f a X H Hl. unfold hdr_bytes, hdr_of. rewrite <- sub_0, <- (holds_sub f a) by (unfold zlen in *; auto; lia).
  f_equal. lia.
Qed.

Lemma sub_all : forall {A} (l : list A) o n, (o + n = length l)%nat -> sub l o n = skipn o l.
Proof. intros. unfold sub. apply firstn_all2. rewrite skipn_length. lia. Qed.

(** ** Opening and verifying *)

Section Stored.
  Variables (c : cfg) (f : flash) (p : part) (X : list Z) (v : Z).
  Hypothesis Hb : bytes f.
  Hypothesis Hh : hdr_small c.
  Hypothesis Hp : p <> PSWAP.
  Hypothesis Hodd : Z.odd (part_addr c p) = false.
  Hypothesis Hblk : 0 < BLK c /\ PART c + BLK c < 2 ^ 32.
  Hypothesis Hs : 0 <= SECT c.
  Hypothesis HX : genuine c X v.
  Hypothesis Hold : holds f (part_addr c p) X.

  Let a := part_addr c p.

  Lemma stored_len : 8 <= HDR c < zlen X.
  Proof. destruct HX, Hh. lia. Qed.

  Lemma stored_hdr : hdr_bytes c f a = hdr_of c X.
  Proof. apply holds_hdr; [exact Hold|]. pose proof stored_len. lia. Qed.

  Lemma stored_magic : word f a = WOLFBOOT_MAGIC.
  Proof.
    pose proof stored_len. rewrite <- (gn_magic _ _ _ HX), word_rdl, <- sub_0.
    rewrite <- (holds_sub f a) by (unfold zlen in *; auto; lia). do 2 f_equal. lia.
  Qed.

  Lemma stored_size : word f (a + 4) = zlen X - HDR c.
  Proof.
    pose proof stored_len. rewrite <- (gn_size _ _ _ HX), word_rdl.
    rewrite <- (holds_sub f a) by (unfold zlen in *; auto; lia). reflexivity.
  Qed.

  Definition stored_image (sha sig : bool) (d : option (list Z)) : image :=
    mkImage p a (a + HDR c) (zlen X - HDR c) true sha sig d.

  Lemma stored_open : open_image c f p = (true, stored_image false false None).
  Proof.
    unfold open_image. cbn zeta. fold a. unfold image_size. rewrite stored_magic, stored_size.
    pose proof (gn_fit _ _ _ HX). rewrite Z.eqb_refl. cbn [negb].
    destruct (Z.gtb_spec (zlen X - HDR c) (PART c - HDR c)); [lia|].
    assert (E : forall (A : Type) (x y : A), (match p with PSWAP => x | PBOOT => y | PUPDATE => y end) = y)
      by (clear -Hp; destruct p; congruence).
    rewrite E. reflexivity.
  Qed.

  Lemma stored_fw : forall sha sig d, fw_bytes f (stored_image sha sig d) = fw_of c X.
  Proof.
    intros. unfold fw_bytes, stored_image, fw_of. cbn [i_base i_size].
    pose proof stored_len.
    replace (a + HDR c) with (a + Z.of_nat (Z.to_nat (HDR c))) by lia.
    rewrite (holds_sub f a X) by (unfold zlen in *; auto; lia).
    apply sub_all. unfold zlen in *. lia.
  Qed.

  Lemma hdr_all_bytes : all_bytes (hdr_of c X) /\ zlen (hdr_of c X) < 65544.
  Proof. rewrite <- stored_hdr. destruct (hdr_facts c f a Hb Hh) as (A & _ & B). auto. Qed.

  Lemma stored_integrity : exists d, signed c (hdr_of c X) d /\
    verify_integrity c f (stored_image false false None) = Val (true, stored_image true false (Some d)).
  Proof.
    destruct (gn_signed _ _ _ HX) as (d & I & S). exists d. split; [exact S|].
    destruct hdr_all_bytes as (B1 & B2). pose proof stored_len. pose proof (gn_fit _ _ _ HX).
    destruct (verify_integrity_spec c f (stored_image false false None) Hb Hh) as [(d' & I' & E)|(N & _)].
    - unfold blk_ok, stored_image. cbn [i_size]. lia.
    - rewrite E. unfold stored_image in *. cbn [i_hdr i_part i_base i_size i_hdr_ok i_sig_ok] in *.
      do 3 f_equal. destruct I as (o & F & _), I' as (o' & F' & _).
      rewrite stored_hdr in F'. apply (field_parity a 0) in F'; [|exact Hodd].
      eapply f_equal. destruct (field_det _ _ _ _ _ _ _ B1 B2 F F') as (_ & ->). reflexivity.
    - exfalso. apply (N d). rewrite stored_fw. cbn [i_hdr stored_image]. rewrite stored_hdr.
      apply (intact_parity c 0); [symmetry; exact Hodd|exact I].
  Qed.

  Lemma presented_stored : forall ty n off s, field_at 0 (hdr_of c X) ty off s -> length s = n ->
    presented f a (hdr_bytes c f a) ty n s.
  Proof.
    intros ty n off s F L. destruct hdr_all_bytes as (B1 & B2). left. exists off, s.
    destruct (field_find _ _ _ _ _ B1 B2 F) as (E & S).
    rewrite stored_hdr. split; [apply (field_parity 0); [symmetry; exact Hodd|exact F]|].
    destruct (find_header_safe 0 (hdr_of c X) ty B1) as (r & E' & Hsafe). rewrite E in E'.
    injection E' as <-. destruct (Hsafe _ _ eq_refl) as (_ & Hle).
    rewrite <- stored_hdr in S, Hle. unfold hdr_bytes in S, Hle. rewrite length_rdl in Hle.
    rewrite rdl_sub in S by exact Hle. rewrite <- L. symmetry. exact S.
  Qed.

  Lemma stored_authentic : forall d, signed c (hdr_of c X) d -> authentic c f a (hdr_bytes c f a) d.
  Proof.
    intros d (n & off & s & T & G & F & L & V & Hy). exists TYPE_APP, n, s.
    split; [rewrite stored_hdr; apply (type_parity c 0); [symmetry; exact Hodd|exact T]|].
    split; [rewrite stored_hdr; apply (signer_parity c 0); [symmetry; exact Hodd|exact G]|].
    split; [eapply presented_stored; eauto|]. split; [exact V|].
    intro H. destruct (Hy H) as (n2 & off2 & s2 & G2 & F2 & L2 & V2). exists n2, s2.
    split; [rewrite stored_hdr; apply (signer_parity c 0); [symmetry; exact Hodd|exact G2]|].
    split; [eapply presented_stored; eauto|exact V2].
  Qed.

  Lemma stored_authenticity : forall d, signed c (hdr_of c X) d ->
    verify_authenticity c f (stored_image true false (Some d)) = Val (Accept, stored_image true true (Some d)).
  Proof.
    intros d S.
    destruct (verify_authenticity_spec c f (stored_image true false (Some d)) d Hb Hh eq_refl eq_refl)
      as [(_ & E)|(N & _)]; [exact E|].
    exfalso. apply N. apply stored_authentic, S.
  Qed.

  Lemma stored_version : get_image_version c f p = Val v.
  Proof.
    unfold get_image_version. cbn zeta. fold a. rewrite stored_magic, Z.eqb_refl. cbn [negb].
    unfold get_header. rewrite stored_hdr. destruct hdr_all_bytes as (B1 & B2).
    destruct (gn_ver _ _ _ HX) as (off & d & F & L & Ev).
    apply (field_parity 0 a) in F; [|symmetry; exact Hodd].
    destruct (field_find _ _ _ _ _ B1 B2 F) as (E & S). rewrite E, L. cbn [obind Nat.eqb].
    f_equal. rewrite Ev, word_rdl. f_equal. rewrite <- S, L.
    destruct (find_header_safe a (hdr_of c X) HDR_VERSION B1) as (r & E' & Hsafe). rewrite E in E'.
    injection E' as <-. destruct (Hsafe _ _ eq_refl) as (_ & Hle). rewrite L in Hle.
    rewrite <- stored_hdr in *. unfold hdr_bytes in *. rewrite length_rdl in Hle.
    rewrite rdl_sub by exact Hle. reflexivity.
  Qed.

  Lemma stored_type : exists ty, get_image_type c f p = Val ty /\
    Z.land ty TYPE_PART_MASK = TYPE_APP /\ Z.land ty TYPE_AUTH_MASK = c_auth c.
  Proof.
    destruct (gn_signed _ _ _ HX) as (d & _ & (n & off & s & T & _)).
    destruct (type_cases c f a Hb Hh) as [(toff & E & P)|(N & _)].
    - exists (half f (a + Z.of_nat toff)). split.
      + unfold get_image_type. cbn zeta. fold a. rewrite stored_magic, Z.eqb_refl. cbn [negb].
        rewrite E. reflexivity.
      + destruct (proj1 (P TYPE_APP)) as (P1 & P2); [|split; [symmetry; exact P2|exact P1]].
        rewrite stored_hdr. apply (type_parity c 0); [symmetry; exact Hodd|exact T].
    - exfalso. apply (N TYPE_APP). rewrite stored_hdr. apply (type_parity c 0); [symmetry; exact Hodd|exact T].
  Qed.
End Stored.
