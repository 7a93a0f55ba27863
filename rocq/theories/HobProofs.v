(** Lemmas about loads and stores in memory areas, and about walking a hand-off block list. *)
From Verif Require Import Base BaseLemmas HobSpec HobModel.
Local Ltac Zify.zify_post_hook ::= idtac.

Lemma ldw_at m a n v c o : m = a ++ le_bytes n v ++ c -> o = length a ->
  0 <= v < 256 ^ Z.of_nat n -> ldw m o n = Val v.
Proof.
  intros -> -> V. unfold ldw. rewrite !app_length, le_bytes_length.
  replace (length a + n <=? length a + (n + length c))%nat with true by (symmetry; apply Nat.leb_le; lia).
  rewrite (sub_app' a (le_bytes n v) c) by (rewrite ?le_bytes_length; reflexivity).
  rewrite le_val_bytes by exact V. reflexivity.
Qed.

Lemma stw_at m a b c d o : m = a ++ b ++ c -> o = length a -> length b = length d ->
  stw m o d = Val (a ++ d ++ c).
Proof.
  intros -> -> L. unfold stw. rewrite !app_length, <- L.
  replace (length a + length b <=? length a + (length b + length c))%nat with true
    by (symmetry; apply Nat.leb_le; lia).
  f_equal. rewrite firstn_app, Nat.sub_diag, firstn_all2 by lia. cbn [firstn]. rewrite app_nil_r.
  f_equal. f_equal. rewrite app_assoc, skipn_app, skipn_all2 by (rewrite app_length; lia).
  rewrite app_length, Nat.sub_diag. reflexivity.
Qed.

Lemma list_eqb_eq : forall a b, list_eqb a b = true <-> a = b.
Proof.
  induction a as [|x a IH]; destruct b as [|y b]; cbn [list_eqb]; try (split; [discriminate|discriminate]).
  - tauto.
  - rewrite andb_true_iff, Z.eqb_eq, IH. split.
    + intros [-> ->]. reflexivity.
    + intro E. injection E as -> ->. auto.
Qed.

(** the header fields of a block at [length pre] *)
Lemma block_type pre t b c : 0 <= t < 65536 -> hob_get_type (pre ++ block t b ++ c) (length pre) = Val t.
Proof.
  intro T. unfold hob_get_type. apply (ldw_at _ pre 2 t (le_bytes 2 (8 + zlen b) ++ le_bytes 4 0 ++ b ++ c)).
  - unfold block. rewrite <- !app_assoc. reflexivity.
  - reflexivity.
  - exact T.
Qed.

Lemma block_next pre t b c : 8 + zlen b < 65536 ->
  hob_get_next (pre ++ block t b ++ c) (length pre) = Val (length (pre ++ block t b)).
Proof.
  intro B. unfold hob_get_next, hob_get_length. pose proof (zlen_nonneg b).
  rewrite (ldw_at _ (pre ++ le_bytes 2 t) 2 (8 + zlen b) (le_bytes 4 0 ++ b ++ c)).
  - cbn [obind]. f_equal. unfold block. rewrite !app_length, !le_bytes_length. unfold zlen. lia.
  - unfold block. rewrite <- !app_assoc. reflexivity.
  - rewrite app_length, le_bytes_length. lia.
  - change (256 ^ Z.of_nat 2) with 65536. lia.
Qed.

Definition res_body (d : descriptor) (x : list Z) : list Z :=
  owner d ++ le_bytes 4 (rtype d) ++ le_bytes 4 (attr d) ++ le_bytes 8 (start d) ++ le_bytes 8 (len d) ++ x.

Lemma res_fields pre d x c : desc_ok d ->
  let m := pre ++ block 3 (res_body d x) ++ c in
  let o := length pre in
  ldw m (o + r_start) 8 = Val (start d) /\ ldw m (o + r_length) 8 = Val (len d) /\
  ldw m (o + r_type) 4 = Val (rtype d) /\ (o + r_owner + 16 <=? length m)%nat = true /\
  sub m (o + r_owner) 16 = owner d.
Proof.
  intros (O & T & A & S & L) m o. subst m o. unfold block, res_body, r_start, r_length, r_type, r_owner.
  set (n := 8 + zlen _).
  split; [|split; [|split; [|split]]].
  - apply (ldw_at _ (pre ++ le_bytes 2 3 ++ le_bytes 2 n ++ le_bytes 4 0 ++ owner d ++ le_bytes 4 (rtype d) ++ le_bytes 4 (attr d)) 8 (start d) (le_bytes 8 (len d) ++ x ++ c)).
    + rewrite <- !app_assoc. reflexivity.
    + rewrite !app_length, !le_bytes_length, O. lia.
    + exact S.
  - apply (ldw_at _ (pre ++ le_bytes 2 3 ++ le_bytes 2 n ++ le_bytes 4 0 ++ owner d ++ le_bytes 4 (rtype d) ++ le_bytes 4 (attr d) ++ le_bytes 8 (start d)) 8 (len d) (x ++ c)).
    + rewrite <- !app_assoc. reflexivity.
    + rewrite !app_length, !le_bytes_length, O. lia.
    + exact L.
  - apply (ldw_at _ (pre ++ le_bytes 2 3 ++ le_bytes 2 n ++ le_bytes 4 0 ++ owner d) 4 (rtype d) (le_bytes 4 (attr d) ++ le_bytes 8 (start d) ++ le_bytes 8 (len d) ++ x ++ c)).
    + rewrite <- !app_assoc. reflexivity.
    + rewrite !app_length, !le_bytes_length, O. lia.
    + exact T.
  - apply Nat.leb_le. rewrite !app_length, !le_bytes_length, O. lia.
  - replace (pre ++ (le_bytes 2 3 ++ le_bytes 2 n ++ le_bytes 4 0 ++ owner d ++ le_bytes 4 (rtype d) ++
        le_bytes 4 (attr d) ++ le_bytes 8 (start d) ++ le_bytes 8 (len d) ++ x) ++ c)
      with ((pre ++ le_bytes 2 3 ++ le_bytes 2 n ++ le_bytes 4 0) ++ owner d ++
            (le_bytes 4 (rtype d) ++ le_bytes 4 (attr d) ++ le_bytes 8 (start d) ++ le_bytes 8 (len d) ++ x ++ c))
      by (rewrite <- !app_assoc; reflexivity).
    apply sub_app'.
    + rewrite !app_length, !le_bytes_length. lia.
    + symmetry. exact O.
Qed.

Lemma res_len d x : desc_ok d -> zlen (res_body d x) = 40 + zlen x.
Proof.
  intros (O & _). unfold res_body. rewrite !zlen_app. unfold zlen at 1 2 3 4 5.
  rewrite !le_bytes_length, O. lia.
Qed.

Lemma iterate_list {S : Type} (cb : S -> Z -> Z -> Z -> out (S * Z)) : forall l fuel pre s,
  Forall hob_ok l -> (length l < fuel)%nat ->
  hob_iterate_memory_map fuel (pre ++ hob_list l) (length pre) cb s =
  visit (fun s d => cb s (start d) (len d) (rtype d)) s (descriptors l).
Proof.
  induction l as [|h l IH]; intros fuel pre s K F; (destruct fuel as [|f]; [lia|]); cbn [length] in F.
  - cbn [hob_iterate_memory_map]. unfold hob_list. cbn [map concat app descriptors visit].
    rewrite <- (app_nil_r (block END_OF_HOB_LIST [])).
    rewrite block_type by (unfold END_OF_HOB_LIST; lia). reflexivity.
  - inversion K as [|h' l' Kh Kl]; subst h' l'.
    assert (E : pre ++ hob_list (h :: l) = pre ++ hob_bytes h ++ hob_list l)
      by (unfold hob_list; cbn [map concat]; rewrite <- app_assoc; reflexivity).
    assert (E2 : pre ++ hob_bytes h ++ hob_list l = (pre ++ hob_bytes h) ++ hob_list l)
      by apply app_assoc.
    rewrite E. cbn [hob_iterate_memory_map].
    destruct h as [d x|t b]; cbn [hob_bytes descriptors visit] in *.
    + destruct Kh as (D & X). fold (res_body d x) in *.
      destruct (res_fields pre d x (hob_list l) D) as (F1 & F2 & F3 & _).
      rewrite block_type by lia. cbn [obind].
      change (3 =? TYPE_END) with false. change (3 =? TYPE_RESOURCE) with true. cbv iota.
      rewrite F1. cbn [obind]. rewrite F2. cbn [obind]. rewrite F3. cbn [obind].
      destruct (cb s (start d) (len d) (rtype d)) as [[s' r]| |]; cbn [obind]; try reflexivity.
      destruct (r =? 0); cbn [negb]; [|reflexivity].
      rewrite block_next by (rewrite res_len by exact D; lia). cbn [obind].
      rewrite E2. apply IH; [exact Kl|lia].
    + destruct Kh as (T & T3 & B).
      rewrite block_type by lia. cbn [obind].
      replace (t =? TYPE_END) with false by (unfold TYPE_END; lia).
      replace (t =? TYPE_RESOURCE) with false by (unfold TYPE_RESOURCE; lia). cbn [obind].
      rewrite block_next by exact B. cbn [obind Z.eqb negb].
      rewrite E2. apply IH; [exact Kl|lia].
Qed.

Lemma iterate_whole {S : Type} (cb : S -> Z -> Z -> Z -> out (S * Z)) l fuel s :
  Forall hob_ok l -> (length l < fuel)%nat ->
  hob_iterate_memory_map fuel (hob_list l) 0 cb s =
  visit (fun s d => cb s (start d) (len d) (rtype d)) s (descriptors l).
Proof. exact (iterate_list cb l fuel [] s). Qed.

(** ** The memory kept by the silicon package *)
Definition kept (g : list Z) (d : descriptor) : bool := (rtype d =? MEMORY_RESERVED) && list_eqb (owner d) g.

Lemma find_list g : forall l fuel pre, Forall hob_ok l -> (length l < fuel)%nat ->
  exists r, hob_find_resource_by_guid fuel (pre ++ hob_list l) (length pre) g = Val r /\
  match find (kept g) (descriptors l), r with
  | Some d, Some o => ldw (pre ++ hob_list l) (o + r_start) 8 = Val (start d)
  | None, None => True
  | _, _ => False
  end.
Proof.
  induction l as [|h l IH]; intros fuel pre K F; (destruct fuel as [|f]; [lia|]); cbn [length] in F.
  - exists None. split; [|exact I]. cbn [hob_find_resource_by_guid]. unfold hob_list. cbn [map concat app].
    rewrite <- (app_nil_r (block END_OF_HOB_LIST [])).
    rewrite block_type by (unfold END_OF_HOB_LIST; lia). reflexivity.
  - inversion K as [|h' l' Kh Kl]; subst h' l'.
    assert (E : pre ++ hob_list (h :: l) = pre ++ hob_bytes h ++ hob_list l)
      by (unfold hob_list; cbn [map concat]; rewrite <- app_assoc; reflexivity).
    assert (E2 : pre ++ hob_bytes h ++ hob_list l = (pre ++ hob_bytes h) ++ hob_list l)
      by apply app_assoc.
    rewrite E. cbn [hob_find_resource_by_guid].
    destruct h as [d x|t b]; cbn [hob_bytes descriptors find] in *.
    + destruct Kh as (D & X). fold (res_body d x) in *.
      destruct (res_fields pre d x (hob_list l) D) as (F1 & F2 & F3 & F4 & F5).
      rewrite block_type by lia. cbn [obind].
      change (3 =? TYPE_END) with false. change (3 =? TYPE_RESOURCE) with true. cbv iota.
      rewrite F3. cbn [obind]. unfold kept, hob_guid_equals. rewrite F4, F5.
      change RESOURCE_RESERVED with MEMORY_RESERVED.
      destruct (rtype d =? MEMORY_RESERVED); cbn [obind andb].
      * destruct (list_eqb (owner d) g) eqn:EQ.
        -- exists (Some (length pre)). split; [reflexivity|]. exact F1.
        -- rewrite block_next by (rewrite res_len by exact D; lia). cbn [obind].
           rewrite E2. apply IH; [exact Kl|lia].
      * rewrite block_next by (rewrite res_len by exact D; lia). cbn [obind].
        rewrite E2. apply IH; [exact Kl|lia].
    + destruct Kh as (T & T3 & B).
      rewrite block_type by lia. cbn [obind].
      replace (t =? TYPE_END) with false by (unfold TYPE_END; lia).
      replace (t =? TYPE_RESOURCE) with false by (unfold TYPE_RESOURCE; lia). cbn [obind].
      rewrite block_next by exact B. cbn [obind].
      rewrite E2. apply IH; [exact Kl|lia].
Qed.
