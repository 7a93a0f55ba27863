(** Building the Multiboot2 boot information. *)
From Verif Require Import Base BaseLemmas HobSpec HobModel HobProofs.
Local Ltac Zify.zify_post_hook ::= idtac.

Lemma put_at n i a b c v : buf i = a ++ b ++ c -> length b = n ->
  put n i (length a) v = Val {| buf := a ++ le_bytes n v ++ c; max_size := max_size i |}.
Proof.
  intros E L. unfold put. rewrite (stw_at _ a b c) by (rewrite ?le_bytes_length; auto). reflexivity.
Qed.

Lemma put_at' n i a b c v o : buf i = a ++ b ++ c -> o = length a -> length b = n ->
  put n i o v = Val {| buf := a ++ le_bytes n v ++ c; max_size := max_size i |}.
Proof. intros E -> L. apply put_at with b; assumption. Qed.

Lemma split_at {A} (l : list A) n : (n <= length l)%nat -> exists a b, l = a ++ b /\ length a = n.
Proof.
  intro L. exists (firstn n l), (skipn n l). split; [symmetry; apply firstn_skipn|].
  apply firstn_length_le. exact L.
Qed.

Lemma length_entry d : length (map_entry d) = 24%nat.
Proof. unfold map_entry. rewrite !app_length, !le_bytes_length. reflexivity. Qed.

Lemma length_entries ds : length (concat (map map_entry ds)) = (24 * length ds)%nat.
Proof.
  induction ds as [|d ds IH]; [reflexivity|]. cbn [map concat length].
  rewrite app_length, length_entry, IH. lia.
Qed.

Lemma zlen_map_tag ds : zlen (map_tag ds) = 16 + 24 * zlen ds.
Proof. unfold map_tag, zlen. rewrite !app_length, !le_bytes_length, length_entries. lia. Qed.

Lemma zlen_basic_tag lo up : zlen (basic_tag lo up) = 16.
Proof. unfold basic_tag, zlen. rewrite !app_length, !le_bytes_length. reflexivity. Qed.

(** the header of a memory map that has [size] bytes *)
Definition map_head (size : Z) : list Z := le_bytes 4 6 ++ le_bytes 4 size ++ le_bytes 4 24 ++ le_bytes 4 0.

Lemma map_tag_head ds : map_tag ds = map_head (16 + 24 * zlen ds) ++ concat (map map_entry ds).
Proof. unfold map_tag, map_head. rewrite <- !app_assoc. reflexivity. Qed.

Lemma entry_cb pre E rest size M d :
  size = 16 + zlen E -> size + 24 < 2 ^ 32 -> M <= zlen rest ->
  mb2_add_mem_entry_cb (length pre) {| buf := pre ++ map_head size ++ E ++ rest; max_size := M |}
    (start d) (len d) (rtype d) =
  if M <? 24 then Val ({| buf := pre ++ map_head size ++ E ++ rest; max_size := M |}, -1)
  else Val ({| buf := pre ++ map_head (size + 24) ++ (E ++ map_entry d) ++ skipn 24 rest;
               max_size := M - 24 |}, 0).
Proof.
  intros SZ B ML. unfold mb2_add_mem_entry_cb. cbn [max_size].
  destruct (Z.ltb_spec M 24) as [L|L]; [reflexivity|].
  destruct (split_at rest 24) as (r & rest' & -> & R); [unfold zlen in ML; lia|].
  rewrite skipn_app, skipn_all2, R, Nat.sub_diag by lia. cbn [skipn app].
  destruct (split_at r 8) as (r1 & r' & -> & R1); [lia|].
  rewrite app_length in R.
  destruct (split_at r' 8) as (r2 & r'' & -> & R2); [lia|].
  rewrite app_length in R.
  destruct (split_at r'' 4) as (r3 & r4 & -> & R3); [lia|].
  rewrite app_length in R.
  pose proof (zlen_nonneg E) as NE.
  assert (SB : 0 <= size < 256 ^ Z.of_nat 4) by (change (256 ^ Z.of_nat 4) with (2 ^ 32); lia).
  unfold take. cbn [max_size buf].
  assert (LS : forall X, ldw (pre ++ map_head size ++ X) (length pre + 4) 4 = Val size).
  { intro X. apply (ldw_at _ (pre ++ le_bytes 4 6) 4 size ((le_bytes 4 24 ++ le_bytes 4 0) ++ X)).
    - unfold map_head. rewrite <- !app_assoc. reflexivity.
    - rewrite app_length, le_bytes_length. reflexivity.
    - exact SB. }
  rewrite LS. cbn [obind].
  assert (LE : (length pre + Z.to_nat size)%nat = length (pre ++ map_head size ++ E)).
  { unfold map_head. rewrite !app_length, !le_bytes_length. unfold zlen in *. lia. }
  rewrite LE.
  rewrite (put_at' 8 _ (pre ++ map_head size ++ E) r1 (r2 ++ r3 ++ r4 ++ rest'));
    [|cbn [buf]; rewrite <- !app_assoc; reflexivity|reflexivity|exact R1].
  cbn [obind max_size].
  rewrite (put_at' 8 _ (pre ++ map_head size ++ E ++ le_bytes 8 (start d)) r2 (r3 ++ r4 ++ rest'));
    [|cbn [buf]; rewrite <- !app_assoc; reflexivity|rewrite !app_length, le_bytes_length; lia|exact R2].
  cbn [obind max_size].
  rewrite (put_at' 4 _ (pre ++ map_head size ++ E ++ le_bytes 8 (start d) ++ le_bytes 8 (len d)) r3 (r4 ++ rest'));
    [|cbn [buf]; rewrite <- !app_assoc; reflexivity|rewrite !app_length, !le_bytes_length; lia|exact R3].
  cbn [obind max_size].
  change (if rtype d =? RESOURCE_SYSTEM_MEMORY then 1 else 2) with (kind d).
  rewrite (put_at' 4 _ (pre ++ map_head size ++ E ++ le_bytes 8 (start d) ++ le_bytes 8 (len d) ++ le_bytes 4 (kind d)) r4 rest');
    [|cbn [buf]; rewrite <- !app_assoc; reflexivity|rewrite !app_length, !le_bytes_length; lia|lia].
  cbn [obind max_size buf].
  rewrite <- !app_assoc. rewrite LS. cbn [obind].
  rewrite (put_at' 4 _ (pre ++ le_bytes 4 6) (le_bytes 4 size)
             (le_bytes 4 24 ++ le_bytes 4 0 ++ E ++ le_bytes 8 (start d) ++ le_bytes 8 (len d) ++
              le_bytes 4 (kind d) ++ le_bytes 4 0 ++ rest'));
    [|cbn [buf]; unfold map_head; rewrite <- !app_assoc; reflexivity
     |rewrite app_length, le_bytes_length; reflexivity|apply le_bytes_length].
  cbn [obind max_size]. do 2 f_equal. f_equal.
  unfold u32. rewrite Z.mod_small by lia.
  unfold map_head, map_entry. rewrite <- !app_assoc. reflexivity.
Qed.

Lemma skipn_more {A} (a b : nat) (l : list A) : skipn a (skipn b l) = skipn (b + a) l.
Proof.
  revert l. induction b as [|b IH]; intro l; [reflexivity|].
  destruct l as [|x l]; [rewrite !skipn_nil; reflexivity|]. apply IH.
Qed.

Lemma zlen_skipn {A} (n : nat) (l : list A) : zlen (skipn n l) = zlen l - Z.of_nat (Nat.min n (length l)).
Proof. unfold zlen. rewrite skipn_length. lia. Qed.

Lemma zlen_le n v : zlen (le_bytes n v) = Z.of_nat n.
Proof. unfold zlen. rewrite le_bytes_length. reflexivity. Qed.

Lemma zlen_head size : zlen (map_head size) = 16.
Proof. unfold map_head. rewrite !zlen_app, !zlen_le. reflexivity. Qed.

Lemma zlen_entry d : zlen (map_entry d) = 24.
Proof. unfold zlen. rewrite length_entry. reflexivity. Qed.

Lemma map_visit pre : forall ds E rest M,
  zlen pre + 16 + zlen E + zlen rest < 2 ^ 32 -> 0 <= M <= zlen rest ->
  let R := visit (fun i d => mb2_add_mem_entry_cb (length pre) i (start d) (len d) (rtype d))
             {| buf := pre ++ map_head (16 + zlen E) ++ E ++ rest; max_size := M |} ds in
  if 24 * zlen ds <=? M then
    R = Val ({| buf := pre ++ map_head (16 + zlen E + 24 * zlen ds) ++ (E ++ concat (map map_entry ds)) ++
                       skipn (24 * length ds) rest;
                max_size := M - 24 * zlen ds |}, 0)
  else exists i, R = Val (i, -1).
Proof.
  induction ds as [|d ds IH]; intros E rest M B ML; cbn [visit].
  - change (zlen (@nil descriptor)) with 0. replace (24 * 0) with 0 by lia.
    destruct (Z.leb_spec 0 M) as [L|L]; [|lia].
    cbn [map concat length]. rewrite app_nil_r. cbn [Nat.mul skipn]. rewrite Z.add_0_r, Z.sub_0_r. reflexivity.
  - rewrite zlen_cons. pose proof (zlen_nonneg ds) as ND. pose proof (zlen_nonneg pre) as NP.
    pose proof (zlen_nonneg E) as NE.
    destruct (Z.ltb_spec M 24) as [L|L].
    + destruct (Z.leb_spec (24 * (1 + zlen ds)) M) as [K|K]; [lia|].
      unfold mb2_add_mem_entry_cb at 1. cbn [max_size]. destruct (Z.ltb_spec M 24) as [_|?]; [|lia]. cbn [obind].
      eexists. reflexivity.
    + rewrite entry_cb by lia. destruct (Z.ltb_spec M 24) as [?|_]; [lia|]. cbn [obind].
      change (0 =? 0) with true. cbv iota.
      assert (LR : (24 <= length rest)%nat) by (unfold zlen in ML; lia).
      specialize (IH (E ++ map_entry d) (skipn 24 rest) (M - 24)).
      rewrite zlen_app, zlen_entry, zlen_skipn in IH. rewrite Nat.min_l in IH by exact LR.
      specialize (IH ltac:(lia) ltac:(lia)). cbv zeta in IH.
      replace (16 + (zlen E + 24)) with (16 + zlen E + 24) in IH by lia.
      destruct (Z.leb_spec (24 * zlen ds) (M - 24)) as [K|K].
      * destruct (Z.leb_spec (24 * (1 + zlen ds)) M) as [_|?]; [|lia].
        rewrite IH. do 2 f_equal. rewrite skipn_more. cbn [map concat length].
        f_equal; [|lia]. rewrite <- !app_assoc.
        replace (16 + zlen E + 24 + 24 * zlen ds) with (16 + zlen E + 24 * (1 + zlen ds)) by lia.
        replace (24 + 24 * length ds)%nat with (24 * S (length ds))%nat by lia. reflexivity.
      * destruct (Z.leb_spec (24 * (1 + zlen ds)) M) as [?|_]; [lia|]. exact IH.
Qed.

(** the header of the basic tag *)
Definition basic_head : list Z := le_bytes 4 4 ++ le_bytes 4 16.

Lemma basic_visit pre rest M : forall ds lo up,
  visit (fun i d => mb2_add_mem_basic_info_cb (length pre) i (start d) (len d) (rtype d))
    {| buf := pre ++ basic_tag lo up ++ rest; max_size := M |} ds =
  Val ({| buf := pre ++ basic_tag (fold_left (fun k d => if start d =? 0 then len d / 1024 mod 2 ^ 32 else k) ds lo)
                          (fold_left (fun k d => if start d =? 2 ^ 20 then len d / 1024 mod 2 ^ 32 else k) ds up) ++ rest;
          max_size := M |}, 0).
Proof.
  induction ds as [|d ds IH]; intros lo up; cbn [visit fold_left]; [reflexivity|].
  unfold mb2_add_mem_basic_info_cb. change (1 * 1024 * 1024) with (2 ^ 20).
  assert (P1 : forall v, put 4 {| buf := pre ++ basic_tag lo up ++ rest; max_size := M |} (length pre + 8) v =
            Val {| buf := pre ++ basic_tag v up ++ rest; max_size := M |}).
  { intro v. rewrite (put_at' 4 _ (pre ++ le_bytes 4 4 ++ le_bytes 4 16) (le_bytes 4 lo) (le_bytes 4 up ++ rest)).
    - cbn [max_size]. unfold basic_tag. rewrite <- !app_assoc. reflexivity.
    - cbn [buf]. unfold basic_tag. rewrite <- !app_assoc. reflexivity.
    - rewrite !app_length, !le_bytes_length. reflexivity.
    - apply le_bytes_length. }
  assert (P2 : forall lo v, put 4 {| buf := pre ++ basic_tag lo up ++ rest; max_size := M |} (length pre + 12) v =
            Val {| buf := pre ++ basic_tag lo v ++ rest; max_size := M |}).
  { intros lo' v. rewrite (put_at' 4 _ (pre ++ le_bytes 4 4 ++ le_bytes 4 16 ++ le_bytes 4 lo') (le_bytes 4 up) rest).
    - cbn [max_size]. unfold basic_tag. rewrite <- !app_assoc. reflexivity.
    - cbn [buf]. unfold basic_tag. rewrite <- !app_assoc. reflexivity.
    - rewrite !app_length, !le_bytes_length. reflexivity.
    - apply le_bytes_length. }
  unfold u32. destruct (start d =? 0); [rewrite P1|]; cbn [obind]; (destruct (start d =? 2 ^ 20); [rewrite P2|]);
    cbn [obind]; change (0 =? 0) with true; cbv iota; apply IH.
Qed.

Section Requests.
Context (l : list hob) (fuel : nat) (LOK : Forall hob_ok l) (LF : (length l < fuel)%nat).

Lemma add_map pre rest M : zlen pre + zlen rest < 2 ^ 32 -> 0 <= M <= zlen rest ->
  let T := map_tag (descriptors l) in
  let R := mb2_add_mem_map fuel (hob_list l) {| buf := pre ++ rest; max_size := M |} (length pre) in
  if zlen T <=? M then
    R = Val ({| buf := pre ++ T ++ skipn (length T) rest; max_size := M - zlen T |}, (length pre + length T)%nat, 0)
  else exists i k, R = Val (i, k, -1).
Proof using l fuel LOK LF.
  intros B ML. cbv zeta. rewrite zlen_map_tag. pose proof (zlen_nonneg (descriptors l)) as ND.
  pose proof (zlen_nonneg pre) as NP.
  unfold mb2_add_mem_map. cbn [max_size].
  destruct (Z.ltb_spec M 16) as [L|L].
  { destruct (Z.leb_spec (16 + 24 * zlen (descriptors l)) M) as [?|_]; [lia|]. do 2 eexists. reflexivity. }
  destruct (split_at rest 16) as (r & rest' & -> & LR); [unfold zlen in ML; lia|].
  rewrite zlen_app in B, ML. replace (zlen r) with 16 in B, ML by (unfold zlen; lia).
  assert (ST : mb2_start_mem_map (take {| buf := pre ++ r ++ rest'; max_size := M |} 16) (length pre) =
               Val {| buf := pre ++ map_head 16 ++ rest'; max_size := M - 16 |}).
  { destruct (split_at r 4) as (r1 & r' & -> & R1); [lia|]. rewrite app_length in LR.
    destruct (split_at r' 4) as (r2 & r'' & -> & R2); [lia|]. rewrite app_length in LR.
    destruct (split_at r'' 4) as (r3 & r4 & -> & R3); [lia|]. rewrite app_length in LR.
    unfold mb2_start_mem_map, take. cbn [buf max_size].
    rewrite (put_at' 4 _ pre r1 (r2 ++ r3 ++ r4 ++ rest'));
      [|cbn [buf]; rewrite <- !app_assoc; reflexivity|reflexivity|exact R1]. cbn [obind max_size].
    rewrite (put_at' 4 _ (pre ++ le_bytes 4 6 ++ r2) r3 (r4 ++ rest'));
      [|cbn [buf]; rewrite <- !app_assoc; reflexivity|rewrite !app_length, !le_bytes_length; lia|exact R3]. cbn [obind max_size].
    rewrite (put_at' 4 _ (pre ++ le_bytes 4 6 ++ r2 ++ le_bytes 4 24) r4 rest');
      [|cbn [buf]; rewrite <- !app_assoc; reflexivity|rewrite !app_length, !le_bytes_length; lia|lia]. cbn [obind max_size].
    rewrite (put_at' 4 _ (pre ++ le_bytes 4 6) r2 (le_bytes 4 24 ++ le_bytes 4 0 ++ rest'));
      [|cbn [buf]; rewrite <- !app_assoc; reflexivity|rewrite !app_length, !le_bytes_length; lia|exact R2].
    cbn [max_size]. unfold map_head. rewrite <- !app_assoc. reflexivity. }
  rewrite ST. cbn [obind]. rewrite iterate_whole by assumption.
  pose proof (map_visit pre (descriptors l) [] rest' (M - 16)) as V. cbv zeta in V.
  change (zlen (@nil Z)) with 0 in V. change (16 + 0) with 16 in V. cbn [app] in V.
  specialize (V ltac:(lia) ltac:(lia)).
  destruct (Z.leb_spec (24 * zlen (descriptors l)) (M - 16)) as [K|K].
  - destruct (Z.leb_spec (16 + 24 * zlen (descriptors l)) M) as [_|?]; [|lia].
    rewrite V. cbn [obind]. change (negb (0 =? 0)) with false. cbv iota. cbn [buf].
    rewrite (ldw_at _ (pre ++ le_bytes 4 6) 4 (16 + 24 * zlen (descriptors l))
               ((le_bytes 4 24 ++ le_bytes 4 0) ++ concat (map map_entry (descriptors l)) ++
                skipn (24 * length (descriptors l)) rest'));
      [|unfold map_head; rewrite <- !app_assoc; reflexivity|rewrite app_length, le_bytes_length; reflexivity
       |change (256 ^ Z.of_nat 4) with (2 ^ 32); lia].
    cbn [obind].
    assert (LT : length (map_tag (descriptors l)) = (16 + 24 * length (descriptors l))%nat).
    { pose proof (zlen_map_tag (descriptors l)). unfold zlen in *. lia. }
    rewrite LT. f_equal. f_equal. f_equal.
    + f_equal; [|lia]. rewrite map_tag_head, <- !app_assoc.
      assert (SK : skipn (16 + 24 * length (descriptors l)) (r ++ rest') = skipn (24 * length (descriptors l)) rest').
      { rewrite skipn_app, skipn_all2 by lia. cbn [app]. f_equal. lia. }
      rewrite SK. reflexivity.
    + unfold zlen. lia.
  - destruct (Z.leb_spec (16 + 24 * zlen (descriptors l)) M) as [?|_]; [lia|].
    destruct V as (i & ->). cbn [obind]. change (negb (-1 =? 0)) with true. cbv iota. do 2 eexists. reflexivity.
Qed.

Lemma add_basic pre rest M : zlen pre + zlen rest < 2 ^ 32 -> 0 <= M <= zlen rest ->
  let T := basic_tag (kilobytes_at 0 (descriptors l)) (kilobytes_at (2 ^ 20) (descriptors l)) in
  let R := mb2_add_basic_mem_info fuel (hob_list l) {| buf := pre ++ rest; max_size := M |} (length pre) in
  if zlen T <=? M then
    R = Val ({| buf := pre ++ T ++ skipn (length T) rest; max_size := M - zlen T |}, (length pre + length T)%nat, 0)
  else exists i k, R = Val (i, k, -1).
Proof using l fuel LOK LF.
  intros B ML. cbv zeta. rewrite zlen_basic_tag.
  pose proof (zlen_nonneg pre) as NP.
  unfold mb2_add_basic_mem_info. cbn [max_size].
  destruct (Z.ltb_spec M 16) as [L|L].
  { destruct (Z.leb_spec 16 M) as [?|_]; [lia|]. do 2 eexists. reflexivity. }
  destruct (Z.leb_spec 16 M) as [_|?]; [|lia].
  destruct (split_at rest 16) as (r & rest' & -> & LR); [unfold zlen in ML; lia|].
  destruct (split_at r 4) as (r1 & r' & -> & R1); [lia|]. rewrite app_length in LR.
  destruct (split_at r' 4) as (r2 & r'' & -> & R2); [lia|]. rewrite app_length in LR.
  destruct (split_at r'' 4) as (r3 & r4 & -> & R3); [lia|]. rewrite app_length in LR.
  unfold take. cbn [buf max_size].
  rewrite (put_at' 4 _ pre r1 (r2 ++ r3 ++ r4 ++ rest'));
    [|cbn [buf]; rewrite <- !app_assoc; reflexivity|reflexivity|exact R1]. cbn [obind max_size].
  rewrite (put_at' 4 _ (pre ++ le_bytes 4 4) r2 (r3 ++ r4 ++ rest'));
    [|cbn [buf]; rewrite <- !app_assoc; reflexivity|rewrite !app_length, !le_bytes_length; lia|exact R2]. cbn [obind max_size].
  rewrite (put_at' 4 _ (pre ++ le_bytes 4 4 ++ le_bytes 4 16) r3 (r4 ++ rest'));
    [|cbn [buf]; rewrite <- !app_assoc; reflexivity|rewrite !app_length, !le_bytes_length; lia|exact R3]. cbn [obind max_size].
  rewrite (put_at' 4 _ (pre ++ le_bytes 4 4 ++ le_bytes 4 16 ++ le_bytes 4 0) r4 rest');
    [|cbn [buf]; rewrite <- !app_assoc; reflexivity|rewrite !app_length, !le_bytes_length; lia|lia]. cbn [obind max_size].
  rewrite iterate_whole by assumption.
  pose proof (basic_visit pre rest' (M - 16) (descriptors l) 0 0) as V.
  assert (BT : (pre ++ le_bytes 4 4 ++ le_bytes 4 16 ++ le_bytes 4 0) ++ le_bytes 4 0 ++ rest' = pre ++ basic_tag 0 0 ++ rest')
    by (unfold basic_tag; rewrite <- !app_assoc; reflexivity).
  rewrite BT, V. cbn [obind]. change (negb (0 =? 0)) with false. cbv iota.
  fold (kilobytes_at 0 (descriptors l)). fold (kilobytes_at (2 ^ 20) (descriptors l)).
  set (T := basic_tag _ _).
  assert (LT : length T = 16%nat) by (pose proof (zlen_basic_tag (kilobytes_at 0 (descriptors l)) (kilobytes_at (2 ^ 20) (descriptors l))); unfold zlen in *; fold T in H; lia).
  rewrite LT. f_equal. f_equal. f_equal. f_equal.
  do 2 f_equal. rewrite skipn_app, skipn_all2 by (rewrite !app_length; lia). cbn [app].
  rewrite !app_length. replace (16 - _)%nat with 0%nat by lia. reflexivity.
Qed.

Lemma requests_list : forall rs hp hc pre rest M,
  Forall (fun r => 0 <= r < 2 ^ 32) rs ->
  zlen pre + zlen rest < 2 ^ 32 -> 0 <= M <= zlen rest ->
  let R := requests (length rs) fuel (hob_list l) (hp ++ concat (map (le_bytes 4) rs) ++ hc) (length hp)
             {| buf := pre ++ rest; max_size := M |} (length pre) in
  match tags_for (descriptors l) rs with
  | Some T =>
      if zlen T <=? M then
        R = Val ({| buf := pre ++ T ++ skipn (length T) rest; max_size := M - zlen T |}, (length pre + length T)%nat, 0)
      else exists i k, R = Val (i, k, -1)
  | None => exists i k, R = Val (i, k, -1)
  end.
Proof using l fuel LOK LF.
  induction rs as [|r rs IH]; intros hp hc pre rest M RO B ML; cbn [length requests tags_for].
  - change (zlen (@nil Z)) with 0. destruct (Z.leb_spec 0 M) as [_|?]; [|lia].
    cbn [app length skipn]. rewrite Z.sub_0_r, Nat.add_0_r. reflexivity.
  - apply Forall_cons_iff in RO. destruct RO as [R0 RO].
    cbn [map concat]. rewrite (ldw_at _ hp 4 r (concat (map (le_bytes 4) rs) ++ hc));
      [|rewrite <- !app_assoc; reflexivity|reflexivity|exact R0].
    cbn [obind].
    assert (NEXT : forall T, zlen T <= M ->
      let R' := requests (length rs) fuel (hob_list l) (hp ++ (le_bytes 4 r ++ concat (map (le_bytes 4) rs)) ++ hc) (length hp + 4)
             {| buf := pre ++ T ++ skipn (length T) rest; max_size := M - zlen T |} (length pre + length T)%nat in
      match tags_for (descriptors l) rs with
      | Some T2 =>
          if zlen (T ++ T2) <=? M then
            R' = Val ({| buf := pre ++ (T ++ T2) ++ skipn (length (T ++ T2)) rest; max_size := M - zlen (T ++ T2) |},
                      (length pre + length (T ++ T2))%nat, 0)
          else exists i k, R' = Val (i, k, -1)
      | None => exists i k, R' = Val (i, k, -1)
      end).
    { intros T TM. cbv zeta.
      specialize (IH (hp ++ le_bytes 4 r) hc (pre ++ T) (skipn (length T) rest) (M - zlen T) RO).
      assert (LT : (length T <= length rest)%nat) by (unfold zlen in *; lia).
      rewrite zlen_app, zlen_skipn in IH. rewrite Nat.min_l in IH by exact LT.
      fold (zlen T) in IH. specialize (IH ltac:(lia) ltac:(lia)). cbv zeta in IH.
      rewrite !app_length, le_bytes_length, <- !app_assoc in IH. rewrite <- !app_assoc.
      destruct (tags_for (descriptors l) rs) as [T2|]; [|exact IH].
      rewrite zlen_app, app_length. rewrite skipn_more in IH.
      destruct (Z.leb_spec (zlen T2) (M - zlen T)) as [K|K];
        (destruct (Z.leb_spec (zlen T + zlen T2) M) as [K'|K']; try lia).
      + rewrite IH. f_equal. f_equal. f_equal; [f_equal; [rewrite <- ?app_assoc; reflexivity|lia]|lia].
      + exact IH. }
    unfold tag_for.
    destruct (r =? 4).
    { pose proof (add_basic pre rest M B ML) as A. cbv zeta in A.
      set (T := basic_tag _ _) in *.
      destruct (Z.leb_spec (zlen T) M) as [K|K].
      - rewrite A. cbn [obind]. change (negb (0 =? 0)) with false. cbv iota.
        specialize (NEXT T K). cbv zeta in NEXT.
        destruct (tags_for (descriptors l) rs); exact NEXT.
      - destruct A as (i & k & ->). cbn [obind]. change (negb (-1 =? 0)) with true. cbv iota.
        destruct (tags_for (descriptors l) rs) as [T2|]; [|eauto].
        rewrite zlen_app. pose proof (zlen_nonneg T2).
        destruct (Z.leb_spec (zlen T + zlen T2) M); [lia|eauto]. }
    destruct (r =? 6).
    { pose proof (add_map pre rest M B ML) as A. cbv zeta in A.
      set (T := map_tag _) in *.
      destruct (Z.leb_spec (zlen T) M) as [K|K].
      - rewrite A. cbn [obind]. change (negb (0 =? 0)) with false. cbv iota.
        specialize (NEXT T K). cbv zeta in NEXT.
        destruct (tags_for (descriptors l) rs); exact NEXT.
      - destruct A as (i & k & ->). cbn [obind]. change (negb (-1 =? 0)) with true. cbv iota.
        destruct (tags_for (descriptors l) rs) as [T2|]; [|eauto].
        rewrite zlen_app. pose proof (zlen_nonneg T2).
        destruct (Z.leb_spec (zlen T + zlen T2) M); [lia|eauto]. }
    cbn [obind]. change (negb (-1 =? 0)) with true. cbv iota. eauto.
Qed.
End Requests.
