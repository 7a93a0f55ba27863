(** Proofs about flags in external flash. *)
From Verif Require Import Base BaseLemmas HeaderModel Flash FlashLemmas ImageModel Geometry TrailerModel TrailerProofs TriggerProofs ExtFlagsModel ExtFlagsSpec.
Local Ltac Zify.zify_post_hook ::= idtac.

Lemma magic_mem_word : forall x i, 0 <= i < 4 -> magic_mem x i = nth (Z.to_nat i) (boot_word (X_be x)) 0.
Proof.
  intros x i Hi. unfold magic_mem, boot_word. destruct (X_be x);
    assert (i = 0 \/ i = 1 \/ i = 2 \/ i = 3) as [ -> | [ -> | [ -> | -> ]]] by lia; reflexivity.
Qed.
Lemma magic_mem_range : forall x i, is_byte (magic_mem x i).
Proof. intros. apply magic_byte_range. Qed.

Lemma marked_bytes : forall x f e, marked (X_be x) f e <-> forall i, 0 <= i < 4 -> f (e - 4 + i) = magic_mem x i.
Proof.
  intros x f e. unfold marked. split.
  - intros H i Hi. rewrite magic_mem_word by lia. rewrite <- H. cbn [map].
    assert (i = 0 \/ i = 1 \/ i = 2 \/ i = 3) as [ -> | [ -> | [ -> | -> ]]] by lia;
      change (Z.to_nat 0) with 0%nat; change (Z.to_nat 1) with 1%nat; change (Z.to_nat 2) with 2%nat; change (Z.to_nat 3) with 3%nat; cbn [nth]; f_equal; lia.
  - intro H. cbn [map]. replace (e - 4) with (e - 4 + 0) by lia. replace (e - 3) with (e - 4 + 1) by lia.
    replace (e - 2) with (e - 4 + 2) by lia. replace (e - 1) with (e - 4 + 3) by lia.
    rewrite !H by lia. rewrite !magic_mem_word by lia. destruct (X_be x); reflexivity.
Qed.
Lemma markable_bytes : forall x f e, markable (X_be x) f e <-> forall i, 0 <= i < 4 -> Z.land (f (e - 4 + i)) (magic_mem x i) = magic_mem x i.
Proof.
  intros x f e. unfold markable. split.
  - intros H i Hi. specialize (H (Z.to_nat i) ltac:(lia)). rewrite magic_mem_word by lia. rewrite Z2Nat.id in H by lia. exact H.
  - intros H i Hi. specialize (H (Z.of_nat i) ltac:(lia)). rewrite magic_mem_word, Nat2Z.id in H by lia. exact H.
Qed.
Lemma marked_markable : forall x f e, marked (X_be x) f e -> markable (X_be x) f e.
Proof. intros x f e H. rewrite marked_bytes in H. apply markable_bytes. intros i Hi. rewrite H by exact Hi. apply Z.land_diag. Qed.

Lemma is_magic_marked : forall x f e, is_magic x (fun i => f (e - 4 + i)) = true <-> marked (X_be x) f e.
Proof.
  intros x f e. unfold is_magic. rewrite !andb_true_iff, !Z.eqb_eq, marked_bytes. split.
  - intros (((A & B) & C) & D) i Hi. assert (i = 0 \/ i = 1 \/ i = 2 \/ i = 3) as [ -> | [ -> | [ -> | -> ]]] by lia; assumption.
  - intro H. rewrite !H by lia. tauto.
Qed.

Lemma taddr : forall c p a, trailer_addr c p a = endflags c p - 4 - a.
Proof. intros. unfold trailer_addr. lia. Qed.

Lemma between_refl : forall a b, between a (Z.land a b) a.
Proof. intros a b. unfold between. rewrite Z.land_diag, Z.land_assoc, Z.land_diag. auto. Qed.
Lemma between_new : forall a b, between a (Z.land a b) (Z.land a b).
Proof. intros a b. unfold between. rewrite Z.land_assoc, !Z.land_diag. auto. Qed.
Lemma between_torn : forall a b m, between a (Z.land a b) (Z.lor (Z.land a b) (Z.land a m)).
Proof.
  intros a b m. unfold between. split; apply Z.bits_inj'; intros n Hn; rewrite ?Z.land_spec, ?Z.lor_spec, ?Z.land_spec;
    destruct (Z.testbit a n), (Z.testbit b n), (Z.testbit m n); reflexivity.
Qed.
Lemma between_same : forall a v, between a a v -> v = a.
Proof. intros a v [H1 H2]. rewrite Z.land_comm in H2. congruence. Qed.

(** ** Programming the magic number, when it is not there *)
Lemma need_run : forall x c p k f, bytes f -> markable (X_be x) f (endflags c p) ->
  exists k' g, run (x_need_magic x c p k) f = Done k' g /\ bytes g /\ marked (X_be x) g (endflags c p) /\
    (forall y, ~ (endflags c p - 4 <= y < endflags c p) -> g y = f y) /\
    (marked (X_be x) f (endflags c p) -> g = f).
Proof.
  intros x c p k f Hb Hm. unfold x_need_magic, x_get_trailer_at. cbn [bind run Flash.get]. rewrite taddr, Z.sub_0_r.
  destruct (is_magic x _) eqn:E.
  - eexists _, f. split; [reflexivity|]. split; [exact Hb|]. split; [apply is_magic_marked, E|]. auto.
  - unfold x_set_magic. cbn [run]. rewrite taddr, Z.sub_0_r. eexists _, _. split; [reflexivity|].
    split; [apply bytes_write; [exact Hb|intros; apply magic_mem_range]|]. split; [|split].
    + apply marked_bytes. intros i Hi. rewrite write_in by lia. replace (endflags c p - 4 + i - (endflags c p - 4)) with i by lia.
      apply (proj1 (markable_bytes x f (endflags c p)) Hm i Hi).
    + intros y Hy. apply write_out. lia.
    + intro M. apply is_magic_marked in M. congruence.
Qed.

Lemma need_crash : forall x c p k t f g, bytes f -> crash t (x_need_magic x c p k) f g -> markable (X_be x) f (endflags c p) ->
  bytes g /\ markable (X_be x) g (endflags c p) /\ (forall y, ~ (endflags c p - 4 <= y < endflags c p) -> g y = f y) /\
  (marked (X_be x) f (endflags c p) -> forall y, g y = f y).
Proof.
  intros x c p k t f g Hb C Hm. unfold x_need_magic, x_get_trailer_at in C. cbn [bind crash Flash.get] in C. rewrite taddr, Z.sub_0_r in C.
  assert (Eq : g = f -> bytes g /\ markable (X_be x) g (endflags c p) /\ (forall y, ~ (endflags c p - 4 <= y < endflags c p) -> g y = f y) /\
    (marked (X_be x) f (endflags c p) -> forall y, g y = f y)) by (intros ->; auto).
  destruct (is_magic x _) eqn:E; [apply Eq; exact C|].
  assert (NM : ~ marked (X_be x) f (endflags c p)) by (intro M; apply is_magic_marked in M; congruence).
  unfold x_set_magic in C. cbn [crash] in C. rewrite taddr, Z.sub_0_r in C. destruct C as [C|[C|C]]; [apply Eq; exact C| |].
  - destruct C as (Bg & Out & In & _). split; [exact Bg|]. split; [|split; [intros y Hy; apply Out, inr_false; lia|tauto]].
    apply markable_bytes. intros i Hi. destruct (In ltac:(lia) (endflags c p - 4 + i)) as [m Em]; [apply inr_true; lia|].
    replace (endflags c p - 4 + i - (endflags c p - 4)) with i in Em by lia. rewrite Em.
    rewrite (proj1 (markable_bytes x f (endflags c p)) Hm i Hi). apply Z.bits_inj'. intros n Hn. rewrite !Z.land_spec, Z.lor_spec.
    destruct (Z.testbit (magic_mem x i) n); [reflexivity|apply andb_false_r].
  - subst g. split; [apply bytes_write; [exact Hb|intros; apply magic_mem_range]|]. split; [|split; [intros y Hy; apply write_out; lia|tauto]].
    apply marked_markable, marked_bytes. intros i Hi. rewrite write_in by lia. replace (endflags c p - 4 + i - (endflags c p - 4)) with i by lia.
    apply (proj1 (markable_bytes x f (endflags c p)) Hm i Hi).
Qed.

(** ** Programming one byte on a little-endian processor *)
Lemma put_run : forall x c p a v k f, X_be x = false -> bytes f -> is_byte v ->
  (X_ext x p = true -> forall i, k i = f (trailer_addr c p a + i)) ->
  exists k' g, run (x_set_trailer_at x c p a v k) f = Done k' g /\ bytes g /\
    g (trailer_addr c p a) = Z.land (f (trailer_addr c p a)) v /\ (forall y, y <> trailer_addr c p a -> g y = f y).
Proof.
  intros x c p a v k f Le Hb Hv Hk. unfold x_set_trailer_at. set (t := trailer_addr c p a) in *. destruct (X_ext x p).
  - specialize (Hk eq_refl). cbn [run]. eexists _, _. split; [reflexivity|]. unfold put_low. rewrite Le. split; [|split].
    + apply bytes_write; [exact Hb|]. intros i Hi. destruct (i =? 0); [apply Hv|]. rewrite Hk. apply Hb.
    + rewrite write_in by lia. rewrite Z.sub_diag. reflexivity.
    + intros y Hy. destruct (Z_lt_dec y t); [apply write_out; lia|]. destruct (Z_lt_dec y (t + 4)); [|apply write_out; lia].
      rewrite write_in by lia. rewrite (proj2 (Z.eqb_neq (y - t) 0)) by lia. rewrite Hk. replace (t + (y - t)) with y by lia. apply Z.land_diag.
  - cbn [run]. eexists _, _. split; [reflexivity|]. split; [apply bytes_write; [exact Hb|intros; apply Hv]|].
    split; [rewrite write_in by lia; reflexivity|]. intros y Hy. apply write_out. lia.
Qed.

Lemma put_crash : forall x c p a v k t f g, X_be x = false -> bytes f -> is_byte v ->
  (X_ext x p = true -> forall i, k i = f (trailer_addr c p a + i)) -> crash t (x_set_trailer_at x c p a v k) f g ->
  bytes g /\ between (f (trailer_addr c p a)) (Z.land (f (trailer_addr c p a)) v) (g (trailer_addr c p a)) /\
  (forall y, y <> trailer_addr c p a -> g y = f y).
Proof.
  intros x c p a v k t f g Le Hb Hv Hk C.
  destruct (put_run x c p a v k f Le Hb Hv Hk) as (k' & g1 & R & B1 & V1 & O1). revert C R. unfold x_set_trailer_at in *.
  set (u := trailer_addr c p a) in *.
  assert (Go : forall n d kk, n <= 4 -> 1 <= n -> (forall i, 0 <= i < n -> d i = if i =? 0 then v else f (u + i)) ->
    crash t (Wr u n d (Ret kk)) f g -> run (Wr u n d (Ret kk)) f = Done k' g1 ->
    bytes g /\ between (f u) (Z.land (f u) v) (g u) /\ (forall y, y <> u -> g y = f y)).
  { intros n d kk N4 N1 D C R. cbn [run crash] in *. assert (Eg : write f u n d = g1) by congruence.
    destruct C as [ -> |[C| -> ]].
    - split; [exact Hb|]. split; [apply between_refl|auto].
    - destruct C as (Bg & Out & In & _). specialize (In N4). split; [exact Bg|]. split.
      + destruct (In u) as [m Em]; [apply inr_true; lia|]. rewrite Z.sub_diag, D in Em by lia. rewrite Em. apply between_torn.
      + intros y Hy. destruct (inr u n y) eqn:I; [|apply Out, I]. destruct (In y I) as [m Em]. apply inr_true in I. rewrite D in Em by lia.
        rewrite (proj2 (Z.eqb_neq (y - u) 0)) in Em by lia. replace (u + (y - u)) with y in Em by lia. rewrite Em.
        apply Z.bits_inj'. intros j Hj. rewrite Z.lor_spec, !Z.land_spec. destruct (Z.testbit (f y) j), (Z.testbit m j); reflexivity.
    - rewrite Eg. split; [exact B1|]. split; [rewrite V1; apply between_new|exact O1]. }
  destruct (X_ext x p); intros C R.
  - apply (Go 4 _ _ ltac:(lia) ltac:(lia)) in C; [exact C| |exact R]. intros i Hi. unfold put_low. rewrite Le. destruct (i =? 0); [reflexivity|]. apply Hk. reflexivity.
  - apply (Go 1 _ _ ltac:(lia) ltac:(lia)) in C; [exact C| |exact R]. intros i Hi. assert (i = 0) as -> by lia. reflexivity.
Qed.

(** What is read is what is there. *)
Lemma cache_read : forall x c p a k f, run (x_get_trailer_at x c p a k) f =
  Done (fun i => f (trailer_addr c p a + i), if X_ext x p then fun i => f (trailer_addr c p a + i) else k) f.
Proof. reflexivity. Qed.

Lemma state_run : forall x c p st k f, X_be x = false -> bytes f -> is_byte st -> markable (X_be x) f (endflags c p) ->
  exists k' g, run (x_set_state x c p st k) f = Done k' g /\ bytes g /\ marked (X_be x) g (endflags c p) /\
    g (state_at (endflags c p)) = Z.land (f (state_at (endflags c p))) st /\
    (forall y, ~ (endflags c p - 5 <= y < endflags c p) -> g y = f y) /\
    (marked (X_be x) f (endflags c p) -> forall y, y <> state_at (endflags c p) -> g y = f y).
Proof.
  intros x c p st k f Le Hb Hs Hm. unfold x_set_state. rewrite run_bind.
  destruct (need_run x c p k f Hb Hm) as (k1 & g1 & E1 & B1 & M1 & O1 & S1). rewrite E1.
  cbn [bind run x_get_trailer_at Flash.get]. rewrite Z.add_0_r.
  set (e := endflags c p) in *. assert (Ta : trailer_addr c p 1 = state_at e) by (rewrite taddr; unfold state_at, e; lia). rewrite Ta.
  assert (F1 : g1 (state_at e) = f (state_at e)) by (apply O1; unfold state_at; lia).
  destruct (Z.eqb_spec (g1 (state_at e)) st) as [Q|Q].
  - eexists _, g1. split; [reflexivity|]. split; [exact B1|]. split; [exact M1|]. split; [rewrite <- F1, Q, Z.land_diag; reflexivity|].
    split; [intros y Hy; apply O1; lia|]. intros M y _. rewrite (S1 M). reflexivity.
  - destruct (put_run x c p 1 st (if X_ext x p then fun i => g1 (state_at e + i) else k1) g1 Le B1 Hs) as (k2 & g2 & E2 & B2 & V2 & O2).
    { intros -> i. rewrite Ta. reflexivity. }
    rewrite E2. rewrite Ta in *. exists k2, g2. split; [reflexivity|]. split; [exact B2|]. split; [|split; [|split]].
    + apply marked_bytes. intros i Hi. rewrite O2 by (unfold state_at; lia). apply (proj1 (marked_bytes x g1 e) M1 i Hi).
    + rewrite V2, F1. reflexivity.
    + intros y Hy. rewrite O2 by (unfold state_at; lia). apply O1. lia.
    + intros M y Hy. rewrite O2 by exact Hy. rewrite (S1 M). reflexivity.
Qed.

Lemma state_crash : forall x c p st k t f g, X_be x = false -> bytes f -> is_byte st -> markable (X_be x) f (endflags c p) ->
  crash t (x_set_state x c p st k) f g ->
  bytes g /\ markable (X_be x) g (endflags c p) /\
  between (f (state_at (endflags c p))) (Z.land (f (state_at (endflags c p))) st) (g (state_at (endflags c p))) /\
  (forall y, ~ (endflags c p - 5 <= y < endflags c p) -> g y = f y) /\
  (marked (X_be x) f (endflags c p) -> forall y, y <> state_at (endflags c p) -> g y = f y).
Proof.
  intros x c p st k t f g Le Hb Hs Hm C. unfold x_set_state in C. set (e := endflags c p) in *.
  assert (Ta : trailer_addr c p 1 = state_at e) by (rewrite taddr; unfold state_at, e; lia).
  apply crash_bind in C. destruct C as [C|(k1 & g1 & E1 & C)].
  - destruct (need_crash x c p k t f g Hb C Hm) as (Bg & Mg & O & S). split; [exact Bg|]. split; [exact Mg|].
    split; [rewrite (O (state_at e)) by (unfold state_at, e; lia); apply between_refl|]. split; [intros y Hy; apply O; fold e; lia|]. intros M y _. apply S, M.
  - destruct (need_run x c p k f Hb Hm) as (k1' & g1' & E1' & B1 & M1 & O1 & S1). rewrite E1' in E1.
    assert (g1' = g1) as -> by congruence. clear E1 E1'. fold e in M1, O1, S1.
    cbn [bind crash x_get_trailer_at Flash.get] in C. rewrite Z.add_0_r, Ta in C.
    assert (F1 : g1 (state_at e) = f (state_at e)) by (apply O1; unfold state_at; lia).
    destruct (g1 (state_at e) =? st).
    + cbn [crash] in C. subst g. split; [exact B1|]. split; [apply marked_markable, M1|]. split; [rewrite F1; apply between_refl|].
      split; [intros y Hy; apply O1; lia|]. intros M y _. rewrite (S1 M). reflexivity.
    + apply (put_crash x c p 1 st) in C; [|exact Le|exact B1|exact Hs|intros -> i; rewrite Ta; reflexivity].
      rewrite Ta, F1 in C. destruct C as (Bg & Bt & O). split; [exact Bg|]. split; [|split; [exact Bt|split]].
      * apply marked_markable, marked_bytes. intros i Hi. rewrite O by (unfold state_at; lia). apply (proj1 (marked_bytes x g1 e) M1 i Hi).
      * intros y Hy. rewrite O by (unfold state_at; lia). apply O1. lia.
      * intros M y Hy. rewrite O by exact Hy. rewrite (S1 M). reflexivity.
Qed.

Lemma get_state_run : forall x c p k f, exists k', run (x_get_state x c p k) f =
  Done (if is_magic x (fun i => f (endflags c p - 4 + i)) then Some (f (state_at (endflags c p))) else None, k') f.
Proof.
  intros x c p k f. unfold x_get_state. rewrite run_bind, cache_read. rewrite (taddr c p 0), Z.sub_0_r.
  destruct (is_magic x _); [|eexists; reflexivity]. rewrite run_bind, cache_read. eexists. cbn [run]. rewrite Z.add_0_r, taddr.
  replace (endflags c p - 4 - 1) with (state_at (endflags c p)) by (unfold state_at; lia). reflexivity.
Qed.

(** ** Sector flags *)
Lemma nibv_flag : forall f e s, bytes f -> sector_flag f e s = nibv (Z.even s) (f (flag_at e s)).
Proof.
  intros f e s Hb. unfold sector_flag. generalize (Hb (flag_at e s)). generalize (f (flag_at e s)). intros b Hbb. unfold nibv. destruct (Z.even s).
  - change 15 with (Z.ones 4). rewrite Z.land_ones by lia. reflexivity.
  - apply Z.eqb_eq. apply (byte_check (fun b => b / 16 =? Z.shiftr (Z.land b 240) 4)); [vm_compute; reflexivity|exact Hbb].
Qed.
Lemma flag_taddr : forall c s, 0 <= s < 512 -> trailer_addr c PUPDATE (2 + flag_pos s) = flag_at (endflags c PUPDATE) s.
Proof. intros c s Hs. rewrite taddr, (proj1 (flag_small s Hs)). unfold flag_at. lia. Qed.
Lemma flag_low_addr : forall e s, 0 <= s < 512 -> flag_at e s < state_at e.
Proof. intros e s Hs. unfold flag_at, state_at. pose proof (Z.div_pos s 2). lia. Qed.
Lemma flag_other : forall e s s', 0 <= s < 512 -> 0 <= s' < 512 -> s' <> s -> flag_at e s' = flag_at e s -> Z.even s' = negb (Z.even s).
Proof.
  intros e s s' H H' N E. unfold flag_at in E. pose proof (flag_distinct s s' H H' ltac:(congruence)) as D.
  rewrite (proj1 (flag_small s H)), (proj1 (flag_small s' H')) in D. rewrite (proj2 (flag_small s H)), (proj2 (flag_small s' H')) in D. apply D. lia.
Qed.

Lemma flag_run : forall x c s v k f, X_be x = false -> bytes f -> 0 <= s < 512 -> 0 <= v < 16 ->
  markable (X_be x) f (endflags c PUPDATE) -> Z.land (sector_flag f (endflags c PUPDATE) s) v = v ->
  exists k' g, run (x_set_flag x c s v k) f = Done k' g /\ bytes g /\ marked (X_be x) g (endflags c PUPDATE) /\
    sector_flag g (endflags c PUPDATE) s = v /\
    (forall s', 0 <= s' < 512 -> s' <> s -> sector_flag g (endflags c PUPDATE) s' = sector_flag f (endflags c PUPDATE) s') /\
    (forall y, ~ (endflags c PUPDATE - 4 <= y < endflags c PUPDATE) -> y <> flag_at (endflags c PUPDATE) s -> g y = f y).
Proof.
  intros x c s v k f Le Hb Hs Hv Hm Hsub. unfold x_set_flag. rewrite run_bind. set (e := endflags c PUPDATE) in *.
  destruct (need_run x c PUPDATE k f Hb Hm) as (k1 & g1 & E1 & B1 & M1 & O1 & _). fold e in M1, O1. rewrite E1. cbn [bind run x_get_trailer_at Flash.get].
  rewrite Z.add_0_r, (flag_taddr c s Hs), (proj2 (flag_small s Hs)). fold e.
  set (a := flag_at e s) in *. assert (La : a < state_at e) by (apply flag_low_addr, Hs). unfold state_at in La.
  assert (Fa : g1 a = f a) by (apply O1; lia). fold (put_nib (Z.even s) (g1 a) v). rewrite Fa.
  rewrite nibv_flag in Hsub by exact Hb. fold a in Hsub.
  destruct (put_nib_spec (Z.even s) (f a) v (Hb a) Hv Hsub) as (P1 & P2 & P3 & P4).
  assert (Fin : forall g, bytes g -> marked (X_be x) g e -> g a = put_nib (Z.even s) (f a) v ->
    (forall y, ~ (e - 4 <= y < e) -> y <> a -> g y = f y) ->
    marked (X_be x) g e /\ sector_flag g e s = v /\ (forall s', 0 <= s' < 512 -> s' <> s -> sector_flag g e s' = sector_flag f e s') /\
    (forall y, ~ (e - 4 <= y < e) -> y <> a -> g y = f y)).
  { intros g Bg Mg Ga Og. split; [exact Mg|]. split; [rewrite nibv_flag by exact Bg; fold a; rewrite Ga; exact P2|]. split; [|exact Og].
    intros s' Hs' N. rewrite !nibv_flag by assumption. destruct (Z.eq_dec (flag_at e s') a) as [Q|Q].
    - rewrite Q, Ga, (flag_other e s s' Hs Hs' N Q). exact P3.
    - rewrite Og; [reflexivity| |exact Q]. pose proof (flag_low_addr e s' Hs') as L. unfold state_at in L. lia. }
  destruct (Z.eqb_spec (put_nib (Z.even s) (f a) v) (f a)) as [Q|Q].
  - eexists _, g1. split; [reflexivity|]. split; [exact B1|]. apply Fin; [exact B1|exact M1|congruence|]. intros y Hy _. apply O1, Hy.
  - destruct (put_run x c PUPDATE (2 + flag_pos s) (put_nib (Z.even s) (f a) v) (if X_ext x PUPDATE then fun i => g1 (a + i) else k1) g1 Le B1 P4) as (k2 & g2 & E2 & B2 & V2 & O2).
    { intros -> i. rewrite (flag_taddr c s Hs). reflexivity. }
    rewrite E2. rewrite (flag_taddr c s Hs) in *. fold e in V2, O2. fold a in V2, O2. exists k2, g2. split; [reflexivity|]. split; [exact B2|].
    apply Fin; [exact B2| |rewrite V2, Fa; exact P1|].
    + apply marked_bytes. intros i Hi. rewrite O2 by lia. apply (proj1 (marked_bytes x g1 e) M1 i Hi).
    + intros y Hy Hn. rewrite O2 by exact Hn. apply O1, Hy.
Qed.

Lemma between_nibv : forall low old new v, between old new v -> between (nibv low old) (nibv low new) (nibv low v).
Proof. intros low old new v [H1 H2]. unfold between. rewrite <- !land_nibv. split; congruence. Qed.

Lemma flag_crash : forall x c s v k t f g, X_be x = false -> bytes f -> 0 <= s < 512 -> 0 <= v < 16 ->
  markable (X_be x) f (endflags c PUPDATE) -> Z.land (sector_flag f (endflags c PUPDATE) s) v = v ->
  crash t (x_set_flag x c s v k) f g ->
  bytes g /\ markable (X_be x) g (endflags c PUPDATE) /\ (marked (X_be x) f (endflags c PUPDATE) -> marked (X_be x) g (endflags c PUPDATE)) /\
  between (sector_flag f (endflags c PUPDATE) s) v (sector_flag g (endflags c PUPDATE) s) /\
  (forall s', 0 <= s' < 512 -> s' <> s -> sector_flag g (endflags c PUPDATE) s' = sector_flag f (endflags c PUPDATE) s') /\
  (forall y, ~ (endflags c PUPDATE - 4 <= y < endflags c PUPDATE) -> y <> flag_at (endflags c PUPDATE) s -> g y = f y).
Proof.
  intros x c s v k t f g Le Hb Hs Hv Hm Hsub C. unfold x_set_flag in C. set (e := endflags c PUPDATE) in *.
  set (a := flag_at e s) in *. assert (La : a < state_at e) by (apply flag_low_addr, Hs). unfold state_at in La.
  assert (Hsub' := Hsub). rewrite nibv_flag in Hsub' by exact Hb. fold a in Hsub'.
  destruct (put_nib_spec (Z.even s) (f a) v (Hb a) Hv Hsub') as (P1 & P2 & P3 & P4).
  assert (Fin : forall g, bytes g -> markable (X_be x) g e -> (marked (X_be x) f e -> marked (X_be x) g e) ->
    between (f a) (put_nib (Z.even s) (f a) v) (g a) -> (forall y, ~ (e - 4 <= y < e) -> y <> a -> g y = f y) ->
    bytes g /\ markable (X_be x) g e /\ (marked (X_be x) f e -> marked (X_be x) g e) /\
    between (sector_flag f e s) v (sector_flag g e s) /\ (forall s', 0 <= s' < 512 -> s' <> s -> sector_flag g e s' = sector_flag f e s') /\
    (forall y, ~ (e - 4 <= y < e) -> y <> a -> g y = f y)).
  { clear g C. intros g Bg Mg MM Bt Og. split; [exact Bg|]. split; [exact Mg|]. split; [exact MM|]. split; [|split; [|exact Og]].
    - rewrite !nibv_flag by assumption. fold a. rewrite <- P2. apply between_nibv, Bt.
    - intros s' Hs' N. rewrite !nibv_flag by assumption. destruct (Z.eq_dec (flag_at e s') a) as [Q|Q].
      + rewrite Q, (flag_other e s s' Hs Hs' N Q). apply between_same. rewrite <- P3 at 2. apply between_nibv, Bt.
      + rewrite Og; [reflexivity| |exact Q]. pose proof (flag_low_addr e s' Hs') as L. unfold state_at in L. lia. }
  assert (Keep : forall h, markable (X_be x) h e -> h a = f a -> between (f a) (put_nib (Z.even s) (f a) v) (h a))
    by (intros h _ ->; rewrite <- P1; apply between_refl).
  apply crash_bind in C. destruct C as [C|(k1 & g1 & E1 & C)].
  - destruct (need_crash x c PUPDATE k t f g Hb C Hm) as (Bg & Mg & O & S). fold e in Mg, O, S.
    apply Fin; [exact Bg|exact Mg| |apply Keep; [exact Mg|apply O; lia]|intros y Hy _; apply O, Hy].
    intro M. specialize (S M). apply marked_bytes. intros i Hi. rewrite S. apply (proj1 (marked_bytes x f e) M i Hi).
  - destruct (need_run x c PUPDATE k f Hb Hm) as (k1' & g1' & E1' & B1 & M1 & O1 & _). rewrite E1' in E1.
    assert (g1' = g1) as -> by congruence. clear E1 E1'. fold e in M1, O1.
    cbn [bind crash x_get_trailer_at Flash.get] in C. rewrite Z.add_0_r, (flag_taddr c s Hs), (proj2 (flag_small s Hs)) in C. fold e in C. fold a in C.
    assert (Fa : g1 a = f a) by (apply O1; lia). fold (put_nib (Z.even s) (g1 a) v) in C. rewrite Fa in C.
    destruct (put_nib (Z.even s) (f a) v =? f a).
    + cbn [crash] in C. subst g. apply Fin; [exact B1|apply marked_markable, M1|auto|apply Keep; [apply marked_markable, M1|exact Fa]|intros y Hy _; apply O1, Hy].
    + apply (put_crash x c PUPDATE (2 + flag_pos s)) in C; [|exact Le|exact B1|exact P4|intros -> i; rewrite (flag_taddr c s Hs); reflexivity].
      rewrite (flag_taddr c s Hs) in C. fold e in C. fold a in C. rewrite Fa, P1 in C. destruct C as (Bg & Bt & O).
      assert (Mg : marked (X_be x) g e) by (apply marked_bytes; intros i Hi; rewrite O by lia; apply (proj1 (marked_bytes x g1 e) M1 i Hi)).
      apply Fin; [exact Bg|apply marked_markable, Mg|auto|exact Bt|]. intros y Hy Hn. rewrite O by exact Hn. apply O1, Hy.
Qed.

Lemma get_flag_run : forall x c s k f, bytes f -> 0 <= s < 512 -> exists k', run (x_get_flag x c s k) f =
  Done (if is_magic x (fun i => f (endflags c PUPDATE - 4 + i)) then Some (sector_flag f (endflags c PUPDATE) s) else None, k') f.
Proof.
  intros x c s k f Hb Hs. unfold x_get_flag. rewrite run_bind, cache_read. rewrite (taddr c PUPDATE 0), Z.sub_0_r.
  destruct (is_magic x _); [|eexists; reflexivity]. rewrite run_bind, cache_read. eexists. cbn [run].
  rewrite Z.add_0_r, (flag_taddr c s Hs), (proj2 (flag_small s Hs)), nibv_flag by exact Hb. reflexivity.
Qed.

(** ** The trigger *)
Lemma trigger_ext : forall x c b k f, X_be x = false -> geometry c -> flags_room c -> flags_at c b -> bytes f ->
  exists k' g, run (x_trigger x c k) f = Done k' g /\ bytes g /\ marked (X_be x) g (endflags c PUPDATE) /\
    g (state_at (endflags c PUPDATE)) = ST_UPDATING /\
    (forall s, 0 <= s < PART c / SECT c -> sector_flag g (endflags c PUPDATE) s = SF_NEW) /\
    (forall y, ~ (b + PART c - SECT c <= y < b + PART c) -> g y = f y).
Proof.
  intros x c b k f Le G F Hfl Hb. pose proof (fit_14 c G F) as K14.
  unfold x_trigger. rewrite (flags_sector_addr c b) by assumption. cbn [run].
  set (a := b + PART c - SECT c) in *. set (f1 := erase f a (SECT c)).
  pose proof (g_sect c G) as (_ & S). change (endflags c PUPDATE) with (UFLAGS c).
  assert (SECT c >= 6) by (destruct F as (_ & F & _); assert (0 <= PART c / SECT c / 2);
    [repeat apply Z.div_pos; pose proof (g_part c G); lia|lia]).
  assert (Hb1 : bytes f1) by (apply bytes_erase; assumption).
  pose proof (g_disj1 c G) as D. unfold disjoint in D. pose proof (g_part c G) as (_ & P2).
  assert (Loc : (UFLAGS c = b + PART c /\ b = UPDATE c) \/ (UFLAGS c = b + PART c - 8 /\ 14 <= SECT c /\ b = BOOT c)).
  { unfold flags_at, own_flags, home_flags in *. destruct Hfl as [(E & ->)|(E & ->)]; [left; lia|right; lia]. }
  assert (Hm : markable (X_be x) f1 (endflags c PUPDATE)).
  { apply markable_bytes. change (endflags c PUPDATE) with (UFLAGS c). intros i Hi. unfold f1. rewrite erase_in by lia.
    apply land_255. apply magic_mem_range. }
  destruct (state_run x c PUPDATE ST_UPDATING k f1 Le Hb1 ltac:(unfold is_byte, ST_UPDATING; lia) Hm) as (k' & g & E & Bg & Mg & Sg & O & _).
  change (endflags c PUPDATE) with (UFLAGS c) in *.
  exists k', g. split; [exact E|]. split; [exact Bg|]. split; [exact Mg|]. split; [|split].
  - rewrite Sg. unfold f1, state_at. rewrite erase_in by lia. reflexivity.
  - intros s Hs. destruct (sectors_room c s G F Hs) as (H512 & K). rewrite nibv_flag by exact Bg.
    assert (Ea : flags_addr c (flag_pos s) = flag_at (UFLAGS c) s) by (apply (flag_taddr c s H512)). rewrite Ea in K.
    pose proof (flag_low_addr (UFLAGS c) s H512) as L. unfold state_at in L. rewrite O by lia. unfold f1. rewrite erase_in by lia. destruct (Z.even s); reflexivity.
  - intros y Hy. rewrite O by lia. unfold f1. apply erase_out. lia.
Qed.

(** ** Big-endian processors *)
Lemma big_run : forall x c p st k f, X_be x = true -> X_ext x p = true -> bytes f -> is_byte st -> markable true f (endflags c p) ->
  f (state_at (endflags c p)) <> st ->
  exists k' g, run (x_set_state x c p st k) f = Done k' g /\ bytes g /\ g (state_at (endflags c p)) = f (state_at (endflags c p)) /\
    g (endflags c p - 2) = Z.land 0x4F st.
Proof.
  intros x c p st k f Be Ex Hb Hs Hm N. rewrite <- Be in Hm. unfold x_set_state. rewrite run_bind.
  destruct (need_run x c p k f Hb Hm) as (k1 & g1 & E1 & B1 & M1 & O1 & S1). rewrite E1.
  cbn [bind run x_get_trailer_at Flash.get]. rewrite Z.add_0_r, Ex.
  set (e := endflags c p) in *. assert (Ta : trailer_addr c p 1 = state_at e) by (rewrite taddr; unfold state_at, e; lia). rewrite Ta.
  assert (F1 : g1 (state_at e) = f (state_at e)) by (apply O1; unfold state_at; lia).
  rewrite (proj2 (Z.eqb_neq _ _)) by congruence. unfold x_set_trailer_at. rewrite Ex, Ta. cbn [run]. eexists _, _. split; [reflexivity|].
  unfold put_low. rewrite Be. split; [|split].
  - apply bytes_write; [exact B1|]. intros i Hi. destruct (i =? 3); [apply Hs|apply B1].
  - rewrite write_in by (unfold state_at; lia). rewrite Z.sub_diag. cbn [Z.eqb]. rewrite Z.add_0_r, Z.land_diag. exact F1.
  - rewrite write_in by (unfold state_at; lia). replace (e - 2 - state_at e) with 3 by (unfold state_at; lia). cbn [Z.eqb Pos.eqb].
    replace (e - 2) with (e - 4 + 2) by lia. rewrite (proj1 (marked_bytes x g1 e) M1 2 ltac:(lia)). rewrite magic_mem_word, Be by lia. reflexivity.
Qed.
