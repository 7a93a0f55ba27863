From Verif Require Import Base BaseLemmas TpmSpec TpmModel.
Local Ltac Zify.zify_post_hook ::= idtac.

Lemma same_iff : forall a b, same a b = true <-> a = b.
Proof. intros a b. unfold same. destruct (list_eq_dec Z.eq_dec a b); split; congruence. Qed.
Lemma same_refl : forall a, same a a = true.
Proof. intro a. apply same_iff. reflexivity. Qed.

(** ** The measurement *)

Lemma sub_zero_firstn : forall {A} (l : list A) n, sub l 0 n = firstn n l.
Proof. reflexivity. Qed.

Lemma firstn_more : forall {A} (l : list A) p n, firstn p l ++ sub l p n = firstn (p + n) l.
Proof.
  intros A l p. revert l. induction p; intros l n; [reflexivity|].
  destruct l; [unfold sub; cbn; destruct n; reflexivity|]. cbn. f_equal. apply IHp.
Qed.

Lemma self_loop_ok : forall blk part, 0 < blk -> zlen part + blk < 2 ^ 32 ->
  forall fuel pos, 0 <= pos <= zlen part -> (Z.to_nat (zlen part - pos) < fuel)%nat ->
  self_loop fuel blk part pos (firstn (Z.to_nat pos) part) = Val part.
Proof.
  intros blk part Hb Hs fuel. induction fuel as [|fuel IH]; intros pos Hp Hf; [lia|].
  cbn [self_loop]. pose proof (zlen_nonneg part) as L.
  change (2 ^ 32) with 4294967296 in *. rewrite (Z.mod_small (pos + blk)) by lia.
  set (n := if zlen part <? pos + blk then (zlen part - pos) mod 4294967296 else blk).
  assert (Hn : 0 <= n /\ pos + n <= zlen part /\ (n = zlen part - pos \/ 0 < n)).
  { unfold n. destruct (Z.ltb_spec (zlen part) (pos + blk)); [rewrite Z.mod_small by lia|]; lia. }
  destruct (Z.ltb_spec (zlen part) (pos + n)); [lia|].
  rewrite (Z.mod_small (pos + n)) by lia.
  assert (F : firstn (Z.to_nat pos) part ++ sub part (Z.to_nat pos) (Z.to_nat n) = firstn (Z.to_nat (pos + n)) part)
    by (rewrite firstn_more, Z2Nat.inj_add by lia; reflexivity).
  rewrite F. destruct (Z.ltb_spec (pos + n) (zlen part)).
  - apply IH; [lia|]. destruct Hn as (? & ? & [?|?]); lia.
  - f_equal. apply firstn_all2. unfold zlen in *. lia.
Qed.

Lemma self_hash_ok : forall g C part, 0 < block g -> zlen part + block g < 2 ^ 32 ->
  self_hash g C part = Val (hash C part).
Proof.
  intros g C part Hb Hs. unfold self_hash.
  pose proof (self_loop_ok (block g) part Hb Hs (S (length part)) 0) as E. cbn [Z.to_nat firstn] in E.
  rewrite E; [reflexivity| |]; unfold zlen; lia.
Qed.

(** ** Selections *)

Lemma sel_loop_ok : forall mask cap todo acc, (length acc <= cap)%nat ->
  sel_loop mask cap todo acc = firstn cap (acc ++ filter (fun i => Z.testbit mask (Z.of_nat i)) todo).
Proof.
  intros mask cap todo. induction todo as [|i todo IH]; intros acc Ha; cbn [sel_loop filter].
  { rewrite app_nil_r, firstn_all2 by lia. reflexivity. }
  destruct (Z.testbit mask (Z.of_nat i)).
  - destruct (Nat.ltb_spec (length acc) cap).
    + rewrite IH by (rewrite app_length; cbn; lia). rewrite <- app_assoc. reflexivity.
    + rewrite IH by lia. rewrite !firstn_app. replace (cap - length acc)%nat with 0%nat by lia. reflexivity.
  - apply IH. exact Ha.
Qed.

Lemma pcrmask_sel_ok : forall mask cap, pcrmask_sel mask cap = firstn cap (chosen mask).
Proof. intros. unfold pcrmask_sel. rewrite sel_loop_ok by (cbn; lia). rewrite app_nil_l. unfold chosen. reflexivity. Qed.

Lemma mask_of_spec : forall l k, 0 <= k -> Z.testbit (mask_of l) k = existsb (fun i => Z.of_nat i =? k) l.
Proof.
  induction l as [|i l IH]; intros k Hk; cbn [mask_of fold_right existsb]; [apply Z.bits_0|].
  rewrite Z.lor_spec. fold (mask_of l). rewrite IH by exact Hk. f_equal.
  rewrite Z.pow2_bits_eqb by lia. reflexivity.
Qed.

Lemma mask_of_nonneg : forall l, 0 <= mask_of l.
Proof.
  induction l; cbn [mask_of fold_right]; [lia|]. apply Z.lor_nonneg. split; [apply Z.pow_nonneg; lia|exact IHl].
Qed.

Lemma chosen_In : forall mask i, In i (chosen mask) <-> (i < 24)%nat /\ Z.testbit mask (Z.of_nat i) = true.
Proof. intros. unfold chosen. rewrite filter_In, in_seq. cbn [Nat.add]. split; intros (X & Y); (split; [lia|exact Y]). Qed.

Lemma mask_of_chosen : forall mask, 0 <= mask < 2 ^ 24 -> mask_of (chosen mask) = mask.
Proof.
  intros mask H. apply Z.bits_inj'. intros k Hk. rewrite mask_of_spec by exact Hk.
  destruct (Z.testbit mask k) eqn:E.
  - apply existsb_exists. exists (Z.to_nat k). rewrite Z2Nat.id by lia. split; [|apply Z.eqb_refl].
    apply chosen_In. rewrite Z2Nat.id by lia. split; [|exact E].
    destruct (Z_lt_le_dec k 24); [lia|]. exfalso.
    rewrite Z.bits_above_log2 in E; [discriminate|lia|].
    destruct (Z.eq_dec mask 0) as [->|]; [cbn; lia|].
    apply Z.log2_lt_pow2; [lia|]. apply Z.lt_le_trans with (2 ^ 24); [lia|]. apply Z.pow_le_mono_r; lia.
  - destruct (existsb _ _) eqn:X; [|reflexivity]. apply existsb_exists in X. destruct X as (i & Hi & Ei).
    apply Z.eqb_eq in Ei. apply chosen_In in Hi. rewrite Ei in Hi. destruct Hi. congruence.
Qed.

Lemma chosen_mask_of : forall l, (forall i, In i l -> (i < 24)%nat) ->
  forall i, In i (chosen (mask_of l)) <-> In i l.
Proof.
  intros l H i. rewrite chosen_In, mask_of_spec by lia. split.
  - intros (_ & E). apply existsb_exists in E. destruct E as (j & Hj & Ej). apply Z.eqb_eq in Ej.
    replace i with j by lia. exact Hj.
  - intro Hi. split; [apply H; exact Hi|]. apply existsb_exists. exists i. split; [exact Hi|apply Z.eqb_refl].
Qed.

Lemma mask_of_sel : forall mask, 0 <= mask < 2 ^ 24 -> (length (chosen mask) <= SEL_CAP)%nat ->
  mask_of (pcrmask_sel mask SEL_CAP) = mask.
Proof. intros mask H L. rewrite pcrmask_sel_ok, firstn_all2 by exact L. apply mask_of_chosen. exact H. Qed.

Lemma mask_of_bound : forall l, (forall i, In i l -> (i < 24)%nat) -> 0 <= mask_of l < 2 ^ 24.
Proof.
  intros l H. split; [apply mask_of_nonneg|].
  destruct (Z.eq_dec (mask_of l) 0) as [->|N]; [reflexivity|].
  pose proof (mask_of_nonneg l). apply Z.log2_lt_pow2; [lia|].
  destruct (Z_lt_le_dec (Z.log2 (mask_of l)) 24); [assumption|]. exfalso.
  assert (B : Z.testbit (mask_of l) (Z.log2 (mask_of l)) = true) by (apply Z.bit_log2; lia).
  rewrite mask_of_spec in B by lia. apply existsb_exists in B. destruct B as (i & Hi & Ei).
  apply Z.eqb_eq in Ei. specialize (H i Hi). lia.
Qed.

(** ** Active PCRs *)

Lemma is_zero_iff : forall d, is_zero_digest d = true <-> forall b, In b d -> b = 0.
Proof.
  intro d. unfold is_zero_digest. rewrite forallb_forall. split; intros H b Hb; specialize (H b Hb).
  - apply Z.eqb_eq. exact H.
  - apply Z.eqb_eq. exact H.
Qed.

Lemma active_loop_ok : forall v max, 0 <= max < 255 -> forall fuel i mask, 0 <= i <= max + 1 -> 0 <= mask ->
  (Z.to_nat (max + 1 - i) < fuel)%nat ->
  exists r, active_loop fuel v max i mask = Val r /\ 0 <= r /\
    forall k, 0 <= k -> Z.testbit r k = Z.testbit mask k || ((i <=? k) && (k <=? max) && negb (is_zero_digest (v (Z.to_nat k)))).
Proof.
  intros v max Hm fuel. induction fuel as [|fuel IH]; intros i mask Hi H0 Hf; [lia|].
  cbn [active_loop]. destruct (Z.leb_spec i max).
  - rewrite Z.mod_small by lia.
    set (m' := if is_zero_digest (v (Z.to_nat i)) then mask else Z.lor mask (2 ^ i)).
    assert (P : 0 <= m') by (unfold m'; destruct (is_zero_digest _); [exact H0|apply Z.lor_nonneg; split; [exact H0|apply Z.pow_nonneg; lia]]).
    destruct (IH (i + 1) m') as (r & E & R & B); [lia|exact P|lia|].
    exists r. split; [exact E|]. split; [exact R|]. intros k Hk. rewrite B by exact Hk. unfold m'.
    destruct (Z.eq_dec k i) as [->|N].
    + destruct (Z.leb_spec (i + 1) i); [lia|]. destruct (Z.leb_spec i i); [|lia]. destruct (Z.leb_spec i max); [|lia].
      destruct (is_zero_digest (v (Z.to_nat i))).
      * cbn [andb negb]. reflexivity.
      * rewrite Z.lor_spec, Z.pow2_bits_eqb, Z.eqb_refl by lia. cbn [andb negb]. rewrite !orb_true_r. reflexivity.
    + assert (L : (i + 1 <=? k) = (i <=? k)) by (destruct (Z.leb_spec (i + 1) k), (Z.leb_spec i k); lia).
      rewrite L. destruct (is_zero_digest (v (Z.to_nat i))); [reflexivity|].
      rewrite Z.lor_spec, Z.pow2_bits_eqb by lia. destruct (Z.eqb_spec i k); [lia|]. rewrite orb_false_r. reflexivity.
  - exists mask. split; [reflexivity|]. split; [exact H0|]. intros k Hk.
    destruct (Z.leb_spec i k), (Z.leb_spec k max); try lia; cbn [andb]; rewrite ?orb_false_r; reflexivity.
Qed.

Lemma active_endless : forall v fuel i mask, 0 <= i < 256 -> active_loop fuel v 255 i mask = NoFuel.
Proof.
  intros v fuel. induction fuel as [|fuel IH]; intros i mask Hi; [reflexivity|].
  cbn [active_loop]. destruct (Z.leb_spec i 255); [|lia]. apply IH. apply Z.mod_pos_bound. lia.
Qed.

(** ** Non-volatile memory *)

Lemma set_nv_pcr : forall T i a, pcr (set_nv T i a) = pcr T.
Proof. reflexivity. Qed.
Lemma set_nv_same : forall T i a, nv (set_nv T i a) i = a.
Proof. intros. cbn. rewrite Z.eqb_refl. reflexivity. Qed.
Lemma set_nv_other : forall T i a j, j <> i -> nv (set_nv T i a) j = nv T j.
Proof. intros. cbn. destruct (Z.eqb_spec j i); congruence. Qed.

Lemma run_step : forall T i x rc T' l, run_cmd T i x = (rc, T') -> (rc =? 0) || tolerated x rc = true ->
  run_cmds T i (x :: l) = run_cmds T' i l.
Proof. intros T i x rc T' l E H. cbn [run_cmds]. rewrite E, H. reflexivity. Qed.

Definition area (n : Z) (d : list Z) : nv_area := {| nv_size := n; nv_written := true; nv_data := d |}.

Lemma write_step : forall T i size w d off x, nv T i = Some {| nv_size := size; nv_written := w; nv_data := d |} ->
  Z.of_nat off + zlen x <= size ->
  exists T', nv_write T i off x = (0, T') /\ pcr T' = pcr T /\ updates T' = updates T /\
    nv T' i = Some (area size (firstn off d ++ x ++ skipn (off + length x) d)) /\
    forall j, j <> i -> nv T' j = nv T j.
Proof.
  intros T i size w d off x E H. unfold nv_write. rewrite E. cbn [nv_size nv_data].
  destruct (Z.ltb_spec size (Z.of_nat off + zlen x)); [lia|].
  eexists. split; [reflexivity|]. split; [reflexivity|]. split; [reflexivity|].
  split; [apply set_nv_same|]. intros. apply set_nv_other. assumption.
Qed.

Lemma write_at : forall (a b x : list Z) off, length a = off ->
  firstn off (a ++ b) ++ x ++ skipn (off + length x) (a ++ b) = (a ++ x) ++ skipn (length x) b.
Proof.
  intros a b x off <-. rewrite firstn_app, Nat.sub_diag, firstn_all, app_nil_r.
  rewrite <- app_assoc. f_equal. f_equal. rewrite skipn_app.
  rewrite (skipn_all2 a) by lia. cbn [app]. f_equal. lia.
Qed.

Definition layout (pub priv : list Z) : list Z :=
  le_bytes 2 (zlen pub) ++ pub ++ le_bytes 2 (zlen priv) ++ priv.

Lemma store_absent : forall T i pub priv, nv T i = None ->
  exists T', store_blob T i pub priv = (0, T') /\ pcr T' = pcr T /\ updates T' = updates T /\
    nv T' i = Some (area (2 + zlen pub + 2 + zlen priv) (layout pub priv)) /\
    forall j, j <> i -> nv T' j = nv T j.
Proof.
  intros T i pub priv E. unfold store_blob, store_cmds.
  set (size := 2 + zlen pub + 2 + zlen priv).
  pose proof (zlen_nonneg pub) as Lp. pose proof (zlen_nonneg priv) as Lq.
  set (d0 := repeat 255 (Z.to_nat size)).
  set (T0 := set_nv T i (Some {| nv_size := size; nv_written := false; nv_data := d0 |})).
  assert (L0 : length d0 = (2 + length pub + 2 + length priv)%nat)
    by (unfold d0; rewrite repeat_length; unfold size, zlen; lia).
  rewrite (run_step T i (Define size) 0 T0); [|cbn [run_cmd]; unfold nv_define; rewrite E; reflexivity|reflexivity].
  assert (B2 : forall v, length (le_bytes 2 v) = 2%nat) by (intro; apply le_bytes_length).
  assert (Z2 : forall v, zlen (le_bytes 2 v) = 2) by (intro; unfold zlen; rewrite B2; reflexivity).
  destruct (write_step T0 i size false d0 0 (le_bytes 2 (zlen pub)) (set_nv_same _ _ _)) as (T1 & W1 & P1 & U1 & N1 & O1);
    [rewrite Z2; unfold size; lia|].
  rewrite (run_step T0 i _ 0 T1); [|exact W1|reflexivity].
  change (firstn 0 d0) with (@nil Z) in N1. cbn [app Nat.add] in N1. rewrite B2 in N1.
  destruct (write_step T1 i size true _ 2 pub N1) as (T2 & W2 & P2 & U2 & N2 & O2); [unfold size; lia|].
  rewrite (run_step T1 i _ 0 T2); [|exact W2|reflexivity].
  rewrite (write_at _ _ pub 2 (B2 _)) in N2.
  destruct (write_step T2 i size true _ (2 + length pub) (le_bytes 2 (zlen priv)) N2) as (T3 & W3 & P3 & U3 & N3 & O3);
    [rewrite Z2; unfold size, zlen in *; lia|].
  rewrite (run_step T2 i _ 0 T3); [|exact W3|reflexivity].
  rewrite write_at in N3 by (rewrite app_length, B2; lia).
  destruct (write_step T3 i size true _ (2 + length pub + 2) priv N3) as (T4 & W4 & P4 & U4 & N4 & O4);
    [unfold size, zlen in *; lia|].
  rewrite (run_step T3 i _ 0 T4); [|exact W4|reflexivity].
  rewrite write_at in N4 by (rewrite !app_length, !B2; lia).
  exists T4. split; [reflexivity|]. split; [rewrite P4, P3, P2, P1; reflexivity|].
  split; [rewrite U4, U3, U2, U1; reflexivity|]. split.
  - rewrite N4. f_equal. f_equal. rewrite (skipn_all2 (skipn _ _)).
    + rewrite app_nil_r. unfold layout. rewrite <- !app_assoc. reflexivity.
    + rewrite !skipn_length, L0. rewrite ?B2. lia.
  - intros j Hj. rewrite O4, O3, O2, O1 by exact Hj. unfold T0. apply set_nv_other. exact Hj.
Qed.

Lemma reseal : forall C T i o,
  exists T', run_cmds T i (seal_cmds C o) = (0, T') /\ pcr T' = pcr T /\ updates T' = updates T /\
    nv T' i = Some (area (2 + zlen (fst (wrap C o)) + 2 + zlen (snd (wrap C o)))
                         (layout (fst (wrap C o)) (snd (wrap C o)))) /\
    forall j, j <> i -> nv T' j = nv T j.
Proof.
  intros C T i o. unfold seal_cmds.
  destruct (nv T i) as [a|] eqn:E.
  - rewrite (run_step T i Undefine 0 (set_nv T i None)); [|cbn [run_cmd]; unfold nv_undefine; rewrite E; reflexivity|reflexivity].
    destruct (store_absent (set_nv T i None) i (fst (wrap C o)) (snd (wrap C o)) (set_nv_same _ _ _)) as (T' & H1 & H2 & H3 & H4 & H5).
    exists T'. split; [exact H1|]. split; [rewrite H2; reflexivity|]. split; [rewrite H3; reflexivity|].
    split; [exact H4|]. intros j Hj. rewrite H5 by exact Hj. apply set_nv_other. exact Hj.
  - rewrite (run_step T i Undefine RC_HANDLE T); [|cbn [run_cmd]; unfold nv_undefine; rewrite E; reflexivity|reflexivity].
    apply store_absent. exact E.
Qed.

Lemma read_layout : forall g T i pub priv, nv T i = Some (area (2 + zlen pub + 2 + zlen priv) (layout pub priv)) ->
  zlen pub < 65536 -> zlen priv < 65536 -> zlen pub <= pub_cap g -> zlen priv <= priv_cap g ->
  read_blob g T i = Val (0, pub, priv).
Proof.
  intros g T i pub priv E Hp Hq Cp Cq. unfold read_blob.
  pose proof (zlen_nonneg pub) as Lp. pose proof (zlen_nonneg priv) as Lq.
  assert (B2 : forall v, length (le_bytes 2 v) = 2%nat) by (intro; apply le_bytes_length).
  assert (V2 : forall v, 0 <= v < 65536 -> le_val (le_bytes 2 v) = v) by (intros; apply le_val_bytes; exact H).
  assert (R : forall off n, Z.of_nat off + Z.of_nat n <= 2 + zlen pub + 2 + zlen priv ->
     nv_read T i off n = (0, sub (layout pub priv) off n)).
  { intros off n H. unfold nv_read. rewrite E. cbn [area nv_written nv_size nv_data negb].
    destruct (Z.ltb_spec (2 + zlen pub + 2 + zlen priv) (Z.of_nat off + Z.of_nat n)); [lia|reflexivity]. }
  rewrite R by lia. cbn [Z.eqb negb].
  assert (S1 : sub (layout pub priv) 0 2 = le_bytes 2 (zlen pub)).
  { unfold layout. apply (sub_app' []); [reflexivity|rewrite B2; reflexivity]. }
  rewrite S1, V2 by lia.
  assert (NP : Z.to_nat (zlen pub) = length pub) by (unfold zlen; lia).
  assert (NQ : Z.to_nat (zlen priv) = length priv) by (unfold zlen; lia).
  rewrite NP, R by (unfold zlen in *; lia). cbn [Z.eqb negb].
  destruct (Z.ltb_spec (pub_cap g) (zlen pub)); [lia|].
  rewrite R by (unfold zlen in *; lia). cbn [Z.eqb negb].
  assert (S2 : sub (layout pub priv) (2 + length pub) 2 = le_bytes 2 (zlen priv)).
  { unfold layout. rewrite app_assoc. apply sub_app'; [rewrite app_length, B2; reflexivity|rewrite B2; reflexivity]. }
  rewrite S2, V2 by lia. rewrite NQ, R by (unfold zlen in *; lia). cbn [Z.eqb negb].
  destruct (Z.ltb_spec (priv_cap g) (zlen priv)); [lia|].
  f_equal. f_equal; [f_equal|].
  - unfold layout. apply sub_app'; [rewrite B2; reflexivity|reflexivity].
  - assert (X : layout pub priv = (le_bytes 2 (zlen pub) ++ pub ++ le_bytes 2 (zlen priv)) ++ priv ++ [])
      by (unfold layout; rewrite app_nil_r, <- !app_assoc; reflexivity).
    rewrite X. apply sub_app'; [rewrite !app_length, !B2; lia|reflexivity].
Qed.

(** ** Policies *)

Lemma app_same_len : forall (a b c d : list Z), length a = length b -> a ++ c = b ++ d -> a = b /\ c = d.
Proof.
  induction a as [|x a IH]; intros [|y b] c d L E; try discriminate L; [split; [reflexivity|exact E]|].
  cbn in E. injection E as -> E. destruct (IH b c d) as (-> & ->); [injection L; auto|exact E|split; reflexivity].
Qed.

Lemma concat_agree : forall (l : list nat) (v w : nat -> list Z), (forall i, length (v i) = 32%nat) -> (forall i, length (w i) = 32%nat) ->
  concat (map v l) = concat (map w l) -> forall i, In i l -> v i = w i.
Proof.
  induction l as [|j l IH]; intros v w Hv Hw E i Hi; [contradiction|].
  cbn [map concat] in E. apply app_same_len in E; [|rewrite Hv, Hw; reflexivity].
  destruct E as (E1 & E2). destruct Hi as [ <- |Hi]; [exact E1|]. apply IH; assumption.
Qed.

Lemma selection_len : forall m, length (selection m) = if m =? 0 then 4%nat else 10%nat.
Proof. intro m. unfold selection. destruct (m =? 0); [reflexivity|]. rewrite !app_length, le_bytes_length. reflexivity. Qed.

Lemma selection_inj : forall m n, 0 <= m < 2 ^ 24 -> 0 <= n < 2 ^ 24 -> selection m = selection n -> m = n.
Proof.
  intros m n Hm Hn E. pose proof (f_equal (@length Z) E) as L. rewrite !selection_len in L.
  unfold selection in E. destruct (Z.eqb_spec m 0), (Z.eqb_spec n 0); try congruence; try discriminate.
  assert (E' : le_bytes 3 m = le_bytes 3 n) by (apply (f_equal (skipn 7)) in E; exact E).
  rewrite <- (le_val_bytes 3 m), <- (le_val_bytes 3 n), E'; [reflexivity|exact Hn|exact Hm].
Qed.

Lemma policy_inj : forall C, (forall x y, hash C x = hash C y -> x = y) -> (forall x, length (hash C x) = 32%nat) ->
  forall d m v m' v', length d = 32%nat -> 0 <= m < 2 ^ 24 -> 0 <= m' < 2 ^ 24 ->
  (forall i, length (v i) = 32%nat) -> (forall i, length (v' i) = 32%nat) ->
  pcr_policy C d m v = pcr_policy C no_policy m' v' -> m = m' /\ forall i, In i (chosen m') -> v i = v' i.
Proof.
  intros C inj len d m v m' v' Hd Hm Hm' Hv Hv' E. unfold pcr_policy in E. apply inj in E.
  apply app_same_len in E; [|rewrite Hd; reflexivity]. destruct E as (_ & E).
  apply app_same_len in E; [|reflexivity]. destruct E as (_ & E).
  assert (L : length (selection m) = length (selection m')).
  { pose proof (f_equal (@length Z) E) as L. rewrite !app_length, !len in L. lia. }
  apply app_same_len in E; [|exact L]. destruct E as (E1 & E2).
  apply selection_inj in E1; [|exact Hm|exact Hm']. subst m'. split; [reflexivity|].
  apply inj in E2. apply concat_agree; assumption.
Qed.

Definition agree (T : tpm) (m : Z) (v : nat -> list Z) : Prop := forall i, In i (chosen m) -> pcr T i = v i.

Lemma agree_keeps : forall T T' m v, 0 <= m < 2 ^ 16 -> (forall j, (j < 16)%nat -> pcr T' j = pcr T j) ->
  agree T m v -> agree T' m v.
Proof.
  intros T T' m v Hm H A i Hi. rewrite H; [apply A; exact Hi|].
  apply chosen_In in Hi. destruct Hi as (Hi & B). destruct (Nat.lt_ge_cases i 16); [assumption|]. exfalso.
  rewrite Z.bits_above_log2 in B; [discriminate|lia|].
  destruct (Z.eq_dec m 0) as [ -> |]; [cbn; lia|].
  apply Z.log2_lt_pow2; [lia|]. apply Z.lt_le_trans with (2 ^ 16); [lia|]. apply Z.pow_le_mono_r; lia.
Qed.

Section Binding.
Context (C : suite) (key : list Z) (approved : Z -> (nat -> list Z) -> Prop).
Context (inj : forall x y, hash C x = hash C y -> x = y) (len : forall x, length (hash C x) = 32%nat)
  (nz : forall x, hash C x <> no_policy)
  (nm : forall k, key_name C k = key_name C key -> k = key)
  (only : forall d sig, verify C key d sig = true ->
     exists m v, approved m v /\ d = to_sign C (pcr_policy C no_policy m v) [])
  (wf : forall m v, approved m v -> 0 <= m < 2 ^ 16 /\ forall i, length (v i) = 32%nat).

Definition seen (T : tpm) (s : session) (m : Z) (v : nat -> list Z) : Prop :=
  exists n, checked s = Some n /\ n <= updates T /\ (n = updates T -> agree T m v).
Definition inv (x : tpm * session) : Prop := let (T, s) := x in
  (forall i, length (pcr T i) = 32%nat) /\
  length (digest s) = 32%nat /\
  (forall n, checked s = Some n -> n <= updates T) /\
  (forall m v, approved m v -> digest s = pcr_policy C no_policy m v -> seen T s m v) /\
  (digest s = signed_policy C key [] -> exists m v, approved m v /\ seen T s m v).

Lemma inv_pcrs : forall T T' s, inv (T, s) -> (forall i, length (pcr T' i) = 32%nat) ->
  (updates T' = updates T + 1 \/ updates T' = updates T /\ forall j, (j < 16)%nat -> pcr T' j = pcr T j) ->
  inv (T', s).
Proof using C key approved inj len nz nm only wf.
  intros T T' s (L & D & N & B & A) L' HU.
  assert (K : forall m v, approved m v -> seen T s m v -> seen T' s m v).
  { intros m v Ha (n & E & Hn & Hg). exists n. split; [exact E|]. destruct HU as [U|(U & P)].
    - split; [lia|]. intro X. lia.
    - split; [lia|]. intro X. apply (agree_keeps T); [apply (wf m v Ha)|exact P|apply Hg; lia]. }
  split; [exact L'|]. split; [exact D|]. split; [intros n E; specialize (N n E); destruct HU as [U|(U & _)]; lia|].
  split.
  - intros m v Ha E. apply K; [exact Ha|]. apply B; assumption.
  - intro E. destruct (A E) as (m & v & Ha & Hs). exists m, v. split; [exact Ha|]. apply K; assumption.
Qed.

Lemma inv_step : forall x y, inv x -> step C x y -> inv y.
Proof using C key approved inj len nz nm only wf.
  intros x y I H. destruct H.
  - destruct I as (L & I). apply (inv_pcrs T); [split; [exact L|exact I]| |].
    + intro j. cbn [extend pcr]. destruct (j =? i)%nat; [apply len|apply L].
    + cbn [extend updates pcr]. destruct (Nat.ltb_spec i 16); [left; reflexivity|right].
      split; [reflexivity|]. intros j Hj. destruct (Nat.eqb_spec j i); [lia|reflexivity].
  - destruct I as (L & I). apply (inv_pcrs T); [split; [exact L|exact I]| |].
    + intro j. cbn [pcr]. destruct (j =? i)%nat; [assumption|apply L].
    + right. split; [reflexivity|]. intros j Hj. cbn [pcr]. destruct (Nat.eqb_spec j i); [lia|reflexivity].
  - exact I.
  - destruct I as (L & _). split; [exact L|]. split; [reflexivity|]. split; [intros n E; discriminate E|].
    split; [intros m v _ E|intro E]; symmetry in E; apply nz in E; contradiction.
  - destruct I as (L & D & N & B & A). unfold policy_pcr in H0. destruct (unchanged T s); [|discriminate].
    assert (X : s' = {| digest := pcr_policy C (digest s) mask (pcr T); checked := Some (updates T) |}) by congruence.
    subst s'. clear H0. split; [exact L|]. cbn [digest checked]. split; [apply len|].
    split; [intros n E; assert (n = updates T) by congruence; lia|]. split.
    + intros m v Ha E. destruct (wf m v Ha) as (Wm & Wv).
      apply (policy_inj C inj len) in E; [|exact D|exact H|change (2 ^ 16) with 65536 in Wm; change (2 ^ 24) with 16777216; lia|exact L|exact Wv].
      destruct E as (_ & E). exists (updates T). split; [reflexivity|]. split; [lia|]. intros _. exact E.
    + intro E. exfalso. unfold pcr_policy, signed_policy in E. apply inj in E.
      apply (f_equal (@length Z)) in E. rewrite !app_length, !len, D in E. cbn in E. lia.
  - destruct I as (L & D & N & B & A). unfold policy_authorize in H.
    destruct (verify C key0 (to_sign C approved0 ref) sig) eqn:V; [|discriminate].
    destruct (same (digest s) approved0) eqn:Q; [|discriminate]. apply same_iff in Q. cbn [andb] in H.
    assert (X : s' = {| digest := signed_policy C key0 ref; checked := checked s |}) by congruence.
    subst s' approved0. clear H. split; [exact L|]. cbn [digest checked]. split; [apply len|].
    split; [exact N|]. split.
    + intros m v Ha E. exfalso. unfold pcr_policy, signed_policy in E. apply inj in E.
      apply app_same_len in E; [|rewrite len; reflexivity]. destruct E as (E & _). apply nz in E. exact E.
    + intro E. unfold signed_policy in E. apply inj in E.
      apply app_same_len in E; [|rewrite !len; reflexivity]. destruct E as (E & ->).
      apply inj in E. apply app_same_len in E; [|reflexivity]. destruct E as (_ & E).
      apply app_same_len in E; [|reflexivity]. destruct E as (_ & E). apply nm in E. subst key0.
      destruct (only _ _ V) as (m & v & Ha & E). exists m, v. split; [exact Ha|].
      unfold to_sign in E. apply inj in E. rewrite !app_nil_r in E. exact (B m v Ha E).
  - destruct I as (L & D & N & B & A). split; [exact L|]. cbn [digest checked]. split; [apply len|].
    split; [exact N|]. split.
    + intros m v Ha E. exfalso. unfold pcr_policy in E. apply inj in E.
      apply app_same_len in E; [|rewrite D; reflexivity]. destruct E as (_ & E).
      apply app_same_len in E; [|exact H]. destruct E as (E & _). contradiction.
    + intro E. exfalso. unfold signed_policy in E. apply inj in E.
      apply (f_equal (@length Z)) in E. rewrite !app_length, !len, D, H in E. cbn in E. lia.
Qed.

Lemma inv_steps : forall x y, inv x -> steps C x y -> inv y.
Proof using C key approved inj len nz nm only wf.
  intros x y I H. induction H; [exact I|]. eapply inv_step; [|eassumption]. apply IHsteps. exact I.
Qed.

Lemma inv_start : forall T, (forall i, length (pcr T i) = 32%nat) -> inv (T, fresh).
Proof using C key approved inj len nz nm only wf.
  intros T L. split; [exact L|]. split; [reflexivity|]. split; [intros n E; discriminate E|].
  split; [intros m v _ E|intro E]; symmetry in E; apply nz in E; contradiction.
Qed.
End Binding.

(** ** Unsealing *)

Lemma unseal_blob_policy : forall g C T hint mask sig pub priv cap, 0 <= mask < 2 ^ 32 ->
  let pol := pcr_policy C no_policy (mask_of (pcrmask_sel mask SEL_CAP)) (pcr T) in
  unseal_blob g C T hint (le_bytes 4 mask ++ sig) pub priv [] cap =
  match lookup g hint with
  | None => Val (-1, [])
  | Some key =>
    if verify C key (to_sign C pol []) sig then
      match unwrap C pub priv with
      | None => Val (RC_INTEGRITY, [])
      | Some o => if same (signed_policy C key []) (obj_policy o)
                  then if cap <? zlen (obj_data o) then UB else Val (0, obj_data o)
                  else Val (RC_SESSION_POLICY, [])
      end
    else Val (RC_SIGNATURE, [])
  end.
Proof.
  intros g C T hint mask sig pub priv cap Hm pol. unfold unseal_blob.
  assert (L : zlen (le_bytes 4 mask ++ sig) = 4 + zlen sig).
  { rewrite zlen_app. unfold zlen at 1. rewrite le_bytes_length. reflexivity. }
  pose proof (zlen_nonneg sig). rewrite L.
  destruct (Z.eqb_spec (4 + zlen sig) 0); [lia|]. destruct (Z.ltb_spec (4 + zlen sig) 4); [lia|].
  assert (F : firstn 4 (le_bytes 4 mask ++ sig) = le_bytes 4 mask) by reflexivity.
  assert (K : skipn 4 (le_bytes 4 mask ++ sig) = sig) by reflexivity.
  rewrite F, K, le_val_bytes by exact Hm. unfold policy_pcr. cbn [unchanged fresh checked digest]. fold pol.
  destruct (lookup g hint) as [key|]; [|reflexivity].
  unfold policy_authorize. cbn [digest checked]. rewrite same_refl, andb_true_r.
  destruct (verify C key (to_sign C pol []) sig); [|reflexivity].
  destruct (unwrap C pub priv) as [o|]; [|reflexivity].
  unfold unseal_policy, unchanged. cbn [digest checked]. rewrite Z.eqb_refl, andb_true_r.
  destruct (same (signed_policy C key []) (obj_policy o)); reflexivity.
Qed.

(** Nothing but the absence of the area is reported as a wrong handle. *)
Lemma read_blob_rc : forall g T i a rc pub priv, nv T i = Some a -> read_blob g T i = Val (rc, pub, priv) ->
  Z.land rc 191 <> 139.
Proof.
  intros g T i a rc pub priv E H.
  assert (K : forall off n r d, nv_read T i off n = (r, d) -> r = 0 \/ r = RC_NV_UNINITIALIZED \/ r = RC_NV_RANGE).
  { intros off n r d R. unfold nv_read in R. rewrite E in R. destruct (negb (nv_written a)); [right; left; congruence|].
    destruct (nv_size a <? Z.of_nat off + Z.of_nat n); [right; right; congruence|left; congruence]. }
  assert (K' : forall r, r = 0 \/ r = RC_NV_UNINITIALIZED \/ r = RC_NV_RANGE -> Z.land r 191 <> 139)
    by (intros r [ -> |[ -> | -> ]]; discriminate).
  apply K'. unfold read_blob in H.
  destruct (nv_read T i 0 2) as (r1, b1) eqn:R1. destruct (r1 =? 0) eqn:Q1; cbn [negb] in H;
    [|assert (rc = r1) by congruence; subst; eapply K; exact R1].
  destruct (nv_read T i 2 (Z.to_nat (le_val b1))) as (r2, b2) eqn:R2. destruct (r2 =? 0) eqn:Q2; cbn [negb] in H;
    [|assert (rc = r2) by congruence; subst; eapply K; exact R2].
  destruct (pub_cap g <? le_val b1); [discriminate|].
  destruct (nv_read T i (2 + Z.to_nat (le_val b1)) 2) as (r3, b3) eqn:R3. destruct (r3 =? 0) eqn:Q3; cbn [negb] in H;
    [|assert (rc = r3) by congruence; subst; eapply K; exact R3].
  destruct (nv_read T i (2 + Z.to_nat (le_val b1) + 2) (Z.to_nat (le_val b3))) as (r4, b4) eqn:R4.
  destruct (r4 =? 0) eqn:Q4; cbn [negb] in H; [|assert (rc = r4) by congruence; subst; eapply K; exact R4].
  destruct (priv_cap g <? le_val b3); [discriminate|]. left. congruence.
Qed.

Lemma unseal_blob_rc : forall g C T hint policy pub priv auth cap rc d,
  unseal_blob g C T hint policy pub priv auth cap = Val (rc, d) -> Z.land rc 191 <> 139.
Proof.
  intros g C T hint policy pub priv auth cap rc d H. unfold unseal_blob in H.
  destruct (zlen policy =? 0); [assert (rc = -1) by congruence; subst; discriminate|].
  destruct (zlen policy <? 4); [discriminate|].
  destruct (policy_pcr _ _ _ _); [|assert (rc = RC_SESSION_POLICY) by congruence; subst; discriminate].
  destruct (lookup g hint); [|assert (rc = -1) by congruence; subst; discriminate].
  destruct (policy_authorize _ _ _ _ _ _); [|assert (rc = RC_SIGNATURE) by congruence; subst; discriminate].
  destruct (unwrap _ _ _); [|assert (rc = RC_INTEGRITY) by congruence; subst; discriminate].
  destruct auth as [|a0 auth0].
  - destruct (unseal_policy _ _ _) as [x|]; [|assert (rc = RC_SESSION_POLICY) by congruence; subst; discriminate].
    destruct (cap <? zlen x); [discriminate|]. assert (rc = 0) by congruence. subst. discriminate.
  - destruct (unseal_password _ _) as [x|]; [|assert (rc = RC_AUTH_FAIL) by congruence; subst; discriminate].
    destruct (cap <? zlen x); [discriminate|]. assert (rc = 0) by congruence. subst. discriminate.
Qed.
