(** The erase loops of the flash drivers. *)
From Verif Require Import Base BaseLemmas HalSpec HalModel HalProofs HalWriteProofs HalWrite2Proofs.

Lemma in_page : forall ps x q, 0 < ps -> (q * ps <= x < q * ps + ps <-> x / ps = q).
Proof.
  intros ps x q P. split; intros H.
  - symmetry. apply (Z.div_unique_pos x ps q (x - q * ps)); lia.
  - pose proof (Z.div_mod x ps ltac:(lia)) as E. pose proof (Z.mod_pos_bound x ps P). subst q. lia.
Qed.
Lemma page_at : forall ps m p x, 0 < ps ->
  page_erase ps m p x = if x / ps =? p / ps then 255 else m x.
Proof.
  intros ps m p x P. unfold page_erase, wipe.
  destruct (x / ps =? p / ps) eqn:E; [apply Z.eqb_eq in E|apply Z.eqb_neq in E].
  - pose proof (proj2 (in_page ps x (p / ps) P) E).
    yes (p / ps * ps <=? x). yes (x <? p / ps * ps + ps). reflexivity.
  - destruct ((p / ps * ps <=? x) && (x <? p / ps * ps + ps)) eqn:G; [|reflexivity].
    exfalso. apply E. apply in_page; [exact P|].
    apply andb_true_iff in G. destruct G as [G1 G2].
    apply Z.leb_le in G1. apply Z.ltb_lt in G2. lia.
Qed.
Lemma div_next : forall p ps, 0 < ps -> (p + ps) / ps = p / ps + 1.
Proof. intros. replace (p + ps) with (p + 1 * ps) by lia. apply Z.div_add. lia. Qed.
Lemma div_prev : forall p ps, 0 < ps -> (p - ps) / ps = p / ps - 1.
Proof. intros. replace (p - ps) with (p + (-1) * ps) by lia. rewrite Z.div_add by lia. lia. Qed.

(** The pages from that of [p] on, as many as steps of [ps] from [p] stay up to [e]. *)
Definition pages (ps p e x : Z) : bool :=
  (p <=? e) && ((p / ps <=? x / ps) && (x / ps <=? p / ps + (e - p) / ps)).

Lemma pages_none : forall ps p e x, e < p -> pages ps p e x = false.
Proof. intros. unfold pages. no (p <=? e). reflexivity. Qed.
Lemma pages_step : forall ps p e x, 0 < ps -> p <= e ->
  pages ps p e x = (x / ps =? p / ps) || pages ps (p + ps) e x.
Proof.
  intros ps p e x P L. unfold pages. rewrite div_next by exact P.
  replace (e - (p + ps)) with (e - p - ps) by lia. rewrite div_prev by exact P.
  yes (p <=? e). cbn [andb].
  pose proof (Z.div_pos (e - p) ps ltac:(lia) P) as D0.
  set (u := x / ps). set (v := p / ps). clearbody u v.
  destruct (p + ps <=? e) eqn:E; [apply Z.leb_le in E|apply Z.leb_gt in E].
  - assert (1 <= (e - p) / ps) by (apply Z.div_le_lower_bound; lia).
    set (w := (e - p) / ps) in *. clearbody w. cbn [andb].
    destruct (Z.eqb_spec u v); destruct (Z.leb_spec v u); destruct (Z.leb_spec (v + 1) u);
      destruct (Z.leb_spec u (v + w)); destruct (Z.leb_spec u (v + 1 + (w - 1)));
      cbn [andb orb]; try reflexivity; exfalso; lia.
  - rewrite Z.div_small by lia. cbn [andb]. rewrite orb_false_r.
    destruct (Z.eqb_spec u v); destruct (Z.leb_spec v u); destruct (Z.leb_spec u (v + 0));
      cbn [andb]; try reflexivity; exfalso; lia.
Qed.
(** From the start of a page these are the pages with a byte up to [e]. *)
Lemma pages_aligned : forall ps p e x, 0 < ps -> p mod ps = 0 -> p <= e ->
  pages ps p e x = (p / ps <=? x / ps) && (x / ps <=? e / ps).
Proof.
  intros ps p e x P A L. unfold pages. yes (p <=? e). cbn [andb].
  replace (p / ps + (e - p) / ps) with (e / ps); [reflexivity|].
  assert (Q : p = p / ps * ps) by (rewrite Z.mod_eq in A by lia; lia).
  replace (e - p) with (e + (- (p / ps)) * ps) by lia. rewrite Z.div_add by lia. lia.
Qed.
Lemma pages_exact : forall ps p e x, 0 < ps -> p <= e -> p mod ps + (e - p) mod ps < ps ->
  pages ps p e x = (p / ps <=? x / ps) && (x / ps <=? e / ps).
Proof.
  intros ps p e x P L H. unfold pages. yes (p <=? e). cbn [andb].
  replace (p / ps + (e - p) / ps) with (e / ps); [reflexivity|].
  pose proof (Z.mod_pos_bound p ps P). pose proof (Z.mod_pos_bound (e - p) ps P).
  pose proof (Z.div_mod p ps ltac:(lia)). pose proof (Z.div_mod (e - p) ps ltac:(lia)).
  symmetry. apply (Z.div_unique_pos e ps _ (p mod ps + (e - p) mod ps)); lia.
Qed.
(** Otherwise the last page is left out. *)
Lemma pages_missing : forall ps p e x, 0 < ps -> p <= e -> ps <= p mod ps + (e - p) mod ps ->
  x / ps = e / ps -> pages ps p e x = false.
Proof.
  intros ps p e x P L H X. unfold pages. yes (p <=? e). cbn [andb].
  assert (E : e / ps = p / ps + (e - p) / ps + 1).
  { pose proof (Z.mod_pos_bound p ps P). pose proof (Z.mod_pos_bound (e - p) ps P).
    pose proof (Z.div_mod p ps ltac:(lia)). pose proof (Z.div_mod (e - p) ps ltac:(lia)).
    symmetry. apply (Z.div_unique_pos e ps _ (p mod ps + (e - p) mod ps - ps)); lia. }
  rewrite X, E. no (p / ps + (e - p) / ps + 1 <=? p / ps + (e - p) / ps). apply andb_false_r.
Qed.

Lemma page_loop_spec : forall le ps, 0 < ps ->
  forall fuel m p e, 0 <= p -> e + ps < 4294967296 ->
  e - p < (Z.of_nat fuel - 1) * ps -> (0 < fuel)%nat ->
  exists m', page_loop le ps fuel m p e = Val (m', 0) /\
    forall x, m' x = if pages ps p (if le then e else e - 1) x then 255 else m x.
Proof.
  intros le ps P. induction fuel as [|f IH]; intros m p e P0 E F F0; [lia|].
  cbn [page_loop].
  destruct (if le then p <=? e else p <? e) eqn:C.
  - assert (L : p <= (if le then e else e - 1))
      by (destruct le; [apply Z.leb_le in C|apply Z.ltb_lt in C]; lia).
    assert (LE : p <= e) by (destruct le; lia).
    assert (U : u32 (p + ps) = p + ps).
    { unfold u32. change (2 ^ 32) with 4294967296. apply Z.mod_small. lia. }
    rewrite U.
    destruct (IH (page_erase ps m p) (p + ps) e) as (m' & Em & X); [lia|lia|lia|lia|].
    exists m'. split; [exact Em|]. intros x. rewrite X, (pages_step ps p) by assumption.
    rewrite page_at by exact P.
    destruct (x / ps =? p / ps); cbn [orb]; [|reflexivity].
    destruct (pages _ _ _ _); reflexivity.
  - exists m. split; [reflexivity|]. intros x. rewrite pages_none; [reflexivity|].
    destruct le; [apply Z.leb_gt in C|apply Z.ltb_ge in C]; lia.
Qed.

Lemma u32_small : forall x, 0 <= x < 4294967296 -> u32 x = x.
Proof. intros x H. unfold u32. change (2 ^ 32) with 4294967296. apply Z.mod_small, H. Qed.

Section Loops.
  Variables (ps : Z) (fuel : nat) (m : mem) (a len : Z).
  Hypothesis PS : 0 < ps.
  Hypothesis A0 : 0 <= a.
  Hypothesis L0 : 0 < len.
  Hypothesis IN : a + len + ps <= 4294967296.
  Hypothesis F : len < (Z.of_nat fuel - 2) * ps.

  Lemma f_pos : (0 < fuel)%nat /\ 2 <= Z.of_nat fuel.
  Proof using PS A0 L0 IN F. clear -F L0 PS. nia. Qed.

  Lemma nrf52_spec : exists m', nrf52_erase ps fuel m a len = Val (m', 0) /\
    forall x, m' x = if pages ps a (a + len - 1) x then 255 else m x.
  Proof using PS A0 L0 IN F.
    unfold nrf52_erase. rewrite u32_small by lia.
    pose proof f_pos. apply (page_loop_spec true ps PS); [lia|lia|nia|lia].
  Qed.
  Lemma nrf5340_ok : erased (nrf5340_erase ps fuel m a len) m ps a len.
  Proof using PS A0 L0 IN F.
    unfold nrf5340_erase. rewrite u32_small by lia.
    pose proof (Z.mod_pos_bound a ps PS). pose proof (Z.mod_le a ps A0 PS). pose proof f_pos.
    destruct (page_loop_spec true ps PS fuel m (a - a mod ps) (a + len - 1)) as (m' & Em & X);
      [lia|lia|nia|lia|].
    exists m'. split; [exact Em|]. intros x. rewrite X.
    rewrite pages_aligned; [|exact PS|apply round_down, PS|lia].
    replace ((a - a mod ps) / ps) with (a / ps); [reflexivity|].
    symmetry. apply (proj1 (in_page ps (a - a mod ps) (a / ps) PS)).
    pose proof (Z.div_mod a ps ltac:(lia)). lia.
  Qed.
  Lemma stm_spec : exists m', stm_erase ps fuel m a len = Val (m', 0) /\
    forall x, m' x = if pages ps a (a + len - 2) x then 255 else m x.
  Proof using PS A0 L0 IN F.
    unfold stm_erase. no (len =? 0). rewrite u32_small by lia.
    pose proof f_pos.
    destruct (page_loop_spec false ps PS fuel m a (a + len - 1)) as (m' & Em & X);
      [lia|lia|nia|lia|].
    exists m'. split; [exact Em|]. intros x. rewrite X.
    replace (a + len - 1 - 1) with (a + len - 2) by lia. reflexivity.
  Qed.
End Loops.

Lemma stm_ok : forall ps fuel m a len, 0 < ps -> 0 <= a -> 0 < len -> a + len + ps <= 4294967296 ->
  len < (Z.of_nat fuel - 2) * ps -> a mod ps = 0 -> 1 < ps -> len mod ps <> 1 ->
  erased (stm_erase ps fuel m a len) m ps a len.
Proof.
  intros ps fuel m a len PS A0 L0 IN F A P1 M.
  destruct (stm_spec ps fuel m a len PS A0 L0 IN F) as (m' & Em & X).
  assert (len <> 1) by (intros ->; apply M, Z.mod_small; lia).
  exists m'. split; [exact Em|]. intros x. rewrite X, pages_aligned by (try assumption; lia).
  replace ((a + len - 2) / ps) with ((a + len - 1) / ps); [reflexivity|].
  assert (M1 : (a + len - 1) mod ps <> 0).
  { intros Z0. apply M. rewrite Z.mod_eq in Z0, A by lia. symmetry.
    apply (Z.mod_unique_pos len ps ((a + len - 1) / ps - a / ps) 1); lia. }
  pose proof (Z.mod_pos_bound (a + len - 1) ps PS).
  pose proof (Z.div_mod (a + len - 1) ps ltac:(lia)).
  symmetry. apply (proj1 (in_page ps (a + len - 2) _ PS)). lia.
Qed.
Lemma stm_one_more : forall ps fuel m a len, 0 < ps -> 0 <= a -> 0 < len ->
  a + len + ps <= 4294967296 ->
  len < (Z.of_nat fuel - 2) * ps -> a mod ps = 0 -> len mod ps = 1 ->
  exists m', stm_erase ps fuel m a len = Val (m', 0) /\
    forall x, x / ps = (a + len - 1) / ps -> m' x = m x.
Proof.
  intros ps fuel m a len PS A0 L0 IN F A M.
  destruct (stm_spec ps fuel m a len PS A0 L0 IN F) as (m' & Em & X).
  exists m'. split; [exact Em|]. intros x Hx. rewrite X.
  destruct (Z.eq_dec len 1) as [ -> |N]; [rewrite pages_none by lia; reflexivity|].
  rewrite pages_aligned by (try assumption; lia). rewrite Hx.
  assert (Q : a + len - 1 = (a / ps + len / ps) * ps).
  { rewrite Z.mod_eq in A, M by lia. lia. }
  rewrite Q, Z.div_mul by lia.
  replace (a + len - 2) with (a + len - 1 - 1) by lia. rewrite Q.
  assert (E : ((a / ps + len / ps) * ps - 1) / ps = a / ps + len / ps - 1).
  { apply in_page; lia. }
  rewrite E. no (a / ps + len / ps <=? a / ps + len / ps - 1). rewrite andb_false_r. reflexivity.
Qed.

Lemma nrf52_never : forall ps fuel m p, page_loop true ps fuel m p 4294967295 = NoFuel \/ 4294967295 < p.
Proof.
  intros ps. induction fuel as [|f IH]; intros m p; [left; reflexivity|].
  cbn [page_loop].
  destruct (p <=? 4294967295) eqn:E; [apply Z.leb_le in E|apply Z.leb_gt in E; right; lia].
  destruct (IH (page_erase ps m p) (u32 (p + ps))) as [H|H]; [left; exact H|].
  exfalso. unfold u32 in H. change (2 ^ 32) with 4294967296 in H.
  pose proof (Z.mod_pos_bound (p + ps) 4294967296 ltac:(lia)). lia.
Qed.

(** Counting down by pages. *)
Lemma count_spec : forall ps, 0 < ps -> forall fuel m a len,
  len <= (Z.of_nat fuel - 1) * ps -> (0 < fuel)%nat ->
  exists m', count_erase ps ps fuel m a len = Val (m', 0) /\
    forall x, m' x = if pages ps a (a + len - 1) x then 255 else m x.
Proof.
  intros ps P. induction fuel as [|f IH]; intros m a len F F0; [lia|].
  cbn [count_erase].
  destruct (0 <? len) eqn:C; [apply Z.ltb_lt in C|apply Z.ltb_ge in C].
  - destruct (IH (page_erase ps m a) (a + ps) (len - ps)) as (m' & Em & X); [lia|nia|].
    exists m'. split; [exact Em|]. intros x. rewrite X, (pages_step ps a) by lia.
    rewrite page_at by exact P.
    replace (a + ps + (len - ps) - 1) with (a + len - 1) by lia.
    destruct (x / ps =? a / ps); cbn [orb]; [|reflexivity].
    destruct (pages _ _ _ _); reflexivity.
  - exists m. split; [reflexivity|]. intros x. rewrite pages_none by lia. reflexivity.
Qed.

Lemma kin_erase_ok : forall ps fuel m a len, 0 < ps -> 0 < len -> a mod ps = 0 ->
  len <= Z.of_nat fuel * ps -> (0 < fuel)%nat ->
  erased (kin_erase ps fuel m a len) m ps a len.
Proof.
  intros ps fuel m a len P L A F F0. unfold kin_erase. rewrite A. cbn [Z.eqb].
  destruct (count_spec ps P fuel (page_erase ps m a) (a + ps) (len - ps)) as (m' & Em & X);
    [lia|lia|].
  exists m'. split; [exact Em|]. intros x. rewrite X.
  replace (a + ps + (len - ps) - 1) with (a + len - 1) by lia.
  rewrite <- pages_aligned by (try assumption; lia). rewrite (pages_step ps a) by lia.
  rewrite page_at by exact P.
  destruct (x / ps =? a / ps); cbn [orb]; [|reflexivity].
  destruct (pages _ _ _ _); reflexivity.
Qed.
Lemma kin_erase_nothing : forall ps fuel m a len, 0 < ps -> len <= 0 -> a mod ps = 0 ->
  (0 < fuel)%nat ->
  exists m', kin_erase ps fuel m a len = Val (m', 0) /\
    forall x, m' x = if x / ps =? a / ps then 255 else m x.
Proof.
  intros ps fuel m a len P L A F0. unfold kin_erase. rewrite A. cbn [Z.eqb].
  destruct fuel as [|f]; [lia|]. cbn [count_erase]. no (0 <? len - ps).
  exists (page_erase ps m a). split; [reflexivity|]. intros x. apply page_at, P.
Qed.

(** Loops that do not move on. *)
Lemma page_twice : forall ps m p x, 0 < ps ->
  page_erase ps (page_erase ps m p) p x = page_erase ps m p x.
Proof. intros. rewrite !page_at by assumption. destruct (_ =? _); reflexivity. Qed.
Lemma page_same : forall ps m m' p, 0 < ps -> same m m' -> same (page_erase ps m p) (page_erase ps m' p).
Proof. intros ps m m' p P E x. rewrite !page_at by exact P. rewrite E. reflexivity. Qed.

Lemma mcxw_loop_spec : forall ss, 0 < ss -> forall fuel m a len,
  len <= (Z.of_nat fuel - 1) * ss -> (0 < fuel)%nat ->
  exists m', mcxw_erase_loop ss fuel m a len = Val (m', 0) /\
    same m' (if 0 <? len then page_erase ss m a else m).
Proof.
  intros ss P. induction fuel as [|f IH]; intros m a len F F0; [lia|].
  cbn [mcxw_erase_loop].
  destruct (0 <? len) eqn:C; [apply Z.ltb_lt in C|apply Z.ltb_ge in C].
  - destruct (IH (page_erase ss m a) a (len - ss)) as (m' & Em & X); [lia|nia|].
    exists m'. split; [exact Em|]. eapply same_trans; [exact X|].
    destruct (0 <? len - ss); [|apply same_refl].
    intros x. apply page_twice, P.
  - exists m. split; [reflexivity|apply same_refl].
Qed.
Lemma samr_spec : forall row, 0 < row -> forall polls m a len m' r,
  samr_erase row polls m a len = Val (m', r) ->
  r = 0 /\ same m' (if 0 <? len then page_erase row m a else m).
Proof.
  intros row P. induction polls as [|k l IH]; intros m a len m' r H; [discriminate H|].
  cbn [samr_erase] in H.
  destruct (0 <? len) eqn:C.
  - apply IH in H. destruct H as [R X]. split; [exact R|]. eapply same_trans; [exact X|].
    destruct (0 <? len - 64 * k); [|apply same_refl]. intros x. apply page_twice, P.
  - assert (E : (m, 0) = (m', r)) by congruence. apply pair_equal_spec in E.
    destruct E as [ <- <- ]. split; [reflexivity|apply same_refl].
Qed.

Lemma lpc_erase_ok : forall ss m a len, 0 < ss -> 0 < len -> erased (lpc_erase ss m a len) m ss a len.
Proof.
  intros ss m a len P L. unfold lpc_erase.
  replace (a + (len - 1)) with (a + len - 1) by lia.
  eexists. split; [reflexivity|]. intros x. unfold wipe.
  assert (LE : a / ss <= (a + len - 1) / ss) by (apply Z.div_le_mono; lia).
  pose proof (proj2 (in_page ss x (x / ss) P) eq_refl) as X.
  set (q := x / ss) in *. set (f := a / ss) in *. set (l := (a + len - 1) / ss) in *.
  clearbody q f l.
  replace (f * ss + (l - f + 1) * ss) with ((l + 1) * ss) by lia.
  destruct (Z.leb_spec f q) as [H|H]; destruct (Z.leb_spec q l) as [H0|H0]; cbn [andb].
  - assert (f * ss <= q * ss /\ q * ss <= l * ss) by (split; apply Z.mul_le_mono_nonneg_r; lia).
    yes (f * ss <=? x). yes (x <? (l + 1) * ss). reflexivity.
  - assert ((l + 1) * ss <= q * ss) by (apply Z.mul_le_mono_nonneg_r; lia).
    no (x <? (l + 1) * ss). rewrite andb_false_r. reflexivity.
  - assert ((q + 1) * ss <= f * ss) by (apply Z.mul_le_mono_nonneg_r; lia).
    no (f * ss <=? x). reflexivity.
  - assert ((q + 1) * ss <= f * ss) by (apply Z.mul_le_mono_nonneg_r; lia).
    no (f * ss <=? x). reflexivity.
Qed.

Lemma psoc_erase_spec : forall row, 0 < row -> forall fuel m p e, p <= e -> e - p < 4294967296 ->
  e - p < Z.of_nat fuel * row ->
  exists m', psoc_erase_loop row fuel m p e = Val (m', 0) /\
    forall x, m' x = if pages row p (e - row) x then 255 else m x.
Proof.
  intros row P. induction fuel as [|f IH]; intros m p e L E F; [lia|].
  cbn [psoc_erase_loop]. rewrite u32_small by lia.
  destruct (row <=? e - p) eqn:C; [apply Z.leb_le in C|apply Z.leb_gt in C].
  - destruct (IH (page_erase row m p) (p + row) e) as (m' & Em & X); [lia|lia|lia|].
    exists m'. split; [exact Em|]. intros x. rewrite X, (pages_step row p) by lia.
    rewrite page_at by exact P.
    destruct (x / row =? p / row); cbn [orb]; [|reflexivity].
    destruct (pages _ _ _ _); reflexivity.
  - exists m. split; [reflexivity|]. intros x. rewrite pages_none by lia. reflexivity.
Qed.

(** *** STM32F1 *)
Lemma f1_page_same : forall er m a, (forall m' a' x, ~ a' <= x < a' + 1024 -> er m' a' x = m' x) ->
  snd (f1_erase_page er m a) = true ->
  same (fst (f1_erase_page er m a)) (wipe m a 1024).
Proof.
  intros er m a ER H x. unfold f1_erase_page in *. cbn [fst snd] in *.
  destruct (in_dec a x 1024) as [I|N].
  - rewrite wipe_in by exact I. rewrite forallb_forall in H.
    specialize (H (Z.to_nat (x - a))). rewrite Z2Nat.id in H by lia.
    replace (a + (x - a)) with x in H by lia. apply Z.eqb_eq, H, in_seq. lia.
  - rewrite wipe_out by exact N. apply ER, N.
Qed.
Lemma f1_erase_loop_sound : forall er, (forall m' a' x, ~ a' <= x < a' + 1024 -> er m' a' x = m' x) ->
  forall fuel m a n m', 0 <= n ->
  f1_erase_loop er fuel m a (a + n * 1024) = Val (m', 0) ->
  same m' (wipe m a (n * 1024)).
Proof.
  intros er ER. induction fuel as [|f IH]; intros m a n m' N H; [discriminate H|].
  cbn [f1_erase_loop] in H.
  destruct (a <? a + n * 1024) eqn:E; [apply Z.ltb_lt in E|apply Z.ltb_ge in E].
  - pose proof (f1_page_same er m a ER) as S1.
    destruct (f1_erase_page er m a) as [m1 ok]. cbn [fst snd] in S1.
    destruct ok; [|assert (X : (m1, -1) = (m', 0)) by congruence;
                   apply pair_equal_spec in X; lia].
    replace (a + n * 1024) with (a + 1024 + (n - 1) * 1024) in H by lia.
    apply IH in H; [|lia]. eapply same_trans; [exact H|].
    intros x. specialize (S1 eq_refl x).
    destruct (in_dec (a + 1024) x ((n - 1) * 1024)) as [I|O].
    + rewrite !wipe_in by lia. reflexivity.
    + rewrite wipe_out by exact O. rewrite S1.
      destruct (in_dec a x 1024) as [I|O2].
      * rewrite !wipe_in by lia. reflexivity.
      * rewrite !wipe_out by lia. reflexivity.
  - assert (X : (m, 0) = (m', 0)) by congruence. apply pair_equal_spec in X.
    destruct X as [ <- _ ]. intros x. rewrite wipe_out by lia. reflexivity.
Qed.
Lemma f1_erase_loop_total : forall er, (forall m a x, er m a x = wipe m a 1024 x) ->
  forall fuel m a n, 0 <= n -> n < Z.of_nat fuel ->
  exists m', f1_erase_loop er fuel m a (a + n * 1024) = Val (m', 0).
Proof.
  intros er ER. induction fuel as [|f IH]; intros m a n N F; [lia|].
  cbn [f1_erase_loop].
  destruct (a <? a + n * 1024) eqn:E; [apply Z.ltb_lt in E|eexists; reflexivity].
  unfold f1_erase_page.
  replace (forallb (fun k => er m a (a + Z.of_nat k) =? 255) (seq 0 1024)) with true.
  - replace (a + n * 1024) with (a + 1024 + (n - 1) * 1024) by lia. apply IH; lia.
  - symmetry. apply forallb_forall. intros k K. apply in_seq in K. rewrite ER, wipe_in by lia.
    reflexivity.
Qed.

(** *** Sector tables *)
Lemma growing_le : forall tab i j, growing tab -> (i <= j)%nat -> (j < length tab)%nat ->
  nth i tab 0 <= nth j tab 0.
Proof.
  induction tab as [|x l IH]; intros i j G L J; [cbn [length] in J; lia|].
  assert (S1 : forall k, (S k < length (x :: l))%nat -> nth k (x :: l) 0 <= nth (S k) (x :: l) 0).
  { intros k K. destruct l as [|y l]; [cbn [length] in K; lia|].
    destruct G as [G1 G2]. destruct k as [|k]; [cbn [nth]; lia|].
    cbn [nth length] in *. apply (IH k (S k)); [exact G2|lia|cbn [length]; lia]. }
  induction L as [|j L IHL]; [lia|].
  etransitivity; [apply IHL; lia|apply S1; exact J].
Qed.
Lemma growing_lt : forall tab i, growing tab -> (S i < length tab)%nat ->
  nth i tab 0 < nth (S i) tab 0.
Proof.
  induction tab as [|x l IH]; intros i G J; [cbn [length] in J; lia|].
  destruct l as [|y l]; [cbn [length] in J; lia|]. destruct G as [G1 G2].
  destruct i as [|i]; [exact G1|]. cbn [nth length] in *. apply (IH i G2). cbn [length]. lia.
Qed.
Lemma sector_unique : forall tab i j x, growing tab -> in_sector tab i x -> in_sector tab j x -> i = j.
Proof.
  intros tab i j x G [I1 I2] [J1 J2].
  destruct (Nat.lt_trichotomy i j) as [L|[E|L]]; [|exact E|]; exfalso.
  - pose proof (growing_le tab (S i) j G L ltac:(lia)). lia.
  - pose proof (growing_le tab (S j) i G L ltac:(lia)). lia.
Qed.
Lemma sector_exists : forall tab x, nth 0 tab 0 <= x < nth (length tab - 1) tab 0 ->
  exists i, in_sector tab i x.
Proof.
  intros tab x [L H].
  assert (K : forall n, (n < length tab)%nat -> x < nth n tab 0 -> exists i, in_sector tab i x).
  { induction n as [|n IH]; intros N X; [lia|].
    destruct (Z_lt_le_dec x (nth n tab 0)) as [A|A]; [apply IH; lia|].
    exists n. split; [exact N|lia]. }
  destruct tab as [|y l]; [cbn [nth length Nat.sub] in *; lia|].
  apply (K (length (y :: l) - 1)%nat); [cbn [length]; lia|exact H].
Qed.

Lemma sec_at_nat : forall tab i, sec_at tab (Z.of_nat i) = nth i tab 0.
Proof. intros. unfold sec_at. rewrite Nat2Z.id. reflexivity. Qed.
Lemma sec_at_succ : forall tab i, sec_at tab (Z.of_nat i + 1) = nth (S i) tab 0.
Proof. intros. unfold sec_at. replace (Z.of_nat i + 1) with (Z.of_nat (S i)) by lia.
  rewrite Nat2Z.id. reflexivity. Qed.

Lemma in_sector_b : forall tab i x, (S i < length tab)%nat ->
  (sec_at tab (Z.of_nat i) <=? x) && (x <? sec_at tab (Z.of_nat i + 1)) = true <-> in_sector tab i x.
Proof.
  intros tab i x L. rewrite sec_at_nat, sec_at_succ, andb_true_iff, Z.leb_le, Z.ltb_lt.
  unfold in_sector. tauto.
Qed.

Definition seen (k i : nat) : Z := if (k <? i)%nat then Z.of_nat k else -1.
Lemma seen_next : forall tab k i x, growing tab -> in_sector tab k x -> (S i < length tab)%nat ->
  (if (sec_at tab (Z.of_nat i) <=? x) && (x <? sec_at tab (Z.of_nat i + 1))
   then Z.of_nat i else seen k i) = seen k (S i).
Proof.
  intros tab k i x G K L. unfold seen.
  destruct ((sec_at tab (Z.of_nat i) <=? x) && (x <? sec_at tab (Z.of_nat i + 1))) eqn:E.
  - apply in_sector_b in E; [|exact L]. rewrite (sector_unique tab k i x G K E).
    rewrite (proj2 (Nat.ltb_lt i (S i))) by lia. reflexivity.
  - destruct (Nat.eq_dec k i) as [ -> |N].
    + apply in_sector_b in K; [|exact L]. rewrite K in E. discriminate E.
    + destruct (Nat.ltb_spec k i); destruct (Nat.ltb_spec k (S i)); try reflexivity; lia.
Qed.
Lemma search_ok : forall tab a e ka ke, growing tab -> in_sector tab ka a -> in_sector tab ke e ->
  forall n i, (i + n = length tab - 1)%nat ->
  f4_search tab a e n (Z.of_nat i) (seen ka i) (seen ke i) = (Z.of_nat ka, Z.of_nat ke).
Proof.
  intros tab a e ka ke G KA KE. pose proof (proj1 KA) as LA. pose proof (proj1 KE) as LE.
  induction n as [|n IH]; intros i N.
  - cbn [f4_search]. unfold seen. rewrite !(proj2 (Nat.ltb_lt _ _)) by lia. reflexivity.
  - cbn [f4_search]. rewrite (seen_next tab ka i a G KA), (seen_next tab ke i e G KE) by lia.
    destruct ((0 <? seen ka (S i)) && (0 <? seen ke (S i))) eqn:E.
    + apply andb_true_iff in E. destruct E as [E1 E2]. apply Z.ltb_lt in E1, E2.
      unfold seen in *. destruct (ka <? S i)%nat; [|lia]. destruct (ke <? S i)%nat; [|lia].
      reflexivity.
    + replace (Z.of_nat i + 1) with (Z.of_nat (S i)) by lia. apply IH. lia.
Qed.

Lemma erase_sectors_at : forall phys, growing phys -> forall n m i x, (i + n < length phys)%nat ->
  erase_sectors phys m (Z.of_nat i) n x =
    if (nth i phys 0 <=? x) && (x <? nth (i + n) phys 0) then 255 else m x.
Proof.
  intros phys G. induction n as [|n IH]; intros m i x L.
  - cbn [erase_sectors]. rewrite Nat.add_0_r.
    destruct (Z.leb_spec (nth i phys 0) x); destruct (Z.ltb_spec x (nth i phys 0));
      cbn [andb]; try reflexivity; lia.
  - cbn [erase_sectors]. replace (Z.of_nat i + 1) with (Z.of_nat (S i)) by lia.
    rewrite IH by lia. unfold erase_sector. rewrite sec_at_nat.
    replace (Z.of_nat i + 1) with (Z.of_nat (S i)) by lia. rewrite sec_at_nat. unfold wipe.
    pose proof (growing_lt phys i G ltac:(lia)).
    pose proof (growing_le phys (S i) (S i + n) G ltac:(lia) ltac:(lia)).
    replace (i + S n)%nat with (S i + n)%nat by lia.
    replace (nth i phys 0 + (nth (S i) phys 0 - nth i phys 0)) with (nth (S i) phys 0) by lia.
    destruct (Z.leb_spec (nth (S i) phys 0) x); destruct (Z.ltb_spec x (nth (S i + n) phys 0));
      destruct (Z.leb_spec (nth i phys 0) x); destruct (Z.ltb_spec x (nth (S i) phys 0));
      cbn [andb]; try reflexivity; lia.
Qed.

Lemma f4_erase_eq : forall tab phys m a len ka ke, growing tab ->
  0 < len -> 0 <= a -> a + len <= 4294967296 ->
  in_sector tab ka a -> in_sector tab ke (a + len - 1) ->
  f4_erase tab phys m a len =
    Val (erase_sectors phys m (Z.of_nat ka) (S ke - ka), 0).
Proof.
  intros tab phys m a len ka ke G L A0 U KA KE. unfold f4_erase. no (len =? 0). cbv zeta.
  rewrite u32_small by lia.
  assert (HA : sec_at tab 0 <= a).
  { change 0 with (Z.of_nat 0). rewrite sec_at_nat. destruct KA as [K1 K2].
    pose proof (growing_le tab 0 ka G ltac:(lia) ltac:(lia)). lia. }
  assert (HE : a + len - 1 <= nth (length tab - 1) tab 0).
  { destruct KE as [K1 K2]. 
    pose proof (growing_le tab (S ke) (length tab - 1) G ltac:(lia) ltac:(lia)). lia. }
  no (a <? sec_at tab 0). no (nth (length tab - 1) tab 0 <? a + len - 1). cbn [orb].
  change (f4_search tab a (a + len - 1) (length tab - 1) 0 (-1) (-1)) with
    (f4_search tab a (a + len - 1) (length tab - 1) (Z.of_nat 0) (seen ka 0) (seen ke 0)).
  rewrite (search_ok tab a (a + len - 1) ka ke G KA KE) by lia.
  no (Z.of_nat ka <? 0). no (Z.of_nat ke <? 0). cbn [orb].
  replace (Z.to_nat (Z.of_nat ke - Z.of_nat ka + 1)) with (S ke - ka)%nat by lia. reflexivity.
Qed.

Lemma sector_order : forall tab i j x y, growing tab -> in_sector tab i x -> in_sector tab j y ->
  x <= y -> (i <= j)%nat.
Proof.
  intros tab i j x y G [I1 I2] [J1 J2] L.
  destruct (Nat.le_gt_cases i j) as [H|H]; [exact H|].
  pose proof (growing_le tab (S j) i G H ltac:(lia)). lia.
Qed.

Lemma f4_erase_ok : forall tab m a len, growing tab -> 0 < len ->
  0 <= a -> a + len <= 4294967296 ->
  nth 0 tab 0 <= a -> a + len <= nth (length tab - 1) tab 0 ->
  sectors_erased (f4_erase tab tab m a len) m tab a len.
Proof.
  intros tab m a len G L A0 U LO HI.
  destruct (sector_exists tab a) as [ka KA]; [lia|].
  destruct (sector_exists tab (a + len - 1)) as [ke KE]; [lia|].
  rewrite (f4_erase_eq tab tab m a len ka ke) by assumption.
  pose proof (sector_order tab ka ke a (a + len - 1) G KA KE ltac:(lia)) as KK.
  eexists. split; [reflexivity|]. intros x.
  pose proof (proj1 KE) as LE.
  rewrite erase_sectors_at by (try exact G; lia).
  replace (ka + (S ke - ka))%nat with (S ke) by lia.
  split.
  - intros (i & y & Ix & Iy & Y).
    pose proof (sector_order tab ka i a y G KA Iy ltac:(lia)) as O1.
    pose proof (sector_order tab i ke y (a + len - 1) G Iy KE ltac:(lia)) as O2.
    destruct Ix as [X1 X2].
    pose proof (growing_le tab ka i G O1 ltac:(lia)).
    pose proof (growing_le tab (S i) (S ke) G ltac:(lia) ltac:(lia)).
    yes (nth ka tab 0 <=? x). yes (x <? nth (S ke) tab 0). reflexivity.
  - intros N. destruct ((nth ka tab 0 <=? x) && (x <? nth (S ke) tab 0)) eqn:E; [|reflexivity].
    exfalso. apply N. apply andb_true_iff in E. destruct E as [E1 E2].
    apply Z.leb_le in E1. apply Z.ltb_lt in E2.
    pose proof (growing_le tab 0 ka G ltac:(lia) ltac:(lia)).
    pose proof (growing_le tab (S ke) (length tab - 1) G ltac:(lia) ltac:(lia)).
    destruct (sector_exists tab x) as [i Ix]; [lia|]. exists i.
    destruct (Z_lt_le_dec x a) as [C|C]; [|destruct (Z_lt_le_dec x (a + len)) as [C2|C2]].
    + exists a. assert (i = ka).
      { apply Nat.le_antisymm; [apply (sector_order tab i ka x a G Ix KA); lia|].
        destruct (Nat.le_gt_cases ka i) as [Q|Q]; [exact Q|].
        destruct Ix as [X1 X2]. pose proof (growing_le tab (S i) ka G Q ltac:(lia)). lia. }
      subst i. split; [exact Ix|]. split; [exact KA|lia].
    + exists x. split; [exact Ix|]. split; [exact Ix|lia].
    + exists (a + len - 1). assert (i = ke).
      { apply Nat.le_antisymm; [|apply (sector_order tab ke i (a + len - 1) x G KE Ix); lia].
        destruct (Nat.le_gt_cases i ke) as [Q|Q]; [exact Q|].
        destruct Ix as [X1 X2]. pose proof (growing_le tab (S ke) i G Q ltac:(lia)). lia. }
      subst i. split; [exact Ix|]. split; [exact KE|lia].
Qed.

(** *** STM32H7 *)
Lemma h7_bank1 : forall fuel m p e, 0 <= p -> p mod h7_sector = 0 -> e <= h7_bank2 ->
  e - p < (Z.of_nat fuel - 1) * h7_sector -> (0 < fuel)%nat ->
  exists m', h7_erase_loop fuel m p e = Val (m', 0) /\
    forall x, m' x = if pages h7_sector p (e - 1) x then 255 else m x.
Proof.
  unfold h7_bank2. assert (P : 0 < h7_sector) by reflexivity.
  induction fuel as [|f IH]; intros m p e P0 A E F F0; [lia|].
  cbn [h7_erase_loop].
  destruct (p <? e) eqn:C; [apply Z.ltb_lt in C|apply Z.ltb_ge in C].
  - unfold h7_bank2. yes (p <? 1048576). no (1048576 <=? p). cbn [andb].
    assert (PS : p + h7_sector <= 1048576) by (unfold h7_sector in *; lia).
    rewrite u32_small by (unfold h7_sector in *; lia).
    change (wipe m (p / h7_sector * h7_sector) h7_sector) with (page_erase h7_sector m p).
    destruct (IH (page_erase h7_sector m p) (p + h7_sector) e) as (m' & Em & X);
      [unfold h7_sector in *; lia..|].
    exists m'. split; [exact Em|]. intros x. rewrite X, (pages_step h7_sector p) by lia.
    rewrite page_at by exact P.
    destruct (x / h7_sector =? p / h7_sector); cbn [orb]; [|reflexivity].
    destruct (pages _ _ _ _); reflexivity.
  - exists m. split; [reflexivity|]. intros x. rewrite pages_none by lia. reflexivity.
Qed.

(** In the second bank the address becomes huge after the first sector. *)
Lemma h7_bank2_one : forall f m p e, h7_bank2 <= p <= 2097151 -> p < e -> e <= 2097152 ->
  exists m', h7_erase_loop (S (S f)) m p e = Val (m', 0) /\
    forall x, m' x = if x / h7_sector =? p / h7_sector then 255 else m x.
Proof.
  unfold h7_bank2. intros f m p e P C E.
  cbn [h7_erase_loop]. unfold h7_bank2. yes (p <? e). no (p <? 1048576).
  yes (1048576 <=? p). yes (p <=? 2097151). cbn [andb]. cbv iota.
  assert (U : u32 (p - 135266304) = p + 4159700992).
  { unfold u32. change (2 ^ 32) with 4294967296. symmetry.
    apply (Z.mod_unique_pos _ _ (-1)); lia. }
  rewrite U.
  assert (U2 : u32 (p + 4159700992 + h7_sector) = p + 4159700992 + h7_sector)
    by (apply u32_small; unfold h7_sector; lia).
  rewrite U2. assert (0 < h7_sector) by reflexivity.
  no (p + 4159700992 + h7_sector <? e). cbv iota.
  eexists. split; [reflexivity|]. intros x.
  replace (1048576 + ((p + 4159700992) / h7_sector) mod 8 * h7_sector)
    with (p / h7_sector * h7_sector) by (unfold h7_sector; lia).
  apply (page_at h7_sector m p x). reflexivity.
Qed.
