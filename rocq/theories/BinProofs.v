(** The factory image tool. *)
From Verif Require Import Base BaseLemmas BinModel BinSpec.
From Coq Require Import Permutation.
Local Ltac Zify.zify_post_hook ::= idtac.

Local Ltac consts := change SZ_MAX with 18446744073709551616 in *; change INT_HI with 2147483647 in *;
  change (2 ^ 63) with 9223372036854775808 in *; change (2 ^ 31 - 1) with 2147483647 in *;
  change (2 ^ 64) with 18446744073709551616 in *; change (Z.of_nat BLOCK) with 1024 in *.

Definition p_end (e : part_in) : Z := p_addr e + zlen (p_data e).

Lemma zlen_nn : forall {A} (l : list A), 0 <= zlen l.
Proof. intros. unfold zlen. lia. Qed.

Lemma fill_blocks_spec : forall fuel cur addr out, 0 <= cur <= addr -> addr < 2 ^ 63 -> (Z.to_nat (addr - cur) <= fuel)%nat ->
  exists k, fill_blocks fuel cur addr out = Some (cur + Z.of_nat k, out ++ repeat FILL k) /\ cur + Z.of_nat k <= addr.
Proof.
  induction fuel as [|fuel IH]; intros cur addr out Hc Ha Hf; cbn [fill_blocks].
  - rewrite Z.mod_small by (consts; lia). consts.
    destruct (Z.ltb_spec (cur + 1024) addr) as [L|L]; [lia|]. exists 0%nat. cbn [repeat]. rewrite app_nil_r, Z.add_0_r. split; [reflexivity|lia].
  - rewrite Z.mod_small by (consts; lia). consts. destruct (Z.ltb_spec (cur + 1024) addr) as [L|L].
    + destruct (IH (cur + 1024) addr (out ++ repeat FILL BLOCK) ltac:(lia) Ha ltac:(lia)) as (k & E & K).
      exists (BLOCK + k)%nat. rewrite E. split.
      * rewrite <- app_assoc, <- repeat_app. f_equal. f_equal. change BLOCK with (Z.to_nat 1024). lia.
      * change BLOCK with (Z.to_nat 1024). lia.
    + exists 0%nat. cbn [repeat]. rewrite app_nil_r, Z.add_0_r. split; [reflexivity|lia].
Qed.

Lemma fill_bytes_spec : forall fuel cur addr out, 0 <= cur <= addr -> addr < 2 ^ 63 -> (Z.to_nat (addr - cur) <= fuel)%nat ->
  fill_bytes fuel cur addr out = Some (addr, out ++ repeat FILL (Z.to_nat (addr - cur))).
Proof.
  induction fuel as [|fuel IH]; intros cur addr out Hc Ha Hf; cbn [fill_bytes].
  - destruct (Z.ltb_spec cur addr) as [L|L]; [lia|]. replace cur with addr by lia. rewrite Z.sub_diag. cbn. rewrite app_nil_r. reflexivity.
  - destruct (Z.ltb_spec cur addr) as [L|L].
    + rewrite Z.mod_small by (consts; lia). rewrite IH by lia. f_equal. f_equal. rewrite <- app_assoc. f_equal.
      replace (Z.to_nat (addr - cur)) with (S (Z.to_nat (addr - (cur + 1)))) by lia. reflexivity.
    + replace cur with addr by lia. rewrite Z.sub_diag. cbn. rewrite app_nil_r. reflexivity.
Qed.

Lemma copy_file_spec : forall fuel cur data out, 0 <= cur -> cur + zlen data < 2 ^ 63 -> (length data <= fuel)%nat ->
  copy_file fuel cur data out = Some (cur + zlen data, out ++ data).
Proof.
  assert (B : (0 < BLOCK)%nat) by (unfold BLOCK; lia). consts.
  induction fuel as [|fuel IH]; intros cur data out Hc He Hf; cbn [copy_file]; cbn zeta.
  - destruct data as [|x r]; [|cbn in Hf; lia]. rewrite firstn_nil. cbn [length].
    destruct (Nat.ltb_spec 0 BLOCK) as [_|L]; [|lia]. rewrite Z.mod_small by (unfold zlen in *; consts; cbn in *; lia). reflexivity.
  - assert (Lf : zlen (firstn BLOCK data) <= zlen data) by (unfold zlen; rewrite firstn_length; lia).
    rewrite Z.mod_small by (pose proof (zlen_nn (firstn BLOCK data)); consts; lia).
    destruct (Nat.ltb_spec (length (firstn BLOCK data)) BLOCK) as [L|L].
    + rewrite firstn_length in L. rewrite firstn_all2 by lia. reflexivity.
    + rewrite firstn_length in L. assert (BLOCK <= length data)%nat by lia.
      pose proof (f_equal (@length Z) (firstn_skipn BLOCK data)) as E. rewrite app_length in E.
      assert (E2 : zlen (firstn BLOCK data) + zlen (skipn BLOCK data) = zlen data) by (unfold zlen; lia).
      rewrite IH.
      * rewrite <- app_assoc, firstn_skipn. f_equal. f_equal. lia.
      * pose proof (zlen_nn (firstn BLOCK data)). lia.
      * lia.
      * rewrite skipn_length. lia.
Qed.

Lemma add_part_spec : forall cur out e, in_range e -> 0 <= cur <= p_addr e -> p_addr e - cur < 2 ^ 31 - 1 ->
  add_part (cur, out) e = Some (p_end e, out ++ repeat FILL (Z.to_nat (p_addr e - cur)) ++ p_data e).
Proof.
  intros cur out e (R1 & R2) Hc Hg. unfold add_part, p_end. pose proof (zlen_nn (p_data e)).
  rewrite Z.mod_small by (consts; lia).
  destruct (Z.ltb_spec 0 (p_addr e - cur)) as [L|L].
  - destruct (Z.ltb_spec (p_addr e - cur) INT_HI) as [L2|L2]; [|consts; lia]. cbn [andb].
    destruct (fill_blocks_spec (Z.to_nat (p_addr e - cur)) cur (p_addr e) out ltac:(lia) ltac:(lia) ltac:(lia)) as (k & E & K).
    rewrite E, fill_bytes_spec by lia. rewrite copy_file_spec by (lia || auto). f_equal. f_equal.
    rewrite <- !app_assoc. f_equal. rewrite app_assoc, <- repeat_app. do 2 f_equal. lia.
  - cbn [andb]. replace cur with (p_addr e) by lia. rewrite Z.sub_diag. cbn [Z.to_nat repeat app].
    apply copy_file_spec; lia || auto.
Qed.

(** A gap too large for the test in front of the fill loop. *)
Lemma add_part_far : forall cur out e, in_range e -> 0 <= cur -> 2 ^ 31 - 1 <= p_addr e - cur ->
  add_part (cur, out) e = Some (cur + zlen (p_data e), out ++ p_data e).
Proof.
  intros cur out e (R1 & R2) Hc Hg. unfold add_part. pose proof (zlen_nn (p_data e)).
  rewrite Z.mod_small by (consts; lia).
  destruct (Z.ltb_spec (p_addr e - cur) INT_HI) as [L2|L2]; [consts; lia|]. rewrite andb_false_r.
  apply copy_file_spec; consts; lia || auto.
Qed.

(** The file so far: [ds] are the parts in it. *)
Definition so_far (b : Z) (ds : list part_in) (cur : Z) (out : list Z) : Prop :=
  b + zlen out = cur /\
  (forall e i, In e ds -> 0 <= i < zlen (p_data e) ->
     b <= p_addr e + i < cur /\ at_addr b out (p_addr e + i) = nth (Z.to_nat i) (p_data e) 0) /\
  (forall a, b <= a < cur -> (forall e, In e ds -> ~ covers e a) -> at_addr b out a = 255).

Lemma at_app1 : forall b out x a, b <= a < b + zlen out -> at_addr b (out ++ x) a = at_addr b out a.
Proof. intros b out x a H. unfold at_addr. unfold zlen in H. rewrite app_nth1 by lia. reflexivity. Qed.
Lemma at_app2 : forall b out x a, b + zlen out <= a -> at_addr b (out ++ x) a = at_addr (b + zlen out) x a.
Proof.
  intros b out x a H. unfold at_addr. unfold zlen in *. rewrite app_nth2 by lia. f_equal. lia.
Qed.
Lemma zlen_app' : forall (x y : list Z), zlen (x ++ y) = zlen x + zlen y.
Proof. intros. unfold zlen. rewrite app_length. lia. Qed.
Lemma zlen_rep : forall (v : Z) n, 0 <= n -> zlen (repeat v (Z.to_nat n)) = n.
Proof. intros. unfold zlen. rewrite repeat_length. lia. Qed.

Lemma so_far_add : forall b ds cur out e, so_far b ds cur out -> cur <= p_addr e -> 
  so_far b (e :: ds) (p_end e) (out ++ repeat FILL (Z.to_nat (p_addr e - cur)) ++ p_data e).
Proof.
  intros b ds cur out e (S1 & S2 & S3) Hc. pose proof (zlen_nn (p_data e)) as Ln. pose proof (zlen_nn out) as Lo.
  assert (Lr : zlen (repeat FILL (Z.to_nat (p_addr e - cur))) = p_addr e - cur) by (apply zlen_rep; lia).
  unfold p_end. split; [rewrite !zlen_app', Lr; lia|]. split.
  - intros e0 i [<-|Hin] Hi.
    + split; [lia|]. rewrite at_app2 by lia. rewrite at_app2 by lia. unfold at_addr.
      rewrite (nth_indep _ (-1) 0) by (unfold zlen in *; lia). f_equal. lia.
    + destruct (S2 e0 i Hin Hi) as (A1 & A2). split; [lia|]. rewrite at_app1 by lia. exact A2.
  - intros a Ha Hn. destruct (Z.lt_ge_cases a cur) as [L|L].
    + rewrite at_app1 by lia. apply S3; [lia|]. intros e0 H0. apply Hn. right. exact H0.
    + rewrite at_app2 by lia. destruct (Z.lt_ge_cases a (p_addr e)) as [L2|L2].
      * rewrite at_app1 by lia. unfold at_addr. rewrite (nth_indep _ (-1) FILL) by (rewrite repeat_length; lia). apply nth_repeat.
      * exfalso. apply (Hn e (or_introl eq_refl)). unfold covers. lia.
Qed.

Lemma so_far_ext : forall b ds ds' cur out, (forall e, In e ds <-> In e ds') -> so_far b ds cur out -> so_far b ds' cur out.
Proof.
  intros b ds ds' cur out H (S1 & S2 & S3). split; [exact S1|]. split.
  - intros e i He. apply S2, H, He.
  - intros a Ha Hn. apply S3; [exact Ha|]. intros e He. apply Hn, H, He.
Qed.

Lemma no_overlap_cons : forall e e' r, in_range e -> no_overlap (e :: e' :: r) = true -> p_end e <= p_addr e' /\ no_overlap (e' :: r) = true.
Proof.
  intros e e' r (R1 & R2) H. cbn [no_overlap] in H. pose proof (zlen_nn (p_data e)).
  rewrite Z.mod_small in H by (consts; lia). unfold p_end.
  destruct (Z.gtb_spec (p_addr e + zlen (p_data e)) (p_addr e')) as [L|L]; [discriminate H|auto].
Qed.

Lemma add_parts_spec : forall all b es ds prev out, close all -> lowest all b -> (forall e, In e all -> in_range e) ->
  (forall e, In e all <-> In e ds \/ In e es) -> In prev ds -> (forall e, In e ds -> p_end e <= p_end prev) ->
  so_far b ds (p_end prev) out -> ascending (prev :: es) -> no_overlap (prev :: es) = true ->
  exists t out', add_parts (p_end prev, out) es = Some (t, out') /\ so_far b all t out' /\ highest all t.
Proof.
  intros all b es. induction es as [|e r IH]; intros ds prev out HC HL HR HA HP HM HS Has Hno.
  - exists (p_end prev), out. split; [reflexivity|]. split.
    + apply (so_far_ext b ds); [|exact HS]. intro e. rewrite HA. cbn [In]. tauto.
    + split; [exists prev; split; [apply HA; auto|reflexivity]|]. intros e He. apply HA in He. destruct He as [He|[]]. apply HM, He.
  - assert (He : In e all) by (apply HA; right; left; reflexivity).
    assert (Hp : In prev all) by (apply HA; left; exact HP).
    destruct (no_overlap_cons prev e r (HR prev Hp) Hno) as (Hle & Hno').
    destruct Has as (As0 & As1 & As2).
    pose proof (HR prev Hp) as (P1 & P2). pose proof (zlen_nn (p_data prev)) as Lp. pose proof (zlen_nn (p_data e)) as Le.
    assert (Hg : p_addr e - p_end prev < 2 ^ 31 - 1).
    { destruct (HC e He) as [(_ & Lo)|(e' & H1 & H2 & H3)].
      - specialize (Lo prev Hp). unfold p_end in *. consts. lia.
      - assert (In e' ds) as Hd.
        { apply HA in H1. destruct H1 as [H1|[<-|H1]]; [exact H1|lia|]. specialize (As1 e' H1). lia. }
        specialize (HM e' Hd). unfold p_end in *. consts. lia. }
    cbn [add_parts]. rewrite add_part_spec; [|apply HR, He|unfold p_end in *; lia|exact Hg].
    apply (IH (e :: ds) e); auto.
    + intro x. rewrite HA. cbn [In]. tauto.
    + left. reflexivity.
    + intros x [<-|Hx]; [lia|]. specialize (HM x Hx). unfold p_end in *. lia.
    + apply so_far_add; assumption.
    + split; assumption.
Qed.

Lemma perm_lowest : forall es es' b, Permutation es es' -> lowest es b -> lowest es' b.
Proof.
  intros es es' b P ((e & He & E) & H). split; [exists e; split; [eapply Permutation_in; eauto|exact E]|].
  intros e' H'. apply H. eapply Permutation_in; [apply Permutation_sym, P|exact H'].
Qed.

Lemma made_factory : forall es es' out, sorted_of es es' -> (forall e, In e es -> in_range e) -> close es ->
  assemble es' = Made out -> factory es out.
Proof.
  intros es es' out (P & As) HR HC E. unfold assemble in E. destruct (no_overlap es') eqn:Hno; [|discriminate E].
  destruct es' as [|e r]; [discriminate E|].
  assert (PI : forall x, In x es <-> In x (e :: r)).
  { intro x. split; apply Permutation_in; [exact P|apply Permutation_sym, P]. }
  assert (He : In e es) by (apply PI; left; reflexivity).
  assert (HL : lowest es (p_addr e)).
  { split; [exists e; auto|]. intros x Hx. apply PI in Hx. destruct Hx as [<-|Hx]; [lia|]. apply (proj1 As), Hx. }
  pose proof (HR e He) as (R1 & R2).
  cbn [add_parts] in E. rewrite add_part_spec in E; [|apply HR, He|lia|rewrite Z.sub_diag; reflexivity].
  rewrite Z.sub_diag in E. cbn [Z.to_nat repeat app] in E.
  assert (S0 : so_far (p_addr e) [e] (p_end e) (p_data e)).
  { unfold p_end. split; [reflexivity|]. split.
    - intros x i [<-|[]] Hi. split; [lia|]. unfold at_addr. rewrite (nth_indep _ (-1) 0) by (unfold zlen in *; lia). f_equal. lia.
    - intros a Ha Hn. exfalso. apply (Hn e (or_introl eq_refl)). exact Ha. }
  destruct (add_parts_spec es (p_addr e) r [e] e (p_data e) HC HL HR) as (t & out' & E2 & (S1 & S2 & S3) & HH);
    [intro x; rewrite PI; cbn [In]; tauto|left; reflexivity|intros x [<-|[]]; lia|exact S0|exact As|exact Hno|].
  rewrite E2 in E. injection E as <-.
  exists (p_addr e), t. split; [exact HL|]. split; [exact HH|]. split; [lia|]. split; [|exact S3].
  intros x i Hx Hi. apply S2; assumption.
Qed.

(** The tool does not run out of fuel. *)
Lemma assemble_total : forall es es', sorted_of es es' -> (forall e, In e es -> in_range e) -> close es -> assemble es' <> Out_of_fuel.
Proof.
  intros es es' (P & As) HR HC E. unfold assemble in E. destruct (no_overlap es') eqn:Hno; [|discriminate E].
  destruct es' as [|e r]; [discriminate E|].
  assert (PI : forall x, In x es <-> In x (e :: r)).
  { intro x. split; apply Permutation_in; [exact P|apply Permutation_sym, P]. }
  assert (He : In e es) by (apply PI; left; reflexivity).
  assert (HL : lowest es (p_addr e)).
  { split; [exists e; auto|]. intros x Hx. apply PI in Hx. destruct Hx as [<-|Hx]; [lia|]. apply (proj1 As), Hx. }
  pose proof (HR e He) as (R1 & R2).
  cbn [add_parts] in E. rewrite add_part_spec in E; [|apply HR, He|lia|rewrite Z.sub_diag; reflexivity].
  rewrite Z.sub_diag in E. cbn [Z.to_nat repeat app] in E.
  assert (S0 : so_far (p_addr e) [e] (p_end e) (p_data e)).
  { unfold p_end. split; [reflexivity|]. split.
    - intros x i [<-|[]] Hi. split; [lia|]. unfold at_addr. rewrite (nth_indep _ (-1) 0) by (unfold zlen in *; lia). f_equal. lia.
    - intros a Ha Hn. exfalso. apply (Hn e (or_introl eq_refl)). exact Ha. }
  destruct (add_parts_spec es (p_addr e) r [e] e (p_data e) HC HL HR) as (t & out' & E2 & _);
    [intro x; rewrite PI; cbn [In]; tauto|left; reflexivity|intros x [<-|[]]; lia|exact S0|exact As|exact Hno|].
  rewrite E2 in E. discriminate E.
Qed.

(** ** Overlaps *)

Lemma apart_perm : forall es es', Permutation es es' -> apart es -> apart es'.
Proof.
  intros es es' P. induction P as [|x l l' P IH|x y l|l1 l2 l3 P1 IH1 P2 IH2]; intro H.
  - exact H.
  - inversion H as [|? ? H1 H2]. subst. constructor; [|apply IH, H2].
    apply Forall_forall. intros y Hy. rewrite Forall_forall in H1. apply H1. eapply Permutation_in; [apply Permutation_sym, P|exact Hy].
  - inversion H as [|? ? H1 H2]. subst. inversion H1 as [|? ? K1 K2]. subst. inversion H2 as [|? ? L1 L2]. subst.
    constructor; [constructor; [intros a A1 A2; exact (K1 a A2 A1)|exact L1]|]. constructor; assumption.
  - apply IH2, IH1, H.
Qed.

Lemma no_overlap_apart : forall es, (forall e, In e es -> in_range e /\ p_data e <> []) -> ascending es ->
  (no_overlap es = true <-> apart es).
Proof.
  induction es as [|e r IH]; intros HR As; [split; [constructor|reflexivity]|].
  destruct As as (A1 & A2). assert (HR' : forall x, In x r -> in_range x /\ p_data x <> []) by (intros; apply HR; right; assumption).
  specialize (IH HR' A2). destruct r as [|e' r'].
  { split; intros; [constructor; constructor|reflexivity]. }
  destruct (HR e (or_introl eq_refl)) as ((R1 & R2) & Rn).
  assert (Le : 0 < zlen (p_data e)) by (destruct (p_data e); [congruence|unfold zlen; cbn; lia]).
  split; intro H.
  - destruct (no_overlap_cons e e' r' (conj R1 R2) H) as (Hle & Hno). constructor; [|apply IH, Hno].
    apply Forall_forall. intros x Hx a Ca Cx. unfold covers, p_end in *.
    assert (p_addr e' <= p_addr x) by (destruct Hx as [<-|Hx]; [lia|apply (proj1 A2), Hx]). lia.
  - inversion H as [|? ? H1 H2]. subst. cbn [no_overlap]. rewrite Z.mod_small by (consts; lia).
    destruct (Z.gtb_spec (p_addr e + zlen (p_data e)) (p_addr e')) as [L|L]; [exfalso|apply IH, H2].
    inversion H1 as [|? ? K1 K2]. subst. apply (K1 (p_addr e')).
    + unfold covers. specialize (A1 e' (or_introl eq_refl)). lia.
    + destruct (HR' e' (or_introl eq_refl)) as (_ & Rn').
      assert (0 < zlen (p_data e')) by (destruct (p_data e'); [congruence|unfold zlen; cbn; lia]). unfold covers. lia.
Qed.

(** ** Numbers *)

Lemma digits_all : forall b ds acc s, (forall d, In d ds -> 0 <= d < b) -> 2 <= b <= 16 ->
  (match s with [] => True | ch :: _ => b <= digit_of ch end) ->
  digits b acc (map hex_digit ds ++ s) = (fold_left (fun v d => v * b + d) ds acc, s).
Proof.
  intros b ds. induction ds as [|d r IH]; intros acc s Hd Hb Hs; cbn [map app fold_left].
  - destruct s as [|ch s]; [reflexivity|]. cbn [digits]. destruct (Z.ltb_spec (digit_of ch) b); [lia|reflexivity].
  - assert (D : digit_of (hex_digit d) = d).
    { specialize (Hd d (or_introl eq_refl)). unfold hex_digit, digit_of. destruct (Z.ltb_spec d 10) as [L|L].
      - destruct (Z.leb_spec 48 (48 + d)); [|lia]. destruct (Z.leb_spec (48 + d) 57); [|lia]. cbn [andb]. lia.
      - destruct (Z.leb_spec 48 (87 + d)); [|lia]. destruct (Z.leb_spec (87 + d) 57); [lia|]. cbn [andb].
        destruct (Z.leb_spec 97 (87 + d)); [|lia]. destruct (Z.leb_spec (87 + d) 122); [|lia]. cbn [andb]. lia. }
    cbn [digits]. rewrite D. pose proof (Hd d (or_introl eq_refl)). destruct (Z.ltb_spec d b); [|lia].
    apply IH; auto. intros x Hx. apply Hd. right. exact Hx.
Qed.

Lemma value_nn : forall b ds acc, 0 <= b -> 0 <= acc -> (forall d, In d ds -> 0 <= d) -> 0 <= fold_left (fun v d => v * b + d) ds acc.
Proof.
  intros b ds. induction ds as [|d r IH]; intros acc Hb Ha Hd; cbn [fold_left]; [exact Ha|].
  apply IH; [exact Hb| |intros x Hx; apply Hd; right; exact Hx].
  specialize (Hd d (or_introl eq_refl)). assert (0 <= acc * b) by (apply Z.mul_nonneg_nonneg; assumption). lia.
Qed.
