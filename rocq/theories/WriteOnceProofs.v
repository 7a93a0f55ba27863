(** Proofs about the two-sector trailer. *)
From Verif Require Import Base BaseLemmas HeaderModel Flash FlashLemmas ImageModel TrailerModel Geometry TrailerProofs CopyProofs WriteOnceModel WriteOnceSpec.
Local Ltac Zify.zify_post_hook ::= idtac.

Fixpoint wq {A} (p : prog A) (Q : A -> flash -> Prop) (C : flash -> Prop) (f : flash) : Prop :=
  match p with
  | Ret a => C f /\ Q a f
  | Rd r => wq (r f) Q C f
  | Er a n k => C f /\ (forall g, byte_erase a n f g -> C g) /\ wq k Q C (erase f a n)
  | Wr a n d k => C f /\ (forall g, seq_write a n d f g -> C g) /\ wq k Q C (write f a n d)
  | Panic => False
  | Stuck => False
  end.

Lemma wq_run : forall A (p : prog A) Q C f, wq p Q C f -> exists a f', run p f = Done a f' /\ Q a f'.
Proof.
  induction p as [a|r IH|a n p IH|a n d p IH| |]; intros Q C f H; cbn [wq run] in *; try contradiction.
  - destruct H. eauto.
  - eauto.
  - destruct H as (_ & _ & H). eauto.
  - destruct H as (_ & _ & H). eauto.
Qed.

Lemma wq_cut : forall A (p : prog A) Q C f g, wq p Q C f -> cut p f g -> C g.
Proof.
  induction p as [a|r IH|a n p IH|a n d p IH| |]; intros Q C f g H E; cbn [wq cut] in *; try contradiction.
  - subst. apply H.
  - exact (IH f _ _ _ _ H E).
  - destruct H as (H1 & H2 & H3). destruct E as [->|[E|E]]; [exact H1|exact (H2 _ E)|exact (IH _ _ _ _ H3 E)].
  - destruct H as (H1 & H2 & H3). destruct E as [->|[E|E]]; [exact H1|exact (H2 _ E)|exact (IH _ _ _ _ H3 E)].
Qed.

Lemma wq_bind : forall A B (p : prog A) (k : A -> prog B) Q C f,
  wq p (fun a f' => wq (k a) Q C f') C f -> wq (bind p k) Q C f.
Proof.
  induction p as [a|r IH|a n p IH|a n d p IH| |]; intros k Q C f H; cbn [wq bind] in *; try contradiction.
  - apply H.
  - apply IH, H.
  - destruct H as (H1 & H2 & H3). auto.
  - destruct H as (H1 & H2 & H3). auto.
Qed.

Lemma wq_conseq : forall A (p : prog A) (Q Q' : A -> flash -> Prop) (C C' : flash -> Prop) f,
  wq p Q C f -> (forall a g, Q a g -> Q' a g) -> (forall g, C g -> C' g) -> wq p Q' C' f.
Proof.
  induction p as [a|r IH|a n p IH|a n d p IH| |]; intros Q Q' C C' f H HQ HC; cbn [wq] in *; try contradiction.
  - destruct H; auto.
  - exact (IH f _ _ _ _ _ H HQ HC).
  - destruct H as (H1 & H2 & H3). split; [auto|]. split; [auto|]. eapply IH; eauto.
  - destruct H as (H1 & H2 & H3). split; [auto|]. split; [auto|]. eapply IH; eauto.
Qed.

Lemma wq_get : forall A (h : flash -> A) (Q : A -> flash -> Prop) (C : flash -> Prop) f, C f -> Q (h f) f -> wq (get h) Q C f.
Proof. intros. cbn [wq get]. auto. Qed.

(** ** Selection *)

Section Nvm.
  Variables (c : cfg) (p : part).
  Hypothesis G : geometry c.
  Hypothesis Al : aligned c p.

  (** Copies 0 and 1. *)
  Let ed (s : Z) : Z := end_of c p - SECT c * s.
  Definition cp (f : flash) (s : Z) (T : list Z) : Prop := copy_at c f (ed s) T.
  Definition bit (s : Z) : Prop := s = 0 \/ s = 1.

  Lemma at_ed : forall s off, at_ c p s off = ed s - off.
  Proof. intros. unfold at_, ed. lia. Qed.

  Definition magic (f : flash) (s : Z) : Prop := word f (ed s - 4) = WOLFBOOT_MAGIC_TRAIL.

  (** [f'] agrees with [f] on copy [s]; on the other copy bytes may have been erased. *)
  Definition fades (f f' : flash) (s : Z) : Prop :=
    (forall off, 0 < off <= SECT c -> f' (ed s - off) = f (ed s - off)) /\
    (forall off, 0 < off <= SECT c -> f' (ed (1 - s) - off) = f (ed (1 - s) - off) \/ f' (ed (1 - s) - off) = 255).

  Lemma sel_bit : forall f, bit (nvm_sel c f p).
  Proof.
    intro f. unfold nvm_sel, bit. cbn zeta.
    assert (K : forall n off, sel_loop n c f p off = 0 \/ sel_loop n c f p off = 1).
    { induction n as [|n IH]; intro off; cbn [sel_loop]; auto. repeat (destruct (_ && _); auto). destruct (_ <? _); auto. }
    repeat (destruct (_ && _); auto).
  Qed.

  Lemma magic_bytes : forall f a, bytes f -> word f a = WOLFBOOT_MAGIC_TRAIL <->
    f a = 0x42 /\ f (a + 1) = 0x4F /\ f (a + 2) = 0x4F /\ f (a + 3) = 0x54.
  Proof.
    intros f a Hb. pose proof (Hb a). pose proof (Hb (a + 1)). pose proof (Hb (a + 2)). pose proof (Hb (a + 3)). unfold is_byte in *.
    unfold word, le32, WOLFBOOT_MAGIC_TRAIL. lia.
  Qed.

  Lemma sel_loop_fades : forall f f' n off, 4 < off -> off + Z.of_nat n <= SECT c + 1 -> forall s, bit s -> fades f f' s ->
    f' (ed (1 - s) - (off - 1)) = f (ed (1 - s) - (off - 1)) -> sel_loop n c f p off = s -> sel_loop n c f' p off = s.
  Proof.
    intros f f' n. induction n as [|n IH]; intros off Ho Hn s Hs (F1 & F2) Hp; cbn [sel_loop]; [auto|].
    rewrite !at_ed. pose proof (F1 off) as A1. pose proof (F2 off) as A2. pose proof (F1 (off - 1)) as A3.
    rewrite Nat2Z.inj_succ in Hn.
    specialize (A1 ltac:(lia)). specialize (A2 ltac:(lia)). specialize (A3 ltac:(lia)).
    assert (R : f' (ed (1 - s) - off) = f (ed (1 - s) - off) -> sel_loop n c f p (off + 1) = s -> sel_loop n c f' p (off + 1) = s).
    { intro E. apply IH; [lia|lia|exact Hs|split; assumption|]. replace (off + 1 - 1) with off by lia. exact E. }
    destruct Hs as [ -> | -> ]; cbn [Z.sub Z.opp Z.add Z.pos_sub Pos.pred_double] in *; change (1 - 0) with 1 in *; change (1 - 1) with 0 in *.
    - rewrite A1, A3, Hp. destruct (Z.eqb_spec (f (ed 0 - off)) 255) as [E0|E0], (Z.eqb_spec (f (ed 1 - off)) 255) as [E1|E1]; cbn [andb negb]; try discriminate.
      + replace (f' (ed 1 - off)) with 255 by (destruct A2; congruence). cbn [andb negb Z.eqb Pos.eqb]. auto.
      + replace (f' (ed 1 - off)) with 255 by (destruct A2; congruence). cbn [andb negb Z.eqb Pos.eqb]. auto.
      + destruct (Z.eqb_spec (f' (ed 1 - off)) 255) as [E|E]; cbn [andb negb]; [auto|]. apply R. destruct A2; congruence.
    - rewrite A1, A3, Hp. destruct (Z.eqb_spec (f (ed 0 - off)) 255) as [E0|E0], (Z.eqb_spec (f (ed 1 - off)) 255) as [E1|E1]; cbn [andb negb]; try discriminate.
      + replace (f' (ed 0 - off)) with 255 by (destruct A2; congruence). cbn [andb negb Z.eqb Pos.eqb]. auto.
      + replace (f' (ed 0 - off)) with 255 by (destruct A2; congruence). cbn [andb negb Z.eqb Pos.eqb]. auto.
      + destruct (Z.eqb_spec (f' (ed 0 - off)) 255) as [E|E]; cbn [andb negb]; [auto|]. apply R. destruct A2; congruence.
  Qed.

  Lemma sect_pos : 8 <= SECT c.
  Proof. destruct (g_sect c G). assumption. Qed.

  Lemma bit_other : forall s, bit s -> bit (1 - s).
  Proof. unfold bit. lia. Qed.

  Lemma sel_only : forall f s, bit s -> magic f s -> ~ magic f (1 - s) -> nvm_sel c f p = s.
  Proof.
    intros f s Hs M N. unfold nvm_sel, magic in *. cbn zeta. rewrite !at_ed.
    destruct Hs as [ -> | -> ]; cbn [Z.sub Z.opp Z.add Z.pos_sub Pos.pred_double] in N; change (1 - 0) with 1 in N; change (1 - 1) with 0 in N;
      apply Z.eqb_eq in M; apply Z.eqb_neq in N; rewrite M, N; reflexivity.
  Qed.

  (** With both magics, the loop starts at the state byte. *)
  Lemma sel_both : forall f, bytes f -> magic f 0 -> magic f 1 -> nvm_sel c f p = sel_loop (Z.to_nat (SECT c - 5)) c f p 5.
  Proof.
    intros f Hb M0 M1. unfold nvm_sel. cbn zeta. rewrite !at_ed. unfold magic in *.
    rewrite (proj2 (Z.eqb_eq _ _) M0), (proj2 (Z.eqb_eq _ _) M1). cbn [andb negb].
    pose proof sect_pos. replace (Z.to_nat (SECT c - 4)) with (S (Z.to_nat (SECT c - 5))) by lia. cbn [sel_loop]. rewrite !at_ed.
    apply (magic_bytes f _ Hb) in M0. apply (magic_bytes f _ Hb) in M1. rewrite (proj1 M0), (proj1 M1). reflexivity.
  Qed.

  Lemma both_magic : forall f s, bit s -> magic f s -> magic f (1 - s) -> magic f 0 /\ magic f 1.
  Proof. intros f s [ -> | -> ] A B; auto. Qed.

  Lemma fades_magic : forall f f' s, bytes f -> bytes f' -> fades f f' s -> magic f s -> magic f' s.
  Proof.
    intros f f' s Hb Hb' (F1 & _) M. unfold magic in *. rewrite <- M. apply word_ext. intros j Hj.
    pose proof sect_pos. replace (ed s - 4 + j) with (ed s - (4 - j)) by lia. apply F1. lia.
  Qed.

  Lemma fades_other : forall f f' s, bytes f -> bytes f' -> fades f f' s -> magic f' (1 - s) ->
    magic f (1 - s) /\ f' (ed (1 - s) - 4) = f (ed (1 - s) - 4).
  Proof.
    intros f f' s Hb Hb' (_ & F2) M. pose proof sect_pos. unfold magic in *. apply (magic_bytes f' _ Hb') in M.
    destruct M as (M0 & M1 & M2 & M3).
    pose proof (F2 4 ltac:(lia)) as A0. pose proof (F2 3 ltac:(lia)) as A1. pose proof (F2 2 ltac:(lia)) as A2. pose proof (F2 1 ltac:(lia)) as A3.
    replace (ed (1 - s) - 4 + 1) with (ed (1 - s) - 3) in M1 by lia. replace (ed (1 - s) - 4 + 2) with (ed (1 - s) - 2) in M2 by lia.
    replace (ed (1 - s) - 4 + 3) with (ed (1 - s) - 1) in M3 by lia.
    destruct A0 as [A0|A0]; [|lia]. destruct A1 as [A1|A1]; [|lia]. destruct A2 as [A2|A2]; [|lia]. destruct A3 as [A3|A3]; [|lia].
    split; [|exact A0]. apply (magic_bytes f _ Hb). replace (ed (1 - s) - 4 + 1) with (ed (1 - s) - 3) by lia.
    replace (ed (1 - s) - 4 + 2) with (ed (1 - s) - 2) by lia. replace (ed (1 - s) - 4 + 3) with (ed (1 - s) - 1) by lia. lia.
  Qed.

  Lemma magic_dec : forall f s, magic f s \/ ~ magic f s.
  Proof. intros. unfold magic. destruct (Z.eq_dec (word f (ed s - 4)) WOLFBOOT_MAGIC_TRAIL); auto. Qed.

  Lemma sel_keep : forall f f' s, bytes f -> bytes f' -> bit s -> magic f s -> nvm_sel c f p = s -> fades f f' s -> nvm_sel c f' p = s.
  Proof.
    intros f f' s Hb Hb' Hs M E F. pose proof (fades_magic _ _ _ Hb Hb' F M) as M'.
    destruct (magic_dec f' (1 - s)) as [O'|O']; [|apply sel_only; assumption].
    destruct (fades_other _ _ _ Hb Hb' F O') as (O & E4).
    destruct (both_magic f s Hs M O) as (A & B). destruct (both_magic f' s Hs M' O') as (A' & B').
    rewrite (sel_both f Hb A B) in E. rewrite (sel_both f' Hb' A' B').
    apply (sel_loop_fades f); try assumption; [lia|pose proof sect_pos; lia].
  Qed.

  Lemma same_copy : forall f f' s T, (forall off, 0 < off <= SECT c -> f' (ed s - off) = f (ed s - off)) -> cp f s T -> cp f' s T.
  Proof.
    intros f f' s T F1 (M & K). pose proof sect_pos. split.
    - rewrite <- M. apply word_ext. intros j Hj. replace (ed s - 4 + j) with (ed s - (4 - j)) by lia. apply F1. lia.
    - intros i Hi. rewrite <- K by exact Hi. replace (ed s - 5 - i) with (ed s - (5 + i)) by lia. apply F1. lia.
  Qed.

  Lemma fades_copy : forall f f' s T, fades f f' s -> cp f s T -> cp f' s T.
  Proof. intros f f' s T (F1 & _). apply same_copy, F1. Qed.

  (** Copy [s] is complete and selected. *)
  Definition ge (f : flash) (s : Z) (T : list Z) : Prop := bytes f /\ bit s /\ cp f s T /\ nvm_sel c f p = s.

  Lemma ge_fades : forall f f' s T, ge f s T -> bytes f' -> fades f f' s -> ge f' s T.
  Proof.
    intros f f' s T (Hb & Hs & K & E) Hb' F. split; [exact Hb'|]. split; [exact Hs|]. split; [eapply fades_copy; eauto|].
    eapply (sel_keep f f'); eauto. apply K.
  Qed.

  Lemma ge_only : forall f s T, bytes f -> bit s -> cp f s T -> ~ magic f (1 - s) -> ge f s T.
  Proof. intros f s T Hb Hs K N. split; [exact Hb|]. split; [exact Hs|]. split; [exact K|]. apply sel_only; auto. apply K. Qed.

  Lemma ge_both : forall f s T T', bytes f -> bit s -> cp f s T -> cp f (1 - s) T' -> ge f s T \/ ge f (1 - s) T'.
  Proof.
    intros f s T T' Hb Hs K K'. pose proof (sel_bit f) as B. destruct (Z.eq_dec (nvm_sel c f p) s) as [E|E].
    - left. split; [exact Hb|]. auto.
    - right. split; [exact Hb|]. split; [apply bit_other, Hs|]. split; [exact K'|]. unfold bit in *. lia.
  Qed.

  (** The loop prefers the copy whose bytes last longer. *)
  Lemma loop_prefers : forall f s i n off, bit s -> 5 <= off <= 5 + i -> 5 + i < off + Z.of_nat n ->
    (forall j, 0 <= j <= i -> f (ed s - (5 + j)) <> 255) -> (forall j, 0 <= j < i -> f (ed (1 - s) - (5 + j)) <> 255) ->
    f (ed (1 - s) - (5 + i)) = 255 -> sel_loop n c f p off = s.
  Proof.
    intros f s i n. induction n as [|n IH]; intros off Hs Ho Hn H1 H2 H3; [lia|]. cbn [sel_loop]. rewrite !at_ed.
    assert (R : off < 5 + i -> sel_loop n c f p (off + 1) = s) by (intro; apply IH; auto; lia).
    pose proof (H1 (off - 5) ltac:(lia)) as A. replace (5 + (off - 5)) with off in A by lia.
    destruct (Z.eq_dec off (5 + i)) as [E|E].
    - subst off. destruct Hs as [ -> | -> ]; change (1 - 0) with 1 in *; change (1 - 1) with 0 in *; rewrite H3;
        apply Z.eqb_neq in A; rewrite A; reflexivity.
    - pose proof (H2 (off - 5) ltac:(lia)) as B. replace (5 + (off - 5)) with off in B by lia.
      apply Z.eqb_neq in A. apply Z.eqb_neq in B.
      destruct Hs as [ -> | -> ]; change (1 - 0) with 1 in *; change (1 - 1) with 0 in *; rewrite A, B; cbn [andb negb]; apply R; lia.
  Qed.

  (** Either [P] holds below [n] or there is a first exception. *)
  Lemma first_exception : forall (P : Z -> Prop), (forall j, P j \/ ~ P j) -> forall n, (forall j, 0 <= j < Z.of_nat n -> P j) \/
    exists i, 0 <= i < Z.of_nat n /\ ~ P i /\ forall j, 0 <= j < i -> P j.
  Proof.
    intros P D. induction n as [|n IH]; [left; lia|]. destruct IH as [H|(i & Hi & N & K)].
    - destruct (D (Z.of_nat n)) as [Y|N].
      + left. intros j Hj. destruct (Z.eq_dec j (Z.of_nat n)); [subst; auto|apply H; lia].
      + right. exists (Z.of_nat n). split; [lia|]. split; [exact N|]. exact H.
    - right. exists i. split; [lia|]. auto.
  Qed.

  Lemma ok_nth : forall T i, trailer_ok c T -> 0 <= i < zlen T -> nth (Z.to_nat i) T 255 <> 255.
  Proof.
    intros T i (F & _) Hi. pose proof (proj1 (Forall_forall _ _) F (nth (Z.to_nat i) T 255)) as K.
    specialize (K ltac:(apply nth_In; unfold zlen in *; lia)). cbn beta in K. lia.
  Qed.

  (** While the old copy is erased, the new one (at least as long) or the intact old one is
      selected. *)
  Lemma old_fades : forall f f' s T T', bytes f -> bytes f' -> bit s -> trailer_ok c T -> trailer_ok c T' -> zlen T <= zlen T' ->
    cp f s T -> cp f (1 - s) T' -> fades f f' (1 - s) -> ge f' s T \/ ge f' (1 - s) T'.
  Proof.
    intros f f' s T T' Hb Hb' Hs O O' L K K' F. pose proof sect_pos as SP.
    pose proof (fades_copy f f' (1 - s) T' F K') as N.
    destruct F as (F1 & F2). replace (1 - (1 - s)) with s in F2 by lia.
    destruct (magic_dec f' s) as [M|M].
    2:{ right. apply ge_only; auto; [apply bit_other, Hs|]. replace (1 - (1 - s)) with s by lia. exact M. }
    destruct (first_exception (fun i => f' (ed s - (5 + i)) <> 255) ltac:(intro j; cbn beta; destruct (Z.eq_dec (f' (ed s - (5 + j))) 255); auto)
       (length T)) as [H|(i & Hi & E & H)].
    - assert (C' : cp f' s T).
      { split; [exact M|]. intros i Hi. destruct K as (_ & K). rewrite <- K by exact Hi.
        pose proof (F2 (5 + i) ltac:(lia)) as A. replace (ed s - (5 + i)) with (ed s - 5 - i) in A by lia. destruct A as [A|A]; [exact A|].
        rewrite A. rewrite K by exact Hi. destruct (Z.lt_ge_cases i (zlen T)) as [B|B].
        - exfalso. apply (H i); [unfold zlen in B; lia|]. replace (ed s - (5 + i)) with (ed s - 5 - i) by lia. exact A.
        - symmetry. apply nth_overflow. unfold zlen in B. lia. }
      apply ge_both; assumption.
    - right. split; [exact Hb'|]. split; [apply bit_other, Hs|]. split; [exact N|].
      assert (E' : f' (ed s - (5 + i)) = 255) by (destruct (Z.eq_dec (f' (ed s - (5 + i))) 255); [assumption|contradiction]).
      destruct (both_magic f' s Hs M (proj1 N)) as (A & B). rewrite (sel_both f' Hb' A B).
      destruct O as (OT & OL). pose proof (bit_other s Hs) as Hs'. unfold zlen in *.
      apply (loop_prefers f' (1 - s) i); [exact Hs'|lia|lia| | |].
      + intros j Hj. replace (ed (1 - s) - (5 + j)) with (ed (1 - s) - 5 - j) by lia. destruct N as (_ & N). rewrite N by lia.
        apply ok_nth; [exact O'|unfold zlen; lia].
      + intros j Hj. replace (1 - (1 - s)) with s by lia. apply H, Hj.
      + replace (1 - (1 - s)) with s by lia. exact E'.
  Qed.

  (** ** Writing a new copy *)

  Lemma own : forall s off, 0 < off <= SECT c -> inr (ed s - SECT c) (SECT c) (ed s - off) = true.
  Proof. intros. apply inr_true. lia. Qed.

  Lemma ed_bit : forall s, bit s -> ed (1 - s) = ed s + SECT c \/ ed (1 - s) = ed s - SECT c.
  Proof. intros s [ -> | -> ]; unfold ed; cbn [Z.sub]; change (1 - 0) with 1; change (1 - 1) with 0; lia. Qed.

  Lemma away : forall s off, bit s -> 0 < off <= SECT c -> inr (ed (1 - s) - SECT c) (SECT c) (ed s - off) = false.
  Proof. intros s off Hs Ho. apply inr_false. pose proof (ed_bit s Hs). lia. Qed.

  Lemma torn_fades : forall f g s, bit s -> byte_erase (ed (1 - s) - SECT c) (SECT c) f g -> fades f g s.
  Proof.
    intros f g s Hs (_ & H). split; intros off Ho.
    - specialize (H (ed s - off)). rewrite (away s off Hs Ho) in H. exact H.
    - specialize (H (ed (1 - s) - off)). rewrite (own (1 - s) off Ho) in H. exact H.
  Qed.

  Lemma erase_torn : forall f a, bytes f -> byte_erase a (SECT c) f (erase f a (SECT c)).
  Proof. intros f a Hb. split; [apply bytes_erase, Hb|]. intro x. unfold erase. destruct (inr a (SECT c) x); auto. Qed.

  Lemma erased_copy : forall f s off, 0 < off <= SECT c -> erase f (ed s - SECT c) (SECT c) (ed s - off) = 255.
  Proof. intros f s off Ho. unfold erase. rewrite (own s off Ho). reflexivity. Qed.

  Lemma no_magic_last : forall f s, bytes f -> f (ed s - 1) = 255 -> ~ magic f s.
  Proof.
    intros f s Hb E M. apply (magic_bytes f _ Hb) in M. replace (ed s - 4 + 3) with (ed s - 1) in M by lia. lia.
  Qed.

  Lemma select_wq : forall f s T (Q : Z -> flash -> Prop) (C : flash -> Prop), ge f s T -> (forall g, ge g s T -> C g) ->
    (forall g, ge g s T -> ~ magic g (1 - s) -> Q s g) -> wq (select c p) Q C f.
  Proof.
    intros f s T Q C K HC HQ. pose proof sect_pos as SP. destruct K as (Hb & Hs & K & E).
    unfold select. apply wq_bind. cbn [wq get]. rewrite E.
    assert (Kf : ge f s T) by (split; [exact Hb|]; split; [exact Hs|]; split; assumption).
    assert (EA : part_addr c p + PART c - SECT c - SECT c * (1 - s) = ed (1 - s) - SECT c) by (unfold ed, end_of; lia).
    split; [apply HC, Kf|]. cbn zeta. rewrite EA. apply wq_bind. cbn [wq get]. split; [apply HC, Kf|].
    replace (ed (1 - s) - SECT c + SECT c - 4) with (ed (1 - s) - 4) by lia.
    destruct (Z.eqb_spec (word f (ed (1 - s) - 4)) (2 ^ 32 - 1)) as [W|W]; apply wq_bind.
    - cbn [wq]. split; [apply HC, Kf|]. split; [apply HC, Kf|]. apply HQ; [exact Kf|]. unfold magic. rewrite W. discriminate.
    - cbn [wq]. split; [apply HC, Kf|]. split.
      + intros g Hg. apply HC. apply (ge_fades f); [exact Kf|apply Hg|apply torn_fades; assumption].
      + pose proof (erase_torn f (ed (1 - s) - SECT c) Hb) as Et.
        assert (Kg : ge (erase f (ed (1 - s) - SECT c) (SECT c)) s T) by (apply (ge_fades f); [exact Kf|apply Et|apply torn_fades; assumption]).
        split; [apply HC, Kg|]. split; [apply HC, Kg|]. apply HQ; [exact Kg|]. apply no_magic_last; [apply Et|].
        apply erased_copy. lia.
  Qed.

  (** A copy of trailer [T], as the list of bytes of the sector. *)
  Definition sector_of (d : Z -> Z) (T : list Z) : Prop :=
    (forall i, 0 <= i < SECT c -> is_byte (d i)) /\
    d (SECT c - 4) = 0x42 /\ d (SECT c - 3) = 0x4F /\ d (SECT c - 2) = 0x4F /\ d (SECT c - 1) = 0x54 /\
    forall i, 0 <= i < SECT c - 4 -> d (SECT c - 5 - i) = nth (Z.to_nat i) T 255.

  Lemma sector_cp : forall f s d T, bytes f -> sector_of d T -> (forall i, 0 <= i < SECT c -> f (ed s - SECT c + i) = d i) -> cp f s T.
  Proof.
    intros f s d T Hb (_ & D0 & D1 & D2 & D3 & D) H. pose proof sect_pos. split.
    - apply (magic_bytes f _ Hb). replace (ed s - 4) with (ed s - SECT c + (SECT c - 4)) by lia.
      replace (ed s - SECT c + (SECT c - 4) + 1) with (ed s - SECT c + (SECT c - 3)) by lia.
      replace (ed s - SECT c + (SECT c - 4) + 2) with (ed s - SECT c + (SECT c - 2)) by lia.
      replace (ed s - SECT c + (SECT c - 4) + 3) with (ed s - SECT c + (SECT c - 1)) by lia.
      rewrite !H by lia. auto.
    - intros i Hi. rewrite <- D by exact Hi. rewrite <- H by lia. f_equal. lia.
  Qed.

  Lemma cp_sector : forall f s T, bytes f -> cp f s T -> sector_of (fun i => f (ed s - SECT c + i)) T.
  Proof.
    intros f s T Hb (M & K). pose proof sect_pos. apply (magic_bytes f _ Hb) in M.
    replace (ed s - 4 + 1) with (ed s - SECT c + (SECT c - 3)) in M by lia.
    replace (ed s - 4 + 2) with (ed s - SECT c + (SECT c - 2)) in M by lia.
    replace (ed s - 4 + 3) with (ed s - SECT c + (SECT c - 1)) in M by lia.
    replace (ed s - 4) with (ed s - SECT c + (SECT c - 4)) in M by lia.
    split; [intros; apply Hb|]. destruct M as (M0 & M1 & M2 & M3). do 4 (split; [assumption|]).
    intros i Hi. rewrite <- K by exact Hi. f_equal. lia.
  Qed.

  (** [o] bytes of the new copy are written. *)
  Definition half_done (h : flash) (s : Z) (T : list Z) (d : Z -> Z) (o : Z) : Prop :=
    bytes h /\ bit s /\ cp h s T /\ 0 <= o <= SECT c /\
    (forall i, 0 <= i < o -> h (ed (1 - s) - SECT c + i) = d i) /\
    (forall i, o <= i < SECT c -> h (ed (1 - s) - SECT c + i) = 255).

  Lemma half_ge : forall h s T d o, half_done h s T d o -> o < SECT c -> ge h s T.
  Proof.
    intros h s T d o (Hb & Hs & K & Ho & _ & H) L. apply ge_only; auto. apply no_magic_last; [exact Hb|].
    specialize (H (SECT c - 1) ltac:(lia)). replace (ed (1 - s) - SECT c + (SECT c - 1)) with (ed (1 - s) - 1) in H by lia. exact H.
  Qed.

  Lemma half_full : forall h s T d T', half_done h s T d (SECT c) -> sector_of d T' -> cp h (1 - s) T'.
  Proof. intros h s T d T' (Hb & Hs & K & Ho & H & _) D. apply (sector_cp h _ d); auto. Qed.

  Lemma land_ff : forall b, is_byte b -> Z.land 255 b = b.
  Proof.
    intros b Hb. rewrite Z.land_comm. change 255 with (Z.ones 8). rewrite Z.land_ones by lia. apply Z.mod_small. exact Hb.
  Qed.

  Lemma write_step : forall h s T d o n T', half_done h s T d o -> sector_of d T' -> 0 < n -> o + n <= SECT c ->
    (forall g, seq_write (ed (1 - s) - SECT c + o) n (fun i => d (o + i)) h g -> ge g s T \/ ge g (1 - s) T') /\
    half_done (write h (ed (1 - s) - SECT c + o) n (fun i => d (o + i))) s T d (o + n).
  Proof.
    intros h s T d o n T' (Hb & Hs & K & Ho & H1 & H2) D Hn Hl. pose proof sect_pos as SP.
    pose proof (ed_bit s Hs) as EB. split.
    - intros g (k & m & Hk & Hm & Hg).
      assert (Hbg : bytes g).
      { intro x. rewrite Hg. destruct (inr _ _ x) eqn:E.
        - apply inr_true in E. apply land_byte; [apply Hb|]. apply (proj1 D). lia.
        - destruct (_ =? _) eqn:E2; [|apply Hb]. apply land_byte; [apply Hb|]. pose proof (proj1 D (o + k) ltac:(lia)) as B.
          unfold is_byte in B, Hm. apply Z.lor_nonneg. lia. }
      assert (Kg : cp g s T).
      { apply (same_copy h); [|exact K]. intros off Hoff. rewrite Hg.
        rewrite (proj2 (inr_false _ _ _)) by lia. rewrite (proj2 (Z.eqb_neq _ _)) by lia. reflexivity. }
      assert (G1 : forall i, 0 <= i < o + k -> g (ed (1 - s) - SECT c + i) = d i).
      { intros i Hi. rewrite Hg. destruct (Z.lt_ge_cases i o) as [L|L].
        - rewrite (proj2 (inr_false _ _ _)) by lia. rewrite (proj2 (Z.eqb_neq _ _)) by lia. apply H1. lia.
        - rewrite (proj2 (inr_true _ _ _)) by lia. rewrite H2 by lia.
          replace (o + (ed (1 - s) - SECT c + i - (ed (1 - s) - SECT c + o))) with i by lia. apply land_ff, (proj1 D). lia. }
      assert (G2 : forall i, o + k < i < SECT c -> g (ed (1 - s) - SECT c + i) = 255).
      { intros i Hi. rewrite Hg. rewrite (proj2 (inr_false _ _ _)) by lia. rewrite (proj2 (Z.eqb_neq _ _)) by lia. apply H2. lia. }
      destruct (Z.lt_ge_cases (o + k) (SECT c - 1)) as [L|L].
      + left. apply ge_only; auto. apply no_magic_last; [exact Hbg|]. rewrite <- (G2 (SECT c - 1)) by lia. f_equal. lia.
      + destruct (Z.eq_dec (g (ed (1 - s) - 1)) 0x54) as [E|E].
        * apply ge_both; auto. apply (sector_cp g _ d); auto. intros i Hi. destruct (Z.eq_dec i (SECT c - 1)) as [ -> |Ni]; [|apply G1; lia].
          replace (ed (1 - s) - SECT c + (SECT c - 1)) with (ed (1 - s) - 1) by lia. rewrite E. symmetry. apply D.
        * left. apply ge_only; auto. intro M. apply E. apply (magic_bytes g _ Hbg) in M.
          replace (ed (1 - s) - 4 + 3) with (ed (1 - s) - 1) in M by lia. apply M.
    - split; [|split; [exact Hs|split; [|split; [lia|split]]]].
      + apply bytes_write; [exact Hb|]. intros i Hi. pose proof (proj1 D (o + i) ltac:(lia)) as B. unfold is_byte in B. lia.
      + apply (same_copy h); [|exact K]. intros off Hoff. unfold write. rewrite (proj2 (inr_false _ _ _)) by lia. reflexivity.
      + intros i Hi. unfold write. destruct (Z.lt_ge_cases i o) as [L|L].
        * rewrite (proj2 (inr_false _ _ _)) by lia. apply H1. lia.
        * rewrite (proj2 (inr_true _ _ _)) by lia. rewrite H2 by lia.
          replace (o + (ed (1 - s) - SECT c + i - (ed (1 - s) - SECT c + o))) with i by lia. apply land_ff, (proj1 D). lia.
      + intros i Hi. unfold write. rewrite (proj2 (inr_false _ _ _)) by lia. apply H2. lia.
  Qed.

  Lemma write_cache_wq : forall s T d T' (C : flash -> Prop) fuel o h, sector_of d T' -> half_done h s T d o -> o mod FB c = 0 ->
    SECT c - o <= Z.of_nat fuel -> (forall g, ge g s T \/ ge g (1 - s) T' -> C g) ->
    wq (write_cache fuel c (ed (1 - s) - SECT c) d o) (fun _ g => half_done g s T d (SECT c)) C h.
  Proof.
    intros s T d T' C fuel. induction fuel as [|fuel IH]; intros o h D H Hm Hf HC; cbn [write_cache].
    - assert (Ho : 0 <= o <= SECT c) by apply H. assert (o = SECT c) by lia. subst o. rewrite (proj2 (Z.ltb_ge _ _)) by lia. cbn [wq].
      split; [|exact H]. apply HC. destruct H as (Hb & Hs & K & H'). apply ge_both; auto. apply (half_full h s T d); [|exact D]. repeat (split; auto).
    - assert (Ho : 0 <= o <= SECT c) by apply H. destruct (Z.ltb_spec o (SECT c)) as [L|L].
      + assert (Hl : o + FB c <= SECT c).
        { pose proof (g_fb c G) as F4. destruct (g_sect c G) as (Sm & _). clear -L F4 Sm Hm Ho.
          apply Z.mod_divide in Sm; [|lia]. apply Z.mod_divide in Hm; [|lia]. destruct Sm as (a & Ea). destruct Hm as (b & Eb). assert (b < a) by nia. nia. }
        pose proof (g_fb c G) as F4. destruct (write_step h s T d o (FB c) T' H D ltac:(lia) Hl) as (W1 & W2).
        cbn [wq]. split; [apply HC; left; apply (half_ge h s T d o); auto|]. split; [intros g Hg; apply HC, W1, Hg|].
        apply IH; auto; [|lia]. rewrite Zplus_mod, Hm, Z_mod_same_full. reflexivity.
      + cbn [wq]. assert (o = SECT c) by lia. subst o.
        split; [|exact H]. apply HC. destruct H as (Hb & Hs & K & H'). apply ge_both; auto. apply (half_full h s T d); [|exact D]. repeat (split; auto).
  Qed.

  Lemma nth_update : forall T j v i, (j <= length T)%nat -> nth i (update T j v) 255 = if (i =? j)%nat then v else nth i T 255.
  Proof.
    induction T as [|a T IH]; intros j v i Hj.
    - cbn [length] in Hj. assert (j = 0%nat) by lia. subst j. unfold update. cbn [firstn skipn app].
      destruct i as [|i]; [reflexivity|]. cbn [nth Nat.eqb]. destruct i; reflexivity.
    - destruct j as [|j].
      + unfold update. cbn [firstn skipn app]. destruct i; reflexivity.
      + cbn [length] in Hj. unfold update. cbn [firstn app]. change (skipn (S (S j)) (a :: T)) with (skipn (S j) T).
        destruct i as [|i]; [reflexivity|]. cbn [nth Nat.eqb]. apply IH. lia.
  Qed.

  Lemma update_length : forall T j v, (j <= length T)%nat -> length (update T j v) = Nat.max (length T) (S j).
  Proof. intros T j v Hj. unfold update. rewrite app_length, firstn_length. cbn [length]. rewrite skipn_length. lia. Qed.

  Lemma update_ok : forall T j v, trailer_ok c T -> (j <= length T)%nat -> Z.of_nat j + 1 <= SECT c - 5 -> 0 <= v < 255 -> trailer_ok c (update T j v).
  Proof.
    intros T j v (F & L) Hj Hl Hv. split.
    - unfold update. apply Forall_app. split; [|constructor; [exact Hv|]].
      + apply Forall_forall. intros x Hx. apply (proj1 (Forall_forall _ _) F). rewrite <- (firstn_skipn j T). apply in_or_app. auto.
      + apply Forall_forall. intros x Hx. apply (proj1 (Forall_forall _ _) F). rewrite <- (firstn_skipn (S j) T). apply in_or_app. auto.
    - unfold zlen in *. rewrite update_length by exact Hj. lia.
  Qed.

  Lemma end_align : forall pos, 0 < 4 + pos <= SECT c ->
    (end_of c p - (4 + pos)) / SECT c * SECT c = end_of c p - SECT c /\ (end_of c p - (4 + pos)) mod SECT c = SECT c - (4 + pos).
  Proof.
    intros pos Hp. pose proof sect_pos as SP. destruct (g_part c G) as (Pm & _). unfold aligned in Al. unfold end_of.
    apply Z.mod_divide in Pm; [|lia]. pose proof Al as Am. apply Z.mod_divide in Am; [|lia]. destruct Pm as (a & Ea). destruct Am as (b & Eb).
    assert (E : part_addr c p + PART c - (4 + pos) = (SECT c - (4 + pos)) + (a + b - 1) * SECT c) by (rewrite Ea, Eb; ring).
    rewrite E. split.
    - rewrite Z.div_add by lia. rewrite Z.div_small by lia. rewrite Ea, Eb. ring.
    - rewrite Z_mod_plus_full. apply Z.mod_small. lia.
  Qed.

  (** Writing a new copy with trailer [T'] over no copy, then erasing the old one. *)
  Definition moved (f : flash) (T T' : list Z) (s : Z) (g : flash) : Prop := ge g s T \/ ge g (1 - s) T'.

  Lemma move_end : forall s T T' d (C : flash -> Prop) h, trailer_ok c T -> trailer_ok c T' -> zlen T <= zlen T' -> sector_of d T' ->
    half_done h s T d (SECT c) -> (forall g, ge g s T \/ ge g (1 - s) T' -> C g) ->
    wq (Er (ed s - SECT c) (SECT c) (Ret tt)) (fun _ g => ge g (1 - s) T' /\ ~ magic g s) C h.
  Proof.
    intros s T T' d C h O O' L D H HC. pose proof sect_pos as SP. pose proof (half_full h s T d T' H D) as K'. destruct H as (Hb & Hs & K & H').
    pose proof (bit_other s Hs) as Hs'. pose proof (erase_torn h (ed s - SECT c) Hb) as Et.
    assert (F : forall g, byte_erase (ed s - SECT c) (SECT c) h g -> fades h g (1 - s)).
    { intros g Hg. apply torn_fades; [exact Hs'|]. replace (1 - (1 - s)) with s by lia. exact Hg. }
    assert (KE : ge (erase h (ed s - SECT c) (SECT c)) (1 - s) T' /\ ~ magic (erase h (ed s - SECT c) (SECT c)) s).
    { assert (N : ~ magic (erase h (ed s - SECT c) (SECT c)) s) by (apply no_magic_last; [apply Et|apply erased_copy; lia]).
      split; [|exact N]. apply ge_only; [apply Et|exact Hs'| |replace (1 - (1 - s)) with s by lia; exact N].
      apply (fades_copy h); [apply F, Et|exact K']. }
    cbn [wq]. split; [apply HC, ge_both; auto|]. split.
    - intros g Hg. apply HC. apply (old_fades h g s T T'); auto. apply Hg.
    - split; [|exact KE]. apply HC. right. apply KE.
  Qed.

  (** Erasing the destination first. *)
  Lemma dest_wq : forall s T d (C : flash -> Prop) g (k : prog unit) Q, ge g s T -> (forall g, ge g s T -> C g) ->
    (forall h, half_done h s T d 0 -> wq k Q C h) -> wq (Er (ed (1 - s) - SECT c) (SECT c) k) Q C g.
  Proof.
    intros s T d C g k Q Kg HC HK. pose proof sect_pos as SP. assert (Hb : bytes g) by apply Kg. assert (Hs : bit s) by apply Kg.
    pose proof (erase_torn g (ed (1 - s) - SECT c) Hb) as Et. cbn [wq]. split; [apply HC, Kg|]. split.
    - intros h Hh. apply HC. apply (ge_fades g); [exact Kg|apply Hh|apply torn_fades; assumption].
    - apply HK. split; [apply Et|]. split; [exact Hs|]. split; [apply (fades_copy g); [apply torn_fades; auto|apply Kg]|]. split; [lia|].
      split; [lia|]. intros i Hi. rewrite <- (erased_copy g (1 - s) (SECT c - i)) by lia. f_equal. lia.
  Qed.

  Lemma nvm_set_wq : forall f s T pos v (C : flash -> Prop), ge f s T -> trailer_ok c T -> 1 <= pos <= zlen T + 1 -> pos <= SECT c - 5 -> 0 <= v < 255 ->
    (forall g, ge g s T \/ ge g (1 - s) (update T (Z.to_nat (pos - 1)) v) -> C g) ->
    wq (nvm_set c p pos v) (fun _ g => ge g (1 - s) (update T (Z.to_nat (pos - 1)) v) /\ ~ magic g s) C f.
  Proof.
    intros f s T pos v C K O Hp Hl Hv HC. pose proof sect_pos as SP. set (T' := update T (Z.to_nat (pos - 1)) v) in *.
    assert (Hj : (Z.to_nat (pos - 1) <= length T)%nat) by (unfold zlen in Hp; lia).
    assert (O' : trailer_ok c T') by (apply update_ok; auto; lia).
    assert (LT : zlen T <= zlen T') by (unfold zlen, T'; rewrite update_length by exact Hj; lia).
    unfold nvm_set, nvm_write. destruct (end_align pos ltac:(lia)) as (-> & ->). cbn zeta. apply wq_bind.
    apply (select_wq f s T); [exact K|intros; apply HC; auto|]. intros g Kg Ng. apply wq_bind. cbn [wq get]. split; [apply HC; auto|].
    assert (Hs : bit s) by apply Kg.
    replace (end_of c p - SECT c - (1 - s) * SECT c) with (ed (1 - s) - SECT c) by (unfold ed; lia).
    replace (end_of c p - SECT c - s * SECT c) with (ed s - SECT c) by (unfold ed; lia).
    set (d := fun i => if i =? SECT c - (4 + pos) then v else g (ed s - SECT c + i)).
    assert (D : sector_of d T').
    { destruct (cp_sector g s T ltac:(apply Kg) ltac:(apply Kg)) as (D0 & D1 & D2 & D3 & D4 & D5). unfold sector_of, d. split.
      - intros i Hi. destruct (_ =? _); [unfold is_byte; lia|apply D0, Hi].
      - do 4 (split; [rewrite (proj2 (Z.eqb_neq _ _)) by lia; assumption|]). intros i Hi. unfold T'. rewrite nth_update by exact Hj.
        destruct (Z.eqb_spec (SECT c - 5 - i) (SECT c - (4 + pos))) as [E|E]; destruct (Nat.eqb_spec (Z.to_nat i) (Z.to_nat (pos - 1))) as [E'|E']; try lia.
        apply D5, Hi. }
    apply (dest_wq s T d); [exact Kg|intros; apply HC; auto|]. intros h Hh. apply wq_bind.
    eapply wq_conseq; [apply (write_cache_wq s T d T' C); [exact D|exact Hh|apply Zmod_0_l|lia|exact HC]| |auto].
    intros u h' Hh'. eapply (move_end s T T' d); eauto.
  Qed.

  (** ** Reading *)

  Lemma magic_wq : forall f s T (C : flash -> Prop), ge f s T -> (forall g, ge g s T -> C g) ->
    wq (nvm_magic c p) (fun b g => b = true /\ ge g s T) C f.
  Proof.
    intros f s T C K HC. unfold nvm_magic. apply wq_bind. apply (select_wq f s T); [exact K|exact HC|]. intros g Kg _. cbn [wq get].
    split; [apply HC, Kg|]. split; [|exact Kg]. rewrite at_ed. apply Z.eqb_eq. apply Kg.
  Qed.

  Lemma byte_wq : forall f s T i (C : flash -> Prop), ge f s T -> 0 <= i < SECT c - 4 -> (forall g, ge g s T -> C g) ->
    wq (nvm_byte c p (1 + i)) (fun b g => b = nth (Z.to_nat i) T 255 /\ ge g s T) C f.
  Proof.
    intros f s T i C K Hi HC. unfold nvm_byte. apply wq_bind. apply (select_wq f s T); [exact K|exact HC|]. intros g Kg _. cbn [wq get].
    split; [apply HC, Kg|]. split; [|exact Kg]. rewrite at_ed. destruct Kg as (_ & _ & (_ & Kg) & _). rewrite <- Kg by exact Hi. f_equal. lia.
  Qed.

  (** ** No trailer *)

  Definition blank (f : flash) : Prop := bytes f /\ forall x, end_of c p - 2 * SECT c <= x < end_of c p -> f x = 255.

  Lemma none_unfold : forall f, trailer_none c f p <-> bytes f /\ ~ magic f 1 /\
    forall x, end_of c p - 2 * SECT c <= x < end_of c p -> ~ (ed 1 - 4 <= x < ed 1) -> f x = 255.
  Proof.
    intro f. unfold trailer_none, magic. cbn zeta. fold (end_of c p). replace (end_of c p - SECT c) with (ed 1) by (unfold ed; lia). reflexivity.
  Qed.

  Lemma none_zero : forall f, trailer_none c f p -> ~ magic f 0.
  Proof.
    intros f N. apply none_unfold in N. destruct N as (Hb & _ & H). pose proof sect_pos. apply no_magic_last; [exact Hb|].
    apply H; unfold ed; lia.
  Qed.

  Lemma none_sel : forall f, trailer_none c f p -> nvm_sel c f p = 0.
  Proof.
    intros f N. pose proof (none_zero f N) as N0. apply none_unfold in N. destruct N as (Hb & N1 & _).
    unfold nvm_sel, magic in *. cbn zeta. rewrite !at_ed. apply Z.eqb_neq in N0. apply Z.eqb_neq in N1. rewrite N0, N1. reflexivity.
  Qed.

  Lemma blank_none : forall f, blank f -> trailer_none c f p.
  Proof.
    intros f (Hb & H). apply none_unfold. split; [exact Hb|]. pose proof sect_pos. split; [|intros; apply H; assumption].
    apply no_magic_last; [exact Hb|]. apply H. unfold ed. lia.
  Qed.

  Lemma none_torn : forall f g, trailer_none c f p -> byte_erase (ed 1 - SECT c) (SECT c) f g -> trailer_none c g p.
  Proof.
    intros f g N (Hbg & E). apply none_unfold in N. destruct N as (Hb & N1 & H). apply none_unfold. split; [exact Hbg|]. pose proof sect_pos as SP. split.
    - intro M. apply N1. apply (magic_bytes g _ Hbg) in M. destruct M as (M0 & M1 & M2 & M3). apply (magic_bytes f _ Hb).
      assert (K : forall x, g x <> 255 -> f x = g x).
      { intros x Hx. specialize (E x). destruct (inr _ _ x); [destruct E; congruence|congruence]. }
      rewrite !K by lia. auto.
    - intros x Hx Hn. specialize (E x). specialize (H x Hx Hn). destruct (inr _ _ x); [destruct E; congruence|congruence].
  Qed.

  Lemma select_none : forall f (C : flash -> Prop) (Q : Z -> flash -> Prop), trailer_none c f p -> (forall g, trailer_none c g p -> C g) ->
    (forall g, blank g -> Q 0 g) -> wq (select c p) Q C f.
  Proof.
    intros f C Q N HC HQ. pose proof sect_pos as SP. unfold select. apply wq_bind. cbn [wq get]. rewrite (none_sel f N).
    split; [apply HC, N|]. cbn zeta.
    replace (part_addr c p + PART c - SECT c - SECT c * (1 - 0)) with (ed 1 - SECT c) by (unfold ed, end_of; lia).
    apply wq_bind. cbn [wq get]. split; [apply HC, N|]. replace (ed 1 - SECT c + SECT c - 4) with (ed 1 - 4) by lia.
    pose proof (proj1 (none_unfold f) N) as (Hb & _ & H).
    destruct (Z.eqb_spec (word f (ed 1 - 4)) (2 ^ 32 - 1)) as [W|W]; apply wq_bind.
    - cbn [wq]. split; [apply HC, N|]. split; [apply HC, N|]. apply HQ. split; [exact Hb|]. intros x Hx.
      destruct (Z_lt_dec x (ed 1 - 4)); [apply H; lia|]. destruct (Z_lt_dec x (ed 1)); [|apply H; lia].
      pose proof (Hb (ed 1 - 4)). pose proof (Hb (ed 1 - 4 + 1)). pose proof (Hb (ed 1 - 4 + 2)). pose proof (Hb (ed 1 - 4 + 3)).
      unfold is_byte in *. unfold word, le32 in W.
      assert (x = ed 1 - 4 \/ x = ed 1 - 4 + 1 \/ x = ed 1 - 4 + 2 \/ x = ed 1 - 4 + 3) as [ -> | [ -> | [ -> | -> ] ] ] by lia; lia.
    - pose proof (erase_torn f (ed 1 - SECT c) Hb) as Et. pose proof (none_torn f _ N Et) as Ne.
      cbn [wq]. split; [apply HC, N|]. split; [intros g Hg; apply HC, (none_torn f), Hg; exact N|].
      split; [apply HC, Ne|]. split; [apply HC, Ne|]. apply HQ. split; [apply Et|]. intros x Hx. unfold erase.
      destruct (inr (ed 1 - SECT c) (SECT c) x) eqn:I; [reflexivity|]. apply inr_false in I. apply H; [exact Hx|lia].
  Qed.

  Lemma none_magic_wq : forall f (C : flash -> Prop), trailer_none c f p -> (forall g, trailer_none c g p -> C g) ->
    wq (nvm_magic c p) (fun b g => b = false /\ trailer_none c g p) C f.
  Proof.
    intros f C N HC. unfold nvm_magic. apply wq_bind. apply select_none; [exact N|exact HC|]. intros g Bg. apply blank_none in Bg. cbn [wq get].
    split; [apply HC, Bg|]. split; [|exact Bg]. rewrite at_ed. apply Z.eqb_neq. apply (none_zero g Bg).
  Qed.

  Lemma lor_ff : forall m, is_byte m -> Z.lor 255 m = 255.
  Proof.
    intros m Hm. unfold is_byte in Hm. change 255 with (Z.ones 8). apply Z.bits_inj'. intros n Hn. rewrite Z.lor_spec.
    destruct (Z.lt_ge_cases n 8) as [L|L]; [rewrite Z.ones_spec_low by lia; reflexivity|].
    rewrite Z.ones_spec_high by lia. cbn [orb]. destruct (Z.eq_dec m 0) as [ -> |Nz]; [apply Z.bits_0|].
    apply Z.bits_above_log2; [lia|]. assert (Z.log2 m < 8) by (apply Z.log2_lt_pow2; lia). lia.
  Qed.

  Lemma set_magic_wq : forall f (C : flash -> Prop), trailer_none c f p -> (forall g, trailer_none c g p \/ ge g 1 [] -> C g) ->
    wq (nvm_set_magic c p) (fun _ g => ge g 1 []) C f.
  Proof.
    intros f C N HC. pose proof sect_pos as SP. unfold nvm_set_magic, nvm_magic_write.
    destruct (end_align 0 ltac:(lia)) as (_ & E). change (4 + 0) with 4 in E. rewrite E. cbn zeta. clear E.
    apply wq_bind. apply select_none; [exact N|intros; apply HC; auto|]. intros g (Hb & Bg). apply wq_bind. cbn [wq get].
    split; [apply HC; left; apply blank_none; split; assumption|].
    replace (end_of c p - 4 - (SECT c - 4) - (1 - 0) * SECT c) with (ed 1 - SECT c) by (unfold ed; lia).
    replace (end_of c p - 4 - (SECT c - 4) - 0 * SECT c) with (ed 0 - SECT c) by (unfold ed; lia).
    set (d := fun i => if inr (SECT c - 4) 4 i then magic_byte (i - (SECT c - 4)) else g (ed 0 - SECT c + i)).
    assert (D1 : forall i, 0 <= i < SECT c - 4 -> d i = 255).
    { intros i Hi. unfold d. rewrite (proj2 (inr_false _ _ _)) by lia. apply Bg. unfold ed. lia. }
    assert (D2 : d (SECT c - 4) = 0x42 /\ d (SECT c - 3) = 0x4F /\ d (SECT c - 2) = 0x4F /\ d (SECT c - 1) = 0x54).
    { unfold d. rewrite !(proj2 (inr_true _ _ _)) by lia. replace (SECT c - 4 - (SECT c - 4)) with 0 by lia. replace (SECT c - 3 - (SECT c - 4)) with 1 by lia.
      replace (SECT c - 2 - (SECT c - 4)) with 2 by lia. replace (SECT c - 1 - (SECT c - 4)) with 3 by lia. repeat split; reflexivity. }
    assert (D3 : forall i, 0 <= i < SECT c -> is_byte (d i)).
    { intros i Hi. destruct (Z.lt_ge_cases i (SECT c - 4)) as [L|L]; [rewrite D1 by lia; unfold is_byte; lia|].
      assert (i = SECT c - 4 \/ i = SECT c - 3 \/ i = SECT c - 2 \/ i = SECT c - 1) as [ -> | [ -> | [ -> | -> ] ] ] by lia;
        destruct D2 as (-> & -> & -> & ->) || destruct D2 as (A0 & A1 & A2 & A3); unfold is_byte; lia. }
    assert (D : sector_of d []).
    { split; [exact D3|]. destruct D2 as (A0 & A1 & A2 & A3). do 4 (split; [assumption|]). intros i Hi. rewrite D1 by lia. destruct (Z.to_nat i); reflexivity. }
    assert (KW : forall h, bytes h -> (forall i, 0 <= i < SECT c - 4 -> h (ed 1 - SECT c + i) = 255) ->
      (forall x, ed 0 - SECT c <= x < ed 0 -> h x = 255) -> trailer_none c h p \/ ge h 1 []).
    { intros h Hh H1 H0. destruct (magic_dec h 1) as [M|M].
      - right. apply ge_only; [exact Hh|right; reflexivity| |].
        + split; [exact M|]. intros i Hi. replace (ed 1 - 5 - i) with (ed 1 - SECT c + (SECT c - 5 - i)) by lia. rewrite H1 by lia. destruct (Z.to_nat i); reflexivity.
        + change (1 - 1) with 0. apply no_magic_last; [exact Hh|]. apply H0. lia.
      - left. apply none_unfold. split; [exact Hh|]. split; [exact M|]. intros x Hx Hn. unfold ed in *.
        destruct (Z_lt_dec x (end_of c p - SECT c * 1)) as [L|L]; [|apply H0; lia].
        rewrite <- (H1 (x - (end_of c p - 2 * SECT c))) by lia. f_equal. lia. }
    split; [apply HC; left; apply blank_none; split; assumption|]. split.
    - intros h (k & m & Hk & Hm & Hh). apply HC, KW.
      + intro x. rewrite Hh. destruct (inr _ _ x) eqn:I.
        * apply inr_true in I. apply land_byte; [apply Hb|apply D3; lia].
        * destruct (_ =? _); [|apply Hb]. apply land_byte; [apply Hb|]. pose proof (D3 k Hk) as B. unfold is_byte in B, Hm. apply Z.lor_nonneg. lia.
      + intros i Hi. rewrite Hh. assert (Gi : g (ed 1 - SECT c + i) = 255) by (apply Bg; unfold ed; lia). rewrite Gi.
        destruct (inr _ _ _) eqn:I.
        * apply inr_true in I. replace (ed 1 - SECT c + i - (ed 1 - SECT c)) with i by lia. rewrite D1 by lia. reflexivity.
        * destruct (Z.eqb_spec (ed 1 - SECT c + i) (ed 1 - SECT c + k)) as [Ek|Ek]; [|reflexivity].
          assert (k = i) by lia. subst k. rewrite D1 by lia. rewrite (lor_ff m Hm). reflexivity.
      + intros x Hx. rewrite Hh. unfold ed in *. rewrite (proj2 (inr_false _ _ _)) by lia. rewrite (proj2 (Z.eqb_neq _ _)) by lia. apply Bg. lia.
    - set (h := write g (ed 1 - SECT c) (SECT c) d).
      assert (Hh : bytes h) by (apply bytes_write; [exact Hb|]; intros i Hi; pose proof (D3 i Hi) as B; unfold is_byte in B; lia).
      assert (K : cp h 1 []).
      { apply (sector_cp h 1 d); auto. intros i Hi. unfold h, write. rewrite (proj2 (inr_true _ _ _)) by lia.
        rewrite Bg by (unfold ed; lia). replace (ed 1 - SECT c + i - (ed 1 - SECT c)) with i by lia. apply land_ff, D3, Hi. }
      assert (B0 : forall x, ed 0 - SECT c <= x < ed 0 -> h x = 255).
      { intros x Hx. unfold h, write, ed in *. rewrite (proj2 (inr_false _ _ _)) by lia. apply Bg. lia. }
      assert (Kh : ge h 1 []).
      { apply ge_only; [exact Hh|right; reflexivity|exact K|]. change (1 - 1) with 0. apply no_magic_last; [exact Hh|]. apply B0. lia. }
      split; [apply HC; auto|].
      assert (F : forall h', byte_erase (ed 0 - SECT c) (SECT c) h h' -> ge h' 1 []).
      { intros h' He. apply (ge_fades h); [exact Kh|apply He|]. apply torn_fades; [right; reflexivity|]. exact He. }
      split; [intros h' He; apply HC; right; apply F, He|]. pose proof (F _ (erase_torn h (ed 0 - SECT c) Hh)). auto.
  Qed.

  (** ** Operations *)

  Definition st (g : flash) (a : contents) : Prop :=
    match a with None => trailer_none c g p | Some T => trailer_ok c T /\ exists s, ge g s T end.

  Lemma update_same : forall T j v, (j < length T)%nat -> nth j T 255 = v -> update T j v = T.
  Proof.
    intros T j v Hj E. unfold update. rewrite <- (firstn_skipn j T) at 3. f_equal. subst v. clear -Hj. revert j Hj.
    induction T as [|a T IH]; intros j Hj; [cbn [length] in Hj; lia|]. destruct j; [reflexivity|]. cbn [skipn nth]. cbn [length] in Hj.
    apply IH. lia.
  Qed.

  Lemma set_if_wq : forall f s T i v (C : flash -> Prop), ge f s T -> trailer_ok c T -> 0 <= i <= zlen T -> i + 1 <= SECT c - 5 -> 0 <= v < 255 ->
    (forall g, st g (Some T) \/ st g (Some (update T (Z.to_nat i) v)) -> C g) ->
    wq (if nth (Z.to_nat i) T 255 =? v then Ret tt else nvm_set c p (1 + i) v) (fun _ g => st g (Some (update T (Z.to_nat i) v))) C f.
  Proof.
    intros f s T i v C K O Hi Hl Hv HC.
    assert (Ou : trailer_ok c (update T (Z.to_nat i) v)) by (apply update_ok; auto; unfold zlen in *; lia).
    destruct (Z.eqb_spec (nth (Z.to_nat i) T 255) v) as [E|E].
    - assert (Hlt : (Z.to_nat i < length T)%nat).
      { apply Nat.nle_gt. intro H. rewrite nth_overflow in E by exact H. lia. }
      rewrite (update_same T _ v Hlt E) in *. cbn [wq]. split; [apply HC; left|]; split; eauto.
    - replace (Z.to_nat i) with (Z.to_nat (1 + i - 1)) in * by (f_equal; lia).
      eapply wq_conseq; [apply (nvm_set_wq f s T (1 + i) v C); auto; [lia|lia|]| |auto].
      + intros g [H|H]; apply HC; [left|right]; split; eauto.
      + intros u g (H & _). split; eauto.
  Qed.

  Lemma set_state_ge : forall f s T v (C : flash -> Prop), ge f s T -> trailer_ok c T -> 0 <= v < 255 ->
    (forall g, st g (Some T) \/ st g (Some (update T 0 v)) -> C g) ->
    wq (let! x <- nvm_byte c p 1 in if x =? v then Ret tt else nvm_set c p 1 v) (fun _ g => st g (Some (update T 0 v))) C f.
  Proof.
    intros f s T v C K O Hv HC. pose proof sect_pos as SP. apply wq_bind.
    assert (HC1 : forall g, ge g s T -> C g) by (intros g Hg; apply HC; left; split; eauto).
    eapply wq_conseq; [apply (byte_wq f s T 0 C K ltac:(lia) HC1)| |auto].
    intros b g (-> & Kg). unfold zlen. apply (set_if_wq g s T 0 v C Kg O); auto; unfold zlen; lia.
  Qed.

  Lemma set_state_wq : forall f a v, st f a -> 0 <= v < 255 ->
    wq (nvm_set_state c p v) (fun _ g => st g (effect (SetState v) a)) (fun g => exists b, interrupted (SetState v) a b /\ st g b) f.
  Proof.
    intros f a v Ha Hv. pose proof sect_pos as SP. unfold nvm_set_state. apply wq_bind. apply wq_bind. destruct a as [T|].
    - destruct Ha as (O & s & K). eapply wq_conseq; [apply (magic_wq f s T (fun g => exists b, interrupted (SetState v) (Some T) b /\ st g b) K)| |auto].
      + intros g Kg. exists (Some T). split; [left; reflexivity|split; eauto].
      + cbn beta. intros b g (-> & Kg). cbn [wq]. split; [exists (Some T); split; [left; reflexivity|split; eauto]|].
        eapply wq_conseq; [apply (set_state_ge g s T v (fun g => exists b, interrupted (SetState v) (Some T) b /\ st g b)); auto| |auto].
        * intros h [H|H]; [exists (Some T)|exists (Some (update T 0 v))]; (split; [|exact H]); [left; reflexivity|right; left; reflexivity].
        * auto.
    - eapply wq_conseq; [apply (none_magic_wq f (fun g => exists b, interrupted (SetState v) None b /\ st g b) Ha)| |auto].
      + intros g Kg. exists None. split; [left; reflexivity|exact Kg].
      + cbn beta. intros b g (-> & Kg).
        assert (O0 : trailer_ok c []) by (split; [constructor|unfold zlen; cbn [length]; lia]).
        eapply wq_conseq; [apply (set_magic_wq g (fun g => exists b, interrupted (SetState v) None b /\ st g b) Kg)| |auto].
        * intros h [H|H]; [exists None; split; [left; reflexivity|exact H]|]. exists (Some []).
          split; [right; right; split; [reflexivity|split; [discriminate|reflexivity]]|split; eauto].
        * cbn beta. intros u h Kh.
          eapply wq_conseq; [apply (set_state_ge h 1 [] v (fun g => exists b, interrupted (SetState v) None b /\ st g b)); auto| |auto].
          -- intros h' [H|H]; [exists (Some [])|exists (Some [v])]; (split; [|exact H]); [right; right; split; [reflexivity|split; [discriminate|reflexivity]]|right; left; reflexivity].
          -- intros u' h' H. exact H.
  Qed.

  Lemma get_state_wq : forall f a, st f a ->
    wq (nvm_get_state c p) (fun r g => r = match a with None => None | Some T => Some (nth 0 T 255) end /\ st g a) (fun g => st g a) f.
  Proof.
    intros f a Ha. pose proof sect_pos as SP. unfold nvm_get_state. apply wq_bind. destruct a as [T|].
    - destruct Ha as (O & s & K).
      assert (HC1 : forall g, ge g s T -> st g (Some T)) by (intros g Hg; split; eauto).
      eapply wq_conseq; [apply (magic_wq f s T _ K HC1)| |auto].
      cbn beta. intros b g (-> & Kg). apply wq_bind. eapply wq_conseq; [apply (byte_wq g s T 0 _ Kg ltac:(lia) HC1)| |auto].
      cbn beta. intros b h (-> & Kh). cbn [wq]. auto.
    - eapply wq_conseq; [apply (none_magic_wq f (fun g => st g None) Ha)| |auto]; [auto|].
      cbn beta. intros b g (-> & Kg). cbn [wq]. auto.
  Qed.

  Lemma st_reads : forall f a, st f a -> reads c f p a.
  Proof.
    intros f [T|] Ha.
    - destruct Ha as (O & s & K). split; [exact O|]. split.
      + destruct (wq_run _ _ _ _ _ (magic_wq f s T (fun _ => True) K (fun _ _ => I))) as (b & f' & R & -> & _). eauto.
      + intros i Hi. destruct (wq_run _ _ _ _ _ (byte_wq f s T i (fun _ => True) K Hi (fun _ _ => I))) as (b & f' & R & -> & _). eauto.
    - destruct (wq_run _ _ _ _ _ (none_magic_wq f (fun _ => True) Ha (fun _ _ => I))) as (b & f' & R & -> & _). cbn [reads]. eauto.
  Qed.

  Lemma nth_ext_ok : forall T T', trailer_ok c T -> trailer_ok c T' -> (forall i, 0 <= i < SECT c - 4 -> nth (Z.to_nat i) T 255 = nth (Z.to_nat i) T' 255) -> T = T'.
  Proof.
    intros T T' O O' H.
    assert (L : forall A B, trailer_ok c A -> trailer_ok c B -> (forall i, 0 <= i < SECT c - 4 -> nth (Z.to_nat i) A 255 = nth (Z.to_nat i) B 255) -> (length A <= length B)%nat).
    { intros A B OA OB E. apply Nat.nlt_ge. intro L. pose proof OA as (_ & LA). unfold zlen in LA.
      specialize (E (Z.of_nat (length B)) ltac:(lia)). rewrite Nat2Z.id in E. rewrite (nth_overflow B) in E by lia.
      apply (ok_nth A (Z.of_nat (length B)) OA); [unfold zlen; lia|]. rewrite Nat2Z.id. exact E. }
    pose proof (L T T' O O' H). pose proof (L T' T O' O ltac:(intros; symmetry; auto)).
    apply (nth_ext T T' 255 255); [lia|]. intros n Hn. destruct O as (_ & LT). unfold zlen in LT. specialize (H (Z.of_nat n) ltac:(lia)).
    rewrite Nat2Z.id in H. exact H.
  Qed.

  Lemma reads_inj : forall f a b, reads c f p a -> reads c f p b -> a = b.
  Proof.
    intros f [T|] [T'|] A B; cbn [reads] in *; auto.
    - destruct A as (O & _ & A). destruct B as (O' & _ & B). f_equal. apply nth_ext_ok; auto. intros i Hi.
      destruct (A i Hi) as (f1 & R1). destruct (B i Hi) as (f2 & R2). congruence.
    - destruct A as (_ & (f1 & R1) & _). destruct B as (f2 & R2). congruence.
    - destruct B as (_ & (f1 & R1) & _). destruct A as (f2 & R2). congruence.
  Qed.

  Lemma starts_st : forall f a, starts c f p a -> st f a.
  Proof.
    intros f [T|] H; cbn [starts st] in *; [|exact H]. destruct H as (Hb & O & H). split; [exact O|]. cbn zeta in H. fold (end_of c p) in H.
    replace (end_of c p - SECT c) with (ed 1) in H by (unfold ed; lia). replace (end_of c p) with (ed 0) in H by (unfold ed; lia).
    destruct H as [(K & N)|(K & N)].
    - exists 0. apply ge_only; auto. left. reflexivity.
    - exists 1. apply ge_only; auto. right. reflexivity.
  Qed.
End Nvm.

Section Update.
  Variable c : cfg.
  Hypothesis G : geometry c.
  Hypothesis Al : aligned c PUPDATE.
  Let ed (s : Z) : Z := end_of c PUPDATE - SECT c * s.
  Notation st := (st c PUPDATE).
  Notation ge := (ge c PUPDATE).

  Lemma flag_value : forall k fl v, 0 <= k < 512 -> is_byte fl -> 0 <= v < 15 ->
    (if flag_low k then Z.lor (Z.land fl 0xF0) (Z.land v 0x0F) else Z.lor (Z.land v 0x0F * 16) (Z.land fl 0x0F)) = with_flag fl k v /\
    0 <= with_flag fl k v < 255.
  Proof.
    intros k fl v Hk Hf Hv. destruct (flag_small k Hk) as (_ & ->). unfold with_flag.
    assert (Ex : exists b w, (b < 256)%nat /\ (w < 15)%nat /\ fl = Z.of_nat b /\ v = Z.of_nat w).
    { exists (Z.to_nat fl), (Z.to_nat v). unfold is_byte in Hf. lia. }
    destruct Ex as (b & w & Hb & Hw & -> & ->). clear Hf Hv.
    assert (K : forallb (fun b => forallb (fun w =>
      (Z.lor (Z.land (Z.of_nat b) 240) (Z.land (Z.of_nat w) 15) =? Z.of_nat b / 16 * 16 + Z.of_nat w) &&
      (Z.lor (Z.land (Z.of_nat w) 15 * 16) (Z.land (Z.of_nat b) 15) =? Z.of_nat w * 16 + Z.of_nat b mod 16) &&
      (Z.of_nat b / 16 * 16 + Z.of_nat w <? 255) && (Z.of_nat w * 16 + Z.of_nat b mod 16 <? 255)) (seq 0 15)) (seq 0 256) = true) by (vm_compute; reflexivity).
    rewrite forallb_forall in K. specialize (K b ltac:(apply in_seq; lia)). rewrite forallb_forall in K. specialize (K w ltac:(apply in_seq; lia)).
    apply andb_true_iff in K. destruct K as (K & K4). apply andb_true_iff in K. destruct K as (K & K3). apply andb_true_iff in K. destruct K as (K1 & K2).
    apply Z.eqb_eq in K1. apply Z.eqb_eq in K2. apply Z.ltb_lt in K3. apply Z.ltb_lt in K4.
    pose proof (Z.mod_pos_bound (Z.of_nat b) 16 ltac:(lia)). pose proof (Z.div_pos (Z.of_nat b) 16 ltac:(lia) ltac:(lia)).
    destruct (Z.even k); (split; [assumption|lia]).
  Qed.

  Lemma flag_read : forall k fl, 0 <= k < 512 -> is_byte fl ->
    (if flag_low k then Z.land fl 0x0F else Z.land fl 0xF0 / 16) = flag_in fl k.
  Proof.
    intros k fl Hk Hf. destruct (flag_small k Hk) as (_ & ->). unfold flag_in.
    destruct (Z.even k).
    - change 15 with (Z.ones 4). rewrite Z.land_ones by lia. reflexivity.
    - change 16 with (2 ^ 4) at 1. rewrite <- Z.shiftr_div_pow2 by lia. rewrite Z.shiftr_land. change (Z.shiftr 240 4) with (Z.ones 4).
      rewrite Z.land_ones by lia. rewrite Z.shiftr_div_pow2 by lia. change (2 ^ 4) with 16. apply Z.mod_small. unfold is_byte in Hf. split.
      + apply Z.div_pos; lia.
      + apply Z.div_lt_upper_bound; lia.
  Qed.

  Lemma ok_byte : forall T i, trailer_ok c T -> is_byte (nth i T 255).
  Proof.
    intros T i (F & _). destruct (Nat.lt_ge_cases i (length T)) as [L|L]; [|rewrite nth_overflow by exact L; unfold is_byte; lia].
    pose proof (proj1 (Forall_forall _ _) F _ (nth_In T 255 L)) as K. cbn beta in K. unfold is_byte. lia.
  Qed.

  Lemma set_flag_wq : forall f a k v, st f a -> usable c PUPDATE (SetFlag k v) a ->
    wq (nvm_set_flag c k v) (fun _ g => st g (effect (SetFlag k v) a)) (fun g => exists b, interrupted (SetFlag k v) a b /\ st g b) f.
  Proof.
    intros f a k v Ha (_ & Hk & Hs & Hv & T & -> & Hi). destruct Ha as (O & s & K). unfold nvm_set_flag. apply wq_bind. apply wq_bind.
    set (C := fun g => exists b, interrupted (SetFlag k v) (Some T) b /\ st g b).
    assert (HC1 : forall g, ge g s T -> C g) by (intros g Hg; exists (Some T); split; [left; reflexivity|split; eauto]).
    eapply wq_conseq; [apply (magic_wq c PUPDATE G f s T C K HC1)| |auto].
    cbn beta. intros b g (-> & Kg). cbn [wq]. split; [apply HC1, Kg|]. apply wq_bind.
    destruct (flag_small k Hk) as (P & _). rewrite P.
    assert (Hk2 : 0 <= k / 2) by (apply Z.div_pos; lia).
    replace (2 + k / 2) with (1 + (1 + k / 2)) by lia.
    eapply wq_conseq; [apply (byte_wq c PUPDATE G g s T (1 + k / 2) C Kg ltac:(lia) HC1)| |auto].
    cbn beta. intros b h (-> & Kh). cbn zeta.
    destruct (flag_value k (nth (Z.to_nat (1 + k / 2)) T 255) v Hk (ok_byte T _ O) Hv) as (E & R). rewrite E.
    assert (EI : Z.to_nat (1 + k / 2) = flag_index k) by (unfold flag_index; lia). rewrite EI in *.
    rewrite Z.eqb_sym. cbn [effect]. rewrite <- EI.
    apply (set_if_wq c PUPDATE G Al h s T (1 + k / 2)); auto; [unfold zlen; unfold flag_index in Hi; lia|lia|rewrite EI; exact R|].
    rewrite EI. intros g' [H|H]; [exists (Some T)|exists (effect (SetFlag k v) (Some T))]; (split; [|exact H]); [left; reflexivity|right; left; reflexivity].
  Qed.

  Lemma get_flag_wq : forall f a k, st f a -> 0 <= k < 512 -> k / 2 + 2 <= SECT c - 4 ->
    wq (nvm_get_flag c k) (fun r g => r = match a with None => None | Some T => Some (flag_in (nth (flag_index k) T 255) k) end /\ st g a) (fun g => st g a) f.
  Proof.
    intros f a k Ha Hk Hs. unfold nvm_get_flag. apply wq_bind. destruct a as [T|].
    - destruct Ha as (O & s & K).
      assert (HC1 : forall g, ge g s T -> st g (Some T)) by (intros g Hg; split; eauto).
      eapply wq_conseq; [apply (magic_wq c PUPDATE G f s T _ K HC1)| |auto].
      cbn beta. intros b g (-> & Kg). apply wq_bind.
      destruct (flag_small k Hk) as (P & _). rewrite P. assert (Hk2 : 0 <= k / 2) by (apply Z.div_pos; lia).
      replace (2 + k / 2) with (1 + (1 + k / 2)) by lia.
      eapply wq_conseq; [apply (byte_wq c PUPDATE G g s T (1 + k / 2) _ Kg ltac:(lia) HC1)| |auto].
      cbn beta. intros b h (-> & Kh). cbn [wq]. split; [apply HC1, Kh|]. split; [|apply HC1, Kh].
      rewrite (flag_read k _ Hk (ok_byte T _ O)). do 3 f_equal. unfold flag_index. lia.
    - eapply wq_conseq; [apply (none_magic_wq c PUPDATE G f (fun g => st g None) Ha)| |auto]; [auto|].
      cbn beta. intros b g (-> & Kg). cbn [wq]. auto.
  Qed.

  Lemma trigger_wq : forall f a, st f a ->
    wq (nvm_trigger c) (fun _ g => st g (effect Trigger a)) (fun g => exists b, interrupted Trigger a b /\ st g b) f.
  Proof.
    intros f a Ha. pose proof (sect_pos c G) as SP. unfold nvm_trigger. cbn zeta.
    destruct (end_align c PUPDATE G Al (-3) ltac:(lia)) as (E & _). change (4 + -3) with 1 in E. rewrite E. clear E.
    set (C := fun g => exists b, interrupted Trigger a b /\ st g b).
    assert (HS : forall g, st g a -> wq (nvm_set_state c PUPDATE ST_UPDATING) (fun _ g => st g (effect Trigger a)) C g).
    { intros g Hg. eapply wq_conseq; [apply (set_state_wq c PUPDATE G Al g a ST_UPDATING Hg ltac:(unfold ST_UPDATING; lia))| |].
      - intros u h H. destruct a; exact H.
      - intros h (b & I & H). exists b. split; [|exact H]. destruct a; exact I. }
    apply wq_bind. destruct a as [T|].
    - destruct Ha as (O & s & K).
      assert (HC1 : forall g, ge g s T -> C g) by (intros g Hg; exists (Some T); split; [left; reflexivity|split; eauto]).
      assert (HC2 : forall g, ge g (1 - s) T -> C g) by (intros g Hg; exists (Some T); split; [left; reflexivity|split; eauto]).
      assert (HC : forall g, ge g s T \/ ge g (1 - s) T -> C g) by (intros g [H|H]; auto).
      apply (select_wq c PUPDATE G f s T); [exact K|exact HC1|]. intros g Kg Ng. apply wq_bind. apply wq_get; [apply HC1, Kg|].
      replace (end_of c PUPDATE - SECT c - SECT c * (1 - s)) with (ed (1 - s) - SECT c) by (unfold ed; lia).
      replace (end_of c PUPDATE - SECT c - SECT c * s) with (ed s - SECT c) by (unfold ed; lia).
      set (d := fun i => g (ed s - SECT c + i)).
      assert (D : sector_of c d T) by (apply (cp_sector c PUPDATE G); apply Kg).
      apply (dest_wq c PUPDATE G s T d); [exact Kg|exact HC1|]. intros h Hh.
      assert (ED : (fun i => d (0 + i)) = d) by reflexivity.
      destruct (write_step c PUPDATE G h s T d 0 (SECT c) T Hh D ltac:(lia) ltac:(lia)) as (W1 & W2). rewrite Z.add_0_r in W1, W2.
      cbn [wq]. split; [apply HC1; apply (half_ge c PUPDATE h s T d 0 Hh); lia|]. split; [intros g' Hg'; apply HC, W1, Hg'|].
      rewrite Z.add_0_l in W2.
      pose proof (move_end c PUPDATE G s T T d C _ O O (Z.le_refl _) D W2 HC) as M. cbn [wq] in M. destruct M as (M1 & M2 & M3 & M4 & M5).
      split; [exact M1|]. split; [exact M2|]. apply HS. split; eauto.
    - apply (select_none c PUPDATE G f); [exact Ha|intros g Hg; exists None; split; [left; reflexivity|exact Hg]|].
      intros g Bg. assert (HB : forall h, blank c PUPDATE h -> C h).
      { intros h Hh. exists None. split; [left; reflexivity|apply (blank_none c PUPDATE G), Hh]. }
      apply wq_bind. cbn [wq get]. split; [apply HB, Bg|]. 
      replace (end_of c PUPDATE - SECT c - SECT c * (1 - 0)) with (ed 1 - SECT c) by (unfold ed; lia).
      replace (end_of c PUPDATE - SECT c - SECT c * 0) with (ed 0 - SECT c) by (unfold ed; lia).
      assert (BE : forall h a n h', blank c PUPDATE h -> byte_erase a n h h' -> blank c PUPDATE h').
      { intros h a n h' (Hb & H) (Hb' & E). split; [exact Hb'|]. intros x Hx. specialize (E x). specialize (H x Hx). destruct (inr a n x); [destruct E; congruence|congruence]. }
      set (d := fun i => g (ed 0 - SECT c + i)).
      assert (D1 : forall i, 0 <= i < SECT c -> d i = 255) by (intros i Hi; apply (proj2 Bg); unfold ed; lia).
      set (h := erase g (ed 1 - SECT c) (SECT c)).
      assert (Bh : blank c PUPDATE h) by (apply (BE g (ed 1 - SECT c) (SECT c)); [exact Bg|apply (erase_torn c), Bg]).
      split; [apply HB, Bg|]. split; [intros h' Hh'; apply HB, (BE g _ _ h' Bg Hh')|]. split; [apply HB, Bh|].
      assert (LF : forall b, is_byte b -> Z.land b 255 = b) by (intros b Hb'; change 255 with (Z.ones 8); rewrite Z.land_ones by (clear; lia); apply Z.mod_small; exact Hb').
      split.
      + intros h' (k & m & Hk & Hm & Hh'). apply HB.
        assert (EQ : forall x, h' x = h x).
        { intro x. rewrite Hh'. destruct (inr _ _ x) eqn:I.
          - apply inr_true in I. rewrite D1 by lia. apply LF. apply Bh.
          - destruct (_ =? _); [|reflexivity]. rewrite D1 by lia. rewrite (lor_ff c PUPDATE m Hm). apply LF. apply Bh. }
        destruct Bh as (Hbh & Bh). split; [intro x; rewrite EQ; apply Hbh|]. intros x Hx. rewrite EQ. apply Bh, Hx.
      + set (h2 := write h (ed 1 - SECT c) (SECT c) d).
        assert (B2 : blank c PUPDATE h2).
        { assert (EQ : forall x, h2 x = h x).
          { intro x. unfold h2, write. destruct (inr _ _ x) eqn:I; [|reflexivity]. apply inr_true in I. rewrite D1 by lia. apply LF. apply Bh. }
          destruct Bh as (Hbh & Bh). split; [intro x; rewrite EQ; apply Hbh|]. intros x Hx. rewrite EQ. apply Bh, Hx. }
        split; [apply HB, B2|]. split; [intros h' Hh'; apply HB, (BE h2 _ _ h' B2 Hh')|]. apply HS. apply (blank_none c PUPDATE G).
        apply (BE h2 (ed 0 - SECT c) (SECT c)); [exact B2|apply (erase_torn c), B2].
  Qed.
End Update.

Lemma code_wq : forall c p f a o, geometry c -> aligned c p -> st c p f a -> usable c p o a ->
  wq (code c p o) (fun _ g => st c p g (effect o a)) (fun g => exists b, interrupted o a b /\ st c p g b) f.
Proof.
  intros c p f a o G Al Ha U. destruct o as [v|k v| | |k]; cbn [code].
  - apply set_state_wq; auto.
  - assert (p = PUPDATE) by apply U. subst p. apply set_flag_wq; auto.
  - assert (p = PUPDATE) by apply U. subst p. apply trigger_wq; auto.
  - apply wq_bind. eapply wq_conseq; [apply (get_state_wq c p G f a Ha)| |].
    + intros r g (_ & H). cbn [wq]. split; [exists a; split; [left; reflexivity|exact H]|]. destruct a; exact H.
    + intros g H. exists a. split; [left; reflexivity|exact H].
  - destruct U as (-> & Hk & Hs). apply wq_bind. eapply wq_conseq; [apply (get_flag_wq c G f a k Ha Hk Hs)| |].
    + intros r g (_ & H). cbn [wq]. split; [exists a; split; [left; reflexivity|exact H]|]. destruct a; exact H.
    + intros g H. exists a. split; [left; reflexivity|exact H].
Qed.

Lemma history_st : forall c p f a, geometry c -> aligned c p -> history c p f a -> st c p f a.
Proof.
  intros c p f a G Al H. induction H as [f a H|f a o g H IH U R|f a o g b H IH U R I Rb].
  - apply starts_st, H.
  - destruct (wq_run _ _ _ _ _ (code_wq c p f a o G Al IH U)) as (u & g' & R' & S). rewrite R in R'. injection R' as _ E. subst g'. exact S.
  - destruct (wq_cut _ _ _ _ _ _ (code_wq c p f a o G Al IH U) R) as (b' & I' & S).
    pose proof (st_reads c p G g b' S) as Rb'. rewrite (reads_inj c p g b b' Rb Rb'). exact S.
Qed.

(** ** Nothing else is touched *)

Fixpoint touches {A} (lo hi : Z) (p : prog A) : Prop :=
  match p with
  | Ret _ => True
  | Rd r => forall f, touches lo hi (r f)
  | Er a n k => lo <= a /\ a + n <= hi /\ touches lo hi k
  | Wr a n d k => lo <= a /\ a + n <= hi /\ touches lo hi k
  | Panic => True
  | Stuck => True
  end.

Lemma touches_bind : forall A B lo hi (p : prog A) (k : A -> prog B), touches lo hi p -> (forall a, touches lo hi (k a)) -> touches lo hi (bind p k).
Proof. induction p as [a|r IH|a n p IH|a n d p IH| |]; intros k H K; cbn [touches bind] in *; auto; intuition. Qed.

(** Like [touches_bind], for a result with a known property. *)
Fixpoint gives {A} (R : A -> Prop) (p : prog A) : Prop :=
  match p with
  | Ret a => R a
  | Rd r => forall f, gives R (r f)
  | Er _ _ k => gives R k
  | Wr _ _ _ k => gives R k
  | Panic => True
  | Stuck => True
  end.

Lemma touches_bind' : forall A B lo hi (R : A -> Prop) (p : prog A) (k : A -> prog B), touches lo hi p -> gives R p -> (forall a, R a -> touches lo hi (k a)) -> touches lo hi (bind p k).
Proof. induction p as [a|r IH|a n p IH|a n d p IH| |]; intros k H H' K; cbn [touches gives bind] in *; auto; intuition. Qed.

Lemma touches_cut : forall A lo hi (p : prog A) f g x, touches lo hi p -> cut p f g -> ~ (lo <= x < hi) -> g x = f x.
Proof.
  induction p as [a|r IH|a n p IH|a n d p IH| |]; intros f g x T E Hx; cbn [touches cut] in *; try (subst; reflexivity).
  - exact (IH f f g x (T f) E Hx).
  - destruct T as (T1 & T2 & T3). destruct E as [ -> | [ (_ & E) | E ] ]; [reflexivity| |].
    + specialize (E x). rewrite (proj2 (inr_false _ _ _)) in E by lia. exact E.
    + rewrite (IH _ _ _ T3 E Hx). unfold erase. rewrite (proj2 (inr_false _ _ _)) by lia. reflexivity.
  - destruct T as (T1 & T2 & T3). destruct E as [ -> | [ (k & m & Hk & Hm & E) | E ] ]; [reflexivity| |].
    + rewrite E. rewrite (proj2 (inr_false _ _ _)) by lia. rewrite (proj2 (Z.eqb_neq _ _)) by lia. reflexivity.
    + rewrite (IH _ _ _ T3 E Hx). unfold write. rewrite (proj2 (inr_false _ _ _)) by lia. reflexivity.
Qed.

Lemma run_cut : forall A (p : prog A) f a g, run p f = Done a g -> cut p f g.
Proof.
  induction p as [a|r IH|a n p IH|a n d p IH| |]; intros f b g E; cbn [run cut] in *; try discriminate.
  - injection E as _ E. auto.
  - exact (IH f f b g E).
  - right. right. exact (IH _ b g E).
  - right. right. exact (IH _ b g E).
Qed.

Section Frame.
  Variables (c : cfg) (p : part).
  Hypothesis G : geometry c.
  Hypothesis Al : aligned c p.
  Notation ts := (touches (end_of c p - 2 * SECT c) (end_of c p)).

  Lemma select_touches : ts (select c p) /\ gives bit (select c p).
  Proof.
    pose proof (sect_pos c G) as SP. unfold select. cbn [bind get touches gives].
    assert (K : forall f, bit (nvm_sel c f p)) by (intro; apply sel_bit). split; intros f f'; specialize (K f); (destruct (_ =? _); cbn [bind touches gives]; [auto|]).
    - split; [|split; [|exact I]]; unfold end_of; destruct K as [ -> | -> ]; lia.
    - exact K.
  Qed.

  Lemma byte_touches : forall pos, ts (nvm_byte c p pos).
  Proof. intro pos. unfold nvm_byte. apply touches_bind; [apply select_touches|]. intro s. cbn [get touches]. auto. Qed.

  Lemma magic_touches : ts (nvm_magic c p).
  Proof. unfold nvm_magic. apply touches_bind; [apply select_touches|]. intro s. cbn [get touches]. auto. Qed.

  Lemma cache_touches : forall fuel a d o, end_of c p - 2 * SECT c <= a -> a + SECT c <= end_of c p -> 0 <= o -> o mod FB c = 0 -> ts (write_cache fuel c a d o).
  Proof.
    induction fuel as [|fuel IH]; intros a d o Ha Hb Ho Hm; cbn [write_cache]; destruct (Z.ltb_spec o (SECT c)) as [L|L]; cbn [touches]; auto.
    assert (Hl : o + FB c <= SECT c).
    { pose proof (g_fb c G) as F4. destruct (g_sect c G) as (Sm & _). clear -L F4 Sm Hm Ho.
      apply Z.mod_divide in Sm; [|lia]. apply Z.mod_divide in Hm; [|lia]. destruct Sm as (a & Ea). destruct Hm as (b & Eb). assert (b < a) by nia. nia. }
    pose proof (g_fb c G). split; [lia|]. split; [lia|]. apply IH; auto; [lia|]. rewrite Zplus_mod, Hm, Z_mod_same_full. reflexivity.
  Qed.

  Lemma set_touches : forall pos v, 0 < 4 + pos <= SECT c -> ts (nvm_set c p pos v).
  Proof.
    intros pos v Hp. pose proof (sect_pos c G) as SP. unfold nvm_set, nvm_write. destruct (end_align c p G Al pos Hp) as (-> & ->). cbn zeta.
    apply (touches_bind' _ _ _ _ bit); [apply select_touches|apply select_touches|]. intros s Hs. cbn [get bind touches]. intro f.
    assert (A : end_of c p - 2 * SECT c <= end_of c p - SECT c - (1 - s) * SECT c /\ end_of c p - SECT c - (1 - s) * SECT c + SECT c <= end_of c p)
      by (destruct Hs as [ -> | -> ]; lia).
    split; [apply A|]. split; [apply A|]. apply touches_bind.
    - apply cache_touches; [apply A|apply A|lia|apply Zmod_0_l].
    - intros _. cbn [touches]. split; [|split; [|exact I]]; destruct Hs as [ -> | -> ]; lia.
  Qed.

  Lemma set_magic_touches : ts (nvm_set_magic c p).
  Proof.
    pose proof (sect_pos c G) as SP. unfold nvm_set_magic, nvm_magic_write.
    destruct (end_align c p G Al 0 ltac:(lia)) as (_ & E). change (4 + 0) with 4 in E. rewrite E. cbn zeta. clear E.
    apply (touches_bind' _ _ _ _ bit); [apply select_touches|apply select_touches|]. intros s Hs. cbn [get bind touches]. intro f.
    destruct Hs as [ -> | -> ]; (split; [lia|]; split; [lia|]; split; [lia|]; split; [lia|exact I]).
  Qed.

  Lemma set_state_touches : forall v, ts (nvm_set_state c p v).
  Proof.
    intro v. pose proof (sect_pos c G) as SP. unfold nvm_set_state. apply touches_bind; [|intros _]; (apply touches_bind; [apply magic_touches || apply byte_touches|]).
    - intros [|]; [exact I|apply set_magic_touches].
    - intro x. destruct (_ =? _); [exact I|apply set_touches; lia].
  Qed.

  Lemma get_state_touches : ts (nvm_get_state c p).
  Proof.
    unfold nvm_get_state. apply touches_bind; [apply magic_touches|]. intros [|]; [|exact I]. apply touches_bind; [apply byte_touches|]. intro. exact I.
  Qed.
End Frame.

Lemma code_touches : forall c p o a, geometry c -> aligned c p -> usable c p o a -> touches (end_of c p - 2 * SECT c) (end_of c p) (code c p o).
Proof.
  intros c p o a G Al U. pose proof (sect_pos c G) as SP. destruct o as [v|k v| | |k]; cbn [code].
  - apply set_state_touches; auto.
  - destruct U as (-> & Hk & Hs & Hv & _). destruct (flag_small k Hk) as (P & _). assert (0 <= k / 2) by (apply Z.div_pos; lia).
    unfold nvm_set_flag. rewrite P. apply touches_bind; [|intros _]; (apply touches_bind; [apply (magic_touches c PUPDATE G) || apply (byte_touches c PUPDATE G)|]).
    + intros [|]; [exact I|apply set_magic_touches; auto].
    + intro x. cbn zeta. destruct (_ =? x); [exact I|apply set_touches; auto; lia].
  - cbn [usable] in U. subst p. unfold nvm_trigger. cbn zeta.
    destruct (end_align c PUPDATE G Al (-3) ltac:(lia)) as (E & _). change (4 + -3) with 1 in E. rewrite E. clear E.
    apply (touches_bind' _ _ _ _ bit); [apply (select_touches c PUPDATE G)|apply (select_touches c PUPDATE G)|]. intros s Hs. cbn [get bind touches]. intro f.
    destruct Hs as [ -> | -> ]; do 3 (split; [lia|]; split; [lia|]); apply set_state_touches; auto.
  - apply touches_bind; [apply get_state_touches; auto|]. intro. exact I.
  - destruct U as (-> & Hk & Hs). apply touches_bind; [|intro; exact I]. unfold nvm_get_flag.
    apply touches_bind; [apply (magic_touches c PUPDATE G)|]. intros [|]; [|exact I]. apply touches_bind; [apply (byte_touches c PUPDATE G)|]. intro. exact I.
Qed.
