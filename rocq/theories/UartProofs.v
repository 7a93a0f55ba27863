(** The serial line protocol as a network of two processes that block on receiving: its runs
    do not depend on who goes first.  Then the target, which polls and gives up, against it. *)
From Verif Require Import Base UartSpec UartModel.
Local Ltac Zify.zify_post_hook ::= idtac.

(** * The network *)

(** The target without time limits: [Bwait] takes an acknowledgement, [Brx] any byte. *)
Inductive bproc := Bret (r : result) | Btx (b : Z) (k : bproc) | Bwait (k : bproc) | Brx (k : Z -> bproc).

Record bsys := mkB { brun : option (op * bproc); bhist : list (op * result);
  bsrv : sproc; bup : list Z; bdown : list Z; bmem : Z -> Z }.

Fixpoint bsend (l : list Z) (k : bproc) : bproc :=
  match l with [] => k | b :: l' => Btx b (Bwait (bsend l' k)) end.
Fixpoint bread (n : nat) (d : list Z) : bproc :=
  match n with O => Bret (zlen d, d) | S n' => Brx (fun b => Btx ACK (bread n' (d ++ [b]))) end.
Definition bstart (o : op) : bproc :=
  match o with
  | Read a n => bsend (command CMD_READ a (Z.of_nat n)) (bread n [])
  | Write a d => bsend (command CMD_WRITE a (zlen d)) (bsend d (Bret (zlen d, [])))
  | Erase a n => bsend (command CMD_ERASE a (Z.of_nat n)) (Bwait (Bret (0, [])))
  | Lock => Bret (0, [])
  | Version v => bsend (CMD_VER :: le_bytes 4 v) (Bret (0, []))
  end.

Section Net.
Context (size : Z) (next : list (op * result) -> option op).

(** The target makes [K] calls at most. *)
Definition bT (K : nat) (x : bsys) : option bsys :=
  match brun x with
  | None => if (length (bhist x) <? K)%nat then
              match next (bhist x) with
              | Some o => Some (mkB (Some (o, bstart o)) (bhist x) (bsrv x) (bup x) (bdown x) (bmem x))
              | None => None
              end
            else None
  | Some (o, Bret r) => Some (mkB None (bhist x ++ [(o, r)]) (bsrv x) (bup x) (bdown x) (bmem x))
  | Some (o, Btx b k) => Some (mkB (Some (o, k)) (bhist x) (bsrv x) (bup x ++ [b]) (bdown x) (bmem x))
  | Some (o, Bwait k) =>
    match bdown x with
    | b :: d => if b =? ACK then Some (mkB (Some (o, k)) (bhist x) (bsrv x) (bup x) d (bmem x)) else None
    | [] => None
    end
  | Some (o, Brx k) =>
    match bdown x with
    | b :: d => Some (mkB (Some (o, k b)) (bhist x) (bsrv x) (bup x) d (bmem x))
    | [] => None
    end
  end.

Definition bS (x : bsys) : option bsys :=
  match bsrv x with
  | Sdone => Some (mkB (brun x) (bhist x) (serve size) (bup x) (bdown x) (bmem x))
  | Recv k => match bup x with
              | b :: u => Some (mkB (brun x) (bhist x) (k b) u (bdown x) (bmem x))
              | [] => None
              end
  | Send b k => Some (mkB (brun x) (bhist x) k (bup x) (bdown x ++ [b]) (bmem x))
  | Load i k => Some (mkB (brun x) (bhist x) (k (bmem x i)) (bup x) (bdown x) (bmem x))
  | Store i b k => Some (mkB (brun x) (bhist x) k (bup x) (bdown x) (upd (bmem x) i b))
  | Sbad => None
  end.

Definition bstep (K : nat) (x y : bsys) : Prop := bT K x = Some y \/ bS x = Some y.
Inductive steps (K : nat) : nat -> bsys -> bsys -> Prop :=
| steps_0 : forall x, steps K 0 x x
| steps_S : forall n x y z, bstep K x y -> steps K n y z -> steps K (S n) x z.
Definition terminal (K : nat) (x : bsys) : Prop := bT K x = None /\ bS x = None.

Lemma diamond : forall K x y z, bT K x = Some y -> bS x = Some z -> exists w, bS y = Some w /\ bT K z = Some w.
Proof.
  intros K [r h s u d m] y z HT HS. unfold bT, bS in *. cbn [brun bhist bsrv bup bdown bmem] in *.
  destruct r as [(o, [r|b k|k|k])|].
  - injection HT as <-. destruct s as [|ks|b ks|i ks|i b ks|]; [| destruct u as [|b u]| | | |]; try discriminate HS; injection HS as <-; cbn [brun bhist bsrv bup bdown bmem]; eexists; split; reflexivity.
  - injection HT as <-. destruct s as [|ks|c ks|i ks|i c ks|]; [| destruct u as [|c u]| | | |]; try discriminate HS; injection HS as <-; cbn [brun bhist bsrv bup bdown bmem app]; eexists; split; reflexivity.
  - destruct d as [|c d]; [discriminate HT|]. destruct (c =? ACK) eqn:E; [|discriminate HT]. injection HT as <-.
    destruct s as [|ks|e ks|i ks|i e ks|]; [| destruct u as [|e u]| | | |]; try discriminate HS; injection HS as <-; cbn [brun bhist bsrv bup bdown bmem app]; rewrite ?E; eexists; split; reflexivity.
  - destruct d as [|c d]; [discriminate HT|]. injection HT as <-.
    destruct s as [|ks|e ks|i ks|i e ks|]; [| destruct u as [|e u]| | | |]; try discriminate HS; injection HS as <-; cbn [brun bhist bsrv bup bdown bmem app]; eexists; split; reflexivity.
  - destruct (length h <? K)%nat eqn:EK; [|discriminate HT]. destruct (next h) as [o|] eqn:EN; [|discriminate HT]. injection HT as <-.
    destruct s as [|ks|e ks|i ks|i e ks|]; [| destruct u as [|e u]| | | |]; try discriminate HS; injection HS as <-; cbn [brun bhist bsrv bup bdown bmem app]; rewrite ?EK, ?EN; eexists; split; reflexivity.
Qed.

(** Any step is on the way to the end. *)
Lemma strip : forall K n x y, steps K n x y -> terminal K y -> forall z, bstep K x z -> exists n', n = S n' /\ steps K n' z y.
Proof.
  intros K. induction n as [|n IH]; intros x y H T z Z.
  - inversion H; subst. destruct T as (T1 & T2), Z as [Z|Z]; congruence.
  - exists n. split; [reflexivity|]. inversion H as [|n0 x0 x1 y0 X1 X2]; subst.
    assert (C : x1 = z \/ exists w, bstep K x1 w /\ bstep K z w).
    { destruct X1 as [X1|X1], Z as [Z|Z]; try (left; congruence); right.
      - destruct (diamond _ _ _ _ X1 Z) as (w & W1 & W2). exists w. split; [right|left]; assumption.
      - destruct (diamond _ _ _ _ Z X1) as (w & W1 & W2). exists w. split; [left|right]; assumption. }
    destruct C as [<-|(w & W1 & W2)]; [exact X2|].
    destruct (IH _ _ X2 T _ W1) as (n' & -> & W3). econstructor; eassumption.
Qed.

Definition reach (K : nat) (x y : bsys) : Prop := exists n, steps K n x y.
Lemma reach_refl : forall K x, reach K x x.
Proof. intros K x. exists 0%nat. constructor. Qed.
Lemma reach_trans : forall K x y z, reach K x y -> reach K y z -> reach K x z.
Proof.
  intros K x y z (n & H) (m & G). induction H as [|n x w y X H IH]; [exists m; exact G|].
  destruct (IH G) as (l & L). exists (S l). econstructor; eassumption.
Qed.
Lemma reach_T : forall K x y z, bT K x = Some y -> reach K y z -> reach K x z.
Proof. intros K x y z H (n & G). exists (S n). econstructor; [left; exact H|exact G]. Qed.
Lemma reach_S : forall K x y z, bS x = Some y -> reach K y z -> reach K x z.
Proof. intros K x y z H (n & G). exists (S n). econstructor; [right; exact H|exact G]. Qed.

(** ** One call after the other *)
Local Notation St o q h s m := (mkB (Some (o, q)) h s [] [] m).

Lemma r_exch : forall K o h m b q ks s y, ks b = Send ACK s -> reach K (St o q h s m) y -> reach K (St o (Btx b (Bwait q)) h (Recv ks) m) y.
Proof.
  intros K o h m b q ks s y E H. eapply reach_T; [reflexivity|]. eapply reach_S; [reflexivity|]. cbn [brun bhist bsrv bup bdown bmem app]. rewrite E.
  eapply reach_S; [reflexivity|]. eapply reach_T; [reflexivity|]. exact H.
Qed.

Lemma r_word : forall K o h m q ks y n v w acc, 0 <= v < 256 ^ Z.of_nat n -> reach K (St o q h (ks (acc + w * v)) m) y ->
  reach K (St o (bsend (le_bytes n v) q) h (word_n n w acc ks) m) y.
Proof.
  intros K o h m q ks y. induction n as [|n IH]; intros v w acc V H.
  - cbn [le_bytes bsend word_n]. replace v with 0 in H by (change (256 ^ Z.of_nat 0) with 1 in V; lia). replace (acc + w * 0) with acc in H by lia. exact H.
  - cbn [le_bytes bsend word_n]. eapply r_exch; [reflexivity|]. apply IH.
    + rewrite Nat2Z.inj_succ, Z.pow_succ_r in V by lia. split; [apply Z.div_pos; lia|apply Z.div_lt_upper_bound; lia].
    + replace (acc + w * (v mod 256) + 256 * w * (v / 256)) with (acc + w * v); [exact H|]. rewrite (Z.div_mod v 256) at 1 by lia. lia.
Qed.

Lemma bsend_app : forall l1 l2 q, bsend (l1 ++ l2) q = bsend l1 (bsend l2 q).
Proof. induction l1 as [|b l1 IH]; intros l2 q; cbn [app bsend]; [reflexivity|]. rewrite IH. reflexivity. Qed.

Context (SZ : 0 < size < 2 ^ 31).

Lemma r_command : forall K o h m q a len c body y, 0 <= a -> 0 <= len -> a + len <= size ->
  (if c =? CMD_ERASE then send_ack (uart_flash_erase size) else if c =? CMD_READ then send_ack (uart_flash_read size)
   else if c =? CMD_WRITE then send_ack (uart_flash_write size) else Sdone) =
   send_ack (read_word (fun address => read_word (fun len => if (address + len) mod 2 ^ 32 >? size then Sdone else body address len))) ->
  reach K (St o q h (body a len) m) y -> reach K (St o (bsend (command c a len) q) h (serve size) m) y.
Proof using SZ.
  intros K o h m q a len c body y A L AL E H. unfold command, serve. change (2 ^ 31) with 2147483648 in SZ. cbn [bsend]. eapply r_exch; [reflexivity|].
  eapply r_exch; [exact E|]. rewrite bsend_app. unfold read_word.
  apply r_word; [change (256 ^ Z.of_nat 4) with 4294967296; lia|]. apply r_word; [change (256 ^ Z.of_nat 4) with 4294967296; lia|].
  rewrite !Z.add_0_l, !Z.mul_1_l. rewrite Z.mod_small by (change (2 ^ 32) with 4294967296; lia).
  replace (a + len >? size) with false by (symmetry; rewrite Z.gtb_ltb; apply Z.ltb_ge; lia). exact H.
Qed.

Lemma r_store : forall K o h m q i b s y, 0 <= i < size -> reach K (St o q h s (upd m i b)) y -> reach K (St o q h (store size i b s) m) y.
Proof.
  intros K o h m q i b s y I H. unfold store. replace ((0 <=? i) && (i <? size)) with true by (symmetry; apply andb_true_iff; lia).
  eapply reach_S; [reflexivity|exact H].
Qed.

(** What the loops leave in memory. *)
Definition eqm (f g : Z -> Z) : Prop := forall x, f x = g x.
Lemma over_cons : forall f g a b d, eqm g f -> eqm (over (upd g a b) (a + 1) d) (over f a (b :: d)).
Proof.
  intros f g a b d E x. unfold over, upd, zlen. cbn [length].
  destruct ((a + 1 <=? x) && (x <? a + 1 + Z.of_nat (length d))) eqn:E1.
  - apply andb_true_iff in E1. replace ((a <=? x) && (x <? a + Z.of_nat (S (length d)))) with true by (symmetry; apply andb_true_iff; lia).
    replace (Z.to_nat (x - a)) with (S (Z.to_nat (x - (a + 1)))) by lia. reflexivity.
  - apply andb_false_iff in E1. destruct (x =? a) eqn:E2.
    + replace ((a <=? x) && (x <? a + Z.of_nat (S (length d)))) with true by (symmetry; apply andb_true_iff; lia).
      replace (Z.to_nat (x - a)) with 0%nat by lia. reflexivity.
    + replace ((a <=? x) && (x <? a + Z.of_nat (S (length d)))) with false by (symmetry; apply andb_false_iff; lia). apply E.
Qed.
Lemma over_nil : forall f a, eqm (over f a []) f.
Proof. intros f a x. unfold over, zlen. cbn [length]. replace ((a <=? x) && (x <? a + Z.of_nat 0)) with false by (symmetry; apply andb_false_iff; lia). reflexivity. Qed.
Lemma over_ext : forall f g a d, eqm f g -> eqm (over f a d) (over g a d).
Proof. intros f g a d E x. unfold over. destruct (_ && _); [reflexivity|apply E]. Qed.
Lemma eqm_sym : forall f g, eqm f g -> eqm g f. Proof. intros f g E x. symmetry. apply E. Qed.
Lemma eqm_trans : forall f g k, eqm f g -> eqm g k -> eqm f k. Proof. intros f g k E F x. rewrite E. apply F. Qed.
Lemma eqm_refl : forall f, eqm f f. Proof. intros f x. reflexivity. Qed.

Lemma r_write : forall K o h d a m q y, 0 <= a -> a + zlen d <= size ->
  (forall m', eqm m' (over m a d) -> reach K (St o q h Sdone m') y) -> reach K (St o (bsend d q) h (swrite_loop size (length d) a) m) y.
Proof using SZ.
  intros K o h. induction d as [|b d IH]; intros a m q y A L H.
  - cbn [bsend length swrite_loop]. apply H, eqm_sym, over_nil.
  - unfold zlen in *. cbn [bsend length swrite_loop] in *. eapply reach_T; [reflexivity|]. eapply reach_S; [reflexivity|]. cbn [brun bhist bsrv bup bdown bmem app].
    unfold store. replace ((0 <=? a) && (a <? size)) with true by (symmetry; apply andb_true_iff; lia). eapply reach_S; [reflexivity|]. eapply reach_S; [reflexivity|]. eapply reach_T; [reflexivity|].
    cbn [brun bhist bsrv bup bdown bmem app]. apply IH; [lia|lia|]. intros m' E. apply H. eapply eqm_trans; [exact E|]. apply over_cons, eqm_refl.
Qed.

Lemma r_erase : forall K o h q s y n a m, 0 <= a -> a + Z.of_nat n <= size ->
  (forall m', eqm m' (over m a (repeat 255 n)) -> reach K (St o q h s m') y) -> reach K (St o q h (erase_loop size n a s) m) y.
Proof using SZ.
  intros K o h q s y. change (2 ^ 31) with 2147483648 in SZ. induction n as [|n IH]; intros a m A L H.
  - cbn [erase_loop]. apply H, eqm_sym, over_nil.
  - cbn [erase_loop]. rewrite Z.mod_small by (change (2 ^ 32) with 4294967296; lia). apply r_store; [lia|]. apply IH; [lia|lia|]. intros m' E. apply H. eapply eqm_trans; [exact E|]. cbn [repeat]. apply over_cons, eqm_refl.
Qed.

Lemma r_read : forall K o h y m n a d, 0 <= a -> a + Z.of_nat n <= size ->
  reach K (St o (Bret (zlen d + Z.of_nat n, d ++ cells m a n)) h Sdone m) y -> reach K (St o (bread n d) h (sread_loop size n a) m) y.
Proof using SZ.
  intros K o h y m. induction n as [|n IH]; intros a d A L H.
  - cbn [bread sread_loop]. unfold cells in H. cbn [seq map] in H. rewrite app_nil_r, Z.add_0_r in H. exact H.
  - cbn [bread sread_loop]. unfold load. replace ((0 <=? a) && (a <? size)) with true by (symmetry; apply andb_true_iff; lia).
    eapply reach_S; [reflexivity|]. eapply reach_S; [reflexivity|]. eapply reach_T; [reflexivity|]. eapply reach_T; [reflexivity|]. eapply reach_S; [reflexivity|].
    cbn [brun bhist bsrv bup bdown bmem app]. apply IH; [lia|lia|]. unfold zlen in *. rewrite app_length. cbn [length].
    replace (Z.of_nat (length d + 1) + Z.of_nat n) with (Z.of_nat (length d) + Z.of_nat (S n)) by lia. rewrite <- app_assoc.
    unfold cells in *. cbn [seq map] in H. rewrite <- seq_shift, map_map in H. rewrite Z.add_0_r in H. cbn [app].
    replace (map (fun i => m (a + 1 + Z.of_nat i)) (seq 0 n)) with (map (fun x => m (a + Z.of_nat (S x))) (seq 0 n)); [exact H|].
    apply map_ext. intro i. f_equal. lia.
Qed.

Lemma cells_ext : forall f g a n, eqm f g -> cells f a n = cells g a n.
Proof. intros f g a n E. apply map_ext. intro i. apply E. Qed.

(** A call from the quiet state to the quiet state. *)
Definition quiet (h : list (op * result)) (m : Z -> Z) : bsys := mkB None h (serve size) [] [] m.

Lemma r_call : forall K h m f o, (length h < K)%nat -> next h = Some o -> in_range size o -> eqm m f ->
  exists m', reach K (quiet h m) (quiet (h ++ [(o, snd (effect o f))]) m') /\ eqm m' (fst (effect o f)).
Proof using SZ.
  intros K h m f o LK NX IR E.
  assert (ST : bT K (quiet h m) = Some (St o (bstart o) h (serve size) m)).
  { unfold bT, quiet. cbn [brun bhist bsrv bup bdown bmem]. replace (length h <? K)%nat with true by (symmetry; apply Nat.ltb_lt; exact LK). rewrite NX. reflexivity. }
  assert (EN : forall r m', reach K (St o (Bret r) h Sdone m') (quiet (h ++ [(o, r)]) m')).
  { intros r m'. eapply reach_T; [reflexivity|]. eapply reach_S; [reflexivity|]. apply reach_refl. }
  destruct o as [a n|a d|a n| |v]; cbn [in_range] in IR; cbn [effect fst snd].
  - exists m. split; [|exact E]. eapply reach_T; [exact ST|]. cbn [bstart]. eapply r_command with (body := fun a l => sread_loop size (Z.to_nat l) a); try lia; [reflexivity|]. rewrite Nat2Z.id.
    apply r_read; [lia|lia|]. rewrite (cells_ext m f) by exact E. exact (EN _ m).
  - assert (G : forall m', eqm m' (over m a d) -> eqm m' (over f a d)) by (intros m' E'; eapply eqm_trans; [exact E'|]; apply over_ext, E).
    assert (X : exists m', eqm m' (over m a d) /\ reach K (quiet h m) (quiet (h ++ [(Write a d, (zlen d, []))]) m')).
    { (* the memory reached is determined by the run *)
      assert (Y : exists m', eqm m' (over m a d) /\ forall o q h y, reach K (St o q h Sdone m') y -> reach K (St o (bsend d q) h (swrite_loop size (length d) a) m) y).
      { clear ST EN NX LK E G. destruct IR as (A & L & _). revert a m A L. induction d as [|b d IH]; intros a m A L.
        - exists m. split; [apply eqm_sym, over_nil|]. intros o q h0 y H. exact H.
        - unfold zlen in *. cbn [length] in L. destruct (IH (a + 1) (upd m a b)) as (m' & E1 & E2); [lia|lia|]. exists m'. split; [eapply eqm_trans; [exact E1|]; apply over_cons, eqm_refl|].
          intros o q h0 y H. cbn [bsend length swrite_loop]. eapply reach_T; [reflexivity|]. eapply reach_S; [reflexivity|]. cbn [brun bhist bsrv bup bdown bmem app].
          unfold store. replace ((0 <=? a) && (a <? size)) with true by (symmetry; apply andb_true_iff; lia). eapply reach_S; [reflexivity|]. eapply reach_S; [reflexivity|]. eapply reach_T; [reflexivity|].
          cbn [brun bhist bsrv bup bdown bmem app]. apply E2, H. }
      destruct Y as (m' & E1 & E2). exists m'. split; [exact E1|]. eapply reach_T; [exact ST|]. cbn [bstart]. eapply r_command with (body := fun a l => swrite_loop size (Z.to_nat l) a); unfold zlen in *; try lia; [reflexivity|].
      rewrite Nat2Z.id. apply E2. exact (EN _ m'). }
    destruct X as (m' & E1 & E2). exists m'. split; [exact E2|]. apply G, E1.
  - assert (Y : exists m', eqm m' (over m a (repeat 255 n)) /\ forall o q h s y, reach K (St o q h s m') y -> reach K (St o q h (erase_loop size n a s) m) y).
    { clear ST EN NX LK E. change (2 ^ 31) with 2147483648 in SZ. revert a m IR. induction n as [|n IH]; intros a m IR.
      - exists m. split; [apply eqm_sym, over_nil|]. intros o q h0 s y H. exact H.
      - destruct (IH (a + 1) (upd m a 255)) as (m' & E1 & E2); [lia|]. exists m'. split; [eapply eqm_trans; [exact E1|]; cbn [repeat]; apply over_cons, eqm_refl|].
        intros o q h0 s y H. cbn [erase_loop]. rewrite Z.mod_small by (change (2 ^ 32) with 4294967296; lia). apply r_store; [lia|]. apply E2, H. }
    destruct Y as (m' & E1 & E2). exists m'. split; [|eapply eqm_trans; [exact E1|]; apply over_ext, E].
    eapply reach_T; [exact ST|]. cbn [bstart]. eapply r_command with (body := fun a l => erase_loop size (Z.to_nat l) a (send_ack Sdone)); try lia; [reflexivity|].
    rewrite Nat2Z.id. apply E2. eapply reach_S; [reflexivity|]. eapply reach_T; [reflexivity|]. exact (EN _ m').
  - exists m. split; [|exact E]. eapply reach_T; [exact ST|]. cbn [bstart]. eapply reach_T; [reflexivity|]. apply reach_refl.
  - exists m. split; [|exact E]. eapply reach_T; [exact ST|]. cbn [bstart bsend]. unfold serve. eapply r_exch; [reflexivity|].
    apply r_word; [change (256 ^ Z.of_nat 4) with (2 ^ 32); lia|]. exact (EN _ m).
Qed.

(** ** The whole run *)
Context (f0 : Z -> Z) (NX : forall h o, next h = Some o -> in_range size o).

Lemma replay_snoc : forall h f o, replay f h -> replay f (h ++ [(o, snd (effect o (after f h)))]).
Proof. induction h as [|(o', r) h IH]; intros f o H; cbn [app replay after] in *; [split; [reflexivity|exact I]|]. destruct H as (H1 & H2). split; [exact H1|]. apply IH, H2. Qed.
Lemma after_snoc : forall h f o r, after f (h ++ [(o, r)]) = fst (effect o (after f h)).
Proof. induction h as [|(o', r') h IH]; intros f o r; cbn [app after]; [reflexivity|]. apply IH. Qed.
Lemma replay_app : forall h1 h2 f, replay f (h1 ++ h2) -> replay f h1.
Proof. induction h1 as [|(o, r) h1 IH]; intros h2 f H; cbn [app replay] in *; [exact I|]. destruct H as (H1 & H2). split; [exact H1|]. apply (IH h2), H2. Qed.

Definition final (y : bsys) : Prop := exists h m, y = quiet h m /\ replay f0 h /\ eqm m (after f0 h).

Lemma chain : forall K j h m, (length h + j = K)%nat -> replay f0 h -> eqm m (after f0 h) ->
  exists y, reach K (quiet h m) y /\ terminal K y /\ final y.
Proof using SZ NX.
  intros K. induction j as [|j IH]; intros h m L R E.
  - exists (quiet h m). split; [apply reach_refl|]. split; [|exists h, m; split; [reflexivity|split; [exact R|exact E]]].
    split; [|reflexivity]. unfold bT, quiet. cbn [brun bhist]. replace (length h <? K)%nat with false by (symmetry; apply Nat.ltb_ge; lia). reflexivity.
  - destruct (next h) as [o|] eqn:N.
    + destruct (r_call K h m (after f0 h) o) as (m' & X1 & X2); [lia|exact N|exact (NX h o N)|exact E|].
      destruct (IH (h ++ [(o, snd (effect o (after f0 h)))]) m') as (y & Y1 & Y2); [rewrite app_length; cbn [length]; lia|apply replay_snoc, R|rewrite after_snoc; exact X2|].
      exists y. split; [eapply reach_trans; eassumption|exact Y2].
    + exists (quiet h m). split; [apply reach_refl|]. split; [|exists h, m; split; [reflexivity|split; [exact R|exact E]]].
      split; [|reflexivity]. unfold bT, quiet. cbn [brun bhist]. rewrite N. destruct (length h <? K)%nat; reflexivity.
Qed.

Definition begun (b : bsys) : nat := (length (bhist b) + match brun b with Some _ => 1 | None => 0 end)%nat.

(** On the way to the quiet state after any number of calls not less than have begun. *)
Definition good (b : bsys) : Prop := forall K, (begun b <= K)%nat -> exists y, reach K b y /\ terminal K y /\ final y.

Lemma good_initial : good (quiet [] f0).
Proof using SZ NX. intros K _. apply (chain K K [] f0); [reflexivity|exact I|apply eqm_refl]. Qed.

Lemma good_step : forall b b', good b -> (begun b <= begun b')%nat -> (forall K, (begun b' <= K)%nat -> bstep K b b') -> good b'.
Proof using. clear NX SZ.
  intros b b' G L ST K LK. destruct (G K) as (y & (n & Y1) & Y2 & Y3); [lia|]. destruct (strip _ _ _ _ Y1 Y2 _ (ST K LK)) as (n' & _ & Y4).
  exists y. split; [exists n'; exact Y4|]. split; assumption.
Qed.

Lemma good_S : forall b b', good b -> bS b = Some b' -> good b'.
Proof using. clear NX SZ.
  intros b b' G H. apply (good_step b b' G); [|intros K _; right; exact H].
  assert (X : brun b' = brun b /\ bhist b' = bhist b).
  { unfold bS in H. destruct (bsrv b) as [|k|c k|i k|i c k|]; [|destruct (bup b)| | | |]; try discriminate H; injection H as <-; split; reflexivity. }
  destruct X as (X1 & X2). unfold begun. rewrite X1, X2. lia.
Qed.

Lemma good_T : forall b b', good b -> brun b <> None -> bT 0 b = Some b' -> good b'.
Proof using. clear NX SZ.
  intros b b' G R H.
  assert (X : forall K, bT K b = Some b') by (intro K; rewrite <- H; unfold bT; destruct (brun b) as [(o, q)|]; [reflexivity|congruence]).
  apply (good_step b b' G); [|intros K _; left; apply X]. unfold bT in H. unfold begun.
  destruct (brun b) as [(o, [r|c k|k|k])|]; [| |destruct (bdown b) as [|c d]; [|destruct (c =? ACK)]|destruct (bdown b) as [|c d]|congruence]; try discriminate H; injection H as <-; cbn [brun bhist]; rewrite ?app_length; cbn [length]; lia.
Qed.

Lemma good_start : forall b o, good b -> brun b = None -> next (bhist b) = Some o ->
  good (mkB (Some (o, bstart o)) (bhist b) (bsrv b) (bup b) (bdown b) (bmem b)).
Proof using. clear NX SZ.
  intros b o G R N. apply (good_step b _ G).
  - unfold begun. rewrite R. cbn [brun bhist]. lia.
  - intros K LK. left. unfold bT. rewrite R, N. unfold begun in LK. cbn [brun bhist] in LK. replace (length (bhist b) <? K)%nat with true by (symmetry; apply Nat.ltb_lt; lia). reflexivity.
Qed.

Lemma steps_hist : forall K n x y, steps K n x y -> exists h, bhist y = bhist x ++ h.
Proof using. clear NX SZ.
  intros K n x y H. induction H as [x|n x y z X H (h & IH)]; [exists []; rewrite app_nil_r; reflexivity|].
  assert (Y : exists h1, bhist y = bhist x ++ h1).
  { destruct X as [X|X].
    - unfold bT in X. destruct (brun x) as [(o, [r|c k|k|k])|].
      + injection X as <-. eexists. reflexivity.
      + injection X as <-. exists []. rewrite app_nil_r. reflexivity.
      + destruct (bdown x) as [|c d]; [discriminate X|]. destruct (c =? ACK); [|discriminate X]. injection X as <-. exists []. rewrite app_nil_r. reflexivity.
      + destruct (bdown x) as [|c d]; [discriminate X|]. injection X as <-. exists []. rewrite app_nil_r. reflexivity.
      + destruct (length (bhist x) <? K)%nat; [|discriminate X]. destruct (next (bhist x)); [|discriminate X]. injection X as <-. exists []. rewrite app_nil_r. reflexivity.
    - unfold bS in X. exists []. rewrite app_nil_r. destruct (bsrv x) as [|k|c k|i k|i c k|]; [|destruct (bup x)| | | |]; try discriminate X; injection X as <-; reflexivity. }
  destruct Y as (h1 & Y). exists (h1 ++ h). rewrite IH, Y, app_assoc. reflexivity.
Qed.

Lemma good_replay : forall b, good b -> replay f0 (bhist b).
Proof using. clear NX SZ.
  intros b G. destruct (G (begun b) (le_n _)) as (y & (n & Y1) & _ & (h & m & -> & R & _)). destruct (steps_hist _ _ _ _ Y1) as (h1 & E).
  cbn [quiet bhist] in E. rewrite E in R. apply (replay_app _ h1), R.
Qed.

(** Nothing is on its way to the target between calls. *)
Lemma idle_down : forall b, good b -> brun b = None -> bdown b = [].
Proof using. clear NX SZ.
  intros b G R. destruct (G (begun b) (le_n _)) as (y & (n & Y1) & _ & (h & m & -> & _)). unfold begun in Y1. rewrite R, Nat.add_0_r in Y1.
  assert (X : forall n x y, steps (length (bhist b)) n x y -> brun x = None -> (length (bhist b) <= length (bhist x))%nat -> bdown y = [] -> bdown x = []).
  { clear. intros n x y H. induction H as [x|n x y z X H IH]; intros R L D; [exact D|].
    destruct X as [X|X].
    - unfold bT in X. rewrite R in X. replace (length (bhist x) <? length (bhist b))%nat with false in X by (symmetry; apply Nat.ltb_ge; lia). discriminate X.
    - assert (Y : brun y = brun x /\ bhist y = bhist x /\ (bdown y = [] -> bdown x = [])).
      { unfold bS in X. destruct (bsrv x) as [|k|c k|i k|i c k|]; [|destruct (bup x)| | | |]; try discriminate X; injection X as <-; cbn [brun bhist bdown]; repeat split; try tauto. intro Z. destruct (bdown x); discriminate Z. }
      destruct Y as (Y1 & Y2 & Y3). apply Y3, IH; congruence. }
  exact (X _ _ _ Y1 R (le_n _) eq_refl).
Qed.

(** Between calls, with the host done. *)
Lemma idle_mem : forall b, good b -> brun b = None -> bS b = None -> eqm (bmem b) (after f0 (bhist b)).
Proof using. clear NX SZ.
  intros b G R SB. destruct (G (begun b) (le_n _)) as (y & (n & Y1) & _ & (h & m & -> & _ & E)). unfold begun in Y1. rewrite R, Nat.add_0_r in Y1.
  inversion Y1 as [|n0 x0 x1 y0 X1 X2]; subst; [exact E|]. destruct X1 as [X1|X1]; [|congruence].
  unfold bT in X1. rewrite R, Nat.ltb_irrefl in X1. discriminate X1.
Qed.

(** The target never waits in vain, and the host never leaves its memory. *)
Lemma not_bad : forall b, good b -> bsrv b <> Sbad.
Proof using. clear NX SZ.
  intros b G B. destruct (G (begun b) (le_n _)) as (y & (n & Y1) & _ & (h & m & -> & _)).
  assert (X : forall K n x y, steps K n x y -> bsrv x = Sbad -> bsrv y = Sbad).
  { clear. intros K n x y H. induction H as [x|n x y z X H IH]; intro B; [exact B|]. apply IH. destruct X as [X|X]; [|unfold bS in X; rewrite B in X; discriminate X].
    unfold bT in X. destruct (brun x) as [(o, [r|c k|k|k])|]; [| |destruct (bdown x) as [|c d]; [|destruct (c =? ACK)]|destruct (bdown x) as [|c d]|destruct (length (bhist x) <? K)%nat; [destruct (next (bhist x))|]]; try discriminate X; injection X as <-; exact B. }
  specialize (X _ _ _ _ Y1 B). discriminate X.
Qed.

Lemma head_ack : forall b o k c d, good b -> brun b = Some (o, Bwait k) -> bdown b = c :: d -> c = ACK.
Proof using. clear NX SZ.
  intros b o k c d G R D. destruct (Z.eq_dec c ACK) as [|N]; [assumption|]. exfalso.
  destruct (G (begun b) (le_n _)) as (y & (n & Y1) & _ & (h & m & -> & _)).
  assert (X : forall K n x y, steps K n x y -> brun x = Some (o, Bwait k) -> (exists d, bdown x = c :: d) -> brun y = Some (o, Bwait k)).
  { clear - N. intros K n x y H. induction H as [x|n x y z X H IH]; intros R D; [exact R|]. destruct D as (d & D). destruct X as [X|X].
    - unfold bT in X. rewrite R, D in X. replace (c =? ACK) with false in X by (symmetry; apply Z.eqb_neq; exact N). discriminate X.
    - assert (Y : brun y = brun x /\ exists d', bdown y = c :: d').
      { unfold bS in X. destruct (bsrv x) as [|k0|e k0|i k0|i e k0|]; [|destruct (bup x)| | | |]; try discriminate X; injection X as <-; cbn [brun bdown]; split; try reflexivity; rewrite D; try (eexists; reflexivity). }
      destruct Y as (Y1 & Y2). apply IH; [congruence|exact Y2]. }
  specialize (X _ _ _ _ Y1 R (ex_intro _ d D)). discriminate X.
Qed.

(** When the host waits for a byte and none is on its way to it, the target has one to take. *)
Lemma has_byte : forall b o q, good b -> brun b = Some (o, q) -> (exists k, q = Bwait k) \/ (exists k, q = Brx k) -> bS b = None -> bdown b <> [].
Proof using. clear NX SZ.
  intros b o q G R Q S0 D. destruct (G (begun b) (le_n _)) as (y & (n & Y1) & _ & (h & m & -> & _)).
  inversion Y1 as [|n0 x0 x1 y0 X1 X2]; subst; [discriminate R|]. destruct X1 as [X1|X1]; [|congruence].
  unfold bT in X1. rewrite R, D in X1. destruct Q as [(k & ->)|(k & ->)]; discriminate X1.
Qed.
End Net.
