(** Progress: when the host does what it has to do in time, every call succeeds. *)
From Verif Require Import Base UartSpec UartModel UartProofs UartRun.
Local Ltac Zify.zify_post_hook ::= idtac.

Lemma replay_succeeded : forall h f, replay f h -> forall o r, In (o, r) h -> succeeded o r.
Proof.
  induction h as [|(o', r') h IH]; intros f H o r I; [destruct I|]. cbn [replay] in H. destruct H as (H1 & H2). destruct I as [I|I]; [|exact (IH _ H2 o r I)].
  injection I as <- <-. subst r'. destruct o'; reflexivity.
Qed.

Section Live.
Context (cycles : nat) (size : Z) (next : list (op * result) -> option op) (f0 : Z -> Z) (sched : nat -> choice).
Context (NR : forall t, sched t <> Reset).
Notation st t := (at_time cycles size next sched (initial size f0) t).
Context (PR : forall i, exists j k, (i <= j <= k)%nat /\ waits (st j) /\ sched k = Tick /\ (turns sched i (k - i) < pred cycles)%nat).

Lemma serve_same : forall s b, same s b -> good size next f0 b ->
  exists b', same (server_step size s) b' /\ good size next f0 b' /\ brun b' = brun b /\ running (server_step size s) = running s /\ hist (server_step size s) = hist s /\ (down s <> [] -> down (server_step size s) <> []).
Proof using.
  clear. intros s b SA G. pose proof SA as (S1 & S2 & S3 & S4 & S5). destruct (bS size b) as [b'|] eqn:E.
  - exists b'. pose proof (good_S size next f0 b b' G E) as G'. unfold bS in E. unfold server_step. rewrite S2, S3.
    destruct (bsrv b) as [|k|c k|i k|i c k|] eqn:SB; [|destruct (bup b)| | | |]; try discriminate E; injection E as <-; rewrite ?S4, ?S5; cbn [running hist down brun];
      (split; [unfold same; cbn [hist srv up down mem bhist bsrv bup bdown bmem]; repeat split; congruence|]); (split; [exact G'|]); repeat split; try tauto. intros _ X. destruct (bdown b); discriminate X.
  - exists b. unfold bS in E. unfold server_step. rewrite S2, S3. destruct (bsrv b) as [|k|c k|i k|i c k|]; [|destruct (bup b)| | | |]; try discriminate E; (split; [exact SA|]); (split; [exact G|]); (split; [reflexivity|]); (split; [reflexivity|]); (split; [reflexivity|]); intro X; exact X.
Qed.

(** The target goes on eventually. *)
Lemma next_turn : forall (P : nat -> Prop) t, P t -> (forall u, P u -> sched u = Serve -> P (S u)) -> exists u, (t <= u)%nat /\ P u /\ (sched u = Tick \/ sched u = Miss).
Proof using PR NR.
  intros P t Pt PS. destruct (PR t) as (j & k & L & _ & T & _).
  assert (X : forall n, (t + n <= k)%nat -> (exists u, (t <= u)%nat /\ P u /\ (sched u = Tick \/ sched u = Miss)) \/ P (t + n)%nat).
  { induction n as [|n IH]; intro LN; [right; rewrite Nat.add_0_r; exact Pt|]. destruct IH as [IH|IH]; [lia|left; exact IH|].
    destruct (sched (t + n)%nat) eqn:E.
    - left. exists (t + n)%nat. split; [lia|]. split; [exact IH|left; exact E].
    - left. exists (t + n)%nat. split; [lia|]. split; [exact IH|right; exact E].
    - right. rewrite Nat.add_succ_r. apply PS; assumption.
    - destruct (NR (t + n)%nat E). }
  destruct (X (k - t)%nat) as [Y|Y]; [lia|exact Y|]. exists k. split; [lia|]. replace (t + (k - t))%nat with k in Y by lia. split; [exact Y|left; exact T].
Qed.

(** In call [o] after the calls [h], the target's code at [p] and the network's at [q]. *)
Definition at_ (h : list (op * result)) (o : op) (t : nat) (p : tproc) (q : bproc) : Prop :=
  running (st t) = Some (o, p) /\ hist (st t) = h /\ exists b, same (st t) b /\ brun b = Some (o, q) /\ good size next f0 b.

Lemma at_serve : forall h o t p q, at_ h o t p q -> sched t = Serve -> at_ h o (S t) p q.
Proof using.
  clear PR NR. intros h o t p q (R & H & b & SA & B & G) E. destruct (serve_same _ _ SA G) as (b' & X1 & X2 & X3 & X4 & X5 & _). unfold at_. cbn [at_time]. rewrite E. cbn [step].
  split; [rewrite X4; exact R|]. split; [rewrite X5; exact H|]. exists b'. split; [exact X1|]. split; [congruence|exact X2].
Qed.

(** Waiting: the byte comes in time. *)
Lemma wait_live : forall h o q (W : nat -> tproc) (A : Z -> tproc) (B : Z -> bproc) t (Goal : Prop),
  (forall n, exists f, W (S n) = Rx f /\ f None = W n /\ forall b c d, good size next f0 b -> brun b = Some (o, q) -> bdown b = c :: d -> f (Some c) = A c) ->
  (exists k, q = Bwait k) \/ (exists k, q = Brx k) ->
  (forall b c d, good size next f0 b -> brun b = Some (o, q) -> bdown b = c :: d -> bT next 0 b = Some (mkB (Some (o, B c)) (bhist b) (bsrv b) (bup b) d (bmem b))) ->
  (forall u b c d, (t <= u)%nat -> good size next f0 b -> brun b = Some (o, q) -> bdown b = c :: d -> at_ h o u (A c) (B c) -> Goal) ->
  at_ h o t (W (pred cycles)) q -> Goal.
Proof using PR NR.
  intros h o q W A B t Goal HW HQ HB HG HA. destruct (PR t) as (j & k & L & WJ & TK & TU).
  assert (TM : forall n m, (n <= m)%nat -> (turns sched t n <= turns sched t m)%nat).
  { intros n m LE. induction LE as [|m LE IH]; [lia|]. cbn [turns]. lia. }
  assert (ND : forall u p, u = j -> at_ h o u p q -> down (st u) <> []).
  { intros u p -> (R & H & b & SA & BR & G). destruct SA as (S1 & S2 & S3 & S4 & S5). rewrite S4. apply (has_byte size next f0 b o q G BR HQ).
    destruct WJ as ((ks & W1) & W2). unfold bS. rewrite <- S2, W1, <- S3, W2. reflexivity. }
  assert (X : forall n, (t + n <= k)%nat -> Goal \/ (at_ h o (t + n) (W (pred cycles - turns sched t n)%nat) q /\ ((j <= t + n)%nat -> down (st (t + n)) <> []))).
  { induction n as [|n IH]; intro LN.
    - right. cbn [turns]. rewrite Nat.sub_0_r, Nat.add_0_r. split; [exact HA|]. intro LJ. apply (ND t _ ltac:(lia) HA).
    - destruct IH as [IH|(IH & D)]; [lia|left; exact IH|].
      pose proof (TM n (k - t)%nat ltac:(lia)) as TN.
      remember (pred cycles - turns sched t n)%nat as c eqn:EC. destruct c as [|c]; [lia|]. destruct (HW c) as (f & F1 & F2 & F3).
      pose proof IH as (R & H & b & SA & BR & G). pose proof SA as (S1 & S2 & S3 & S4 & S5).
      assert (NONE : sched (t + n)%nat = Tick /\ down (st (t + n)) = [] \/ sched (t + n)%nat = Miss ->
        Goal \/ (at_ h o (t + S n) (W (pred cycles - turns sched t (S n))%nat) q /\ ((j <= t + S n)%nat -> down (st (t + S n)) <> []))).
      { intro CH. right.
        assert (E : st (S (t + n)) = mkSys (Some (o, W c)) (hist (st (t + n))) (srv (st (t + n))) (up (st (t + n))) (down (st (t + n))) (mem (st (t + n)))).
        { cbn [at_time]. destruct CH as [(C1 & C2)|C1]; rewrite C1; cbn [step]; unfold target_step; rewrite R, F1, F2; [rewrite C2|]; reflexivity. }
        assert (AT : at_ h o (t + S n) (W (pred cycles - turns sched t (S n))%nat) q).
        { cbn [turns]. replace (match sched (t + n)%nat with Tick | Miss => 1 | _ => 0 end)%nat with 1%nat by (destruct CH as [(C1 & _)|C1]; rewrite C1; reflexivity).
          replace (pred cycles - (turns sched t n + 1))%nat with c by lia. rewrite Nat.add_succ_r. unfold at_. rewrite E. cbn [running hist]. split; [reflexivity|]. split; [exact H|].
          exists b. split; [unfold same; cbn [hist srv up down mem]; repeat split; assumption|]. split; assumption. }
        split; [exact AT|]. intro LJ. destruct (Nat.eq_dec (t + S n) j) as [EJ|NJ]; [exact (ND _ _ EJ AT)|]. rewrite Nat.add_succ_r, E. cbn [down]. apply D. lia. }
      destruct (sched (t + n)%nat) eqn:E.
      + destruct (down (st (t + n))) as [|e d] eqn:DD; [apply NONE; left; split; reflexivity|]. left.
        assert (BD : bdown b = e :: d) by congruence.
        assert (G' : good size next f0 (mkB (Some (o, B e)) (bhist b) (bsrv b) (bup b) d (bmem b))) by (apply (good_T size next f0 b); [exact G|congruence|exact (HB b e d G BR BD)]).
        apply (HG (S (t + n)) b e d ltac:(lia) G BR BD). unfold at_. cbn [at_time]. rewrite E. cbn [step]. unfold target_step. rewrite R, F1, DD. cbn [running hist].
        split; [rewrite (F3 b e d G BR BD); reflexivity|]. split; [exact H|]. exists (mkB (Some (o, B e)) (bhist b) (bsrv b) (bup b) d (bmem b)).
        split; [unfold same; cbn [hist srv up down mem bhist bsrv bup bdown bmem]; repeat split; assumption|]. split; [reflexivity|exact G'].
      + apply NONE. right. reflexivity.
      + right. pose proof (at_serve _ _ _ _ _ IH E) as AT. cbn [turns]. rewrite E, Nat.add_0_r, <- EC, Nat.add_succ_r. split; [exact AT|].
        intro LJ. destruct (Nat.eq_dec (S (t + n)) j) as [EJ|NJ]; [exact (ND _ _ EJ AT)|]. cbn [at_time]. rewrite E. cbn [step].
        destruct (serve_same _ _ SA G) as (b' & _ & _ & _ & _ & _ & X6). apply X6, D. lia.
      + destruct (NR (t + n)%nat E). }
  destruct (X (k - t)%nat) as [Y|(Y & D)]; [lia|exact Y|]. replace (t + (k - t))%nat with k in * by lia. specialize (D ltac:(lia)).
  pose proof Y as (R & H & b & SA & BR & G). pose proof SA as (S1 & S2 & S3 & S4 & S5).
  remember (pred cycles - turns sched t (k - t))%nat as c eqn:EC. destruct c as [|c]; [lia|]. destruct (HW c) as (f & F1 & F2 & F3).
  destruct (down (st k)) as [|e d] eqn:DD; [congruence|].
  assert (BD : bdown b = e :: d) by congruence.
  assert (G' : good size next f0 (mkB (Some (o, B e)) (bhist b) (bsrv b) (bup b) d (bmem b))) by (apply (good_T size next f0 b); [exact G|congruence|exact (HB b e d G BR BD)]).
  apply (HG (S k) b e d ltac:(lia) G BR BD). unfold at_. cbn [at_time]. rewrite TK. cbn [step]. unfold target_step. rewrite R, F1, DD. cbn [running hist].
  split; [rewrite (F3 b e d G BR BD); reflexivity|]. split; [exact H|]. exists (mkB (Some (o, B e)) (bhist b) (bsrv b) (bup b) d (bmem b)).
  split; [unfold same; cbn [hist srv up down mem bhist bsrv bup bdown bmem]; repeat split; assumption|]. split; [reflexivity|exact G'].
Qed.

Lemma call_live : forall h o p q, tracks cycles o p q -> forall t, at_ h o t p q -> exists u r, (t <= u)%nat /\ at_ h o u (Tret r) (Bret r).
Proof using PR NR.
  intros h o p q T. induction T as [r|b p q T IH|k q T IH F|k g T IH F]; intros t HA.
  - exists t, r. split; [lia|exact HA].
  - destruct (next_turn (fun u => (t <= u)%nat /\ at_ h o u (Tx b p) (Btx b q)) t) as (u & L & (_ & A) & C); [split; [lia|exact HA]|intros u (L & A) E; split; [lia|exact (at_serve _ _ _ _ _ A E)]|].
    destruct (IH (S u)) as (v & r & L2 & A2); [|exists v, r; split; [lia|exact A2]].
    destruct A as (R & H & x & SA & BR & G). pose proof SA as (S1 & S2 & S3 & S4 & S5). unfold at_.
    assert (E : st (S u) = mkSys (Some (o, p)) (hist (st u)) (srv (st u)) (up (st u) ++ [b]) (down (st u)) (mem (st u))) by (cbn [at_time]; destruct C as [C|C]; rewrite C; cbn [step]; unfold target_step; rewrite R; reflexivity).
    rewrite E. cbn [running hist]. split; [reflexivity|]. split; [exact H|]. exists (mkB (Some (o, q)) (bhist x) (bsrv x) (bup x ++ [b]) (bdown x) (bmem x)).
    split; [unfold same; cbn [hist srv up down mem bhist bsrv bup bdown bmem]; repeat split; congruence|]. split; [reflexivity|].
    apply (good_T size next f0 x); [exact G|congruence|]. unfold bT. rewrite BR. reflexivity.
  - apply (wait_live h o (Bwait q) (fun n => wait_n n k) (fun _ => k true) (fun _ => q) t); [| | | |exact HA].
    + intro n. eexists. split; [reflexivity|]. split; [reflexivity|]. intros b c d G BR BD. cbn beta iota. rewrite (head_ack size next f0 b o q c d G BR BD). reflexivity.
    + left. exists q. reflexivity.
    + intros b c d G BR BD. unfold bT. rewrite BR, BD, (head_ack size next f0 b o q c d G BR BD). reflexivity.
    + intros u b c d L G BR BD A. destruct (IH u A) as (v & r & L2 & A2). exists v, r. split; [lia|exact A2].
  - apply (wait_live h o (Brx g) (fun n => rx_n n k) (fun c => k (Some c)) g t); [| | | |exact HA].
    + intro n. eexists. split; [reflexivity|]. split; [reflexivity|]. intros b c d _ _ _. reflexivity.
    + right. exists g. reflexivity.
    + intros b c d G BR BD. unfold bT. rewrite BR, BD. reflexivity.
    + intros u b c d L G BR BD A. destruct (IH c u A) as (v & r & L2 & A2). exists v, r. split; [lia|exact A2].
Qed.

(** Between calls. *)
Definition idle (h : list (op * result)) (t : nat) (p : option (op * tproc)) : Prop :=
  running (st t) = p /\ hist (st t) = h /\ exists b, same (st t) b /\ brun b = None /\ good size next f0 b.

Lemma idle_serve : forall h t p, idle h t p -> sched t = Serve -> idle h (S t) p.
Proof using.
  clear PR NR. intros h t p (R & H & b & SA & B & G) E. destruct (serve_same _ _ SA G) as (b' & X1 & X2 & X3 & X4 & X5 & _). unfold idle. cbn [at_time]. rewrite E. cbn [step].
  split; [rewrite X4; exact R|]. split; [rewrite X5; exact H|]. exists b'. split; [exact X1|]. split; [congruence|exact X2].
Qed.

Lemma lock_live : forall h n t, next h = Some Lock -> idle h t (Some (Lock, wait_n n (fun _ => Tret (0, [])))) -> exists u, (t <= u)%nat /\ idle (h ++ [(Lock, (0, []))]) u None.
Proof using PR NR.
  intros h. induction n as [|n IH]; intros t N HA.
  - destruct (next_turn (fun u => (t <= u)%nat /\ idle h u (Some (Lock, Tret (0, [])))) t) as (u & L & (_ & A) & C); [split; [lia|exact HA]|intros u (L & A) E; split; [lia|exact (idle_serve _ _ _ A E)]|].
    exists (S u). split; [lia|]. destruct A as (R & H & b & SA & BR & G). pose proof SA as (S1 & S2 & S3 & S4 & S5).
    assert (E : st (S u) = mkSys None (hist (st u) ++ [(Lock, (0, []))]) (srv (st u)) (up (st u)) (down (st u)) (mem (st u))) by (cbn [at_time]; destruct C as [C|C]; rewrite C; cbn [step]; unfold target_step; rewrite R; reflexivity).
    unfold idle. rewrite E. cbn [running hist]. split; [reflexivity|]. split; [rewrite H; reflexivity|].
    assert (NB : next (bhist b) = Some Lock) by congruence.
    pose proof (good_start size next f0 b Lock G BR NB) as G1. cbn [bstart] in G1. exists (mkB None (bhist b ++ [(Lock, (0, []))]) (bsrv b) (bup b) (bdown b) (bmem b)).
    split; [unfold same; cbn [hist srv up down mem bhist bsrv bup bdown bmem]; rewrite S1; repeat split; assumption|]. split; [reflexivity|].
    apply (good_T size next f0 _ _ G1); [cbn [brun]; congruence|reflexivity].
  - destruct (next_turn (fun u => (t <= u)%nat /\ idle h u (Some (Lock, wait_n (S n) (fun _ => Tret (0, []))))) t) as (u & L & (_ & A) & C); [split; [lia|exact HA]|intros u (L & A) E; split; [lia|exact (idle_serve _ _ _ A E)]|].
    destruct (IH (S u) N) as (v & L2 & A2); [|exists v; split; [lia|exact A2]].
    destruct A as (R & H & b & SA & BR & G). pose proof SA as (S1 & S2 & S3 & S4 & S5). pose proof (idle_down size next f0 b G BR) as D.
    assert (E : st (S u) = mkSys (Some (Lock, wait_n n (fun _ => Tret (0, [])))) (hist (st u)) (srv (st u)) (up (st u)) (down (st u)) (mem (st u))).
    { cbn [at_time]. destruct C as [C|C]; rewrite C; cbn [step]; unfold target_step; rewrite R; cbn [wait_n]; [rewrite S4, D|]; reflexivity. }
    unfold idle. rewrite E. cbn [running hist]. split; [reflexivity|]. split; [exact H|]. exists b. split; [unfold same; cbn [hist srv up down mem]; repeat split; assumption|]. split; assumption.
Qed.

Lemma one_live : forall h t o, idle h t None -> next h = Some o -> exists u r, (t < u)%nat /\ idle (h ++ [(o, r)]) u None.
Proof using PR NR.
  intros h t o HA N.
  destruct (next_turn (fun u => (t <= u)%nat /\ idle h u None) t) as (u & L & (_ & A) & C); [split; [lia|exact HA]|intros u (L & A) E; split; [lia|exact (idle_serve _ _ _ A E)]|].
  destruct A as (R & H & b & SA & BR & G). pose proof SA as (S1 & S2 & S3 & S4 & S5).
  assert (E : st (S u) = mkSys (Some (o, start cycles o)) (hist (st u)) (srv (st u)) (up (st u)) (down (st u)) (mem (st u))) by (cbn [at_time]; destruct C as [C|C]; rewrite C; cbn [step]; unfold target_step; rewrite R, H, N; reflexivity).
  assert (D : o = Lock \/ o <> Lock) by (destruct o; [right|right|right|left|right]; congruence). destruct D as [-> |D].
  - destruct (lock_live h (pred cycles) (S u) N) as (v & L2 & A2); [|exists v, (0, []); split; [lia|exact A2]].
    unfold idle. rewrite E. cbn [running hist start]. split; [reflexivity|]. split; [exact H|]. exists b. split; [unfold same; cbn [hist srv up down mem]; repeat split; assumption|]. split; assumption.
  - destruct (call_live h o (start cycles o) (bstart o) (t_start cycles o D) (S u)) as (v & r & L2 & A2).
    { unfold at_. rewrite E. cbn [running hist]. split; [reflexivity|]. split; [exact H|]. exists (mkB (Some (o, bstart o)) (bhist b) (bsrv b) (bup b) (bdown b) (bmem b)).
      split; [unfold same; cbn [hist srv up down mem bhist bsrv bup bdown bmem]; repeat split; assumption|]. split; [reflexivity|]. apply good_start; [exact G|exact BR|congruence]. }
    destruct (next_turn (fun w => (v <= w)%nat /\ at_ h o w (Tret r) (Bret r)) v) as (w & L3 & (_ & A3) & C3); [split; [lia|exact A2]|intros w (L3 & A3) E3; split; [lia|exact (at_serve _ _ _ _ _ A3 E3)]|].
    exists (S w), r. split; [lia|]. clear A2 E R H b SA BR G S1 S2 S3 S4 S5. destruct A3 as (R & H & b & SA & BR & G). pose proof SA as (S1 & S2 & S3 & S4 & S5).
    assert (E : st (S w) = mkSys None (hist (st w) ++ [(o, r)]) (srv (st w)) (up (st w)) (down (st w)) (mem (st w))) by (cbn [at_time]; destruct C3 as [C3|C3]; rewrite C3; cbn [step]; unfold target_step; rewrite R; reflexivity).
    unfold idle. rewrite E. cbn [running hist]. split; [reflexivity|]. split; [rewrite H; reflexivity|]. exists (mkB None (bhist b ++ [(o, r)]) (bsrv b) (bup b) (bdown b) (bmem b)).
    split; [unfold same; cbn [hist srv up down mem bhist bsrv bup bdown bmem]; rewrite S1; repeat split; assumption|]. split; [reflexivity|].
    apply (good_T size next f0 b); [exact G|congruence|]. unfold bT. rewrite BR. reflexivity.
Qed.

Context (SZ : 0 < size < 2 ^ 31) (NX : forall h o, next h = Some o -> in_range size o).

Lemma all_live : forall n, exists t, running (st t) = None /\ replay f0 (hist (st t)) /\
  (length (hist (st t)) = n \/ (length (hist (st t)) < n)%nat /\ next (hist (st t)) = None).
Proof.
  intro n.
  assert (X : exists t h, idle h t None /\ (length h = n \/ (length h < n)%nat /\ next h = None)).
  { induction n as [|n (t & h & A & D)].
    - exists 0%nat, []. split; [|left; reflexivity]. split; [reflexivity|]. split; [reflexivity|]. exists (quiet size [] f0). split; [repeat split; reflexivity|]. split; [reflexivity|]. exact (good_initial size next SZ f0 NX).
    - destruct D as [D|(D1 & D2)]; [|exists t, h; split; [exact A|right; split; [lia|exact D2]]]. destruct (next h) as [o|] eqn:N.
      + destruct (one_live h t o A N) as (u & r & _ & A2). exists u, (h ++ [(o, r)]). split; [exact A2|]. left. rewrite app_length. cbn [length]. lia.
      + exists t, h. split; [exact A|]. right. split; [lia|exact N]. }
  destruct X as (t & h & (R & H & b & SA & BR & G) & D). exists t. split; [exact R|]. rewrite H. split; [|exact D].
  destruct SA as (S1 & _). rewrite <- H, S1. exact (good_replay size next f0 b G).
Qed.
End Live.
