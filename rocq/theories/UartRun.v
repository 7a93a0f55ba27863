(** The polling target against the network of UartProofs, for every schedule. *)
From Verif Require Import Base UartSpec UartModel UartProofs.
Local Ltac Zify.zify_post_hook ::= idtac.

Section Run.
Context (cycles : nat) (size : Z) (next : list (op * result) -> option op).

Definition fails (o : op) (p : tproc) : Prop := exists r, p = Tret r /\ ~ succeeded o r.

(** The code [p] of call [o] is at [q], with some polls left; or it is about to report failure. *)
Inductive ok (o : op) : tproc -> bproc -> Prop :=
| ok_fails : forall p q, fails o p -> ok o p q
| ok_ret : forall r, ok o (Tret r) (Bret r)
| ok_tx : forall b p q, ok o p q -> ok o (Tx b p) (Btx b q)
| ok_wait : forall n k q, ok o (k true) q -> fails o (k false) -> ok o (wait_n n k) (Bwait q)
| ok_rx : forall n k g, (forall b, ok o (k (Some b)) (g b)) -> fails o (k None) -> ok o (rx_n n k) (Brx g).

Lemma ok_send : forall o l k q, ok o (k true) q -> fails o (k false) -> ok o (send_all cycles l k) (bsend l q).
Proof.
  intros o. induction l as [|b l IH]; intros k q H F; cbn [send_all bsend]; [exact H|]. apply ok_tx. unfold wait_ack. apply ok_wait; [apply IH; assumption|exact F].
Qed.

Lemma bad_ret : forall o d, (match o with Lock => False | _ => True end) -> fails o (Tret (-1, d)).
Proof.
  intros o d L. eexists. split; [reflexivity|]. unfold succeeded. cbn [fst]. destruct o; unfold zlen; lia.
Qed.

Lemma ok_read : forall a N n d, (length d + n = N)%nat -> ok (Read a N) (read_loop cycles n d) (bread n d).
Proof.
  intros a N. induction n as [|n IH]; intros d L; cbn [read_loop bread]; [apply ok_ret|]. unfold rx_timeout. apply ok_rx.
  - intro b. apply ok_tx, IH. rewrite app_length. cbn [length]. lia.
  - eexists. split; [reflexivity|]. unfold succeeded. cbn [fst]. lia.
Qed.

Lemma ok_start : forall o, o <> Lock -> ok o (start cycles o) (bstart o).
Proof.
  intros [a n|a d|a n| |v] L; cbn [start bstart]; [| | |congruence|].
  - apply ok_send; [apply ok_read; reflexivity|apply bad_ret; exact I].
  - apply ok_send; [|apply bad_ret; exact I]. apply ok_send; [apply ok_ret|apply bad_ret; exact I].
  - apply ok_send; [|apply bad_ret; exact I]. unfold wait_ack. apply ok_wait; [apply ok_ret|apply bad_ret; exact I].
  - apply ok_send; [apply ok_ret|apply bad_ret; exact I].
Qed.

(** ** Corresponding states *)
Definition same (s : sys) (b : bsys) : Prop :=
  hist s = bhist b /\ srv s = bsrv b /\ up s = bup b /\ down s = bdown b /\ mem s = bmem b.
Definition corr (s : sys) (b : bsys) : Prop :=
  same s b /\
  match running s with
  | None => brun b = None
  | Some (o, p) => (exists q, brun b = Some (o, q) /\ ok o p q) \/
      (o = Lock /\ brun b = None /\ next (hist s) = Some Lock /\ exists n, p = wait_n n (fun _ => Tret (0, [])))
  end.

Context (SZ : 0 < size < 2 ^ 31) (f0 : Z -> Z) (NX : forall h o, next h = Some o -> in_range size o).

Definition broken (h : list (op * result)) : Prop :=
  exists h1 o r h2, h = h1 ++ (o, r) :: h2 /\ replay f0 h1 /\ ~ succeeded o r.
Definition inv (s : sys) : Prop := (exists b, corr s b /\ good size next f0 b) \/ broken (hist s).

Lemma inv_initial : inv (initial size f0).
Proof.
  left. exists (quiet size [] f0). split; [|exact (good_initial size next SZ f0 NX)]. split; [|reflexivity]. repeat split; reflexivity.
Qed.

Lemma broken_snoc : forall h e, broken h -> broken (h ++ [e]).
Proof using. clear. intros h e (h1 & o & r & h2 & -> & R & F). exists h1, o, r, (h2 ++ [e]). split; [rewrite <- app_assoc; reflexivity|]. split; assumption. Qed.

Lemma hist_step : forall c s, hist (step cycles size next c s) = hist s \/ exists e, hist (step cycles size next c s) = hist s ++ [e].
Proof using.
  clear. intros c s. destruct c; cbn [step].
  - unfold target_step. destruct (running s) as [(o, [r|b k|k])|]; [right; eexists; reflexivity|left; reflexivity|left; destruct (down s); reflexivity|left; destruct (next (hist s)); reflexivity].
  - unfold target_step. destruct (running s) as [(o, [r|b k|k])|]; [right; eexists; reflexivity|left; reflexivity|left; destruct (down s); reflexivity|left; destruct (next (hist s)); reflexivity].
  - left. unfold server_step. destruct (srv s) as [|k|b k|i k|i b k|]; [|destruct (up s)| | | |]; reflexivity.
  - destruct (running s) as [(o, p)|]; [right; eexists; reflexivity|left; reflexivity].
Qed.

(** A poll that sees nothing. *)
Lemma corr_none : forall s b o k, corr s b -> running s = Some (o, Rx k) -> corr (mkSys (Some (o, k None)) (hist s) (srv s) (up s) (down s) (mem s)) b.
Proof using.
  clear. intros s b o k (SA & C) R. rewrite R in C. split; [exact SA|]. cbn [running]. destruct C as [(q & B & O)|(L & B & N & n & E)].
  - left. exists q. split; [exact B|]. inversion O as [p q' (r & F & _) E1|r E1|b0 p q' O' E1|n k0 q' O1 F E1|n k0 g O1 F E1]; [discriminate F| |].
    + destruct n as [|n]; cbn [wait_n] in E1; [destruct F as (r & F & _); rewrite F in E1; discriminate E1|]. assert (X : k = fun c => match c with Some b => if b =? ACK then k0 true else wait_n n k0 | None => wait_n n k0 end) by congruence. rewrite X. apply ok_wait; assumption.
    + destruct n as [|n]; cbn [rx_n] in E1; [destruct F as (r & F & _); rewrite F in E1; discriminate E1|]. assert (X : k = fun c => match c with Some b => k0 (Some b) | None => rx_n n k0 end) by congruence. rewrite X. apply ok_rx; assumption.
  - right. split; [exact L|]. split; [exact B|]. split; [exact N|]. destruct n as [|n]; cbn [wait_n] in E; [discriminate E|]. exists n. injection E as E. rewrite E. reflexivity.
Qed.

Lemma inv_step : forall c s, c <> Reset -> inv s -> inv (step cycles size next c s).
Proof using.
  clear SZ NX.
  assert (TS : forall see s, inv s -> inv (target_step cycles next see s)).
  { intros see s [(b & C & G)|B].
    2:{ right. destruct (hist_step (if see then Tick else Miss) s) as [E|(e & E)]; destruct see; cbn [step] in E; rewrite E; [exact B|exact B|apply broken_snoc, B|apply broken_snoc, B]. }
    pose proof C as (SA & C'). destruct SA as (S1 & S2 & S3 & S4 & S5). unfold target_step. destruct (running s) as [(o, [r|c k|k])|] eqn:R.
    - (* return *)
      destruct C' as [(q & Q & O)|(L & Q & N & n & E)].
      + inversion O as [p q' (r' & F1 & F2) E1|r' E1 E2|b0 p q' O' E1|n k0 q' O1 F E1|n k0 g O1 F E1].
        * right. exists (hist s), o, r', []. cbn [hist]. split; [congruence|]. split; [rewrite S1; exact (good_replay size next f0 b G)|exact F2].
        * left. exists (mkB None (bhist b ++ [(o, r)]) (bsrv b) (bup b) (bdown b) (bmem b)). subst q r'. split.
          { split; [|reflexivity]. unfold same. cbn [hist srv up down mem bhist bsrv bup bdown bmem]. repeat split; congruence. }
          apply (good_T size next f0 b); [exact G|congruence|]. unfold bT. rewrite Q. reflexivity.
        * destruct n as [|n]; cbn [wait_n] in E1; [|discriminate E1]. destruct F as (r' & F1 & F2). right. exists (hist s), o, r, []. cbn [hist]. split; [reflexivity|]. split; [rewrite S1; exact (good_replay size next f0 b G)|congruence].
        * destruct n as [|n]; cbn [rx_n] in E1; [|discriminate E1]. destruct F as (r' & F1 & F2). right. exists (hist s), o, r, []. cbn [hist]. split; [reflexivity|]. split; [rewrite S1; exact (good_replay size next f0 b G)|congruence].
      + subst o. left. destruct n as [|n]; cbn [wait_n] in E; [|discriminate E]. assert (r = (0, [])) by congruence. subst r. rewrite S1 in N.
        pose proof (good_start size next f0 b Lock G Q N) as G1. cbn [bstart] in G1.
        exists (mkB None (bhist b ++ [(Lock, (0, []))]) (bsrv b) (bup b) (bdown b) (bmem b)). split.
        { split; [|reflexivity]. unfold same. cbn [hist srv up down mem bhist bsrv bup bdown bmem]. repeat split; first [assumption | rewrite S1; reflexivity]. }
        apply (good_T size next f0 _ _ G1); [cbn [brun]; congruence|]. reflexivity.
    - (* send *)
      destruct C' as [(q & Q & O)|(L & Q & N & n & E)].
      + inversion O as [p q' (r' & F1 & F2) E1|r' E1 E2|b0 p q' O' E1|n k0 q' O1 F E1|n k0 g O1 F E1]; [discriminate F1| | |].
        * left. exists (mkB (Some (o, q')) (bhist b) (bsrv b) (bup b ++ [c]) (bdown b) (bmem b)). split.
          { split; [unfold same; cbn [hist srv up down mem bhist bsrv bup bdown bmem]; repeat split; congruence|]. cbn [running]. left. exists q'. split; [reflexivity|exact O']. }
          apply (good_T size next f0 b); [exact G|congruence|]. unfold bT. rewrite Q. replace q with (Btx c q') by congruence. reflexivity.
        * destruct n as [|n]; cbn [wait_n] in E1; [|discriminate E1]. destruct F as (r' & F1 & F2). congruence.
        * destruct n as [|n]; cbn [rx_n] in E1; [|discriminate E1]. destruct F as (r' & F1 & F2). congruence.
      + destruct n as [|n]; cbn [wait_n] in E; discriminate E.
    - (* poll *)
      assert (NN : inv (mkSys (Some (o, k None)) (hist s) (srv s) (up s) (down s) (mem s))).
      { left. exists b. split; [exact (corr_none s b o k C R)|exact G]. }
      destruct see; [|exact NN]. destruct (down s) as [|c d] eqn:D; [rewrite <- D in NN |- *; rewrite D; rewrite <- D; exact NN|]. left.
      destruct C' as [(q & Q & O)|(L & Q & N & n & E)].
      + inversion O as [p q' (r' & F1 & F2) E1|r' E1 E2|b0 p q' O' E1|n k0 q' O1 F E1|n k0 g O1 F E1]; [discriminate F1| |].
        * destruct n as [|n]; cbn [wait_n] in E1; [destruct F as (r' & F1 & F2); congruence|].
          assert (c = ACK) by (apply (head_ack size next f0 b o q' c d G); congruence). subst c.
          exists (mkB (Some (o, q')) (bhist b) (bsrv b) (bup b) d (bmem b)). split.
          { split; [unfold same; cbn [hist srv up down mem bhist bsrv bup bdown bmem]; repeat split; congruence|]. cbn [running]. left. exists q'. split; [reflexivity|].
            assert (X : k = fun c => match c with Some b => if b =? ACK then k0 true else wait_n n k0 | None => wait_n n k0 end) by congruence. rewrite X. exact O1. }
          apply (good_T size next f0 b); [exact G|congruence|]. unfold bT. rewrite Q. replace q with (Bwait q') by congruence. rewrite <- S4, Z.eqb_refl. reflexivity.
        * destruct n as [|n]; cbn [rx_n] in E1; [destruct F as (r' & F1 & F2); congruence|].
          exists (mkB (Some (o, g c)) (bhist b) (bsrv b) (bup b) d (bmem b)). split.
          { split; [unfold same; cbn [hist srv up down mem bhist bsrv bup bdown bmem]; repeat split; congruence|]. cbn [running]. left. exists (g c). split; [reflexivity|].
            assert (X : k = fun c => match c with Some b => k0 (Some b) | None => rx_n n k0 end) by congruence. rewrite X. apply O1. }
          apply (good_T size next f0 b); [exact G|congruence|]. unfold bT. rewrite Q. replace q with (Brx g) by congruence. rewrite <- S4. reflexivity.
      + pose proof (idle_down size next f0 b G Q). congruence.
    - (* the next call *)
      destruct (next (hist s)) as [o|] eqn:N; [|left; exists b; split; assumption]. left.
      destruct o as [a n|a dd|a n| |v] eqn:EO.
      4:{ exists b. split; [|exact G]. split; [unfold same; cbn [hist srv up down mem]; repeat split; assumption|]. cbn [running hist]. right. split; [reflexivity|]. split; [exact C'|]. split; [exact N|]. eexists. reflexivity. }
      all: rewrite <- EO in *; exists (mkB (Some (o, bstart o)) (bhist b) (bsrv b) (bup b) (bdown b) (bmem b)); split;
        [split; [unfold same; cbn [hist srv up down mem bhist bsrv bup bdown bmem]; repeat split; congruence|cbn [running]; left; eexists; split; [reflexivity|apply ok_start; congruence]]
        |apply good_start; [exact G|exact C'|congruence]]. }
  intros c s NR I. destruct c; cbn [step]; [apply TS, I|apply TS, I| |congruence].
  destruct I as [(b & C & G)|B].
  2:{ right. destruct (hist_step Serve s) as [E|(e & E)]; cbn [step] in E; rewrite E; [exact B|apply broken_snoc, B]. }
  left. destruct C as (SA & C). pose proof SA as (S1 & S2 & S3 & S4 & S5).
  destruct (bS size b) as [b'|] eqn:E.
  - exists b'. split; [|exact (good_S size next f0 b b' G E)]. unfold bS in E. unfold server_step. rewrite S2, S3.
    assert (X : forall x u d m, corr (mkSys (running s) (hist s) x u d m) (mkB (brun b) (bhist b) x u d m)).
    { intros x u d m. split; [unfold same; cbn [hist srv up down mem bhist bsrv bup bdown bmem]; repeat split; congruence|]. cbn [running hist brun]. exact C. }
    destruct (bsrv b) as [|k|c k|i k|i c k|] eqn:SB; [|destruct (bup b)| | | |]; try discriminate E; injection E as <-; rewrite ?S4, ?S5; apply X.
  - exists b. split; [|exact G]. unfold bS in E. unfold server_step. rewrite S2, S3. destruct (bsrv b) as [|k|c k|i k|i c k|]; [|destruct (bup b)| | | |]; try discriminate E; split; assumption.
Qed.

Lemma inv_run : forall l s, Forall (fun c => c <> Reset) l -> inv s -> inv (run cycles size next l s).
Proof using.
  clear SZ NX. induction l as [|c l IH]; intros s F I; cbn [run fold_left]; [exact I|]. inversion F; subst. apply IH; [assumption|]. apply inv_step; assumption.
Qed.

Lemma inv_replay : forall s, inv s -> forall h1 h2, hist s = h1 ++ h2 -> (forall o r, In (o, r) h1 -> succeeded o r) -> replay f0 h1.
Proof using.
  clear SZ NX. intros s [(b & ((S1 & _) & _) & G)|(g1 & o & r & g2 & E & R & F)] h1 h2 H A.
  - pose proof (good_replay size next f0 b G) as X. rewrite <- S1, H in X. exact (replay_app h1 h2 f0 X).
  - rewrite E in H. clear E. revert f0 h1 H A R. induction g1 as [|x g1 IH]; intros f h1 H A R.
    + destruct h1 as [|y h1]; [exact I|]. injection H as <- _. exfalso. apply F, A. left. reflexivity.
    + destruct h1 as [|y h1]; [exact I|]. injection H as <- H. destruct x as (o', r'). cbn [replay] in *. destruct R as (R1 & R2). split; [exact R1|].
      apply (IH _ h1 H); [intros; apply A; right; assumption|exact R2].
Qed.

Lemma inv_safe : forall s, inv s -> (forall o r, In (o, r) (hist s) -> succeeded o r) -> srv s <> Sbad.
Proof using.
  clear SZ NX. intros s [(b & ((_ & S2 & _) & _) & G)|(g1 & o & r & g2 & E & R & F)] A.
  - rewrite S2. exact (not_bad size next f0 b G).
  - exfalso. apply F, A. rewrite E. apply in_or_app. right. left. reflexivity.
Qed.

Lemma inv_mem : forall s, inv s -> (forall o r, In (o, r) (hist s) -> succeeded o r) -> running s = None -> waits s -> forall x, mem s x = after f0 (hist s) x.
Proof using.
  clear SZ NX. intros s [(b & ((S1 & S2 & S3 & S4 & S5) & C) & G)|(g1 & o & r & g2 & E & RP & F)] A R ((k & W1) & W2) x.
  - rewrite R in C. rewrite S1, S5. apply (idle_mem size next f0 b G C). unfold bS. rewrite <- S2, W1, <- S3, W2. reflexivity.
  - exfalso. apply F, A. rewrite E. apply in_or_app. right. left. reflexivity.
Qed.

(** ** Progress *)

(** The code of a call as it starts: all polls left wherever it will wait. *)
Inductive tracks (o : op) : tproc -> bproc -> Prop :=
| t_ret : forall r, tracks o (Tret r) (Bret r)
| t_tx : forall b p q, tracks o p q -> tracks o (Tx b p) (Btx b q)
| t_wait : forall k q, tracks o (k true) q -> fails o (k false) -> tracks o (wait_n (pred cycles) k) (Bwait q)
| t_rx : forall k g, (forall b, tracks o (k (Some b)) (g b)) -> fails o (k None) -> tracks o (rx_n (pred cycles) k) (Brx g).

Lemma tracks_ok : forall o p q, tracks o p q -> ok o p q.
Proof using. clear. intros o p q H. induction H as [r|b p q H IH|k q H IH F|k g H IH F]; constructor; assumption. Qed.

Lemma t_send : forall o l k q, tracks o (k true) q -> fails o (k false) -> tracks o (send_all cycles l k) (bsend l q).
Proof using.
  clear. intros o. induction l as [|b l IH]; intros k q H F; cbn [send_all bsend]; [exact H|]. apply t_tx. unfold wait_ack. apply t_wait; [apply IH; assumption|exact F].
Qed.
Lemma t_read : forall a N n d, (length d + n = N)%nat -> tracks (Read a N) (read_loop cycles n d) (bread n d).
Proof using.
  clear. intros a N. induction n as [|n IH]; intros d L; cbn [read_loop bread]; [apply t_ret|]. unfold rx_timeout. apply t_rx.
  - intro b. apply t_tx, IH. rewrite app_length. cbn [length]. lia.
  - eexists. split; [reflexivity|]. unfold succeeded. cbn [fst]. lia.
Qed.
Lemma t_start : forall o, o <> Lock -> tracks o (start cycles o) (bstart o).
Proof using.
  clear. intros [a n|a d|a n| |v] L; cbn [start bstart]; [| | |congruence|].
  - apply t_send; [apply t_read; reflexivity|apply bad_ret; exact I].
  - apply t_send; [|apply bad_ret; exact I]. apply t_send; [apply t_ret|apply bad_ret; exact I].
  - apply t_send; [|apply bad_ret; exact I]. unfold wait_ack. apply t_wait; [apply t_ret|apply bad_ret; exact I].
  - apply t_send; [apply t_ret|apply bad_ret; exact I].
Qed.
End Run.
