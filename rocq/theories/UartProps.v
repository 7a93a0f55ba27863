(** The remote flash properties C57, C58. *)
From Verif Require Import Base UartSpec UartModel UartProofs UartRun UartLive.
Local Ltac Zify.zify_post_hook ::= idtac.

(** * C57 *)

(** Whatever the target and the host are doing when, and however long bytes take: as long as
    every call reports success, the calls return what they return on a memory at hand. *)
Theorem C57_refines : forall cycles size next f0 l, 0 < size < 2 ^ 31 -> (forall h o, next h = Some o -> in_range size o) -> Forall (fun c => c <> Reset) l ->
  forall h1 h2, hist (run cycles size next l (initial size f0)) = h1 ++ h2 -> (forall o r, In (o, r) h1 -> succeeded o r) -> replay f0 h1.
Proof.
  intros cycles size next f0 l SZ NX F h1 h2 H A. refine (inv_replay size next f0 _ _ h1 h2 H A). apply inv_run; [exact F|]. apply inv_initial; assumption.
Qed.
Print Assumptions C57_refines.

(** Between calls, when the host has nothing left to do, its file holds what the calls say.  It
    never leaves the file. *)
Theorem C57_memory : forall cycles size next f0 l, 0 < size < 2 ^ 31 -> (forall h o, next h = Some o -> in_range size o) -> Forall (fun c => c <> Reset) l ->
  let s := run cycles size next l (initial size f0) in (forall o r, In (o, r) (hist s) -> succeeded o r) ->
  srv s <> Sbad /\ (running s = None -> waits s -> forall x, mem s x = after f0 (hist s) x).
Proof.
  intros cycles size next f0 l SZ NX F s A. assert (I : inv size next f0 s) by (apply inv_run; [exact F|]; apply inv_initial; assumption).
  split; [exact (inv_safe size next f0 s I A)|]. exact (inv_mem size next f0 s I A).
Qed.
Print Assumptions C57_memory.

(** If the host is done with what it has received, and the target then sees what has arrived,
    before the target's polls run out, every call succeeds: all calls are made. *)
Theorem C57_progress : forall cycles size next f0 sched, 0 < size < 2 ^ 31 -> (forall h o, next h = Some o -> in_range size o) -> (forall t, sched t <> Reset) ->
  let st := at_time cycles size next sched (initial size f0) in
  (forall i, exists j k, (i <= j <= k)%nat /\ waits (st j) /\ sched k = Tick /\ (turns sched i (k - i) < pred cycles)%nat) ->
  forall n, exists t, running (st t) = None /\ (forall o r, In (o, r) (hist (st t)) -> succeeded o r) /\
    (length (hist (st t)) = n \/ (length (hist (st t)) < n)%nat /\ next (hist (st t)) = None).
Proof.
  intros cycles size next f0 sched SZ NX NR st PR n. destruct (all_live cycles size next f0 sched NR PR SZ NX n) as (t & R & RP & D).
  exists t. split; [exact R|]. split; [exact (replay_succeeded _ _ RP)|exact D].
Qed.
Print Assumptions C57_progress.

(** A program, and a schedule with seven turns of the host for each of the target's. *)
Definition calls0 : list op := [Write 3 [7; 8; 9]; Lock; Erase 4 1; Version 77; Read 2 4].
Definition next0 (h : list (op * result)) : option op := nth_error calls0 (length h).
Definition sched0 (t : nat) : choice := if (t mod 8 =? 7)%nat then Tick else Serve.
Definition mem0 (x : Z) : Z := x mod 256.

Lemma next0_ok : forall h o, next0 h = Some o -> in_range 100 o.
Proof.
  intros h o H. apply nth_error_In in H. destruct H as [<- |[<- |[<- |[<- |[<- |[]]]]]]; cbn [in_range zlen length]; try exact I; try lia.
  - split; [lia|]. split; [unfold zlen; cbn [length]; lia|]. repeat constructor; lia.
Qed.

Definition waitsb (s : sys) : bool := match srv s, up s with Recv _, [] => true | _, _ => false end.
Lemma waitsb_ok : forall s, waitsb s = true -> waits s.
Proof. intros s H. unfold waitsb in H. destruct (srv s) eqn:E; try discriminate H. destruct (up s) eqn:U; [|discriminate H]. split; [eexists; exact E|exact U]. Qed.

(** Run the schedule, checking that the host waits at each of the target's turns. *)
Fixpoint prompt_check (n : nat) (t : nat) (s : sys) : bool * sys :=
  match n with
  | O => (true, s)
  | S n' => if match sched0 t with Tick => waitsb s | _ => true end then prompt_check n' (S t) (step 10 100 next0 (sched0 t) s) else (false, s)
  end.
Lemma prompt_check_ok : forall n t s0 s', prompt_check n t (at_time 10 100 next0 sched0 s0 t) = (true, s') ->
  s' = at_time 10 100 next0 sched0 s0 (t + n) /\ forall u, (t <= u < t + n)%nat -> sched0 u = Tick -> waits (at_time 10 100 next0 sched0 s0 u).
Proof.
  induction n as [|n IH]; intros t s0 s' H; cbn [prompt_check] in H.
  - rewrite Nat.add_0_r. split; [congruence|]. intros u U. lia.
  - destruct (match sched0 t with Tick => waitsb (at_time 10 100 next0 sched0 s0 t) | _ => true end) eqn:E; [|discriminate H].
    destruct (IH (S t) s0 s' H) as (X1 & X2). rewrite Nat.add_succ_r. split; [exact X1|]. intros u U T. destruct (Nat.eq_dec u t) as [-> |N]; [|apply X2; [lia|exact T]].
    rewrite T in E. exact (waitsb_ok _ E).
Qed.

Example C57_prompt : (forall t, sched0 t <> Reset) /\
  (forall i, exists j k, (i <= j <= k)%nat /\ waits (at_time 10 100 next0 sched0 (initial 100 mem0) j) /\ sched0 k = Tick /\ (turns sched0 i (k - i) < pred 10)%nat).
Proof.
  split; [intro t; unfold sched0; destruct (_ =? _)%nat; discriminate|].
  assert (X : match prompt_check 1200 0 (initial 100 mem0) with (true, s) => running s = None /\ length (hist s) = 5%nat /\ waitsb s = true /\ down s = [] | _ => False end) by (vm_compute; repeat split; reflexivity).
  destruct (prompt_check 1200 0 (initial 100 mem0)) as (ok, s) eqn:E. destruct ok; [|destruct X]. destruct X as (X1 & X2 & X3 & X4).
  destruct (prompt_check_ok 1200 0 (initial 100 mem0) s E) as (E1 & E2). cbn [Nat.add] in E1.
  assert (ST : forall c, c <> Reset -> step 10 100 next0 c s = s).
  { intros c NR. apply waitsb_ok in X3. destruct X3 as ((k & W1) & W2). destruct c; cbn [step]; [| | |congruence].
    - unfold target_step. rewrite X1. unfold next0. rewrite X2. reflexivity.
    - unfold target_step. rewrite X1. unfold next0. rewrite X2. reflexivity.
    - unfold server_step. rewrite W1, W2. reflexivity. }
  assert (LT : forall d, at_time 10 100 next0 sched0 (initial 100 mem0) (d + 1200) = s).
  { induction d as [|d IH]; [cbn [Nat.add]; congruence|]. rewrite Nat.add_succ_l. cbn [at_time]. rewrite IH. apply ST. unfold sched0. destruct (_ =? _)%nat; discriminate. }
  intro i. set (k := (8 * (i / 8) + 7)%nat). pose proof (Nat.div_mod i 8 ltac:(lia)) as DM. pose proof (Nat.mod_upper_bound i 8 ltac:(lia)) as MB.
  assert (KT : sched0 k = Tick).
  { unfold sched0, k. replace ((8 * (i / 8) + 7) mod 8)%nat with 7%nat; [reflexivity|]. rewrite Nat.add_comm, Nat.mul_comm, Nat.mod_add by lia. reflexivity. }
  exists k, k. split; [unfold k; lia|]. split; [|split; [exact KT|]].
  - destruct (Nat.lt_ge_cases k 1200) as [L|L]; [apply E2; [lia|exact KT]|]. replace k with ((k - 1200) + 1200)%nat by lia. rewrite LT. exact (waitsb_ok _ X3).
  - assert (B : forall n, (turns sched0 i n <= n)%nat) by (induction n as [|n IH]; cbn [turns]; [lia|]; destruct (sched0 (i + n)%nat); lia).
    specialize (B (k - i)%nat). unfold k in *. change (pred 10) with 9%nat. lia.
Qed.

Example C57_result : hist (at_time 10 100 next0 sched0 (initial 100 mem0) (Z.to_nat 1200)) =
  [(Write 3 [7; 8; 9], (3, [])); (Lock, (0, [])); (Erase 4 1, (0, [])); (Version 77, (0, [])); (Read 2 4, (4, [2; 7; 255; 9]))].
Proof. vm_compute. reflexivity. Qed.

(** * C58: after a failure *)

(** The schedule of one byte that is acknowledged. *)
Definition byte_turns : list choice := [Tick; Serve; Serve; Serve; Serve; Tick].
Fixpoint times {A} (n : nat) (l : list A) : list A := match n with O => [] | S n' => l ++ times n' l end.

Definition data16 : list Z := [1; 2; 3; 4; 5; 6; 7; 8; 9; 10; 11; 12; 13; 14; 15; 16].
Definition next1 (h : list (op * result)) : option op := nth_error [Write 0 data16; Write 50 [77]] (length h).
Lemma next1_ok : forall h o, next1 h = Some o -> in_range 100 o.
Proof.
  intros h o H. apply nth_error_In in H. destruct H as [<- |[<- |[]]]; cbn [in_range]; (split; [lia|]; split; [unfold zlen; cbn [length data16]; lia|repeat constructor; lia]).
Qed.

(** A call after one that timed out reports success and has no effect where it should: its
    command is taken for the rest of the data. *)
Theorem C58_timeout_refuted : ~ (forall cycles size next f0 l, 0 < size < 2 ^ 31 -> (forall h o, next h = Some o -> in_range size o) -> Forall (fun c => c <> Reset) l ->
  let s := run cycles size next l (initial size f0) in running s = None -> waits s ->
  forall h a d r, hist s = h ++ [(Write a d, r)] -> succeeded (Write a d) r -> cells (mem s) a (length d) = d).
Proof.
  intro H. set (l := [Serve; Tick] ++ times 13 byte_turns ++ [Tick; Tick; Tick; Tick] ++ [Serve; Serve; Serve; Tick] ++ times 11 byte_turns ++ [Tick]).
  specialize (H 3%nat 100 next1 mem0 l ltac:(change (2 ^ 31) with 2147483648; lia) next1_ok). cbn zeta in H.
  assert (F : Forall (fun c => c <> Reset) l) by (repeat (apply Forall_cons; [discriminate|]); apply Forall_nil). specialize (H F).
  assert (X : let s := run 3 100 next1 l (initial 100 mem0) in (match running s with None => true | _ => false end) = true /\ waitsb s = true /\ hist s = [(Write 0 data16, (-1, []))] ++ [(Write 50 [77], (1, []))] /\ cells (mem s) 50 1 = [50]) by (vm_compute; repeat split; reflexivity).
  cbn zeta in X. revert H X. generalize (run 3 100 next1 l (initial 100 mem0)). intros s H (X1 & X2 & X3 & X4).
  destruct (running s); [discriminate X1|]. specialize (H eq_refl (waitsb_ok _ X2) _ _ _ _ X3 eq_refl). cbn [length] in H. rewrite X4 in H. discriminate H.
Qed.
Print Assumptions C58_timeout_refuted.

(** The same after a reset of the target during a write. *)
Theorem C58_reset_refuted : ~ (forall cycles size next f0 l, 0 < size < 2 ^ 31 -> (forall h o, next h = Some o -> in_range size o) ->
  let s := run cycles size next l (initial size f0) in running s = None -> waits s -> (forall o r, In (o, r) (hist s) -> succeeded o r \/ r = cut_off) ->
  forall h a d r, hist s = h ++ [(Write a d, r)] -> succeeded (Write a d) r -> cells (mem s) a (length d) = d).
Proof.
  intro H. set (l := [Serve; Tick] ++ times 13 byte_turns ++ [Reset; Tick] ++ times 11 byte_turns ++ [Tick]).
  specialize (H 3%nat 100 next1 mem0 l ltac:(change (2 ^ 31) with 2147483648; lia) next1_ok). cbn zeta in H.
  assert (X : let s := run 3 100 next1 l (initial 100 mem0) in (match running s with None => true | _ => false end) = true /\ waitsb s = true /\ hist s = [(Write 0 data16, cut_off)] ++ [(Write 50 [77], (1, []))] /\ cells (mem s) 50 1 = [50]) by (vm_compute; repeat split; reflexivity).
  cbn zeta in X. revert H X. generalize (run 3 100 next1 l (initial 100 mem0)). intros s H (X1 & X2 & X3 & X4).
  destruct (running s); [discriminate X1|]. specialize (H eq_refl (waitsb_ok _ X2)).
  assert (A : forall o r, In (o, r) (hist s) -> succeeded o r \/ r = cut_off).
  { rewrite X3. intros o r [E|[E|[]]]; injection E as <- <-; [right; reflexivity|left; reflexivity]. }
  specialize (H A _ _ _ _ X3 eq_refl). cbn [length] in H. rewrite X4 in H. discriminate H.
Qed.
Print Assumptions C58_reset_refuted.

(** A write past the end of the memory can report success, and changes another part of it: the
    host drops the command and takes the data for the next one. *)
Theorem C58_range_refuted : ~ (forall cycles size next f0 l, 0 < size < 2 ^ 31 -> Forall (fun c => c <> Reset) l ->
  let s := run cycles size next l (initial size f0) in running s = None -> waits s ->
  forall a d r, 0 <= a -> a + zlen d < 2 ^ 31 -> all_bytes d -> hist s = [(Write a d, r)] -> succeeded (Write a d) r -> forall x, ~ a <= x < a + zlen d -> mem s x = f0 x).
Proof.
  intro H. set (d := [CMD_WOLF; CMD_ERASE; 0; 0; 0; 0; 50; 0; 0; 0]).
  set (next := fun h : list (op * result) => nth_error [Write 96 d] (length h)).
  set (l := [Serve; Tick] ++ times 10 byte_turns ++ [Serve; Serve] ++ times 10 byte_turns ++ times 60 [Serve] ++ [Tick]).
  specialize (H 3%nat 100 next mem0 l ltac:(change (2 ^ 31) with 2147483648; lia)). cbn zeta in H.
  assert (F : Forall (fun c => c <> Reset) l) by (repeat (apply Forall_cons; [discriminate|]); apply Forall_nil). specialize (H F).
  assert (X : let s := run 3 100 next l (initial 100 mem0) in (match running s with None => true | _ => false end) = true /\ waitsb s = true /\ hist s = [(Write 96 d, (10, []))] /\ mem s 20 = 255) by (vm_compute; repeat split; reflexivity).
  cbn zeta in X. revert H X. generalize (run 3 100 next l (initial 100 mem0)). intros s H (X1 & X2 & X3 & X4).
  destruct (running s); [discriminate X1|]. specialize (H eq_refl (waitsb_ok _ X2) 96 d (10, []) ltac:(lia)).
  assert (ZD : zlen d = 10) by reflexivity. rewrite ZD in H.
  assert (Y : mem s 20 = mem0 20).
  { apply H; [change (2 ^ 31) with 2147483648; lia| |exact X3|reflexivity|lia]. unfold d, all_bytes, is_byte, CMD_WOLF, CMD_ERASE. repeat (apply Forall_cons; [lia|]). apply Forall_nil. }
  rewrite X4 in Y. discriminate Y.
Qed.
Print Assumptions C58_range_refuted.

(** The host's check of a range wraps around: it can be made to write outside the file. *)
Theorem C58_wrap_refuted : ~ (forall cycles size next f0 l, 0 < size < 2 ^ 31 -> Forall (fun c => c <> Reset) l ->
  (forall h o, next h = Some o -> exists a b, o = Write a [b] /\ 0 <= a < 2 ^ 32 /\ is_byte b) ->
  srv (run cycles size next l (initial size f0)) <> Sbad).
Proof.
  intro H. set (next := fun h : list (op * result) => nth_error [Write 4294967295 [77]] (length h)).
  set (l := [Serve; Tick] ++ times 11 byte_turns).
  refine (H 3%nat 100 next mem0 l _ _ _ _).
  - change (2 ^ 31) with 2147483648. lia.
  - repeat (apply Forall_cons; [discriminate|]). apply Forall_nil.
  - intros h o E. apply nth_error_In in E. destruct E as [<- |[]]. exists 4294967295, 77. split; [reflexivity|]. change (2 ^ 32) with 4294967296. unfold is_byte. lia.
  - vm_compute. reflexivity.
Qed.
Print Assumptions C58_wrap_refuted.
