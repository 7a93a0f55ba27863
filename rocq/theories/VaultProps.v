(** C43: the key vault behaves as named byte strings over all histories of calls and reboots.
    C44: a power failure spares the objects that are not being written. *)
From Verif Require Import Base BaseLemmas HeaderModel Flash FlashLemmas VaultModel VaultSpec VaultProofs VaultCalls VaultRefine VaultHist.

(** On a flash without a vault, any sequence of boots with any sequence of calls gives the
    results of the specification. *)
Theorem C43_history : forall c f oss, vcfg_ok c -> bytes f ->
  word f (VB c) <> VMAGIC -> word f (VB c + VSEC c) <> VMAGIC ->
  boots_ok (items c) (room c) oss empty_store ->
  exists g, run (boots c oss) f = Done (fst (spec_boots (items c) (room c) oss empty_store)) g.
Proof.
  intros c f oss OK Bf M1 M2 H. destruct (first_boots c OK oss f Bf M1 M2 H) as (g & E & _). exists g. exact E.
Qed.
Print Assumptions C43_history.

(** ** The specification itself *)

Lemma vget_same : forall l k d, vget (vset l k d) k = Some d.
Proof.
  induction l as [|[k' d'] l IH]; intros k d; cbn [vset vget].
  - rewrite (proj2 (key_eqb_eq k k) eq_refl). reflexivity.
  - destruct (key_eqb k k') eqn:E; cbn [vget]; rewrite E; [reflexivity|apply IH].
Qed.

Lemma vget_other : forall l k d k0, k0 <> k -> vget (vset l k d) k0 = vget l k0.
Proof.
  induction l as [|[k' d'] l IH]; intros k d k0 Ne; cbn [vset vget].
  - rewrite (proj2 (key_eqb_neq k0 k) Ne). reflexivity.
  - destruct (key_eqb k k') eqn:E; cbn [vget].
    + apply key_eqb_eq in E. subst k'. rewrite (proj2 (key_eqb_neq k0 k) Ne). reflexivity.
    + destruct (key_eqb k0 k'); [reflexivity|]. apply IH. exact Ne.
Qed.

Lemma nth_set_cases : forall (l : list (option ahandle)) i v i' h, nth i' (set_nth l i v) None = Some h -> v = Some h \/ nth i' l None = Some h.
Proof.
  intros l i v i' h N. destruct (Nat.eq_dec i' i) as [ -> |Ne].
  - destruct (Nat.lt_ge_cases i (length l)) as [L|L].
    + rewrite nth_set in N by exact L. left. exact N.
    + rewrite nth_overflow in N by (rewrite set_nth_length; exact L). discriminate.
  - rewrite nth_set_out in N by congruence. right. exact N.
Qed.

Definition holds (k : key) (d : list Z) (s : vstore) : Prop := vget (v_objs s) k = Some d /\ no_writer s k.

Lemma spec_call_keep : forall n m o s k d, holds k d s -> (forall ro, o = OpOpen k ro -> ro = true) -> holds k d (snd (spec_call n m o s)).
Proof.
  intros n m o s k d [G W] Ho.
  assert (X : forall i a objs', (a_key a = k -> a_ro a = true) -> no_writer (mkV objs' (set_nth (v_open s) i (Some a))) k).
  { intros i a objs' Ha i' h N E. cbn [v_open] in N. apply nth_set_cases in N. destruct N as [N|N]; [injection N as <- ; auto|exact (W i' h N E)]. }
  destruct o as [k0 ro|i|i len|i data]; cbn [spec_call].
  - destruct (free_slot (v_open s)) as [i|]; [|split; assumption].
    destruct (key_eqb k k0) eqn:E.
    + apply key_eqb_eq in E. subst k0. rewrite (Ho ro eq_refl), G. cbn [snd]. split; [exact G|]. apply X. reflexivity.
    + apply key_eqb_neq in E. assert (Xk : forall r, a_key (mkA k0 r 0) = k -> a_ro (mkA k0 r 0) = true) by (cbn [a_key]; congruence).
      destruct (vget (v_objs s) k0) eqn:G0; cbn [snd].
      * split; [|apply X, Xk]. cbn [v_objs]. destruct ro; [exact G|]. rewrite vget_other by exact E. exact G.
      * destruct ro; [split; assumption|]. destruct (length (v_objs s) <? n)%nat; cbn [snd]; [|split; assumption].
        split; [|apply X, Xk]. cbn [v_objs]. rewrite vget_other by exact E. exact G.
  - cbn [snd]. split; [exact G|]. intros i' h N E. cbn [v_open] in N. apply nth_set_cases in N. destruct N as [N|N]; [discriminate|exact (W i' h N E)].
  - destruct (nth i (v_open s) None) as [h|] eqn:N; [|split; assumption].
    destruct (vget (v_objs s) (a_key h)) eqn:G0; [|split; assumption]. cbn [snd]. split; [exact G|]. apply X. cbn [a_key a_ro]. intro E. exact (W i h N E).
  - destruct (nth i (v_open s) None) as [h|] eqn:N; [|split; assumption].
    destruct (a_ro h) eqn:Ra; [split; assumption|].
    assert (Ne : a_key h <> k) by (intro E; rewrite (W i h N E) in Ra; discriminate).
    destruct (vget (v_objs s) (a_key h)) eqn:G0; [|split; assumption]. cbn [snd]. split; [|apply X; cbn [a_key]; congruence].
    cbn [v_objs]. rewrite vget_other by congruence. exact G.
Qed.

Lemma spec_calls_keep : forall n m os s k d, holds k d s -> Forall (fun o => forall ro, o = OpOpen k ro -> ro = true) os ->
  holds k d (snd (spec_calls n m os s)).
Proof.
  intros n m os. induction os as [|o os IH]; intros s k d H F; [exact H|]. inversion F as [|x y F1 F2]; subst. cbn [spec_calls].
  pose proof (spec_call_keep n m o s k d H F1) as H1. destruct (spec_call n m o s) as [r s1]. cbn [snd] in H1.
  specialize (IH s1 k d H1 F2). destruct (spec_calls n m os s1) as [rs s2]. exact IH.
Qed.

Lemma holds_reboot : forall k d s, vget (v_objs s) k = Some d -> holds k d (reboot s).
Proof.
  intros k d s G. split; [exact G|]. intros i h N. cbn [reboot v_open] in N. rewrite nth_none in N. discriminate.
Qed.

Lemma spec_boots_keep : forall n m oss s k d, vget (v_objs s) k = Some d ->
  Forall (Forall (fun o => forall ro, o = OpOpen k ro -> ro = true)) oss -> vget (v_objs (snd (spec_boots n m oss s))) k = Some d.
Proof.
  intros n m oss. induction oss as [|os oss IH]; intros s k d H F; [exact H|]. inversion F as [|x y F1 F2]; subst. cbn [spec_boots].
  destruct (spec_calls_keep n m os (reboot s) k d (holds_reboot k d s H) F1) as [H1 _]. destruct (spec_calls n m os (reboot s)) as [r s1].
  cbn [snd] in H1. specialize (IH s1 k d H1 F2). destruct (spec_boots n m oss s1) as [rs s2]. exact IH.
Qed.

Lemma spec_boots_app : forall n m a b s, spec_boots n m (a ++ b) s =
  (fst (spec_boots n m a s) ++ fst (spec_boots n m b (snd (spec_boots n m a s))), snd (spec_boots n m b (snd (spec_boots n m a s)))).
Proof.
  intros n m a. induction a as [|os a IH]; intros b s.
  - cbn [app spec_boots fst snd]. destruct (spec_boots n m b s); reflexivity.
  - cbn [app spec_boots]. destruct (spec_calls n m os (reboot s)) as [rs s1]. rewrite IH.
    destruct (spec_boots n m a s1) as [rss s2]. cbn [fst snd]. reflexivity.
Qed.

(** What is written is read back in any later boot, whatever happens to other objects. *)
Theorem C43_read_back : forall c f oss k d oss' len, vcfg_ok c -> bytes f ->
  word f (VB c) <> VMAGIC -> word f (VB c + VSEC c) <> VMAGIC ->
  boots_ok (items c) (room c) (oss ++ [[OpOpen k false; OpWrite 0 d; OpClose 0]] ++ oss' ++ [[OpOpen k true; OpRead 0 len]]) empty_store ->
  (length d <= room c)%nat -> zlen d <= len ->
  (length (v_objs (snd (spec_boots (items c) (room c) oss empty_store))) < items c)%nat ->
  Forall (Forall (fun o => forall ro, o = OpOpen k ro -> ro = true)) oss' ->
  exists g rs rs', length rs = length oss /\ length rs' = length oss' /\
    run (boots c (oss ++ [[OpOpen k false; OpWrite 0 d; OpClose 0]] ++ oss' ++ [[OpOpen k true; OpRead 0 len]])) f =
    Done (rs ++ [[ROpen (Opened 0); RWrote (zlen d); RClosed]] ++ rs' ++ [[ROpen (Opened 0); RRead (zlen d) d]]) g.
Proof.
  intros c f oss k d oss' len OK Bf M1 M2 H Hd Hl Hi F.
  destruct (C43_history c f _ OK Bf M1 M2 H) as [g E]. rewrite E. clear E H.
  set (n := items c) in *. set (m := room c) in *.
  assert (Len : forall a s, length (fst (spec_boots n m a s)) = length a).
  { intro a. induction a as [|os a IH]; intro s; [reflexivity|]. cbn [spec_boots]. destruct (spec_calls n m os (reboot s)) as [rs s1].
    specialize (IH s1). destruct (spec_boots n m a s1). cbn [fst length] in *. congruence. }
  rewrite !spec_boots_app. cbn [fst].
  set (s1 := snd (spec_boots n m oss empty_store)) in *.
  assert (E1 : exists s2, spec_boots n m [[OpOpen k false; OpWrite 0 d; OpClose 0]] s1 = ([[ROpen (Opened 0); RWrote (zlen d); RClosed]], s2) /\
                          vget (v_objs s2) k = Some d).
  { assert (O : exists s', spec_call n m (OpOpen k false) (reboot s1) = (ROpen (Opened 0), s') /\
      vget (v_objs s') k = Some [] /\ nth 0 (v_open s') None = Some (mkA k false 0)).
    { cbn [spec_call]. change (free_slot (v_open (reboot s1))) with (Some O). cbn [reboot v_objs v_open].
      destruct (vget (v_objs s1) k); [|rewrite (proj2 (Nat.ltb_lt _ _) Hi)];
        (eexists; split; [reflexivity|]; cbn [v_objs v_open]; split; [apply vget_same|reflexivity]). }
    destruct O as (s' & O1 & O2 & O3). cbn [spec_boots spec_calls]. rewrite O1.
    assert (W : exists s2, spec_call n m (OpWrite 0 d) s' = (RWrote (zlen d), s2) /\ vget (v_objs s2) k = Some d).
    { cbn [spec_call]. rewrite O3. cbn [a_ro a_key]. rewrite O2. cbn [length app]. rewrite Nat.sub_0_r.
      rewrite firstn_all2 by exact Hd. eexists. split; [reflexivity|]. apply vget_same. }
    destruct W as (s2 & W1 & W2). rewrite W1. cbn [spec_call]. eexists. split; [reflexivity|exact W2]. }
  destruct E1 as (s2 & E1 & G2). rewrite E1. cbn [fst snd].
  assert (G3 : vget (v_objs (snd (spec_boots n m oss' s2))) k = Some d) by (apply spec_boots_keep; assumption).
  set (s3 := snd (spec_boots n m oss' s2)) in *.
  assert (E2 : fst (spec_boots n m [[OpOpen k true; OpRead 0 len]] s3) = [[ROpen (Opened 0); RRead (zlen d) d]]).
  { cbn [spec_boots spec_calls spec_call]. change (free_slot (v_open (reboot s3))) with (Some O). cbn [reboot v_objs v_open]. rewrite G3. cbn [v_objs v_open].
    change (nth 0 (set_nth (repeat None MAX_OPEN) 0 (Some (mkA k true 0))) None) with (Some (mkA k true 0)). cbn [a_key a_off skipn v_objs v_open fst].
    rewrite G3. cbn [fst]. rewrite firstn_all2 by (unfold zlen in Hl; lia). reflexivity. }
  rewrite E2. exists g, (fst (spec_boots n m oss empty_store)), (fst (spec_boots n m oss' s2)).
  split; [apply Len|]. split; [apply Len|reflexivity].
Qed.
Print Assumptions C43_read_back.

(** If power fails during a call, between two flash operations, every object the call is not
    about is read back unchanged in the next boot; one object per sector. *)
Theorem C44_power_failure : forall c f oss os o rss f1 rs hs f2 g k d len, vcfg_ok c -> OSZ c = VSEC c -> bytes f ->
  word f (VB c) <> VMAGIC -> word f (VB c + VSEC c) <> VMAGIC ->
  let s1 := reboot (snd (spec_boots (items c) (room c) oss empty_store)) in
  let s2 := snd (spec_calls (items c) (room c) os s1) in
  boots_ok (items c) (room c) oss empty_store -> calls_ok (items c) (room c) os s1 -> call_ok s2 o ->
  run (boots c oss) f = Done rss f1 -> run (calls c os no_handles) f1 = Done (rs, hs) f2 -> stops (call c o hs) f2 g ->
  vget (v_objs s2) k = Some d -> about s2 o <> Some k -> zlen d <= len < 2 ^ 31 ->
  exists hs' g', run (calls c [OpOpen k true; OpRead 0 len] no_handles) g = Done ([ROpen (Opened 0); RRead (zlen d) d], hs') g'.
Proof.
  intros c f oss os o rss f1 rs hs f2 g k d len OK One Bf M1 M2 s1 s2 Hb Hc Ho R1 R2 St G Ab Hl.
  destruct (first_boots c OK oss f Bf M1 M2 Hb) as (f1' & E1 & S1). rewrite E1 in R1. injection R1 as _ <- .
  assert (S2 : srel c f2 hs s2).
  { destruct S1 as [[hs1 S1]|[-> S1]].
    - destruct (calls_run c OK os f1' no_handles s1 (reboot_rel c f1' hs1 _ S1) Hc) as (hs' & g' & E2 & S2).
      rewrite E2 in R2. injection R2 as _ <- <- . exact S2.
    - assert (Es : s1 = empty_store) by (unfold s1; rewrite S1; reflexivity).
      rewrite Es in Hc. destruct (first_calls c OK os f no_handles Bf M1 M2 closed_none Hc) as (hs' & g' & E2 & S2).
      rewrite E2 in R2. injection R2 as _ <- <- . destruct S2 as [S2|[_ S2]]; [unfold s2; rewrite Es; exact S2|].
      exfalso. unfold s2 in G. rewrite Es, S2 in G. discriminate. }
  pose proof (sr_ok _ _ _ _ S2) as V. pose proof V as (_ & T & _).
  destruct (rep_get c f2 _ k d (sr_rep _ _ _ _ S2) G) as (j & Hj & U & Ek & Ed).
  assert (X : exists k1, key_ok k1 /\ k1 <> k /\ forall k', about s2 o = Some k' -> k1 = k').
  { destruct (about s2 o) as [k1|] eqn:A.
    - exists k1. split; [|split; [congruence|intros k' E; congruence]].
      destruct o as [k0 ro|i|i n|i data]; cbn [about call_ok] in *; try discriminate.
      + injection A as <- . apply Ho.
      + destruct (nth i (v_open s2) None) as [a|] eqn:N; [|discriminate]. injection A as <- .
        pose proof (handle_at c f2 hs s2 i S2 (proj1 Ho)) as H. rewrite N in H. apply H.
    - destruct (key_eqb k (0, 0, 0)) eqn:E0.
      + apply key_eqb_eq in E0. exists (1, 0, 0). split; [unfold key_ok, INVALID, VMAGIC; lia|]. split; [congruence|discriminate].
      + apply key_eqb_neq in E0. exists (0, 0, 0). split; [unfold key_ok, INVALID, VMAGIC; lia|]. split; [congruence|discriminate]. }
  destruct X as (k1 & K1 & Ne & A1).
  assert (Mg : mid c f2 k1 g).
  { exact (wps_stops _ _ _ _ _ (call_wps c OK f2 hs s2 o k1 S2 Ho A1) St). }
  destruct (recover c OK f2 k1 g Mg) as (h & E & Kh).
  assert (Sf : safe c f2 k1 j) by (apply safe_apart; try assumption; congruence).
  rewrite <- Ed in Hl. destruct (read_back c OK f2 k1 h j len V Kh Hj Sf Hl) as (hs' & g' & Er). rewrite Ek, Ed in Er.
  exists hs', g'. rewrite <- Er. cbn [calls call]. unfold store_open. change (free_handle no_handles) with (Some O). cbn iota.
  assert (E' : run (check_vault c) h = Done tt h).
  { destruct Kh as (_ & [M _] & _). unfold check_vault. cbn [run]. rewrite magic_at, M, Z.eqb_refl. reflexivity. }
  rewrite !run_bind, E, E'. reflexivity.
Qed.
Print Assumptions C44_power_failure.

(** ** Cases *)

(** The default geometry of src/pkcs11_store.c:35-41 with 4 KB sectors, on an erased flash. *)
Definition vdemo : vcfg := {| VB := 0x10000; VSEC := 0x1000; OSZ := 0x1000; MAXI := 0x17 |}.
Definition blank : flash := fun _ => 255.
Definition res {A} (o : outcome A) : option A := match o with Done r _ => Some r | _ => None end.
Definition left_by {A} (o : outcome A) : flash := match o with Done _ g => g | _ => blank end.

Definition A1 : key := (1, 2, 3).
Definition B1 : key := (1, 2, 4).
Definition demo_boots : list (list vop) :=
  [ [OpOpen A1 false; OpWrite 0 [10; 20; 30]; OpOpen B1 false; OpWrite 1 [40]; OpWrite 0 [50]; OpClose 0; OpClose 1];
    [OpOpen A1 true; OpRead 0 2; OpRead 0 9; OpRead 0 9; OpOpen (1, 2, 9) true; OpWrite 0 [1]] ].

Lemma vdemo_ok : vcfg_ok vdemo.
Proof. unfold vcfg_ok. cbn [VB VSEC OSZ MAXI vdemo]. repeat split; try reflexivity; lia. Qed.

(** Deciding the client's obligations. *)
Definition key_okb (k : key) : bool :=
  let '(ty, tok, obj) := k in
  (0 <=? ty) && (ty <? 2 ^ 32) && (0 <=? tok) && (tok <? 2 ^ 32) && (0 <=? obj) && (obj <? 2 ^ 32) &&
  negb (tok =? INVALID) && negb (tok =? VMAGIC).
Definition no_writerb (s : vstore) (k : key) : bool :=
  forallb (fun x => match x with Some h => negb (key_eqb (a_key h) k) || a_ro h | None => true end) (v_open s).
Definition call_okb (s : vstore) (o : vop) : bool :=
  match o with
  | OpOpen k ro => key_okb k && (ro || no_writerb s k)
  | OpClose i => (i <? MAX_OPEN)%nat
  | OpRead i len => (i <? MAX_OPEN)%nat && (0 <=? len) && (len <? 2 ^ 31)
  | OpWrite i data => (i <? MAX_OPEN)%nat && forallb (fun b => (0 <=? b) && (b <? 256)) data && (zlen data <? 2 ^ 31)
  end.
Fixpoint calls_okb (n m : nat) (os : list vop) (s : vstore) : bool :=
  match os with
  | [] => true
  | o :: os' => call_okb s o && calls_okb n m os' (snd (spec_call n m o s))
  end.
Fixpoint boots_okb (n m : nat) (oss : list (list vop)) (s : vstore) : bool :=
  match oss with
  | [] => true
  | os :: oss' => calls_okb n m os (reboot s) && boots_okb n m oss' (snd (spec_calls n m os (reboot s)))
  end.

Lemma call_okb_ok : forall s o, call_okb s o = true -> call_ok s o.
Proof.
  intros s o H. destruct o as [[[ty tok] obj] ro|i|i len|i data]; cbn [call_okb call_ok] in *.
  - apply andb_prop in H. destruct H as [K W]. split.
    + unfold key_okb in K. unfold key_ok. rewrite !andb_true_iff, !negb_true_iff in K. lia.
    + intros -> i h N E. cbn [orb] in W. unfold no_writerb in W. rewrite forallb_forall in W.
      destruct (Nat.lt_ge_cases i (length (v_open s))) as [L|L]; [|rewrite nth_overflow in N by exact L; discriminate].
      specialize (W _ (nth_In _ None L)). rewrite N in W. rewrite E, (proj2 (key_eqb_eq (ty, tok, obj) (ty, tok, obj)) eq_refl) in W. exact W.
  - apply Nat.ltb_lt. exact H.
  - rewrite !andb_true_iff, Nat.ltb_lt in H. lia.
  - rewrite !andb_true_iff, Nat.ltb_lt in H. destruct H as [[H1 H2] H3]. split; [exact H1|]. split; [|lia].
    apply Forall_forall. intros b B. rewrite forallb_forall in H2. specialize (H2 b B). unfold is_byte. lia.
Qed.
Lemma calls_okb_ok : forall n m os s, calls_okb n m os s = true -> calls_ok n m os s.
Proof.
  intros n m os. induction os as [|o os IH]; intros s H; [exact I|]. cbn [calls_okb calls_ok] in *. apply andb_prop in H.
  split; [apply call_okb_ok|apply IH]; apply H.
Qed.
Lemma boots_okb_ok : forall n m oss s, boots_okb n m oss s = true -> boots_ok n m oss s.
Proof.
  intros n m oss. induction oss as [|os oss IH]; intros s H; [exact I|]. cbn [boots_okb boots_ok] in *. apply andb_prop in H.
  split; [apply calls_okb_ok|apply IH]; apply H.
Qed.

Example demo_boots_ok : bytes blank /\ word blank (VB vdemo) <> VMAGIC /\ word blank (VB vdemo + VSEC vdemo) <> VMAGIC /\
  boots_ok (items vdemo) (room vdemo) demo_boots empty_store.
Proof.
  split; [intro a; unfold blank, is_byte; lia|]. split; [vm_compute; discriminate|]. split; [vm_compute; discriminate|].
  apply boots_okb_ok. vm_compute. reflexivity.
Qed.

Example demo_boots_result : res (run (boots vdemo demo_boots) blank) = Some
  [ [ROpen (Opened 0); RWrote 3; ROpen (Opened 1); RWrote 1; RWrote 1; RClosed; RClosed];
    [ROpen (Opened 0); RRead 2 [10; 20]; RRead 2 [30; 50]; RRead 0 []; ROpen (Failed NOT_AVAILABLE_E); RWrote (-1)] ].
Proof. vm_compute. reflexivity. Qed.

(** C43_read_back's hypotheses: [A1] is written after [B1], which is rewritten later. *)
Example demo_read_back :
  let oss := [[OpOpen B1 false; OpWrite 0 [1]; OpClose 0]] in
  let oss' := [[OpOpen B1 false; OpWrite 0 [2; 3]; OpOpen A1 true; OpRead 1 1]] in
  boots_ok (items vdemo) (room vdemo)
    (oss ++ [[OpOpen A1 false; OpWrite 0 [5; 6; 7]; OpClose 0]] ++ oss' ++ [[OpOpen A1 true; OpRead 0 10]]) empty_store /\
  (length (v_objs (snd (spec_boots (items vdemo) (room vdemo) oss empty_store))) < items vdemo)%nat /\
  Forall (Forall (fun o => forall ro, o = OpOpen A1 ro -> ro = true)) oss'.
Proof.
  split; [apply boots_okb_ok; vm_compute; reflexivity|]. split; [apply Nat.ltb_lt; vm_compute; reflexivity|].
  repeat constructor; unfold A1, B1; intros ro E; congruence.
Qed.

(** Power failure after [n] flash operations, or [len] bytes into the programming that is
    operation [n]. *)
Fixpoint cut {A} (n : nat) (p : prog A) (f : flash) : flash :=
  match p with
  | Ret _ | Panic | Stuck => f
  | Rd r => cut n (r f) f
  | Er a k p' => match n with O => f | S n' => cut n' p' (erase f a k) end
  | Wr a k d p' => match n with O => f | S n' => cut n' p' (write f a k d) end
  end.
Lemma cut_stops : forall A (p : prog A) n f, stops p f (cut n p f).
Proof.
  intros A p. induction p as [a|r IH|a k p IH|a k d p IH| |]; intros n f; cbn [cut stops]; try reflexivity.
  - apply IH.
  - destruct n; [left; reflexivity|right; apply IH].
  - destruct n; [left; reflexivity|right; apply IH].
Qed.
Fixpoint torn {A} (n : nat) (len : Z) (p : prog A) (f : flash) : flash :=
  match p with
  | Ret _ | Panic | Stuck => f
  | Rd r => torn n len (r f) f
  | Er a k p' => match n with O => f | S n' => torn n' len p' (erase f a k) end
  | Wr a k d p' => match n with O => if (4 <? k) && (len <=? k) then write f a len d else f | S n' => torn n' len p' (write f a k d) end
  end.
Definition any_tear : tear := {| atomic_erase := fun _ => False; guarded := fun _ => False |}.
Lemma bytes_written : forall f a n d, bytes f -> bytes (write f a n d).
Proof.
  intros f a n d H x. unfold write. destruct (inr a n x); [|apply H].
  rewrite <- (land_255 (f x)) by apply H. rewrite (Z.land_comm 255), <- Z.land_assoc. apply land_byte; [apply H|]. apply Z.land_nonneg. left. lia.
Qed.
Lemma torn_crash : forall A (p : prog A) n len f, bytes f -> crash any_tear p f (torn n len p f).
Proof.
  intros A p. induction p as [a|r IH|a k p IH|a k d p IH| |]; intros n len f Bf; cbn [torn crash]; try reflexivity.
  - apply IH. exact Bf.
  - destruct n; [left; reflexivity|right; right; apply IH, bytes_erase, Bf].
  - destruct n; [|right; right; apply IH, bytes_written, Bf].
    destruct ((4 <? k) && (len <=? k)) eqn:E; [|left; reflexivity]. right; left. apply andb_prop in E. destruct E as [E1 E2].
    split; [apply bytes_written, Bf|]. split; [|split; [lia|intros w []]].
    intros x X. apply write_out. rewrite inr_false in *. lia.
Qed.

(** C44_power_failure's hypotheses: two objects, and the power fails while [A1] is appended to,
    right after its sector was erased. *)
Definition f_two : flash := left_by (run (boots vdemo [[OpOpen A1 false; OpWrite 0 [1; 2]; OpOpen B1 false; OpWrite 1 [40; 41]]]) blank).
Example demo_power_failure :
  let oss := [[OpOpen A1 false; OpWrite 0 [1; 2]; OpOpen B1 false; OpWrite 1 [40; 41]]] in
  let s1 := reboot (snd (spec_boots (items vdemo) (room vdemo) oss empty_store)) in
  let s2 := snd (spec_calls (items vdemo) (room vdemo) [OpOpen A1 false] s1) in
  exists rss rs hs f2, boots_ok (items vdemo) (room vdemo) oss empty_store /\ calls_ok (items vdemo) (room vdemo) [OpOpen A1 false] s1 /\
    call_ok s2 (OpWrite 0 [9; 9]) /\ run (boots vdemo oss) blank = Done rss f_two /\
    run (calls vdemo [OpOpen A1 false] no_handles) f_two = Done (rs, hs) f2 /\
    stops (call vdemo (OpWrite 0 [9; 9]) hs) f2 (cut 3 (call vdemo (OpWrite 0 [9; 9]) hs) f2) /\
    rdl (cut 3 (call vdemo (OpWrite 0 [9; 9]) hs) f2) (VB vdemo + 2 * VSEC vdemo) 12 = repeat 255 12 /\
    vget (v_objs s2) B1 = Some [40; 41] /\ about s2 (OpWrite 0 [9; 9]) <> Some B1.
Proof.
  intros oss s1 s2.
  destruct demo_boots_ok as (Bb & M1 & M2 & _).
  assert (H1 : boots_ok (items vdemo) (room vdemo) oss empty_store) by (apply boots_okb_ok; vm_compute; reflexivity).
  destruct (C43_history vdemo blank oss vdemo_ok Bb M1 M2 H1) as [g E].
  assert (Eg : f_two = g) by (unfold f_two; fold oss; rewrite E; reflexivity).
  assert (R : match run (calls vdemo [OpOpen A1 false] no_handles) f_two with
    | Done (_, hs) f2 => rdl (cut 3 (call vdemo (OpWrite 0 [9; 9]) hs) f2) (VB vdemo + 2 * VSEC vdemo) 12
    | _ => [] end = repeat 255 12) by (vm_compute; reflexivity).
  rewrite <- Eg in E. destruct (run (calls vdemo [OpOpen A1 false] no_handles) f_two) as [[rs hs] f2| |] eqn:E2; [|discriminate R|discriminate R].
  eexists _, rs, hs, f2. split; [exact H1|]. split; [apply calls_okb_ok; vm_compute; reflexivity|].
  split; [apply call_okb_ok; vm_compute; reflexivity|]. split; [exact E|]. split; [reflexivity|]. split; [apply cut_stops|].
  split; [exact R|]. split; [vm_compute; reflexivity|]. vm_compute. discriminate.
Qed.

(** ** Where the code differs *)

(** Objects of two sectors (src/pkcs11_store.c:36 with the 2 KB sectors of STM32L5/U5): the
    part for the second sector is bounded by the whole length, not by what is left, and the
    write reads beyond the caller's 2100 bytes. *)
Theorem C43_overrun_refuted : exists c f os, vcfg_ok {| VB := VB c; VSEC := VSEC c; OSZ := VSEC c; MAXI := MAXI c |} /\
  OSZ c = 2 * VSEC c /\ bytes f /\ word f (VB c) <> VMAGIC /\ word f (VB c + VSEC c) <> VMAGIC /\
  boots_ok (items c) (room c) [os] empty_store /\ run (boots c [os]) f = Wrong.
Proof.
  exists {| VB := 0x10000; VSEC := 0x800; OSZ := 0x1000; MAXI := 0x17 |}, blank, [OpOpen A1 false; OpWrite 0 (repeat 7 2100)].
  split; [unfold vcfg_ok; cbn [VB VSEC OSZ MAXI]; repeat split; try reflexivity; lia|].
  split; [reflexivity|]. split; [intro a; unfold blank, is_byte; lia|]. split; [vm_compute; discriminate|]. split; [vm_compute; discriminate|].
  split; [apply boots_okb_ok; vm_compute; reflexivity|]. vm_compute. reflexivity.
Qed.
Print Assumptions C43_overrun_refuted.

(** A token id of all ones marks a free header: the object is created, and the next creation
    takes its place. *)
Theorem C43_reserved_refuted : exists k k', k <> k' /\
  res (run (boots vdemo [[OpOpen k false; OpWrite 0 [1; 2; 3]; OpClose 0; OpOpen k' false]; [OpOpen k true]]) blank) =
  Some [[ROpen (Opened 0); RWrote 3; RClosed; ROpen (Opened 0)]; [ROpen (Failed NOT_AVAILABLE_E)]].
Proof. exists (1, INVALID, 3), B1. split; [discriminate|]. vm_compute. reflexivity. Qed.
Print Assumptions C43_reserved_refuted.

(** Power fails while the table's sector is programmed, 64 bytes in: the magic is there, so the
    backup is not used, and every object is gone. *)
Theorem C44_torn_refuted : exists g, crash any_tear (call vdemo (OpOpen (7, 8, 9) false) no_handles) f_two g /\
  res (run (boots vdemo [[OpOpen B1 true; OpRead 0 9]]) f_two) = Some [[ROpen (Opened 0); RRead 2 [40; 41]]] /\
  res (run (boots vdemo [[OpOpen B1 true]]) g) = Some [[ROpen (Failed NOT_AVAILABLE_E)]].
Proof.
  exists (torn 3 64 (call vdemo (OpOpen (7, 8, 9) false) no_handles) f_two).
  split; [|split; vm_compute; reflexivity].
  apply torn_crash. unfold f_two. destruct demo_boots_ok as (Bb & M1 & M2 & _).
  assert (H1 : boots_ok (items vdemo) (room vdemo) [[OpOpen A1 false; OpWrite 0 [1; 2]; OpOpen B1 false; OpWrite 1 [40; 41]]] empty_store) by (apply boots_okb_ok; vm_compute; reflexivity).
  destruct (first_boots vdemo vdemo_ok _ blank Bb M1 M2 H1) as (g & E & [[hs S]|[-> _]]); rewrite E; cbn [left_by]; [|exact Bb].
  exact (proj1 (sr_ok _ _ _ _ S)).
Qed.
Print Assumptions C44_torn_refuted.

(** Two objects in a sector (8 KB sectors, STM32H5): the power fails while [A1] is written and
    another object is created before [B1] is read; the copy of their sector is overwritten. *)
Definition vpair : vcfg := {| VB := 0x10000; VSEC := 0x2000; OSZ := 0x1000; MAXI := 0x17 |}.
Theorem C44_shared_refuted : vcfg_ok vpair /\
  exists os g, let p := calls vpair os no_handles in
    let f1 := left_by (run p blank) in
    let hs := match run p blank with Done (_, hs) _ => hs | _ => [] end in
    boots_ok (items vpair) (room vpair) [os] empty_store /\
    stops (call vpair (OpWrite 0 [9]) hs) f1 g /\
    res (run (boots vpair [[OpOpen B1 true; OpRead 0 9]]) g) = Some [[ROpen (Opened 0); RRead 2 [40; 41]]] /\
    res (run (boots vpair [[OpOpen (7, 8, 9) false]; [OpOpen B1 true]]) g) =
      Some [[ROpen (Opened 0)]; [ROpen (Failed NOT_AVAILABLE_E)]].
Proof.
  split; [unfold vcfg_ok; cbn [VB VSEC OSZ MAXI vpair]; repeat split; try reflexivity; lia|].
  exists [OpOpen A1 false; OpWrite 0 [1; 2]; OpOpen B1 false; OpWrite 1 [40; 41]].
  eexists. cbv zeta. split; [apply boots_okb_ok; vm_compute; reflexivity|].
  split; [exact (cut_stops _ _ 3 _)|]. split; vm_compute; reflexivity.
Qed.
Print Assumptions C44_shared_refuted.

(** The search for a header runs on into the backup sector.  If the power fails between the
    commit of an object's data and that of its size, that data is taken for a header: an object
    that was never created can be opened. *)
Theorem C44_ghost_refuted : exists os g k, let p := calls vdemo os no_handles in
    let f1 := left_by (run p blank) in
    let hs := match run p blank with Done (_, hs) _ => hs | _ => [] end in
    let data := le_bytes 4 77 ++ le_bytes 4 0 ++ le_bytes 4 20 in
    boots_ok (items vdemo) (room vdemo) [os ++ [OpWrite 0 data]] empty_store /\
    stops (call vdemo (OpWrite 0 data) hs) f1 g /\
    vget (v_objs (snd (spec_boots (items vdemo) (room vdemo) [os ++ [OpWrite 0 data]] empty_store))) k = None /\
    res (run (boots vdemo [[OpOpen k true]]) f1) = Some [[ROpen (Failed NOT_AVAILABLE_E)]] /\
    res (run (boots vdemo [[OpOpen k true; OpRead 0 100]]) g) = Some [[ROpen (Opened 0); RRead 12 (le_bytes 4 77 ++ le_bytes 4 0 ++ le_bytes 4 20)]].
Proof.
  exists [OpOpen A1 false]. eexists. exists (77, 2, 3). cbv zeta. split; [apply boots_okb_ok; vm_compute; reflexivity|].
  split; [exact (cut_stops _ _ 4 _)|]. split; [vm_compute; reflexivity|]. split; vm_compute; reflexivity.
Qed.
Print Assumptions C44_ghost_refuted.
