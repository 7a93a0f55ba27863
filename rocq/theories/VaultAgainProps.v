(** C44, continued: an object whose creation was interrupted can be created again. *)
From Verif Require Import Base BaseLemmas HeaderModel Flash FlashLemmas VaultModel VaultSpec VaultProofs VaultCalls VaultRefine VaultHist VaultAgain VaultProps.
Local Ltac Zify.zify_post_hook ::= idtac.

(** Power fails while a new object is created, between two flash operations, even while the
    vault itself is made for it, and again in any number of further attempts.  If the first
    call after that is the same one again, it and everything that follows, in that boot and in
    the next ones, behave as if there had been no power failure: nothing is lost, not even the
    place for one object.  One object per sector. *)
Theorem C44_creation_again : forall c f oss os k rss f1 rs hs f2 g g' os' oss', vcfg_ok c -> OSZ c = VSEC c -> bytes f ->
  word f (VB c) <> VMAGIC -> word f (VB c + VSEC c) <> VMAGIC ->
  let s1 := reboot (snd (spec_boots (items c) (room c) oss empty_store)) in
  let s2 := snd (spec_calls (items c) (room c) os s1) in
  boots_ok (items c) (room c) oss empty_store -> calls_ok (items c) (room c) os s1 -> key_ok k ->
  vget (v_objs s2) k = None -> (length (v_objs s2) < items c)%nat ->
  run (boots c oss) f = Done rss f1 -> run (calls c os no_handles) f1 = Done (rs, hs) f2 ->
  stops (call c (OpOpen k false) hs) f2 g -> retried c k g g' ->
  boots_ok (items c) (room c) ((OpOpen k false :: os') :: oss') s2 ->
  exists h, run (boots c ((OpOpen k false :: os') :: oss')) g' =
    Done (fst (spec_boots (items c) (room c) ((OpOpen k false :: os') :: oss') s2)) h.
Proof.
  intros c f oss os k rss f1 rs hs f2 g g' os' oss' OK One Bf M1 M2 s1 s2 Hb Hc K Ab Rm R1 R2 St Re Hn.
  set (s0 := reboot s2).
  assert (O0 : v_open s0 = repeat None MAX_OPEN) by reflexivity.
  assert (J2 : J c k s0 f2).
  { destruct (first_boots c OK oss f Bf M1 M2 Hb) as (f1' & E1 & S1). rewrite E1 in R1. injection R1 as _ <- .
    assert (Rel : forall hs', VaultRefine.srel c f2 hs' s2 -> J c k s0 f2).
    { intros hs' S2. left. apply (base_A c OK); try assumption. apply (reboot_rel c f2 hs' s2 S2). }
    destruct S1 as [[hs1 S1]|[-> S1]].
    - destruct (calls_run c OK os f1' no_handles s1 (reboot_rel c f1' hs1 _ S1) Hc) as (hs' & g1 & E2 & S2).
      rewrite E2 in R2. injection R2 as _ <- <- . exact (Rel _ S2).
    - assert (Es : s1 = empty_store) by (unfold s1; rewrite S1; reflexivity).
      rewrite Es in Hc. destruct (first_calls c OK os f no_handles Bf M1 M2 closed_none Hc) as (hs' & g1 & E2 & S2).
      rewrite E2 in R2. injection R2 as _ <- <- . destruct S2 as [S2|[-> S2]]; [apply (Rel hs'); unfold s2; rewrite Es; exact S2|].
      do 4 right. split; [unfold s0, s2; rewrite Es, S2; reflexivity|]. split; [exact Bf|]. split; assumption. }
  assert (Step : forall hs0 a b, J c k s0 a -> stops (call c (OpOpen k false) hs0) a b -> J c k s0 b).
  { intros hs0 a b Ja Sab. destruct (free_handle hs0) as [i|] eqn:Fi.
    - assert (W : wps (call c (OpOpen k false) hs0) (fun _ _ => True) (J c k s0) a).
      { cbn [call]. apply wps_bind. eapply wps_post; [apply (open_J c OK One k K s0 O0 Ab Rm a hs0 i Ja Fi)|].
        intros [r hs'] h Jh _. cbn [wps]. split; [exact Jh|exact I]. }
      exact (wps_stops _ _ _ _ _ W Sab).
    - cbn [call] in Sab. unfold store_open in Sab. rewrite Fi in Sab. cbn [bind stops] in Sab. subst b. exact Ja. }
  assert (Jg : J c k s0 g') by (apply (Step hs f2 g J2) in St; clear -St Step Re; induction Re as [|a b d Sa Re IH]; [exact St|apply IH, (Step no_handles a b); assumption]).
  destruct (wps_run _ _ _ _ (open_J c OK One k K s0 O0 Ab Rm g' no_handles O Jg eq_refl)) as ([r hs3] & h & E & X).
  destruct (X eq_refl) as [Er S3]. cbn [fst snd] in Er, S3. subst r.
  assert (Sp : spec_call (items c) (room c) (OpOpen k false) s0 =
    (ROpen (Opened 0), mkV (vset (v_objs s0) k []) (set_nth (v_open s0) 0 (Some (mkA k false 0))))).
  { cbn [spec_call]. rewrite O0. change (free_slot (repeat None MAX_OPEN)) with (Some O). cbn iota.
    change (v_objs s0) with (v_objs s2). rewrite Ab, (proj2 (Nat.ltb_lt _ _) Rm). reflexivity. }
  cbn [boots_ok] in Hn. fold s0 in Hn. cbn [calls_ok] in Hn. rewrite Sp in Hn. cbn [snd] in Hn. destruct Hn as [[_ H1] H2].
  cbn [boots spec_boots]. fold s0. cbn [spec_calls] in *. rewrite Sp in *. set (s3 := mkV _ _) in *.
  destruct (calls_run c OK os' h hs3 s3 S3 H1) as (hs4 & h4 & E4 & S4).
  destruct (spec_calls (items c) (room c) os' s3) as [rs4 s4] eqn:Es4. cbn [fst snd] in *.
  destruct (boots_run c OK oss' h4 hs4 s4 S4 H2) as (hs5 & h5 & E5 & S5).
  destruct (spec_boots (items c) (room c) oss' s4) as [rs5 s5]. cbn [fst snd] in *.
  exists h5. rewrite run_bind. cbn [calls call]. rewrite !run_bind, E. cbn [run]. rewrite run_bind, E4. cbn [run]. rewrite run_bind, E5. reflexivity.
Qed.
Print Assumptions C44_creation_again.


Definition k_new : key := (2, 5, 3).
Definition table_of (f : flash) : list Z := rdl f (VB vdemo) 256.

(** Two objects; power fails twice while a third one is created: first when the table with the
    new object is written but its sector is not, then in the next attempt when the table is
    erased. *)
Example demo_creation_again :
  let oss := [[OpOpen A1 false; OpWrite 0 [1; 2]; OpOpen B1 false; OpWrite 1 [40; 41]]] in
  let s1 := reboot (snd (spec_boots (items vdemo) (room vdemo) oss empty_store)) in
  let s2 := snd (spec_calls (items vdemo) (room vdemo) [OpOpen A1 true] s1) in
  exists rss rs hs f2 g g', boots_ok (items vdemo) (room vdemo) oss empty_store /\ calls_ok (items vdemo) (room vdemo) [OpOpen A1 true] s1 /\
    key_ok k_new /\ vget (v_objs s2) k_new = None /\ (length (v_objs s2) < items vdemo)%nat /\ OSZ vdemo = VSEC vdemo /\
    run (boots vdemo oss) blank = Done rss f_two /\ run (calls vdemo [OpOpen A1 true] no_handles) f_two = Done (rs, hs) f2 /\
    stops (call vdemo (OpOpen k_new false) hs) f2 g /\ retried vdemo k_new g g' /\
    table_of g <> repeat 255 256 /\ table_of g <> table_of f2 /\ table_of g' = repeat 255 256 /\
    boots_ok (items vdemo) (room vdemo) [[OpOpen k_new false; OpWrite 0 [7]]; [OpOpen k_new true; OpRead 0 4]] s2.
Proof.
  intros oss s1 s2.
  destruct demo_boots_ok as (Bb & M1 & M2 & _).
  assert (H1 : boots_ok (items vdemo) (room vdemo) oss empty_store) by (apply boots_okb_ok; vm_compute; reflexivity).
  destruct (C43_history vdemo blank oss vdemo_ok Bb M1 M2 H1) as [g E].
  assert (Eg : f_two = g) by (unfold f_two; fold oss; rewrite E; reflexivity).
  rewrite <- Eg in E.
  set (q := OpOpen k_new false).
  assert (R : match run (calls vdemo [OpOpen A1 true] no_handles) f_two with
    | Done (_, hs) f2 => let a := cut 5 (call vdemo q hs) f2 in let b := cut 3 (call vdemo q no_handles) a in
        ((if list_eq_dec Z.eq_dec (table_of a) (repeat 255 256) then false else true) &&
         (if list_eq_dec Z.eq_dec (table_of a) (table_of f2) then false else true) &&
         (if list_eq_dec Z.eq_dec (table_of b) (repeat 255 256) then true else false))%bool
    | _ => false end = true) by (vm_compute; reflexivity).
  destruct (run (calls vdemo [OpOpen A1 true] no_handles) f_two) as [[rs hs] f2| |] eqn:E2; [|discriminate R|discriminate R].
  cbv zeta in R. set (a := cut 5 _ _) in R. set (b := cut 3 _ _) in R.
  destruct (list_eq_dec Z.eq_dec (table_of a) (repeat 255 256)) as [|R1]; [discriminate R|].
  destruct (list_eq_dec Z.eq_dec (table_of a) (table_of f2)) as [|R2]; [discriminate R|].
  destruct (list_eq_dec Z.eq_dec (table_of b) (repeat 255 256)) as [R3|]; [|discriminate R].
  eexists _, rs, hs, f2, a, b. split; [exact H1|]. split; [apply calls_okb_ok; vm_compute; reflexivity|].
  split; [unfold key_ok, k_new, INVALID, VMAGIC; lia|]. split; [vm_compute; reflexivity|]. split; [apply Nat.ltb_lt; vm_compute; reflexivity|].
  split; [reflexivity|]. split; [exact E|]. split; [reflexivity|]. split; [apply cut_stops|].
  split; [apply one_retry with b; [apply cut_stops|apply no_retry]|].
  split; [exact R1|]. split; [exact R2|]. split; [exact R3|]. apply boots_okb_ok. vm_compute. reflexivity.
Qed.
