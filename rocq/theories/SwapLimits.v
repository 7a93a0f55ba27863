(** What does not hold: C18, C19, C20, and the limits of C14 and C17. *)
From Verif Require Import Base BaseLemmas HeaderModel HeaderSpec HeaderProofs Flash FlashLemmas ImageModel
  ImageSpec ImageProofs GenuineProofs TrailerModel TrailerProofs TriggerProofs TrailerCrash SwapModel
  SwapSpec Geometry CopyProofs SwapInv SwapSteps SwapLoop SwapFinal SwapStart RefuseProofs HistoryProofs
  Sample ImageProps SwapProps.
Local Ltac Zify.zify_post_hook ::= idtac.

(** ** Tools for concrete runs *)

Definition end_flash {A} (o : outcome A) (d : flash) : flash :=
  match o with Done _ f => f | Panicked f => f | Wrong => d end.
Definition is_done {A} (o : outcome A) : bool := match o with Done _ _ => true | _ => false end.
Definition is_panic {A} (o : outcome A) : bool := match o with Panicked _ => true | _ => false end.

(** Number of erases and writes of a run. *)
Fixpoint ops {A} (p : prog A) (f : flash) : nat :=
  match p with
  | Rd r => ops (r f) f
  | Er a n k => S (ops k (erase f a n))
  | Wr a n d k => S (ops k (write f a n d))
  | _ => 0%nat
  end.
Lemma ops_0 : forall {A} (p : prog A) f, ops p f = 0%nat -> is_panic (run p f) = true -> run p f = Panicked f.
Proof.
  intros A p f. induction p as [a|r IH|a n p IH|a n d p IH| |]; cbn [ops run is_panic]; intros H K;
    try discriminate; auto.
Qed.

(** Flash before the [m]-th erase or write, if that is an erase. *)
Fixpoint before {A} (m : nat) (p : prog A) (f : flash) : option (flash * (Z * Z)) :=
  match p with
  | Rd r => before m (r f) f
  | Er a n k => match m with O => Some (f, (a, n)) | S m' => before m' k (erase f a n) end
  | Wr a n d k => match m with O => None | S m' => before m' k (write f a n d) end
  | _ => None
  end.
Lemma before_crash : forall {A} (t : tear) (p : prog A) m f f1 a n, before m p f = Some (f1, (a, n)) ->
  crash t p f f1 /\ forall f', torn_erase t a n f1 f' -> crash t p f f'.
Proof.
  intros A t p. induction p as [a0|r IH|a0 n0 p IH|a0 n0 d p IH| |]; intros m f f1 a n; cbn [before crash]; intro E;
    try discriminate.
  - eapply IH, E.
  - destruct m as [|m].
    + injection E as <- <- <-. split; [left; reflexivity|auto].
    + destruct (IH m _ _ _ _ E) as (K1 & K2). split; [auto|]. intros f' T. right; right. apply K2, T.
  - destruct m as [|m]; [discriminate|].
    destruct (IH m _ _ _ _ E) as (K1 & K2). split; [auto|]. intros f' T. right; right. apply K2, T.
Qed.

(** Only whether [u 0] is FINAL matters in the first call. *)
Lemma start_u_final : forall c u f, u 0%nat <> ST_FINAL ->
  run (start c u) f = run (start c (fun i => match i with O => 0 | S _ => u i end)) f.
Proof.
  intros c u f Hu. unfold start. cbn [get bind run]. rewrite !run_bind.
  replace (run (swap_and_final_erase c (u 0%nat) true) f) with (run (swap_and_final_erase c 0 true) f); [reflexivity|].
  unfold swap_and_final_erase. cbn [run]. cbn zeta. destruct (get_partition_state c f PUPDATE); [reflexivity|].
  apply Z.eqb_neq in Hu. rewrite Hu. reflexivity.
Qed.

Lemma holds_by_rdl : forall f a X, rdl f a (length X) = X -> holds f a X.
Proof.
  intros f a X E i Hi. unfold zlen in Hi. rewrite <- E. rewrite rdl_nth by lia. f_equal. lia.
Qed.

Lemma done_end : forall {A} (o : outcome A) d, is_done o = true -> exists a, o = Done a (end_flash o d).
Proof. intros A [a f|f|] d H; try discriminate. exists a. reflexivity. Qed.
Lemma panic_end : forall {A} (o : outcome A) d, is_panic o = true -> o = Panicked (end_flash o d).
Proof. intros A [a f|f|] d H; try discriminate. reflexivity. Qed.

Definition u_zero : nat -> Z := fun _ => 0.
Definition blank : flash := fun _ => 255.
Lemma blank_bytes : bytes blank.
Proof. intro. unfold blank, is_byte. lia. Qed.

(** ** C18 *)

(** The limit checked before an update is PART - SECT - 1 for the firmware alone; with the
    header in front, an accepted image may reach into the sector of the update flags.
    Witness: a signed image of 447 bytes in a 512-byte partition with 128-byte sectors is
    triggered, accepted and installed. *)
Definition long_image : list Z :=
  Eval vm_compute in demo_image 6 (map (fun i => Z.of_nat (i * 13 mod 239)) (seq 3 320) ++ repeat 255 63).
Definition long_flash : flash := store 1024 demo_old (store 2048 long_image blank).

(** The flash after a trigger, and the outcome of the following boot. *)
Definition armed (f : flash) : flash := end_flash (run (update_trigger demo (SECT demo)) f) blank.
Lemma armed_run : forall f, bytes f -> run (update_trigger demo (SECT demo)) f = Done tt (armed f) /\ bytes (armed f).
Proof.
  intros f Hb.
  destruct (trigger_run demo (SECT demo) f demo_geometry demo_fits Hb (or_introl eq_refl)) as (f' & E & B' & _).
  unfold armed. rewrite E. auto.
Qed.

Lemma long_case : forall X f, bytes f -> holds f 2048 X -> 512 - 128 < zlen X ->
  is_done (run (start demo u_zero) (armed f)) = true ->
  rdl (end_flash (run (start demo u_zero) (armed f)) blank) 1024 (length X) = X ->
  exists c X f f1 f2 u, geometry c /\ flags_fit c /\ bytes f /\
    holds f (UPDATE c) X /\ PART c - SECT c < zlen X /\
    run (update_trigger c (SECT c)) f = Done tt f1 /\ run (start c u) f1 = Done (BOOT c + HDR c) f2 /\
    holds f2 (BOOT c) X.
Proof.
  intros X f Hb HX Hl Hd Hr. destruct (armed_run f Hb) as (E1 & B1).
  destruct (done_end _ blank Hd) as (r & E2).
  exists demo, X, f, (armed f), (end_flash (run (start demo u_zero) (armed f)) blank), u_zero.
  split; [exact demo_geometry|]. split; [exact demo_fits|]. split; [exact Hb|]. split; [exact HX|]. split; [exact Hl|].
  split; [exact E1|]. split; [|apply holds_by_rdl; exact Hr].
  destruct (start_verified demo u_zero (armed f) r _ demo_geometry B1 E2) as (_ & Er). rewrite Er in E2. exact E2.
Qed.

Theorem C18_overlap_refuted : exists c X f f1 f2 u, geometry c /\ flags_fit c /\ bytes f /\
  holds f (UPDATE c) X /\ PART c - SECT c < zlen X /\
  run (update_trigger c (SECT c)) f = Done tt f1 /\ run (start c u) f1 = Done (BOOT c + HDR c) f2 /\
  holds f2 (BOOT c) X.
Proof.
  apply (long_case long_image long_flash).
  - apply store_bytes; [apply check_bytes_ok; vm_compute; reflexivity|].
    apply store_bytes; [apply check_bytes_ok; vm_compute; reflexivity|exact blank_bytes].
  - apply store_other; [left; vm_compute; discriminate|]; apply store_holds.
  - vm_compute; reflexivity.
  - vm_compute; reflexivity.
  - vm_compute; reflexivity.
Qed.
Print Assumptions C18_overlap_refuted.

(** What the check does give: accepted firmware is at most PART - SECT - 1 bytes long, so
    the image ends before PART - SECT + HDR. *)
Theorem C18_accepted_size : forall c u f f', geometry c -> bytes f ->
  get_update_sector_flag c f 0 = None \/ get_update_sector_flag c f 0 = Some SF_NEW ->
  run (update c u false) f = Done true f' \/ run (update c u true) f = Done true f' ->
  i_size (snd (open_image c f PUPDATE)) <= PART c - SECT c - 1.
Proof.
  intros c u f f' G Hb Hfl E.
  assert (exists fb, run (update c u fb) f = Done true f') as (fb & E') by (destruct E; eauto). clear E.
  unfold update in E'. cbn [run] in E'. cbn zeta in E'.
  destruct (get_total_size _ _ _ <=? HDR c); [discriminate|].
  destruct (get_type_val c f PUPDATE Hb (hs c G)) as (ty & Ety). cbn [pure bind run] in E'. rewrite Ety in E'.
  cbn [bind get run] in E'.
  replace (match get_update_sector_flag c f 0 with Some fl => fl | None => SF_NEW end) with SF_NEW in E'
    by (destruct Hfl as [ -> | -> ]; reflexivity).
  rewrite Z.eqb_refl in E'. rewrite run_bind in E'. unfold update_checks in E'.
  destruct (_ || _); [discriminate|].
  destruct (Z.gtb_spec (i_size (snd (open_image c f PUPDATE))) (PART c - SECT c - 1)); [discriminate|]. assumption.
Qed.
Print Assumptions C18_accepted_size.

(** ** C19 *)

(** If the last erase of the swap (that of the update trailer) is interrupted, some flags
    may be gone and others not: the next boot then swaps some sectors back only, and no
    later boot succeeds.  Witness: two images of three sectors; the tear clears the state
    byte and the first flag byte only. *)
Definition demo_three : list Z := Eval vm_compute in demo_image 7 (rev demo_fw2).
Lemma demo_three_genuine : genuine demo demo_three 7.
Proof. demo_genuine. Qed.
Definition three_flash : flash := store 1024 demo_new (store 2048 demo_three blank).

(** Any tear, except that no trailer magic is forged. *)
Definition tear_any (c : cfg) : tear := {|
  atomic_erase := fun _ => False; guarded := guarded (tear_std c) |}.

(** The flash before the last erase, with two bytes of the update trailer erased. *)
Definition last_op (f : flash) : option (flash * (Z * Z)) :=
  before (ops (start demo u_zero) f - 1) (start demo u_zero) f.
Definition last_erase (f : flash) : flash :=
  match last_op (armed f) with Some (g, _) => g | None => blank end.
Definition torn_last (f : flash) : flash :=
  let g := last_erase f in fun x => if (x =? 2048 + 512 - 5) || (x =? 2048 + 512 - 6) then 255 else g x.

Lemma torn_case : forall A B f, bytes f -> good demo A -> good demo B -> may_install demo A B ->
  holds f 1024 (fst A) -> holds f 2048 (fst B) -> clean demo f 1024 -> clean demo f 2048 -> ~ on_trial demo f ->
  option_map snd (last_op (armed f)) = Some (2432, 128) ->
  triggered_update demo A B (armed f) /\ crash (tear_any demo) (start demo u_zero) (armed f) (torn_last f).
Proof.
  intros A B f Hb GA GB Hm HA HB CA CB Ht Lo. destruct (armed_run f Hb) as (E1 & B1).
  assert (HT : triggered_update demo A B (armed f)).
  { exists f. split; [exact Hb|]. auto 10. }
  split; [exact HT|]. unfold torn_last, last_erase.
  destruct (last_op (armed f)) as [[f0 [a n]]|] eqn:E0; [|discriminate Lo]. injection Lo as -> ->.
  destruct (before_crash (tear_any demo) (start demo u_zero) _ (armed f) f0 2432 128 E0) as (_ & K).
  destruct (before_crash (tear_std demo) (start demo u_zero) _ (armed f) f0 2432 128 E0) as (K0 & _).
  assert (B0 : bytes f0).
  { destruct (triggered_facts demo A B (armed f) demo_geometry demo_fits GA GB Hm HT) as (Sh & _).
    destruct (Sh false) as (_ & _ & _ & N & HN & HU & _).
    destruct (wpc_crash _ _ _ _ _ (start_wpc demo (fst A) (fst B) (snd A) (snd B) N demo_geometry demo_fits HN GA GB
      false u_zero (armed f) ltac:(discriminate) (or_intror Hm) HU) f0 K0) as [[(k & ph & M)|M]|M]; apply M. }
  apply K. split; [intros []|]. split; [|split].
  - intro x. destruct (_ || _); [unfold is_byte; lia|apply B0].
  - intros x Hx. apply inr_false in Hx. destruct (Z.eqb_spec x (2048 + 512 - 5)); [lia|].
    destruct (Z.eqb_spec x (2048 + 512 - 6)); [lia|]. reflexivity.
  - intros w Hw E. left. rewrite <- E. apply word_ext. intros i Hi.
    assert (w <= 2304) by (destruct Hw as [ -> | -> ]; cbn; lia).
    destruct (Z.eqb_spec (w + i) (2048 + 512 - 5)); [lia|].
    destruct (Z.eqb_spec (w + i) (2048 + 512 - 6)); [lia|]. reflexivity.
Qed.

(** A boot that panics, and whose flash then makes every further boot panic. *)
Definition dead (c : cfg) (f : flash) : Prop := forall u, u 0%nat <> ST_FINAL -> exists f2,
  run (start c u) f = Panicked f2 /\ forall u2, u2 0%nat <> ST_FINAL -> run (start c u2) f2 = Panicked f2.

Definition with_u0 (u1 : nat -> Z) : nat -> Z := fun i => match i with O => 0 | S _ => u1 i end.
Definition dies (u1 u2 : nat -> Z) (f : flash) : bool :=
  match run (start demo (with_u0 u1)) f with
  | Panicked f2 => is_panic (run (start demo (with_u0 u2)) f2) && (ops (start demo (with_u0 u2)) f2 =? 0)%nat
  | _ => false
  end.
Lemma dies_dead : forall f, (forall u1 u2, dies u1 u2 f = true) -> dead demo f.
Proof.
  intros f H u Hu. rewrite start_u_final by exact Hu. fold (with_u0 u).
  pose proof (H u) as K. unfold dies in K.
  destruct (run (start demo (with_u0 u)) f) as [a f2|f2|]; try (specialize (K u_zero); discriminate).
  exists f2. split; [reflexivity|]. intros u2 Hu2. rewrite start_u_final by exact Hu2. fold (with_u0 u2).
  specialize (K u2). apply andb_prop in K. destruct K as (K1 & K2). apply ops_0; [apply Nat.eqb_eq, K2|exact K1].
Qed.

Theorem C19_torn_trailer_erase_refuted : exists c A B u f f1, geometry c /\ flags_fit c /\ good c A /\ good c B /\
  may_install c A B /\ triggered_update c A B f /\ crash (tear_any c) (start c u) f f1 /\ dead c f1.
Proof.
  exists demo, (demo_new, 5), (demo_three, 7), u_zero, (armed three_flash), (torn_last three_flash).
  split; [exact demo_geometry|]. split; [exact demo_fits|]. split; [exact demo_new_genuine|].
  split; [exact demo_three_genuine|]. split; [right; reflexivity|].
  match goal with |- ?P /\ ?Q /\ ?R => cut ((P /\ Q) /\ R); [tauto|] end. split.
  - apply torn_case.
    + apply store_bytes; [apply check_bytes_ok; vm_compute; reflexivity|].
      apply store_bytes; [apply check_bytes_ok; vm_compute; reflexivity|exact blank_bytes].
    + exact demo_new_genuine.
    + exact demo_three_genuine.
    + right; reflexivity.
    + apply store_holds.
    + apply store_other; [left; vm_compute; discriminate|apply store_holds].
    + vm_compute; discriminate.
    + vm_compute; discriminate.
    + vm_compute; discriminate.
    + vm_compute; reflexivity.
  - apply dies_dead. intros u1 u2. vm_compute. reflexivity.
Qed.
Print Assumptions C19_torn_trailer_erase_refuted.

(** ** C20 *)

(** swap_and_final_erase reads the update state into an uninitialised local, and ignores
    the failure when the update trailer carries no magic: with the value of FINAL left on
    the stack, a boot of an intact device copies the stale swap sector over the firmware.
    Witness: the same flash boots or panics. *)
Theorem C20_uninitialised_refuted : exists c A f u1 u2, geometry c /\ flags_fit c /\ good c A /\ initial c A f /\
  is_done (run (start c u1) f) = true /\ is_panic (run (start c u2) f) = true.
Proof.
  exists demo, demo_B, (store 1024 demo_new blank), u_zero, (fun _ => ST_FINAL).
  split; [exact demo_geometry|]. split; [exact demo_fits|]. split; [exact demo_new_genuine|].
  split; [|split; vm_compute; reflexivity].
  split; [apply store_bytes; [apply check_bytes_ok; vm_compute; reflexivity|exact blank_bytes]|].
  split; [apply store_holds|]. split; [vm_compute; discriminate|].
  split; [vm_compute; discriminate|split; vm_compute; discriminate].
Qed.
Print Assumptions C20_uninitialised_refuted.

(** Same result, same flash, same power-failure outcomes. *)
Definition same_behaviour {A} (p q : prog A) : Prop :=
  forall f, run p f = run q f /\ forall t f', crash t p f f' <-> crash t q f f'.
Lemma same_refl : forall A (p : prog A), same_behaviour p p.
Proof. intros A p f. split; [reflexivity|]. intros; reflexivity. Qed.
Lemma crash_now : forall A t (p : prog A) f, crash t p f f.
Proof. induction p as [a|r IH|a n p IH|a n d p IH| |]; intro f; cbn [crash]; auto. Qed.
Lemma crash_in_bind : forall A B t (p : prog A) (k : A -> prog B) f f',
  crash t p f f' \/ (exists a f1, run p f = Done a f1 /\ crash t (k a) f1 f') -> crash t (bind p k) f f'.
Proof.
  induction p as [a|r IH|a n p IH|a n d p IH| |]; intros k f f' H; cbn [crash bind run] in *.
  - destruct H as [ -> |(a' & f1 & E & H)]; [apply crash_now|]. injection E as <- <-. exact H.
  - apply IH. exact H.
  - destruct H as [[H|[H|H]]|H]; [left; exact H|right; left; exact H| |]; right; right; apply IH; [left|right]; exact H.
  - destruct H as [[H|[H|H]]|H]; [left; exact H|right; left; exact H| |]; right; right; apply IH; [left|right]; exact H.
  - destruct H as [H|(a' & f1 & E & _)]; [exact H|discriminate].
  - destruct H as [H|(a' & f1 & E & _)]; [exact H|discriminate].
Qed.
Lemma same_bind : forall A B (p q : prog A) (k h : A -> prog B), same_behaviour p q ->
  (forall a, same_behaviour (k a) (h a)) -> same_behaviour (bind p k) (bind q h).
Proof.
  intros A B p q k h H K f. destruct (H f) as (R & C). split.
  - rewrite !run_bind, R. destruct (run q f); [apply K|reflexivity|reflexivity].
  - intros t f'. split; intro X; apply crash_bind in X; apply crash_in_bind;
      (destruct X as [X|(a & f1 & E & X)]; [left; apply C; exact X|]);
      right; exists a, f1; (split; [congruence|]); apply (K a f1); exact X.
Qed.
Lemma same_rd : forall A (r s : flash -> prog A), (forall f, same_behaviour (r f) (s f)) -> same_behaviour (Rd r) (Rd s).
Proof. intros A r s H f. exact (H f f). Qed.

Lemma same_final : forall c x y r, (x = ST_FINAL <-> y = ST_FINAL) ->
  same_behaviour (swap_and_final_erase c x r) (swap_and_final_erase c y r).
Proof.
  intros c x y r H. unfold swap_and_final_erase. apply same_rd. intro f. cbn zeta.
  destruct (get_partition_state c f PUPDATE); [apply same_refl|].
  assert (E : (x =? ST_FINAL) = (y =? ST_FINAL)).
  { destruct (Z.eqb_spec x ST_FINAL), (Z.eqb_spec y ST_FINAL); tauto. }
  rewrite E. apply same_refl.
Qed.

Lemma same_update : forall c x y fb, (x = ST_FINAL <-> y = ST_FINAL) ->
  same_behaviour (update c x fb) (update c y fb).
Proof.
  intros c x y fb H. unfold update. apply same_rd. intro f. cbn zeta.
  destruct (_ <=? _); [apply same_refl|].
  apply same_bind; [apply same_refl|intro ty]. apply same_bind; [apply same_refl|intro fl].
  apply same_bind; [apply same_refl|intro go]. destruct (negb go); [apply same_refl|].
  apply same_bind; [apply same_refl|intro sec]. apply same_bind; [apply same_refl|intros _].
  apply same_bind; [apply same_final, H|intros _]. apply same_refl.
Qed.

(** What holds instead: the only thing that matters about the uninitialised values is
    whether they are FINAL, and even that is irrelevant when the update trailer
    carries its magic before the boot. *)
Theorem C20_partial : forall c u v, (forall i, u i = ST_FINAL <-> v i = ST_FINAL) ->
  same_behaviour (start c u) (start c v).
Proof.
  intros c u v H. unfold start. apply same_bind; [apply same_refl|]. intros [bs us].
  apply same_bind; [apply same_final, H|intro r]. apply same_bind.
  - destruct r; [apply same_refl|]. destruct (match bs with Some _ => _ | None => _ end).
    + apply same_bind; [apply same_update, H|intros _; apply same_refl].
    + destruct (match us with Some _ => _ | None => _ end); [|apply same_refl].
      apply same_bind; [apply same_update, H|intros _; apply same_refl].
  - intros _. unfold boot_stage. apply same_bind; [apply same_refl|]. intros [ok im]. apply same_bind; [|intro; apply same_refl].
    destruct ok; [apply same_refl|]. apply same_bind; [apply same_update, H|intro; apply same_refl].
Qed.
Print Assumptions C20_partial.

Theorem C20_first_use_partial : forall c u v f, has_magic c f PUPDATE = true ->
  run (start c u) f = run (start c (fun i => match i with O => v | S _ => u i end)) f.
Proof.
  intros c u v f H. unfold start. cbn [get bind run]. rewrite !run_bind.
  replace (run (swap_and_final_erase c (u 0%nat) true) f) with (run (swap_and_final_erase c v true) f); [reflexivity|].
  unfold swap_and_final_erase. cbn [run]. cbn zeta.
  assert (exists s, get_partition_state c f PUPDATE = Some s) as (s & E).
  { unfold get_partition_state. rewrite H. eauto. }
  rewrite E. reflexivity.
Qed.
Print Assumptions C20_first_use_partial.

(** ** Limits of C14 and C17 *)

(** A power failure in the first confirmation of a factory image (state byte going from
    erased to SUCCESS) can leave a byte that reads as TESTING: the next boot takes the
    running image for an unconfirmed one and installs what is in the update partition, here
    an older version. *)
Definition confirm_flash : flash := store 1024 demo_new (store 2048 demo_old blank).
Definition confirm_magic : flash := write confirm_flash (magic_addr demo PBOOT) 4 magic_byte.
Definition confirm_torn : flash := fun x => if x =? state_addr demo PBOOT then 16 else confirm_magic x.

Lemma confirm_crash : crash (tear_std demo) (success demo) confirm_flash confirm_torn.
Proof.
  unfold success, set_partition_state. cbn [get bind crash].
  assert (E : has_magic demo confirm_flash PBOOT = false) by (vm_compute; reflexivity). rewrite E.
  unfold set_partition_magic. cbn [bind crash]. right; right. fold confirm_magic.
  assert (E2 : (confirm_magic (state_addr demo PBOOT) =? ST_SUCCESS) = false) by (vm_compute; reflexivity). rewrite E2.
  unfold set_trailer_at. cbn [crash]. right; left. fold (state_addr demo PBOOT).
  assert (Bm : bytes confirm_magic).
  { apply bytes_write; [|intros; apply magic_byte_range].
    apply store_bytes; [apply check_bytes_ok; vm_compute; reflexivity|].
    apply store_bytes; [apply check_bytes_ok; vm_compute; reflexivity|exact blank_bytes]. }
  split; [|split; [|split]].
  - intro x. unfold confirm_torn. destruct (x =? state_addr demo PBOOT); [unfold is_byte; lia|apply Bm].
  - intros x Hx. apply inr_false in Hx. unfold confirm_torn. destruct (Z.eqb_spec x (state_addr demo PBOOT)); [lia|reflexivity].
  - intros _ x Hx. apply inr_true in Hx. assert (x = state_addr demo PBOOT) as -> by lia.
    exists 16. vm_compute. reflexivity.
  - intros w Hw K. left. rewrite <- K. apply word_ext. intros i Hi. unfold confirm_torn.
    destruct (Z.eqb_spec (w + i) (state_addr demo PBOOT)) as [E3|]; [|reflexivity]. exfalso.
    change (state_addr demo PBOOT) with 1531 in E3. destruct Hw as [Hw|Hw].
    + change (w = 1280) in Hw. lia.
    + change (w = 2304) in Hw. lia.
Qed.

Theorem C14_torn_confirm_refuted : exists c A B f f1 u, geometry c /\ flags_fit c /\ c_allow_downgrade c = false /\
  good c A /\ good c B /\ snd B < snd A /\ initial c A f /\
  crash (tear_std c) (success c) f f1 /\ u 0%nat <> ST_FINAL /\
  is_done (run (start c u) f1) = true /\ holds (end_flash (run (start c u) f1) f1) (BOOT c) (fst B).
Proof.
  exists demo, demo_B, demo_A, confirm_flash, confirm_torn, u_zero.
  split; [exact demo_geometry|]. split; [exact demo_fits|]. split; [reflexivity|].
  split; [exact demo_new_genuine|]. split; [exact demo_old_genuine|]. split; [reflexivity|].
  split.
  { split; [|split; [apply store_holds|split; [vm_compute; discriminate|
      split; [vm_compute; discriminate|split; vm_compute; discriminate]]]].
    apply store_bytes; [apply check_bytes_ok; vm_compute; reflexivity|].
    apply store_bytes; [apply check_bytes_ok; vm_compute; reflexivity|exact blank_bytes]. }
  split; [exact confirm_crash|]. split; [discriminate|]. split; [vm_compute; reflexivity|].
  apply holds_by_rdl. vm_compute. reflexivity.
Qed.
Print Assumptions C14_torn_confirm_refuted.

(** The boot routine takes the trailer magic at the start of the last firmware sector for
    an unfinished swap.  A genuine, confirmed image that happens to contain that word there
    is put on trial again by every boot, with no update pending. *)
Definition marker_fw : list Z :=
  map (fun i => Z.of_nat (i * 11 mod 241)) (seq 5 192) ++ [66; 79; 79; 84] ++ repeat 7 12.
Definition demo_marker : list Z := Eval vm_compute in demo_image 5 marker_fw.
Lemma demo_marker_genuine : genuine demo demo_marker 5.
Proof. demo_genuine. Qed.
Definition marker_flash : flash := store 1024 demo_marker (store (1024 + 507) [0; 66; 79; 79; 84] blank).

Theorem C17_marker_refuted : exists c A f u, geometry c /\ flags_fit c /\ good c A /\ bytes f /\
  holds f (BOOT c) (fst A) /\ settled c f /\ get_partition_state c f PBOOT = Some ST_SUCCESS /\
  is_done (run (start c u) f) = true /\ on_trial c (end_flash (run (start c u) f) f).
Proof.
  exists demo, (demo_marker, 5), marker_flash, u_zero.
  split; [exact demo_geometry|]. split; [exact demo_fits|]. split; [exact demo_marker_genuine|].
  split.
  { apply store_bytes; [apply check_bytes_ok; vm_compute; reflexivity|].
    apply store_bytes; [apply check_bytes_ok; vm_compute; reflexivity|exact blank_bytes]. }
  split; [apply store_holds|]. split; [split; [vm_compute; discriminate|split; vm_compute; discriminate]|].
  split; [vm_compute; reflexivity|]. split; vm_compute; reflexivity.
Qed.
Print Assumptions C17_marker_refuted.
