(** C68 to C70: locking and unlocking the disk. *)
From Verif Require Import Base BaseLemmas LockSpec LockModel LockProofs.
Local Ltac Zify.zify_post_hook ::= idtac.

(** ** C68: when is the disk opened *)

(** What an accepted boot does to the drive: a drive without a password gets the secret as
    password; a locked drive needs it; both are frozen.  A drive that was opened and frozen
    before is left alone. *)
Definition opens (d : drive) (pw : list Z) (d' : drive) : Prop :=
  capable d = true /\
  ((user d = None /\ frozen d = false /\ d' = with_frozen (with_user d (Some (filled pw)) true)) \/
   (user d = Some (filled pw) /\ locked d = true /\ (0 < tries d)%nat /\ d' = with_frozen (with_user d (user d) (high d))) \/
   (enabled d = true /\ locked d = false /\ frozen d = true /\ d' = d)).

Lemma start_rest : forall rc mem d l,
  disk_start false rc mem (new_port d l) =
  tick l (at_rest d 0 l) (fun l =>
    match sata_unlock_disk false rc mem true (at_rest d (security_state d) l) with
    | Ret r p => (if negb (r =? 0) then panic else ret tt) p
    | Stop s p => Stop s p
    end).
Proof.
  intros. unfold disk_start. unfold bind at 1. change (new_port d l) with (at_rest d 0 l).
  rewrite identify_rest, tick_bind. reflexivity.
Qed.

Lemma state_cases : forall d, security_state d =
  if negb (capable d) then 0
  else match enabled d, locked d, frozen d with
       | false, _, false => 1 | false, _, true => 2 | true, true, _ => 4 | true, false, false => 5 | true, false, true => 6
       end.
Proof. reflexivity. Qed.

(** The boot with unfailing power: accepted, or stopped by a panic; nothing else. *)
Lemma boot_result : forall mem pw d, sound d -> c_string mem = Some pw -> zlen pw <= 8190 ->
  (exists p, disk_start false 0 mem (new_port d None) = Ret tt p /\ opens d pw (dev p)) \/
  (exists p, disk_start false 0 mem (new_port d None) = Stop Panicked p /\ (forall d', ~ opens d pw d') /\
     (locked d = true -> locked (dev p) = true) /\ user (dev p) = user d).
Proof.
  intros mem pw d Hs E H. rewrite start_rest. cbn [tick].
  rewrite (unlock_rest mem pw) by assumption. unfold opens.
  destruct d as [cap us ma hi lo fr tr ot]. unfold sound, enabled in Hs. cbn [locked frozen capable user] in Hs.
  unfold security_state, enabled. cbn [capable user locked frozen tries].
  destruct cap; cbn [negb].
  2:{ right. eexists. split; [reflexivity|]. split; [intros d' (K & _); discriminate|]. split; [auto|reflexivity]. }
  destruct us as [u|].
  - destruct lo.
    + destruct (Hs eq_refl) as (_ & F & _). subst fr. cbn [tick]. destruct tr as [|n].
      * right. eexists. split; [reflexivity|]. split.
        { intros d' (_ & [(K & _)|[(_ & _ & K & _)|(_ & K & _)]]); [discriminate|lia|discriminate]. }
        split; [auto|reflexivity].
      * destruct (eq_bytes (filled pw) u) eqn:Eq.
        -- apply eq_bytes_iff in Eq. subst u. left. eexists. split; [reflexivity|]. split; [reflexivity|].
           right. left. split; [reflexivity|]. split; [reflexivity|]. split; [lia|reflexivity].
        -- right. eexists. split; [reflexivity|]. split.
           { intros d' (_ & [(K & _)|[(K & _)|(_ & K & _)]]); [discriminate| |discriminate].
             assert (u = filled pw) by congruence. subst u. rewrite eq_bytes_refl in Eq. discriminate. }
           split; [auto|reflexivity].
    + destruct fr.
      * left. eexists. split; [reflexivity|]. split; [reflexivity|]. right. right. repeat (split; [reflexivity|]). reflexivity.
      * right. eexists. split; [reflexivity|]. split.
        { intros d' (_ & [(K & _)|[(_ & K & _)|(_ & _ & K & _)]]); discriminate. }
        split; [auto|reflexivity].
  - destruct lo; [destruct (Hs eq_refl); discriminate|]. destruct fr.
    + right. eexists. split; [reflexivity|]. split.
      { intros d' (_ & [(_ & K & _)|[(K & _)|(K & _)]]); discriminate. }
      split; [auto|reflexivity].
    + left. eexists. split; [reflexivity|]. split; [reflexivity|]. left. repeat (split; [reflexivity|]). reflexivity.
Qed.

(** C68: wolfBoot goes on with the disk exactly when the drive has the security feature set and
    either has no password and is not frozen (it gets the secret as its password), or is locked
    with the secret (it is unlocked), or was unlocked and frozen before. *)
Theorem C68_exact : forall mem pw d d', sound d -> c_string mem = Some pw -> zlen pw <= 8190 ->
  (exists p, disk_start false 0 mem (new_port d None) = Ret tt p /\ dev p = d') <-> opens d pw d'.
Proof.
  intros mem pw d d' Hs E H. destruct (boot_result mem pw d Hs E H) as [(p & Ep & O)|(p & Ep & N & _)].
  - split.
    + intros (p' & Ep' & <-). assert (p = p') by congruence. subst p'. exact O.
    + intro O'. exists p. split; [exact Ep|].
      destruct O as (_ & [(A & B & ->)|[(A & B & B' & ->)|(A & B & B' & ->)]]);
      destruct O' as (_ & [(A' & _ & ->)|[(A' & C & _ & ->)|(A' & C & _ & ->)]]); try reflexivity; try congruence;
      unfold enabled in *; destruct (user d); congruence.
  - split; [intros (p' & Ep' & _); congruence|]. intro O. exfalso. exact (N d' O).
Qed.
Print Assumptions C68_exact.

Lemma unlock_unusable : forall mem d s l, (forall pw, c_string mem = Some pw -> 8190 < zlen pw) -> s = 1 \/ s = 4 ->
  sata_unlock_disk false 0 mem true (at_rest d s l) = Stop Undefined (at_rest d s l).
Proof.
  intros mem d s l H Hs.
  assert (P : forall k m, security_command_passphrase k mem m (at_rest d s l) = Stop Undefined (at_rest d s l)).
  { intros k m. unfold security_command_passphrase, bind, prepare_cmd_h2d_slot, find_cmd_slot.
    destruct (c_string mem) as [pw|]; [|reflexivity]. specialize (H pw eq_refl).
    destruct (Z.ltb_spec 8190 (zlen pw)); [reflexivity|lia]. }
  unfold sata_unlock_disk, bind, ata_security_get_state, ata_security_set_password, ata_security_unlock_device.
  cbn [Z.eqb negb andb]. change (sec (at_rest d s l)) with s.
  destruct Hs as [ -> | -> ]; cbn [Z.eqb Pos.eqb negb andb]; rewrite P; reflexivity.
Qed.

Lemma usable : forall mem d s l r p, s = 1 \/ s = 4 ->
  sata_unlock_disk false 0 mem true (at_rest d s l) = Ret r p -> exists pw, c_string mem = Some pw /\ zlen pw <= 8190.
Proof.
  intros mem d s l r p Hs H. destruct (c_string mem) as [pw|] eqn:E.
  - destruct (Z.leb_spec (zlen pw) 8190); [exists pw; auto|].
    rewrite unlock_unusable in H; [discriminate| |exact Hs].
    intros pw' E'. assert (pw' = pw) by congruence. subst. assumption.
  - rewrite unlock_unusable in H; [discriminate| |exact Hs]. intros pw' E'. congruence.
Qed.

Lemma unlock_final : forall mem d s l, s <> 1 -> s <> 4 ->
  sata_unlock_disk false 0 mem true (at_rest d s l) = if s =? 6 then Ret 0 (at_rest d s l) else Stop Panicked (at_rest d s l).
Proof.
  intros mem d s l H1 H4. unfold sata_unlock_disk, bind, ata_security_get_state. cbn [sec at_rest Z.eqb negb andb].
  destruct (Z.eqb_spec s 1); [contradiction|]. destruct (Z.eqb_spec s 4); [contradiction|].
  change (sec (at_rest d s l)) with s. destruct (Z.eqb_spec s 6); reflexivity.
Qed.

Lemma unlock_six : forall mem d l p, sound d ->
  sata_unlock_disk false 0 mem true (at_rest d (security_state d) l) = Ret 0 p ->
  security_state (dev p) = 6 /\ sound (dev p).
Proof.
  intros mem d l p Hs H.
  destruct (Z.eq_dec (security_state d) 1) as [S1|S1]; [|destruct (Z.eq_dec (security_state d) 4) as [S4|S4]].
  3:{ rewrite unlock_final in H by assumption. destruct (Z.eqb_spec (security_state d) 6) as [Q|]; [|discriminate].
      assert (p = at_rest d (security_state d) l) as -> by congruence. cbn [dev at_rest]. auto. }
  all: assert (U : exists pw, c_string mem = Some pw /\ zlen pw <= 8190) by (eapply usable; [|exact H]; auto).
  all: destruct U as (pw & E & Hl); rewrite (unlock_rest mem pw) in H by assumption; cbv zeta in H.
  all: assert (F : forall u h l1, (if security_state (with_frozen (with_user d u h)) =? 6
          then Ret 0 (at_rest (with_frozen (with_user d u h)) (security_state (with_frozen (with_user d u h))) l1)
          else Stop Panicked (at_rest (with_frozen (with_user d u h)) (security_state (with_frozen (with_user d u h))) l1)) = Ret 0 p ->
          security_state (dev p) = 6 /\ sound (dev p))
    by (intros u h l1 K; destruct (Z.eqb_spec (security_state (with_frozen (with_user d u h))) 6) as [Q|]; [|discriminate];
        assert (p = at_rest (with_frozen (with_user d u h)) (security_state (with_frozen (with_user d u h))) l1) as -> by congruence;
        cbn [dev at_rest]; split; [exact Q|intro K2; cbn in K2; discriminate]).
  - rewrite S1 in H. destruct l as [[|[|[|n]]]|]; cbn [tick] in H; try discriminate; exact (F _ _ _ H).
  - rewrite S4 in H. destruct l as [[|m]|]; cbn [tick] in H; [discriminate| |];
      (destruct (tries d) as [|k]; [discriminate|]); (destruct (eq_bytes _ _); [|discriminate]).
    + destruct m as [|[|[|n]]]; cbn [tick] in H; try discriminate; exact (F _ _ _ H).
    + exact (F _ _ _ H).
Qed.

(** C68: the operating system is started only with the drive protected by a password, unlocked
    and frozen; whatever commands it sends until power is switched off, the passwords stay. *)
Theorem C68_protected : forall rc mem d l p, sound d ->
  disk_start false rc mem (new_port d l) = Ret tt p ->
  enabled (dev p) = true /\ locked (dev p) = false /\ frozen (dev p) = true /\
  forall cs, user (fold_left (fun d c => snd (perform d c)) cs (dev p)) = user (dev p) /\
             master (fold_left (fun d c => snd (perform d c)) cs (dev p)) = master (dev p).
Proof.
  intros rc mem d l p Hs Hd.
  assert (S6 : security_state (dev p) = 6 /\ sound (dev p)).
  { rewrite start_rest in Hd.
    assert (G : forall l, match sata_unlock_disk false rc mem true (at_rest d (security_state d) l) with
               | Ret r p => (if negb (r =? 0) then panic else ret tt) p | Stop s p => Stop s p end = Ret tt p ->
               security_state (dev p) = 6 /\ sound (dev p)).
    { clear l Hd. intros l Hd. destruct (Z.eqb_spec rc 0) as [->|N].
      - destruct (sata_unlock_disk false 0 mem true (at_rest d (security_state d) l)) as [r q|] eqn:E; [|discriminate].
        destruct (Z.eqb_spec r 0) as [->|]; [|discriminate]. cbn [negb] in Hd. unfold ret in Hd.
        assert (q = p) by congruence. subst q. exact (unlock_six _ _ _ _ Hs E).
      - unfold sata_unlock_disk in Hd. destruct (Z.eqb_spec rc 0) as [K|_] in Hd; [contradiction|]. cbn [negb] in Hd. unfold ret at 1 in Hd.
        destruct (Z.eqb_spec rc 0); [contradiction|discriminate]. }
    destruct l as [[|n]|]; cbn [tick] in Hd; [discriminate|exact (G _ Hd)|exact (G _ Hd)]. }
  destruct S6 as (S6 & Sp). rewrite state_cases in S6. unfold enabled in *.
  destruct (capable (dev p)); cbn [negb] in S6; [|discriminate].
  destruct (user (dev p)) as [u|] eqn:U, (locked (dev p)), (frozen (dev p)) eqn:Fr; try discriminate.
  repeat (split; [reflexivity|]). intro cs.
  assert (K : forall cs d0, frozen d0 = true -> sound d0 ->
     user (fold_left (fun d c => snd (perform d c)) cs d0) = user d0 /\
     master (fold_left (fun d c => snd (perform d c)) cs d0) = master d0).
  { clear. induction cs as [|c cs IH]; intros d0 Fr Hs; [split; reflexivity|]. cbn [fold_left].
    destruct (frozen_perform c d0 Fr Hs) as (A & B & _ & C & D). destruct (IH _ B C) as (I1 & I2).
    rewrite I1, I2. auto. }
  destruct (K cs (dev p) Fr Sp) as (A & B). split; [congruence|exact B].
Qed.
Print Assumptions C68_protected.

(** C68: otherwise the boot stops; a locked drive stays locked and no password changes. *)
Theorem C68_refused : forall mem pw d, sound d -> c_string mem = Some pw -> zlen pw <= 8190 ->
  (forall d', ~ opens d pw d') ->
  exists p, disk_start false 0 mem (new_port d None) = Stop Panicked p /\
    (locked d = true -> locked (dev p) = true) /\ user (dev p) = user d.
Proof.
  intros mem pw d Hs E H N. destruct (boot_result mem pw d Hs E H) as [(p & Ep & O)|(p & Ep & _ & L & U)].
  - exfalso. exact (N _ O).
  - exists p. auto.
Qed.
Print Assumptions C68_refused.

(** C68 fails for the emulator target: a drive without the feature set is accepted, unprotected
    (src/x86/ahci.c:423-426). *)
Theorem C68_emulator_refuted : forall mem d, capable d = false ->
  exists p, disk_start true 0 mem (new_port d None) = Ret tt p /\ dev p = d.
Proof.
  intros mem d C. exists (at_rest d 0 None). split; [|reflexivity].
  unfold disk_start. unfold bind at 1. change (new_port d None) with (at_rest d 0 None). rewrite identify_rest. cbn [tick].
  rewrite state_cases, C. cbn [negb]. reflexivity.
Qed.
Print Assumptions C68_emulator_refuted.

(** ** C69: the disk is never lost *)

(** One session of the machine: the outcome of fetching the secret (return code and array);
    the number of commands after which power fails during the boot, if it does; the commands of
    the operating system, if it is started.  Then power is switched off and on. *)
Record period := { fetch_rc : Z; fetched : list Z; fails : option nat; os : list command }.

Definition live (d : drive) (x : period) : bool * drive :=
  match disk_start false (fetch_rc x) (fetched x) (new_port d (fails x)) with
  | Ret _ p => (true, power (fold_left (fun d c => snd (perform d c)) (os x) (dev p)))
  | Stop _ p => (false, power (dev p))
  end.
Definition history (d : drive) (l : list period) : drive := fold_left (fun d x => snd (live d x)) l d.

(** Whenever a secret was fetched, it was [pw]. *)
Definition same_secret (pw : list Z) (x : period) : Prop := fetch_rc x = 0 -> c_string (fetched x) = Some pw.

(** A drive just switched on whose password, if any, is [pw]. *)
Definition ours (pw : list Z) (d : drive) : Prop :=
  capable d = true /\ frozen d = false /\ locked d = enabled d /\ tries d = 5%nat /\
  (user d = None \/ user d = Some (filled pw)).

Lemma ours_sound : forall pw d, ours pw d -> sound d.
Proof. intros pw d (C & F & L & _) K. rewrite <- L. auto. Qed.

Lemma ours_power : forall pw d, capable d = true -> (user d = None \/ user d = Some (filled pw)) -> ours pw (power d).
Proof. intros pw d C U. unfold ours. cbn. repeat (split; [auto|]). exact U. Qed.

(** However a boot ends, the password is none or ours; once ours it stays. *)
Lemma start_user : forall rc mem pw d l, ours pw d -> zlen pw <= 8190 -> (rc = 0 -> c_string mem = Some pw) ->
  let d' := match disk_start false rc mem (new_port d l) with Ret _ p => dev p | Stop _ p => dev p end in
  capable d' = true /\ (user d' = user d \/ user d' = Some (filled pw)) /\
  (forall p, disk_start false rc mem (new_port d l) = Ret tt p -> user (dev p) = Some (filled pw)).
Proof.
  intros rc mem pw d l O Hl Hm. pose proof (ours_sound pw d O) as Hs.
  rewrite start_rest. destruct (Z.eqb_spec rc 0) as [->|N].
  2:{ assert (E : forall l, sata_unlock_disk false rc mem true (at_rest d (security_state d) l) = Ret rc (at_rest d (security_state d) l)).
      { intro l0. unfold sata_unlock_disk. destruct (Z.eqb_spec rc 0); [contradiction|]. reflexivity. }
      destruct O as (C & _).
      destruct l as [[|n]|]; cbn [tick]; rewrite ?E; destruct (Z.eqb_spec rc 0); try contradiction; cbn [negb];
        (split; [exact C|]; split; [left; reflexivity|]; intros p K; discriminate). }
  specialize (Hm eq_refl).
  assert (Q : forall l, sata_unlock_disk false 0 mem true (at_rest d (security_state d) l) = _)
    by (intro; apply (unlock_rest mem pw true d); assumption).
  destruct O as (C & F & L & T & U). destruct d as [cap us ma hi lo fr tr ot]. cbn [capable frozen tries user] in *.
  unfold enabled in L. cbn [locked user] in L. subst cap fr tr.
  assert (RR : forall x y, filled x = filled y -> eq_bytes (filled x) (filled y) = true) by (intros; apply eq_bytes_iff; assumption).
  destruct U as [ -> | -> ]; subst lo.
  - destruct l as [[|[|[|[|n]]]]|]; cbn [tick]; rewrite ?Q; unfold security_state, enabled;
      cbn [capable user locked frozen tries negb tick Z.eqb Pos.eqb with_user with_frozen];
      (split; [reflexivity|]); (split; [first [left; reflexivity|right; reflexivity]|]); intros p K; try discriminate;
      (assert (P : forall q, Ret tt q = Ret tt p -> p = q) by (intros; congruence));
      apply P in K; subst p; reflexivity.
  - destruct l as [[|[|[|[|[|n]]]]]|]; cbn [tick]; rewrite ?Q; unfold security_state, enabled;
      cbn [capable user locked frozen tries negb tick Z.eqb Pos.eqb with_user with_frozen]; rewrite ?eq_bytes_refl;
      cbn [capable user locked frozen tries negb tick Z.eqb Pos.eqb with_user with_frozen];
      (split; [reflexivity|]); (split; [first [left; reflexivity|right; reflexivity]|]); intros p K; try discriminate;
      (assert (P : forall q, Ret tt q = Ret tt p -> p = q) by (intros; congruence));
      apply P in K; subst p; reflexivity.
Qed.

Lemma os_capable : forall cs d, frozen d = true -> sound d ->
  capable (fold_left (fun d c => snd (perform d c)) cs d) = capable d.
Proof.
  induction cs as [|c cs IH]; intros d F Hs; [reflexivity|]. cbn [fold_left].
  destruct (frozen_perform c d F Hs) as (_ & B & C & D & _). rewrite IH by assumption. exact C.
Qed.

Lemma live_ours : forall pw d x, ours pw d -> zlen pw <= 8190 -> same_secret pw x ->
  ours pw (snd (live d x)) /\
  (user d = Some (filled pw) -> user (snd (live d x)) = Some (filled pw)) /\
  (fst (live d x) = true -> user (snd (live d x)) = Some (filled pw)).
Proof.
  intros pw d x O Hl Hx. pose proof (ours_sound pw d O) as Hs.
  destruct (start_user (fetch_rc x) (fetched x) pw d (fails x) O Hl Hx) as (C & U & R).
  assert (U' : match disk_start false (fetch_rc x) (fetched x) (new_port d (fails x)) with
               | Ret _ p => user (dev p) | Stop _ p => user (dev p) end = user d \/
               match disk_start false (fetch_rc x) (fetched x) (new_port d (fails x)) with
               | Ret _ p => user (dev p) | Stop _ p => user (dev p) end = Some (filled pw)).
  { destruct (disk_start false (fetch_rc x) (fetched x) (new_port d (fails x))); exact U. }
  clear U. unfold live. destruct (disk_start false (fetch_rc x) (fetched x) (new_port d (fails x))) as [[] p|s p] eqn:E.
  - destruct (C68_protected _ _ _ _ _ Hs E) as (En & Lo & Fr & Keep). destruct (Keep (os x)) as (K & _).
    specialize (R p eq_refl). cbn [fst snd]. cbn [user power]. rewrite K, R.
    assert (Sp : sound (dev p)) by (intro Q; congruence).
    split; [apply ours_power; [rewrite os_capable by assumption; exact C|right; congruence]|]. auto.
  - cbn [fst snd]. cbn [user power]. split; [|split].
    + apply ours_power; [exact C|]. destruct O as (_ & _ & _ & _ & [N|N]); destruct U' as [U'|U']; rewrite U'; auto.
    + intro N. destruct U' as [U'|U']; [rewrite U'; exact N|exact U'].
    + discriminate.
Qed.

Lemma history_ours : forall pw l d, ours pw d -> zlen pw <= 8190 -> Forall (same_secret pw) l -> ours pw (history d l).
Proof.
  unfold history. induction l as [|x l IH]; intros d O Hl HF; [exact O|]. cbn [fold_left].
  inversion HF as [|? ? Hx Hr]; subst. apply IH; [|exact Hl|exact Hr]. apply live_ours; assumption.
Qed.

(** C69: starting with a drive without a password, after any number of boots, with power
    failing after any command of any of them, with the secret unavailable at any of them, and
    with anything the operating system sends to the drive: the next boot opens the disk. *)
Theorem C69_never_lost : forall pw d l mem, capable d = true -> user d = None -> zlen pw <= 8190 ->
  Forall (same_secret pw) l -> c_string mem = Some pw ->
  exists p, disk_start false 0 mem (new_port (history (power d) l) None) = Ret tt p /\
    user (dev p) = Some (filled pw) /\ locked (dev p) = false /\ frozen (dev p) = true.
Proof.
  intros pw d l mem C U Hl HF E.
  assert (O : ours pw (history (power d) l)) by (apply history_ours; [apply ours_power; auto|exact Hl|exact HF]).
  pose proof (ours_sound _ _ O) as Hs.
  destruct (boot_result mem pw _ Hs E Hl) as [(p & Ep & Op)|(p & _ & N & _)].
  - exists p. split; [exact Ep|].
    destruct (C68_protected _ _ _ _ _ Hs Ep) as (En & Lo & Fr & _).
    split; [|auto]. destruct (start_user 0 mem pw _ None O Hl (fun _ => E)) as (_ & _ & R). exact (R p Ep).
  - exfalso. destruct O as (Cd & F & L & T & [N0|N0]).
    + apply (N (with_frozen (with_user (history (power d) l) (Some (filled pw)) true))). split; [exact Cd|]. left. auto.
    + eapply N. split; [exact Cd|]. right. left. split; [exact N0|].
      split; [rewrite L; unfold enabled; rewrite N0; reflexivity|]. split; [rewrite T; lia|reflexivity].
Qed.
Print Assumptions C69_never_lost.

(** C69: from the first start of the operating system on, the drive is locked with the secret
    whenever it is switched on. *)
Theorem C69_locked : forall pw d l x r, capable d = true -> user d = None -> zlen pw <= 8190 ->
  Forall (same_secret pw) (l ++ x :: r) -> fst (live (history (power d) l) x) = true ->
  let e := history (power d) (l ++ x :: r) in locked e = true /\ user e = Some (filled pw).
Proof.
  intros pw d l x r C U Hl HF Hx. apply Forall_app in HF. destruct HF as (H1 & H2). inversion H2 as [|? ? Hs Hr]; subst.
  assert (O : ours pw (history (power d) l)) by (apply history_ours; [apply ours_power; auto|exact Hl|exact H1]).
  destruct (live_ours pw _ x O Hl Hs) as (O1 & _ & S1). specialize (S1 Hx).
  assert (K : forall r d0, Forall (same_secret pw) r -> ours pw d0 -> user d0 = Some (filled pw) ->
    ours pw (history d0 r) /\ user (history d0 r) = Some (filled pw)).
  { clear - Hl. unfold history. induction r as [|x r IH]; intros d0 HF O U; [auto|]. cbn [fold_left].
    inversion HF as [|? ? Hx Hr]; subst. destruct (live_ours pw d0 x O Hl Hx) as (O1 & K1 & _). apply IH; auto. }
  cbv zeta. unfold history. rewrite fold_left_app. cbn [fold_left]. fold (history (power d) l).
  destruct (K r _ Hr O1 S1) as ((_ & _ & L & _) & U2). unfold history in *. split; [|exact U2].
  rewrite L. unfold enabled. rewrite U2. reflexivity.
Qed.
Print Assumptions C69_locked.

(** *** The secret from the TPM *)

Lemma digit64_ok : forall v, 0 <= v < 64 -> 0 < digit64 v < 128.
Proof.
  intros v H. unfold digit64. destruct (Z.ltb_spec v 26); [lia|]. destruct (Z.ltb_spec v 52); [lia|].
  destruct (Z.ltb_spec v 62); [lia|]. destruct (v =? 62); lia.
Qed.
Lemma digit64_inj : forall v w, 0 <= v < 64 -> 0 <= w < 64 -> digit64 v = digit64 w -> v = w.
Proof.
  intros v w Hv Hw. unfold digit64.
  destruct (Z.ltb_spec v 26), (Z.ltb_spec w 26); try lia;
    destruct (Z.ltb_spec v 52), (Z.ltb_spec w 52); try lia;
    destruct (Z.ltb_spec v 62), (Z.ltb_spec w 62); try lia;
    destruct (Z.eqb_spec v 62), (Z.eqb_spec w 62); lia.
Qed.

Section Base64.
Local Ltac Zify.zify_post_hook ::= Z.div_mod_to_equations.
Lemma group64 : forall a b c, 0 <= a < 256 -> 0 <= b < 256 -> 0 <= c < 256 ->
  let v := a * 65536 + b * 256 + c in
  0 <= v / 262144 < 64 /\ 0 <= v / 4096 mod 64 < 64 /\ 0 <= v / 64 mod 64 < 64 /\ 0 <= v mod 64 < 64 /\
  v = (v / 262144) * 262144 + (v / 4096 mod 64) * 4096 + (v / 64 mod 64) * 64 + v mod 64.
Proof. intros a b c Ha Hb Hc v. unfold v. lia. Qed.
Lemma bytes_inj : forall a b c x y z, 0 <= a < 256 -> 0 <= b < 256 -> 0 <= c < 256 ->
  0 <= x < 256 -> 0 <= y < 256 -> 0 <= z < 256 ->
  a * 65536 + b * 256 + c = x * 65536 + y * 256 + z -> a = x /\ b = y /\ c = z.
Proof. intros. lia. Qed.
End Base64.

Definition byte (b : Z) : Prop := 0 <= b < 256.

Lemma base64_props : forall n l, length l = (3 * n)%nat -> Forall byte l ->
  length (base64 l) = (4 * n)%nat /\ Forall (fun c => 0 < c) (base64 l) /\
  forall m, length m = (3 * n)%nat -> Forall byte m -> base64 l = base64 m -> l = m.
Proof.
  induction n as [|n IH]; intros l Hl Hb.
  - destruct l; [|discriminate]. split; [reflexivity|]. split; [constructor|]. intros [|x m] Hm; [reflexivity|discriminate].
  - destruct l as [|a [|b [|c l]]]; cbn [length] in Hl; try lia.
    inversion Hb as [|? ? Ha Hb1]; subst. inversion Hb1 as [|? ? Hb' Hb2]; subst. inversion Hb2 as [|? ? Hc Hb3]; subst.
    destruct (IH l ltac:(lia) Hb3) as (L1 & P1 & I1). unfold byte in *.
    destruct (group64 a b c Ha Hb' Hc) as (G1 & G2 & G3 & G4 & G5).
    cbn [base64]. split; [cbn [length]; rewrite L1; lia|]. split.
    { repeat (constructor; [apply digit64_ok; assumption|]). exact P1. }
    intros m Hm Hbm E. destruct m as [|x [|y [|z m]]]; cbn [length] in Hm; try lia.
    inversion Hbm as [|? ? Hx Hm1]; subst. inversion Hm1 as [|? ? Hy Hm2]; subst. inversion Hm2 as [|? ? Hz Hm3]; subst.
    destruct (group64 x y z Hx Hy Hz) as (K1 & K2 & K3 & K4 & K5). cbn [base64] in E.
    injection E as E1 E2 E3 E4 E5.
    apply digit64_inj in E1; [|assumption|assumption]. apply digit64_inj in E2; [|assumption|assumption].
    apply digit64_inj in E3; [|assumption|assumption]. apply digit64_inj in E4; [|assumption|assumption].
    assert (V : a * 65536 + b * 256 + c = x * 65536 + y * 256 + z) by (rewrite G5, K5, E1, E2, E3, E4; reflexivity).
    destruct (bytes_inj a b c x y z Ha Hb' Hc Hx Hy Hz V) as (-> & -> & ->). f_equal. f_equal. f_equal.
    apply I1; [lia|exact Hm3|exact E5].
Qed.

Lemma c_string_app : forall s r, Forall (fun c => 0 < c) s -> c_string (s ++ 0 :: r) = Some s.
Proof.
  induction s as [|c s IH]; intros r H; [reflexivity|]. inversion H; subst. cbn [app c_string].
  destruct (Z.eqb_spec c 0); [lia|]. rewrite IH by assumption. reflexivity.
Qed.

(** C69: the secret made of 21 random bytes is a string of 28 characters with its final 0, fits
    the array, and is a password that keeps all of the randomness. *)
Theorem C69_secret : forall r1 r2, length r1 = 21%nat -> Forall byte r1 -> length r2 = 21%nat -> Forall byte r2 ->
  exists s1 s2, random_base64 r1 32 = Some (s1 ++ [0]) /\ random_base64 r2 32 = Some (s2 ++ [0]) /\
    length s1 = 28%nat /\ (forall stack, c_string (snd (sealed_secret 0 (s1 ++ [0]) stack)) = Some s1) /\
    (filled s1 = filled s2 -> r1 = r2).
Proof.
  intros r1 r2 L1 B1 L2 B2. destruct (base64_props 7 r1 L1 B1) as (N1 & P1 & I1). destruct (base64_props 7 r2 L2 B2) as (N2 & P2 & I2).
  exists (base64 r1), (base64 r2).
  assert (Q : forall l : list Z, length l = 28%nat -> zlen l = 28) by (intros l E; unfold zlen; rewrite E; reflexivity).
  unfold random_base64. rewrite (Q (base64 r1) N1), (Q (base64 r2) N2). split; [reflexivity|]. split; [reflexivity|]. split; [exact N1|]. split.
  - intro stack. unfold sealed_secret. cbn [Z.eqb snd]. rewrite <- app_assoc. cbn [app]. apply c_string_app. exact P1.
  - intro F. apply I1; [exact L2|exact B2|]. unfold filled in F.
    assert (G : firstn 28 (firstn 32 (base64 r1 ++ repeat 0 32)) = firstn 28 (firstn 32 (base64 r2 ++ repeat 0 32))) by (rewrite F; reflexivity).
    rewrite !firstn_firstn in G. change (Nat.min 28 32) with 28%nat in G.
    rewrite !firstn_app in G. rewrite N1, N2 in G. change (4 * 7)%nat with 28%nat in *. rewrite Nat.sub_diag, !firstn_O, !app_nil_r in G.
    rewrite !firstn_all2 in G by (rewrite ?N1, ?N2; lia). exact G.
Qed.
Print Assumptions C69_secret.

(** C69: for any number of random bytes and any room, either the secret is refused because the
    digits do not fit, or what is sealed fits and is a string with its final 0. *)
Theorem C69_secret_room : forall n r size, length r = (3 * n)%nat -> Forall byte r -> (0 < n)%nat ->
  match random_base64 r size with
  | None => size < 4 * Z.of_nat n
  | Some s => zlen s <= size /\ exists t, s = t ++ [0] /\ Forall (fun c => 0 < c) t /\ c_string s = Some t /\
                t = firstn (length t) (base64 r) /\ (length (base64 r) - 1 <= length t)%nat
  end.
Proof.
  intros n r size L B Hn. destruct (base64_props n r L B) as (N & P & _).
  unfold random_base64. assert (Z : zlen (base64 r) = 4 * Z.of_nat n) by (unfold zlen; lia). rewrite Z.
  destruct (Z.ltb_spec size (4 * Z.of_nat n)); [assumption|].
  assert (K : forall t m, t = firstn m (base64 r) -> Forall (fun c => 0 < c) t).
  { intros t m ->. apply Forall_forall. intros x Hx. rewrite Forall_forall in P. apply P.
    rewrite <- (firstn_skipn m (base64 r)). apply in_or_app. auto. }
  destruct (Z.ltb_spec (4 * Z.of_nat n) size).
  - split; [unfold zlen in *; rewrite app_length; cbn [length]; lia|]. exists (base64 r).
    split; [reflexivity|]. split; [exact P|]. split; [apply c_string_app; exact P|].
    split; [rewrite firstn_all; reflexivity|lia].
  - assert (E : removelast (base64 r) = firstn (length (base64 r) - 1) (base64 r))
      by (rewrite removelast_firstn_len, Nat.sub_1_r; reflexivity).
    assert (Lr : length (removelast (base64 r)) = (length (base64 r) - 1)%nat) by (rewrite E, firstn_length; lia).
    pose proof (K _ _ E) as Pr.
    split; [unfold zlen in *; rewrite app_length, Lr; cbn [length]; lia|]. exists (removelast (base64 r)).
    split; [reflexivity|]. split; [exact Pr|]. split; [apply c_string_app; exact Pr|].
    rewrite Lr. split; [exact E|lia].
Qed.
Print Assumptions C69_secret_room.
Example C69_secret_room_ex : random_base64 [1; 2; 3] 4 = Some [65; 81; 73; 0] /\ random_base64 [1; 2; 3] 3 = None.
Proof. split; reflexivity. Qed.

(** C69: if the TPM does not give the secret, the boot stops and the drive is as it was. *)
Theorem C69_unsealing_fails : forall rc s stack d, rc <> 0 ->
  exists p, disk_start false (fst (sealed_secret rc s stack)) (snd (sealed_secret rc s stack)) (new_port d None) = Stop Panicked p /\
    dev p = d.
Proof.
  intros rc s stack d H. unfold sealed_secret. destruct (Z.eqb_spec rc 0); [contradiction|]. cbn [fst snd].
  rewrite start_rest. cbn [tick]. unfold sata_unlock_disk. destruct (Z.eqb_spec rc 0); [contradiction|]. cbn [negb ret].
  destruct (Z.eqb_spec rc 0); [contradiction|]. cbn [negb]. eexists. split; reflexivity.
Qed.
Print Assumptions C69_unsealing_fails.

(** *** The password compiled in *)

Lemma skipn_head : forall n (l : list Z) x, (n < length l)%nat -> skipn n l = nth n l x :: skipn (S n) l.
Proof.
  induction n as [|n IH]; intros [|y l] x H; cbn [length] in H; try lia; [reflexivity|].
  cbn [skipn nth]. rewrite (IH l x) by lia. destruct l; [cbn [length] in H; lia|reflexivity].
Qed.

(** C69 for a password compiled in: it works as long as the byte of the uninitialised array
    behind the password happens to be 0 at every boot.  Missing: any other content. *)
Theorem C69_password_partial : forall pw stack, Forall (fun c => 0 < c) pw -> length stack = 32%nat -> (length pw < 32)%nat ->
  nth (length pw) stack 1 = 0 ->
  fst (password_secret pw stack) = 0 /\ c_string (snd (password_secret pw stack)) = Some pw.
Proof.
  intros pw stack Hp Hs Hl Hn. unfold password_secret, zlen.
  destruct (Z.ltb_spec (Z.of_nat (length stack)) (Z.of_nat (length pw))); [lia|]. cbn [fst snd]. split; [reflexivity|].
  assert (E : skipn (length pw) stack = 0 :: skipn (S (length pw)) stack).
  { rewrite <- Hn. apply skipn_head. lia. }
  rewrite E. apply c_string_app. exact Hp.
Qed.
Print Assumptions C69_password_partial.

Definition period_of (r : Z * list Z) (cs : list command) : period :=
  {| fetch_rc := fst r; fetched := snd r; fails := None; os := cs |}.

Lemma filled_longer : forall pw c r, c <> 0 -> (length pw < 32)%nat -> filled (pw ++ c :: r) <> filled pw.
Proof.
  intros pw c r Hc Hl E. unfold filled in E.
  assert (N : forall l, nth (length pw) (firstn 32 l) 0 = nth (length pw) l 0).
  { intro l. rewrite <- (firstn_skipn 32 l) at 2. destruct (Nat.lt_ge_cases (length pw) (length (firstn 32 l))) as [K|K].
    - rewrite app_nth1 by exact K. reflexivity.
    - rewrite (nth_overflow (firstn 32 l)) by exact K. rewrite firstn_length in K.
      rewrite firstn_all2 by lia. rewrite skipn_all2 by lia. rewrite app_nil_r. rewrite nth_overflow by lia. reflexivity. }
  assert (K : nth (length pw) ((pw ++ c :: r) ++ repeat 0 32) 0 = nth (length pw) (pw ++ repeat 0 32) 0) by (rewrite <- (N ((pw ++ c :: r) ++ repeat 0 32)), <- (N (pw ++ repeat 0 32)), E; reflexivity).
  rewrite <- app_assoc in K. rewrite (app_nth2 pw (_ ++ _)) in K by lia. rewrite (app_nth2 pw (repeat 0 32)) in K by lia. rewrite Nat.sub_diag in K. cbn [app nth repeat] in K. exact (Hc K).
Qed.

(** C69 fails for a password compiled in: it is copied without its final 0 to an array nothing
    initialises (src/x86/ahci.c:191-194, 411), and what follows in the array becomes part of the
    password.  One boot locks the disk with it, another boot cannot unlock it. *)
Theorem C69_password_refuted : forall pw d cs, Forall (fun c => 0 < c) pw -> (length pw <= 30)%nat ->
  capable d = true -> user d = None ->
  exists stack1 stack2, length stack1 = 32%nat /\ length stack2 = 32%nat /\
    let (started, d1) := live (power d) (period_of (password_secret pw stack1) cs) in
    started = true /\ fst (live d1 (period_of (password_secret pw stack2) cs)) = false.
Proof.
  intros pw d cs Hp Hl C U.
  set (stack1 := repeat 0 (length pw) ++ 1 :: repeat 0 (31 - length pw)).
  set (stack2 := repeat 0 32).
  assert (L1 : length stack1 = 32%nat) by (unfold stack1; rewrite app_length; cbn [length]; rewrite !repeat_length; lia).
  assert (L2 : length stack2 = 32%nat) by reflexivity.
  exists stack1, stack2. split; [exact L1|]. split; [exact L2|].
  assert (P1 : fst (password_secret pw stack1) = 0 /\ c_string (snd (password_secret pw stack1)) = Some (pw ++ [1])).
  { unfold password_secret, zlen. rewrite L1. destruct (Z.ltb_spec (Z.of_nat 32) (Z.of_nat (length pw))); [lia|]. cbn [fst snd].
    split; [reflexivity|]. unfold stack1. rewrite skipn_app, repeat_length, Nat.sub_diag, skipn_O.
    rewrite skipn_all2 by (rewrite repeat_length; lia). cbn [app].
    replace (31 - length pw)%nat with (S (30 - length pw)) by lia. cbn [repeat].
    change (pw ++ 1 :: 0 :: repeat 0 (30 - length pw)) with (pw ++ [1] ++ 0 :: repeat 0 (30 - length pw)).
    rewrite app_assoc. apply c_string_app. apply Forall_app. split; [exact Hp|]. constructor; [lia|constructor]. }
  assert (P2 : fst (password_secret pw stack2) = 0 /\ c_string (snd (password_secret pw stack2)) = Some pw).
  { apply C69_password_partial; [exact Hp|exact L2|lia|]. unfold stack2.
    rewrite (nth_indep _ 1 0) by (rewrite repeat_length; lia). apply nth_repeat. }
  destruct P1 as (R1 & E1), P2 as (R2 & E2).
  assert (Z1 : zlen (pw ++ [1]) <= 8190) by (rewrite zlen_app; unfold zlen; cbn [length]; lia).
  assert (Z2 : zlen pw <= 8190) by (unfold zlen; lia).
  assert (O : ours (pw ++ [1]) (power d)) by (apply ours_power; auto).
  assert (Q : same_secret (pw ++ [1]) (period_of (password_secret pw stack1) cs)) by (intro; exact E1).
  destruct (live_ours _ _ _ O Z1 Q) as (O1 & _ & S1).
  assert (St : fst (live (power d) (period_of (password_secret pw stack1) cs)) = true).
  { unfold live, period_of. cbn [fetch_rc fetched fails os]. rewrite R1.
    destruct (boot_result _ _ (power d) (ours_sound _ _ O) E1 Z1) as [(p & -> & _)|(p & _ & N & _)]; [reflexivity|].
    exfalso. apply (N (with_frozen (with_user (power d) (Some (filled (pw ++ [1]))) true))).
    split; [exact C|]. left. split; [exact U|]. split; reflexivity. }
  specialize (S1 St). destruct (live (power d) (period_of (password_secret pw stack1) cs)) as (st, d1).
  cbn [fst snd] in *. split; [exact St|].
  unfold live, period_of. cbn [fetch_rc fetched fails os]. rewrite R2.
  destruct (boot_result _ _ d1 (ours_sound _ _ O1) E2 Z2) as [(p & _ & Op)|(p & -> & _)]; [|reflexivity].
  exfalso. destruct Op as (_ & [(N & _)|[(N & _)|(_ & N & N2 & _)]]).
  - congruence.
  - apply (filled_longer pw 1 []); [lia|lia|]. congruence.
  - destruct O1 as (_ & F & _). congruence.
Qed.
Print Assumptions C69_password_refuted.

(** C69 fails for a password of 32 characters: it fills the array, and its end is searched
    behind the array. *)
Theorem C69_length_refuted : forall pw stack d, Forall (fun c => 0 < c) pw -> length pw = 32%nat -> length stack = 32%nat ->
  capable d = true -> user d = None ->
  exists p, disk_start false (fst (password_secret pw stack)) (snd (password_secret pw stack)) (new_port (power d) None) = Stop Undefined p.
Proof.
  intros pw stack d Hp Hl Hs C U.
  assert (E : password_secret pw stack = (0, pw)).
  { unfold password_secret, zlen. rewrite Hl, Hs. cbn [Z.ltb Z.compare Z.of_nat Pos.of_succ_nat Pos.succ Pos.compare Pos.compare_cont].
    rewrite skipn_all2 by lia. rewrite app_nil_r. reflexivity. }
  rewrite E. cbn [fst snd]. rewrite start_rest. cbn [tick].
  assert (N : c_string pw = None).
  { clear - Hp. induction pw as [|c pw IH]; [reflexivity|]. inversion Hp; subst. cbn [c_string].
    destruct (Z.eqb_spec c 0); [lia|]. rewrite IH by assumption. reflexivity. }
  assert (Q : security_state (power d) = 1) by (unfold security_state, enabled; cbn [capable user power locked frozen]; rewrite C, U; reflexivity).
  rewrite Q. rewrite unlock_unusable; [|intros pw' K; congruence|auto]. eexists. reflexivity.
Qed.
Print Assumptions C69_length_refuted.

(** ** C70: what others can do *)

(** A command, or power off and on. *)
Definition act (d : drive) (c : option command) : drive := match c with Some c => snd (perform d c) | None => power d end.
(** The command carries neither of the passwords. *)
Definition guess_fails (u m : list Z) (c : option command) : Prop :=
  match c with
  | Some (Unlock b) | Some (Disable b) | Some (Erase b) => password b <> u /\ password b <> m
  | _ => True
  end.

(** C70: whoever knows neither the user nor the master password does not get at the data of a
    locked drive, by any sequence of commands and power cycles; the password stays. *)
Theorem C70_guarded : forall u d cs, sound d -> locked d = true -> user d = Some u ->
  Forall (guess_fails u (master d)) cs ->
  let e := fold_left act cs d in fst (perform e Access) = false /\ locked e = true /\ user e = Some u.
Proof.
  intros u d cs Hs L U HF.
  assert (K : forall cs d, Forall (guess_fails u (master d)) cs -> sound d -> locked d = true -> user d = Some u ->
    locked (fold_left act cs d) = true /\ user (fold_left act cs d) = Some u).
  { clear. induction cs as [|c cs IH]; intros d HF Hs L U; [auto|]. cbn [fold_left]. inversion HF as [|? ? Hc Hr]; subst.
    assert (Q : locked (act d c) = true /\ user (act d c) = Some u /\ master (act d c) = master d /\ sound (act d c)).
    { destruct (Hs L) as (En & F & C). destruct c as [c|].
      2:{ cbn [act power locked user master]. split; [unfold enabled; rewrite U; reflexivity|]. split; [exact U|]. split; [reflexivity|].
          intro. cbn. auto. }
      pose proof (sound_perform c d Hs) as Sp. cbn [act]. split; [|split; [|split; [|exact Sp]]]; clear Sp.
      all: destruct c; cbn [perform guess_fails] in *; rewrite ?L, ?F, ?C; cbn [negb orb snd]; try assumption; try reflexivity.
      all: try (destruct (tries d); [assumption||reflexivity|]).
      all: unfold fits; rewrite ?U; destruct Hc as (H1 & H2);
           (destruct (for_master b);
            [destruct (eq_bytes (password b) (master d)) eqn:E; [apply eq_bytes_iff in E; contradiction|]; rewrite ?andb_false_r
            |destruct (eq_bytes (password b) u) eqn:E; [apply eq_bytes_iff in E; contradiction|]]); cbn [snd]; assumption || reflexivity. }
    destruct Q as (Q1 & Q2 & Q3 & Q4). apply IH; [rewrite Q3; exact Hr|exact Q4|exact Q1|exact Q2]. }
  destruct (K cs d HF Hs L U) as (Lo & Us). cbv zeta. split; [cbn [perform fst]; rewrite Lo; reflexivity|auto].
Qed.
Print Assumptions C70_guarded.

(** C70 fails for the secret alone: wolfBoot sets the password at level "high"
    (src/x86/ata.c:471-474 leave bit 8 of word 0 clear), so that the master password of the
    drive, which wolfBoot does not set, unlocks it as well. *)
Theorem C70_master_refuted : forall pw mem d cs b, capable d = true -> user d = None -> c_string mem = Some pw -> zlen pw <= 8190 ->
  for_master b = true -> password b = master d ->
  let (started, d1) := live (power d) (period_of (0, mem) cs) in
  started = true /\ locked d1 = true /\ fst (perform d1 (Unlock b)) = true /\ locked (snd (perform d1 (Unlock b))) = false.
Proof.
  intros pw mem d cs b C U E Hl Fm Pm.
  assert (O : ours pw (power d)) by (apply ours_power; auto). pose proof (ours_sound _ _ O) as Hs.
  unfold live, period_of. cbn [fetch_rc fetched fails os fst snd].
  destruct (boot_result mem pw (power d) Hs E Hl) as [(p & Ep & Op)|(p & _ & N & _)].
  2:{ exfalso. apply (N (with_frozen (with_user (power d) (Some (filled pw)) true))). split; [exact C|]. left.
      split; [exact U|]. split; reflexivity. }
  rewrite Ep. split; [reflexivity|].
  destruct Op as (_ & [(_ & _ & Ed)|[(N & _)|(N & _)]]).
  2:{ cbn [user power] in N. congruence. }
  2:{ unfold enabled in N. cbn [user power] in N. rewrite U in N. discriminate. }
  assert (K : forall cs d0, frozen d0 = true -> sound d0 -> let e := fold_left (fun d c => snd (perform d c)) cs d0 in
     user e = user d0 /\ master e = master d0 /\ capable e = capable d0 /\ high e = high d0).
  { clear. induction cs as [|c cs IH]; intros d0 F Hs; [repeat (split; [reflexivity|]); reflexivity|]. cbn [fold_left].
    destruct (frozen_perform c d0 F Hs) as (A & B & C & D & M). destruct (IH _ B D) as (I1 & I2 & I3 & I4).
    cbv zeta in *. rewrite I1, I2, I3, I4. repeat (split; [assumption|]).
    assert (L : locked d0 = false) by (destruct (locked d0) eqn:E; [destruct (Hs E) as (_ & K & _); congruence|reflexivity]).
    clear - F L. destruct c; cbn [perform]; rewrite ?F, ?L, ?orb_true_r, ?orb_false_r; try reflexivity.
    destruct (negb (capable d0)); reflexivity. }
  assert (Sp : sound (dev p)) by (rewrite Ed; intro Q; cbn in Q; discriminate).
  assert (Fp : frozen (dev p) = true) by (rewrite Ed; reflexivity).
  destruct (K cs (dev p) Fp Sp) as (K1 & K2 & K3 & K4). cbv zeta in *.
  set (e := fold_left (fun d c => snd (perform d c)) cs (dev p)) in *. rewrite Ed in K1, K2, K3, K4. cbn in K1, K2, K3, K4.
  split; [cbn; unfold enabled; rewrite K1; reflexivity|].
  assert (P : perform (power e) (Unlock b) = (true, with_user (power e) (user (power e)) (high (power e)))).
  { cbn [perform]. cbn [capable power frozen locked tries]. rewrite K3, C. unfold enabled. rewrite K1. cbn [negb orb].
    unfold fits. cbn [high power master]. rewrite Fm, K4, K2, Pm, eq_bytes_refl. reflexivity. }
  rewrite P. split; reflexivity.
Qed.
Print Assumptions C70_master_refuted.

(** C70: with the master password, the build that disables the password (and then stops)
    removes it. *)
Theorem C70_disable : forall m mem d, sound d -> locked d = true -> high d = true -> (0 < tries d)%nat ->
  c_string mem = Some m -> zlen m <= 8190 -> master d = filled m ->
  exists p, sata_disable_password mem (at_rest d (security_state d) None) = Stop Panicked p /\
    user (dev p) = None /\ locked (dev p) = false.
Proof.
  intros m mem d Hs L Hi Ht E Hl Hm. destruct (Hs L) as (En & F & C).
  assert (Q : security_state d = 4) by (rewrite state_cases, C, En, L; reflexivity). rewrite Q.
  unfold sata_disable_password. unfold bind at 1. unfold ata_security_get_state. change (sec (at_rest d 4 None)) with 4.
  cbn [Z.eqb Pos.eqb]. unfold bind at 1 2. unfold ata_security_unlock_device. rewrite (pass_rest _ _ m) by assumption.
  cbn [tick perform]. rewrite C, F, L. cbn [negb orb]. destruct (tries d) as [|n]; [lia|].
  unfold fits. rewrite block_master, block_password, Hi, Hm, eq_bytes_refl. cbn [andb orb Z.eqb].
  unfold ata_security_disable_password. rewrite (pass_rest _ _ m) by assumption.
  cbn [tick perform capable with_user locked frozen]. rewrite C, F. cbn [negb orb].
  unfold fits. cbn [high with_user master]. rewrite block_master, block_password, Hm, eq_bytes_refl. cbn [andb orb].
  eexists. split; [reflexivity|]. split; reflexivity.
Qed.
Print Assumptions C70_disable.

(** C70 fails for errors: after a command the drive rejected, the port is stopped and nothing
    starts it again, so that the next command of any kind waits for ever. *)
Theorem C70_waits_refuted : forall c c' d s l, fst (perform d c) = false -> l <> Some 0%nat ->
  exists p, security_command c (at_rest d s l) = Ret (-1) p /\
    exists p', security_command c' p = Stop Waiting p'.
Proof.
  intros c c' d s l H Hl. rewrite security_rest. destruct (perform d c) as (ok, d') eqn:E. cbn [fst] in H. subst ok.
  destruct l as [[|n]|]; [congruence| |]; cbn [tick]; (eexists; split; [reflexivity|]; eexists; reflexivity).
Qed.
Print Assumptions C70_waits_refuted.

(** ** Concrete cases *)

Definition new_drive : drive := {| capable := true; user := None; master := repeat 32 32; high := true; locked := false;
  frozen := false; tries := 5; other := repeat 7 512 |}.
Definition the_secret : list Z := [115; 101; 99; 114; 101; 116].
Definition array_of (s : list Z) : list Z := s ++ repeat 0 (32 - length s).

Example C69_case : let x c := {| fetch_rc := 0; fetched := array_of the_secret; fails := c; os := [Disable (repeat 0 512); Erase []] |} in
  let no := {| fetch_rc := 5; fetched := []; fails := None; os := [] |} in
  Forall (same_secret the_secret) [x (Some 1%nat); x (Some 2%nat); no; x None; x (Some 3%nat)] /\
  fst (live (history (power new_drive) [x (Some 1%nat); x (Some 2%nat); no]) (x None)) = true /\
  user (history (power new_drive) [x (Some 1%nat)]) = None /\
  user (history (power new_drive) [x (Some 2%nat)]) = Some (filled the_secret).
Proof.
  cbv zeta. split.
  { repeat constructor; intro E; try reflexivity. discriminate. }
  split; [vm_compute; reflexivity|]. split; vm_compute; reflexivity.
Qed.

Example C68_case : sound new_drive /\ opens new_drive the_secret (with_frozen (with_user new_drive (Some (filled the_secret)) true)) /\
  (forall d', ~ opens (with_tries (power (with_user new_drive (Some (filled [1])) true)) 3) the_secret d').
Proof.
  split; [intro K; discriminate|]. split; [split; [reflexivity|left; auto]|].
  intros d' (_ & [(K & _)|[(K & _)|(_ & K & _)]]); try discriminate.
Qed.

Example C70_case : let d := power (with_user new_drive (Some (filled the_secret)) true) in
  sound d /\ locked d = true /\ guess_fails (filled the_secret) (master d) (Some (Unlock (passphrase_block [115] false))) /\
  for_master (passphrase_block (repeat 32 32) true) = true /\ password (passphrase_block (repeat 32 32) true) = master d /\
  master d = filled (repeat 32 32).
Proof.
  cbv zeta. split; [intro K; vm_compute; auto|]. split; [reflexivity|]. split; [split; vm_compute; discriminate|].
  split; [reflexivity|]. split; reflexivity.
Qed.

Example C69_secret_case : length (repeat 200 21) = 21%nat /\ Forall byte (repeat 200 21) /\
  random_base64 (repeat 200 21) 32 = Some ([121; 77; 106; 73; 121; 77; 106; 73; 121; 77; 106; 73; 121; 77; 106; 73; 121; 77; 106; 73; 121; 77; 106; 73; 121; 77; 106; 73] ++ [0]).
Proof. split; [reflexivity|]. split; [|vm_compute; reflexivity]. apply Forall_forall. intros x H. apply repeat_spec in H. subst. unfold byte. lia. Qed.
