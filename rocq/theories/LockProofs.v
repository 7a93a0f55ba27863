(** Lemmas on locking a disk. *)
From Verif Require Import Base BaseLemmas LockSpec LockModel.
Local Ltac Zify.zify_post_hook ::= idtac.

Lemma eq_bytes_iff : forall a b, eq_bytes a b = true <-> a = b.
Proof. intros. unfold eq_bytes. destruct (list_eq_dec _ _ _); split; congruence. Qed.
Lemma eq_bytes_refl : forall a, eq_bytes a a = true.
Proof. intros. apply eq_bytes_iff. reflexivity. Qed.

Definition at_rest (d : drive) (s : Z) (l : option nat) : port :=
  {| dev := d; ci := 0; stopped := false; sec := s; left := l |}.
Definition failed (d : drive) (s : Z) (l : option nat) : port :=
  {| dev := d; ci := 1; stopped := true; sec := s; left := l |}.

(** The power lasts for one more command. *)
Definition tick {A} (l : option nat) (p : port) (k : option nat -> res A) : res A :=
  match l with None => k None | Some O => Stop PowerLost p | Some (S n) => k (Some n) end.

Lemma exec_rest : forall c d s l,
  exec_cmd_slot 0 c (at_rest d s l) =
  tick l (at_rest d s l) (fun l => let (ok, d') := perform d c in if ok then Ret 0 (at_rest d' s l) else Ret (-1) (failed d' s l)).
Proof.
  intros c d s l. unfold exec_cmd_slot, at_rest, tick. cbn [stopped left dev ci sec].
  destruct l as [[|n]|]; [reflexivity| |]; destruct (perform d c) as ([|], d'); reflexivity.
Qed.

Lemma security_rest : forall c d s l,
  security_command c (at_rest d s l) =
  tick l (at_rest d s l) (fun l => let (ok, d') := perform d c in if ok then Ret 0 (at_rest d' s l) else Ret (-1) (failed d' s l)).
Proof.
  intros c d s l. rewrite <- exec_rest. unfold security_command, bind, prepare_cmd_h2d_slot, find_cmd_slot.
  cbn [ci at_rest]. reflexivity.
Qed.

Lemma pass_rest : forall k mem pw m d s l, c_string mem = Some pw -> zlen pw <= 8190 ->
  security_command_passphrase k mem m (at_rest d s l) =
  tick l (at_rest d s l) (fun l => let (ok, d') := perform d (k (passphrase_block pw m)) in
    if ok then Ret 0 (at_rest d' s l) else Ret (-1) (failed d' s l)).
Proof.
  intros k mem pw m d s l E H. rewrite <- exec_rest.
  unfold security_command_passphrase, bind, prepare_cmd_h2d_slot, find_cmd_slot. cbn [ci at_rest]. rewrite E.
  destruct (Z.ltb_spec 8190 (zlen pw)); [lia|]. reflexivity.
Qed.

Lemma nth_identify : forall d i, (i < 512)%nat -> nth i (identify d) 0 =
  if (i =? 164)%nat then set_bit (nth i (other d) 0) 1 (capable d)
  else if (i =? 256)%nat then security_word d
  else if (i =? 257)%nat then Z.b2z (negb (high d)) else nth i (other d) 0.
Proof.
  intros d i H. unfold identify.
  set (f := fun i : nat => if (i =? 164)%nat then set_bit (nth i (other d) 0) 1 (capable d)
                else if (i =? 256)%nat then security_word d
                else if (i =? 257)%nat then Z.b2z (negb (high d)) else nth i (other d) 0).
  assert (E : nth i (map f (seq 0 512)) 0 = f i).
  { rewrite (nth_indep _ 0 (f 0%nat)) by (rewrite map_length, seq_length; exact H).
    rewrite map_nth. rewrite seq_nth by exact H. reflexivity. }
  exact E.
Qed.

Lemma state_identify : forall d, state_of (identify d) = security_state d.
Proof.
  intro d. unfold state_of. rewrite !nth_identify by lia. cbn [Nat.eqb].
  unfold set_bit, security_state, security_word.
  destruct (capable d) eqn:C.
  - rewrite Z.setbit_eq by lia. cbn [negb].
    destruct (enabled d), (locked d), (frozen d), ((tries d =? 0)%nat); reflexivity.
  - rewrite Z.clearbit_eq. reflexivity.
Qed.

Lemma identify_rest : forall d s l,
  ata_identify_device (at_rest d s l) = tick l (at_rest d s l) (fun l => Ret 0 (at_rest d (security_state d) l)).
Proof.
  intros d s l. unfold ata_identify_device, bind, prepare_cmd_h2d_slot, find_cmd_slot. cbn [ci at_rest].
  change (slot_loop 32 0 0) with 0. cbn [Z.ltb Z.compare]. fold (at_rest d s l). rewrite exec_rest.
  unfold tick. destruct l as [[|n]|]; [reflexivity| |]; cbn [perform Z.eqb dev ci stopped sec left at_rest];
    rewrite state_identify; reflexivity.
Qed.

(** ** The block with the passphrase *)

Lemma block_length : forall s m, length (passphrase_block s m) = 512%nat.
Proof.
  intros. unfold passphrase_block. rewrite firstn_length, !app_length, repeat_length. cbn [length]. lia.
Qed.
Lemma firstn_block : forall n s m, (n <= 512)%nat ->
  firstn n (passphrase_block s m) = firstn n ([if m then 1 else 0; 0] ++ s ++ repeat 0 510).
Proof. intros. unfold passphrase_block. rewrite firstn_firstn. f_equal. lia. Qed.

Lemma block_master : forall s m, for_master (passphrase_block s m) = m.
Proof. intros s []; reflexivity. Qed.
Lemma block_level : forall s m, for_maximum (passphrase_block s m) = false.
Proof. intros s []; reflexivity. Qed.
Lemma repeat_split : forall (x : Z) a b, repeat x (a + b) = repeat x a ++ repeat x b.
Proof. intros. apply repeat_app. Qed.
Lemma block_password : forall s m, password (passphrase_block s m) = filled s.
Proof.
  intros s m. unfold password, sub, passphrase_block, filled.
  rewrite firstn_skipn_comm, firstn_firstn. replace (Nat.min (2 + 32) 512) with (2 + 32)%nat by lia.
  rewrite <- firstn_skipn_comm. cbn [app skipn].
  change 510%nat with (32 + 478)%nat. rewrite repeat_split, app_assoc.
  rewrite (firstn_app 32 (s ++ repeat 0 32)). rewrite app_length, repeat_length.
  replace (32 - (length s + 32))%nat with 0%nat by lia. rewrite firstn_O, app_nil_r. reflexivity.
Qed.

(** ** Soundness of drives *)

Lemma sound_perform : forall c d, sound d -> sound (snd (perform d c)).
Proof.
  intros c d H. unfold sound in *. destruct c; cbn [perform snd]; try exact H.
  - destruct (negb (capable d) || locked d || frozen d) eqn:E; [exact H|].
    destruct (for_master b); cbn [snd]; [exact H|]. cbn. discriminate.
  - destruct (negb (capable d) || frozen d) eqn:E; [exact H|]. destruct (negb (locked d)); [exact H|].
    destruct (tries d); [exact H|]. destruct (fits d b false); cbn [snd]; [cbn; discriminate|exact H].
  - destruct (negb (capable d) || locked d) eqn:E; [exact H|]. cbn. intro K. rewrite K in E.
    rewrite orb_true_r in E. discriminate.
  - destruct (negb (capable d) || locked d || frozen d) eqn:E; [exact H|]. destruct (fits d b false); cbn [snd]; [cbn; discriminate|exact H].
  - destruct (negb (capable d) || frozen d) eqn:E; [exact H|]. destruct (fits d b true); cbn [snd]; [cbn; discriminate|exact H].
Qed.

(** Only capable drives have a user password: kept by commands. *)
Lemma sound_power : forall d, (enabled d = true -> capable d = true) -> sound (power d).
Proof. intros d H. unfold sound. cbn. unfold enabled in *. cbn. intro E. rewrite E in *. auto. Qed.

(** A frozen drive does nothing. *)
Lemma frozen_perform : forall c d, frozen d = true -> sound d ->
  user (snd (perform d c)) = user d /\ frozen (snd (perform d c)) = true /\ capable (snd (perform d c)) = capable d /\
  sound (snd (perform d c)) /\ master (snd (perform d c)) = master d.
Proof.
  intros c d F H. pose proof (sound_perform c d H) as Sp.
  assert (L : locked d = false) by (destruct (locked d) eqn:E; [destruct (H E) as (_ & K & _); congruence|reflexivity]).
  destruct c; cbn [perform snd] in *; rewrite ?F, ?L, ?orb_true_r, ?orb_false_r in *; cbn [snd] in *;
    try (split; [reflexivity|]; split; [first [exact F|reflexivity]|]; split; [reflexivity|]; split; [exact H|reflexivity]).
  destruct (capable d) eqn:C; cbn [negb orb snd] in *;
    (split; [reflexivity|]; split; [first [exact F|reflexivity]|]; split; [exact C|]; split; [exact Sp|reflexivity]).
Qed.

(** ** A boot *)

Lemma tick_bind : forall A B l p (k : option nat -> res A) (m : A -> M B),
  match tick l p k with Ret a q => m a q | Stop s q => Stop s q end =
  tick l p (fun l => match k l with Ret a q => m a q | Stop s q => Stop s q end).
Proof. intros A B [[|n]|] p k m; reflexivity. Qed.

(** sata_unlock_disk on a port at rest that knows the state of its drive. *)
Lemma unlock_rest : forall mem pw freeze d l, sound d -> c_string mem = Some pw -> zlen pw <= 8190 ->
  sata_unlock_disk false 0 mem freeze (at_rest d (security_state d) l) =
  let p := at_rest d (security_state d) l in
  let final d1 l := if (if freeze then security_state d1 =? 6 else security_state d1 =? 5)
                    then Ret 0 (at_rest d1 (security_state d1) l) else Stop Panicked (at_rest d1 (security_state d1) l) in
  match security_state d with
  | 1 =>
    let d1 := with_user d (Some (filled pw)) true in
    tick l p (fun l =>
      if freeze then
        tick l (at_rest d1 1 l) (fun l => tick l (at_rest (with_frozen d1) 1 l) (fun l => final (with_frozen d1) l))
      else tick l (at_rest d1 1 l) (fun l => final d1 l))
  | 4 =>
    tick l p (fun l =>
      match tries d with
      | O => Ret (-1) (failed d 4 l)
      | S n =>
        if eq_bytes (filled pw) (match user d with Some u => u | None => [] end) then
          let d1 := with_user d (user d) (high d) in
          tick l (at_rest d1 4 l) (fun l =>
            if freeze then
              tick l (at_rest d1 5 l) (fun l => tick l (at_rest (with_frozen d1) 5 l) (fun l => final (with_frozen d1) l))
            else tick l (at_rest d1 5 l) (fun l => final d1 l))
        else Ret (-1) (failed (with_tries d n) 4 l)
      end)
  | _ => final d l
  end.
Proof.
  intros mem pw freeze d l Hs E H.
  assert (R1 : forall m d s l, security_command_passphrase SetPassword mem m (at_rest d s l) = _)
    by (intros; apply (pass_rest SetPassword mem pw); assumption).
  assert (R2 : forall m d s l, security_command_passphrase Unlock mem m (at_rest d s l) = _)
    by (intros; apply (pass_rest Unlock mem pw); assumption).
  destruct d as [cap us ma hi lo fr tr ot].
  unfold sound in Hs. cbn [locked frozen capable] in Hs. unfold enabled in Hs. cbn [user] in Hs.
  unfold sata_unlock_disk, ata_security_set_password, ata_security_unlock_device, ata_security_freeze_lock.
  unfold bind, ata_security_get_state, panic, ret.
  assert (SR : forall d s l, sec (at_rest d s l) = s) by reflexivity.
  Ltac go R1 R2 SR := repeat first
    [ progress cbn [Z.eqb Pos.eqb negb andb orb tick perform capable user master high locked frozen tries other
                    security_state enabled with_user with_frozen with_tries]
    | progress unfold fits, security_state, enabled | rewrite SR
    | rewrite R1 | rewrite R2 | rewrite security_rest | rewrite identify_rest
    | rewrite block_master | rewrite block_level | rewrite block_password ].
  destruct cap.
  2:{ go R1 R2 SR. destruct freeze; go R1 R2 SR; reflexivity. }
  destruct us as [u|].
  - destruct lo.
    + destruct (Hs eq_refl) as (_ & F & _). subst fr.
      go R1 R2 SR.
      destruct l as [[|n0]|]; [reflexivity| |]; go R1 R2 SR; (destruct tr as [|n]; [reflexivity|]); go R1 R2 SR;
        (destruct (eq_bytes (filled pw) u); [|reflexivity]); go R1 R2 SR.
      * destruct n0 as [|n0]; [reflexivity|]. go R1 R2 SR. destruct freeze; go R1 R2 SR.
        -- destruct n0 as [|n0]; [reflexivity|]. go R1 R2 SR. destruct n0 as [|n0]; [reflexivity|]. go R1 R2 SR. reflexivity.
        -- destruct n0 as [|n0]; [reflexivity|]. go R1 R2 SR. reflexivity.
      * destruct freeze; go R1 R2 SR; reflexivity.
    + destruct fr, freeze; go R1 R2 SR; reflexivity.
  - destruct lo; [destruct (Hs eq_refl); discriminate|]. destruct fr; [destruct freeze; go R1 R2 SR; reflexivity|].
    go R1 R2 SR. destruct l as [[|n0]|]; [reflexivity| |]; go R1 R2 SR.
    + destruct freeze; go R1 R2 SR.
      * destruct n0 as [|n0]; [reflexivity|]. go R1 R2 SR. destruct n0 as [|n0]; [reflexivity|]. go R1 R2 SR. reflexivity.
      * destruct n0 as [|n0]; [reflexivity|]. go R1 R2 SR. reflexivity.
    + destruct freeze; go R1 R2 SR; reflexivity.
Qed.
