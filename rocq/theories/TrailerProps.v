(** Theorems about partition states and sector flags: C05, C06, C07. *)
From Verif Require Import Base HeaderModel Flash ImageModel TrailerModel Geometry TrailerProofs
  TriggerProofs.

(** The trailer magic can be programmed: its bytes are erased, already the magic, or any
    partially programmed magic. *)
Definition magic_writable (c : cfg) (f : flash) (p : part) : Prop :=
  forall i, 0 <= i < 4 -> Z.land (f (magic_addr c p + i)) (magic_byte i) = magic_byte i.

(** C05: what is read back is the stored byte with the cleared bits; in particular the
    value written, when it only clears bits.  Only the five trailer bytes can change. *)
Theorem C05_state_read_after_write : forall c f p st,
  bytes f -> is_byte st -> magic_writable c f p ->
  exists f', run (set_partition_state c p st) f = Done tt f' /\ bytes f' /\
    get_partition_state c f' p = Some (Z.land (f (endflags c p - 5)) st) /\
    (forall x, ~ (endflags c p - 5 <= x < endflags c p) -> f' x = f x).
Proof.
  exact (fun c f p st Hb Hs Hm =>
    match run_set_state c f p st Hb Hs Hm with
    | ex_intro _ f' (conj a (conj b (conj d e))) =>
        ex_intro _ f' (conj a (conj b (conj d (fun x H => e x (fun K => H
          (conj (proj1 K) (eq_ind _ (fun z => x < z) (proj2 K) _ (Z.sub_add 4 _)))))))) end).
Qed.
Print Assumptions C05_state_read_after_write.

(** Every transition the boot code and the application perform only clears bits. *)
Example C05_transitions :
  Z.land ST_NEW ST_UPDATING = ST_UPDATING /\ Z.land ST_UPDATING ST_FINAL = ST_FINAL /\
  Z.land ST_NEW ST_FINAL = ST_FINAL /\ Z.land ST_NEW ST_TESTING = ST_TESTING /\
  Z.land ST_TESTING ST_SUCCESS = ST_SUCCESS.
Proof. repeat split. Qed.
Example C05_hyps : forall c p, bytes (fun _ => 255) /\ magic_writable c (fun _ => 255) p.
Proof.
  intros. split; [intros x; unfold is_byte; lia|]. exact (erased_magicable c _ p (fun _ _ => eq_refl)).
Qed.

(** C06: flag read-after-write, independence of the other flags, nothing else changes. *)
Theorem C06_sector_flags : forall c f s v,
  bytes f -> 0 <= s < 512 -> is_nib v -> has_magic c f PUPDATE = true ->
  (forall old, get_update_sector_flag c f s = Some old -> Z.land old v = v) ->
  exists f', run (set_update_sector_flag c s v) f = Done tt f' /\ bytes f' /\
    get_update_sector_flag c f' s = Some v /\
    (forall s', 0 <= s' < 512 -> s' <> s ->
       get_update_sector_flag c f' s' = get_update_sector_flag c f s') /\
    (forall x, x <> endflags c PUPDATE - 6 - s / 2 -> f' x = f x).
Proof. exact set_flag_exact. Qed.
Print Assumptions C06_sector_flags.

(** Without the magic (fresh trailer) the first call also programs the magic. *)
Theorem C06_sector_flags_fresh : forall c f s v,
  bytes f -> 0 <= s < 512 -> is_nib v ->
  (forall x, endflags c PUPDATE - 6 - 255 <= x < endflags c PUPDATE -> f x = 255) ->
  exists f', run (set_update_sector_flag c s v) f = Done tt f' /\ bytes f' /\
    get_update_sector_flag c f' s = Some v /\
    (forall s', 0 <= s' < 512 -> s' <> s -> get_update_sector_flag c f' s' = Some SF_NEW) /\
    (forall x, x <> endflags c PUPDATE - 6 - s / 2 ->
       ~ (endflags c PUPDATE - 4 <= x < endflags c PUPDATE) -> f' x = f x).
Proof. exact set_flag_fresh. Qed.
Print Assumptions C06_sector_flags_fresh.

(** A trailer with magic and all flags NEW satisfies the hypotheses. *)
Definition toy_cfg : cfg := {|
  BOOT := 0; UPDATE := 4096; SWAP := 8192; UFLAGS := 8192; PART := 4096; SECT := 512; HDR := 256; FB := 256;
  BLK := 256; c_hash_tag := HDR_SHA256; c_digsz := 32; c_auth := 0x200;
  c_hash := (fun l => repeat (fold_right Z.add 0 l mod 256) 32);
  c_keys := [(Some [1; 2; 3], 0xFFFFFFFF)]; c_sigsz := 64;
  c_verify := (fun _ d s => list_eqb d (firstn 32 s)); c_hybrid := false; c_sigsz2 := 0;
  c_verify2 := (fun _ _ _ => false); c_allow_downgrade := false |}.
Definition fresh_trailer : flash :=
  fun x => if inr 8188 4 x then magic_byte (x - 8188) else 255.
Example C06_hyps :
  bytes fresh_trailer /\ has_magic toy_cfg fresh_trailer PUPDATE = true /\
  get_update_sector_flag toy_cfg fresh_trailer 3 = Some SF_NEW /\
  Z.land SF_NEW SF_SWAPPING = SF_SWAPPING /\ Z.land SF_SWAPPING SF_BACKUP = SF_BACKUP /\
  Z.land SF_BACKUP SF_UPDATED = SF_UPDATED.
Proof.
  split; [|vm_compute; repeat split].
  intro x. unfold fresh_trailer. destruct (inr 8188 4 x); [apply magic_byte_range|unfold is_byte; lia].
Qed.

(** From sector 512 on the flags of distinct sectors are the same flag. *)
Theorem C06_aliasing_refuted : forall c f s,
  512 <= s < 65536 ->
  get_update_sector_flag c f s = get_update_sector_flag c f (2 * (s / 2 mod 256) + 1) /\
  2 * (s / 2 mod 256) + 1 < 512.
Proof. exact flags_alias. Qed.
Print Assumptions C06_aliasing_refuted.

(** C07.  The driver erases either whole sectors, or exactly the bytes it is asked to; in
    the second case the trailer must hold what an earlier life cycle can have left
    (magic erased, programmed or partly programmed; state NEW or UPDATING).
    [b] is the partition that has the flags; with FLAGS_HOME, the boot partition's state is
    lost with the sector. *)
Theorem C07_trigger : forall c b er f,
  geometry c -> flags_room c -> flags_at c b -> bytes f ->
  (er = SECT c \/
   (er = SECT c - 5 /\ magic_writable c f PUPDATE /\
    Z.land (f (endflags c PUPDATE - 5)) ST_UPDATING = ST_UPDATING)) ->
  exists f', run (update_trigger c er) f = Done tt f' /\ bytes f' /\
    get_partition_state c f' PUPDATE = Some ST_UPDATING /\
    (forall s, 0 <= s < PART c / SECT c -> get_update_sector_flag c f' s = Some SF_NEW) /\
    (forall x, ~ (b + PART c - SECT c <= x < b + PART c) -> f' x = f x) /\
    (home_flags c -> er = SECT c -> get_partition_state c f' PBOOT = None).
Proof. exact trigger_room_run. Qed.
Print Assumptions C07_trigger.

Theorem C07_success : forall c f,
  bytes f -> magic_writable c f PBOOT ->
  exists f', run (success c) f = Done tt f' /\ bytes f' /\
    get_partition_state c f' PBOOT = Some ST_SUCCESS /\
    (forall x, ~ (BOOT c + PART c - 5 <= x < BOOT c + PART c) -> f' x = f x).
Proof. exact success_run. Qed.
Print Assumptions C07_success.

Definition at_home (c : cfg) : cfg :=
  {| BOOT := BOOT c; UPDATE := UPDATE c; SWAP := SWAP c; UFLAGS := BOOT c + PART c - 8; PART := PART c; SECT := SECT c;
     HDR := HDR c; FB := FB c; BLK := BLK c; c_hash_tag := c_hash_tag c; c_digsz := c_digsz c; c_auth := c_auth c;
     c_hash := c_hash c; c_keys := c_keys c; c_sigsz := c_sigsz c; c_verify := c_verify c; c_hybrid := c_hybrid c;
     c_sigsz2 := c_sigsz2 c; c_verify2 := c_verify2 c; c_allow_downgrade := c_allow_downgrade c |}.

Example C07_hyps : geometry toy_cfg /\ flags_room toy_cfg /\ flags_at toy_cfg (UPDATE toy_cfg) /\
  geometry (at_home toy_cfg) /\ flags_room (at_home toy_cfg) /\ flags_at (at_home toy_cfg) (BOOT toy_cfg).
Proof.
  assert (T : forall c, c = toy_cfg \/ c = at_home toy_cfg -> geometry c /\ flags_room c).
  { intros c H. split.
    - destruct H as [-> | ->]; constructor; unfold disjoint; cbn; try lia; auto; try (left; lia); split; reflexivity || lia.
    - destruct H as [-> | ->]; (split; [|split; [|right]]); vm_compute; discriminate. }
  destruct (T _ (or_introl eq_refl)), (T _ (or_intror eq_refl)).
  split; [assumption|]. split; [assumption|]. split; [left; split; reflexivity|].
  split; [assumption|]. split; [assumption|]. right; split; reflexivity.
Qed.
