(** C86: flags on flash that is erased to zero. *)
From Verif Require Import Base BaseLemmas HeaderModel Flash FlashLemmas ImageModel Geometry TrailerModel TrailerProofs TriggerProofs TrailerProps
  ExtFlagsSpec ExtFlagsProofs InvertModel InvertSpec InvertProofs.
Local Ltac Zify.zify_post_hook ::= idtac.

Lemma reads_state : forall c f p, bytes f -> marked false f (endflags c p) -> get_partition_state c f p = Some (f (endflags c p - 5)).
Proof.
  intros c f p Hb M. unfold get_partition_state. rewrite (proj2 (has_magic_marked c f p Hb) M). unfold state_addr. rewrite taddr. replace (endflags c p - 4 - 1) with (endflags c p - 5) by lia. reflexivity.
Qed.
Lemma reads_flag : forall c f s, bytes f -> 0 <= s < 512 -> marked false f (endflags c PUPDATE) ->
  get_update_sector_flag c f s = Some (sector_flag f (endflags c PUPDATE) s).
Proof.
  intros c f s Hb Hs M. rewrite nib_get by (apply has_magic_marked; assumption). rewrite nibv_flag by exact Hb.
  unfold nib, flags_addr. rewrite (flag_taddr c s Hs), (proj2 (flag_small s Hs)). reflexivity.
Qed.

(** Setting a state: what is read back is the old state with the new bits, which is the new state
    when it only sets bits. *)
Theorem C86_state : forall c p st f, bytes f -> is_byte st -> imarkable f (endflags c p) ->
  exists g, irun (set_partition_state c p st) f = Done tt g /\ bytes g /\
    get_partition_state c g p = Some (Z.lor (f (endflags c p - 5)) st) /\
    (forall y, ~ (endflags c p - 5 <= y < endflags c p) -> g y = f y).
Proof.
  intros c p st f Hb Hs Hm. destruct (istate_run c p st f Hb Hs Hm) as (g & E & Bg & Mg & Sg & O & _).
  exists g. split; [exact E|]. split; [exact Bg|]. split; [rewrite reads_state, Sg by assumption; reflexivity|exact O].
Qed.
Print Assumptions C86_state.

(** Every transition of the bootloader and the application only sets bits, and every value but
    the intermediate state FINAL_FLAGS is the complement of the one for flash that is erased to
    ones. *)
Theorem C86_transitions :
  (Z.lor IST_NEW IST_UPDATING = IST_UPDATING /\ Z.lor IST_UPDATING IST_FINAL = IST_FINAL /\ Z.lor IST_NEW IST_FINAL = IST_FINAL /\
   Z.lor IST_NEW IST_TESTING = IST_TESTING /\ Z.lor IST_TESTING IST_SUCCESS = IST_SUCCESS /\
   Z.lor ISF_NEW ISF_SWAPPING = ISF_SWAPPING /\ Z.lor ISF_SWAPPING ISF_BACKUP = ISF_BACKUP /\ Z.lor ISF_BACKUP ISF_UPDATED = ISF_UPDATED) /\
  map (fun v => 255 - v) [IST_NEW; IST_UPDATING; IST_TESTING; IST_SUCCESS] = [ST_NEW; ST_UPDATING; ST_TESTING; ST_SUCCESS] /\
  map (fun v => 15 - v) [ISF_NEW; ISF_SWAPPING; ISF_BACKUP; ISF_UPDATED] = [SF_NEW; SF_SWAPPING; SF_BACKUP; SF_UPDATED].
Proof. repeat split. Qed.
Print Assumptions C86_transitions.

(** Setting a sector flag changes no other flag. *)
Theorem C86_flag : forall c s v f, bytes f -> 0 <= s < 512 -> 0 <= v < 16 -> imarkable f (endflags c PUPDATE) ->
  Z.lor (sector_flag f (endflags c PUPDATE) s) v = v ->
  exists g, irun (set_update_sector_flag c s v) f = Done tt g /\ bytes g /\ get_update_sector_flag c g s = Some v /\
    (forall s', 0 <= s' < 512 -> s' <> s -> get_update_sector_flag c g s' = Some (sector_flag f (endflags c PUPDATE) s')) /\
    (forall y, ~ (endflags c PUPDATE - 4 <= y < endflags c PUPDATE) -> y <> flag_at (endflags c PUPDATE) s -> g y = f y).
Proof.
  intros c s v f Hb Hs Hv Hm Sub. destruct (iflag_run c s v f Hb Hs Hv Hm Sub) as (g & E & Bg & Mg & Sg & Oth & O).
  exists g. split; [exact E|]. split; [exact Bg|]. split; [rewrite reads_flag, Sg by assumption; reflexivity|]. split; [|exact O].
  intros s' Hs' N. rewrite reads_flag, Oth by assumption. reflexivity.
Qed.
Print Assumptions C86_flag.

(** A power failure while a state is set leaves a state between the old and the new one, damages
    no other byte than the state and, if it was not there before, the magic number; setting it
    again succeeds. *)
Theorem C86_state_power_failure : forall c p st f g, bytes f -> is_byte st -> imarkable f (endflags c p) ->
  Z.lor (f (endflags c p - 5)) st = st -> icrash (set_partition_state c p st) f g ->
  ibetween (f (endflags c p - 5)) st (g (endflags c p - 5)) /\
  (marked false f (endflags c p) -> get_partition_state c g p = Some (g (endflags c p - 5))) /\
  (forall y, ~ (endflags c p - 5 <= y < endflags c p) -> g y = f y) /\
  (exists h, irun (set_partition_state c p st) g = Done tt h /\ get_partition_state c h p = Some st).
Proof.
  intros c p st f g Hb Hs Hm Sub C. destruct (istate_crash c p st f g Hb Hs Hm C) as (Bg & Mg & Bt & O & S). rewrite Sub in Bt.
  split; [exact Bt|]. split; [|split; [exact O|]].
  - intro M. apply reads_state; [exact Bg|]. apply imarked_bytes. intros i Hi. rewrite (S M) by lia. apply (proj1 (imarked_bytes f _) M i Hi).
  - destruct (C86_state c p st g Bg Hs Mg) as (h & E & _ & R & _). exists h. split; [exact E|]. rewrite R, (proj2 Bt). reflexivity.
Qed.
Print Assumptions C86_state_power_failure.

Theorem C86_flag_power_failure : forall c s v f g, bytes f -> 0 <= s < 512 -> 0 <= v < 16 -> imarkable f (endflags c PUPDATE) ->
  Z.lor (sector_flag f (endflags c PUPDATE) s) v = v -> icrash (set_update_sector_flag c s v) f g ->
  ibetween (sector_flag f (endflags c PUPDATE) s) v (sector_flag g (endflags c PUPDATE) s) /\
  (forall s', 0 <= s' < 512 -> s' <> s -> sector_flag g (endflags c PUPDATE) s' = sector_flag f (endflags c PUPDATE) s') /\
  (marked false f (endflags c PUPDATE) -> marked false g (endflags c PUPDATE)) /\
  (forall y, ~ (endflags c PUPDATE - 4 <= y < endflags c PUPDATE) -> y <> flag_at (endflags c PUPDATE) s -> g y = f y) /\
  (exists h, irun (set_update_sector_flag c s v) g = Done tt h /\ get_update_sector_flag c h s = Some v /\
    (forall s', 0 <= s' < 512 -> s' <> s -> get_update_sector_flag c h s' = Some (sector_flag f (endflags c PUPDATE) s'))).
Proof.
  intros c s v f g Hb Hs Hv Hm Sub C. destruct (iflag_crash c s v f g Hb Hs Hv Hm Sub C) as (Bg & Mg & MM & Bt & Oth & O).
  split; [exact Bt|]. split; [exact Oth|]. split; [exact MM|]. split; [exact O|].
  destruct (C86_flag c s v g Bg Hs Hv Mg (proj2 Bt)) as (h & E & _ & R1 & R2 & _). exists h. split; [exact E|]. split; [exact R1|].
  intros s' Hs' N. rewrite (R2 s' Hs' N), (Oth s' Hs' N). reflexivity.
Qed.
Print Assumptions C86_flag_power_failure.

(** Triggering an update: the state is UPDATING and the flags of all sectors are NEW, whatever was
    there, and nothing outside the last sector changes. *)
Theorem C86_trigger : forall c b f, geometry c -> flags_room c -> flags_at c b -> bytes f ->
  exists g, irun (i_trigger c) f = Done tt g /\ bytes g /\ get_partition_state c g PUPDATE = Some IST_UPDATING /\
    (forall s, 0 <= s < PART c / SECT c -> get_update_sector_flag c g s = Some ISF_NEW) /\
    (forall y, ~ (b + PART c - SECT c <= y < b + PART c) -> g y = f y).
Proof.
  intros c b f G F Hfl Hb. destruct (itrigger_run c b f G F Hfl Hb) as (g & E & Bg & Mg & Sg & Fl & O).
  exists g. split; [exact E|]. split; [exact Bg|]. split; [rewrite reads_state, Sg by assumption; reflexivity|]. split; [|exact O].
  intros s Hs. rewrite reads_flag, Fl; [reflexivity|exact Hs|exact Bg|apply (sectors_room c s G F Hs)|exact Mg].
Qed.
Print Assumptions C86_trigger.

(** Confirming an image works from every state. *)
Theorem C86_success : forall c f, bytes f -> imarkable f (BOOT c + PART c) ->
  exists g, irun (i_success c) f = Done tt g /\ get_partition_state c g PBOOT = Some IST_SUCCESS /\
    (forall y, ~ (BOOT c + PART c - 5 <= y < BOOT c + PART c) -> g y = f y).
Proof.
  intros c f Hb Hm. destruct (C86_state c PBOOT IST_SUCCESS f Hb ltac:(unfold is_byte, IST_SUCCESS; lia) Hm) as (g & E & _ & R & O).
  exists g. split; [exact E|]. split; [|exact O]. rewrite R. f_equal. apply Z.eqb_eq.
  apply (byte_check (fun b => Z.lor b IST_SUCCESS =? IST_SUCCESS)); [vm_compute; reflexivity|apply Hb].
Qed.
Print Assumptions C86_success.

(** ** Where the code violates the property *)

(** Flags that are not erased to zero but filled with 0xFF, the fill byte of the factory image
    tool: no state can ever be set, an image cannot be confirmed. *)
Theorem C86_fill_refuted : forall c p st f, bytes f -> is_byte st -> (forall y, endflags c p - 4 <= y < endflags c p -> f y = 255) ->
  exists g, irun (set_partition_state c p st) f = Done tt g /\ get_partition_state c g p = None.
Proof.
  intros c p st f Hb Hs Ff. set (e := endflags c p) in *.
  change (set_partition_state c p st) with (bind (need c p) (fun _ =>
    let! s <- Flash.get (fun f => f (state_addr c p)) in if s =? st then Ret tt else set_trailer_at c p 1 st)). rewrite irun_bind.
  assert (NM : forall h, bytes h -> (forall y, e - 4 <= y < e -> h y = 255) -> has_magic c h p = false).
  { intros h Bh Fh. destruct (has_magic c h p) eqn:M; [|reflexivity]. apply has_magic_marked in M; [|exact Bh]. fold e in M.
    pose proof (proj1 (imarked_bytes h e) M 0 ltac:(lia)) as K. rewrite Fh in K by lia. discriminate K. }
  unfold need. cbn [bind irun Flash.get]. rewrite (NM f Hb Ff). unfold set_partition_magic, magic_addr. cbn [irun]. rewrite taddr, Z.sub_0_r. fold e.
  set (f1 := iwrite f (e - 4) 4 magic_byte). assert (B1 : bytes f1) by (apply bytes_iwrite; [exact Hb|intros; apply magic_byte_range]).
  assert (F1 : forall y, e - 4 <= y < e -> f1 y = 255).
  { intros y Hy. unfold f1. rewrite iwrite_in, Ff by lia. apply Z.eqb_eq.
    apply (byte_check (fun b => Z.lor 255 b =? 255)); [vm_compute; reflexivity|apply magic_byte_range]. }
  unfold state_addr, set_trailer_at. rewrite taddr. fold e. destruct (f1 (e - 4 - 1) =? st).
  - exists f1. split; [reflexivity|]. unfold get_partition_state. rewrite (NM f1 B1 F1). reflexivity.
  - cbn [irun]. eexists. split; [reflexivity|]. unfold get_partition_state. rewrite NM; [reflexivity|apply bytes_iwrite; auto|].
    intros y Hy. rewrite iwrite_out by lia. apply F1, Hy.
Qed.
Print Assumptions C86_fill_refuted.

(** The end of an update is marked by the state FINAL_FLAGS (0xBF) after UPDATING (0x8F), which
    sets two bits; on ordinary flash (0x70 to 0x30) it is one.  A power failure between them
    leaves a state that is neither: src/update_flash.c:116 and 278 see no update in progress, and
    the new image, already in the boot partition, is started without being on trial. *)
Theorem C86_final_refuted : forall c f, bytes f -> marked false f (endflags c PUPDATE) -> f (endflags c PUPDATE - 5) = IST_UPDATING ->
  exists g st, icrash (set_partition_state c PUPDATE IST_FINAL) f g /\ get_partition_state c g PUPDATE = Some st /\
    st <> IST_UPDATING /\ st <> IST_FINAL /\ (forall y, y <> endflags c PUPDATE - 5 -> g y = f y).
Proof.
  intros c f Hb M U. set (e := endflags c PUPDATE) in *. set (g := fun y => if y =? e - 5 then 0x9F else f y). exists g, 0x9F.
  assert (Bg : bytes g) by (intro y; unfold g; destruct (y =? e - 5); [unfold is_byte; lia|apply Hb]).
  assert (O : forall y, y <> e - 5 -> g y = f y) by (intros y Hy; unfold g; rewrite (proj2 (Z.eqb_neq _ _) Hy); reflexivity).
  assert (Mg : marked false g e) by (apply imarked_bytes; intros i Hi; rewrite O by lia; apply (proj1 (imarked_bytes f e) M i Hi)).
  split; [|split; [rewrite reads_state by assumption; fold e; unfold g; rewrite Z.eqb_refl; reflexivity|split; [discriminate|split; [discriminate|exact O]]]].
  change (set_partition_state c PUPDATE IST_FINAL) with (bind (need c PUPDATE) (fun _ =>
    let! s <- Flash.get (fun f => f (state_addr c PUPDATE)) in if s =? IST_FINAL then Ret tt else set_trailer_at c PUPDATE 1 IST_FINAL)).
  unfold need. cbn [bind icrash Flash.get]. rewrite (proj2 (has_magic_marked c f PUPDATE Hb) M). cbn [bind icrash].
  unfold state_addr, set_trailer_at. rewrite taddr. fold e. replace (e - 4 - 1) with (e - 5) by lia. rewrite U.
  change (IST_UPDATING =? IST_FINAL) with false. cbn [icrash]. right. left. split; [exact Bg|]. split.
  - intros x Hx. apply inr_false in Hx. apply O. lia.
  - intros _ x Hx. apply inr_true in Hx. assert (x = e - 5) as -> by lia. exists 0x10. rewrite U. unfold g. rewrite Z.eqb_refl. reflexivity.
Qed.
Print Assumptions C86_final_refuted.

(** ** Concrete cases *)
Definition all_zero : flash := fun _ => 0.
Example C86_hyps : forall c p, bytes all_zero /\ imarkable all_zero (endflags c p) /\ Z.lor (sector_flag all_zero (endflags c p) 7) ISF_SWAPPING = ISF_SWAPPING /\
  geometry toy_cfg /\ flags_room toy_cfg /\ flags_at toy_cfg (UPDATE toy_cfg).
Proof.
  intros c p. split; [intro x; unfold is_byte, all_zero; lia|]. split; [intros i Hi; reflexivity|]. split; [unfold sector_flag; reflexivity|].
  pose proof C07_hyps. tauto.
Qed.
(** An update is triggered, sectors 0 and 1 are in progress, the update ends and is confirmed. *)
Example C86_life : 
  match irun (i_trigger toy_cfg ;; set_update_sector_flag toy_cfg 0 ISF_SWAPPING ;; set_update_sector_flag toy_cfg 1 ISF_BACKUP ;;
              set_update_sector_flag toy_cfg 0 ISF_UPDATED ;; set_partition_state toy_cfg PBOOT IST_TESTING ;; i_success toy_cfg) all_zero with
  | Done _ g => (get_partition_state toy_cfg g PUPDATE, map (get_update_sector_flag toy_cfg g) [0; 1; 2], get_partition_state toy_cfg g PBOOT)
  | _ => (None, [], None)
  end = (Some IST_UPDATING, [Some ISF_UPDATED; Some ISF_BACKUP; Some ISF_NEW], Some IST_SUCCESS).
Proof. vm_compute. reflexivity. Qed.
