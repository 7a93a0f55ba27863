(** update_trigger and success (C07). *)
From Verif Require Import Base BaseLemmas HeaderModel Flash FlashLemmas ImageModel TrailerModel
  TrailerProofs Geometry.

Lemma flags_at_ex : forall c, geometry c -> exists b, flags_at c b /\ b mod SECT c = 0.
Proof.
  intros c G. unfold flags_at, own_flags, home_flags. pose proof (g_align c G).
  destruct (g_flags c G) as [E|(E & A)]; [exists (UPDATE c)|exists (BOOT c)]; auto.
Qed.

(** If both hold, the update partition is the one before the boot partition's last bytes: it is not. *)
Lemma flags_at_align : forall c b, geometry c -> flags_at c b -> b mod SECT c = 0.
Proof.
  intros c b G Hb. pose proof (g_align c G) as A. destruct Hb as [(_ & ->)|(E & ->)]; [exact A|].
  unfold home_flags in E. destruct (g_flags c G) as [E'|(_ & E')]; [|exact E'].
  exfalso. pose proof (g_disj1 c G) as D. unfold disjoint in D. pose proof (g_part c G) as (_ & P). pose proof (g_sect c G) as (_ & S). lia.
Qed.

Lemma flags_sector_addr : forall c b, geometry c -> flags_at c b -> 14 <= SECT c \/ own_flags c ->
  (endflags c PUPDATE - 1) / SECT c * SECT c = b + PART c - SECT c.
Proof.
  intros c b G Hb H14. pose proof (flags_at_align c b G Hb) as A. pose proof (g_part c G) as (P & P2).
  pose proof (g_sect c G) as (_ & S). unfold endflags.
  assert (H : exists r, 0 <= r < SECT c /\ UFLAGS c - 1 = b + PART c - SECT c + r).
  { unfold flags_at, own_flags, home_flags in *. pose proof (g_disj1 c G) as D. unfold disjoint in D.
    destruct Hb as [(E & ->)|(E & ->)]; [exists (SECT c - 1)|exists (SECT c - 9)]; lia. }
  destruct H as (r & Hr & E).
  assert (E2 : (UFLAGS c - 1) / SECT c = b / SECT c + PART c / SECT c - 1).
  { symmetry. apply (Z.div_unique _ _ _ r); [lia|].
    pose proof (Z.div_mod b (SECT c) ltac:(lia)).
    pose proof (Z.div_mod (PART c) (SECT c) ltac:(lia)). lia. }
  rewrite E2.
  pose proof (Z.div_mod b (SECT c) ltac:(lia)).
  pose proof (Z.div_mod (PART c) (SECT c) ltac:(lia)). lia.
Qed.

Lemma fit_14 : forall c, geometry c -> flags_room c -> 14 <= SECT c \/ own_flags c.
Proof.
  intros c G (_ & _ & [F|F]); [right; exact F|left].
  assert (0 <= PART c / SECT c / 2) by (repeat apply Z.div_pos; pose proof (g_part c G); pose proof (g_sect c G); lia). lia.
Qed.

Lemma sectors_room : forall c s, geometry c -> flags_room c -> 0 <= s < PART c / SECT c ->
  0 <= s < 512 /\ (UFLAGS c = UPDATE c + PART c /\ UPDATE c + PART c - SECT c <= flags_addr c (flag_pos s) < UPDATE c + PART c - 5 \/
    UFLAGS c = BOOT c + PART c - 8 /\ 14 <= SECT c /\ BOOT c + PART c - SECT c <= flags_addr c (flag_pos s) < BOOT c + PART c - 13).
Proof.
  intros c s G F Hs. pose proof (fit_14 c G F) as K14. pose proof F as (F1 & F2 & F3). split; [lia|].
  destruct (flag_small s ltac:(lia)) as (E & _).
  unfold flags_addr, trailer_addr, endflags, own_flags in *. rewrite E.
  assert (s / 2 <= PART c / SECT c / 2) by (apply Z.div_le_mono; lia).
  assert (0 <= s / 2) by (apply Z.div_pos; lia).
  destruct (g_flags c G) as [E1|(E1 & _)]; [left|]; [lia|].
  destruct F3 as [F3|F3]; [left; lia|right; lia].
Qed.

Lemma own_home : forall c, geometry c -> own_flags c -> ~ home_flags c.
Proof.
  intros c G O H. unfold own_flags, home_flags in *. pose proof (g_disj1 c G) as D. unfold disjoint in D.
  pose proof (g_part c G). pose proof (g_sect c G). lia.
Qed.

Lemma fit_room : forall c, flags_fit c -> flags_room c.
Proof. intros c (_ & H). exact H. Qed.
Coercion fit_room : flags_fit >-> flags_room.

Lemma fit_own : forall c, flags_fit c -> UFLAGS c = UPDATE c + PART c.
Proof. intros c (H & _). exact H. Qed.

Lemma own_end : forall c p, flags_fit c -> endflags c p = part_addr c p + PART c.
Proof. intros c p F. pose proof (fit_own c F) as E. destruct p; [reflexivity|exact E|reflexivity]. Qed.

Lemma sectors_div : forall c s, geometry c -> flags_fit c -> 0 <= s < PART c / SECT c ->
  0 <= s < 512 /\ UPDATE c + PART c - SECT c <= flags_addr c (flag_pos s) < UPDATE c + PART c - 5.
Proof.
  intros c s G F Hs. pose proof (own_home c G (proj1 F)) as NH. destruct (sectors_room c s G F Hs) as (A & [B|B]); [tauto|].
  exfalso. apply NH. unfold home_flags. lia.
Qed.

Lemma trigger_room_run : forall c b er f, geometry c -> flags_room c -> flags_at c b -> bytes f ->
  (er = SECT c \/
   (er = SECT c - 5 /\ magicable c f PUPDATE /\
    Z.land (f (state_addr c PUPDATE)) ST_UPDATING = ST_UPDATING)) ->
  exists f', run (update_trigger c er) f = Done tt f' /\ bytes f' /\
    get_partition_state c f' PUPDATE = Some ST_UPDATING /\
    (forall s, 0 <= s < PART c / SECT c -> get_update_sector_flag c f' s = Some SF_NEW) /\
    (forall x, ~ (b + PART c - SECT c <= x < b + PART c) -> f' x = f x) /\
    (home_flags c -> er = SECT c -> get_partition_state c f' PBOOT = None).
Proof.
  intros c b er f G F Hfl Hb Her. pose proof (fit_14 c G F) as K14.
  unfold update_trigger. rewrite (flags_sector_addr c b) by assumption.
  cbn [run]. set (a := b + PART c - SECT c) in *. set (f1 := erase f a er).
  pose proof (g_sect c G) as (_ & S).
  assert (SECT c >= 6) by (destruct F as (_ & F & _); assert (0 <= PART c / SECT c / 2);
    [repeat apply Z.div_pos; pose proof (g_part c G); lia|lia]).
  assert (Hb1 : bytes f1) by (apply bytes_erase; assumption).
  assert (Em : magic_addr c PUPDATE = UFLAGS c - 4) by (unfold magic_addr, trailer_addr, endflags; lia).
  assert (Es : state_addr c PUPDATE = UFLAGS c - 5) by (unfold state_addr, trailer_addr, endflags; lia).
  pose proof (g_disj1 c G) as D. unfold disjoint in D. pose proof (g_part c G) as (_ & P2).
  assert (Loc : (UFLAGS c = b + PART c /\ b = UPDATE c) \/ (UFLAGS c = b + PART c - 8 /\ 14 <= SECT c /\ b = BOOT c)).
  { unfold flags_at, own_flags, home_flags in *. destruct Hfl as [(E & ->)|(E & ->)]; [left; lia|right; lia]. }
  assert (Hmg : magicable c f1 PUPDATE).
  { destruct Her as [E|(E & Hm & _)].
    - apply erased_magicable. intros i Hi. unfold f1. rewrite erase_in; [reflexivity|]. lia.
    - destruct Loc as [(L & _)|(L & L14 & _)].
      + intros i Hi. unfold f1. rewrite erase_out by lia. apply Hm, Hi.
      + apply erased_magicable. intros i Hi. unfold f1. rewrite erase_in; [reflexivity|]. lia. }
  destruct (run_set_state c f1 PUPDATE ST_UPDATING Hb1) as (f' & E & Hb' & Hst & Hfr);
    [unfold is_byte, ST_UPDATING; lia|assumption|].
  exists f'. split; [exact E|]. split; [exact Hb'|].
  assert (Hs : Z.land (f1 (state_addr c PUPDATE)) ST_UPDATING = ST_UPDATING).
  { destruct Her as [E1|(E1 & _ & Hm)]; unfold f1.
    - rewrite erase_in by lia. reflexivity.
    - destruct Loc as [(L & _)|(L & L14 & _)]; [rewrite erase_out by lia; exact Hm|rewrite erase_in by lia; reflexivity]. }
  rewrite Hs in Hst. split; [exact Hst|]. split; [|split].
  - intros s Hs'. rewrite get_flag_nib.
    unfold get_partition_state in Hst. destruct (has_magic c f' PUPDATE); [|discriminate].
    f_equal. destruct (sectors_room c s G F Hs') as (_ & K).
    unfold nib. rewrite Hfr by lia. unfold f1. rewrite erase_in by lia.
    destruct (flag_low s); reflexivity.
  - intros x Hx. rewrite Hfr by lia. unfold f1. apply erase_out. lia.
  - intros Hh ->. unfold home_flags in Hh. unfold get_partition_state.
    replace (has_magic c f' PBOOT) with false; [reflexivity|]. symmetry. unfold has_magic.
    rewrite (word_ext f' (fun _ => 255) _ (magic_addr c PBOOT)); [reflexivity|].
    intros i Hi. unfold magic_addr, trailer_addr, endflags. cbn [part_addr]. rewrite Hfr by lia. unfold f1. apply erase_in. lia.
Qed.

Lemma last_sector_addr : forall c, geometry c -> flags_fit c ->
  (endflags c PUPDATE - 1) / SECT c * SECT c = UPDATE c + PART c - SECT c.
Proof. intros c G F. apply flags_sector_addr; [exact G|left; split; [apply F|reflexivity]|right; apply F]. Qed.

Lemma trigger_run : forall c er f, geometry c -> flags_fit c -> bytes f ->
  (er = SECT c \/
   (er = SECT c - 5 /\ magicable c f PUPDATE /\
    Z.land (f (state_addr c PUPDATE)) ST_UPDATING = ST_UPDATING)) ->
  exists f', run (update_trigger c er) f = Done tt f' /\ bytes f' /\
    get_partition_state c f' PUPDATE = Some ST_UPDATING /\
    (forall s, 0 <= s < PART c / SECT c -> get_update_sector_flag c f' s = Some SF_NEW) /\
    (forall x, ~ (UPDATE c + PART c - SECT c <= x < UPDATE c + PART c) -> f' x = f x).
Proof.
  intros c er f G F Hb Her.
  destruct (trigger_room_run c (UPDATE c) er f G F (or_introl (conj (proj1 F) eq_refl)) Hb Her) as (f' & A & B & D & E & O & _).
  exists f'. auto.
Qed.

Lemma success_run : forall c f, bytes f -> magicable c f PBOOT ->
  exists f', run (success c) f = Done tt f' /\ bytes f' /\
    get_partition_state c f' PBOOT = Some ST_SUCCESS /\
    (forall x, ~ (BOOT c + PART c - 5 <= x < BOOT c + PART c) -> f' x = f x).
Proof.
  intros c f Hb Hm. unfold success.
  destruct (run_set_state c f PBOOT ST_SUCCESS Hb) as (f' & E & Hb' & Hst & Hfr);
    [unfold is_byte, ST_SUCCESS; lia|assumption|].
  exists f'. split; [exact E|]. split; [exact Hb'|]. split.
  - rewrite Hst. unfold ST_SUCCESS. rewrite Z.land_0_r. reflexivity.
  - intros x Hx. apply Hfr. unfold state_addr, magic_addr, trailer_addr, endflags. cbn [part_addr]. lia.
Qed.
