(** Invariant of the interruptible swap: what flash looks like at every point of an update
    of [X] (running) by [Y] (in the update partition), including after power failures. *)
From Verif Require Import Base BaseLemmas HeaderModel Flash FlashLemmas ImageModel ImageSpec
  TrailerModel TrailerProofs TriggerProofs TrailerCrash SwapModel SwapSpec Geometry CopyProofs.
Local Ltac Zify.zify_post_hook ::= idtac.


Inductive phase := New | Swp | Bak.

Definition rng (f : flash) (a : Z) (X : list Z) (lo hi : Z) : Prop :=
  forall i, lo <= i < hi -> i < zlen X -> f (a + i) = nth (Z.to_nat i) X 0.

(** Neither sector before a trailer starts with the trailer magic. *)
Definition np (c : cfg) (f : flash) : Prop :=
  word f (BOOT c + (PART c - 2 * SECT c)) <> MT /\ word f (UPDATE c + (PART c - 2 * SECT c)) <> MT.

Definition swp (c : cfg) (f : flash) (Y : list Z) (k : Z) : Prop :=
  (forall i, 0 <= i < SECT c -> k * SECT c + i < zlen Y ->
     f (SWAP c + i) = nth (Z.to_nat (k * SECT c + i)) Y 0) /\
  (k * SECT c = PART c - 2 * SECT c -> word f (SWAP c) <> MT).

Definition cur (c : cfg) (X Y : list Z) (k : Z) (ph : phase) (f : flash) : Prop :=
  match ph with
  | New => rng f (BOOT c) X (k * SECT c) (k * SECT c + SECT c) /\
           rng f (UPDATE c) Y (k * SECT c) (k * SECT c + SECT c)
  | Swp => rng f (BOOT c) X (k * SECT c) (k * SECT c + SECT c) /\ swp c f Y k
  | Bak => rng f (UPDATE c) X (k * SECT c) (k * SECT c + SECT c) /\ swp c f Y k
  end.

(** Contents outside the trailers, with sector [k] in phase [ph]. *)
Definition data (c : cfg) (X Y : list Z) (k : Z) (ph : phase) (f : flash) : Prop :=
  rng f (BOOT c) Y 0 (k * SECT c) /\ rng f (UPDATE c) X 0 (k * SECT c) /\
  rng f (BOOT c) X (k * SECT c + SECT c) (PART c) /\ rng f (UPDATE c) Y (k * SECT c + SECT c) (PART c) /\
  np c f /\ cur c X Y k ph f.

(** What makes the boot routine run the swap: an update was triggered, the boot image was
    not confirmed, or the boot image does not verify. *)
Inductive mode := Triggered | Fallback | Emergency.

Definition drv (c : cfg) (d : mode) (f : flash) : Prop :=
  match d with
  | Triggered => get_partition_state c f PBOOT <> Some ST_TESTING /\
       get_partition_state c f PUPDATE = Some ST_UPDATING
  | Fallback => get_partition_state c f PBOOT = Some ST_TESTING /\
       Z.land (f (state_addr c PUPDATE)) ST_FINAL = ST_FINAL /\ f (state_addr c PUPDATE) <> ST_FINAL
  | Emergency => get_partition_state c f PBOOT <> Some ST_TESTING /\
       Z.land (f (state_addr c PUPDATE)) ST_FINAL = ST_FINAL /\ f (state_addr c PUPDATE) <> ST_FINAL
  end.

Definition ph_flag (ph : phase) : Z := match ph with New => SF_NEW | Swp => SF_SWAPPING | Bak => SF_BACKUP end.

Definition done_flag (n : Z) : Prop := n <> SF_NEW /\ n <> SF_SWAPPING /\ n <> SF_BACKUP.

Definition trail (c : cfg) (d : mode) (k : Z) (ph : phase) (f : flash) : Prop :=
  drv c d f /\
  (has_magic c f PUPDATE = true \/ (k = 0 /\ ph = New /\ magicable c f PUPDATE)) /\
  (forall s, 0 <= s < k -> done_flag (nib c f s)) /\
  (forall s, k < s < PART c / SECT c -> nib c f s = SF_NEW) /\ nib c f k = ph_flag ph.

Definition mid (c : cfg) (X Y : list Z) (N : Z) (d : mode) (k : Z) (ph : phase) (f : flash) : Prop :=
  bytes f /\ 0 <= k <= N /\ (ph <> New -> k < N) /\ data c X Y k ph f /\ trail c d k ph f.

(** The number of sectors of the larger image. *)
Definition sectors (c : cfg) (X Y : list Z) (N : Z) : Prop :=
  zlen X <= N * SECT c /\ zlen Y <= N * SECT c /\ N * SECT c <= PART c - SECT c /\
  ((N - 1) * SECT c < zlen X \/ (N - 1) * SECT c < zlen Y) /\ 0 < N.

(** ** Geometry *)

Ltac geo G := pose proof (g_fb _ G); destruct (g_sect _ G) as (_ & ?); destruct (g_part _ G) as (_ & ?);
  pose proof (g_size _ G); destruct (g_hdr _ G); destruct (g_addr _ G) as (? & ? & ?);
  pose proof (g_disj1 _ G); pose proof (g_disj2 _ G); pose proof (g_disj3 _ G); pose proof (g_flags _ G);
  try (match goal with F : flags_fit _ |- _ => pose proof (fit_own _ F) end);
  unfold disjoint in *.

Lemma sect_le : forall c k, geometry c -> k * SECT c <= PART c - 2 * SECT c ->
  k * SECT c = PART c - 2 * SECT c \/ k * SECT c + SECT c <= PART c - 2 * SECT c.
Proof.
  intros c k G H. destruct (g_sect c G) as (_ & S). destruct (g_part c G) as (P & _).
  pose proof (Z.div_mod (PART c) (SECT c) ltac:(lia)) as D. rewrite P in D.
  assert (k <= PART c / SECT c - 2) by nia.
  destruct (Z.eq_dec k (PART c / SECT c - 2)) as [E|E]; [left; rewrite E; nia|right]. nia.
Qed.

Lemma sect_idx : forall c k, geometry c -> 0 <= k -> k * SECT c < PART c -> k < PART c / SECT c.
Proof.
  intros c k G H0 H. destruct (g_sect c G) as (_ & S). destruct (g_part c G) as (P & _).
  pose proof (Z.div_mod (PART c) (SECT c) ltac:(lia)) as D. rewrite P in D. nia.
Qed.

(** ** Stability *)

(** Unchanged trailers. *)
Definition same_trailers (c : cfg) (f f' : flash) : Prop :=
  forall x, (BOOT c + PART c - SECT c <= x < BOOT c + PART c \/
             UPDATE c + PART c - SECT c <= x < UPDATE c + PART c) -> f' x = f x.

Lemma magic_addr_eq : forall c p, magic_addr c p = endflags c p - 4.
Proof. intros. unfold magic_addr, trailer_addr. lia. Qed.
Lemma state_addr_eq : forall c p, state_addr c p = endflags c p - 5.
Proof. intros. unfold state_addr, trailer_addr. lia. Qed.

Lemma same_state : forall c f f' p,
  (forall x, endflags c p - 5 <= x < endflags c p -> f' x = f x) ->
  has_magic c f' p = has_magic c f p /\ get_partition_state c f' p = get_partition_state c f p /\
  f' (state_addr c p) = f (state_addr c p) /\ (magicable c f p -> magicable c f' p).
Proof.
  intros c f f' p H.
  assert (M : has_magic c f' p = has_magic c f p).
  { unfold has_magic. f_equal. apply word_ext. intros i Hi. apply H. rewrite magic_addr_eq. lia. }
  assert (E : f' (state_addr c p) = f (state_addr c p)) by (apply H; rewrite state_addr_eq; lia).
  split; [exact M|]. split; [unfold get_partition_state; rewrite M, E; reflexivity|]. split; [exact E|].
  intros K i Hi. rewrite H by (rewrite magic_addr_eq; lia). apply K, Hi.
Qed.

Lemma trail_stable : forall c d k ph f f', geometry c -> flags_room c -> 0 <= k -> k * SECT c < PART c ->
  same_trailers c f f' -> trail c d k ph f -> trail c d k ph f'.
Proof.
  intros c d k ph f f' G F Hk Hk2 H (H1 & H2 & H3 & H4 & H5).
  pose proof (sect_idx c k G Hk Hk2) as Hi.
  pose proof (fit_14 c G F) as K14. unfold own_flags in K14. geo G.
  destruct (same_state c f f' PUPDATE) as (U1 & U2 & U3 & U4); [intros x Hx; apply H; cbn [endflags] in Hx; lia|].
  destruct (same_state c f f' PBOOT) as (B1 & B2 & _); [intros x Hx; apply H; cbn [endflags part_addr] in Hx; lia|].
  assert (HN : forall s, 0 <= s < PART c / SECT c -> nib c f' s = nib c f s).
  { intros s Hs. unfold nib. rewrite H; [reflexivity|].
    destruct (sectors_room c s G F Hs) as (_ & K). lia. }
  split; [|split; [|split; [|split]]].
  - unfold drv in *. rewrite B2, U2, U3. exact H1.
  - rewrite U1. tauto.
  - intros s Hs. rewrite HN by lia. apply H3, Hs.
  - intros s Hs. rewrite HN by lia. apply H4, Hs.
  - rewrite HN by lia. exact H5.
Qed.

Lemma rng_stable : forall f f' a X lo hi, (forall i, lo <= i < hi -> i < zlen X -> f' (a + i) = f (a + i)) ->
  rng f a X lo hi -> rng f' a X lo hi.
Proof. intros f f' a X lo hi H R i Hi Hx. rewrite H by assumption. apply R; assumption. Qed.

(** Contents outside the trailers. *)
Lemma data_stable : forall c X Y k ph f f', geometry c ->
  zlen X <= PART c - SECT c -> zlen Y <= PART c - SECT c ->
  (forall x, ~ (BOOT c + PART c - SECT c <= x < BOOT c + PART c) ->
             ~ (UPDATE c + PART c - SECT c <= x < UPDATE c + PART c) -> f' x = f x) ->
  0 <= k -> data c X Y k ph f -> data c X Y k ph f'.
Proof.
  intros c X Y k ph f f' G HX HY H Hk (D1 & D2 & D3 & D4 & (N1 & N2) & D6). geo G.
  assert (0 <= k * SECT c) by lia.
  assert (RB : forall Z lo hi, zlen Z <= PART c - SECT c -> 0 <= lo -> rng f (BOOT c) Z lo hi -> rng f' (BOOT c) Z lo hi).
  { intros Z lo hi HZ Hlo R. apply (rng_stable f); [|exact R]. intros i Hi Hz. apply H; lia. }
  assert (RU : forall Z lo hi, zlen Z <= PART c - SECT c -> 0 <= lo -> rng f (UPDATE c) Z lo hi -> rng f' (UPDATE c) Z lo hi).
  { intros Z lo hi HZ Hlo R. apply (rng_stable f); [|exact R]. intros i Hi Hz. apply H; lia. }
  assert (RS : swp c f Y k -> swp c f' Y k).
  { intros (S1 & S2). split.
    - intros i Hi Hy. rewrite H by lia. apply S1; assumption.
    - intro E. rewrite (word_ext f' f _ (SWAP c)); [apply S2, E|]. intros i Hi. apply H; lia. }
  split; [apply RB; auto; lia|]. split; [apply RU; auto; lia|]. split; [apply RB; auto; lia|].
  split; [apply RU; auto; lia|]. split.
  - split; [rewrite (word_ext f' f _ (BOOT c + (PART c - 2 * SECT c)))|
            rewrite (word_ext f' f _ (UPDATE c + (PART c - 2 * SECT c)))]; auto; intros i Hi; apply H; lia.
  - destruct ph; destruct D6 as (C1 & C2); (split; [try (apply RB; auto; lia); try (apply RU; auto; lia)|]);
      try (apply RU; auto; lia); apply RS, C2.
Qed.
