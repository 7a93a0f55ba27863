(** Effects of the trailer operations, uninterrupted and interrupted. *)
From Verif Require Import Base BaseLemmas HeaderModel Flash FlashLemmas ImageModel TrailerModel.

(** ** Bits *)

(** [x] has all bits of [lo] and only bits of [hi]. *)
Definition btw (lo hi x : Z) : Prop := Z.land x lo = lo /\ Z.land x hi = x.

Lemma btw_torn : forall old v m, btw (Z.land old v) old (Z.lor (Z.land old v) (Z.land old m)).
Proof.
  intros. split; apply Z.bits_inj'; intros n Hn;
    rewrite ?Z.land_spec, ?Z.lor_spec, ?Z.land_spec;
    destruct (Z.testbit old n), (Z.testbit v n), (Z.testbit m n); reflexivity.
Qed.

Lemma land_eq_trans : forall x old v, Z.land x old = x -> Z.land old v = v -> Z.land x v = v -> Z.land x v = v.
Proof. auto. Qed.

(** Exhaustive check over the bytes. *)
Definition byte_list : list Z := map Z.of_nat (seq 0 256).
Lemma byte_in : forall b, is_byte b -> In b byte_list.
Proof.
  intros b H. unfold byte_list. apply in_map_iff. exists (Z.to_nat b).
  unfold is_byte in H. split; [lia|]. apply in_seq. lia.
Qed.
Lemma byte_check : forall (P : Z -> bool), forallb P byte_list = true ->
  forall b, is_byte b -> P b = true.
Proof. intros P H b Hb. rewrite forallb_forall in H. apply H, byte_in, Hb. Qed.
Lemma byte_check2 : forall (P : Z -> Z -> bool),
  forallb (fun a => forallb (P a) byte_list) byte_list = true ->
  forall a b, is_byte a -> is_byte b -> P a b = true.
Proof.
  intros P H a b Ha Hb. rewrite forallb_forall in H. specialize (H a (byte_in a Ha)).
  rewrite forallb_forall in H. apply H, byte_in, Hb.
Qed.

(** Nibble of a flag byte. *)
Definition nibv (low : bool) (fl : Z) : Z :=
  if low then Z.land fl 0x0F else Z.shiftr (Z.land fl 0xF0) 4.
Definition put_nib (low : bool) (fl v : Z) : Z :=
  if low then Z.lor (Z.land fl 0xF0) (Z.land v 0x0F)
  else Z.lor (Z.shiftl (Z.land v 0x0F) 4) (Z.land fl 0x0F).

Definition is_nib (v : Z) : Prop := 0 <= v < 16.
Definition nib_list : list Z := map Z.of_nat (seq 0 16).
Lemma nib_in : forall b, is_nib b -> In b nib_list.
Proof.
  intros b H. unfold nib_list. apply in_map_iff. exists (Z.to_nat b).
  unfold is_nib in H. split; [lia|]. apply in_seq. lia.
Qed.

Definition put_nib_ok (low : bool) (fl v : Z) : bool :=
  if Z.land (nibv low fl) v =? v then
    (Z.land fl (put_nib low fl v) =? put_nib low fl v) &&
    (nibv low (put_nib low fl v) =? v) &&
    (nibv (negb low) (put_nib low fl v) =? nibv (negb low) fl) &&
    (0 <=? put_nib low fl v) && (put_nib low fl v <? 256)
  else true.
Lemma put_nib_check : forallb (fun fl => forallb (fun v => put_nib_ok true fl v && put_nib_ok false fl v) nib_list)
  byte_list = true.
Proof. vm_compute. reflexivity. Qed.

Lemma put_nib_spec : forall low fl v, is_byte fl -> is_nib v ->
  Z.land (nibv low fl) v = v ->
  Z.land fl (put_nib low fl v) = put_nib low fl v /\
  nibv low (put_nib low fl v) = v /\
  nibv (negb low) (put_nib low fl v) = nibv (negb low) fl /\
  is_byte (put_nib low fl v).
Proof.
  intros low fl v Hf Hv H.
  pose proof put_nib_check as K. rewrite forallb_forall in K.
  specialize (K fl (byte_in fl Hf)). rewrite forallb_forall in K.
  specialize (K v (nib_in v Hv)). apply andb_prop in K. destruct K as (K1 & K2).
  assert (K : put_nib_ok low fl v = true) by (destruct low; assumption).
  unfold put_nib_ok in K. rewrite H, Z.eqb_refl in K. unfold is_byte. lia.
Qed.

(** Between the old and the new flag byte, the other nibble is unchanged and this nibble
    is between the old and the new one. *)
Lemma land_nibv : forall low a b, nibv low (Z.land a b) = Z.land (nibv low a) (nibv low b).
Proof.
  intros low a b. unfold nibv. destruct low; apply Z.bits_inj'; intros n Hn;
    rewrite ?Z.shiftr_spec, ?Z.land_spec, ?Z.shiftr_spec, ?Z.land_spec by lia.
  - destruct (Z.testbit a n), (Z.testbit b n), (Z.testbit 15 n); reflexivity.
  - destruct (Z.testbit a (n + 4)), (Z.testbit b (n + 4)), (Z.testbit 240 (n + 4)); reflexivity.
Qed.

Lemma btw_nibv : forall low lo hi x, btw lo hi x -> btw (nibv low lo) (nibv low hi) (nibv low x).
Proof.
  intros low lo hi x (H1 & H2). split; rewrite <- land_nibv; congruence.
Qed.

Lemma btw_same : forall v x, btw v v x -> x = v.
Proof. intros v x (H1 & H2). congruence. Qed.

Lemma nibv_range : forall low b, is_byte b -> is_nib (nibv low b).
Proof.
  intros low b Hb.
  assert (K : (0 <=? nibv low b) && (nibv low b <? 16) = true).
  { apply (byte_check (fun b => (0 <=? nibv low b) && (nibv low b <? 16))); [|assumption].
    destruct low; vm_compute; reflexivity. }
  unfold is_nib. lia.
Qed.

(** ** The trailer magic *)

(** Programming the magic makes it readable. *)
Definition magicable (c : cfg) (f : flash) (p : part) : Prop :=
  forall i, 0 <= i < 4 -> Z.land (f (magic_addr c p + i)) (magic_byte i) = magic_byte i.

Lemma magic_bytes_word : forall f a, (forall i, 0 <= i < 4 -> f (a + i) = magic_byte i) ->
  word f a = WOLFBOOT_MAGIC_TRAIL.
Proof.
  intros f a H. unfold word. pose proof (H 0 ltac:(lia)) as H0. rewrite Z.add_0_r in H0.
  rewrite H0, (H 1), (H 2), (H 3) by lia. reflexivity.
Qed.

Lemma word_magic_bytes : forall f a, bytes f -> word f a = WOLFBOOT_MAGIC_TRAIL ->
  forall i, 0 <= i < 4 -> f (a + i) = magic_byte i.
Proof.
  intros f a Hb H i Hi. destruct (word_bytes_inj f a _ Hb H) as (H0 & H1 & H2 & H3).
  assert (i = 0 \/ i = 1 \/ i = 2 \/ i = 3) as [ -> | [ -> | [ -> | -> ]]] by lia.
  - rewrite Z.add_0_r, H0. reflexivity.
  - rewrite H1. reflexivity.
  - rewrite H2. reflexivity.
  - rewrite H3. reflexivity.
Qed.

Lemma magic_byte_range : forall i, is_byte (magic_byte i).
Proof.
  intro i. unfold magic_byte.
  destruct (nth_in_or_default (Z.to_nat i) (le_bytes 4 WOLFBOOT_MAGIC_TRAIL) 0) as [H|H].
  - pose proof (le_bytes_bytes 4 WOLFBOOT_MAGIC_TRAIL) as K. unfold all_bytes in K.
    rewrite Forall_forall in K. apply K, H.
  - rewrite H. unfold is_byte. lia.
Qed.

Lemma has_magic_iff : forall c f p, bytes f ->
  (has_magic c f p = true <-> forall i, 0 <= i < 4 -> f (magic_addr c p + i) = magic_byte i).
Proof.
  intros c f p Hb. unfold has_magic. rewrite Z.eqb_eq. split.
  - apply word_magic_bytes, Hb.
  - apply magic_bytes_word.
Qed.

Lemma has_magic_magicable : forall c f p, bytes f -> has_magic c f p = true -> magicable c f p.
Proof.
  intros c f p Hb H i Hi. rewrite has_magic_iff in H by assumption. rewrite H by assumption.
  apply Z.land_diag.
Qed.

Lemma erased_magicable : forall c f p,
  (forall i, 0 <= i < 4 -> f (magic_addr c p + i) = 255) -> magicable c f p.
Proof. intros c f p H i Hi. rewrite H by assumption. apply land_255, magic_byte_range. Qed.

(** ** Uninterrupted effects *)

(** [f'] differs from [f] at most in the magic word of [p]. *)
Lemma run_magic : forall c f p, bytes f -> magicable c f p ->
  exists f', run (let! m <- get (fun f => has_magic c f p) in
                  if m then Ret tt else set_partition_magic c p) f = Done tt f' /\
    bytes f' /\ has_magic c f' p = true /\
    (forall x, ~ (magic_addr c p <= x < magic_addr c p + 4) -> f' x = f x).
Proof.
  intros c f p Hb Hm. cbn [bind run get]. destruct (has_magic c f p) eqn:E.
  - exists f. repeat split; auto. apply Hb. apply Hb.
  - eexists. split; [reflexivity|].
    assert (Hb' : bytes (write f (magic_addr c p) 4 magic_byte)).
    { apply bytes_write; [assumption|]. intros i Hi. apply magic_byte_range. }
    split; [exact Hb'|]. split.
    + apply has_magic_iff; [assumption|]. intros i Hi. rewrite write_in by lia.
      replace (magic_addr c p + i - magic_addr c p) with i by lia. apply Hm, Hi.
    + intros x Hx. apply write_out. lia.
Qed.

Lemma run_set_state : forall c f p st, bytes f -> is_byte st -> magicable c f p ->
  exists f', run (set_partition_state c p st) f = Done tt f' /\ bytes f' /\
    get_partition_state c f' p = Some (Z.land (f (state_addr c p)) st) /\
    (forall x, ~ (state_addr c p <= x < magic_addr c p + 4) -> f' x = f x).
Proof.
  intros c f p st Hb Hst Hm. unfold set_partition_state. rewrite run_bind.
  destruct (run_magic c f p Hb Hm) as (f1 & E1 & Hb1 & Hm1 & Hf1).
  rewrite E1. cbn [bind run get].
  assert (Hsm : magic_addr c p = state_addr c p + 1) by (unfold magic_addr, state_addr, trailer_addr; lia).
  assert (Hs1 : f1 (state_addr c p) = f (state_addr c p)) by (apply Hf1; lia).
  destruct (Z.eqb_spec (f1 (state_addr c p)) st) as [E|E].
  - exists f1. split; [reflexivity|]. split; [assumption|]. split.
    + unfold get_partition_state. rewrite Hm1, E. f_equal. rewrite <- Hs1, E.
      symmetry. apply Z.land_diag.
    + intros x Hx. apply Hf1. lia.
  - eexists. split; [reflexivity|]. split; [|split].
    + apply bytes_write; [assumption|]. intros i Hi. apply Hst.
    + unfold get_partition_state.
      replace (has_magic c _ p) with true.
      * f_equal. fold (state_addr c p). rewrite write_in by lia. rewrite Hs1. reflexivity.
      * symmetry. apply has_magic_iff; [apply bytes_write; [assumption|intros; apply Hst]|].
        intros i Hi. fold (state_addr c p). rewrite write_out by lia.
        pose proof (proj1 (has_magic_iff c f1 p Hb1) Hm1) as K. apply K, Hi.
    + intros x Hx. fold (state_addr c p). rewrite write_out by lia. apply Hf1. lia.
Qed.

Lemma flag_small : forall s, 0 <= s < 512 ->
  flag_pos s = s / 2 /\ flag_low s = Z.even s.
Proof.
  intros s Hs.
  assert (Hp : flag_pos s = s / 2).
  { unfold flag_pos. rewrite (Z.mod_small s 65536) by lia. apply Z.mod_small. lia. }
  split; [exact Hp|]. unfold flag_low. rewrite Hp, (Z.mod_small s 65536) by lia.
  rewrite (Z.div_mod s 2) at 1 by lia. rewrite Zmod_even. destruct (Z.even s).
  - rewrite Z.add_0_r. apply Z.eqb_refl.
  - apply Z.eqb_neq. lia.
Qed.

Lemma flag_distinct : forall s1 s2, 0 <= s1 < 512 -> 0 <= s2 < 512 -> s1 <> s2 ->
  flag_pos s1 = flag_pos s2 -> flag_low s2 = negb (flag_low s1).
Proof.
  intros s1 s2 H1 H2 Hne Hp.
  destruct (flag_small s1 H1) as (P1 & L1). destruct (flag_small s2 H2) as (P2 & L2).
  rewrite P1, P2 in Hp. rewrite L1, L2.
  pose proof (Z.div_mod s1 2 ltac:(lia)) as D1. pose proof (Z.div_mod s2 2 ltac:(lia)) as D2.
  rewrite Zmod_even in D1, D2. destruct (Z.even s1), (Z.even s2); try reflexivity; lia.
Qed.

(** The flag nibble of a sector, whether or not the magic is there. *)
Definition nib (c : cfg) (f : flash) (s : Z) : Z :=
  nibv (flag_low s) (f (flags_addr c (flag_pos s))).

Lemma get_flag_nib : forall c f s,
  get_update_sector_flag c f s = if has_magic c f PUPDATE then Some (nib c f s) else None.
Proof. reflexivity. Qed.

Lemma flag_pos_range : forall s, 0 <= flag_pos s < 256.
Proof. intros. unfold flag_pos. apply Z.mod_pos_bound. lia. Qed.

Lemma run_set_flag : forall c f s v, bytes f -> is_nib v -> magicable c f PUPDATE ->
  Z.land (nib c f s) v = v ->
  exists f', run (set_update_sector_flag c s v) f = Done tt f' /\ bytes f' /\
    has_magic c f' PUPDATE = true /\
    nib c f' s = v /\
    (forall s', 0 <= s < 512 -> 0 <= s' < 512 -> s' <> s -> nib c f' s' = nib c f s') /\
    (forall x, x <> flags_addr c (flag_pos s) ->
       ~ (magic_addr c PUPDATE <= x < magic_addr c PUPDATE + 4) -> f' x = f x).
Proof.
  intros c f s v Hb Hv Hm Hl. unfold set_update_sector_flag. rewrite run_bind.
  destruct (run_magic c f PUPDATE Hb Hm) as (f1 & E1 & Hb1 & Hm1 & Hf1).
  rewrite E1. cbn [bind run get].
  set (a := flags_addr c (flag_pos s)).
  assert (Ha : forall q, 0 <= q -> flags_addr c q < magic_addr c PUPDATE)
    by (intros; unfold flags_addr, magic_addr, trailer_addr; lia).
  assert (Hfa : forall s0, f1 (flags_addr c (flag_pos s0)) = f (flags_addr c (flag_pos s0))).
  { intro s0. apply Hf1. specialize (Ha (flag_pos s0)). pose proof (flag_pos_range s0). lia. }
  fold (put_nib (flag_low s) (f1 a) v).
  destruct (put_nib_spec (flag_low s) (f1 a) v (Hb1 _) Hv) as (Q1 & Q2 & Q3 & Q4).
  { unfold a. rewrite Hfa. exact Hl. }
  assert (Hpos : forall s', 0 <= s < 512 -> 0 <= s' < 512 -> s' <> s ->
            flag_pos s' = flag_pos s /\ flag_low s' = negb (flag_low s) \/ flag_pos s' <> flag_pos s).
  { intros s' H1 H2 Hne. destruct (Z.eq_dec (flag_pos s') (flag_pos s)) as [E|E]; [left|right; exact E].
    split; [exact E|]. apply flag_distinct; auto. }
  destruct (Z.eqb_spec (put_nib (flag_low s) (f1 a) v) (f1 a)) as [E|E].
  - exists f1. split; [reflexivity|]. split; [assumption|]. split; [assumption|]. split; [|split].
    + unfold nib. fold a. rewrite <- E. exact Q2.
    + intros s' H1 H2 Hne. unfold nib. rewrite Hfa. reflexivity.
    + intros x Hx1 Hx2. apply Hf1, Hx2.
  - assert (Hb' : bytes (write f1 a 1 (fun _ => put_nib (flag_low s) (f1 a) v))).
    { apply bytes_write; [assumption|]. intros i Hi. apply Q4. }
    exists (write f1 a 1 (fun _ => put_nib (flag_low s) (f1 a) v)).
    split; [reflexivity|]. split; [exact Hb'|]. split; [|split; [|split]].
    + apply has_magic_iff; [exact Hb'|]. intros i Hi.
      rewrite write_out by (unfold a; specialize (Ha (flag_pos s)); pose proof (flag_pos_range s); lia).
      pose proof (proj1 (has_magic_iff c f1 PUPDATE Hb1) Hm1) as K. apply K, Hi.
    + unfold nib. fold a. rewrite write_in by lia. rewrite Q1. exact Q2.
    + intros s' H1 H2 Hne. unfold nib. destruct (Hpos s' H1 H2 Hne) as [(Ep & El)|Ep].
      * rewrite Ep, El. fold a. rewrite write_in by lia. rewrite Q1, Q3. unfold a. rewrite Hfa. reflexivity.
      * rewrite write_out; [rewrite Hfa; reflexivity|].
        unfold a, flags_addr, trailer_addr. lia.
    + intros x Hx1 Hx2. rewrite write_out by lia. apply Hf1, Hx2.
Qed.

Lemma nib_get : forall c f s, has_magic c f PUPDATE = true ->
  get_update_sector_flag c f s = Some (nib c f s).
Proof. intros c f s H. rewrite get_flag_nib, H. reflexivity. Qed.

Lemma set_flag_exact : forall c f s v,
  bytes f -> 0 <= s < 512 -> is_nib v -> has_magic c f PUPDATE = true ->
  (forall old, get_update_sector_flag c f s = Some old -> Z.land old v = v) ->
  exists f', run (set_update_sector_flag c s v) f = Done tt f' /\ bytes f' /\
    get_update_sector_flag c f' s = Some v /\
    (forall s', 0 <= s' < 512 -> s' <> s ->
       get_update_sector_flag c f' s' = get_update_sector_flag c f s') /\
    (forall x, x <> endflags c PUPDATE - 6 - s / 2 -> f' x = f x).
Proof.
  intros c f s v Hb Hs Hv Hm Ho.
  destruct (run_set_flag c f s v Hb Hv (has_magic_magicable c f PUPDATE Hb Hm)
              (Ho _ (nib_get c f s Hm))) as (f' & E & Hb' & Hm' & Hn & Hd & Hf).
  exists f'. split; [exact E|]. split; [exact Hb'|]. split; [|split].
  - rewrite nib_get, Hn by assumption. reflexivity.
  - intros s' Hs' Hne. rewrite !nib_get by assumption. f_equal. apply Hd; assumption.
  - intros x Hx. destruct (flag_small s Hs) as (Ep & _).
    assert (x = flags_addr c (flag_pos s) -> False)
      by (unfold flags_addr, trailer_addr; rewrite Ep; intro; lia).
    destruct (Z_le_dec (magic_addr c PUPDATE) x) as [L|L].
    + destruct (Z_lt_dec x (magic_addr c PUPDATE + 4)) as [L2|L2].
      * pose proof (proj1 (has_magic_iff c f PUPDATE Hb) Hm) as K.
        pose proof (proj1 (has_magic_iff c f' PUPDATE Hb') Hm') as K'.
        replace x with (magic_addr c PUPDATE + (x - magic_addr c PUPDATE)) by lia.
        rewrite K, K' by lia. reflexivity.
      * apply Hf; [assumption|lia].
    + apply Hf; [assumption|lia].
Qed.

Lemma set_flag_fresh : forall c f s v,
  bytes f -> 0 <= s < 512 -> is_nib v ->
  (forall x, endflags c PUPDATE - 6 - 255 <= x < endflags c PUPDATE -> f x = 255) ->
  exists f', run (set_update_sector_flag c s v) f = Done tt f' /\ bytes f' /\
    get_update_sector_flag c f' s = Some v /\
    (forall s', 0 <= s' < 512 -> s' <> s -> get_update_sector_flag c f' s' = Some SF_NEW) /\
    (forall x, x <> endflags c PUPDATE - 6 - s / 2 ->
       ~ (endflags c PUPDATE - 4 <= x < endflags c PUPDATE) -> f' x = f x).
Proof.
  intros c f s v Hb Hs Hv He.
  assert (Hnew : forall s', 0 <= s' < 512 -> nib c f s' = SF_NEW).
  { intros s' H. unfold nib. rewrite He.
    - destruct (flag_low s'); reflexivity.
    - destruct (flag_small s' H) as (Ep & _). rewrite Ep.
      assert (0 <= s' / 2 <= 255) by (split; [apply Z.div_pos; lia|
        assert (s' / 2 < 256); [apply Z.div_lt_upper_bound; lia|lia]]).
      unfold flags_addr, trailer_addr. lia. }
  assert (Hm : magicable c f PUPDATE).
  { apply erased_magicable. intros i Hi. apply He. unfold magic_addr, trailer_addr. lia. }
  destruct (run_set_flag c f s v Hb Hv Hm) as (f' & E & Hb' & Hm' & Hn & Hd & Hf).
  { rewrite Hnew by assumption.
    assert (K : Z.land SF_NEW v =? v = true).
    { pose proof (nib_in v Hv) as K. revert v Hv K.
      assert (T : forallb (fun v => Z.land SF_NEW v =? v) nib_list = true) by (vm_compute; reflexivity).
      rewrite forallb_forall in T. intros. apply T. assumption. }
    apply Z.eqb_eq. exact K. }
  exists f'. split; [exact E|]. split; [exact Hb'|]. split; [|split].
  - rewrite nib_get, Hn by assumption. reflexivity.
  - intros s' Hs' Hne. rewrite nib_get by assumption. f_equal. rewrite Hd by assumption. apply Hnew, Hs'.
  - intros x Hx Hx2. apply Hf; [|unfold magic_addr, trailer_addr; lia].
    destruct (flag_small s Hs) as (Ep & _). unfold flags_addr, trailer_addr. rewrite Ep. lia.
Qed.

Lemma flags_alias : forall c f s,
  512 <= s < 65536 ->
  get_update_sector_flag c f s = get_update_sector_flag c f (2 * (s / 2 mod 256) + 1) /\
  2 * (s / 2 mod 256) + 1 < 512.
Proof.
  intros c f s Hs. set (s' := 2 * (s / 2 mod 256) + 1).
  assert (Hr : 0 <= s / 2 mod 256 < 256) by (apply Z.mod_pos_bound; lia).
  assert (Hs' : 0 <= s' < 512) by lia. split; [|lia].
  destruct (flag_small s' Hs') as (Ep & El).
  assert (E : flag_pos s = flag_pos s').
  { rewrite Ep. unfold flag_pos, s'. rewrite (Z.mod_small s 65536) by lia.
    apply Z.div_unique with 1; lia. }
  assert (L : flag_low s = false).
  { unfold flag_low. rewrite (Z.mod_small s) by lia. pose proof (flag_pos_range s). apply Z.eqb_neq. lia. }
  assert (L' : flag_low s' = false).
  { rewrite El. unfold s'. rewrite Z.add_comm, Z.even_add_mul_2. reflexivity. }
  unfold get_update_sector_flag. rewrite E, L, L'. reflexivity.
Qed.
