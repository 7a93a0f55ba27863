(** Trailer updates under power failure. *)
From Verif Require Import Base BaseLemmas HeaderModel Flash FlashLemmas ImageModel TrailerModel
  TrailerProofs Geometry CopyProofs.

Lemma wpc_intro : forall {A} t (p : prog A) (Q : A -> flash -> Prop) (C : flash -> Prop) f a f',
  run p f = Done a f' -> Q a f' -> (forall f1, crash t p f f1 -> C f1) -> wpc t p Q C f.
Proof.
  induction p as [a|r IH|a n p IH|a n d p IH| |]; intros Q C f a0 f' Hr HQ HC; cbn in *.
  - inversion Hr; subst. split; [apply HC; reflexivity|exact HQ].
  - eapply IH; eauto.
  - split; [apply HC; auto|]. split; [intros; apply HC; auto|]. eapply IH; eauto.
  - split; [apply HC; auto|]. split; [intros; apply HC; auto|]. eapply IH; eauto.
  - discriminate.
  - discriminate.
Qed.

Lemma land_lor_absorb : forall a b, Z.land (Z.lor a b) a = a.
Proof.
  intros. apply Z.bits_inj'. intros n _. rewrite Z.land_spec, Z.lor_spec.
  destruct (Z.testbit a n), (Z.testbit b n); reflexivity.
Qed.

Definition ensure_magic (c : cfg) (p : part) : prog unit :=
  let! m <- get (fun f => has_magic c f p) in if m then Ret tt else set_partition_magic c p.

Lemma crash_magic : forall t c f p f', bytes f -> magicable c f p ->
  crash t (ensure_magic c p) f f' ->
  bytes f' /\ magicable c f' p /\ (has_magic c f p = true -> f' = f) /\
  (forall x, ~ (magic_addr c p <= x < magic_addr c p + 4) -> f' x = f x).
Proof.
  intros t c f p f' Hb Hm Hc. unfold ensure_magic, get in Hc. cbn [bind crash] in Hc.
  destruct (has_magic c f p) eqn:E; cbn [crash] in Hc.
  - subst f'. auto.
  - unfold set_partition_magic in Hc. cbn [crash] in Hc. destruct Hc as [->|[T|Hc]].
    + split; [exact Hb|]. split; [exact Hm|]. split; [discriminate|auto].
    + destruct T as (B & Ho & Hi & _). split; [exact B|]. split.
      * intros i Hi'. specialize (Hi ltac:(lia) (magic_addr c p + i)).
        rewrite inr_true in Hi. destruct (Hi ltac:(lia)) as (m & Ei). rewrite Ei.
        replace (magic_addr c p + i - magic_addr c p) with i by lia. rewrite Hm by exact Hi'.
        apply land_lor_absorb.
      * split; [discriminate|]. intros x Hx. apply Ho, inr_false, Hx.
    + subst f'. split; [apply bytes_write; [exact Hb|]; intros; apply magic_byte_range|].
      split.
      * intros i Hi'. rewrite write_in by lia.
        replace (magic_addr c p + i - magic_addr c p) with i by lia. rewrite Hm by exact Hi'.
        apply Z.land_diag.
      * split; [discriminate|]. intros x Hx. apply write_out, Hx.
Qed.

(** Programming one trailer byte. *)
Lemma crash_byte : forall t c p at_ v f f', bytes f -> is_byte v ->
  crash t (set_trailer_at c p at_ v) f f' ->
  bytes f' /\ (forall x, x <> trailer_addr c p at_ -> f' x = f x) /\
  btw (Z.land (f (trailer_addr c p at_)) v) (f (trailer_addr c p at_)) (f' (trailer_addr c p at_)).
Proof.
  intros t c p at_ v f f' Hb Hv Hc. unfold set_trailer_at in Hc. cbn [crash] in Hc.
  assert (H0 : forall x, btw (Z.land x v) x x).
  { intro x. split; [|apply Z.land_diag]. rewrite Z.land_assoc, Z.land_diag. reflexivity. }
  destruct Hc as [->|[T|Hc]].
  - split; [exact Hb|]. split; [auto|apply H0].
  - destruct T as (B & Ho & Hi & _). split; [exact B|]. split.
    + intros x Hx. apply Ho, inr_false. lia.
    + specialize (Hi ltac:(lia) (trailer_addr c p at_)). rewrite inr_true in Hi.
      destruct (Hi ltac:(lia)) as (m & E). rewrite E. apply btw_torn.
  - subst f'. split; [apply bytes_write; [exact Hb|]; unfold is_byte in Hv; lia|]. split.
    + intros x Hx. apply write_out. lia.
    + rewrite write_in by lia.
      assert (H1 : forall x, btw (Z.land x v) x (Z.land x v)).
      { intro x. split; [apply Z.land_diag|]. rewrite Z.land_comm, Z.land_assoc, Z.land_diag. reflexivity. }
      apply H1.
Qed.

Lemma crash_set_state : forall t c p v f f', bytes f -> is_byte v -> magicable c f p ->
  crash t (set_partition_state c p v) f f' ->
  bytes f' /\ magicable c f' p /\ (has_magic c f p = true -> has_magic c f' p = true) /\
  (forall x, ~ (state_addr c p <= x < magic_addr c p + 4) -> f' x = f x) /\
  btw (Z.land (f (state_addr c p)) v) (f (state_addr c p)) (f' (state_addr c p)).
Proof.
  intros t c p v f f' Hb Hv Hm Hc.
  assert (Ea : state_addr c p + 1 = magic_addr c p) by (unfold state_addr, magic_addr, trailer_addr; lia).
  assert (H0 : forall x, btw (Z.land x v) x x).
  { intro x. split; [|apply Z.land_diag]. rewrite Z.land_assoc, Z.land_diag. reflexivity. }
  unfold set_partition_state in Hc. apply crash_bind in Hc.
  fold (ensure_magic c p) in Hc. destruct Hc as [Hc|([] & f1 & Hr & Hc)].
  - destruct (crash_magic _ _ _ _ _ Hb Hm Hc) as (B & M & HM & Hx).
    split; [exact B|]. split; [exact M|]. split; [intro K; rewrite (HM K); exact K|]. split.
    + intros x H. apply Hx. lia.
    + rewrite Hx by lia. apply H0.
  - destruct (run_magic c f p Hb Hm) as (f1' & Hr' & B1 & M1 & X1).
    unfold ensure_magic in Hr. rewrite Hr' in Hr. inversion Hr; subst f1'.
    unfold get in Hc. cbn [bind crash] in Hc.
    assert (Es : f1 (state_addr c p) = f (state_addr c p)) by (apply X1; lia).
    assert (Mg1 : magicable c f1 p) by (apply has_magic_magicable; assumption).
    destruct (f1 (state_addr c p) =? v) eqn:Ev; cbn [crash] in Hc.
    + subst f'. split; [exact B1|]. split; [exact Mg1|]. split; [auto|]. split.
      * intros x H. apply X1. lia.
      * rewrite Es. apply H0.
    + destruct (crash_byte _ _ _ _ _ _ _ B1 Hv Hc) as (B2 & X2 & W2).
      fold (state_addr c p) in X2, W2.
      assert (M2 : has_magic c f' p = true).
      { apply has_magic_iff; [exact B2|]. intros i Hi. rewrite X2 by lia.
        apply has_magic_iff; assumption. }
      split; [exact B2|]. split; [apply has_magic_magicable; assumption|]. split; [auto|]. split.
      * intros x H. rewrite X2 by lia. apply X1. lia.
      * rewrite <- Es. exact W2.
Qed.

Lemma crash_set_flag : forall t c s v f f', bytes f -> is_nib v -> magicable c f PUPDATE ->
  0 <= s < 512 -> Z.land (nib c f s) v = v ->
  crash t (set_update_sector_flag c s v) f f' ->
  bytes f' /\ magicable c f' PUPDATE /\ (has_magic c f PUPDATE = true -> has_magic c f' PUPDATE = true) /\
  (nib c f' s <> nib c f s -> has_magic c f' PUPDATE = true) /\
  btw v (nib c f s) (nib c f' s) /\
  (forall s', 0 <= s' < 512 -> s' <> s -> nib c f' s' = nib c f s') /\
  (forall x, x <> flags_addr c (flag_pos s) ->
     ~ (magic_addr c PUPDATE <= x < magic_addr c PUPDATE + 4) -> f' x = f x).
Proof.
  intros t c s v f f' Hb Hv Hm Hs Hn Hc.
  assert (Ha : forall s, flags_addr c (flag_pos s) < state_addr c PUPDATE).
  { intro s0. pose proof (flag_pos_range s0). unfold flags_addr, state_addr, trailer_addr. lia. }
  assert (Ea : state_addr c PUPDATE + 1 = magic_addr c PUPDATE)
    by (unfold state_addr, magic_addr, trailer_addr; lia).
  assert (H0 : btw v (nib c f s) (nib c f s)) by (split; [exact Hn|apply Z.land_diag]).
  unfold set_update_sector_flag in Hc. cbn zeta in Hc. apply crash_bind in Hc.
  fold (ensure_magic c PUPDATE) in Hc. destruct Hc as [Hc|([] & f1 & Hr & Hc)].
  - destruct (crash_magic _ _ _ _ _ Hb Hm Hc) as (B & M & HM & Hx).
    assert (En : forall s', nib c f' s' = nib c f s').
    { intro s'. unfold nib. rewrite Hx; [reflexivity|]. pose proof (Ha s'). lia. }
    split; [exact B|]. split; [exact M|]. split; [intro K; rewrite (HM K); exact K|].
    split; [intro K; rewrite En in K; congruence|]. split; [rewrite En; exact H0|].
    split; [auto|]. intros x _ H. apply Hx, H.
  - destruct (run_magic c f PUPDATE Hb Hm) as (f1' & Hr' & B1 & M1 & X1).
    unfold ensure_magic in Hr. rewrite Hr' in Hr. inversion Hr; subst f1'.
    unfold get in Hc. cbn [bind crash] in Hc.
    assert (En : forall s', nib c f1 s' = nib c f s').
    { intro s'. unfold nib. rewrite X1; [reflexivity|]. pose proof (Ha s'). lia. }
    assert (Mg1 : magicable c f1 PUPDATE) by (apply has_magic_magicable; assumption).
    set (fl := f1 (flags_addr c (flag_pos s))) in *.
    change (if flag_low s then Z.lor (Z.land fl 0xF0) (Z.land v 0x0F)
            else Z.lor (Z.shiftl (Z.land v 0x0F) 4) (Z.land fl 0x0F)) with (put_nib (flag_low s) fl v) in Hc.
    destruct (put_nib_spec (flag_low s) fl v (B1 _) Hv) as (P1 & P2 & P3 & P4).
    { change (nibv (flag_low s) fl) with (nib c f1 s). rewrite En. exact Hn. }
    destruct (put_nib (flag_low s) fl v =? fl) eqn:Ev; cbn [crash] in Hc.
    + subst f'. split; [exact B1|]. split; [exact Mg1|]. split; [auto|]. split; [auto|].
      split; [rewrite En; exact H0|]. split; [auto|]. intros x _ H. apply X1, H.
    + destruct (crash_byte _ _ _ _ _ _ _ B1 P4 Hc) as (B2 & X2 & W2).
      change (trailer_addr c PUPDATE (2 + flag_pos s)) with (flags_addr c (flag_pos s)) in X2, W2.
      fold fl in W2. rewrite P1 in W2.
      assert (M2 : has_magic c f' PUPDATE = true).
      { apply has_magic_iff; [exact B2|]. intros i Hi. rewrite X2 by (pose proof (Ha s); lia).
        apply has_magic_iff; assumption. }
      split; [exact B2|]. split; [apply has_magic_magicable; assumption|]. split; [auto|].
      split; [auto|]. split.
      * pose proof (btw_nibv (flag_low s) _ _ _ W2) as W. rewrite P2 in W.
        change (nibv (flag_low s) fl) with (nib c f1 s) in W. rewrite En in W. exact W.
      * split.
        -- intros s' Hs' Hne. rewrite <- En. unfold nib.
           destruct (Z.eq_dec (flag_pos s') (flag_pos s)) as [Ep|Ep].
           ++ rewrite Ep. fold fl. rewrite (flag_distinct s s' Hs Hs' (fun K => Hne (eq_sym K)) (eq_sym Ep)).
              pose proof (btw_nibv (negb (flag_low s)) _ _ _ W2) as W. rewrite P3 in W.
              apply btw_same in W. exact W.
           ++ rewrite X2; [reflexivity|]. unfold flags_addr, trailer_addr. lia.
        -- intros x Hx1 Hx2. rewrite X2 by exact Hx1. apply X1, Hx2.
Qed.
