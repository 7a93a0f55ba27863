(** The boot routine on arbitrary flash contents: it is never undefined, and which header
    it leaves in the boot partition. *)
From Verif Require Import Base BaseLemmas HeaderModel HeaderSpec HeaderProofs Flash FlashLemmas ImageModel
  ImageSpec ImageProofs GenuineProofs TrailerModel TrailerProofs TriggerProofs TrailerCrash SwapModel
  SwapSpec Geometry CopyProofs SwapInv SwapSteps SwapLoop SwapFinal SwapStart RefuseProofs.
Local Ltac Zify.zify_post_hook ::= idtac.

(** ** Uninterrupted runs that may panic *)

Definition ends {A} (p : prog A) (Q : A -> flash -> Prop) (f : flash) : Prop :=
  match run p f with Done a f' => Q a f' | Panicked _ => True | Wrong => False end.

Lemma ends_bind : forall {A B} (p : prog A) (k : A -> prog B) Q f,
  ends p (fun a f' => ends (k a) Q f') f -> ends (bind p k) Q f.
Proof.
  intros A B p k Q f H. unfold ends in *. rewrite run_bind. destruct (run p f); auto.
Qed.

Lemma ends_weak : forall {A} (p : prog A) (Q R : A -> flash -> Prop) f,
  ends p Q f -> (forall a f', Q a f' -> R a f') -> ends p R f.
Proof. intros A p Q R f H K. unfold ends in *. destruct (run p f); auto. Qed.

Lemma ends_wpc : forall {A} t (p : prog A) Q C f, wpc t p Q C f -> ends p Q f.
Proof. intros A t p Q C f H. apply wpc_run in H. destruct H as (a & f' & E & H & _). unfold ends. rewrite E. exact H. Qed.

(** [f'] is a legal content that agrees with [f] on the addresses in [P]. *)
Definition same (P : Z -> Prop) (f f' : flash) : Prop := bytes f' /\ forall x, P x -> f' x = f x.

Lemma same_refl : forall (P : Z -> Prop) f, bytes f -> same P f f.
Proof. split; auto. Qed.
Lemma same_trans : forall (P : Z -> Prop) f g h, same P f g -> same P g h -> same P f h.
Proof. intros P f g h (_ & A) (B & C). split; [exact B|]. intros x Hx. rewrite C, A; auto. Qed.
Lemma same_frame : forall (P : Z -> Prop) f f' a n, frame f f' a n -> (forall x, P x -> ~ (a <= x < a + n)) -> same P f f'.
Proof. intros P f f' a n (B & H) K. split; auto. Qed.

Definition stays {A} (P : Z -> Prop) (p : prog A) : Prop :=
  forall f, bytes f -> ends p (fun _ f' => same P f f') f.

Lemma stays_ret : forall {A} (P : Z -> Prop) (a : A), stays P (Ret a).
Proof. intros A P a f H. apply same_refl, H. Qed.
Lemma stays_panic : forall {A} P, stays P (@Panic A).
Proof. intros A P f H. exact I. Qed.
Lemma stays_rd : forall {A} (P : Z -> Prop) (r : flash -> prog A), (forall f, bytes f -> ends (r f) (fun _ f' => same P f f') f) -> stays P (Rd r).
Proof. intros A P r H f Hb. exact (H f Hb). Qed.
Lemma stays_er : forall {A} (P : Z -> Prop) a n (p : prog A), (forall x, P x -> ~ (a <= x < a + n)) -> stays P p -> stays P (Er a n p).
Proof.
  intros A P a n p H Hp f Hb. change (ends p (fun _ f' => same P f f') (erase f a n)).
  eapply ends_weak; [apply Hp, bytes_erase, Hb|]. cbn beta. intros _ f' S.
  eapply same_trans; [|exact S]. eapply same_frame; [apply frame_erase, Hb|exact H].
Qed.
Lemma ends_wr : forall {A} (P : Z -> Prop) a n d (p : prog A) f, (forall x, P x -> ~ (a <= x < a + n)) -> (forall i, 0 <= i < n -> 0 <= d i) ->
  stays P p -> bytes f -> ends (Wr a n d p) (fun _ f' => same P f f') f.
Proof.
  intros A P a n d p f H Hd Hp Hb. change (ends p (fun _ f' => same P f f') (write f a n d)).
  eapply ends_weak; [apply Hp, bytes_write; assumption|]. cbn beta. intros _ f' S.
  eapply same_trans; [|exact S]. eapply same_frame; [apply frame_write; assumption|exact H].
Qed.
Lemma stays_bind : forall {A B} (P : Z -> Prop) (p : prog A) (k : A -> prog B), stays P p -> (forall a, stays P (k a)) -> stays P (bind p k).
Proof.
  intros A B P p k Hp Hk f Hb. apply ends_bind. eapply ends_weak; [apply Hp, Hb|]. cbn beta. intros a f1 S1.
  eapply ends_weak; [apply Hk, S1|]. cbn beta. intros _ f2 S2. eapply same_trans; eassumption.
Qed.

(** ** The parts *)

Definition no_tear : tear := {| atomic_erase := fun _ => True; guarded := fun _ => False |}.

(** An image structure of partition [p]. *)
Definition img_of (c : cfg) (p : part) (im : image) : Prop :=
  i_part im = p /\ i_hdr im = part_addr c p /\ 0 <= i_size im.

Lemma open_img_of : forall c f p, geometry c -> bytes f -> img_of c p (snd (open_image c f p)).
Proof.
  intros c f p G Hb. destruct (open_img c f p) as (H1 & H2). split; [exact H1|]. split; [exact H2|].
  apply open_size_ge; [exact Hb| |]; geo G; lia.
Qed.

Lemma open_size_le : forall c f p, geometry c -> p <> PSWAP -> i_size (snd (open_image c f p)) <= PART c - HDR c.
Proof.
  intros c f p G Hp. unfold open_image. geo G. destruct p; [| |congruence]; cbn [snd i_size];
    (destruct (negb _); [cbn [snd i_size]; lia|]);
    (match goal with |- context [image_size f ?a >? ?b] => destruct (Z.gtb_spec (image_size f a) b) end);
    cbn [snd i_size]; lia.
Qed.

(** Where sector [k] of partition [p] starts. *)
Definition sect_at (c : cfg) (p : part) (k : Z) : Z :=
  part_addr c p + (if part_eqb p PSWAP then 0 else k * SECT c).

Lemma sect_disjoint : forall c p q k, geometry c -> p <> q -> 0 <= k -> (k + 1) * SECT c <= PART c ->
  disjoint (sect_at c p k) (SECT c) (sect_at c q k) (SECT c).
Proof.
  intros c p q k G Hpq H0 H1. assert (0 <= k * SECT c) by (geo G; nia).
  assert (k * SECT c + SECT c <= PART c) by lia. unfold sect_at.
  geo G. destruct p, q; try congruence; cbn [part_addr part_eqb]; zl.
Qed.

Lemma copy_ends : forall c p q src dst k f, geometry c -> bytes f -> img_of c p src -> img_of c q dst -> p <> q ->
  0 <= k -> (k + 1) * SECT c <= PART c ->
  ends (copy_sector c src dst k) (fun _ f' => frame f f' (sect_at c q k) (SECT c) /\
    forall i, 0 <= i < SECT c -> (if part_eqb p PSWAP then 0 else k * SECT c) + i < HDR c + 3 ->
      f' (sect_at c q k + i) = f (sect_at c p k + i)) f.
Proof.
  intros c p q src dst k f G Hb (S1 & S2 & S3) (D1 & D2 & D3) Hpq H0 H1.
  apply (ends_wpc no_tear _ _ (fun _ => True)).
  apply (copy_sector_wpc no_tear c src dst k f _ _ (sect_at c p k) (sect_at c q k)
    (if part_eqb p PSWAP then 0 else k * SECT c) (if part_eqb q PSWAP then 0 else k * SECT c)); auto.
  - rewrite S1. reflexivity.
  - rewrite D1. reflexivity.
  - rewrite S2. reflexivity.
  - rewrite D2. reflexivity.
  - apply sect_disjoint; auto.
  - intros f' F _ K. split; [exact F|]. intros i Hi Hlt. rewrite K by exact Hi. unfold copied.
    pose proof (g_fb c G). pose proof (Z.mod_pos_bound i (FB c) ltac:(lia)).
    match goal with |- (if ?b then _ else _) = _ => destruct b eqn:E end; [reflexivity|].
    apply Z.ltb_ge in E. lia.
Qed.

Section Away.
  Variable c : cfg.
  Hypothesis G : geometry c.
  (** The addresses to protect lie in the first sectors of the partitions. *)
  Variable P : Z -> Prop.
  Hypothesis HP : forall x, P x -> flags_fit c /\ 3 * SECT c <= PART c /\
    (BOOT c <= x < BOOT c + SECT c \/ UPDATE c <= x < UPDATE c + SECT c).

  Lemma away : forall x p k n, P x -> p <> PSWAP -> SECT c <= k -> k + n <= PART c ->
    ~ (part_addr c p + k <= x < part_addr c p + k + n).
  Proof.
    intros x p k n Hx Hp H1 H2. destruct (HP x Hx) as (_ & _ & Z0). clear HP. geo G.
    destruct p; [| |congruence]; cbn [part_addr]; lia.
  Qed.

  Lemma magic_stays : forall p, p <> PSWAP -> stays P (set_partition_magic c p).
  Proof.
    intros p Hp f Hb. unfold set_partition_magic. apply ends_wr; [|intros; apply magic_byte_nonneg|apply stays_ret|exact Hb].
    intros x Hx. destruct (HP x Hx) as (Fx & T & _). unfold magic_addr, trailer_addr. rewrite (own_end c p Fx).
    replace (part_addr c p + PART c - (4 + 0)) with (part_addr c p + (PART c - 4)) by lia.
    apply away; auto; clear HP; geo G; lia.
  Qed.

  Lemma state_stays : forall p v, p <> PSWAP -> 0 <= v -> stays P (set_partition_state c p v).
  Proof.
    intros p v Hp Hv. unfold set_partition_state. apply stays_bind.
    - intros f Hb. unfold get. change (ends (if has_magic c f p then Ret tt else set_partition_magic c p) (fun _ f' => same P f f') f).
      destruct (has_magic c f p); [apply stays_ret, Hb|apply magic_stays; auto].
    - intros _ f Hb. unfold get. change (ends (if f (state_addr c p) =? v then Ret tt else set_trailer_at c p 1 v) (fun _ f' => same P f f') f).
      destruct (_ =? _); [apply stays_ret, Hb|]. unfold set_trailer_at.
      apply ends_wr; [|intros; exact Hv|apply stays_ret|exact Hb].
      intros x Hx. destruct (HP x Hx) as (Fx & T & _). unfold trailer_addr. rewrite (own_end c p Fx).
      replace (part_addr c p + PART c - (4 + 1)) with (part_addr c p + (PART c - 5)) by lia.
      apply away; auto; clear HP; geo G; lia.
  Qed.

  Lemma flag_stays : forall s v, 0 <= s -> s * SECT c < PART c -> 0 <= v -> stays P (set_update_sector_flag c s v).
  Proof.
    intros s v Hs Hs2 Hv. unfold set_update_sector_flag. cbn zeta. apply stays_bind.
    - intros f Hb. unfold get. change (ends (if has_magic c f PUPDATE then Ret tt else set_partition_magic c PUPDATE) (fun _ f' => same P f f') f).
      destruct (has_magic c f PUPDATE); [apply stays_ret, Hb|apply magic_stays; [discriminate|exact Hb]].
    - intros _ f Hb. unfold get. cbn [bind].
      match goal with |- ends (Rd ?r) ?Q f => change (ends (r f) Q f) end. cbn beta.
      match goal with |- context [set_trailer_at _ _ _ ?v] => set (w := v); destruct (w =? f (flags_addr c (flag_pos s))) end;
        [apply stays_ret, Hb|].
      unfold set_trailer_at. apply ends_wr; [| |apply stays_ret|exact Hb].
      + intros x Hx. destruct (HP x Hx) as (Fx & T & _). pose proof Fx as (_ & F1 & F2 & _).
        destruct (g_part c G) as (GP & _). destruct (g_sect c G) as (_ & GS).
        assert (s < PART c / SECT c).
        { apply Z.mul_lt_mono_pos_r with (SECT c); [lia|].
          pose proof (Z.div_mod (PART c) (SECT c) ltac:(lia)). lia. }
        destruct (flag_small s ltac:(lia)) as (E & _). rewrite E.
        assert (s / 2 <= PART c / SECT c / 2) by (apply Z.div_le_mono; lia).
        assert (0 <= s / 2) by (apply Z.div_pos; lia).
        unfold trailer_addr. rewrite (own_end c PUPDATE Fx).
        replace (part_addr c PUPDATE + PART c - (4 + (2 + s / 2))) with (part_addr c PUPDATE + (PART c - (4 + (2 + s / 2)))) by lia.
        apply away; [exact Hx|discriminate|lia|lia].
      + intros i Hi. pose proof (Hb (flags_addr c (flag_pos s))) as (L & _).
        unfold w. destruct (flag_low s); apply Z.lor_nonneg; split; try apply Z.shiftl_nonneg; apply Z.land_nonneg; lia.
  Qed.

  Lemma store_stays : forall s v, 0 <= s -> 0 <= v -> stays P (store_flag c s v).
  Proof.
    intros s v Hs Hv. unfold store_flag. destruct (Z.ltb_spec ((s + 1) * SECT c) (PART c)) as [L|L]; [|apply stays_ret].
    apply flag_stays; auto. geo G. lia.
  Qed.

  Lemma copy_stays : forall p q src dst k, img_of c p src -> img_of c q dst -> p <> q ->
    0 <= k -> (k + 1) * SECT c <= PART c -> (forall x, P x -> q = PSWAP \/ 1 <= k) -> stays P (copy_sector c src dst k).
  Proof.
    intros p q src dst k Hs Hd Hpq H0 H1 HK f Hb. eapply ends_weak; [apply (copy_ends c p q); auto|]. cbn beta.
    intros _ f' (F & _). eapply same_frame; [exact F|]. intros x Hx. unfold sect_at.
    destruct (HK x Hx) as [ -> |K].
    - cbn [part_addr part_eqb]. destruct (HP x Hx) as (_ & _ & Z0). clear HP. geo G. zl.
    - destruct q; cbn [part_eqb].
      + apply away; [exact Hx|discriminate| |lia]. clear HP. geo G. nia.
      + apply away; [exact Hx|discriminate| |lia]. clear HP. geo G. nia.
      + cbn [part_addr]. destruct (HP x Hx) as (_ & _ & Z0). clear HP. geo G. zl.
  Qed.

  (** The images the swap works on. *)
  Definition images (b u w : image) : Prop := img_of c PBOOT b /\ img_of c PUPDATE u /\ img_of c PSWAP w.

  Lemma sector_stays : forall b u w k fl, images b u w -> 0 <= k -> (k + 1) * SECT c <= PART c ->
    (forall x, P x -> 1 <= k) -> stays P (swap_sector c b u w k fl).
  Proof.
    intros b u w k fl (Hbt & Hu & Hw) H0 H1 HK.
    assert (SB : stays P (swap_backup c b w k)).
    { unfold swap_backup. apply stays_bind; [|intros _; apply store_stays; [exact H0|unfold SF_UPDATED; lia]].
      apply (copy_stays PSWAP PBOOT); auto; first [discriminate | intros x Hx; right; exact (HK x Hx)]. }
    assert (SS : stays P (swap_swapping c b u w k)).
    { unfold swap_swapping. apply stays_bind; [apply (copy_stays PBOOT PUPDATE); auto; first [discriminate | intros x Hx; right; exact (HK x Hx)]|]. intros _.
      apply stays_bind; [apply store_stays; [exact H0|unfold SF_BACKUP; lia]|intros _; exact SB]. }
    unfold swap_sector. destruct (_ =? _).
    { unfold swap_new. apply stays_bind; [apply (copy_stays PUPDATE PSWAP); auto; first [discriminate | intros x Hx; right; exact (HK x Hx)]|]. intros _.
      apply stays_bind; [apply store_stays; [exact H0|unfold SF_SWAPPING; lia]|intros _; exact SS]. }
    destruct (_ =? _); [exact SS|]. destruct (_ =? _); [exact SB|apply stays_ret].
  Qed.

  Lemma next_sector : forall k, k * SECT c < PART c -> (k + 1) * SECT c <= PART c.
  Proof.
    intros k H. destruct (g_part c G) as (GP & _). destruct (g_sect c G) as (_ & GS).
    assert (k < PART c / SECT c).
    { apply Z.mul_lt_mono_pos_r with (SECT c); [lia|].
      pose proof (Z.div_mod (PART c) (SECT c) ltac:(lia)). lia. }
    assert ((k + 1) * SECT c <= PART c / SECT c * SECT c) by (apply Z.mul_le_mono_nonneg_r; lia).
    pose proof (Z.div_mod (PART c) (SECT c) ltac:(lia)). lia.
  Qed.

  Lemma total_le : forall b u, i_size b <= PART c - HDR c -> i_size u <= PART c - HDR c -> get_total_size c b u <= PART c.
  Proof. intros b u H1 H2. unfold get_total_size. destruct (_ >? _); lia. Qed.

  Lemma reopened : forall f, bytes f ->
    let boot := snd (open_image c f PBOOT) in
    let update := snd (open_image c f PUPDATE) in
    img_of c PBOOT (set_size boot (i_size update)) /\ img_of c PUPDATE (set_size update (i_size boot)) /\
    get_total_size c (set_size boot (i_size update)) (set_size update (i_size boot)) <= PART c.
  Proof.
    intros f Hb boot update.
    destruct (open_img_of c f PBOOT G Hb) as (B1 & B2 & B3). destruct (open_img_of c f PUPDATE G Hb) as (U1 & U2 & U3).
    split; [split; [exact B1|split; [exact B2|exact U3]]|]. split; [split; [exact U1|split; [exact U2|exact B3]]|].
    apply total_le; cbn [set_size i_size]; apply open_size_le; auto; discriminate.
  Qed.

  Lemma loop_stays : forall fuel b u w total k f, images b u w -> bytes f -> 0 <= k -> total <= PART c ->
    PART c - k <= Z.of_nat fuel -> (forall x, P x -> 1 <= k) ->
    ends (swap_loop fuel c b u w total k) (fun k' f' => same P f f' /\ k <= k') f.
  Proof.
    induction fuel as [|fuel IH]; intros b u w total k f Him Hb H0 Ht Hfu HK; cbn [swap_loop].
    - destruct (Z.ltb_spec (k * SECT c) total) as [L|L]; [exfalso; clear HP; geo G; nia|].
      split; [apply same_refl, Hb|lia].
    - destruct (Z.ltb_spec (k * SECT c) total) as [L|L]; [|split; [apply same_refl, Hb|lia]].
      unfold get. cbn [bind]. match goal with |- ends (Rd ?r) ?Q f => change (ends (r f) Q f) end. cbn beta.
      apply ends_bind. eapply ends_weak.
      { apply (sector_stays b u w k); auto. apply next_sector. lia. }
      cbn beta zeta. intros _ f1 S1. destruct (Z.eqb_spec (k + 1) 1) as [E|E].
      + match goal with |- ends (Rd ?r) ?Q f1 => change (ends (r f1) Q f1) end. cbn beta zeta.
        destruct (reopened f1 (proj1 S1)) as (R1 & R2 & R3).
        eapply ends_weak; [apply IH; [split; [exact R1|split; [exact R2|apply Him]]|exact (proj1 S1)|lia|exact R3|lia|intros; lia]|].
        cbn beta. intros k' f2 (S2 & L2). split; [eapply same_trans; eassumption|lia].
      + eapply ends_weak; [apply IH; [exact Him|exact (proj1 S1)|lia|exact Ht|lia|intros x Hx; specialize (HK x Hx); lia]|].
        cbn beta. intros k' f2 (S2 & L2). split; [eapply same_trans; eassumption|lia].
  Qed.

  Lemma rest_stays : forall fuel b u k f, img_of c PBOOT b -> img_of c PUPDATE u -> bytes f -> 0 <= k ->
    PART c - k <= Z.of_nat fuel -> (forall x, P x -> 1 <= k) ->
    ends (erase_rest fuel c b u k) (fun _ f' => same P f f') f.
  Proof.
    induction fuel as [|fuel IH]; intros b u k f Hbt Hu Hb H0 Hfu HK; cbn [erase_rest].
    - destruct (Z.ltb_spec (k * SECT c) (PART c - SECT c)) as [L|L]; [exfalso; clear HP; geo G; nia|].
      apply same_refl, Hb.
    - destruct (Z.ltb_spec (k * SECT c) (PART c - SECT c)) as [L|L]; [|apply same_refl, Hb].
      destruct Hbt as (B1 & B2 & B3), Hu as (U1 & U2 & U3). rewrite B2, U2.
      assert (A : forall p x, P x -> p <> PSWAP -> ~ (part_addr c p + k * SECT c <= x < part_addr c p + k * SECT c + SECT c)).
      { intros p x Hx Hp. apply away; auto; [|lia]. specialize (HK x Hx). clear HP. geo G. nia. }
      match goal with |- ends (Er ?a ?n ?p) ?Q f => change (ends p Q (erase f a n)) end.
      match goal with |- ends (Er ?a ?n ?p) ?Q ?g => change (ends p Q (erase g a n)) end.
      eapply ends_weak.
      { apply (IH b u (k + 1)); [repeat split; auto|repeat split; auto|apply bytes_erase, bytes_erase, Hb|lia|lia|].
        intros x Hx. specialize (HK x Hx). lia. }
      cbn beta. intros _ f' S. eapply same_trans; [|exact S].
      eapply same_trans; eapply same_frame.
      + apply frame_erase, Hb.
      + intros x Hx. exact (A PBOOT x Hx ltac:(discriminate)).
      + apply frame_erase, bytes_erase, Hb.
      + intros x Hx. exact (A PUPDATE x Hx ltac:(discriminate)).
  Qed.

  Lemma erased_no_magic : forall f p, own_flags c -> p <> PSWAP -> has_magic c (erase f (part_addr c p + (PART c - SECT c)) (SECT c)) p = false.
  Proof.
    intros f p Ow Hp. unfold has_magic. apply Z.eqb_neq. apply word_erased. intros i Hi. apply erase_in.
    unfold magic_addr, trailer_addr, endflags, own_flags in *. clear HP. geo G. destruct p; cbn [part_addr]; lia.
  Qed.

  Lemma final_stays : forall u r f, bytes f ->
    ends (swap_and_final_erase c u r) (fun b f' => same P f f' /\ (b = false -> r = true) /\ (b = true -> own_flags c -> has_magic c f' PUPDATE = false)) f.
  Proof.
    intros u r f Hb. unfold swap_and_final_erase.
    match goal with |- ends (Rd ?r) ?Q f => change (ends (r f) Q f) end. cbn beta zeta.
    destruct (open_img_of c f PBOOT G Hb) as (B1 & B2 & B3). destruct (open_img_of c f PUPDATE G Hb) as (U1 & U2 & U3).
    pose proof (open_img_of c f PSWAP G Hb) as W. rewrite B2, U2.
    destruct (_ && _) eqn:Er; [split; [apply same_refl, Hb|split; [intros _; destruct r; [reflexivity|discriminate]|discriminate]]|clear Er].
    destruct (g_part c G) as (GP & GP2). destruct (g_sect c G) as (_ & GS).
    set (k := (PART c - SECT c - SECT c) / SECT c).
    assert (Ek : k * SECT c = PART c - 2 * SECT c).
    { unfold k. replace (PART c - SECT c - SECT c) with (PART c + (-2) * SECT c) by lia.
      rewrite Z.div_add by lia. pose proof (Z.div_mod (PART c) (SECT c) ltac:(lia)). lia. }
    assert (K0 : 0 <= k) by nia. assert (K1 : (k + 1) * SECT c <= PART c) by lia.
    assert (K2 : forall x, P x -> 1 <= k) by (intros x Hx; destruct (HP x Hx) as (_ & T & _); nia).
    clearbody k.
    assert (S1 : stays P (if negb (match get_partition_state c f PUPDATE with Some s => s | None => u end =? ST_FINAL)
      then copy_sector c (snd (open_image c f PBOOT)) (snd (open_image c f PSWAP)) k ;; set_partition_state c PUPDATE ST_FINAL
      else Ret tt)).
    { destruct (negb _); [|apply stays_ret]. apply stays_bind.
      - apply (copy_stays PBOOT PSWAP); [repeat split; auto|exact W|discriminate|exact K0|exact K1|auto].
      - intros _. apply state_stays; [discriminate|unfold ST_FINAL; lia]. }
    apply ends_bind. eapply ends_weak; [apply S1, Hb|]. cbn beta. intros _ f1 E1.
    match goal with |- ends (Er ?a ?n ?p) ?Q f1 => change (ends p Q (erase f1 a n)) end.
    set (f2 := erase f1 _ _).
    assert (E2 : same P f1 f2).
    { eapply same_frame; [apply frame_erase, E1|]. intros x Hx. apply away; [exact Hx|discriminate| |lia].
      destruct (HP x Hx) as (_ & T & _). lia. }
    clearbody f2. apply ends_bind.
    assert (S2 : stays P (if PART c - SECT c - SECT c <? i_size (snd (open_image c f PBOOT)) + HDR c
      then copy_sector c (snd (open_image c f PSWAP)) (snd (open_image c f PBOOT)) k
      else Er (part_addr c PBOOT + (PART c - SECT c - SECT c)) (SECT c) (Ret tt))).
    { destruct (_ <? _).
      - apply (copy_stays PSWAP PBOOT); [exact W|repeat split; auto|discriminate|exact K0|exact K1|intros x Hx; right; exact (K2 x Hx)].
      - apply stays_er; [|apply stays_ret]. intros x Hx. apply away; [exact Hx|discriminate| |lia].
        destruct (HP x Hx) as (_ & T & _). lia. }
    eapply ends_weak; [apply S2, E2|]. cbn beta. intros _ f3 E3.
    apply ends_bind. eapply ends_weak; [apply (state_stays PBOOT ST_TESTING); [discriminate|unfold ST_TESTING; lia|apply E3]|].
    cbn beta. intros _ f4 E4.
    match goal with |- ends (Er ?a ?n ?p) ?Q f4 => change (Q true (erase f4 a n)) end. cbn beta. split.
    - eapply same_trans; [exact E1|]. eapply same_trans; [exact E2|]. eapply same_trans; [exact E3|].
      eapply same_trans; [exact E4|]. eapply same_frame; [apply frame_erase, E4|]. intros x Hx.
      apply away; [exact Hx|discriminate| |lia]. destruct (HP x Hx) as (_ & T & _). lia.
    - split; [discriminate|]. intros _ Ow. apply (erased_no_magic f4 PUPDATE Ow). discriminate.
  Qed.
End Away.

(** ** Checks *)

Lemma verify_ends : forall c f im, geometry c -> bytes f -> 0 <= i_size im <= PART c - HDR c -> i_sig_ok im = false ->
  ends (verify_both c im) (fun r f' => f' = f /\ (fst r = true -> sanity (snd r) = true -> i_hdr_ok im = true)) f.
Proof.
  intros c f im G Hb Hs Hg. assert (Hh : hdr_small c) by (apply hs; exact G).
  assert (Hk : blk_ok c im) by (unfold blk_ok; destruct (g_blk c G); geo G; lia).
  unfold verify_both, integrity.
  destruct (verify_integrity_spec c f im Hb Hh Hk) as [(d & _ & Ei)|(_ & Ei)].
  - set (im1 := mkImage (i_part im) (i_hdr im) (i_base im) (i_size im) (i_hdr_ok im) true (i_sig_ok im) (Some d)) in *.
    unfold pure. cbn [bind]. match goal with |- ends (Rd ?r) ?Q f => change (ends (r f) Q f) end. cbn beta. rewrite Ei.
    cbn [bind]. unfold authenticity, pure. cbn [bind].
    match goal with |- ends (Rd ?r) ?Q f => change (ends (r f) Q f) end. cbn beta.
    destruct (verify_authenticity_spec c f im1 d Hb Hh eq_refl Hg) as [(_ & Ea)|(_ & im2 & Ea & Es)]; rewrite Ea; cbn [bind].
    + split; [reflexivity|]. cbn [fst snd]. intros _ S. unfold sanity in S. cbn in S. destruct (i_hdr_ok im); [reflexivity|discriminate].
    + split; [reflexivity|]. cbn [fst]. discriminate.
  - unfold pure. cbn [bind]. match goal with |- ends (Rd ?r) ?Q f => change (ends (r f) Q f) end. cbn beta. rewrite Ei.
    cbn [bind]. split; [reflexivity|]. cbn [fst]. discriminate.
Qed.

Lemma open_sig : forall c f p, i_sig_ok (snd (open_image c f p)) = false.
Proof.
  intros. unfold open_image. destruct p; try reflexivity;
    repeat match goal with |- context [if ?b then _ else _] => destruct b end; reflexivity.
Qed.

Lemma checks_ends : forall c fallback f ty, geometry c -> bytes f ->
  HDR c <= SECT c \/ word f (UPDATE c + 4) <= PART c - HDR c ->
  get_image_type c f PUPDATE = Val ty ->
  ends (update_checks c fallback (snd (open_image c f PUPDATE)) ty)
    (fun b f' => f' = f /\ (b = true -> acceptable c f fallback)) f.
Proof.
  intros c fallback f ty G Hb HS Ety.
  assert (Hh : hdr_small c) by (apply hs; exact G).
  assert (NU : PUPDATE <> PSWAP) by discriminate.
  unfold update_checks.
  destruct (Z.eqb_spec (Z.land ty TYPE_PART_MASK) TYPE_APP) as [T1|T1]; [|split; [reflexivity|discriminate]].
  destruct (Z.eqb_spec (Z.land ty TYPE_AUTH_MASK) (c_auth c)) as [T2|T2]; [|split; [reflexivity|discriminate]]. cbn [negb orb].
  destruct (Z.gtb_spec (i_size (snd (open_image c f PUPDATE))) (PART c - SECT c - 1)) as [S1|S1]; [split; [reflexivity|discriminate]|].
  destruct (open_image c f PUPDATE) as [ok im] eqn:Eo. cbn [snd] in *.
  destruct ok.
  2:{ exfalso. destruct (open_image_bad c f PUPDATE im NU Eo) as (_ & [Z0|Z0] & _ & _ & _ & [B|B]).
      - unfold get_image_type in Ety. apply Z.eqb_neq in B. rewrite B in Ety. cbn [negb] in Ety.
        injection Ety as <-. discriminate T1.
      - revert Eo. unfold open_image. destruct (Z.eqb_spec (word f (part_addr c PUPDATE)) WOLFBOOT_MAGIC) as [Em|Em]; cbn [negb].
        + unfold image_size. destruct (Z.gtb_spec (word f (part_addr c PUPDATE + 4)) (PART c - HDR c)); [|lia].
          intro Eo. injection Eo as <-. cbn [i_size part_addr] in *. geo G. lia.
        + unfold get_image_type in Ety. apply Z.eqb_neq in Em. rewrite Em in Ety. cbn [negb] in Ety.
          injection Ety as <-. discriminate T1.
      - unfold get_image_type in Ety. apply Z.eqb_neq in B. rewrite B in Ety. cbn [negb] in Ety.
        injection Ety as <-. discriminate T1.
      - cbn [part_addr] in B. geo G. lia. }
  destruct (i_hdr_ok im); cbn [negb]; [|split; [reflexivity|discriminate]].
  apply ends_bind.
  destruct (verify_both_cases c f PUPDATE im G Hb NU Eo) as [(V & im' & W & _ & O1 & O2 & O3 & O4)|(V & im' & _ & W)].
  2:{ apply (ends_wpc no_tear _ _ (fun _ => True)). apply W; [exact I|]. split; [reflexivity|discriminate]. }
  apply (ends_wpc no_tear _ _ (fun _ => True)). apply W; [exact I|]. cbn [negb]. unfold sanity. rewrite O1, O2, O3. cbn [andb negb].
  destruct (version_val c f PBOOT Hb Hh) as (v1 & E1 & V1).
  destruct (version_val c f PUPDATE Hb Hh) as (v2 & E2 & V2).
  unfold pure. cbn [bind]. match goal with |- ends (Rd ?r) ?Q f => change (ends (r f) Q f) end. cbn beta. rewrite E1. cbn [bind].
  match goal with |- ends (Rd ?r) ?Q f => change (ends (r f) Q f) end. cbn beta. rewrite E2. cbn [bind].
  split; [reflexivity|].
  assert (Ht : type_ok c (UPDATE c) (rdl f (UPDATE c) (Z.to_nat (HDR c))) TYPE_APP).
  { destruct (type_cases c f (UPDATE c) Hb Hh) as [(off & Eg & K)|(NT & _)].
    - apply K. destruct V as (Vm & _). cbn [part_addr] in Vm. unfold get_image_type in Ety. cbn zeta in Ety. cbn [part_addr] in Ety.
      rewrite Vm, Z.eqb_refl in Ety. cbn [negb] in Ety. rewrite Eg in Ety. cbn [obind Nat.eqb] in Ety.
      injection Ety as Ety. rewrite Ety. auto.
    - exfalso. destruct V as (_ & _ & d & _ & (id & n & s & T & _)). exact (NT id T). }
  intro Hgo. split; [exact V|]. split; [exact Ht|].
  destruct fallback; [auto|]. destruct (c_allow_downgrade c); [auto|]. cbn [orb] in Hgo. apply Z.ltb_lt in Hgo.
  right; right. exists v1, v2. auto.
Qed.

Lemma checks_safe : forall c fallback f ty, geometry c -> bytes f ->
  ends (update_checks c fallback (snd (open_image c f PUPDATE)) ty) (fun b f' => f' = f) f.
Proof.
  intros c fallback f ty G Hb. assert (Hh : hdr_small c) by (apply hs; exact G). unfold update_checks.
  destruct (_ || _); [reflexivity|]. destruct (_ >? _); [reflexivity|]. destruct (negb _); [reflexivity|].
  apply ends_bind. eapply ends_weak.
  - apply verify_ends; [exact G|exact Hb| |apply open_sig]. split.
    + apply open_img_of; auto.
    + apply open_size_le; [exact G|discriminate].
  - cbn beta. intros [ok im'] f' ( -> & _). destruct (negb ok); [reflexivity|]. destruct (negb _); [exact I|].
    destruct (version_val c f PBOOT Hb Hh) as (v1 & E1 & V1).
    destruct (version_val c f PUPDATE Hb Hh) as (v2 & E2 & V2).
    unfold pure. cbn [bind]. match goal with |- ends (Rd ?r) ?Q f => change (ends (r f) Q f) end. cbn beta. rewrite E1. cbn [bind].
    match goal with |- ends (Rd ?r) ?Q f => change (ends (r f) Q f) end. cbn beta. rewrite E2. reflexivity.
Qed.

(** ** The update never goes wrong *)

Lemma fuel_enough : forall c, geometry c -> PART c - 0 <= Z.of_nat (sector_fuel c).
Proof. intros c G. unfold sector_fuel. geo G. lia. Qed.

Lemma update_safe : forall c u fb f, geometry c -> bytes f -> ends (update c u fb) (fun _ f' => bytes f') f.
Proof.
  intros c u fb f G Hb. assert (Hh : hdr_small c) by (apply hs; exact G).
  set (P := fun _ : Z => False).
  assert (HP : forall x, P x -> flags_fit c /\ 3 * SECT c <= PART c /\
    (BOOT c <= x < BOOT c + SECT c \/ UPDATE c <= x < UPDATE c + SECT c)) by (intros x []).
  unfold update. match goal with |- ends (Rd ?r) ?Q f => change (ends (r f) Q f) end. cbn beta zeta.
  destruct (_ <=? _); [exact Hb|].
  destruct (get_type_val c f PUPDATE Hb Hh) as (ty & Ety). unfold pure at 1. cbn [bind].
  match goal with |- ends (Rd ?r) ?Q f => change (ends (r f) Q f) end. cbn beta. rewrite Ety. cbn [bind]. unfold get. cbn [bind].
  match goal with |- ends (Rd ?r) ?Q f => change (ends (r f) Q f) end. cbn beta.
  apply ends_bind. apply (ends_weak _ (fun _ f' => f' = f)).
  { destruct (_ =? _); [apply checks_safe; auto|reflexivity]. }
  intros go f' -> . destruct (negb go); [exact Hb|].
  apply ends_bind. eapply ends_weak.
  { apply (loop_stays c G P HP); auto; [|lia| |apply fuel_enough, G|intros x []].
    - split; [|split]; apply open_img_of; auto.
    - apply total_le; apply open_size_le; auto; discriminate. }
  cbn beta. intros k f1 ((B1 & _) & K). apply ends_bind. eapply ends_weak.
  { apply (rest_stays c G P HP); auto; [apply open_img_of; auto|apply open_img_of; auto| |intros x []].
    pose proof (fuel_enough c G). lia. }
  cbn beta. intros _ f2 (B2 & _). apply ends_bind. eapply ends_weak; [apply (final_stays c G P HP); auto|].
  cbn beta. intros _ f3 ((B3 & _) & _). exact B3.
Qed.

Lemma verify_open_safe : forall c f p, geometry c -> bytes f -> p <> PSWAP ->
  ends (open_and_verify c p) (fun _ f' => f' = f) f.
Proof.
  intros c f p G Hb Hp. unfold open_and_verify, get. cbn [bind].
  match goal with |- ends (Rd ?r) ?Q f => change (ends (r f) Q f) end. cbn beta.
  destruct (open_image c f p) as [ok im] eqn:E. destruct ok; [|reflexivity].
  eapply ends_weak.
  - apply verify_ends; [exact G|exact Hb| |].
    + split; [pose proof (open_img_of c f p G Hb) as (_ & _ & H)|pose proof (open_size_le c f p G Hp) as H]; rewrite E in H; exact H.
    + pose proof (open_sig c f p) as H. rewrite E in H. exact H.
  - cbn beta. intros r f' ( -> & _). reflexivity.
Qed.

Lemma boot_stage_safe : forall c upd f, geometry c -> bytes f -> (forall f, bytes f -> ends upd (fun _ f' => bytes f') f) ->
  ends (boot_stage c upd) (fun _ _ => True) f.
Proof.
  intros c upd f G Hb Hu. unfold boot_stage. apply ends_bind.
  eapply ends_weak; [apply verify_open_safe; auto; discriminate|]. cbn beta. intros [ok im] f' -> .
  apply ends_bind. apply (ends_weak _ (fun _ _ => True)).
  - destruct ok; [exact I|]. apply ends_bind. eapply ends_weak; [apply Hu, Hb|]. cbn beta. intros r f1 B1.
    destruct (negb r); [exact I|]. apply ends_bind.
    eapply ends_weak; [apply verify_open_safe; auto; discriminate|]. cbn beta. intros [ok2 im2] f2 _.
    destruct ok2; exact I.
  - intros im' f' _. destruct (sanity im'); exact I.
Qed.

Lemma start_safe : forall c u f, geometry c -> bytes f -> ends (start c u) (fun _ _ => True) f.
Proof.
  intros c u f G Hb. unfold start, get. cbn [bind].
  match goal with |- ends (Rd ?r) ?Q f => change (ends (r f) Q f) end. cbn beta.
  apply ends_bind. eapply ends_weak.
  { apply (final_stays c G (fun _ => False)); [intros x []|exact Hb]. }
  cbn beta. intros resumed f1 ((B1 & _) & _). apply ends_bind. apply (ends_weak _ (fun _ f' => bytes f')).
  - destruct resumed; [exact B1|].
    assert (U : forall fb, ends (update c (u 1%nat) fb ;; Ret tt) (fun _ f' => bytes f') f1).
    { intro fb. apply ends_bind. eapply ends_weak; [apply update_safe; auto|]. cbn beta. intros _ f' H. exact H. }
    repeat match goal with |- ends (if ?b then _ else _) _ _ => destruct b end; try apply U; exact B1.
  - intros _ f2 B2. apply boot_stage_safe; auto. intros f' B'. apply update_safe; auto.
Qed.

(** ** Which header ends up in the boot partition *)

(** The headers of the two partitions have been exchanged. *)
Definition exchanged (c : cfg) (f f' : flash) : Prop :=
  bytes f' /\ forall i, 0 <= i < HDR c + 3 -> f' (BOOT c + i) = f (UPDATE c + i) /\ f' (UPDATE c + i) = f (BOOT c + i).

Section Decide.
  Variable c : cfg.
  Hypothesis G : geometry c.
  Hypothesis F : flags_fit c.
  Hypothesis HS : HDR c + 3 <= SECT c.
  Hypothesis H3 : 3 * SECT c <= PART c.

  Let zone (x : Z) : Prop := BOOT c <= x < BOOT c + SECT c \/ UPDATE c <= x < UPDATE c + SECT c.
  Let Hzone : forall x, zone x -> flags_fit c /\ 3 * SECT c <= PART c /\
    (BOOT c <= x < BOOT c + SECT c \/ UPDATE c <= x < UPDATE c + SECT c).
  Proof. intros x Hx. auto. Qed.

  (** Storing a flag touches nothing but the update trailer. *)
  Lemma store_frame : forall s v f, s = 0 -> 0 <= v -> bytes f ->
    ends (store_flag c s v) (fun _ f' => frame f f' (UPDATE c + SECT c) (PART c - SECT c)) f.
  Proof.
    intros s v f -> Hv Hb.
    assert (A : forall a n d g, UPDATE c + SECT c <= a -> a + n <= UPDATE c + PART c -> bytes g -> (forall i, 0 <= i < n -> 0 <= d i) ->
      frame g (write g a n d) (UPDATE c + SECT c) (PART c - SECT c)).
    { intros a n d g A1 A2 A3 A4. eapply frame_weak; [apply frame_write; assumption|lia|lia]. }
    unfold store_flag. destruct (_ <? _); [|apply frame_refl, Hb].
    unfold set_update_sector_flag. cbn zeta. geo G.
    apply ends_bind. apply (ends_weak _ (fun _ f' => frame f f' (UPDATE c + SECT c) (PART c - SECT c))).
    - unfold get. change (ends (if has_magic c f PUPDATE then Ret tt else set_partition_magic c PUPDATE)
        (fun _ f' => frame f f' (UPDATE c + SECT c) (PART c - SECT c)) f).
      destruct (has_magic c f PUPDATE); [apply frame_refl, Hb|]. unfold set_partition_magic, ends. cbn [run].
      apply A; auto; unfold magic_addr, trailer_addr, endflags; cbn [part_addr]; try lia. intros; apply magic_byte_nonneg.
    - intros _ f1 F1. unfold get. cbn [bind].
      match goal with |- ends (Rd ?r) ?Q f1 => change (ends (r f1) Q f1) end. cbn beta.
      match goal with |- context [set_trailer_at _ _ _ ?v] => set (w := v); destruct (w =? f1 (flags_addr c (flag_pos 0))) end;
        [exact F1|].
      unfold set_trailer_at, ends. cbn [run]. eapply frame_trans; [exact F1|].
      assert (E0 : flag_pos 0 = 0) by reflexivity.
      apply A; [| |apply F1|].
      + unfold trailer_addr, endflags. cbn [part_addr]. rewrite E0. lia.
      + unfold trailer_addr, endflags. cbn [part_addr]. rewrite E0. lia.
      + intros i Hi. pose proof (proj1 F1 (flags_addr c (flag_pos 0))) as (L & _).
        unfold w. destruct (flag_low 0); apply Z.lor_nonneg; split; try apply Z.shiftl_nonneg; apply Z.land_nonneg; lia.
  Qed.

  Lemma first_sector : forall b u w f, images c b u w -> bytes f ->
    ends (swap_new c b u w 0) (fun _ f' => exchanged c f f') f.
  Proof.
    intros b u w f (Ib & Iu & Iw) Hb. unfold swap_new, swap_swapping, swap_backup.
    geo G. assert (L1 : (0 + 1) * SECT c <= PART c) by lia.
    apply ends_bind. eapply ends_weak; [apply (copy_ends c PUPDATE PSWAP u w 0 f); auto; [discriminate|lia]|].
    cbn beta. unfold sect_at. cbn [part_eqb part_addr]. rewrite Z.mul_0_l, !Z.add_0_r. intros _ f1 (F1 & C1).
    apply ends_bind. eapply ends_weak; [apply store_frame; [reflexivity|unfold SF_SWAPPING; lia|apply F1]|].
    cbn beta. intros _ f2 F2.
    apply ends_bind. eapply ends_weak; [apply (copy_ends c PBOOT PUPDATE b u 0 f2); auto; [apply F2|discriminate|lia]|].
    cbn beta. unfold sect_at. cbn [part_eqb part_addr]. rewrite Z.mul_0_l, !Z.add_0_r. intros _ f3 (F3 & C3).
    apply ends_bind. eapply ends_weak; [apply store_frame; [reflexivity|unfold SF_BACKUP; lia|apply F3]|].
    cbn beta. intros _ f4 F4.
    apply ends_bind. eapply ends_weak; [apply (copy_ends c PSWAP PBOOT w b 0 f4); auto; [apply F4|discriminate|lia]|].
    cbn beta. unfold sect_at. cbn [part_eqb part_addr]. rewrite Z.mul_0_l, !Z.add_0_r. intros _ f5 (F5 & C5).
    eapply ends_weak; [apply store_frame; [reflexivity|unfold SF_UPDATED; lia|apply F5]|].
    cbn beta. intros _ f6 F6. split; [apply F6|]. intros i Hi. split.
    - rewrite (proj2 F6) by zl. rewrite C5 by zl. rewrite (proj2 F4) by zl. rewrite (proj2 F3) by zl.
      rewrite (proj2 F2) by zl. apply C1; zl.
    - rewrite (proj2 F6) by zl. rewrite (proj2 F5) by zl. rewrite (proj2 F4) by zl. rewrite C3 by zl.
      rewrite (proj2 F2) by zl. apply (proj2 F1). zl.
  Qed.

  Lemma exchanged_same : forall f f1 f2, exchanged c f f1 -> same zone f1 f2 -> exchanged c f f2.
  Proof.
    intros f f1 f2 (B1 & E) (B2 & S). split; [exact B2|]. intros i Hi. destruct (E i Hi) as (E1 & E2).
    rewrite !S; [auto| |]; unfold zone; lia.
  Qed.

  (** What one update does, whatever is in the flash. *)
  Lemma update_decides : forall u fb f, bytes f -> flag_of c f 0 = SF_NEW ->
    ends (update c u fb) (fun b f' => (b = false /\ f' = f) \/
      (b = true /\ acceptable c f fb /\ exchanged c f f' /\ has_magic c f' PUPDATE = false)) f.
  Proof.
    intros u fb f Hb Hfl. assert (Hh : hdr_small c) by (apply hs; exact G).
    unfold update. match goal with |- ends (Rd ?r) ?Q f => change (ends (r f) Q f) end. cbn beta zeta.
    set (b := snd (open_image c f PBOOT)). set (up := snd (open_image c f PUPDATE)). set (w := snd (open_image c f PSWAP)).
    assert (Him : images c b up w) by (split; [|split]; apply open_img_of; auto).
    assert (Ht : get_total_size c b up <= PART c) by (apply total_le; apply open_size_le; auto; discriminate).
    destruct (Z.leb_spec (get_total_size c b up) (HDR c)) as [L|L]; [left; auto|].
    destruct (get_type_val c f PUPDATE Hb Hh) as (ty & Ety). unfold pure at 1. cbn [bind].
    match goal with |- ends (Rd ?r) ?Q f => change (ends (r f) Q f) end. cbn beta. rewrite Ety. cbn [bind]. unfold get. cbn [bind].
    match goal with |- ends (Rd ?r) ?Q f => change (ends (r f) Q f) end. cbn beta.
    change (match get_update_sector_flag c f 0 with Some fl => fl | None => SF_NEW end) with (flag_of c f 0).
    rewrite Hfl, Z.eqb_refl. apply ends_bind.
    eapply ends_weak; [apply checks_ends; auto; left; lia|]. cbn beta. intros go f' ( -> & Acc).
    destruct go; cbn [negb]; [|left; auto]. specialize (Acc eq_refl).
    assert (Hfu : sector_fuel c = S (Z.to_nat (PART c - 1))) by (unfold sector_fuel; geo G; lia).
    apply ends_bind.
    apply (ends_weak _ (fun k f' => exchanged c f f' /\ 1 <= k)).
    { rewrite Hfu. cbn [swap_loop]. destruct (Z.ltb_spec (0 * SECT c) (get_total_size c b up)) as [L0|L0]; [|geo G; lia].
      unfold get. cbn [bind]. match goal with |- ends (Rd ?r) ?Q f => change (ends (r f) Q f) end. cbn beta.
      change (match get_update_sector_flag c f 0 with Some fl => fl | None => SF_NEW end) with (flag_of c f 0).
      rewrite Hfl. unfold swap_sector. rewrite Z.eqb_refl. apply ends_bind.
      eapply ends_weak; [apply first_sector; auto|]. cbn beta zeta. intros _ f1 E1. change (0 + 1 =? 1) with true. cbn iota.
      match goal with |- ends (Rd ?r) ?Q f1 => change (ends (r f1) Q f1) end. cbn beta zeta.
      destruct (reopened c G f1 (proj1 E1)) as (R1 & R2 & R3).
      eapply ends_weak.
      { apply (loop_stays c G zone Hzone); [|exact (proj1 E1)|lia|exact R3|geo G; lia|intros; lia].
        split; [exact R1|split; [exact R2|apply Him]]. }
      cbn beta. intros k f2 (S2 & K2). split; [eapply exchanged_same; eassumption|lia]. }
    intros k f1 (E1 & K1). apply ends_bind. eapply ends_weak.
    { apply (rest_stays c G zone Hzone _ b up k f1); [apply Him|apply Him|apply E1|lia| |intros; lia].
      pose proof (fuel_enough c G). lia. }
    cbn beta. intros _ f2 S2. apply ends_bind. eapply ends_weak; [apply (final_stays c G zone Hzone), S2|].
    cbn beta. intros r f3 (S3 & R3 & M3). unfold ends. cbn [run].
    right. split; [reflexivity|]. split; [exact Acc|]. split.
    - eapply exchanged_same; [|exact S3]. eapply exchanged_same; eassumption.
    - apply M3; [|apply F]. destruct r; [reflexivity|]. specialize (R3 eq_refl). discriminate.
  Qed.
End Decide.
