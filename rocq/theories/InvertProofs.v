(** Proofs about flags on flash that is erased to zero. *)
From Verif Require Import Base BaseLemmas HeaderModel Flash FlashLemmas ImageModel Geometry TrailerModel TrailerProofs TriggerProofs ExtFlagsModel ExtFlagsSpec ExtFlagsProofs InvertModel InvertSpec.
Local Ltac Zify.zify_post_hook ::= idtac.

Definition le : xcfg := {| X_be := false; X_ext := fun _ => false |}.

Lemma imarkable_bytes : forall f e, imarkable f e <-> forall i, 0 <= i < 4 -> Z.lor (f (e - 4 + i)) (magic_byte i) = magic_byte i.
Proof.
  intros f e. unfold imarkable. split.
  - intros H i Hi. specialize (H (Z.to_nat i) ltac:(lia)). change (magic_byte i) with (magic_mem le i). rewrite magic_mem_word by lia. rewrite Z2Nat.id in H by lia. exact H.
  - intros H i Hi. specialize (H (Z.of_nat i) ltac:(lia)). change (magic_byte (Z.of_nat i)) with (magic_mem le (Z.of_nat i)) in H. rewrite magic_mem_word, Nat2Z.id in H by lia. exact H.
Qed.
Lemma imarked_bytes : forall f e, marked false f e <-> forall i, 0 <= i < 4 -> f (e - 4 + i) = magic_byte i.
Proof. intros f e. apply (marked_bytes le). Qed.
Lemma marked_imarkable : forall f e, marked false f e -> imarkable f e.
Proof. intros f e H. rewrite imarked_bytes in H. apply imarkable_bytes. intros i Hi. rewrite H by exact Hi. apply Z.lor_diag. Qed.
Lemma has_magic_marked : forall c f p, bytes f -> has_magic c f p = true <-> marked false f (endflags c p).
Proof.
  intros c f p Hb. rewrite has_magic_iff by exact Hb. rewrite imarked_bytes. unfold magic_addr. rewrite taddr, Z.sub_0_r. reflexivity.
Qed.

Lemma iwrite_in : forall f a n d x, a <= x < a + n -> iwrite f a n d x = Z.lor (f x) (d (x - a)).
Proof. intros. unfold iwrite. rewrite (proj2 (inr_true a n x)) by lia. reflexivity. Qed.
Lemma iwrite_out : forall f a n d x, ~ (a <= x < a + n) -> iwrite f a n d x = f x.
Proof. intros. unfold iwrite. rewrite (proj2 (inr_false a n x)) by lia. reflexivity. Qed.
Lemma byte_lor : forall a b, is_byte a -> is_byte b -> is_byte (Z.lor a b).
Proof.
  intros a b Ha Hb. unfold is_byte in *. split; [apply Z.lor_nonneg; lia|].
  destruct (Z.eq_dec (Z.lor a b) 0) as [E|E]; [rewrite E; lia|]. assert (0 <= Z.lor a b) by (apply Z.lor_nonneg; lia).
  apply (Z.log2_lt_pow2 _ 8); [lia|]. rewrite Z.log2_lor by lia.
  assert (forall z, 0 <= z < 256 -> Z.log2 z < 8) as L by (intros z Hz; destruct (Z.eq_dec z 0); [subst; reflexivity|apply Z.log2_lt_pow2; lia]).
  pose proof (L a ltac:(lia)). pose proof (L b ltac:(lia)). lia.
Qed.
Lemma bytes_iwrite : forall f a n d, bytes f -> (forall i, 0 <= i < n -> is_byte (d i)) -> bytes (iwrite f a n d).
Proof.
  intros f a n d Hb Hd x. unfold iwrite. destruct (inr a n x) eqn:I; [|apply Hb]. apply inr_true in I. apply byte_lor; [apply Hb|apply Hd; lia].
Qed.
Lemma irun_bind : forall A B (p : prog A) (k : A -> prog B) f,
  irun (bind p k) f = match irun p f with Done a g => irun (k a) g | Panicked g => Panicked g | Wrong => Wrong end.
Proof. induction p as [a|r IH|a n p IH|a n d p IH| |]; intros k f; cbn [bind irun]; auto. Qed.
Lemma icrash_bind : forall A B (p : prog A) (k : A -> prog B) f g, icrash (bind p k) f g ->
  icrash p f g \/ exists a h, irun p f = Done a h /\ icrash (k a) h g.
Proof.
  induction p as [a|r IH|a n p IH|a n d p IH| |]; intros k f g C; cbn [bind icrash irun] in *; auto.
  - right. eauto.
  - destruct C as [C|[C|C]]; auto. destruct (IH _ _ _ C); auto.
  - destruct C as [C|[C|C]]; auto. destruct (IH _ _ _ C); auto.
Qed.

Lemma ibetween_refl : forall a b, ibetween a (Z.lor a b) a.
Proof. intros a b. unfold ibetween. rewrite Z.lor_diag, Z.lor_assoc, Z.lor_diag. auto. Qed.
Lemma ibetween_new : forall a b, ibetween a (Z.lor a b) (Z.lor a b).
Proof. intros a b. unfold ibetween. rewrite Z.lor_assoc, !Z.lor_diag. auto. Qed.
Lemma ibetween_torn : forall a b m, ibetween a (Z.lor a b) (Z.lor a (Z.land b m)).
Proof.
  intros a b m. unfold ibetween. split; apply Z.bits_inj'; intros n Hn; rewrite ?Z.lor_spec, ?Z.land_spec;
    destruct (Z.testbit a n), (Z.testbit b n), (Z.testbit m n); reflexivity.
Qed.
Lemma ibetween_same : forall a v, ibetween a a v -> v = a.
Proof. intros a v [H1 H2]. rewrite Z.lor_comm in H2. congruence. Qed.

(** ** Programming the magic number, when it is not there *)
Definition need (c : cfg) (p : part) : prog unit :=
  let! m <- Flash.get (fun f => has_magic c f p) in if m then Ret tt else set_partition_magic c p.

Lemma ineed_run : forall c p f, bytes f -> imarkable f (endflags c p) ->
  exists g, irun (need c p) f = Done tt g /\ bytes g /\ marked false g (endflags c p) /\
    (forall y, ~ (endflags c p - 4 <= y < endflags c p) -> g y = f y) /\ (marked false f (endflags c p) -> g = f).
Proof.
  intros c p f Hb Hm. unfold need. cbn [bind irun Flash.get]. destruct (has_magic c f p) eqn:E.
  - exists f. split; [reflexivity|]. split; [exact Hb|]. split; [apply has_magic_marked; assumption|]. auto.
  - unfold set_partition_magic. cbn [irun]. unfold magic_addr. rewrite taddr, Z.sub_0_r. eexists. split; [reflexivity|].
    split; [apply bytes_iwrite; [exact Hb|intros; apply magic_byte_range]|]. split; [|split].
    + apply imarked_bytes. intros i Hi. rewrite iwrite_in by lia. replace (endflags c p - 4 + i - (endflags c p - 4)) with i by lia.
      apply (proj1 (imarkable_bytes f (endflags c p)) Hm i Hi).
    + intros y Hy. apply iwrite_out. lia.
    + intro M. apply has_magic_marked in M; [congruence|exact Hb].
Qed.

Lemma ineed_crash : forall c p f g, bytes f -> icrash (need c p) f g -> imarkable f (endflags c p) ->
  bytes g /\ imarkable g (endflags c p) /\ (forall y, ~ (endflags c p - 4 <= y < endflags c p) -> g y = f y) /\
  (marked false f (endflags c p) -> g = f).
Proof.
  intros c p f g Hb C Hm. unfold need in C. cbn [bind icrash Flash.get] in C.
  assert (Eq : g = f -> bytes g /\ imarkable g (endflags c p) /\ (forall y, ~ (endflags c p - 4 <= y < endflags c p) -> g y = f y) /\
    (marked false f (endflags c p) -> g = f)) by (intros ->; auto).
  destruct (has_magic c f p) eqn:E; [apply Eq; exact C|].
  assert (NM : ~ marked false f (endflags c p)) by (intro M; apply has_magic_marked in M; [congruence|exact Hb]).
  unfold set_partition_magic in C. cbn [icrash] in C. unfold magic_addr in C. rewrite taddr, Z.sub_0_r in C. destruct C as [C|[C|C]]; [apply Eq; exact C| |].
  - destruct C as (Bg & Out & In). split; [exact Bg|]. split; [|split; [intros y Hy; apply Out, inr_false; lia|tauto]].
    apply imarkable_bytes. intros i Hi. destruct (In ltac:(lia) (endflags c p - 4 + i)) as [m Em]; [apply inr_true; lia|].
    replace (endflags c p - 4 + i - (endflags c p - 4)) with i in Em by lia. rewrite Em.
    pose proof (proj1 (imarkable_bytes f (endflags c p)) Hm i Hi) as K. rewrite <- K at 2 3. apply Z.bits_inj'. intros n Hn. rewrite !Z.lor_spec, Z.land_spec.
    apply (f_equal (fun z => Z.testbit z n)) in K. rewrite Z.lor_spec in K.
    destruct (Z.testbit (f (endflags c p - 4 + i)) n), (Z.testbit (magic_byte i) n), (Z.testbit m n); (reflexivity || discriminate K).
  - subst g. split; [apply bytes_iwrite; [exact Hb|intros; apply magic_byte_range]|]. split; [|split; [intros y Hy; apply iwrite_out; lia|tauto]].
    apply marked_imarkable, imarked_bytes. intros i Hi. rewrite iwrite_in by lia. replace (endflags c p - 4 + i - (endflags c p - 4)) with i by lia.
    apply (proj1 (imarkable_bytes f (endflags c p)) Hm i Hi).
Qed.

(** ** Programming one byte *)
Lemma iput_run : forall a v f, bytes f -> is_byte v ->
  exists g, irun (Wr a 1 (fun _ => v) (Ret tt)) f = Done tt g /\ bytes g /\ g a = Z.lor (f a) v /\ (forall y, y <> a -> g y = f y).
Proof.
  intros a v f Hb Hv. cbn [irun]. eexists. split; [reflexivity|]. split; [apply bytes_iwrite; auto|].
  split; [rewrite iwrite_in by lia; reflexivity|]. intros y Hy. apply iwrite_out. lia.
Qed.
Lemma iput_crash : forall a v f g, bytes f -> is_byte v -> icrash (Wr a 1 (fun _ => v) (Ret tt)) f g ->
  bytes g /\ ibetween (f a) (Z.lor (f a) v) (g a) /\ (forall y, y <> a -> g y = f y).
Proof.
  intros a v f g Hb Hv C. cbn [icrash] in C. destruct C as [C|[C|C]].
  - subst g. split; [exact Hb|]. split; [apply ibetween_refl|auto].
  - destruct C as (Bg & Out & In). split; [exact Bg|]. split; [|intros y Hy; apply Out, inr_false; lia].
    destruct (In ltac:(lia) a) as [m Em]; [apply inr_true; lia|]. rewrite Em. apply ibetween_torn.
  - destruct (iput_run a v f Hb Hv) as (g1 & E & B1 & V1 & O1). cbn [irun] in E. assert (g = g1) as -> by congruence.
    split; [exact B1|]. split; [rewrite V1; apply ibetween_new|exact O1].
Qed.

(** ** The state *)
Lemma istate_run : forall c p st f, bytes f -> is_byte st -> imarkable f (endflags c p) ->
  exists g, irun (set_partition_state c p st) f = Done tt g /\ bytes g /\ marked false g (endflags c p) /\
    g (endflags c p - 5) = Z.lor (f (endflags c p - 5)) st /\
    (forall y, ~ (endflags c p - 5 <= y < endflags c p) -> g y = f y) /\
    (marked false f (endflags c p) -> forall y, y <> endflags c p - 5 -> g y = f y).
Proof.
  intros c p st f Hb Hs Hm. change (set_partition_state c p st) with (bind (need c p) (fun _ =>
    let! s <- Flash.get (fun f => f (state_addr c p)) in if s =? st then Ret tt else set_trailer_at c p 1 st)). rewrite irun_bind.
  destruct (ineed_run c p f Hb Hm) as (g1 & E1 & B1 & M1 & O1 & S1). rewrite E1.
  cbn [bind irun Flash.get]. unfold state_addr, set_trailer_at. rewrite taddr. replace (endflags c p - 4 - 1) with (endflags c p - 5) by lia. set (e := endflags c p) in *.
  assert (F1 : g1 (e - 5) = f (e - 5)) by (apply O1; lia).
  destruct (Z.eqb_spec (g1 (e - 5)) st) as [Q|Q].
  - exists g1. split; [reflexivity|]. split; [exact B1|]. split; [exact M1|]. split; [rewrite <- F1, Q, Z.lor_diag; reflexivity|].
    split; [intros y Hy; apply O1; lia|]. intros M y _. rewrite (S1 M). reflexivity.
  - destruct (iput_run (e - 5) st g1 B1 Hs) as (g2 & E2 & B2 & V2 & O2). rewrite E2.
    exists g2. split; [reflexivity|]. split; [exact B2|]. split; [|split; [|split]].
    + apply imarked_bytes. intros i Hi. rewrite O2 by lia. apply (proj1 (imarked_bytes g1 e) M1 i Hi).
    + rewrite V2, F1. reflexivity.
    + intros y Hy. rewrite O2 by lia. apply O1. lia.
    + intros M y Hy. rewrite O2 by exact Hy. rewrite (S1 M). reflexivity.
Qed.

Lemma istate_crash : forall c p st f g, bytes f -> is_byte st -> imarkable f (endflags c p) ->
  icrash (set_partition_state c p st) f g ->
  bytes g /\ imarkable g (endflags c p) /\ ibetween (f (endflags c p - 5)) (Z.lor (f (endflags c p - 5)) st) (g (endflags c p - 5)) /\
  (forall y, ~ (endflags c p - 5 <= y < endflags c p) -> g y = f y) /\
  (marked false f (endflags c p) -> forall y, y <> endflags c p - 5 -> g y = f y).
Proof.
  intros c p st f g Hb Hs Hm C. change (set_partition_state c p st) with (bind (need c p) (fun _ =>
    let! s <- Flash.get (fun f => f (state_addr c p)) in if s =? st then Ret tt else set_trailer_at c p 1 st)) in C.
  apply icrash_bind in C. destruct C as [C|(k1 & g1 & E1 & C)].
  - destruct (ineed_crash c p f g Hb C Hm) as (Bg & Mg & O & S). split; [exact Bg|]. split; [exact Mg|].
    split; [rewrite (O (endflags c p - 5)) by lia; apply ibetween_refl|]. split; [intros y Hy; apply O; lia|]. intros M y _. rewrite (S M). reflexivity.
  - destruct (ineed_run c p f Hb Hm) as (g1' & E1' & B1 & M1 & O1 & S1). rewrite E1' in E1.
    assert (g1' = g1) as -> by congruence. clear E1 E1'.
    cbn [bind icrash Flash.get] in C. unfold state_addr, set_trailer_at in C. rewrite taddr in C. replace (endflags c p - 4 - 1) with (endflags c p - 5) in C by lia. set (e := endflags c p) in *.
    assert (F1 : g1 (e - 5) = f (e - 5)) by (apply O1; lia).
    destruct (g1 (e - 5) =? st).
    + cbn [icrash] in C. subst g. split; [exact B1|]. split; [apply marked_imarkable, M1|]. split; [rewrite F1; apply ibetween_refl|].
      split; [intros y Hy; apply O1; lia|]. intros M y _. rewrite (S1 M). reflexivity.
    + apply iput_crash in C; [|exact B1|exact Hs]. rewrite F1 in C. destruct C as (Bg & Bt & O). split; [exact Bg|]. split; [|split; [exact Bt|split]].
      * apply marked_imarkable, imarked_bytes. intros i Hi. rewrite O by lia. apply (proj1 (imarked_bytes g1 e) M1 i Hi).
      * intros y Hy. rewrite O by lia. apply O1. lia.
      * intros M y Hy. rewrite O by exact Hy. rewrite (S1 M). reflexivity.
Qed.

(** ** Sector flags *)
Definition iput_ok (low : bool) (fl v : Z) : bool :=
  negb (Z.lor (nibv low fl) v =? v) ||
  ((Z.lor fl (put_nib low fl v) =? put_nib low fl v) && (nibv low (put_nib low fl v) =? v) &&
   (nibv (negb low) (put_nib low fl v) =? nibv (negb low) fl) && (0 <=? put_nib low fl v) && (put_nib low fl v <? 256)).
Lemma iput_check : forallb (fun fl => forallb (fun v => iput_ok true fl v && iput_ok false fl v) nib_list) byte_list = true.
Proof. vm_compute. reflexivity. Qed.
Lemma iput_spec : forall low fl v, is_byte fl -> is_nib v -> Z.lor (nibv low fl) v = v ->
  Z.lor fl (put_nib low fl v) = put_nib low fl v /\ nibv low (put_nib low fl v) = v /\
  nibv (negb low) (put_nib low fl v) = nibv (negb low) fl /\ is_byte (put_nib low fl v).
Proof.
  intros low fl v Hf Hv Hs. pose proof (proj1 (forallb_forall _ _) iput_check fl (byte_in fl Hf)) as K. cbn beta in K.
  pose proof (proj1 (forallb_forall _ _) K v (nib_in v Hv)) as K2. cbn beta in K2. apply andb_prop in K2 as [K1 K2].
  assert (K3 : iput_ok low fl v = true) by (destruct low; assumption). unfold iput_ok in K3. rewrite Hs, Z.eqb_refl in K3. cbn [negb orb] in K3.
  rewrite !andb_true_iff, !Z.eqb_eq, Z.leb_le, Z.ltb_lt in K3. unfold is_byte. tauto.
Qed.
Lemma lor_nibv : forall low a b, nibv low (Z.lor a b) = Z.lor (nibv low a) (nibv low b).
Proof. intros low a b. unfold nibv. destruct low; rewrite Z.land_lor_distr_l, ?Z.shiftr_lor; reflexivity. Qed.
Lemma ibetween_nibv : forall low old new v, ibetween old new v -> ibetween (nibv low old) (nibv low new) (nibv low v).
Proof. intros low old new v [H1 H2]. unfold ibetween. rewrite <- !lor_nibv. split; congruence. Qed.

Definition flag_tail (c : cfg) (s v : Z) : prog unit :=
  let! fl <- Flash.get (fun f => f (flags_addr c (flag_pos s))) in
  if put_nib (flag_low s) fl v =? fl then Ret tt else set_trailer_at c PUPDATE (2 + flag_pos s) (put_nib (flag_low s) fl v).
Lemma flag_split : forall c s v, set_update_sector_flag c s v = bind (need c PUPDATE) (fun _ => flag_tail c s v).
Proof. reflexivity. Qed.

Lemma iflag_run : forall c s v f, bytes f -> 0 <= s < 512 -> 0 <= v < 16 -> imarkable f (endflags c PUPDATE) ->
  Z.lor (sector_flag f (endflags c PUPDATE) s) v = v ->
  exists g, irun (set_update_sector_flag c s v) f = Done tt g /\ bytes g /\ marked false g (endflags c PUPDATE) /\
    sector_flag g (endflags c PUPDATE) s = v /\
    (forall s', 0 <= s' < 512 -> s' <> s -> sector_flag g (endflags c PUPDATE) s' = sector_flag f (endflags c PUPDATE) s') /\
    (forall y, ~ (endflags c PUPDATE - 4 <= y < endflags c PUPDATE) -> y <> flag_at (endflags c PUPDATE) s -> g y = f y).
Proof.
  intros c s v f Hb Hs Hv Hm Hsub. rewrite flag_split, irun_bind. set (e := endflags c PUPDATE) in *.
  destruct (ineed_run c PUPDATE f Hb Hm) as (g1 & E1 & B1 & M1 & O1 & _). fold e in M1, O1. rewrite E1. unfold flag_tail, flags_addr, set_trailer_at. cbn [bind irun Flash.get].
  rewrite (flag_taddr c s Hs), (proj2 (flag_small s Hs)). fold e.
  set (a := flag_at e s) in *. assert (La : a < state_at e) by (apply flag_low_addr, Hs). unfold state_at in La.
  assert (Fa : g1 a = f a) by (apply O1; lia). rewrite Fa.
  rewrite nibv_flag in Hsub by exact Hb. fold a in Hsub.
  destruct (iput_spec (Z.even s) (f a) v (Hb a) Hv Hsub) as (P1 & P2 & P3 & P4).
  assert (Fin : forall g, bytes g -> marked false g e -> g a = put_nib (Z.even s) (f a) v ->
    (forall y, ~ (e - 4 <= y < e) -> y <> a -> g y = f y) ->
    marked false g e /\ sector_flag g e s = v /\ (forall s', 0 <= s' < 512 -> s' <> s -> sector_flag g e s' = sector_flag f e s') /\
    (forall y, ~ (e - 4 <= y < e) -> y <> a -> g y = f y)).
  { intros g Bg Mg Ga Og. split; [exact Mg|]. split; [rewrite nibv_flag by exact Bg; fold a; rewrite Ga; exact P2|]. split; [|exact Og].
    intros s' Hs' N. rewrite !nibv_flag by assumption. destruct (Z.eq_dec (flag_at e s') a) as [Q|Q].
    - rewrite Q, Ga, (flag_other e s s' Hs Hs' N Q). exact P3.
    - rewrite Og; [reflexivity| |exact Q]. pose proof (flag_low_addr e s' Hs') as L. unfold state_at in L. lia. }
  destruct (Z.eqb_spec (put_nib (Z.even s) (f a) v) (f a)) as [Q|Q].
  - exists g1. split; [reflexivity|]. split; [exact B1|]. apply Fin; [exact B1|exact M1|congruence|]. intros y Hy _. apply O1, Hy.
  - destruct (iput_run a (put_nib (Z.even s) (f a) v) g1 B1 P4) as (g2 & E2 & B2 & V2 & O2). rewrite E2. exists g2. split; [reflexivity|]. split; [exact B2|].
    apply Fin; [exact B2| |rewrite V2, Fa; exact P1|].
    + apply imarked_bytes. intros i Hi. rewrite O2 by lia. apply (proj1 (imarked_bytes g1 e) M1 i Hi).
    + intros y Hy Hn. rewrite O2 by exact Hn. apply O1, Hy.
Qed.

Lemma iflag_crash : forall c s v f g, bytes f -> 0 <= s < 512 -> 0 <= v < 16 -> imarkable f (endflags c PUPDATE) ->
  Z.lor (sector_flag f (endflags c PUPDATE) s) v = v -> icrash (set_update_sector_flag c s v) f g ->
  bytes g /\ imarkable g (endflags c PUPDATE) /\ (marked false f (endflags c PUPDATE) -> marked false g (endflags c PUPDATE)) /\
  ibetween (sector_flag f (endflags c PUPDATE) s) v (sector_flag g (endflags c PUPDATE) s) /\
  (forall s', 0 <= s' < 512 -> s' <> s -> sector_flag g (endflags c PUPDATE) s' = sector_flag f (endflags c PUPDATE) s') /\
  (forall y, ~ (endflags c PUPDATE - 4 <= y < endflags c PUPDATE) -> y <> flag_at (endflags c PUPDATE) s -> g y = f y).
Proof.
  intros c s v f g Hb Hs Hv Hm Hsub C. rewrite flag_split in C. set (e := endflags c PUPDATE) in *.
  set (a := flag_at e s) in *. assert (La : a < state_at e) by (apply flag_low_addr, Hs). unfold state_at in La.
  assert (Hsub' := Hsub). rewrite nibv_flag in Hsub' by exact Hb. fold a in Hsub'.
  destruct (iput_spec (Z.even s) (f a) v (Hb a) Hv Hsub') as (P1 & P2 & P3 & P4).
  assert (Fin : forall g, bytes g -> imarkable g e -> (marked false f e -> marked false g e) ->
    ibetween (f a) (put_nib (Z.even s) (f a) v) (g a) -> (forall y, ~ (e - 4 <= y < e) -> y <> a -> g y = f y) ->
    bytes g /\ imarkable g e /\ (marked false f e -> marked false g e) /\
    ibetween (sector_flag f e s) v (sector_flag g e s) /\ (forall s', 0 <= s' < 512 -> s' <> s -> sector_flag g e s' = sector_flag f e s') /\
    (forall y, ~ (e - 4 <= y < e) -> y <> a -> g y = f y)).
  { clear g C. intros g Bg Mg MM Bt Og. split; [exact Bg|]. split; [exact Mg|]. split; [exact MM|]. split; [|split; [|exact Og]].
    - rewrite !nibv_flag by assumption. fold a. rewrite <- P2. apply ibetween_nibv, Bt.
    - intros s' Hs' N. rewrite !nibv_flag by assumption. destruct (Z.eq_dec (flag_at e s') a) as [Q|Q].
      + rewrite Q, (flag_other e s s' Hs Hs' N Q). apply ibetween_same. rewrite <- P3 at 2. apply ibetween_nibv, Bt.
      + rewrite Og; [reflexivity| |exact Q]. pose proof (flag_low_addr e s' Hs') as L. unfold state_at in L. lia. }
  assert (Keep : forall h : flash, h a = f a -> ibetween (f a) (put_nib (Z.even s) (f a) v) (h a))
    by (intros h ->; rewrite <- P1; apply ibetween_refl).
  apply icrash_bind in C. destruct C as [C|(k1 & g1 & E1 & C)].
  - destruct (ineed_crash c PUPDATE f g Hb C Hm) as (Bg & Mg & O & S). fold e in Mg, O, S.
    apply Fin; [exact Bg|exact Mg| |apply Keep, O; lia|intros y Hy _; apply O, Hy]. intro M. rewrite (S M). exact M.
  - destruct (ineed_run c PUPDATE f Hb Hm) as (g1' & E1' & B1 & M1 & O1 & _). rewrite E1' in E1.
    assert (g1' = g1) as -> by congruence. clear E1 E1'. fold e in M1, O1.
    unfold flag_tail, flags_addr, set_trailer_at in C. cbn [bind icrash Flash.get] in C. rewrite (flag_taddr c s Hs), (proj2 (flag_small s Hs)) in C. fold e in C. fold a in C.
    assert (Fa : g1 a = f a) by (apply O1; lia). rewrite Fa in C.
    destruct (put_nib (Z.even s) (f a) v =? f a).
    + cbn [icrash] in C. subst g. apply Fin; [exact B1|apply marked_imarkable, M1|auto|apply Keep, Fa|intros y Hy _; apply O1, Hy].
    + apply iput_crash in C; [|exact B1|exact P4]. rewrite Fa, P1 in C. destruct C as (Bg & Bt & O).
      assert (Mg : marked false g e) by (apply imarked_bytes; intros i Hi; rewrite O by lia; apply (proj1 (imarked_bytes g1 e) M1 i Hi)).
      apply Fin; [exact Bg|apply marked_imarkable, Mg|auto|exact Bt|]. intros y Hy Hn. rewrite O by exact Hn. apply O1, Hy.
Qed.

(** ** The trigger *)
Lemma ierase_in : forall f a n x, a <= x < a + n -> ierase f a n x = 0.
Proof. intros. unfold ierase. rewrite (proj2 (inr_true a n x)) by lia. reflexivity. Qed.
Lemma ierase_out : forall f a n x, ~ (a <= x < a + n) -> ierase f a n x = f x.
Proof. intros. unfold ierase. rewrite (proj2 (inr_false a n x)) by lia. reflexivity. Qed.

Lemma itrigger_run : forall c b f, geometry c -> flags_room c -> flags_at c b -> bytes f ->
  exists g, irun (i_trigger c) f = Done tt g /\ bytes g /\ marked false g (endflags c PUPDATE) /\
    g (endflags c PUPDATE - 5) = IST_UPDATING /\
    (forall s, 0 <= s < PART c / SECT c -> sector_flag g (endflags c PUPDATE) s = ISF_NEW) /\
    (forall y, ~ (b + PART c - SECT c <= y < b + PART c) -> g y = f y).
Proof.
  intros c b f G F Hfl Hb. pose proof (fit_14 c G F) as K14.
  unfold i_trigger. rewrite (flags_sector_addr c b) by assumption. cbn [irun].
  set (a := b + PART c - SECT c) in *. set (f1 := ierase f a (SECT c)).
  pose proof (g_sect c G) as (_ & S). change (endflags c PUPDATE) with (UFLAGS c).
  assert (SECT c >= 6) by (destruct F as (_ & F & _); assert (0 <= PART c / SECT c / 2);
    [repeat apply Z.div_pos; pose proof (g_part c G); lia|lia]).
  assert (Hb1 : bytes f1) by (intro x; unfold f1, ierase; destruct (inr _ _ x); [unfold is_byte; lia|apply Hb]).
  pose proof (g_disj1 c G) as D. unfold disjoint in D. pose proof (g_part c G) as (_ & P2).
  assert (Loc : (UFLAGS c = b + PART c /\ b = UPDATE c) \/ (UFLAGS c = b + PART c - 8 /\ 14 <= SECT c /\ b = BOOT c)).
  { unfold flags_at, own_flags, home_flags in *. destruct Hfl as [(E & ->)|(E & ->)]; [left; lia|right; lia]. }
  assert (Hm : imarkable f1 (endflags c PUPDATE)).
  { apply imarkable_bytes. change (endflags c PUPDATE) with (UFLAGS c). intros i Hi. unfold f1. rewrite ierase_in by lia. reflexivity. }
  destruct (istate_run c PUPDATE IST_UPDATING f1 Hb1 ltac:(unfold is_byte, IST_UPDATING; lia) Hm) as (g & E & Bg & Mg & Sg & O & _).
  change (endflags c PUPDATE) with (UFLAGS c) in *.
  exists g. split; [exact E|]. split; [exact Bg|]. split; [exact Mg|]. split; [|split].
  - rewrite Sg. unfold f1. rewrite ierase_in by lia. reflexivity.
  - intros s Hs. destruct (sectors_room c s G F Hs) as (H512 & K). rewrite nibv_flag by exact Bg.
    assert (Ea : flags_addr c (flag_pos s) = flag_at (UFLAGS c) s) by (apply (flag_taddr c s H512)). rewrite Ea in K.
    pose proof (flag_low_addr (UFLAGS c) s H512) as L. unfold state_at in L. rewrite O by lia. unfold f1. rewrite ierase_in by lia. destruct (Z.even s); reflexivity.
  - intros y Hy. rewrite O by lia. unfold f1. apply ierase_out. lia.
Qed.
