(** Theorems about trailers on write-once flash: C29. *)
From Verif Require Import Base BaseLemmas HeaderModel Flash FlashLemmas ImageModel TrailerModel Geometry Sample WriteOnceModel WriteOnceSpec WriteOnceProofs.
Local Ltac Zify.zify_post_hook ::= idtac.

(** Whatever complete and interrupted operations came before, an operation completes with
    its effect on the trailer, and if it is interrupted the trailer is the old or the new
    one.  Without a previous trailer it can also be the empty one (its state is the erased
    value, NEW). *)
Theorem C29_atomic : forall c p f a o, geometry c -> aligned c p -> history c p f a -> usable c p o a ->
  (exists g, run (code c p o) f = Done tt g /\ history c p g (effect o a)) /\
  (forall g, cut (code c p o) f g -> exists b, interrupted o a b /\ history c p g b).
Proof.
  intros c p f a o G Al H U. pose proof (code_wq c p f a o G Al (history_st c p f a G Al H) U) as W. split.
  - destruct (wq_run _ _ _ _ _ W) as ([] & g & R & S). exists g. split; [exact R|]. exact (h_done c p f a o g H U R).
  - intros g E. destruct (wq_cut _ _ _ _ _ _ W E) as (b & I & S). exists b. split; [exact I|].
    exact (h_cut c p f a o g b H U E I (st_reads c p G g b S)).
Qed.
Print Assumptions C29_atomic.

(** The trailer of a history is the one that is read. *)
Theorem C29_reads : forall c p f a, geometry c -> aligned c p -> history c p f a ->
  reads c f p a /\ forall b, reads c f p b -> b = a.
Proof.
  intros c p f a G Al H. pose proof (st_reads c p G f a (history_st c p f a G Al H)) as R. split; [exact R|].
  intros b Rb. exact (reads_inj c p f b a Rb R).
Qed.
Print Assumptions C29_reads.

(** In terms of the state and the sector flags. *)
Theorem C29_state : forall c p f a, geometry c -> aligned c p -> history c p f a ->
  exists g, run (nvm_get_state c p) f = Done (option_map (fun T => nth 0 T 255) a) g /\ history c p g a.
Proof.
  intros c p f a G Al H. pose proof (history_st c p f a G Al H) as S.
  destruct (wq_run _ _ _ _ _ (get_state_wq c p G f a S)) as (r & g & R & E & Sg). exists g. split.
  - rewrite R, E. destruct a; reflexivity.
  - assert (E2 : effect GetState a = a) by (destruct a; reflexivity). rewrite <- E2. apply (h_done c p f a GetState g H I).
    cbn [code]. rewrite run_bind, R. reflexivity.
Qed.
Print Assumptions C29_state.

Theorem C29_flag : forall c f a k, geometry c -> aligned c PUPDATE -> history c PUPDATE f a -> 0 <= k < 512 -> k / 2 + 2 <= SECT c - 4 ->
  exists g, run (nvm_get_flag c k) f = Done (option_map (fun T => flag_in (nth (flag_index k) T 255) k) a) g /\ history c PUPDATE g a.
Proof.
  intros c f a k G Al H Hk Hs. pose proof (history_st c PUPDATE f a G Al H) as S.
  destruct (wq_run _ _ _ _ _ (get_flag_wq c G f a k S Hk Hs)) as (r & g & R & E & Sg). exists g. split.
  - rewrite R, E. destruct a; reflexivity.
  - assert (E2 : effect (GetFlag k) a = a) by (destruct a; reflexivity). rewrite <- E2. apply (h_done c PUPDATE f a (GetFlag k) g H).
    + split; [reflexivity|]. split; assumption.
    + cbn [code]. rewrite run_bind, R. reflexivity.
Qed.
Print Assumptions C29_flag.

(** A flag that was set is the one read; the other flag in its byte is the old one. *)
Theorem C29_flag_set : forall b k k' v, 0 <= b < 256 -> 0 <= v < 16 ->
  flag_in (with_flag b k v) k = v /\ (Z.even k' = negb (Z.even k) -> flag_in (with_flag b k v) k' = flag_in b k').
Proof.
  intros b k k' v Hb Hv. unfold flag_in, with_flag.
  pose proof (Z.div_mod b 16 ltac:(lia)) as E. pose proof (Z.mod_pos_bound b 16 ltac:(lia)) as R.
  set (q := b / 16) in *. set (r := b mod 16) in *.
  assert (A : (q * 16 + v) mod 16 = v) by (rewrite Z.add_comm, Z_mod_plus_full; apply Z.mod_small; exact Hv).
  assert (B : (q * 16 + v) / 16 = q) by (rewrite Z.add_comm, Z.div_add by lia; rewrite Z.div_small by lia; lia).
  assert (C : (v * 16 + r) mod 16 = r) by (rewrite Z.add_comm, Z_mod_plus_full; apply Z.mod_small; exact R).
  assert (D : (v * 16 + r) / 16 = v) by (rewrite Z.add_comm, Z.div_add by lia; rewrite Z.div_small by lia; lia).
  destruct (Z.even k); cbn [negb].
  - split; [exact A|]. intros ->. exact B.
  - split; [exact D|]. intros ->. exact C.
Qed.
Print Assumptions C29_flag_set.

(** Complete or interrupted, operations change nothing but the two sectors. *)
Theorem C29_frame : forall c p f a o g x, geometry c -> aligned c p -> usable c p o a -> cut (code c p o) f g ->
  ~ (part_addr c p + PART c - 2 * SECT c <= x < part_addr c p + PART c) -> g x = f x.
Proof. intros c p f a o g x G Al U E Hx. exact (touches_cut _ _ _ _ f g x (code_touches c p o a G Al U) E Hx). Qed.
Print Assumptions C29_frame.

(** ** Hypotheses *)

Example C29_hyps : aligned demo PUPDATE /\ aligned demo PBOOT /\
  exists f a, history demo PUPDATE f a /\ a = Some [ST_UPDATING; 0x37] /\ usable demo PUPDATE (SetFlag 1 SF_BACKUP) a.
Proof.
  split; [reflexivity|]. split; [reflexivity|].
  assert (S0 : starts demo (fun _ => 255) PUPDATE None).
  { split; [intro; unfold is_byte; lia|]. split; [vm_compute; discriminate|]. reflexivity. }
  pose proof (h_start demo PUPDATE _ _ S0) as H0.
  destruct (C29_atomic demo PUPDATE _ _ Trigger demo_geometry eq_refl H0 eq_refl) as ((f1 & _ & H1) & _).
  assert (U1 : usable demo PUPDATE (SetFlag 0 SF_SWAPPING) (effect Trigger None)).
  { split; [reflexivity|]. split; [lia|]. split; [vm_compute; discriminate|]. split; [split; [vm_compute; discriminate|reflexivity]|].
    exists [ST_UPDATING]. split; [reflexivity|]. vm_compute. auto. }
  destruct (C29_atomic demo PUPDATE _ _ _ demo_geometry eq_refl H1 U1) as ((f2 & _ & H2) & _).
  assert (U2 : usable demo PUPDATE (SetFlag 1 SF_BACKUP) (effect (SetFlag 0 SF_SWAPPING) (effect Trigger None))).
  { split; [reflexivity|]. split; [lia|]. split; [vm_compute; discriminate|]. split; [split; [vm_compute; discriminate|reflexivity]|].
    exists [ST_UPDATING; 0xF7]. split; [reflexivity|]. vm_compute. auto. }
  destruct (C29_atomic demo PUPDATE _ _ _ demo_geometry eq_refl H2 U2) as ((f3 & _ & H3) & _).
  exists f3, (Some [ST_UPDATING; 0x37]). split; [exact H3|]. split; [reflexivity|].
  split; [reflexivity|]. split; [lia|]. split; [vm_compute; discriminate|]. split; [split; [vm_compute; discriminate|reflexivity]|].
  exists [ST_UPDATING; 0x37]. split; [reflexivity|]. vm_compute. auto.
Qed.

(** ** Limits *)

(** Runs a program up to its [n]-th flash operation, an erase. *)
Fixpoint upto {A} (n : nat) (p : prog A) (f : flash) : option (flash * Z * Z) :=
  match p with
  | Rd r => upto n (r f) f
  | Er a k p' => match n with O => Some (f, a, k) | S n' => upto n' p' (erase f a k) end
  | Wr a k d p' => match n with O => None | S n' => upto n' p' (write f a k d) end
  | _ => None
  end.

Lemma upto_cut : forall A (p : prog A) n f h a k g, upto n p f = Some (h, a, k) -> bit_erase a k h g -> cut_bits p f g.
Proof.
  induction p as [a|r IH|a m p IH|a m d p IH| |]; intros n f h b k g E T; cbn [upto cut_bits] in *; try discriminate.
  - exact (IH f n f h b k g E T).
  - destruct n as [|n]; [injection E as -> -> ->; auto|]. right. right. exact (IH n _ h b k g E T).
  - destruct n as [|n]; [discriminate|]. right. right. exact (IH n _ h b k g E T).
Qed.

Lemma upto_reach : forall A (p : prog A) n f h a k, upto n p f = Some (h, a, k) -> cut p f h.
Proof.
  induction p as [a|r IH|a m p IH|a m d p IH| |]; intros n f h b k E; cbn [upto cut] in *; try discriminate.
  - exact (IH f n f h b k E).
  - destruct n as [|n]; [injection E as -> -> ->; auto|]. right. right. exact (IH n _ h b k E).
  - destruct n as [|n]; [discriminate|]. right. right. exact (IH n _ h b k E).
Qed.

(** A trailer with state UPDATING and one flag byte, in the lower of the two sectors. *)
Definition low_copy : flash := fun x =>
  if x =? 2048 + 512 - 128 - 4 then 0x42 else if x =? 2048 + 512 - 128 - 3 then 0x4F else if x =? 2048 + 512 - 128 - 2 then 0x4F
  else if x =? 2048 + 512 - 128 - 1 then 0x54 else if x =? 2048 + 512 - 128 - 5 then 0x70 else if x =? 2048 + 512 - 128 - 6 then 0xF7 else 255.

Lemma low_copy_is : trailer_is demo low_copy PUPDATE [0x70; 0xF7].
Proof.
  split.
  { intro x. unfold low_copy. repeat (destruct (_ =? _); [unfold is_byte; lia|]). unfold is_byte; lia. }
  split; [split; [constructor; [lia|constructor; [lia|constructor]]|vm_compute; discriminate]|]. right. cbn zeta. split; [|vm_compute; discriminate]. unfold copy_at. split; [vm_compute; reflexivity|].
  intros i Hi. cbn in Hi. change (part_addr demo PUPDATE + PART demo - SECT demo) with (2048 + 512 - 128). unfold low_copy.
  destruct (Z.eq_dec i 0) as [ -> |N0]; [reflexivity|]. destruct (Z.eq_dec i 1) as [ -> |N1]; [reflexivity|].
  rewrite !(proj2 (Z.eqb_neq _ _)) by lia. symmetry. apply nth_overflow. cbn [length]. lia.
Qed.

(** If an interrupted erase can leave a byte half erased, the state read afterwards may be
    neither the old one nor the new one: state UPDATING, state TESTING being written, and
    0x7F is read. *)
Theorem C29_bit_tears_refuted : exists c f T v g x g', geometry c /\ aligned c PUPDATE /\ trailer_is c f PUPDATE T /\ 0 <= v < 255 /\
  cut_bits (nvm_set_state c PUPDATE v) f g /\ run (nvm_get_state c PUPDATE) g = Done (Some x) g' /\ x <> nth 0 T 255 /\ x <> v.
Proof.
  assert (P : match upto 5 (nvm_set_state demo PUPDATE 0x30) low_copy with
              | Some (h, a, k) => a = 2304 /\ k = 128 /\ h 2427 = 0x70 /\
                  match run (nvm_get_state demo PUPDATE) (fun x => if x =? 2427 then 127 else h x) with Done r _ => r = Some 127 | _ => False end
              | None => False end) by (vm_compute; auto).
  destruct (upto 5 (nvm_set_state demo PUPDATE 0x30) low_copy) as [[[h a] k]|] eqn:E; [|contradiction].
  destruct P as (-> & -> & Eh & P). set (g := fun x => if x =? 2427 then 127 else h x) in *.
  destruct (run (nvm_get_state demo PUPDATE) g) as [r g'| |] eqn:R; try contradiction. subst r.
  exists demo, low_copy, [0x70; 0xF7], 0x30, g, 127, g'. split; [exact demo_geometry|]. split; [reflexivity|]. split; [exact low_copy_is|]. split; [lia|].
  split; [|split; [exact R|split; [discriminate|discriminate]]].
  apply (upto_cut _ _ _ _ _ _ _ _ E). pose proof (upto_reach _ _ _ _ _ _ _ E) as Cut.
  assert (Hb : bytes h).
  { destruct (wq_cut _ _ _ _ _ _ (code_wq demo PUPDATE low_copy (Some [0x70; 0xF7]) (SetState 0x30) demo_geometry eq_refl
      (starts_st _ _ low_copy (Some [0x70; 0xF7]) low_copy_is) ltac:(cbn [usable]; lia)) Cut) as ([T|] & _ & S).
    - destruct S as (_ & s & Kb & _). exact Kb.
    - exact (proj1 S). }
  split.
  - intro x. unfold g. destruct (x =? 2427); [unfold is_byte; lia|apply Hb].
  - intro x. unfold g. destruct (Z.eqb_spec x 2427) as [ -> |N].
    + change (inr 2304 128 2427) with true. cbn iota. exists 127. rewrite Eh. reflexivity.
    + destruct (inr 2304 128 x); [|reflexivity]. exists 0. symmetry. apply Z.lor_0_r.
Qed.
Print Assumptions C29_bit_tears_refuted.

(** Unlike on other flash (C07), triggering an update keeps the sector flags: a trailer that
    says sector 0 is done still says so after the trigger. *)
Theorem C29_trigger_clears_flags_refuted : exists c f T g, geometry c /\ aligned c PUPDATE /\ trailer_is c f PUPDATE T /\
  run (nvm_trigger c) f = Done tt g /\
  (exists g', run (nvm_get_state c PUPDATE) g = Done (Some ST_UPDATING) g') /\ exists g', run (nvm_get_flag c 0) g = Done (Some SF_SWAPPING) g'.
Proof.
  pose proof (h_start demo PUPDATE _ (Some [0x70; 0xF7]) low_copy_is) as H0.
  destruct (C29_atomic demo PUPDATE _ _ Trigger demo_geometry eq_refl H0 eq_refl) as ((g & R & H1) & _).
  exists demo, low_copy, [0x70; 0xF7], g. split; [exact demo_geometry|]. split; [reflexivity|]. split; [exact low_copy_is|]. split; [exact R|]. split.
  - destruct (C29_state demo PUPDATE g _ demo_geometry eq_refl H1) as (g' & R' & _). exists g'. exact R'.
  - destruct (C29_flag demo g _ 0 demo_geometry eq_refl H1 ltac:(lia) ltac:(vm_compute; discriminate)) as (g' & R' & _). exists g'. exact R'.
Qed.
Print Assumptions C29_trigger_clears_flags_refuted.
