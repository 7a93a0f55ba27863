(** What the boot routine checks before installing or booting anything. *)
From Verif Require Import Base BaseLemmas HeaderModel HeaderSpec HeaderProofs Flash FlashLemmas ImageModel
  ImageSpec ImageProofs GenuineProofs TrailerModel TrailerProofs TriggerProofs TrailerCrash SwapModel
  SwapSpec Geometry CopyProofs SwapInv SwapSteps SwapLoop SwapFinal SwapStart.
Local Ltac Zify.zify_post_hook ::= idtac.

(** ** Versions *)

Lemma version_val : forall c f p, bytes f -> hdr_small c ->
  exists v, get_image_version c f p = Val v /\ version_at c f (part_addr c p) v.
Proof.
  intros c f p Hb Hh. unfold get_image_version, version_at. cbn zeta.
  destruct (Z.eqb_spec (word f (part_addr c p)) WOLFBOOT_MAGIC) as [E|E]; cbn [negb]; [|exists 0; auto].
  destruct (get_header_val c f (part_addr c p) HDR_VERSION Hb Hh) as (r & Er & K). rewrite Er. cbn [obind].
  destruct r as [[off len]|]; [|exists 0; split; [reflexivity|right; left; auto]].
  destruct K as (d & K1 & K2 & K3 & _). unfold hdr_bytes in K1.
  destruct (Nat.eqb_spec len 0) as [->|Hl].
  - exists 0. split; [reflexivity|]. right; right. split; [exact E|]. exists off, d.
    split; [exact K1|]. destruct d; [reflexivity|discriminate].
  - eexists. split; [reflexivity|]. right; right. split; [exact E|]. exists off, d.
    split; [exact K1|]. destruct d; [cbn in K2; congruence|reflexivity].
Qed.

Lemma version_det : forall c f a v v', bytes f -> hdr_small c -> version_at c f a v -> version_at c f a v' -> v = v'.
Proof.
  intros c f a v v' Hb Hh. destruct (hdr_facts c f a Hb Hh) as (F1 & _ & F3). unfold hdr_bytes in F1, F3.
  unfold version_at. cbn zeta.
  intros [(A1 & A2)|[(A1 & A2 & A3)|(A1 & o & d & A2 & A3)]] [(B1 & B2)|[(B1 & B2 & B3)|(B1 & o' & d' & B2 & B3)]];
    try congruence.
  - exfalso. exact (field_none _ _ _ _ _ F1 F3 B2 A2).
  - exfalso. exact (field_none _ _ _ _ _ F1 F3 A2 B2).
  - destruct (field_det _ _ _ _ _ _ _ F1 F3 A2 B2) as (-> & ->). congruence.
Qed.

(** ** Verification of an opened image *)

Lemma verify_both_cases : forall c f p img, geometry c -> bytes f -> p <> PSWAP -> open_image c f p = (true, img) ->
  (verified c f (part_addr c p) /\ exists img',
     (forall t (Q : bool * image -> flash -> Prop) (C : flash -> Prop), C f -> Q (true, img') f ->
        wpc t (verify_both c img) Q C f) /\
     i_base img' = part_addr c p + HDR c /\ i_hdr_ok img' = true /\ i_sha_ok img' = true /\ i_sig_ok img' = true /\
     i_hdr img' = i_hdr img /\ i_size img' = i_size img) \/
  (~ verified c f (part_addr c p) /\ exists img', i_sig_ok img' = false /\
     (forall t (Q : bool * image -> flash -> Prop) (C : flash -> Prop), C f -> Q (false, img') f ->
        wpc t (verify_both c img) Q C f)).
Proof.
  intros c f p img G Hb Hp E.
  assert (Hh : hdr_small c) by (apply hs; exact G).
  destruct (open_image_ok c f p img Hb Hp E) as (H1 & H2 & H3 & H4 & H5 & H6 & H7 & H8 & H9).
  assert (Hok : i_hdr_ok img = true).
  { revert E. unfold open_image. destruct p; [| |congruence]; cbn zeta;
      (destruct (negb _); [discriminate|]); (destruct (_ >? _); [discriminate|]);
      intro E; injection E as <-; reflexivity. }
  assert (Hk : blk_ok c img) by (unfold blk_ok; destruct (g_blk c G); geo G; lia).
  assert (Efw : fw_bytes f img = rdl f (part_addr c p + HDR c) (Z.to_nat (word f (part_addr c p + 4))))
    by (unfold fw_bytes; rewrite H2, H3; reflexivity).
  unfold verify_both, integrity.
  destruct (verify_integrity_spec c f img Hb Hh Hk) as [(d & I & Ei)|(NI & Ei)].
  - rewrite H1, Efw in I. unfold hdr_bytes in I.
    set (img1 := mkImage (i_part img) (i_hdr img) (i_base img) (i_size img) (i_hdr_ok img) true (i_sig_ok img) (Some d)) in *.
    destruct (verify_authenticity_spec c f img1 d Hb Hh eq_refl H7) as [(A & Ea)|(NA & img2 & Ea & Es)].
    + left. split.
      * split; [exact H4|]. split; [lia|]. exists d. split; [exact I|].
        cbn [img1 i_hdr] in A. rewrite H1 in A. exact A.
      * exists (set_sig img1 true). split; [|cbn; auto 10].
        intros t Q C HC HQ. cbn [pure bind wpc]. rewrite Ei. cbn [bind wpc]. unfold authenticity.
        cbn [pure bind wpc]. rewrite Ea. cbn [bind wpc]. auto.
    + right. split.
      * intros (_ & _ & d' & I' & A'). apply NA. cbn [img1 i_hdr]. rewrite H1.
        destruct (hdr_facts c f (part_addr c p) Hb Hh) as (F1 & _ & F3). unfold hdr_bytes in F1, F3.
        destruct I as (o & I & _), I' as (o' & I' & _).
        destruct (field_det _ _ _ _ _ _ _ F1 F3 I I') as (_ & ->). exact A'.
      * exists img2. split; [exact Es|]. intros t Q C HC HQ. cbn [pure bind wpc]. rewrite Ei. cbn [bind wpc]. unfold authenticity.
        cbn [pure bind wpc]. rewrite Ea. cbn [bind wpc]. auto.
  - right. split.
    + intros (_ & _ & d' & I' & _). apply (NI d'). rewrite H1, Efw. exact I'.
    + exists img. split; [exact H7|]. intros t Q C HC HQ. cbn [pure bind wpc]. rewrite Ei. cbn [bind wpc]. auto.
Qed.

(** ** Refusing a candidate *)

Definition refused (c : cfg) (fallback : bool) (f : flash) : Prop :=
  forall t u, wpc t (update c u fallback) (fun b f' => b = false /\ f' = f) (fun f' => f' = f) f.

Lemma refuse_checks : forall t c fallback f ty, geometry c ->
  HDR c <= SECT c \/ word f (UPDATE c + 4) <= PART c - HDR c -> bytes f ->
  ~ acceptable c f fallback -> get_image_type c f PUPDATE = Val ty ->
  wpc t (update_checks c fallback (snd (open_image c f PUPDATE)) ty)
    (fun b f' => b = false /\ f' = f) (fun f' => f' = f) f.
Proof.
  intros t c fallback f ty G HS Hb Hna Ety.
  assert (Hh : hdr_small c) by (apply hs; exact G).
  assert (NU : PUPDATE <> PSWAP) by discriminate.
  unfold update_checks.
  destruct (Z.eqb_spec (Z.land ty TYPE_PART_MASK) TYPE_APP) as [T1|T1]; [|cbn; auto].
  destruct (Z.eqb_spec (Z.land ty TYPE_AUTH_MASK) (c_auth c)) as [T2|T2]; [|cbn; auto]. cbn [negb orb].
  destruct (Z.gtb_spec (i_size (snd (open_image c f PUPDATE))) (PART c - SECT c - 1)) as [S1|S1]; [cbn; auto|].
  destruct (open_image c f PUPDATE) as [ok im] eqn:Eo. cbn [snd] in *.
  destruct ok.
  2:{ exfalso. destruct (open_image_bad c f PUPDATE im NU Eo) as (_ & [Z0|Z0] & _ & _ & _ & [B|B]).
      - unfold get_image_type in Ety. apply Z.eqb_neq in B. rewrite B in Ety. cbn [negb] in Ety.
        injection Ety as <-. discriminate T1.
      - revert Eo. unfold open_image. destruct (Z.eqb_spec (word f (part_addr c PUPDATE)) WOLFBOOT_MAGIC) as [Em|Em]; cbn [negb].
        + unfold image_size. destruct (Z.gtb_spec (word f (part_addr c PUPDATE + 4)) (PART c - HDR c)); [|lia].
          intro Eo. injection Eo as <-. cbn [i_size part_addr] in *. geo G. lia.
        + unfold get_image_type in Ety. apply Z.eqb_neq in Em. rewrite Em in Ety. cbn [negb] in Ety.
          injection Ety as <-. discriminate T1.
      - unfold get_image_type in Ety. apply Z.eqb_neq in B. rewrite B in Ety. cbn [negb] in Ety.
        injection Ety as <-. discriminate T1.
      - cbn [part_addr] in B. geo G. lia. }
  destruct (i_hdr_ok im); cbn [negb]; [|cbn; auto].
  apply wpc_bind.
  destruct (verify_both_cases c f PUPDATE im G Hb NU Eo) as [(V & im' & W & _ & O1 & O2 & O3 & O4)|(V & im' & _ & W)].
  2:{ apply W; cbn; auto. }
  apply W; [reflexivity|]. cbn [negb]. unfold sanity. rewrite O1, O2, O3. cbn [andb negb].
  destruct (version_val c f PBOOT Hb Hh) as (v1 & E1 & V1).
  destruct (version_val c f PUPDATE Hb Hh) as (v2 & E2 & V2).
  cbn [pure bind wpc]. rewrite E1. cbn [pure bind wpc]. rewrite E2. cbn [wpc].
  split; [reflexivity|]. split; [|reflexivity].
  assert (Ht : type_ok c (UPDATE c) (rdl f (UPDATE c) (Z.to_nat (HDR c))) TYPE_APP).
  { destruct (type_cases c f (UPDATE c) Hb Hh) as [(off & Eg & P)|(NT & _)].
    - apply P. destruct V as (Vm & _). cbn [part_addr] in Vm. unfold get_image_type in Ety. cbn zeta in Ety. cbn [part_addr] in Ety.
      rewrite Vm, Z.eqb_refl in Ety. cbn [negb] in Ety. rewrite Eg in Ety. cbn [obind Nat.eqb] in Ety.
      injection Ety as Ety. rewrite Ety. auto.
    - exfalso. destruct V as (_ & _ & d & _ & (id & n & s & T & _)). exact (NT id T). }
  destruct (c_allow_downgrade c) eqn:Ead; [exfalso; apply Hna; split; [exact V|]; split; [exact Ht|auto]|].
  destruct fallback; [exfalso; apply Hna; split; [exact V|]; split; [exact Ht|auto]|].
  cbn [orb]. destruct (Z.ltb_spec v1 v2) as [L|L]; [|reflexivity].
  exfalso. apply Hna. split; [exact V|]. split; [exact Ht|]. right; right. exists v1, v2. auto.
Qed.

Lemma refuse : forall c fallback f, geometry c ->
  HDR c <= SECT c \/ word f (UPDATE c + 4) <= PART c - HDR c -> bytes f -> flag_of c f 0 = SF_NEW ->
  ~ acceptable c f fallback -> refused c fallback f.
Proof.
  intros c fallback f G HS Hb Hfl Hna t u.
  assert (Hh : hdr_small c) by (apply hs; exact G).
  unfold update. cbn [wpc]. cbn zeta.
  destruct (get_total_size _ _ _ <=? HDR c); [cbn [wpc]; auto|].
  destruct (get_type_val c f PUPDATE Hb Hh) as (ty & Ety).
  cbn [pure bind wpc]. rewrite Ety. cbn [bind get wpc].
  change (match get_update_sector_flag c f 0 with Some fl => fl | None => SF_NEW end) with (flag_of c f 0).
  rewrite Hfl, Z.eqb_refl. apply wpc_bind.
  eapply wpc_post; [apply (refuse_checks t c fallback f ty G HS Hb Hna Ety)|].
  cbn beta. intros b f' _ (-> & ->). cbn [negb wpc]. auto.
Qed.

(** ** What was booted *)

(** Programs that keep every cell a byte. *)
Definition keeps {A} (p : prog A) : Prop :=
  forall f, bytes f -> match run p f with Done _ f' => bytes f' | Panicked f' => bytes f' | Wrong => True end.

Lemma keeps_ret : forall {A} (a : A), keeps (Ret a).
Proof. intros A a f H. exact H. Qed.
Lemma keeps_panic : forall {A}, keeps (@Panic A).
Proof. intros A f H. exact H. Qed.
Lemma keeps_stuck : forall {A}, keeps (@Stuck A).
Proof. intros A f H. exact I. Qed.
Lemma keeps_rd : forall {A} (r : flash -> prog A), (forall f, keeps (r f)) -> keeps (Rd r).
Proof. intros A r H f Hb. cbn [run]. apply H, Hb. Qed.
Lemma keeps_er : forall {A} a n (p : prog A), keeps p -> keeps (Er a n p).
Proof. intros A a n p H f Hb. cbn [run]. apply H, bytes_erase, Hb. Qed.
Lemma keeps_wr : forall {A} a n d (p : prog A), (forall i, 0 <= d i) -> keeps p -> keeps (Wr a n d p).
Proof. intros A a n d p Hd H f Hb. cbn [run]. apply H, bytes_write; auto. Qed.
Lemma keeps_bind : forall {A B} (p : prog A) (k : A -> prog B), keeps p -> (forall a, keeps (k a)) -> keeps (bind p k).
Proof.
  intros A B p k Hp Hk f Hb. rewrite run_bind. specialize (Hp f Hb).
  destruct (run p f) as [a f'|f'|]; auto. apply Hk, Hp.
Qed.
Lemma keeps_pure : forall {A} (g : flash -> out A), keeps (pure g).
Proof. intros A g. apply keeps_rd. intro f. destruct (g f); [apply keeps_ret|apply keeps_stuck|apply keeps_stuck]. Qed.
Lemma keeps_get : forall {A} (g : flash -> A), keeps (get g).
Proof. intros. apply keeps_rd. intro. apply keeps_ret. Qed.

Lemma keeps_copy_loop : forall fuel c s d so l p, keeps (copy_loop fuel c s d so l p).
Proof.
  induction fuel as [|fuel IH]; intros; cbn [copy_loop]; destruct (_ <? _); try apply keeps_ret; try apply keeps_stuck.
  apply keeps_bind; [|intro; apply IH].
  destruct (_ <? _); [|apply keeps_ret]. intros f Hb. cbn [run]. apply bytes_write; [exact Hb|].
  intros i Hi. apply (Hb (s + p + i)).
Qed.
Lemma keeps_copy : forall c s d k, keeps (copy_sector c s d k).
Proof. intros. unfold copy_sector. apply keeps_er, keeps_copy_loop. Qed.
Lemma magic_byte_nonneg : forall i, 0 <= magic_byte i.
Proof.
  intro i. unfold magic_byte, le_bytes. set (n := Z.to_nat i).
  destruct n as [|[|[|[|n]]]]; cbn [nth]; try (vm_compute; discriminate); destruct n; vm_compute; discriminate.
Qed.
Lemma keeps_magic : forall c p, keeps (set_partition_magic c p).
Proof. intros. unfold set_partition_magic. apply keeps_wr; [apply magic_byte_nonneg|apply keeps_ret]. Qed.
Lemma keeps_state : forall c p v, 0 <= v -> keeps (set_partition_state c p v).
Proof.
  intros. unfold set_partition_state. apply keeps_bind; [apply keeps_bind; [apply keeps_get|intros []; [apply keeps_ret|apply keeps_magic]]|].
  intros _. apply keeps_bind; [apply keeps_get|]. intro st. destruct (_ =? _); [apply keeps_ret|].
  apply keeps_wr; [auto|apply keeps_ret].
Qed.
Lemma keeps_flag : forall c s v, 0 <= v -> keeps (set_update_sector_flag c s v).
Proof.
  intros c s v Hv. unfold set_update_sector_flag. cbn zeta.
  apply keeps_bind; [apply keeps_bind; [apply keeps_get|intros []; [apply keeps_ret|apply keeps_magic]]|].
  intros _ f Hb. unfold get. cbn [bind run].
  match goal with |- context [set_trailer_at _ _ _ ?v] => set (w := v); destruct (w =? f (flags_addr c (flag_pos s))) end; [exact Hb|].
  unfold set_trailer_at. cbn [run]. apply bytes_write; [exact Hb|]. intros i Hi.
  pose proof (Hb (flags_addr c (flag_pos s))) as (L & _).
  unfold w. destruct (flag_low s); apply Z.lor_nonneg; split; try apply Z.shiftl_nonneg; apply Z.land_nonneg; lia.
Qed.
Lemma keeps_store : forall c s v, 0 <= v -> keeps (store_flag c s v).
Proof. intros. unfold store_flag. destruct (_ <? _); [apply keeps_flag; auto|apply keeps_ret]. Qed.

Lemma keeps_sector : forall c b u w s fl, keeps (swap_sector c b u w s fl).
Proof.
  intros. unfold swap_sector, swap_new, swap_swapping, swap_backup.
  repeat match goal with |- keeps (if ?b then _ else _) => destruct b end;
  repeat (apply keeps_bind; [first [apply keeps_copy | apply keeps_store; (unfold SF_SWAPPING, SF_BACKUP, SF_UPDATED; lia)]|intros _]);
  first [apply keeps_store; (unfold SF_SWAPPING, SF_BACKUP, SF_UPDATED; lia) | apply keeps_ret].
Qed.

Lemma keeps_loop : forall fuel c b u w t s, keeps (swap_loop fuel c b u w t s).
Proof.
  induction fuel as [|fuel IH]; intros; cbn [swap_loop]; destruct (_ <? _); try apply keeps_ret; try apply keeps_stuck.
  apply keeps_bind; [apply keeps_get|]. intro fl. apply keeps_bind; [apply keeps_sector|]. intros _. cbn zeta.
  destruct (_ =? _); [apply keeps_rd; intro; apply IH|apply IH].
Qed.
Lemma keeps_rest : forall fuel c b u s, keeps (erase_rest fuel c b u s).
Proof.
  induction fuel as [|fuel IH]; intros; cbn [erase_rest]; destruct (_ <? _); try apply keeps_ret; try apply keeps_stuck.
  apply keeps_er, keeps_er, IH.
Qed.
Lemma keeps_final : forall c u r, keeps (swap_and_final_erase c u r).
Proof.
  intros. unfold swap_and_final_erase. apply keeps_rd. intro f. cbn zeta.
  destruct (_ && _); [apply keeps_ret|].
  apply keeps_bind.
  - destruct (negb _); [|apply keeps_ret]. apply keeps_bind; [apply keeps_copy|intros _; apply keeps_state; unfold ST_FINAL; lia].
  - intros _. apply keeps_er. apply keeps_bind; [destruct (_ <? _); [apply keeps_copy|apply keeps_er, keeps_ret]|].
    intros _. apply keeps_bind; [apply keeps_state; unfold ST_TESTING; lia|]. intros _. apply keeps_er, keeps_ret.
Qed.
Lemma keeps_verify : forall c im, keeps (verify_both c im).
Proof.
  intros. unfold verify_both, integrity, authenticity. apply keeps_bind; [apply keeps_pure|].
  intros [ok im1]. destruct ok; [|apply keeps_ret]. apply keeps_bind; [apply keeps_pure|].
  intros [[] im2]; try apply keeps_ret; apply keeps_panic.
Qed.
Lemma keeps_checks : forall c fb im ty, keeps (update_checks c fb im ty).
Proof.
  intros. unfold update_checks. destruct (_ || _); [apply keeps_ret|]. destruct (_ >? _); [apply keeps_ret|].
  destruct (negb _); [apply keeps_ret|]. apply keeps_bind; [apply keeps_verify|]. intros [ok im'].
  destruct (negb ok); [apply keeps_ret|]. destruct (negb _); [apply keeps_panic|].
  apply keeps_bind; [apply keeps_pure|]. intro. apply keeps_bind; [apply keeps_pure|]. intro. apply keeps_ret.
Qed.
Lemma keeps_update : forall c u fb, keeps (update c u fb).
Proof.
  intros. unfold update. apply keeps_rd. intro f. cbn zeta. destruct (_ <=? _); [apply keeps_ret|].
  apply keeps_bind; [apply keeps_pure|]. intro ty. apply keeps_bind; [apply keeps_get|]. intro fl.
  apply keeps_bind; [destruct (_ =? _); [apply keeps_checks|apply keeps_ret]|]. intro go.
  destruct (negb go); [apply keeps_ret|]. apply keeps_bind; [apply keeps_loop|]. intro s.
  apply keeps_bind; [apply keeps_rest|]. intros _. apply keeps_bind; [apply keeps_final|]. intros _. apply keeps_ret.
Qed.

(** A run that ends normally went through a successful verification. *)
Lemma open_and_verify_true : forall c f ok im f', geometry c -> bytes f ->
  run (open_and_verify c PBOOT) f = Done (ok, im) f' ->
  f' = f /\ (ok = true -> verified c f (BOOT c) /\ i_base im = BOOT c + HDR c) /\
  (sanity im = true -> ok = true).
Proof.
  intros c f ok im f' G Hb E. unfold open_and_verify in E. cbn [get bind run] in E.
  assert (NB : PBOOT <> PSWAP) by discriminate.
  destruct (open_image c f PBOOT) as [o im0] eqn:Eo. destruct o.
  - destruct (verify_both_cases c f PBOOT im0 G Hb NB Eo) as [(V & im' & W & O0 & O1 & O2 & O3 & O4)|(V & im' & Sg & W)].
    + specialize (W {| atomic_erase := fun _ => True; guarded := fun _ => True |}
        (fun r g => r = (true, im') /\ g = f) (fun _ => True) I (conj eq_refl eq_refl)).
      apply wpc_run in W. destruct W as (a & g & Er & (-> & ->) & _). rewrite Er in E. inversion E; subst.
      split; [reflexivity|]. auto.
    + specialize (W {| atomic_erase := fun _ => True; guarded := fun _ => True |}
        (fun r g => r = (false, im') /\ g = f) (fun _ => True) I (conj eq_refl eq_refl)).
      apply wpc_run in W. destruct W as (a & g & Er & (-> & ->) & _). rewrite Er in E. inversion E; subst.
      split; [reflexivity|]. split; [discriminate|]. unfold sanity. rewrite Sg, andb_false_r. discriminate.
  - cbn [run] in E. inversion E; subst. split; [reflexivity|]. split; [discriminate|].
    destruct (open_image_bad c f' PBOOT im NB Eo) as (_ & _ & Z1 & _). unfold sanity. rewrite Z1, andb_false_r. discriminate.
Qed.

Lemma boot_stage_verified : forall c upd f r f', geometry c -> bytes f -> keeps upd ->
  run (boot_stage c upd) f = Done r f' -> verified c f' (BOOT c) /\ r = BOOT c + HDR c.
Proof.
  intros c upd f r f' G Hb Hk E. unfold boot_stage in E. rewrite run_bind in E.
  destruct (run (open_and_verify c PBOOT) f) as [[ok im] f1|f1|] eqn:E1; try discriminate.
  destruct (open_and_verify_true c f ok im f1 G Hb E1) as (-> & V & S). rewrite run_bind in E.
  destruct ok.
  - cbn [run] in E. destruct (sanity im); cbn [run] in E; [|discriminate]. inversion E; subst. apply V. reflexivity.
  - rewrite run_bind in E. specialize (Hk f Hb). destruct (run upd f) as [b f2|f2|]; try discriminate.
    destruct b; cbn [negb] in E; [|discriminate]. rewrite run_bind in E.
    destruct (run (open_and_verify c PBOOT) f2) as [[ok2 im2] f3|f3|] eqn:E2; try discriminate.
    destruct (open_and_verify_true c f2 ok2 im2 f3 G Hk E2) as (-> & V2 & S2).
    destruct ok2; cbn [run] in E; [|discriminate]. destruct (sanity im2); cbn [run] in E; [|discriminate].
    inversion E; subst. apply V2. reflexivity.
Qed.

Lemma start_verified : forall c u f r f', geometry c -> bytes f -> run (start c u) f = Done r f' ->
  verified c f' (BOOT c) /\ r = BOOT c + HDR c.
Proof.
  intros c u f r f' G Hb E. unfold start in E. cbn [get bind run] in E. rewrite run_bind in E.
  pose proof (keeps_final c (u 0%nat) true f Hb) as K0.
  destruct (run (swap_and_final_erase c (u 0%nat) true) f) as [b f1|f1|]; try discriminate.
  rewrite run_bind in E.
  match type of E with match run ?p f1 with _ => _ end = _ => assert (K : keeps p) end.
  { destruct b; [apply keeps_ret|].
    repeat match goal with |- keeps (if ?b then _ else _) => destruct b end;
      try apply keeps_ret; (apply keeps_bind; [apply keeps_update|intro; apply keeps_ret]). }
  specialize (K f1 K0).
  match type of E with match run ?p f1 with _ => _ end = _ => destruct (run p f1) as [[] f2|f2|] end; try discriminate.
  eapply boot_stage_verified; [exact G|exact K|apply keeps_update|exact E].
Qed.
