(** Proofs about boot selection by version. *)
From Verif Require Import Base BaseLemmas HeaderModel HeaderSpec HeaderProofs Flash FlashLemmas ImageModel ImageSpec ImageProofs GenuineProofs
  TrailerModel TrailerProofs TriggerProofs TrailerCrash SwapModel SwapSpec Geometry CopyProofs SwapInv SwapSteps SwapLoop SwapFinal
  SwapStart RefuseProofs HistoryProofs DualModel DualSpec.
Local Ltac Zify.zify_post_hook ::= idtac.

(** ** Stored images at any address *)

Lemma genuine_verified : forall c f a X v, bytes f -> hdr_small c -> 0 <= SECT c -> Z.odd a = false -> genuine c X v ->
  holds f a X -> verified c f a.
Proof.
  intros c f a X v Hb Hh Hs Ho GX Hold.
  assert (L : 8 <= HDR c < zlen X) by (destruct GX, Hh; lia).
  assert (EH : hdr_bytes c f a = hdr_of c X) by (apply holds_hdr; [exact Hold|lia]).
  assert (B : all_bytes (hdr_of c X) /\ zlen (hdr_of c X) < 65544).
  { rewrite <- EH. destruct (hdr_facts c f a Hb Hh) as (A & _ & B). auto. }
  destruct B as (B1 & B2).
  assert (Em : word f a = WOLFBOOT_MAGIC).
  { rewrite <- (gn_magic _ _ _ GX), word_rdl, <- sub_0.
    rewrite <- (holds_sub f a) by (unfold zlen in *; auto; lia). do 2 f_equal. lia. }
  assert (Es : word f (a + 4) = zlen X - HDR c).
  { rewrite <- (gn_size _ _ _ GX), word_rdl. rewrite <- (holds_sub f a) by (unfold zlen in *; auto; lia). reflexivity. }
  split; [exact Em|]. split; [rewrite Es; pose proof (gn_fit _ _ _ GX); lia|].
  destruct (gn_signed _ _ _ GX) as (d & I & S). exists d.
  fold (hdr_bytes c f a). rewrite EH. split.
  - replace (rdl f (a + HDR c) (Z.to_nat (word f (a + 4)))) with (fw_of c X).
    + apply (intact_parity c 0); [symmetry; exact Ho|exact I].
    + unfold fw_of. rewrite Es.
      replace (a + HDR c) with (a + Z.of_nat (Z.to_nat (HDR c))) by lia.
      rewrite (holds_sub f a X) by (unfold zlen in *; auto; lia). symmetry. apply sub_all. unfold zlen in *. lia.
  - destruct S as (n & off & s & T & Gn & Fs & Ls & V & Hy).
    assert (PS : forall ty n off s, field_at 0 (hdr_of c X) ty off s -> length s = n -> presented f a (hdr_of c X) ty n s).
    { intros ty n0 off0 s0 F0 L0. left. exists off0, s0. destruct (field_find _ _ _ _ _ B1 B2 F0) as (E & S).
      split; [apply (field_parity 0); [symmetry; exact Ho|exact F0]|].
      destruct (find_header_safe 0 (hdr_of c X) ty B1) as (r & E' & Hsafe). rewrite E in E'.
      injection E' as <-. destruct (Hsafe _ _ eq_refl) as (_ & Hle).
      rewrite <- EH in S, Hle. unfold hdr_bytes in S, Hle. rewrite length_rdl in Hle.
      rewrite rdl_sub in S by exact Hle. rewrite <- L0. symmetry. exact S. }
    exists TYPE_APP, n, s.
    split; [apply (type_parity c 0); [symmetry; exact Ho|exact T]|].
    split; [apply (signer_parity c 0); [symmetry; exact Ho|exact Gn]|].
    split; [eapply PS; eauto|]. split; [exact V|].
    intro H. destruct (Hy H) as (n2 & off2 & s2 & G2 & F2 & L2 & V2). exists n2, s2.
    split; [apply (signer_parity c 0); [symmetry; exact Ho|exact G2]|].
    split; [eapply PS; eauto|exact V2].
Qed.

(** ** Versions *)

Lemma word_nonneg : forall f a, bytes f -> 0 <= word f a.
Proof.
  intros f a Hb. unfold word, le32. pose proof (Hb a). pose proof (Hb (a + 1)). pose proof (Hb (a + 2)). pose proof (Hb (a + 3)).
  unfold is_byte in *. lia.
Qed.

Lemma version_nonneg : forall c f p v, bytes f -> version c f p v -> 0 <= v.
Proof.
  intros c f p v Hb [(_ & ->)|[(_ & _ & ->)|(_ & off & d & _ & ->)]]; try lia.
  destruct d; [lia|apply word_nonneg, Hb].
Qed.

Lemma version_read : forall c f p, geometry c -> bytes f -> exists v, get_image_version c f p = Val v /\ version c f p v /\ 0 <= v.
Proof.
  intros c f p G Hb. destruct (version_val c f p Hb (hs c G)) as (v & E & V). exists v. split; [exact E|]. split; [exact V|].
  eapply version_nonneg; eauto.
Qed.

Lemma version_eq : forall c f p v w, geometry c -> bytes f -> version c f p v -> version c f p w -> v = w.
Proof. intros c f p v w G Hb. apply version_det; [exact Hb|apply hs, G]. Qed.

(** ** C32 *)

Lemma candidate_run : forall c f, geometry c -> bytes f ->
  exists r f', run (dualboot_candidate c) f = Done r f' /\ candidate c f r f' /\ bytes f'.
Proof.
  intros c f G Hb. destruct (version_read c f PBOOT G Hb) as (v & Ev & V & Hv). destruct (version_read c f PUPDATE G Hb) as (w & Ew & W & Hw).
  unfold dualboot_candidate. cbn [pure bind run]. rewrite Ev. cbn [bind run pure]. rewrite Ew. cbn [bind run].
  destruct ((v =? 0) && (w =? 0)) eqn:E0.
  { apply andb_true_iff in E0. exists None, f. cbn [run]. split; [reflexivity|]. split; [|exact Hb].
    assert (v = 0) as -> by lia. assert (w = 0) as -> by lia. apply ca_none; assumption. }
  apply andb_false_iff in E0. cbn zeta.
  set (p := if v =? 0 then PUPDATE else if (v >? 0) && (w >? 0) && (w >? v) then PUPDATE else PBOOT).
  set (fb := negb (v =? 0) && ((v >? 0) && (w >? 0))).
  assert (P : preferred c f p).
  { unfold p. destruct (Z.eqb_spec v 0) as [Z0|Z0].
    - split; [discriminate|]. exists w, v. cbn [other]. split; [exact W|]. split; [exact V|]. lia.
    - destruct (Z.gtb_spec w v) as [L|L].
      + replace ((v >? 0) && (w >? 0)) with true by (symmetry; apply andb_true_iff; split; apply Z.gtb_lt; lia). cbn [andb].
        split; [discriminate|]. exists w, v. cbn [other]. split; [exact W|]. split; [exact V|]. lia.
      + rewrite andb_false_r. split; [discriminate|]. exists v, w. cbn [other]. split; [exact V|]. split; [exact W|]. split; [lia|].
        destruct (Z.eq_dec w v); [right; auto|left; lia]. }
  assert (FB : fb = true <-> exists w', version c f (other p) w' /\ 0 < w').
  { unfold fb, p in *. destruct (Z.eqb_spec v 0) as [Z0|Z0]; cbn [negb andb].
    - cbn [other]. split; [discriminate|]. intros (w' & W' & L). pose proof (version_eq _ _ _ _ _ G Hb V W'). lia.
    - assert ((v >? 0) = true) as -> by (apply Z.gtb_lt; lia). cbn [andb].
      destruct ((w >? 0) && (w >? v)) eqn:E.
      + apply andb_true_iff in E. rewrite (proj1 E). cbn [other]. split; [intros _|reflexivity]. exists v. split; [exact V|lia].
      + cbn [other]. split.
        * intro L. apply Z.gtb_lt in L. exists w. auto.
        * intros (w' & W' & L). pose proof (version_eq _ _ _ _ _ G Hb W W'). apply Z.gtb_lt. lia. }
  cbn [get bind run].
  destruct (fb && match get_partition_state c f p with Some s => s =? ST_TESTING | None => false end) eqn:E.
  - apply andb_true_iff in E. destruct E as (E1 & E2). rewrite run_bind.
    assert (p <> PSWAP) as Np by apply P.
    unfold erase_partition. cbn [run].
    replace (match p with PSWAP => SECT c | _ => PART c end) with (PART c) by (destruct p; congruence).
    exists (Some (other p)), (erase f (part_addr c p) (PART c)). split; [reflexivity|]. split; [|apply bytes_erase, Hb].
    apply ca_drop; [exact P|]. split; [|apply FB, E1].
    destruct (get_partition_state c f p) as [s|]; [|discriminate]. apply Z.eqb_eq in E2. congruence.
  - exists (Some p), f. cbn [run]. split; [reflexivity|]. split; [|exact Hb]. apply ca_keep; [exact P|].
    intros (D1 & D2). apply FB in D2. rewrite D2, D1, Z.eqb_refl in E. discriminate.
Qed.

Lemma fallback_run : forall c f, geometry c -> bytes f ->
  (fallback_is_possible c f = Val true /\ two_images c f) \/ (fallback_is_possible c f = Val false /\ ~ two_images c f).
Proof.
  intros c f G Hb. destruct (version_read c f PBOOT G Hb) as (v & Ev & V & Hv). destruct (version_read c f PUPDATE G Hb) as (w & Ew & W & Hw).
  unfold fallback_is_possible. rewrite Ev. cbn [obind]. rewrite Ew. cbn [obind].
  destruct (Z.eqb_spec v 0) as [Zv|Zv]; [|destruct (Z.eqb_spec w 0) as [Zw|Zw]]; cbn [orb negb].
  - right. split; [reflexivity|]. intros (v' & w' & V' & W' & L1 & L2). pose proof (version_eq _ _ _ _ _ G Hb V V'). lia.
  - right. split; [reflexivity|]. intros (v' & w' & V' & W' & L1 & L2). pose proof (version_eq _ _ _ _ _ G Hb W W'). lia.
  - left. split; [reflexivity|]. exists v, w. split; [exact V|]. split; [exact W|]. lia.
Qed.

(** ** Verification of a partition *)

Lemma ov_cases : forall c f p, geometry c -> bytes f -> p <> PSWAP ->
  exists im, (verified c f (part_addr c p) /\ run (open_and_verify c p) f = Done (true, im) f) \/
    (~ verified c f (part_addr c p) /\ run (open_and_verify c p) f = Done (false, im) f).
Proof.
  intros c f p G Hb Hp. unfold open_and_verify. cbn [get bind run].
  destruct (open_image c f p) as [o im] eqn:Eo. destruct o.
  - destruct (verify_both_cases c f p im G Hb Hp Eo) as [(V & im' & W & _)|(V & im' & _ & W)]; exists im'; [left|right]; (split; [exact V|]).
    + specialize (W {| atomic_erase := fun _ => True; guarded := fun _ => True |}
        (fun r g => r = (true, im') /\ g = f) (fun _ => True) I (conj eq_refl eq_refl)).
      apply wpc_run in W. destruct W as (a & g & Er & (-> & ->) & _). exact Er.
    + specialize (W {| atomic_erase := fun _ => True; guarded := fun _ => True |}
        (fun r g => r = (false, im') /\ g = f) (fun _ => True) I (conj eq_refl eq_refl)).
      apply wpc_run in W. destruct W as (a & g & Er & (-> & ->) & _). exact Er.
  - exists im. right. split; [|reflexivity]. intros (V1 & V2 & _).
    destruct (open_image_bad c f p im Hp Eo) as (_ & _ & _ & _ & _ & [X|X]); [congruence|lia].
Qed.

Lemma erased_version : forall c f p, geometry c -> p <> PSWAP -> version c (erase f (part_addr c p) (PART c)) p 0.
Proof.
  intros c f p G Hp. left. split; [|reflexivity].
  assert (E : forall i, 0 <= i < 4 -> erase f (part_addr c p) (PART c) (part_addr c p + i) = 255).
  { intros i Hi. unfold erase. replace (inr (part_addr c p) (PART c) (part_addr c p + i)) with true; [reflexivity|].
    symmetry. apply inr_true. geo G. lia. }
  unfold word. pose proof (E 0) as E0. rewrite Z.add_0_r in E0. rewrite E0, (E 1), (E 2), (E 3) by lia. discriminate.
Qed.

Lemma other_swap : forall p, other p <> PSWAP.
Proof. intros []; discriminate. Qed.

Lemma erased_one : forall c f p, geometry c -> bytes f -> p <> PSWAP -> ~ two_images c (erase f (part_addr c p) (PART c)).
Proof.
  intros c f p G Hb Hp (v & w & V & W & L1 & L2). pose proof (erased_version c f p G Hp) as E.
  assert (Hb' : bytes (erase f (part_addr c p) (PART c))) by apply bytes_erase, Hb.
  destruct p; [pose proof (version_eq _ _ _ _ _ G Hb' V E)|pose proof (version_eq _ _ _ _ _ G Hb' W E)|congruence]; lia.
Qed.

(** ** C28 *)

Lemma hw_loop_run : forall c f p, geometry c -> bytes f -> p <> PSWAP ->
  exists r f', hw_choice c f p r f' /\ bytes f' /\ (forall q, r = Some q -> q <> PSWAP /\ verified c f' (part_addr c q)) /\
    run (hw_loop 3 c p) f = match r with Some q => Done q f' | None => Panicked f' end.
Proof.
  intros c f p G Hb Hp. cbn [hw_loop]. rewrite run_bind.
  destruct (ov_cases c f p G Hb Hp) as (im & [(V & ->)|(V & ->)]).
  { exists (Some p), f. split; [apply hw_first, V|]. split; [exact Hb|]. split; [intros q E; injection E as <-; auto|reflexivity]. }
  rewrite run_bind. unfold pure. cbn [run].
  destruct (fallback_run c f G Hb) as [(E & T)|(E & T)]; rewrite E; cbn [run negb].
  2:{ exists None, f. split; [apply hw_no_backup; assumption|]. split; [exact Hb|]. split; [discriminate|reflexivity]. }
  rewrite run_bind. unfold erase_partition at 1. cbn [run].
  replace (match p with PSWAP => SECT c | _ => PART c end) with (PART c) by (destruct p; congruence).
  set (f1 := erase f (part_addr c p) (PART c)). assert (Hb1 : bytes f1) by apply bytes_erase, Hb.
  rewrite run_bind.
  destruct (ov_cases c f1 (other p) G Hb1 (other_swap p)) as (im1 & [(V1 & ->)|(V1 & ->)]).
  { exists (Some (other p)), f1. split; [apply hw_second; assumption|]. split; [exact Hb1|].
    split; [intros q Eq; injection Eq as <-; split; [apply other_swap|exact V1]|reflexivity]. }
  rewrite run_bind. unfold pure. cbn [run].
  destruct (fallback_run c f1 G Hb1) as [(E1 & T1)|(E1 & T1)]; rewrite E1; cbn [run negb].
  { exfalso. apply (erased_one c f p G Hb Hp T1). }
  exists None, f1. split; [apply hw_both_bad; assumption|]. split; [exact Hb1|]. split; [discriminate|reflexivity].
Qed.

Lemma start_trial_run : forall c f p, geometry c -> bytes f ->
  exists f', run (start_trial c p) f = Done tt f' /\ started c p f f' /\ bytes f'.
Proof.
  intros c f p G Hb. unfold start_trial. cbn [get bind run].
  destruct (get_partition_state c f p) as [s|] eqn:E.
  - destruct (Z.eqb_spec s ST_UPDATING) as [->|N].
    + assert (M : has_magic c f p = true) by (unfold get_partition_state in E; destruct (has_magic c f p); [reflexivity|discriminate]).
      assert (Es : f (state_addr c p) = ST_UPDATING) by (unfold get_partition_state in E; rewrite M in E; injection E as E; exact E).
      set (f' := write f (trailer_addr c p 1) 1 (fun _ => ST_TESTING)).
      assert (O : forall x, x <> state_addr c p -> f' x = f x).
      { intros x Hx. unfold f', write. replace (inr (trailer_addr c p 1) 1 x) with false; [reflexivity|].
        symmetry. apply inr_false. unfold state_addr in Hx. lia. }
      assert (Hb' : bytes f') by (apply bytes_write; [exact Hb|unfold ST_TESTING; lia]).
      exists f'. split; [|split; [|exact Hb']].
      * unfold set_partition_state. cbn [get bind run]. rewrite M. cbn [bind run get]. rewrite Es.
        change (ST_UPDATING =? ST_TESTING) with false. cbn iota. reflexivity.
      * left. split; [exact E|]. split; [|exact O].
        assert (M' : has_magic c f' p = true).
        { unfold has_magic in *. rewrite <- M. f_equal. apply word_ext. intros j Hj. apply O. unfold state_addr, magic_addr, trailer_addr. lia. }
        unfold get_partition_state. rewrite M'. f_equal. unfold f', write.
        replace (inr (trailer_addr c p 1) 1 (state_addr c p)) with true by (symmetry; apply inr_true; unfold state_addr; lia).
        rewrite Es. reflexivity.
    + exists f. cbn [run]. split; [reflexivity|]. split; [|exact Hb]. right. split; [congruence|reflexivity].
  - exists f. cbn [run]. split; [reflexivity|]. split; [|exact Hb]. right. split; [congruence|reflexivity].
Qed.

(** ** C27 *)

Lemma authenticity_keeps : forall c f img r img', verify_authenticity c f img = Val (r, img') ->
  i_hdr img' = i_hdr img /\ i_hdr_ok img' = i_hdr_ok img.
Proof.
  intros c f img r img'. unfold verify_authenticity, obind. cbn zeta.
  repeat match goal with
  | |- Val (_, _) = Val (_, _) -> _ => intro E; injection E as <- <-; split; reflexivity
  | |- UB = _ -> _ => discriminate
  | |- NoFuel = _ -> _ => discriminate
  | |- context [match ?x with _ => _ end] => destruct x
  end.
Qed.

Lemma verify_ram_run : forall c m img f, geometry c -> bytes m -> i_base img = i_hdr img + HDR c ->
  i_size img = word m (i_hdr img + 4) -> word m (i_hdr img) = WOLFBOOT_MAGIC -> i_size img <= PART c - HDR c -> i_sig_ok img = false ->
  exists im, i_hdr im = i_hdr img /\ i_hdr_ok im = i_hdr_ok img /\
   ((verified c m (i_hdr img) /\ run (verify_ram c m img) f = Done (true, im) f) \/
    (~ verified c m (i_hdr img) /\ i_sig_ok im = false /\ run (verify_ram c m img) f = Done (false, im) f)).
Proof.
  intros c m img f G Hb H2 H3 H4 H5 H7.
  assert (Hh : hdr_small c) by (apply hs; exact G).
  assert (Hn : 0 <= i_size img) by (rewrite H3; apply word_nonneg, Hb).
  assert (Hk : blk_ok c img) by (unfold blk_ok; destruct (g_blk c G); geo G; lia).
  assert (Efw : fw_bytes m img = rdl m (i_hdr img + HDR c) (Z.to_nat (word m (i_hdr img + 4))))
    by (unfold fw_bytes; rewrite H2, H3; reflexivity).
  unfold verify_ram, pure. cbn [bind run].
  destruct (verify_integrity_spec c m img Hb Hh Hk) as [(d & I & Ei)|(NI & Ei)]; rewrite Ei; cbn [bind run].
  - rewrite Efw in I. unfold hdr_bytes in I.
    set (img1 := mkImage (i_part img) (i_hdr img) (i_base img) (i_size img) (i_hdr_ok img) true (i_sig_ok img) (Some d)) in *.
    destruct (verify_authenticity_spec c m img1 d Hb Hh eq_refl H7) as [(A & Ea)|(NA & img2 & Ea & Es)]; rewrite Ea; cbn [bind run].
    + exists (set_sig img1 true). split; [reflexivity|]. split; [reflexivity|]. left. split; [|reflexivity].
      split; [exact H4|]. split; [lia|]. exists d. split; [exact I|exact A].
    + exists img2.
      assert (K : i_hdr img2 = i_hdr img1 /\ i_hdr_ok img2 = i_hdr_ok img1) by (eapply authenticity_keeps; exact Ea).
      destruct K as (K1 & K2). split; [exact K1|]. split; [exact K2|]. right. split; [|split; [exact Es|reflexivity]].
      intros (_ & _ & d' & I' & A'). apply NA. cbn [img1 i_hdr].
      destruct (hdr_facts c m (i_hdr img) Hb Hh) as (F1 & _ & F3). unfold hdr_bytes in F1, F3.
      destruct I as (o & I & _), I' as (o' & I' & _).
      destruct (field_det _ _ _ _ _ _ _ F1 F3 I I') as (_ & ->). exact A'.
  - exists img. split; [reflexivity|]. split; [reflexivity|]. right. split; [|split; [exact H7|reflexivity]].
    intros (_ & _ & d' & I' & _). apply (NI d'). rewrite Efw. exact I'.
Qed.

Lemma nth_firstn_lt : forall (l : list Z) n i d, (i < n)%nat -> nth i l d = nth i (firstn n l) d.
Proof. induction l as [|x l IH]; intros [|n] [|i] d Hi; cbn; try lia; try reflexivity. apply IH. lia. Qed.

Lemma genuine_version : forall c m a X v w, bytes m -> hdr_small c -> Z.odd a = false -> genuine c X v ->
  (forall i, 0 <= i < HDR c -> m (a + i) = nth (Z.to_nat i) X 0) -> version_at c m a w -> w = v.
Proof.
  intros c m a X v w Hb Hh Ho GX Hold V.
  assert (L : 8 <= HDR c < zlen X) by (destruct GX, Hh; lia).
  assert (Hold' : holds m a (hdr_of c X)).
  { intros i Hi. unfold hdr_of, zlen in *. rewrite firstn_length in Hi. rewrite Hold by lia.
    apply nth_firstn_lt. lia. }
  assert (EL : zlen (hdr_of c X) = HDR c) by (unfold hdr_of, zlen in *; rewrite firstn_length; lia).
  assert (EH : hdr_bytes c m a = hdr_of c X).
  { rewrite (holds_hdr c m a (hdr_of c X)) by (auto; lia). unfold hdr_of. rewrite firstn_firstn. f_equal. lia. }
  assert (B : all_bytes (hdr_of c X) /\ zlen (hdr_of c X) < 65544).
  { rewrite <- EH. destruct (hdr_facts c m a Hb Hh) as (A & _ & B). auto. }
  destruct B as (B1 & B2).
  assert (Em : word m a = WOLFBOOT_MAGIC).
  { rewrite <- (gn_magic _ _ _ GX), word_rdl. f_equal.
    replace (firstn 4 X) with (firstn 4 (hdr_of c X)) by (unfold hdr_of; rewrite firstn_firstn; f_equal; lia).
    rewrite <- sub_0. rewrite <- (holds_sub m a) by (unfold zlen in *; auto; lia). f_equal; lia. }
  unfold version_at in V. cbn zeta in V. fold (hdr_bytes c m a) in V. rewrite EH in V.
  destruct (gn_ver _ _ _ GX) as (off & d & F & Ld & Ev).
  apply (field_parity 0 a) in F; [|symmetry; exact Ho].
  destruct V as [(V & _)|[(_ & V & _)|(_ & off' & d' & F' & ->)]]; [congruence| |].
  - exfalso. pose proof (no_field_find _ _ _ B1 B2 V) as N. destruct (field_find _ _ _ _ _ B1 B2 F) as (E & _). congruence.
  - destruct (field_det _ _ _ _ _ _ _ B1 B2 F F') as (<- & <-).
    destruct (field_find _ _ _ _ _ B1 B2 F) as (E & S). rewrite Ld in E, S.
    replace (match d with [] => 0 | _ :: _ => word m (a + Z.of_nat off) end) with (word m (a + Z.of_nat off))
      by (destruct d; [discriminate Ld|reflexivity]).
    rewrite Ev, word_rdl. f_equal. rewrite <- S.
    destruct (find_header_safe a (hdr_of c X) HDR_VERSION B1) as (r & E' & Hsafe). rewrite E in E'.
    injection E' as <-. destruct (Hsafe _ _ eq_refl) as (_ & Hle).
    rewrite <- EH in *. unfold hdr_bytes in *. rewrite length_rdl in Hle.
    rewrite rdl_sub by exact Hle. reflexivity.
Qed.

Lemma blob_val : forall c m a, bytes m -> hdr_small c -> exists v, blob_version c m a = Val v /\ version_at c m a v.
Proof.
  intros c m a Hb Hh. unfold blob_version, version_at. cbn zeta.
  destruct (Z.eqb_spec (word m a) WOLFBOOT_MAGIC) as [E|E]; cbn [negb]; [|exists 0; auto].
  destruct (get_header_val c m a HDR_VERSION Hb Hh) as (r & Er & K). rewrite Er. cbn [obind].
  destruct r as [[off len]|]; [|exists 0; split; [reflexivity|right; left; auto]].
  destruct K as (d & K1 & K2 & K3 & _). unfold hdr_bytes in K1.
  destruct (Nat.eqb_spec len 0) as [->|Hl].
  - exists 0. split; [reflexivity|]. right; right. split; [exact E|]. exists off, d.
    split; [exact K1|]. destruct d; [reflexivity|discriminate].
  - eexists. split; [reflexivity|]. right; right. split; [exact E|]. exists off, d.
    split; [exact K1|]. destruct d; [cbn in K2; congruence|reflexivity].
Qed.

Lemma bytes_load : forall m a n d, bytes m -> (forall i, is_byte (d i)) -> bytes (load m a n d).
Proof. intros m a n d Hb Hd x. unfold load. destruct (inr a n x); [apply Hd|apply Hb]. Qed.

(** The header of partition [p] is at [a]. *)
Definition header_copied (c : cfg) (f : flash) (p : part) (m : flash) (a : Z) : Prop :=
  bytes m /\ forall i, 0 <= i < HDR c -> m (a + i) = f (part_addr c p + i).

Definition ram_ok (c : cfg) (f : flash) (p : part) (a : Z) (m : flash) : Prop := copied c f p m a /\ verified c m a.
Definition ram_bad (c : cfg) (f : flash) (p : part) (a : Z) (m : flash) : Prop :=
  (exists m0 v, header_copied c f p m0 a /\ version_at c m0 a v /\ ~ (0 < v < 2 ^ 31)) \/
  PART c - HDR c < word f (part_addr c p + 4) \/
  (copied c f p m a /\ ~ verified c m a).

Definition img_ok (a : Z) (img : image) : Prop := (i_hdr_ok img = true -> i_hdr img = a) /\ i_sig_ok img = false.

Lemma ram_step : forall c rd la img m p f n, geometry c -> bytes m -> bytes f -> delivers_bytes rd -> img_ok (la - HDR c) img ->
  exists (b : bool) m1 img2, bytes m1 /\ (b = true -> verified c m1 (la - HDR c)) /\ (b = false -> img_ok (la - HDR c) img2) /\
    (faithful rd -> if b then ram_ok c f p (la - HDR c) m1 else ram_bad c f p (la - HDR c) m1) /\
    ((b = true /\ run (ram_loop (S n) c rd la img m p) f = Done (p, m1) f) \/
     (b = false /\ two_images c f /\ run (ram_loop (S n) c rd la img m p) f = run (ram_loop n c rd la img2 m1 (other p)) f) \/
     (b = false /\ ~ two_images c f /\ run (ram_loop (S n) c rd la img m p) f = Panicked f)).
Proof.
  intros c rd la img m p f n G Hb Hbf Hrd Him. set (a := la - HDR c). assert (Hh : hdr_small c) by (apply hs; exact G).
  assert (HP : 0 <= HDR c <= PART c /\ PART c < 2 ^ 31 /\ 12 <= HDR c) by (geo G; clear -H H0 H1 H2 H3 H4 H5 H6 H7 H8; lia).
  cbn [ram_loop]. fold a.
  assert (FB : forall (b : bool) m1 img2, b = false -> forall X, run
     (let! fb <- pure (fallback_is_possible c) in if negb fb then Panic else ram_loop n c rd la img2 m1 (other p)) f = X ->
     (two_images c f /\ X = run (ram_loop n c rd la img2 m1 (other p)) f) \/ (~ two_images c f /\ X = Panicked f)).
  { intros b m1 img2 _ X <-. rewrite run_bind. unfold pure. cbn [run].
    destruct (fallback_run c f G Hbf) as [(E & T)|(E & T)]; rewrite E; cbn [run negb]; auto. }
  rewrite run_bind. unfold pure. cbn [run].
  unfold ramboot. destruct (rd f (part_addr c p) (HDR c)) as [r1 d1] eqn:E1.
  set (m1 := load m a (HDR c) d1).
  assert (Hb1 : bytes m1) by (apply bytes_load; [exact Hb|intro i; pose proof (Hrd f (part_addr c p) (HDR c) i Hbf) as X; rewrite E1 in X; exact X]).
  assert (Hc1 : faithful rd -> r1 = HDR c /\ header_copied c f p m1 a).
  { intro Hf. destruct (Hf f (part_addr c p) (HDR c) Hbf) as (X1 & X2); [lia|]. rewrite E1 in X1, X2. cbn [fst snd] in X1, X2.
    split; [exact X1|]. split; [exact Hb1|]. intros i Hi. unfold m1, load.
    replace (inr a (HDR c) (a + i)) with true by (symmetry; apply inr_true; lia).
    rewrite <- X2 by lia. f_equal. lia. }
  destruct (Z.eqb_spec r1 (HDR c)) as [Er1|Er1]; cbn [negb].
  2:{ cbn [run]. rewrite run_bind. cbn [run]. exists false, m1, img. split; [exact Hb1|]. split; [discriminate|]. split; [intros _; exact Him|].
      split; [intro Hf; destruct (Hc1 Hf); congruence|]. right. destruct (FB false m1 img eq_refl _ eq_refl) as [(T & E)|(T & E)]; [left|right]; (split; [reflexivity|split; [exact T|exact E]]). }
  destruct (blob_val c m1 a Hb1 Hh) as (v & Ev & V). rewrite Ev. cbn [obind].
  destruct ((v =? 0) || (v >=? 2 ^ 31)) eqn:Ec.
  { cbn [run]. rewrite run_bind. cbn [run]. exists false, m1, img. split; [exact Hb1|]. split; [discriminate|]. split; [intros _; exact Him|].
    split.
    - intro Hf. left. exists m1, v. split; [apply Hc1, Hf|]. split; [exact V|]. apply orb_true_iff in Ec. lia.
    - right. destruct (FB false m1 img eq_refl _ eq_refl) as [(T & E)|(T & E)]; [left|right]; (split; [reflexivity|split; [exact T|exact E]]). }
  destruct (rd f (part_addr c p + HDR c) (image_size m1 a)) as [r2 d2] eqn:E2.
  set (m2 := load m1 (a + HDR c) (image_size m1 a) d2).
  assert (Hb2 : bytes m2) by (apply bytes_load; [exact Hb1|intro i;
    pose proof (Hrd f (part_addr c p + HDR c) (image_size m1 a) i Hbf) as X; rewrite E2 in X; exact X]).
  assert (Hn : 0 <= image_size m1 a) by (apply word_nonneg, Hb1).
  assert (Hc2 : faithful rd -> image_size m1 a = word f (part_addr c p + 4) /\
     (image_size m1 a <= PART c - HDR c -> 0 <= r2 /\ copied c f p m2 a)).
  { intro Hf. destruct (Hc1 Hf) as (_ & _ & Hc).
    assert (Es : image_size m1 a = word f (part_addr c p + 4)).
    { unfold image_size. apply word_ext. intros j Hj. rewrite <- !Z.add_assoc. apply Hc. lia. }
    split; [exact Es|]. intro Hs. destruct (Hf f (part_addr c p + HDR c) (image_size m1 a) Hbf) as (X1 & X2); [lia|].
    rewrite E2 in X1, X2. cbn [fst snd] in X1, X2. split; [lia|]. split; [exact Hb2|]. intros i Hi. rewrite <- Es, Z.min_l in Hi by exact Hs.
    unfold m2, load. destruct (Z.lt_ge_cases i (HDR c)) as [L|L].
    - replace (inr (a + HDR c) (image_size m1 a) (a + i)) with false by (symmetry; apply inr_false; lia). apply Hc. lia.
    - replace (inr (a + HDR c) (image_size m1 a) (a + i)) with true by (symmetry; apply inr_true; lia).
      rewrite X2 by lia. f_equal. lia. }
  cbn [run]. destruct (Z.ltb_spec r2 0) as [Hr2|Hr2]; cbn [negb].
  { rewrite run_bind. cbn [run]. exists false, m2, img. split; [exact Hb2|]. split; [discriminate|]. split; [intros _; exact Him|].
    split.
    - intro Hf. right; left. destruct (Hc2 Hf) as (Es & X). rewrite <- Es.
      destruct (Z.lt_ge_cases (PART c - HDR c) (image_size m1 a)); [assumption|]. exfalso. destruct X as (X & _); lia.
    - right. destruct (FB false m2 img eq_refl _ eq_refl) as [(T & E)|(T & E)]; [left|right]; (split; [reflexivity|split; [exact T|exact E]]). }
  assert (Es2 : word m2 (a + 4) = image_size m1 a).
  { unfold image_size. apply word_ext. intros j Hj. unfold m2, load.
    replace (inr (a + HDR c) (image_size m1 a) (a + 4 + j)) with false by (symmetry; apply inr_false; lia). reflexivity. }
  unfold open_image_address. destruct (Z.eqb_spec (word m2 a) WOLFBOOT_MAGIC) as [Em|Em]; cbn [negb].
  2:{ rewrite run_bind. cbn [run]. exists false, m2, img. split; [exact Hb2|]. split; [discriminate|]. split; [intros _; exact Him|].
      split.
      - intro Hf. right. destruct (Hc2 Hf) as (Es & X). rewrite <- Es.
        destruct (Z.lt_ge_cases (PART c - HDR c) (image_size m1 a)); [auto|]. right. split; [apply X; lia|]. intros (Y & _). auto.
      - right. destruct (FB false m2 img eq_refl _ eq_refl) as [(T & E)|(T & E)]; [left|right]; (split; [reflexivity|split; [exact T|exact E]]). }
  replace (image_size m2 a) with (image_size m1 a) by (symmetry; exact Es2).
  destruct (Z.gtb_spec (image_size m1 a) (PART c - HDR c)) as [Hg|Hg].
  { set (im0 := mkImage (i_part img) (i_hdr img) (i_base img) (PART c - HDR c) (i_hdr_ok img) (i_sha_ok img) (i_sig_ok img) (i_sha img)).
    rewrite run_bind. cbn [run]. exists false, m2, im0. split; [exact Hb2|]. split; [discriminate|]. split; [intros _; exact Him|]. split.
    - intro Hf. right; left. destruct (Hc2 Hf) as (Es & X). rewrite <- Es. exact Hg.
    - right. destruct (FB false m2 im0 eq_refl _ eq_refl) as [(T & E)|(T & E)]; [left|right]; (split; [reflexivity|split; [exact T|exact E]]). }
  set (hd := if i_hdr_ok img then i_hdr img else a).
  assert (Ehd : hd = a) by (unfold hd; destruct Him as (H1 & _); destruct (i_hdr_ok img); auto).
  set (im1 := mkImage (i_part img) hd (hd + HDR c) (image_size m1 a) true (i_sha_ok img) (i_sig_ok img) (i_sha img)).
  destruct (verify_ram_run c m2 im1 f G Hb2 eq_refl) as (im & K1 & K2 & K).
  { cbn [im1 i_size i_hdr]. rewrite Ehd. symmetry. exact Es2. }
  { cbn [im1 i_hdr]. rewrite Ehd. exact Em. }
  { exact Hg. }
  { apply Him. }
  rewrite run_bind. change (i_hdr im1) with hd in *. rewrite Ehd in *.
  destruct K as [(V2 & Er)|(V2 & Ks & Er)]; rewrite Er.
  - exists true, m2, im. split; [exact Hb2|]. split; [auto|]. split; [discriminate|].
    split; [|left; auto]. intro Hf. split; [apply Hc2; auto|exact V2].
  - exists false, m2, im. split; [exact Hb2|]. split; [discriminate|]. split; [intros _; split; [intros _; exact K1|exact Ks]|].
    split; [intro Hf; right; right; split; [apply Hc2; auto|exact V2]|].
    right. destruct (FB false m2 im eq_refl _ eq_refl) as [(T & E)|(T & E)]; [left|right]; (split; [reflexivity|split; [exact T|exact E]]).
Qed.
