(** Mapping a page and a range of pages. *)
From Verif Require Import Base PagingSpec PagingModel PagingProofs PagingMap.

Section Loop.
Context (pool cr3 : Z).

(** first free page of the pool, and its end *)
Definition lo (s : st) : Z := pool + used s * 4096.
Definition hi : Z := pool + 512 * 4096.

Definition pool_ok : Prop := 0 <= pool /\ pool mod 4096 = 0 /\ hi <= 2 ^ 52.

Definition wf (s : st) : Prop := 0 <= used s <= 511 /\ sane (mem s) cr3 (lo s) hi.

(** [p] lies in a table of [s] *)
Definition in_table (s : st) (p : Z) : Prop :=
  exists k va t, (k < 4)%nat /\ table (mem s) cr3 k va = Some t /\ in_page t p.

Record ext (s s' : st) : Prop := {
  ext_wf : wf s';
  ext_used : used s <= used s';
  ext_frame : forall a, ~ (lo s <= a < hi) -> ~ in_table s a -> mem s' a = mem s a;
  ext_table : forall a, in_table s' a -> in_table s a \/ lo s <= a < hi }.

Lemma ext_refl s : wf s -> ext s s.
Proof. intro W. split; auto; lia. Qed.

Lemma ext_trans s1 s2 s3 : ext s1 s2 -> ext s2 s3 -> ext s1 s3.
Proof.
  intros A B. pose proof (ext_used _ _ A) as U1. pose proof (ext_used _ _ B) as U2.
  assert (L : lo s1 <= lo s2) by (unfold lo; lia).
  split; [exact (ext_wf _ _ B)|lia| |].
  - intros a NL NT. rewrite (ext_frame _ _ B).
    + apply (ext_frame _ _ A); assumption.
    + lia.
    + intro I. destruct (ext_table _ _ A a I); tauto.
  - intros a I. destruct (ext_table _ _ B a I) as [J|J].
    + exact (ext_table _ _ A a J).
    + right. lia.
Qed.

Lemma ensure_ok s k va t : pool_ok -> wf s -> (k < 3)%nat -> table (mem s) cr3 k va = Some t ->
  match ensure pool s (slot k t va) with
  | None => used s = 511
  | Some s' =>
    ext s s' /\ used s' <= used s + 1 /\ table (mem s') cr3 k va = Some t /\
    mem s' (slot k t va) <> 0 /\
    (forall va', translate (mem s') cr3 va' = translate (mem s) cr3 va')
  end.
Proof.
  intros (P1 & P2 & P3) (U & SN) K T. unfold ensure.
  destruct (Z.eqb_spec (mem s (slot k t va)) 0) as [E|E].
  - unfold setup_ptp, WOLFBOOT_PTP_NUM. destruct (Z.eqb_spec (used s + 1) 512) as [F|F]; [lia|].
    assert (LO : 0 <= lo s) by (unfold lo; lia).
    assert (AL : lo s mod 4096 = 0) by (unfold lo; lia).
    assert (FREE : lo s + 4096 <= hi) by (unfold lo, hi; lia).
    fold (lo s). change (clear_page (setup_entry (mem s) (slot k t va) (lo s)) (lo s))
      with (grown (mem s) (slot k t va) (lo s)).
    pose proof (table_grown _ _ _ _ SN LO AL FREE P3 k va t K T E) as TG.
    split; [|cbn [mem used]; split; [lia|split; [|split]]].
    + constructor; cbn [mem used].
      * split; cbn [mem used]; [lia|].
        replace (lo {| mem := grown (mem s) (slot k t va) (lo s); used := used s + 1 |}) with (lo s + 4096)
          by (unfold lo; cbn [used]; lia).
        apply sane_grown; assumption.
      * lia.
      * intros a NL NT. apply (frame_grown _ _ _ _ SN LO AL FREE P3 k va t K T E a NL).
        intros j va' u J TU I. apply NT. exists j, va', u. auto.
      * intros a (j & va' & u & J & TU & I). cbn [mem] in TU.
        rewrite TG in TU by lia. destruct (under k va j va').
        -- destruct (j =? S k)%nat; [|discriminate]. injection TU as <-. right.
           unfold in_page in I. clear - I FREE. lia.
        -- left. exists j, va', u. auto.
    + rewrite TG by lia. unfold under.
      replace (S k <=? k)%nat with false by (symmetry; apply Nat.leb_gt; lia). exact T.
    + rewrite (old_slot _ _ _ _ SN LO AL FREE P3 k va t K T E k t va ltac:(lia) T).
      rewrite Nat.eqb_refl, Z.eqb_refl. cbn [andb]. clear - LO. lia.
    + intro va'. apply (translate_grown _ _ _ _ SN LO AL FREE P3 k va t K T E).
  - split; [apply ext_refl; split; assumption|]. split; [lia|]. auto.
Qed.

Lemma get_pfn_page m e : 0 <= m e < 2 ^ 52 -> get_pfn m e = page 12 (m e).
Proof.
  intro B. unfold get_pfn, page. rewrite land_mask. rewrite !Z.mod_small; [reflexivity|lia|].
  change (2 ^ 52) with 4503599627370496 in B. change (2 ^ 64) with 18446744073709551616. lia.
Qed.

(** the next table *)
Lemma next_table s k va t : wf s -> (k < 3)%nat -> table (mem s) cr3 k va = Some t ->
  mem s (slot k t va) <> 0 ->
  present (mem s (slot k t va)) = true /\ writable (mem s (slot k t va)) = true /\
  (k <> 2%nat \/ large (mem s (slot k t va)) = false ->
   table (mem s) cr3 (S k) va = Some (get_pfn (mem s) (slot k t va))).
Proof.
  intros (U & SN) K T NZ.
  destruct (sane_entry _ _ _ _ SN k va t ltac:(lia) T) as [Z0|(B & P & W & L)]; [contradiction|].
  split; [exact P|]. split; [exact W|]. intro C.
  cbn [table]. rewrite T. cbv zeta. rewrite P, get_pfn_page by exact B. cbn [andb].
  replace (large (mem s (slot k t va)) && (1 <=? k)%nat) with false; [reflexivity|].
  symmetry. destruct k as [|[|[|]]]; [apply andb_false_r|rewrite (L eq_refl); reflexivity| |lia].
  destruct C as [C|C]; [congruence|]. rewrite C. reflexivity.
Qed.

Lemma large_land e : negb (Z.land e 128 =? 0) = large e.
Proof.
  unfold large. destruct (Z.testbit e 7) eqn:B.
  - apply negb_true_iff. apply Z.eqb_neq. intro E.
    assert (X : Z.testbit (Z.land e 128) 7 = true) by (rewrite Z.land_spec, B; reflexivity).
    rewrite E in X. discriminate.
  - apply negb_false_iff. apply Z.eqb_eq. apply Z.bits_inj'. intros n N.
    rewrite Z.land_spec, Z.bits_0. change 128 with (2 ^ 7). rewrite Z.pow2_bits_eqb by lia.
    destruct (Z.eqb_spec 7 n) as [ <- |]; [rewrite B; reflexivity|apply andb_false_r].
Qed.

Lemma mapped_large s va t2 va' : wf s -> table (mem s) cr3 2 va = Some t2 ->
  mem s (slot 2 t2 va) <> 0 -> large (mem s (slot 2 t2 va)) = true ->
  prefix 4 va' = prefix 4 va -> translate (mem s) cr3 va' <> None.
Proof.
  intros W T2 NZ L P.
  destruct (next_table s 2 va t2 W ltac:(lia) T2 NZ) as (P2 & _ & _).
  assert (Q3 : prefix 3 va' = prefix 3 va) by (apply (prefix_mono 3 4); auto; lia).
  assert (E2 : entry (mem s) cr3 2 va' = Some (mem s (slot 2 t2 va))).
  { rewrite (entry_prefix _ _ 2 va' va ltac:(lia) Q3). unfold entry. rewrite T2. reflexivity. }
  assert (T2' : table (mem s) cr3 2 va' = Some t2).
  { rewrite (table_prefix _ _ 2 va' va); [exact T2|lia|]. apply (prefix_mono 2 3); auto; lia. }
  destruct W as (U & SN).
  destruct (table_up _ _ _ _ SN 1 va' t2 ltac:(lia) T2') as (x1 & X1 & P1 & W1 & L1).
  destruct (table_down _ _ 1 va' t2 ltac:(lia) T2') as (t1 & T1).
  destruct (table_up _ _ _ _ SN 0 va' t1 ltac:(lia) T1) as (x0 & X0 & P0 & W0 & _).
  rewrite translate_entries, X0, X1, E2, P0, P1, P2, L1, L by lia. cbn [negb]. discriminate.
Qed.

Lemma mapped_small s va t3 va' : wf s -> table (mem s) cr3 3 va = Some t3 ->
  prefix 4 va' = prefix 4 va ->
  (mem s (slot 3 t3 va) <> 0 -> translate (mem s) cr3 va' <> None) /\
  (mem s (slot 3 t3 va) = 0 -> translate (mem s) cr3 va' = None).
Proof.
  intros W T3 P.
  assert (E3 : entry (mem s) cr3 3 va' = Some (mem s (slot 3 t3 va))).
  { rewrite (entry_prefix _ _ 3 va' va ltac:(lia) P). unfold entry. rewrite T3. reflexivity. }
  assert (T3' : table (mem s) cr3 3 va' = Some t3).
  { rewrite (table_prefix _ _ 3 va' va); [exact T3|lia|]. apply (prefix_mono 3 4); auto; lia. }
  destruct W as (U & SN).
  destruct (table_up _ _ _ _ SN 2 va' t3 ltac:(lia) T3') as (x2 & X2 & P2 & W2 & L2).
  destruct (table_down _ _ 2 va' t3 ltac:(lia) T3') as (t2 & T2).
  destruct (table_up _ _ _ _ SN 1 va' t2 ltac:(lia) T2) as (x1 & X1 & P1 & W1 & L1).
  destruct (table_down _ _ 1 va' t2 ltac:(lia) T2) as (t1 & T1).
  destruct (table_up _ _ _ _ SN 0 va' t1 ltac:(lia) T1) as (x0 & X0 & P0 & W0 & _).
  rewrite translate_entries, X0, X1, X2, E3, P0, P1, P2, L1, L2 by lia. cbn [negb].
  split.
  - intro NZ. destruct (sane_entry _ _ _ _ SN 3%nat va t3 ltac:(lia) T3) as [Z0|(_ & Q & _)]; [contradiction|].
    rewrite Q. discriminate.
  - intros ->. reflexivity.
Qed.

Lemma gep0 va t : get_entry_ptr va t 4 = slot 0 t va.
Proof. exact (get_entry_ptr_slot 0 va t ltac:(lia)). Qed.
Lemma gep1 va t : get_entry_ptr va t 3 = slot 1 t va.
Proof. exact (get_entry_ptr_slot 1 va t ltac:(lia)). Qed.
Lemma gep2 va t : get_entry_ptr va t 2 = slot 2 t va.
Proof. exact (get_entry_ptr_slot 2 va t ltac:(lia)). Qed.
Lemma gep3 va t : get_entry_ptr va t 1 = slot 3 t va.
Proof. exact (get_entry_ptr_slot 3 va t ltac:(lia)). Qed.

Lemma map_page_ok s va pa : pool_ok -> wf s -> 0 <= pa -> pa + 4096 <= 2 ^ 52 -> pa mod 4096 = 0 ->
  match map_page pool cr3 s va pa with
  | None => 509 <= used s
  | Some s' =>
    ext s s' /\ used s' <= used s + 3 /\
    (forall va', translate (mem s') cr3 va' =
       if prefix 4 va' =? prefix 4 va then
         match translate (mem s) cr3 va' with
         | Some x => Some x
         | None => Some (pa + va' mod 4096, true)
         end
       else translate (mem s) cr3 va')
  end.
Proof.
  intros PO W A1 A2 A3. unfold map_page.
  rewrite (gep0 va).
  pose proof (ensure_ok s 0 va cr3 PO W ltac:(lia) eq_refl) as H1.
  destruct (ensure pool s (slot 0 cr3 va)) as [s1|]; [|lia].
  destruct H1 as (X1 & U1 & T0 & N1 & F1).
  destruct (next_table s1 0 va cr3 (ext_wf _ _ X1) ltac:(lia) T0 N1) as (_ & _ & T1).
  specialize (T1 ltac:(left; lia)).
  set (t1 := get_pfn (mem s1) (slot 0 cr3 va)) in *.
  rewrite (gep1 va).
  pose proof (ensure_ok s1 1 va t1 PO (ext_wf _ _ X1) ltac:(lia) T1) as H2.
  destruct (ensure pool s1 (slot 1 t1 va)) as [s2|]; [|lia].
  destruct H2 as (X2 & U2 & T1' & N2 & F2).
  destruct (next_table s2 1 va t1 (ext_wf _ _ X2) ltac:(lia) T1' N2) as (_ & _ & T2).
  specialize (T2 ltac:(left; lia)).
  set (t2 := get_pfn (mem s2) (slot 1 t1 va)) in *.
  rewrite (gep2 va).
  pose proof (ensure_ok s2 2 va t2 PO (ext_wf _ _ X2) ltac:(lia) T2) as H3.
  destruct (ensure pool s2 (slot 2 t2 va)) as [s3|]; [|lia].
  destruct H3 as (X3 & U3 & T2' & N3 & F3).
  pose proof (ext_trans _ _ _ X1 (ext_trans _ _ _ X2 X3)) as X.
  assert (F : forall va', translate (mem s3) cr3 va' = translate (mem s) cr3 va')
    by (intro; rewrite F3, F2; apply F1).
  rewrite large_land. destruct (large (mem s3 (slot 2 t2 va))) eqn:L.
  - split; [exact X|]. split; [lia|]. intro va'. rewrite F.
    destruct (Z.eqb_spec (prefix 4 va') (prefix 4 va)) as [P|]; [|reflexivity].
    pose proof (mapped_large s3 va t2 va' (ext_wf _ _ X3) T2' N3 L P) as M. rewrite F in M.
    destruct (translate (mem s) cr3 va'); [reflexivity|congruence].
  - destruct (next_table s3 2 va t2 (ext_wf _ _ X3) ltac:(lia) T2' N3) as (_ & _ & T3).
    specialize (T3 ltac:(right; exact L)).
    set (t3 := get_pfn (mem s3) (slot 2 t2 va)) in *.
    rewrite (gep3 va).
    destruct (Z.eqb_spec (mem s3 (slot 3 t3 va)) 0) as [E|E]; cbn [negb].
    + destruct (ext_wf _ _ X3) as (UU & SN).
      split; [|cbn [mem used]; split; [lia|]].
      * apply (ext_trans _ _ _ X). constructor; cbn [mem used].
        -- split; [exact UU|]. cbn [mem].
           change (lo {| mem := setup_entry (mem s3) (slot 3 t3 va) pa; used := used s3 |}) with (lo s3).
           apply sane_filled; assumption.
        -- lia.
        -- intros a NL NT. apply (frame_filled _ _ _ _ SN va t3 T3 E pa A1 A2 A3 a).
           intros j va' u J TU I. apply NT. exists j, va', u. auto.
        -- intros a (j & va' & u & J & TU & I). cbn [mem] in TU.
           rewrite (table_filled _ _ _ _ SN va t3 T3 E pa A1 A2 A3) in TU by lia.
           left. exists j, va', u. auto.
      * intro va'. rewrite (translate_filled _ _ _ _ SN va t3 T3 E pa A1 A2 A3 va'). rewrite F.
        destruct (Z.eqb_spec (prefix 4 va') (prefix 4 va)) as [P|]; [|reflexivity].
        destruct (mapped_small s3 va t3 va' (ext_wf _ _ X3) T3 P) as (_ & Q).
        specialize (Q E). rewrite F in Q. rewrite Q. reflexivity.
    + split; [exact X|]. split; [lia|]. intro va'. rewrite F.
      destruct (Z.eqb_spec (prefix 4 va') (prefix 4 va)) as [P|]; [|reflexivity].
      destruct (mapped_small s3 va t3 va' (ext_wf _ _ X3) T3 P) as (Q & _).
      specialize (Q E). rewrite F in Q. destruct (translate (mem s) cr3 va'); [reflexivity|congruence].
Qed.

(** ** Pages of canonical addresses *)
Lemma prefix4 va : prefix 4 va = (va / 4096) mod 68719476736.
Proof. reflexivity. Qed.

Lemma canonical_page a b : canonical a -> canonical b -> prefix 4 a = prefix 4 b -> a / 4096 = b / 4096.
Proof.
  unfold canonical. rewrite !prefix4. change (2 ^ 47) with 140737488355328.
  change (2 ^ 64) with 18446744073709551616. intros A B E. lia.
Qed.

Lemma page_prefix a b : a / 4096 = b / 4096 -> prefix 4 a = prefix 4 b.
Proof. rewrite !prefix4. congruence. Qed.

Definition pages (page end_ : Z) : Z := (end_ - page + 4095) / 4096.

Lemma map_loop_ok fuel : forall s page end_ pa, pool_ok -> wf s ->
  0 <= page -> page mod 4096 = 0 -> page <= end_ -> end_ <= 2 ^ 64 - 4096 ->
  (forall b, page <= b < end_ -> canonical b) ->
  0 <= pa -> pa mod 4096 = 0 -> pa + (end_ - page) + 4096 <= 2 ^ 52 ->
  pages page end_ <= Z.of_nat fuel ->
  match map_loop fuel pool cr3 s page end_ pa with
  | Val None => 512 <= used s + 3 * pages page end_
  | Val (Some s') =>
    ext s s' /\
    (forall va', canonical va' -> translate (mem s') cr3 va' =
       if (page <=? va') && (va' / 4096 * 4096 <? end_) then
         match translate (mem s) cr3 va' with
         | Some x => Some x
         | None => Some (pa + (va' - page), true)
         end
       else translate (mem s) cr3 va')
  | _ => False
  end.
Proof.
  unfold pages.
  induction fuel as [|f IH]; intros s page end_ pa PO W B1 B2 B3 B4 CAN A1 A2 A3 FU.
  - cbn [map_loop]. assert (page = end_) by lia. subst end_. rewrite Z.ltb_irrefl.
    split; [apply ext_refl; exact W|]. intros va' _.
    replace ((page <=? va') && (va' / 4096 * 4096 <? page)) with false by lia. reflexivity.
  - cbn [map_loop]. destruct (Z.ltb_spec page end_) as [L|L].
    + change (2 ^ 52) with 4503599627370496 in *.
      pose proof (map_page_ok s page pa PO W A1 ltac:(change (2 ^ 52) with 4503599627370496; lia) A2) as MP.
      destruct (map_page pool cr3 s page pa) as [s1|]; [|lia].
      destruct MP as (X1 & U1 & F1).
      assert (EP : u64 (page + 4096) = page + 4096)
        by (apply Z.mod_small; change (2 ^ 64) with 18446744073709551616 in *; lia).
      assert (EQ : u64 (pa + 4096) = pa + 4096)
        by (apply Z.mod_small; change (2 ^ 64) with 18446744073709551616 in *; lia).
      rewrite EP, EQ.
      destruct (Z.leb_spec (page + 4096) end_) as [M|M].
      * specialize (IH s1 (page + 4096) end_ (pa + 4096) PO (ext_wf _ _ X1)).
        specialize (IH ltac:(lia) ltac:(lia) M B4 ltac:(intros; apply CAN; lia) ltac:(lia) ltac:(lia)
                       ltac:(change (2 ^ 52) with 4503599627370496; lia) ltac:(lia)).
        destruct (map_loop f pool cr3 s1 (page + 4096) end_ (pa + 4096)) as [[s'|]| |];
          [|lia|exact IH|exact IH].
        destruct IH as (X2 & F2). split; [exact (ext_trans _ _ _ X1 X2)|].
        intros va' C. rewrite F2 by exact C. rewrite F1.
        assert (CP : canonical page) by (apply CAN; lia).
        destruct (Z.eqb_spec (prefix 4 va') (prefix 4 page)) as [P|P].
        -- pose proof (canonical_page va' page C CP P) as Q.
           replace ((page + 4096 <=? va') && (va' / 4096 * 4096 <? end_)) with false by lia.
           replace ((page <=? va') && (va' / 4096 * 4096 <? end_)) with true by lia.
           destruct (translate (mem s) cr3 va'); [reflexivity|].
           replace (pa + va' mod 4096) with (pa + (va' - page)) by lia. reflexivity.
        -- assert (Q : va' / 4096 <> page / 4096) by (intro Q; apply P, page_prefix, Q).
           replace ((page <=? va') && (va' / 4096 * 4096 <? end_))
             with ((page + 4096 <=? va') && (va' / 4096 * 4096 <? end_)) by lia.
           destruct ((page + 4096 <=? va') && (va' / 4096 * 4096 <? end_)); [|reflexivity].
           destruct (translate (mem s) cr3 va'); [reflexivity|].
           replace (pa + 4096 + (va' - (page + 4096))) with (pa + (va' - page)) by lia. reflexivity.
      * (* the last page *)
        assert (ML : map_loop f pool cr3 s1 (page + 4096) end_ (pa + 4096) = Val (Some s1)).
        { destruct f; cbn [map_loop]; replace (page + 4096 <? end_) with false by lia; reflexivity. }
        rewrite ML. split; [exact X1|]. intros va' C. rewrite F1.
        assert (CP : canonical page) by (apply CAN; lia).
        destruct (Z.eqb_spec (prefix 4 va') (prefix 4 page)) as [P|P].
        -- pose proof (canonical_page va' page C CP P) as Q.
           replace ((page <=? va') && (va' / 4096 * 4096 <? end_)) with true by lia.
           destruct (translate (mem s) cr3 va'); [reflexivity|].
           replace (pa + va' mod 4096) with (pa + (va' - page)) by lia. reflexivity.
        -- assert (Q : va' / 4096 <> page / 4096) by (intro Q; apply P, page_prefix, Q).
           replace ((page <=? va') && (va' / 4096 * 4096 <? end_)) with false by lia. reflexivity.
    + assert (page = end_) by lia. subst end_.
      split; [apply ext_refl; exact W|]. intros va' _.
      replace ((page <=? va') && (va' / 4096 * 4096 <? page)) with false by lia. reflexivity.
Qed.
End Loop.
