(** Arbitrary blobs: what the walks over the structure block read, and when they end. *)
From Verif Require Import Base BaseLemmas StringModel FdtModel FdtSpec FdtProofs.
Local Ltac Zify.zify_post_hook ::= idtac.

Definition isint (x : Z) : Prop := - 2 ^ 31 <= x < 2 ^ 31.
Lemma to_int_range : forall v, isint (to_int v).
Proof. intro v. unfold isint, to_int. pose proof (Z.mod_pos_bound (v + 2 ^ 31) (2 ^ 32) ltac:(lia)). lia. Qed.
Lemma le_val_range : forall l, all_bytes l -> 0 <= le_val l < 256 ^ zlen l.
Proof.
  induction l as [|x l IH]; intro H; cbn [le_val]; [zs; lia|]. inversion H as [|? ? Hx Hl]; subst. specialize (IH Hl). unfold is_byte in Hx. zs. rewrite Z.pow_add_r by (pose proof (zlen_nn _ l); lia).
  change (256 ^ 1) with 256. assert (0 < 256 ^ zlen l) by (apply Z.pow_pos_nonneg; [lia|apply zlen_nn]). nia.
Qed.
Lemma word_range : forall l, all_bytes l -> zlen l <= 4 -> 0 <= be_val l < 2 ^ 32.
Proof.
  intros l H L. unfold be_val. assert (H' : all_bytes (rev l)) by (apply Forall_forall; intros x Hx; apply in_rev in Hx; exact (proj1 (Forall_forall _ _) H x Hx)).
  pose proof (le_val_range _ H') as R. assert (E : zlen (rev l) = zlen l) by (unfold zlen; rewrite rev_length; reflexivity). rewrite E in R. assert (256 ^ zlen l <= 256 ^ 4) by (apply Z.pow_le_mono_r; lia). change (2 ^ 32) with (256 ^ 4). lia.
Qed.
Lemma bytes_sub : forall l i n, all_bytes l -> all_bytes (sub l i n).
Proof.
  intros l i n H. unfold sub. apply Forall_forall. intros x Hx. apply (proj1 (Forall_forall _ _) H). assert (In x (skipn i l)) by (rewrite <- (firstn_skipn n (skipn i l)); apply in_or_app; left; exact Hx).
  rewrite <- (firstn_skipn i l). apply in_or_app. right. assumption.
Qed.
Lemma sub_len : forall (l : list Z) i n, zlen (sub l i n) <= Z.of_nat n.
Proof. intros. unfold sub, zlen. rewrite firstn_length. lia. Qed.

Section safe.
Context (b : blob) (Hb : all_bytes b) (Ht : totalsize b <= zlen b) (Hl : zlen b < 2 ^ 31 - 4).

Lemma h32_range : forall i, 0 <= h32 b i < 2 ^ 32.
Proof using Hb. intro i. unfold h32. apply word_range; [apply bytes_sub; exact Hb|]. pose proof (sub_len b (4 * i) 4). lia. Qed.
Lemma ld32_safe : forall a, 0 <= a -> a + 4 <= zlen b -> exists v, ld32 b a = Val v /\ 0 <= v < 2 ^ 32.
Proof using Hb.
  intros a A L. unfold ld32, lds. change (4 <=? 0) with false. cbn iota. destruct (Z.ltb_spec a 0); [lia|]. destruct (Z.ltb_spec (zlen b) (a + 4)); [lia|]. cbn [orb obind].
  eexists. split; [reflexivity|]. apply word_range; [apply bytes_sub; exact Hb|]. pose proof (sub_len b (Z.to_nat a) (Z.to_nat 4)). lia.
Qed.
Lemma ldb_safe : forall a, 0 <= a < zlen b -> exists v, ldb b a = Val v.
Proof using.
  intros a A. unfold ldb. destruct (Z.ltb_spec a 0); [lia|]. destruct (nth_error b (Z.to_nat a)) as [v|] eqn:E; [exists v; reflexivity|]. apply nth_error_None in E. unfold zlen in A. lia.
Qed.
Lemma eq_at_safe : forall s a, 0 <= a -> a + zlen s <= zlen b -> exists r, eq_at b a s = Val r.
Proof using.
  induction s as [|c s IH]; intros a A L; cbn [eq_at]; [eexists; reflexivity|]. zsi L. pose proof (zlen_nn _ s). destruct (ldb_safe a ltac:(lia)) as (v & ->). cbn [obind].
  destruct (v =? c); [apply IH; lia|eexists; reflexivity].
Qed.
Lemma strlen_safe : forall z fuel a, 0 <= a <= z -> ldb b z = Val 0 -> z - a < Z.of_nat fuel -> exists n, strlen_at fuel b a = Val n /\ 0 <= n <= z - a.
Proof using.
  intros z fuel. induction fuel as [|fuel IH]; intros a A Z0 F; [lia|]. cbn [strlen_at].
  assert (Lz : z < zlen b). { unfold ldb in Z0. destruct (z <? 0); [discriminate|]. destruct (nth_error b (Z.to_nat z)) eqn:E; [|discriminate]. assert (Z.to_nat z < length b)%nat by (apply nth_error_Some; congruence). unfold zlen. lia. }
  destruct (ldb_safe a ltac:(lia)) as (v & E). rewrite E. cbn [obind]. destruct (Z.eqb_spec v 0) as [->|N]; [exists 0; split; [reflexivity|lia]|].
  assert (a <> z) by (intro; subst; congruence). destruct (IH (a + 1) ltac:(lia) Z0 ltac:(lia)) as (n & -> & Hn). cbn [obind]. exists (n + 1). split; [reflexivity|lia].
Qed.

Lemma offset_ptr_some : forall off len p, isint off -> 0 <= len < 2 ^ 32 -> offset_ptr b off len = Some p ->
  0 <= off /\ p = off_struct b + off /\ 0 <= off_struct b /\ p + len <= totalsize b.
Proof using Hb Ht Hl.
  intros off len p I L E. unfold offset_ptr in E. cbv zeta in E. pose proof (h32_range 2) as Ros. fold (off_struct b) in Ros. unfold isint in I.
  destruct (Z.ltb_spec off 0) as [|H0]; [discriminate|]. set (abs := (off + off_struct b) mod 2 ^ 32) in *.
  destruct (Z.ltb_spec abs off) as [|H1]; [discriminate|]. cbn [orb] in E. destruct (Z.ltb_spec ((abs + len) mod 2 ^ 32) abs) as [|H2]; [discriminate|]. cbn [orb] in E.
  destruct (Z.ltb_spec (totalsize b) ((abs + len) mod 2 ^ 32)) as [|H3]; [discriminate|].
  assert (Ea : abs = off + off_struct b).
  { unfold abs in *. pose proof (Z.div_mod (off + off_struct b) (2 ^ 32) ltac:(lia)) as DM. pose proof (Z.mod_pos_bound (off + off_struct b) (2 ^ 32) ltac:(lia)).
    assert (0 <= (off + off_struct b) / 2 ^ 32) by (apply Z.div_pos; lia). assert ((off + off_struct b) / 2 ^ 32 < 2) by (apply Z.div_lt_upper_bound; lia). assert ((off + off_struct b) / 2 ^ 32 = 0 \/ (off + off_struct b) / 2 ^ 32 = 1) as [Hq|Hq] by lia; rewrite Hq in DM; lia. }
  assert (Eb : (abs + len) mod 2 ^ 32 = abs + len).
  { pose proof (Z.div_mod (abs + len) (2 ^ 32) ltac:(lia)) as DM. pose proof (Z.mod_pos_bound (abs + len) (2 ^ 32) ltac:(lia)). pose proof (Z.mod_pos_bound (off + off_struct b) (2 ^ 32) ltac:(lia)) as MA. fold abs in MA.
    assert (0 <= (abs + len) / 2 ^ 32) by (apply Z.div_pos; lia). assert ((abs + len) / 2 ^ 32 < 2) by (apply Z.div_lt_upper_bound; lia). assert ((abs + len) / 2 ^ 32 = 0 \/ (abs + len) / 2 ^ 32 = 1) as [Hq|Hq] by lia; rewrite Hq in DM; lia. }
  destruct ((17 <=? version b) && _) in E; [discriminate|]. apply some_inj in E. subst p. lia.
Qed.

Lemma skip_name_safe : forall fuel off, 0 <= off <= zlen b -> zlen b - off < Z.of_nat fuel ->
  skip_name fuel b off = Val None \/ exists e, skip_name fuel b off = Val (Some e) /\ off < e /\ off_struct b + e <= totalsize b /\ 0 <= off_struct b /\ ldb b (off_struct b + e - 1) = Val 0.
Proof using Hb Ht Hl.
  induction fuel as [|fuel IH]; intros off A F; [lia|]. cbn [skip_name]. destruct (offset_ptr b off 1) as [p|] eqn:Ep; [|left; reflexivity].
  apply offset_ptr_some in Ep; [|unfold isint; lia|lia]. destruct Ep as (P0 & -> & P1 & P2). destruct (ldb_safe (off_struct b + off) ltac:(lia)) as (v & E). rewrite E. cbn [obind]. rewrite to_int_small by lia.
  destruct (Z.eqb_spec v 0) as [->|N].
  - right. exists (off + 1). split; [reflexivity|]. split; [lia|]. split; [lia|]. split; [lia|]. replace (off_struct b + (off + 1) - 1) with (off_struct b + off) by lia. exact E.
  - destruct (IH (off + 1) ltac:(lia) ltac:(lia)) as [ -> |(e & -> & H1 & H2 & H3 & H4)]; [left; reflexivity|]. right. exists e. split; [reflexivity|]. split; [lia|auto].
Qed.

(** The word that makes a property end where it starts. *)
Definition stall : Z := 2 ^ 32 - 12.
Lemma to_int_cong : forall off start, isint off -> isint start -> 0 <= start -> start + (off - start) mod 2 ^ 32 < 2 ^ 31 -> off = start + (off - start) mod 2 ^ 32.
Proof using.
  intros off start I J S0 H. unfold isint in *. set (m := (off - start) mod 2 ^ 32) in *. pose proof (Z.div_mod (off - start) (2 ^ 32) ltac:(lia)) as DM. fold m in DM. pose proof (Z.mod_pos_bound (off - start) (2 ^ 32) ltac:(lia)) as MB. fold m in MB.
  assert ((off - start) / 2 ^ 32 = 0 \/ (off - start) / 2 ^ 32 = -1 \/ (off - start) / 2 ^ 32 <= -2 \/ 1 <= (off - start) / 2 ^ 32) as [Hq|[Hq|[Hq|Hq]]] by lia; try rewrite Hq in DM; lia.
Qed.
Lemma finish_safe : forall tag start off, isint start -> isint off ->
  let r := match offset_ptr b start ((off - start) mod 2 ^ 32) with None => Val (FEND, ERR_BADSTRUCTURE) | Some _ => Val (tag, tagalign off) end in
  r = Val (FEND, ERR_BADSTRUCTURE) \/ (r = Val (tag, up4 off) /\ 0 <= start <= off /\ off_struct b + off <= totalsize b).
Proof using Hb Ht Hl.
  intros tag start off I J. cbv zeta. pose proof (Z.mod_pos_bound (off - start) (2 ^ 32) ltac:(lia)) as MB. destruct (offset_ptr b start ((off - start) mod 2 ^ 32)) as [p|] eqn:Ep; [|left; reflexivity].
  apply offset_ptr_some in Ep; [|exact I|lia]. destruct Ep as (P0 & -> & P1 & P2). assert (E : off = start + (off - start) mod 2 ^ 32) by (apply to_int_cong; try assumption; lia).
  right. rewrite tagalign_small by lia. split; [reflexivity|]. lia.
Qed.

Definition tag_result (start tag next : Z) : Prop :=
  (tag = FEND /\ next < 0 /\ isint next) \/
  (0 <= start /\ 0 <= off_struct b /\ off_struct b + start + 4 <= totalsize b /\ start <= next < 2 ^ 31 /\ next mod 4 = 0 /\
   (16 <= version b -> start = next -> ld32 b (off_struct b + start + 4) = Val stall) /\
   (tag = BEGIN_NODE -> exists z, off_struct b + start + 4 <= z /\ ldb b z = Val 0)).
Lemma up4_mod : forall x, up4 x mod 4 = 0.
Proof using. intro x. unfold up4. apply Z.mod_mul. lia. Qed.
Lemma next_tag_safe : forall start, isint start -> exists tag next, next_tag b start = Val (tag, next) /\ tag_result start tag next.
Proof using Hb Ht Hl.
  intros start I. unfold next_tag. cbv zeta. destruct (offset_ptr b start 4) as [p|] eqn:Ep; [|eexists _, _; split; [reflexivity|left; repeat split; vm_compute; congruence]].
  apply offset_ptr_some in Ep; [|exact I|lia]. destruct Ep as (P0 & -> & P1 & P2). destruct (ld32_safe (off_struct b + start) ltac:(lia) ltac:(lia)) as (tag & -> & Rt). cbn [obind].
  assert (Bad : exists t n, Val (FEND, ERR_BADSTRUCTURE) = Val (t, n) /\ tag_result start t n) by (eexists _, _; split; [reflexivity|left; repeat split; vm_compute; congruence]).
  rewrite (to_int_small (start + 4)) by lia.
  destruct (Z.eqb_spec tag BEGIN_NODE) as [->|NB].
  - destruct (skip_name_safe (S (length b)) (start + 4) ltac:(lia) ltac:(unfold zlen; lia)) as [ -> |(e & -> & H1 & H2 & H3 & H4)]; cbn [obind]; [exact Bad|].
    destruct (finish_safe BEGIN_NODE start e I ltac:(unfold isint; lia)) as [ -> |( -> & H5 & H6)]; [exact Bad|]. eexists _, _. split; [reflexivity|]. right. pose proof (up4_ge e).
    split; [lia|]. split; [lia|]. split; [lia|]. split; [lia|]. split; [apply up4_mod|]. split; [intros _ X; lia|]. intros _. exists (off_struct b + e - 1). split; [lia|exact H4].
  - destruct (Z.eqb_spec tag PROP) as [->|NP].
    + destruct (offset_ptr b (start + 4) 4) as [p|] eqn:Ep; [|exact Bad]. apply offset_ptr_some in Ep; [|unfold isint; lia|lia]. destruct Ep as (_ & -> & _ & P3).
      destruct (ld32_safe (off_struct b + (start + 4)) ltac:(lia) ltac:(lia)) as (len & El & Rl). rewrite El. cbn [obind].
      match goal with |- context [tagalign ?o] => set (off := o) end. assert (Io : isint off) by (unfold off; destruct (_ && _); apply to_int_range).
      destruct (finish_safe PROP start off I Io) as [ -> |( -> & H5 & H6)]; [exact Bad|]. eexists _, _. split; [reflexivity|]. right. pose proof (up4_ge off).
      split; [lia|]. split; [lia|]. split; [lia|]. split; [lia|]. split; [apply up4_mod|]. split; [|discriminate].
      intros V X. replace (off_struct b + start + 4) with (off_struct b + (start + 4)) by lia. rewrite El. f_equal. assert (Eo : off = start) by lia. unfold off in Eo.
      destruct (Z.ltb_spec (version b) 16); [lia|]. cbn [andb] in Eo. unfold to_int in Eo. unfold stall.
      assert (D0 : (start + 4 + 8 + len + 2 ^ 31) mod 2 ^ 32 = start + 2 ^ 31) by lia. pose proof (Z.div_mod (start + 4 + 8 + len + 2 ^ 31) (2 ^ 32) ltac:(lia)) as DM. rewrite D0 in DM.
      set (qq := (start + 4 + 8 + len + 2 ^ 31) / 2 ^ 32) in *. clearbody qq. clear - DM Rl P0 P2 Ht Hl. assert (qq = 0 \/ qq = 1 \/ qq <= -1 \/ 2 <= qq) as [Hq|[Hq|[Hq|Hq]]] by lia; try rewrite Hq in DM; lia.
    + destruct (Z.eqb_spec tag FEND) as [->|NF]; cbn [orb]; [|destruct (Z.eqb_spec tag END_NODE) as [->|NE]; cbn [orb]; [|destruct (Z.eqb_spec tag NOP) as [->|NN]; [|exact Bad]]];
        match goal with |- context [Val (?t, tagalign (start + 4))] => destruct (finish_safe t start (start + 4) I ltac:(unfold isint; lia)) as [ -> |( -> & H5 & H6)]; [exact Bad|] end;
        eexists _, _; (split; [reflexivity|]); right; pose proof (up4_ge (start + 4)); (split; [lia|]); (split; [lia|]); (split; [lia|]); (split; [lia|]); (split; [apply up4_mod|]); (split; [intros _ X; lia|]); discriminate.
Qed.
Lemma tag_isint : forall start tag next, tag_result start tag next -> isint next.
Proof using. intros start tag next [(_ & _ & I)|(H1 & _ & _ & H2 & _)]; [exact I|unfold isint; lia]. Qed.

Definition fine {A} (P : A -> Prop) (o : out A) : Prop := match o with Val x => P x | UB => False | NoFuel => True end.
Lemma fine_bind : forall A B (P : A -> Prop) (Q : B -> Prop) o (k : A -> out B), fine P o -> (forall x, P x -> fine Q (k x)) -> fine Q (obind o k).
Proof using. intros A B P Q [x| |] k H K; cbn [fine obind] in *; auto. Qed.

Lemma check_offset_fine : forall tag off, isint off -> exists next, check_offset tag b off = Val next /\ isint next /\
  (0 <= next -> 0 <= off /\ off <= next /\ (16 <= version b -> off = next -> ld32 b (off_struct b + off + 4) = Val stall) /\ (tag = BEGIN_NODE -> exists z, 0 <= off_struct b + off + 4 <= z /\ ldb b z = Val 0)).
Proof using Hb Ht Hl.
  intros tag off I. unfold check_offset. destruct ((off <? 0) || negb (off mod 4 =? 0)); [eexists; split; [reflexivity|]; split; [unfold isint; vm_compute; split; congruence|]; intro H; vm_compute in H; congruence|].
  destruct (next_tag_safe off I) as (t & next & -> & T). cbn [obind]. destruct (Z.eqb_spec t tag) as [->|N]; [|eexists; split; [reflexivity|]; split; [unfold isint; vm_compute; split; congruence|]; intro H; vm_compute in H; congruence].
  exists next. split; [reflexivity|]. split; [exact (tag_isint _ _ _ T)|]. intro Nn. destruct T as [(_ & X & _)|(H1 & H2 & H3 & H4 & H5 & H6 & H7)]; [lia|]. split; [lia|]. split; [lia|]. split; [exact H6|].
  intro E. destruct (H7 E) as (z & Z1 & Z2). exists z. split; [lia|exact Z2].
Qed.
Lemma next_node_loop_fine : forall fuel off depth, isint off -> fine (fun r => isint (fst r) /\ (0 <= off -> fst r < 0 \/ off <= fst r)) (next_node_loop fuel b off depth).
Proof using Hb Ht Hl.
  induction fuel as [|fuel IH]; intros off depth I; cbn [next_node_loop fine]; [exact Logic.I|]. destruct (next_tag_safe off I) as (tag & next & -> & T). cbn [obind]. pose proof (tag_isint _ _ _ T) as In.
  assert (Mono : tag <> FEND -> off <= next). { intro N. destruct T as [(X & _)|(_ & _ & _ & H & _)]; [congruence|lia]. }
  assert (Step : forall dd, tag <> FEND -> fine (fun r => isint (fst r) /\ (0 <= off -> fst r < 0 \/ off <= fst r)) (next_node_loop fuel b next dd)).
  { intros dd N. specialize (IH next dd In). specialize (Mono N). destruct (next_node_loop fuel b next dd); cbn [fine] in *; try tauto. destruct IH as [H1 H2]. split; [exact H1|]. intro Z0. destruct H2; lia. }
  destruct (Z.eqb_spec tag BEGIN_NODE) as [->|N1]; [cbn [fine fst]; split; [exact I|lia]|]. destruct (Z.eqb_spec tag END_NODE) as [->|N2].
  - destruct depth as [d|]; [|apply Step; discriminate]. destruct (d - 1 <? 0); [|apply Step; discriminate]. cbn [fine fst]. split; [exact In|]. intro. right. apply Mono. discriminate.
  - destruct (Z.eqb_spec tag FEND) as [->|N3]; [|apply Step; exact N3]. cbn [fine fst]. destruct (Z.leb_spec 0 next); cbn [orb]; [split; [unfold isint; vm_compute; split; congruence|left; vm_compute; reflexivity]|].
    destruct ((next =? ERR_TRUNCATED) && _); [split; [unfold isint; vm_compute; split; congruence|left; vm_compute; reflexivity]|]. split; [exact In|lia].
Qed.
Lemma next_node_fine : forall fuel off depth, isint off -> fine (fun r => isint (fst r)) (next_node fuel b off depth).
Proof using Hb Ht Hl.
  intros fuel off depth I. assert (L : forall o dd, isint o -> fine (fun r => isint (fst r)) (next_node_loop fuel b o dd)).
  { intros o dd Io. pose proof (next_node_loop_fine fuel o dd Io) as H. destruct (next_node_loop fuel b o dd); cbn [fine] in *; tauto. }
  unfold next_node. destruct (0 <=? off); [|apply L; unfold isint; lia]. destruct (check_offset_fine BEGIN_NODE off I) as (next & E & In & _). unfold check_node_offset. rewrite E. cbn [obind].
  destruct (next <? 0); [exact In|apply L; exact In].
Qed.
Lemma get_name_fine : forall off, isint off -> exists r, get_name b off = Val r /\ forall p, fst r = Some p -> 0 <= p /\ p + snd r <= zlen b /\ 0 <= snd r.
Proof using Hb Ht Hl.
  intros off I. unfold get_name. cbv zeta. destruct (negb (check_header b =? 0)); [eexists; split; [reflexivity|discriminate]|].
  destruct (check_offset_fine BEGIN_NODE off I) as (next & E & In & C). unfold check_node_offset. rewrite E. cbn [obind]. destruct (Z.ltb_spec next 0) as [N|N]; [eexists; split; [reflexivity|discriminate]|].
  destruct (C N) as (H1 & _ & _ & H2). destruct (H2 eq_refl) as (z & Z1 & Z2).
  assert (Lz : z < zlen b). { unfold ldb in Z2. destruct (z <? 0); [discriminate|]. destruct (nth_error b (Z.to_nat z)) eqn:En; [|discriminate]. assert (Z.to_nat z < length b)%nat by (apply nth_error_Some; congruence). unfold zlen. lia. }
  destruct (strlen_safe z (S (length b)) (off_struct b + off + 4) ltac:(lia) Z2 ltac:(unfold zlen in *; lia)) as (n & -> & Hn). cbn [obind]. eexists. split; [reflexivity|]. cbn [fst snd]. intros p Ep. apply some_inj in Ep. subst p. rewrite to_int_small by lia. lia.
Qed.
Lemma find_node_loop_fine : forall fuel fuel' name off, isint off -> fine (fun _ => True) (find_node_loop fuel fuel' b name off).
Proof using Hb Ht Hl.
  induction fuel as [|fuel IH]; intros fuel' name off I; cbn [find_node_loop]; destruct (off <? 0); try exact Logic.I. destruct (get_name_fine off I) as ([nstr nlen] & -> & H). cbn [obind fst snd] in *.
  assert (E : exists same, match nstr with Some p => if nlen =? zlen name then eq_at b p name else Val false | None => Val false end = Val same).
  { destruct nstr as [p|]; [|eexists; reflexivity]. destruct (H p eq_refl) as (H1 & H2 & H3). destruct (Z.eqb_spec nlen (zlen name)); [|eexists; reflexivity]. apply eq_at_safe; lia. }
  destruct E as (same & ->). cbn [obind]. destruct same; [exact Logic.I|]. apply (fine_bind _ _ (fun r => isint (fst r))); [apply next_node_fine; exact I|]. intros [o dd] Io. cbn [fst] in Io. apply IH. exact Io.
Qed.
Lemma find_node_fine : forall fuel start name, isint start -> find_node_offset fuel b start name <> UB.
Proof using Hb Ht Hl.
  intros fuel start name I. assert (F : fine (fun _ => True) (find_node_offset fuel b start name)).
  { unfold find_node_offset. apply (fine_bind _ _ (fun r => isint (fst r))); [apply next_node_fine; exact I|]. intros [o dd] Io. cbn [fst] in Io. apply find_node_loop_fine. exact Io. }
  intro E. rewrite E in F. exact F.
Qed.
Lemma nodename_eq_fine : forall off s, isint off -> zlen s + 1 < 2 ^ 32 -> exists r, nodename_eq b off s = Val r.
Proof using Hb Ht Hl.
  intros off s I Ls. unfold nodename_eq. pose proof (zlen_nn _ s) as Ns. rewrite (Z.mod_small (zlen s + 1)) by lia. destruct (offset_ptr b (to_int (off + 4)) (zlen s + 1)) as [p|] eqn:Ep; [|eexists; reflexivity].
  apply offset_ptr_some in Ep; [|apply to_int_range|lia]. destruct Ep as (P0 & Ep & P1 & P2). destruct (eq_at_safe s p ltac:(lia) ltac:(lia)) as (r & ->). cbn [obind]. destruct r; [|eexists; reflexivity].
  destruct (ldb_safe (p + zlen s) ltac:(lia)) as (v & ->). cbn [obind]. eexists; reflexivity.
Qed.
Lemma subnode_loop_fine : forall fuel fuel' s off depth, isint off -> zlen s + 1 < 2 ^ 32 -> fine (fun _ => True) (subnode_loop fuel fuel' b s off depth).
Proof using Hb Ht Hl.
  induction fuel as [|fuel IH]; intros fuel' s off depth I Ls; cbn [subnode_loop]; destruct ((0 <=? off) && (0 <=? depth)); try (destruct (depth <? 0); exact Logic.I); try exact Logic.I.
  assert (E : exists same, (if depth =? 1 then nodename_eq b off s else Val false) = Val same) by (destruct (depth =? 1); [apply nodename_eq_fine; assumption|eexists; reflexivity]). destruct E as (same & ->). cbn [obind].
  destruct same; [exact Logic.I|]. apply (fine_bind _ _ (fun r => isint (fst r))); [apply next_node_fine; exact I|]. intros [o dd] Io. cbn [fst] in Io. apply IH; assumption.
Qed.
Lemma subnode_fine : forall fuel off s, isint off -> zlen s + 1 < 2 ^ 32 -> subnode_offset fuel b off s <> UB.
Proof using Hb Ht Hl. intros fuel off s I Ls E. pose proof (subnode_loop_fine fuel fuel s off 0 I Ls) as F. unfold subnode_offset in E. rewrite E in F. exact F. Qed.

(** Without a stalling property every step advances. *)
Context (Hv : 16 <= version b) (Hs : forall a, ld32 b a <> Val stall).
Lemma node_step : forall fuel off, 0 <= off < 2 ^ 31 -> zlen b - off <= Z.of_nat fuel -> (0 < fuel)%nat ->
  exists r, next_node_loop fuel b off None = Val (r, None) /\ isint r /\ (r < 0 \/ (off <= r /\ r + 4 <= zlen b)).
Proof using Hb Ht Hl Hv Hs.
  induction fuel as [|fuel IH]; intros off I F F0; [lia|]. cbn [next_node_loop]. destruct (next_tag_safe off ltac:(unfold isint; lia)) as (tag & next & -> & T). cbn [obind]. pose proof (tag_isint _ _ _ T) as In.
  assert (Step : tag <> FEND -> exists r, next_node_loop fuel b next None = Val (r, None) /\ isint r /\ (r < 0 \/ (off <= r /\ r + 4 <= zlen b))).
  { intro N. destruct T as [(X & _)|(H1 & H2 & H3 & H4 & H5 & H6 & H7)]; [congruence|]. assert (off <> next) by (intro E; exact (Hs _ (H6 Hv E))).
    destruct (IH next ltac:(lia) ltac:(lia) ltac:(lia)) as (r & E & Ir & Hr). exists r. split; [exact E|]. split; [exact Ir|lia]. }
  destruct (Z.eqb_spec tag BEGIN_NODE) as [->|N1]; [exists off; split; [reflexivity|]; destruct T as [(X & _)|(H1 & H2 & H3 & _)]; [discriminate|unfold isint; lia]|]. destruct (Z.eqb_spec tag END_NODE) as [->|N2]; [apply Step; discriminate|].
  destruct (Z.eqb_spec tag FEND) as [->|N3]; [|apply Step; exact N3]. eexists. split; [reflexivity|]. destruct (Z.leb_spec 0 next); cbn [orb]; [split; [unfold isint; vm_compute; split; congruence|left; vm_compute; reflexivity]|].
  destruct ((next =? ERR_TRUNCATED) && _); [split; [unfold isint; vm_compute; split; congruence|left; vm_compute; reflexivity]|]. split; [exact In|lia].
Qed.
Lemma next_node_ends : forall fuel off, isint off -> (length b <= fuel)%nat -> (0 < fuel)%nat -> exists r, next_node fuel b off None = Val (r, None) /\ isint r /\ (r < 0 \/ r + 4 <= zlen b) /\ (0 <= off -> r < 0 \/ off < r).
Proof using Hb Ht Hl Hv Hs.
  intros fuel off I F F0. unfold next_node. destruct (Z.leb_spec 0 off) as [N|N].
  - destruct (check_offset_fine BEGIN_NODE off I) as (next & E & In & C). unfold check_node_offset. rewrite E. cbn [obind]. destruct (Z.ltb_spec next 0) as [N2|N2]; [exists next; split; [reflexivity|]; split; [exact In|split; lia]|].
    destruct (C N2) as (H1 & H2 & H3 & _). assert (off <> next) by (intro X; exact (Hs _ (H3 Hv X))). destruct (node_step fuel next ltac:(unfold isint in In; lia) ltac:(unfold zlen; lia) F0) as (r & -> & Ir & Hr). exists r. split; [reflexivity|]. split; [exact Ir|split; lia].
  - destruct (node_step fuel 0 ltac:(lia) ltac:(unfold zlen; lia) F0) as (r & -> & Ir & Hr). exists r. split; [reflexivity|]. split; [exact Ir|split; lia].
Qed.
Lemma find_node_loop_ends : forall name fuel fuel' off, isint off -> (length b <= fuel')%nat -> (0 < fuel')%nat -> off < 0 \/ off + 4 <= zlen b -> zlen b - off <= Z.of_nat fuel -> exists r, find_node_loop fuel fuel' b name off = Val r.
Proof using Hb Ht Hl Hv Hs.
  intros name fuel fuel'. induction fuel as [|fuel IH]; intros off I F1 F0 B F; cbn [find_node_loop]; destruct (Z.ltb_spec off 0) as [N|N]; try (eexists; reflexivity); [lia|].
  destruct (get_name_fine off I) as ([nstr nlen] & -> & H). cbn [obind fst snd] in *.
  assert (E : exists same, match nstr with Some p => if nlen =? zlen name then eq_at b p name else Val false | None => Val false end = Val same).
  { destruct nstr as [p|]; [|eexists; reflexivity]. destruct (H p eq_refl) as (H1 & H2 & H3). destruct (Z.eqb_spec nlen (zlen name)); [|eexists; reflexivity]. apply eq_at_safe; lia. }
  destruct E as (same & ->). cbn [obind]. destruct same; [eexists; reflexivity|]. destruct (next_node_ends fuel' off I F1 F0) as (r & -> & Ir & Hr & Hr2). cbn [obind].
  destruct (Hr2 N) as [Neg|Pos]; [destruct fuel; cbn [find_node_loop]; (destruct (Z.ltb_spec r 0); [eexists; reflexivity|lia])|]. apply IH; try assumption; lia.
Qed.
Lemma find_node_ends : forall fuel start name, isint start -> (length b <= fuel)%nat -> (0 < fuel)%nat -> exists r, find_node_offset fuel b start name = Val r.
Proof using Hb Ht Hl Hv Hs.
  intros fuel start name I F F0. unfold find_node_offset. destruct (next_node_ends fuel start I F F0) as (r & -> & Ir & Hr & _). cbn [obind].
  destruct (Z.ltb_spec r 0); [destruct fuel; cbn [find_node_loop]; (destruct (Z.ltb_spec r 0); [eexists; reflexivity|lia])|]. apply find_node_loop_ends; try assumption; unfold zlen in *; lia.
Qed.
End safe.
