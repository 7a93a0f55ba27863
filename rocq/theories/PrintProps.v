(** C85: the bootloader's messages. *)
From Verif Require Import Base BaseLemmas StringModel StringSpec StringProofs StringProps PrintModel PrintSpec.

(** The argument of a piece. *)
Definition slots (p : piece) : list slot :=
  match p with
  | Text _ | Percent => []
  | Number _ _ _ v => [mkSlot v None]
  | Pointer v => [mkSlot v None]
  | String_ l => [mkSlot 0 (Some l)]
  | Char c => [mkSlot c None]
  end.

(** Pieces that are printed: 32-bit numbers, "%u" below 2^31; on 32-bit processors decimal
    numbers of at most 9 characters; padded numbers are not negative. *)
Definition printable (w : Z) (p : piece) : Prop :=
  match p with
  | Text c => c <> 37
  | Percent => True
  | Number conv pad size v =>
      Forall (fun c => c = 108 \/ c = 122) size /\
      match pad with Some k => 1 <= k <= 8 /\ 0 <= v | None => True end /\
      ((conv = 120 /\ 0 <= v < 2 ^ 32) \/
       ((conv = 100 \/ conv = 105 \/ (conv = 117 /\ 0 <= v)) /\ - 2 ^ 31 < v < 2 ^ 31 /\ (w = 8 \/ - 10 ^ 8 < v < 10 ^ 9)))
  | Pointer v => 0 <= v < 2 ^ 32
  | String_ _ => True
  | Char c => 0 <= c < 256
  end.

Lemma formatters_size : forall size zp md c r, Forall (fun c => c = 108 \/ c = 122) size ->
  c = 120 \/ c = 100 \/ c = 105 \/ c = 117 -> formatters (size ++ c :: r) zp md = Val (c :: r, zp, md).
Proof.
  induction size as [|x s IH]; intros zp md c r F C.
  - cbn [app]. destruct C as [C|[C|[C|C]]]; subst c; reflexivity.
  - inversion F as [|? ? [X|X] F']; subst; cbn [app]; rewrite <- (IH zp md c r F' C); reflexivity.
Qed.

Lemma to_int_small : forall v, - 2 ^ 31 <= v < 2 ^ 31 -> to_int v = v.
Proof. intros v H. unfold to_int. rewrite Z.mod_small by lia. lia. Qed.
Lemma to_int_range : forall v, - 2 ^ 31 <= to_int v < 2 ^ 31.
Proof. intro v. unfold to_int. pose proof (Z.mod_pos_bound (v + 2 ^ 31) (2 ^ 32) ltac:(lia)). lia. Qed.
Lemma to_int_mod : forall v, to_int v mod 2 ^ 32 = v mod 2 ^ 32.
Proof.
  intro v. unfold to_int. rewrite Zminus_mod_idemp_l. f_equal. lia.
Qed.

Lemma hex_out : forall w v zp md, w = 4 \/ w = 8 -> 0 <= v < 2 ^ 32 -> 0 <= md <= 8 ->
  exists l, numeral 16 l v /\ writenum w (to_int v) 16 zp md =
    Val ((if zp then repeat 48 (Z.to_nat (if md =? 0 then 8 else md) - length l) else []) ++ l).
Proof.
  intros w v zp md W V M. pose proof (to_int_range v) as R.
  destruct (C42_writenum w (to_int v) 16 zp md 8 W (or_intror eq_refl) R ltac:(discriminate) ltac:(lia)) as (l & N & E).
  - change ((16 =? 10) && _) with false. cbn match. rewrite to_int_mod, Z.mod_small by lia. change (16 ^ Z.of_nat 8) with (2 ^ 32). lia.
  - lia.
  - change ((16 =? 10) && _) with false. cbn match. lia.
  - change ((16 =? 10) && _) with false in N, E. cbn match in N, E. rewrite to_int_mod, Z.mod_small in N by lia. exists l. split; [exact N|exact E].
Qed.

Lemma dec_out : forall w v zp md, w = 4 \/ w = 8 -> - 2 ^ 31 < v < 2 ^ 31 -> w = 8 \/ - 10 ^ 8 < v < 10 ^ 9 -> 0 <= md <= 8 ->
  exists l, numeral 10 l (Z.abs v) /\ writenum w (to_int v) 10 zp md =
    Val ((if v <? 0 then [45] else []) ++ (if zp then repeat 48 (Z.to_nat (if md =? 0 then 8 else md) - length l) else []) ++ l).
Proof.
  intros w v zp md W V B M. rewrite to_int_small by lia.
  set (K := if w =? 8 then 10%nat else if v <? 0 then 8%nat else 9%nat).
  assert (AV : (if (10 =? 10) && (v <? 0) then - v else v mod 2 ^ 32) = Z.abs v).
  { change (10 =? 10) with true. cbn [andb]. destruct (Z.ltb_spec v 0); [lia|]. rewrite Z.mod_small by lia. lia. }
  destruct (C42_writenum w v 10 zp md K W (or_introl eq_refl) ltac:(lia) ltac:(lia) ltac:(lia)) as (l & N & E).
  - rewrite AV. unfold K. destruct (Z.eqb_spec w 8); [change (10 ^ Z.of_nat 10) with 10000000000; lia|]. destruct (Z.ltb_spec v 0); [change (10 ^ Z.of_nat 8) with 100000000|change (10 ^ Z.of_nat 9) with 1000000000]; lia.
  - unfold K. destruct (w =? 8), (v <? 0); lia.
  - change (10 =? 10) with true. cbn [andb]. unfold K. destruct (Z.eqb_spec w 8), (Z.ltb_spec v 0); lia.
  - rewrite AV in N. exists l. split; [exact N|]. rewrite E. reflexivity.
Qed.

Definition fuel_of (fmt : list Z) : nat := S (length fmt).

Lemma one_piece : forall w p, w = 4 \/ w = 8 -> printable w p -> exists o, shown p o /\
  forall n fmt a, (length (written_as p ++ fmt) < n)%nat -> exists n', (length fmt < n')%nat /\
    vprintf n w (written_as p ++ fmt) (slots p ++ a) = (dlet o' <- vprintf n' w fmt a in Val (o ++ o')).
Proof.
  intros w p W P. destruct p as [c| |conv pad size v|v|l|c]; cbn [printable] in P.
  - exists [c]. split; [reflexivity|]. intros n fmt a L. destruct n as [|n]; [lia|]. exists n. split; [cbn in L; lia|].
    cbn [written_as slots app vprintf]. rewrite (proj2 (Z.eqb_neq c 37) P). reflexivity.
  - exists [37]. split; [reflexivity|]. intros n fmt a L. destruct n as [|n]; [lia|]. exists n. split; [cbn in L; lia|]. reflexivity.
  - destruct P as (Sz & Pd & C).
    assert (CC : conv = 120 \/ conv = 100 \/ conv = 105 \/ conv = 117) by tauto.
    set (zp := match pad with Some _ => true | None => false end). set (md := match pad with Some k => k | None => 0 end).
    assert (MD : 0 <= md <= 8) by (unfold md; destruct pad; lia).
    assert (FM : forall fmt, formatters (match pad with Some k => [48; 48 + k] | None => [] end ++ size ++ conv :: fmt) false 0 = Val (conv :: fmt, zp, md)).
    { intro fmt. destruct pad as [k|]; [|apply formatters_size; assumption]. destruct Pd as [Pk _].
      assert (K : k = 1 \/ k = 2 \/ k = 3 \/ k = 4 \/ k = 5 \/ k = 6 \/ k = 7 \/ k = 8) by lia.
      unfold zp, md. destruct K as [K|[K|[K|[K|[K|[K|[K|K]]]]]]]; subst k;
        (etransitivity; [|apply (formatters_size size true _ conv fmt Sz CC)]); reflexivity. }
    assert (O : exists l, numeral (base_of conv) l (Z.abs v) /\ writenum w (to_int v) (base_of conv) zp md =
      Val ((if v <? 0 then [45] else []) ++ (if zp then repeat 48 (Z.to_nat (if md =? 0 then 8 else md) - length l) else []) ++ l)).
    { destruct C as [[C V]|(C & V & B)].
      - subst conv. change (base_of 120) with 16. destruct (hex_out w v zp md W V MD) as (l & N & E). exists l.
        rewrite Z.abs_eq, (proj2 (Z.ltb_ge v 0)) by lia. split; [exact N|exact E].
      - replace (base_of conv) with 10 by (destruct C as [C|[C|[C _]]]; subst conv; reflexivity).
        exact (dec_out w v zp md W V B MD). }
    destruct O as (l & N & E).
    exists ((if v <? 0 then [45] else []) ++ repeat 48 (width pad - length l) ++ l). split; [exists l; split; [exact N|reflexivity]|].
    intros n fmt a L. destruct n as [|n]; [lia|]. exists n. split; [rewrite app_length in L; cbn [written_as length] in L; lia|].
    assert (WA : written_as (Number conv pad size v) ++ fmt = 37 :: match pad with Some k => [48; 48 + k] | None => [] end ++ size ++ conv :: fmt)
      by (cbn [written_as]; rewrite <- app_comm_cons, <- !app_assoc; reflexivity).
    rewrite WA. cbn [slots app vprintf]. change (negb (37 =? 37)) with false. cbn match. rewrite FM. cbn [obind].
    assert (CV : convert w conv zp md (mkSlot v None :: a) =
      Val ((if v <? 0 then [45] else []) ++ repeat 48 (width pad - length l) ++ l, a)).
    { unfold convert, next_int. cbn [s_val]. replace ((if zp then repeat 48 (Z.to_nat (if md =? 0 then 8 else md) - length l) else []))
        with (repeat 48 (width pad - length l)) in E.
      - destruct CC as [CC|[CC|[CC|CC]]]; subst conv; cbn [Z.eqb Pos.eqb orb]; cbv [base_of] in E; cbn [Z.eqb Pos.eqb] in E; cbv [obind]; rewrite E; reflexivity.
      - unfold zp, md, width. destruct pad as [k|]; [|reflexivity]. rewrite (proj2 (Z.eqb_neq k 0)) by lia. reflexivity. }
    rewrite CV. reflexivity.
  - destruct (hex_out w v false 0 W P ltac:(lia)) as (l & N & E). exists (48 :: 120 :: l). split; [exists l; split; [exact N|reflexivity]|].
    intros n fmt a L. destruct n as [|n]; [lia|]. exists n. split; [cbn in L; lia|].
    cbn [written_as slots app vprintf formatters]. change (negb (37 =? 37)) with false. cbn [andb Z.leb Z.compare Pos.compare Pos.compare_cont Z.eqb Pos.eqb].
    cbv [obind]. unfold convert, next_int. cbn [Z.eqb Pos.eqb orb s_val]. cbv [obind]. rewrite E. reflexivity.
  - exists l. split; [reflexivity|]. intros n fmt a L. destruct n as [|n]; [lia|]. exists n. split; [cbn in L; lia|]. reflexivity.
  - exists [c]. split; [reflexivity|]. intros n fmt a L. destruct n as [|n]; [lia|]. exists n. split; [cbn in L; lia|].
    cbn [written_as slots app vprintf formatters]. change (negb (37 =? 37)) with false. cbn [andb Z.leb Z.compare Pos.compare Pos.compare_cont Z.eqb Pos.eqb].
    cbv [obind]. unfold convert, next_int. cbn [Z.eqb Pos.eqb orb s_val]. cbv [obind]. rewrite to_int_small, Z.mod_small by lia. reflexivity.
Qed.

Lemma all_pieces : forall w ps, w = 4 \/ w = 8 -> Forall (printable w) ps -> exists os, Forall2 shown ps os /\
  forall n rest, (length (concat (map written_as ps)) < n)%nat ->
    vprintf n w (concat (map written_as ps)) (concat (map slots ps) ++ rest) = Val (concat os).
Proof.
  intros w ps W. induction ps as [|p ps IH]; intro F.
  - exists []. split; [constructor|]. intros n rest L. destruct n; [lia|]. reflexivity.
  - inversion F as [|? ? P F']; subst. destruct (one_piece w p W P) as (o & S1 & E1). destruct (IH F') as (os & S2 & E2).
    exists (o :: os). split; [constructor; assumption|]. intros n rest L. cbn [map concat] in L |- *. rewrite <- app_assoc.
    destruct (E1 n _ (concat (map slots ps) ++ rest) L) as (n' & L' & E). rewrite E, (E2 n' rest L'). reflexivity.
Qed.

(** Every message of printable pieces is printed: one piece after the other, each with its own
    argument, and nothing else.  No access leaves the buffer. *)
Theorem C85_printf : forall w ps rest, w = 4 \/ w = 8 -> Forall (printable w) ps ->
  let fmt := concat (map written_as ps) in
  exists os, Forall2 shown ps os /\ vprintf (fuel_of fmt) w fmt (concat (map slots ps) ++ rest) = Val (concat os).
Proof.
  intros w ps rest W F fmt. destruct (all_pieces w ps W F) as (os & S1 & E). exists os. split; [exact S1|]. apply E. unfold fuel_of, fmt. lia.
Qed.
Print Assumptions C85_printf.

(** ** Where the code violates the property *)

(** "%lx" and "%p" print only the low 32 bits: every address at a multiple of 4 GB is "0x0". *)
Theorem C85_long_refuted : forall v rest, vprintf 4 8 [37; 112] (mkSlot (v * 2 ^ 32) None :: rest) = Val [48; 120; 48].
Proof.
  intros v rest. cbn [vprintf formatters]. change (negb (37 =? 37)) with false. cbn [andb Z.leb Z.compare Pos.compare Pos.compare_cont Z.eqb Pos.eqb].
  cbv [obind]. unfold convert, next_int. cbn [Z.eqb Pos.eqb orb s_val].
  replace (to_int (v * 2 ^ 32)) with 0; [vm_compute; reflexivity|]. unfold to_int. rewrite Z.add_comm, Z_mod_plus_full. reflexivity.
Qed.
Print Assumptions C85_long_refuted.

(** A [long long] takes two arguments on a 32-bit processor and printf one: "%llx %s" uses the
    other half of the number as a string. *)
Theorem C85_long_long_refuted : forall lo hi l, 0 <= lo < 2 ^ 32 -> vprintf 9 4 [37; 108; 108; 120; 37; 115] [mkSlot lo None; mkSlot hi None; mkSlot 0 (Some l)] = UB.
Proof.
  intros lo hi l Lo. destruct (hex_out 4 lo false 0 (or_introl eq_refl) Lo ltac:(lia)) as (d & _ & E).
  cbn [vprintf formatters]. change (negb (37 =? 37)) with false. cbn [andb Z.leb Z.compare Pos.compare Pos.compare_cont Z.eqb Pos.eqb].
  cbv [obind]. unfold convert, next_int. cbn [Z.eqb Pos.eqb orb s_val]. cbv [obind]. rewrite E. reflexivity.
Qed.
Print Assumptions C85_long_long_refuted.

(** A format that ends in "%" is read behind its end. *)
Theorem C85_end_refuted : forall w ps rest, w = 4 \/ w = 8 -> Forall (printable w) ps ->
  let fmt := concat (map written_as ps) ++ [37] in vprintf (fuel_of fmt) w fmt (concat (map slots ps) ++ rest) = UB.
Proof.
  intros w ps rest W F. cbv zeta. generalize (Nat.lt_succ_diag_r (length (concat (map written_as ps) ++ [37]))).
  fold (fuel_of (concat (map written_as ps) ++ [37])). generalize (fuel_of (concat (map written_as ps) ++ [37])).
  induction ps as [|p ps IH]; intros n L.
  - cbn [map concat app length] in *. destruct n; [lia|]. reflexivity.
  - inversion F as [|? ? P F']; subst. destruct (one_piece w p W P) as (o & _ & E1). cbn [map concat] in *. rewrite <- !app_assoc in *.
    destruct (E1 n (concat (map written_as ps) ++ [37]) (concat (map slots ps) ++ rest) L) as (n' & L' & E). rewrite E, (IH F' n' L'). reflexivity.
Qed.
Print Assumptions C85_end_refuted.

(** Lengths: "%3d" does not align, "%10d" prints 17 digits, "%03d" of -5 has four characters. *)
Theorem C85_length_refuted : vprintf 9 8 [37; 51; 100] [mkSlot 5 None] = Val [53] /\
  vprintf 9 8 [37; 49; 48; 100] [mkSlot 5 None] = Val (repeat 48 16 ++ [53]) /\
  vprintf 9 8 [37; 48; 51; 100] [mkSlot (-5) None] = Val [45; 48; 48; 53].
Proof. vm_compute. auto. Qed.
Print Assumptions C85_length_refuted.

(** ** A concrete case: "v%d @%08lx %s%%" with -7, 0xBEEF, "ok" *)
Definition sample : list piece := [Text 118; Number 100 None [] (-7); Text 32; Text 64; Number 120 (Some 8) [108] 0xBEEF; Text 32; String_ [111; 107]; Percent].
Example C85_hyps : Forall (printable 4) sample /\
  vprintf (fuel_of (concat (map written_as sample))) 4 (concat (map written_as sample)) (concat (map slots sample)) =
  Val [118; 45; 55; 32; 64; 48; 48; 48; 48; 66; 69; 69; 70; 32; 111; 107; 37].
Proof.
  split; [|vm_compute; reflexivity].
  repeat constructor; cbn [printable]; try lia; try (left; split; [reflexivity|lia]); right; repeat split; try lia; auto.
Qed.
