(** C42: the C library functions. *)
From Verif Require Import Base BaseLemmas StringModel StringSpec StringProofs.

(** ** Memory functions *)

Theorem C42_memcpy : forall fast w d s n m, (0 < w)%nat -> 0 <= n -> ok_range m d n -> ok_range m s n -> d + n <= s \/ s + n <= d ->
  exists m', memcpy fast w d s n m = Val m' /\ moved m m' d s n.
Proof. intros fast w d s n m Hw Hn Hd Hs HD. apply memcpy_ok; [exact Hw|exact Hn|exact Hd|exact Hs|lia]. Qed.
Print Assumptions C42_memcpy.

(** Overlapping ranges of less than 2 GiB. *)
Theorem C42_memmove : forall fast w d s n m, (0 < w)%nat -> 0 <= n <= 2 ^ 31 -> ok_range m d n -> ok_range m s n ->
  exists m', memmove fast w d s n m = Val m' /\ moved m m' d s n.
Proof.
  intros fast w d s n m Hw Hn Hd Hs. unfold memmove. destruct (Z.eqb_spec d s) as [->|E].
  - exists m. split; [reflexivity|]. intro x. destruct ((s <=? x) && (x <? s + n)); [|reflexivity]. f_equal. ring.
  - destruct (Z.ltb_spec s d) as [L|L]; [|apply memcpy_ok; [exact Hw|lia|exact Hd|exact Hs|lia]].
    assert (K : Z.of_nat (Z.to_nat (to_int (n - 1) + 1)) = n).
    { unfold to_int. rewrite Z.mod_small by lia. lia. }
    destruct (copy_down_ok (Z.to_nat (to_int (n - 1) + 1)) d s m) as (m' & E1 & M); rewrite ?K in *; [exact Hd|exact Hs|exact L|].
    exists m'. split; [exact E1|exact M].
Qed.
Print Assumptions C42_memmove.

Theorem C42_memset : forall n s c m, ok_range m s (Z.of_nat n) -> exists m', memset n s c m = Val m' /\ stored m m' s (repeat (c mod 256) n).
Proof. exact memset_ok. Qed.
Print Assumptions C42_memset.

Theorem C42_memcmp : forall l1 l2 a b m, length l1 = length l2 -> holds m a l1 -> holds m b l2 ->
  exists v, memcmp (length l1) a b m = Val v /\ sign_is v (lex l1 l2).
Proof. exact memcmp_ok. Qed.
Print Assumptions C42_memcmp.

Theorem C42_memchr : forall l a c m, holds m a l ->
  exists r, memchr (length l) a c m = Val r /\
    match r with
    | Some p => exists i, (i < length l)%nat /\ p = a + Z.of_nat i /\ nth i l 0 = c mod 256 /\ forall j, (j < i)%nat -> nth j l 0 <> c mod 256
    | None => ~ In (c mod 256) l
    end.
Proof. exact memchr_ok. Qed.
Print Assumptions C42_memchr.

(** ** Strings *)

Theorem C42_strlen : forall l fuel a m, cstr m a l -> (length l < fuel)%nat -> strlen fuel a m = Val (zlen l).
Proof. exact strlen_ok. Qed.
Print Assumptions C42_strlen.

Theorem C42_strncmp : forall n l1 l2 a b m, cstr m a l1 -> cstr m b l2 ->
  exists v, strncmp n a b m = Val v /\ sign_is v (lex (firstn n l1) (firstn n l2)).
Proof. exact strncmp_ok. Qed.
Print Assumptions C42_strncmp.

Theorem C42_strcpy : forall l fuel d s m, cstr m s l -> ok_range m d (zlen l + 1) -> (length l < fuel)%nat -> d + zlen l < s \/ s + zlen l < d ->
  exists m', strcpy fuel d s m = Val m' /\ stored m m' d (l ++ [0]).
Proof. exact strcpy_ok. Qed.
Print Assumptions C42_strcpy.

Theorem C42_strcat : forall fuel d s l1 l2 m, cstr m d l1 -> cstr m s l2 -> ok_range m d (zlen l1 + zlen l2 + 1) ->
  d + zlen l1 + zlen l2 < s \/ s + zlen l2 < d -> (length l1 + length l2 + length l2 < fuel)%nat ->
  exists m', strcat fuel d s m = Val m' /\ stored m m' (d + zlen l1) (l2 ++ [0]).
Proof. intros fuel d s l1 l2 m. exact (append_ok fuel None d s l1 l2 m). Qed.
Print Assumptions C42_strcat.

(** The source is copied up to the count, but not padded with zeros. *)
Theorem C42_strncpy_partial : forall l n d s m, cstr m s l -> ok_range m d (Z.of_nat n) -> d + Z.of_nat n <= s \/ s + zlen l < d ->
  exists m', strncpy n d s m = Val m' /\ stored m m' d (firstn n (l ++ [0])).
Proof. exact strncpy_ok. Qed.
Print Assumptions C42_strncpy_partial.

(** The count is the size of the destination: the result is cut there and terminated. *)
Theorem C42_strncat_partial : forall fuel z d s n l1 l2 m, 0 < n <= z -> cstr m d l1 -> cstr m s l2 -> ok_range m d (zlen l1 + zlen l2 + 1) ->
  d + zlen l1 + zlen l2 < s \/ s + zlen l2 < d -> (length l1 + length l2 + length l2 < fuel)%nat ->
  exists m', strncat fuel z d s n m = Val m' /\ stored m m' (d + zlen l1) (firstn (Z.to_nat (n - 1 - zlen l1)) l2 ++ [0]).
Proof.
  intros fuel z d s n l1 l2 m Hn H1 H2 HR HO HF. destruct (append_ok fuel (Some ((n - 1) mod z)) d s l1 l2 m H1 H2 HR HO HF) as (m' & E & S).
  exists m'. split; [exact E|]. cbn [take] in S. rewrite Z.mod_small in S by lia. exact S.
Qed.
Print Assumptions C42_strncat_partial.

(** [strcmp] only sees as much of the second string as the first one is long. *)
Theorem C42_strcmp_partial : forall l1 l2 fuel sc a b m, cstr m a l1 -> cstr m b l2 -> (length l1 < fuel)%nat -> (sc = true -> Forall (fun c => c < 128) (l1 ++ l2)) ->
  exists v, strcmp fuel sc a b m = Val v /\ sign_is v (lex l1 (firstn (length l1) l2)).
Proof. exact strcmp_val. Qed.
Print Assumptions C42_strcmp_partial.

(** ** Numbers *)

Theorem C42_writenum : forall w num base zeropad maxdigits K, w = 4 \/ w = 8 -> base = 10 \/ base = 16 -> - 2 ^ 31 <= num < 2 ^ 31 ->
  (base = 10 -> num <> - 2 ^ 31) -> 0 <= maxdigits <= 2 * w ->
  let neg := (base =? 10) && (num <? 0) in
  let v := if neg then - num else num mod 2 ^ 32 in
  let sg := if neg then 1 else 0 in
  let md := if maxdigits =? 0 then 8 else maxdigits in
  v < base ^ Z.of_nat K -> (0 < K)%nat -> sg + Z.of_nat K <= 2 * w + 1 ->
  exists l, numeral base l v /\ writenum w num base zeropad maxdigits =
    Val ((if neg then [45] else []) ++ (if zeropad then repeat 48 (Z.to_nat md - length l) else []) ++ l).
Proof.
  intros w num base zeropad maxdigits K HW HB Hnum HI HM neg v sg md HK HK0 HL.
  assert (HB2 : 2 <= base <= 16) by lia.
  assert (NV : neg = true -> base = 10 /\ num < 0) by (unfold neg; intro H; apply andb_prop in H as (H1 & H2); split; [apply Z.eqb_eq|apply Z.ltb_lt]; assumption).
  assert (V : 0 <= v < 2 ^ Z.of_nat 40).
  { unfold v. destruct neg; [destruct (NV eq_refl); change (2 ^ Z.of_nat 40) with 1099511627776; lia|].
    pose proof (Z.mod_pos_bound num (2 ^ 32) ltac:(lia)). change (2 ^ Z.of_nat 40) with 1099511627776. lia. }
  set (l := digs 40 base v). destruct (digs_numeral 40 base v HB2 V ltac:(lia)) as (N & _). fold l in N.
  assert (LL : (length l <= K)%nat) by (apply digs_len; [lia|lia|exact HK0]).
  assert (L0 : (0 < length l)%nat) by (destruct l; [exfalso; apply (proj1 (proj2 (proj2 N))); reflexivity|cbn [length]; lia]).
  exists l. split; [exact N|]. unfold writenum. fold md. destruct (Z.ltb_spec (w * 2 + 1) md) as [|_]; [exfalso; unfold md in *; destruct (Z.eqb_spec maxdigits 0); lia|].
  fold neg. assert (E1 : neg && (num =? - 2 ^ 31) = false).
  { destruct neg; [|reflexivity]. destruct (NV eq_refl). destruct (Z.eqb_spec num (- 2 ^ 31)); [exfalso; apply HI; assumption|reflexivity]. }
  rewrite E1. fold v. clear E1. set (size := w * 2 + 1). set (n := Z.to_nat size). assert (SN : size = Z.of_nat n) by (unfold n, size; lia).
  assert (MD : 0 < md < size) by (unfold md, size; destruct (Z.eqb_spec maxdigits 0); lia).
  (* the buffer before the digits *)
  assert (P1 : exists b1, (if neg then put (repeat 0 n) 0 [45] else Val (repeat 0 n)) = Val b1 /\ length b1 = n /\ firstn (Z.to_nat sg) b1 = if neg then [45] else []).
  { destruct neg.
    - rewrite put_ok by (unfold zlen; rewrite ?repeat_length; cbn [length]; lia). eexists. split; [reflexivity|]. cbn [Z.to_nat firstn app length Nat.add]. split; [|reflexivity]. rewrite skipn_length, repeat_length. lia.
    - exists (repeat 0 n). split; [reflexivity|]. split; [apply repeat_length|reflexivity]. }
  destruct P1 as (b1 & -> & LB1 & F1). cbn [obind]. fold sg. clear HI Hnum NV.
  assert (SG : 0 <= sg <= 1) by (unfold sg; destruct neg; lia).
  assert (P2 : exists b2, (if zeropad then put b1 sg (repeat 48 (Z.to_nat md)) else Val b1) = Val b2 /\ length b2 = n /\
     forall k, (k <= Z.to_nat md)%nat -> firstn (Z.to_nat sg + if zeropad then k else O) b2 = (if neg then [45] else []) ++ (if zeropad then repeat 48 k else [])).
  { destruct zeropad.
    - rewrite put_ok by (unfold zlen; rewrite ?repeat_length; lia). eexists. split; [reflexivity|]. split.
      + rewrite !app_length, firstn_length, skipn_length, repeat_length. lia.
      + intros k Hk. rewrite F1. replace (Z.to_nat sg) with (length (if neg then [45] else [])) by (unfold sg; destruct neg; reflexivity).
        rewrite firstn_app_2. f_equal. rewrite firstn_app, repeat_length. replace (k - Z.to_nat md)%nat with O by lia. cbn [firstn]. rewrite app_nil_r.
        replace (Z.to_nat md) with (k + (Z.to_nat md - k))%nat by lia. rewrite repeat_app. rewrite firstn_app, repeat_length, Nat.sub_diag. cbn [firstn]. rewrite app_nil_r.
        apply firstn_all2. rewrite repeat_length. lia.
    - exists b1. split; [reflexivity|]. split; [exact LB1|]. intros k _. rewrite Nat.add_0_r, app_nil_r. exact F1. }
  destruct P2 as (b2 & -> & LB2 & F2). cbn [obind].
  rewrite num_loop_ok; [|lia|exact V|lia|lia|fold l; unfold zlen; rewrite LB2; lia]. fold l. cbn [obind]. change (0 + zlen l) with (zlen l). change (Z.to_nat 0) with O. rewrite Nat.sub_0_r.
  rewrite LB2. rewrite (skipn_all2 b2) by lia. rewrite app_nil_r. set (b3 := firstn (n - length l) b2 ++ l).
  assert (SK : skipn (Z.to_nat (size - zlen l)) b3 = l).
  { replace (Z.to_nat (size - zlen l)) with (n - length l)%nat by (unfold zlen; lia). unfold b3. rewrite skipn_app, firstn_length, LB2.
    replace (n - length l - Nat.min (n - length l) n)%nat with O by lia. rewrite skipn_all2 by (rewrite firstn_length; lia). reflexivity. }
  rewrite SK. set (pad := if zeropad then (Z.to_nat md - length l)%nat else O).
  assert (I : (if zeropad && (zlen l <? md) then sg + (md - zlen l) else sg) = Z.of_nat (Z.to_nat sg + pad)).
  { unfold pad, zlen. destruct zeropad; cbn [andb]; [destruct (Z.ltb_spec (Z.of_nat (length l)) md); lia|lia]. }
  rewrite I. set (i := (Z.to_nat sg + pad)%nat).
  assert (IL : (i + length l <= n)%nat) by (unfold i, pad; destruct zeropad; lia).
  rewrite put_ok by (unfold zlen, b3; rewrite ?app_length, ?firstn_length; lia). cbn [obind]. f_equal. rewrite Nat2Z.id.
  replace (Z.to_nat (Z.of_nat i + zlen l)) with (i + length l)%nat by (unfold zlen; lia).
  assert (FI : firstn i b3 = (if neg then [45] else []) ++ (if zeropad then repeat 48 (Z.to_nat md - length l) else [])).
  { unfold b3. rewrite firstn_app, firstn_length, LB2. replace (i - Nat.min (n - length l) n)%nat with O by lia. cbn [firstn]. rewrite app_nil_r, firstn_firstn.
    replace (Nat.min i (n - length l)) with i by lia. unfold i, pad. specialize (F2 (Z.to_nat md - length l)%nat ltac:(lia)). destruct zeropad; exact F2. }
  transitivity (((if neg then [45] else []) ++ (if zeropad then repeat 48 (Z.to_nat md - length l) else [])) ++ l); [|rewrite <- app_assoc; reflexivity].
  rewrite <- FI. set (pre := firstn i b3).
  assert (PL : length pre = i) by (unfold pre, b3; rewrite firstn_length, app_length, firstn_length; lia).
  rewrite (app_assoc pre). replace (i + length l)%nat with (length (pre ++ l)) by (rewrite app_length; lia).
  rewrite firstn_app, Nat.sub_diag. cbn [firstn]. rewrite app_nil_r. apply firstn_all.
Qed.
Print Assumptions C42_writenum.

(** ** Where the functions differ from ISO C *)

(** Memory with the given byte strings at multiples of 100. *)
Definition at100 (ls : list (list Z)) : mem := fun a =>
  let l := nth (Z.to_nat (a / 100)) ls [] in if a <? 0 then None else nth_error l (Z.to_nat (a mod 100)).
Lemma at_holds : forall ls k l, nth k ls [] = l -> (length l <= 100)%nat -> holds (at100 ls) (100 * Z.of_nat k) l.
Proof.
  intros ls k l E L i Hi. unfold at100. replace ((100 * Z.of_nat k + Z.of_nat i) / 100) with (Z.of_nat k) by lia.
  replace ((100 * Z.of_nat k + Z.of_nat i) mod 100) with (Z.of_nat i) by lia. rewrite !Nat2Z.id, E. destruct (Z.ltb_spec (100 * Z.of_nat k + Z.of_nat i) 0); [lia|].
  apply nth_error_nth'. exact Hi.
Qed.
Lemma at_cstr : forall ls k l r, nth k ls [] = (l ++ [0]) ++ r -> forallb (fun c => (0 <? c) && (c <? 256)) l = true -> Nat.le (length ((l ++ [0]) ++ r)) 100 -> cstr (at100 ls) (100 * Z.of_nat k) l.
Proof.
  intros ls k l r E F L. split.
  - apply Forall_forall. intros c Hc. rewrite forallb_forall in F. specialize (F c Hc). lia.
  - intros i Hi. rewrite (at_holds ls k _ E L i) by (rewrite app_length; lia). f_equal. apply app_nth1, Hi.
Qed.

Definition s_abc : list Z := [97; 98; 99].
Definition s_ab : list Z := [97; 98].

Example C42_hyps :
  let m := at100 [s_abc ++ [0]; s_ab ++ [0; 7; 7; 7; 7; 7]] in
  cstr m 0 s_abc /\ cstr m 100 s_ab /\ ok_range m 100 (zlen s_ab + zlen s_abc + 1) /\
  strncmp 2 0 100 m = Val 0 /\ strncmp 3 0 100 m = Val 99 /\
  match strcat 20 100 0 m with Val m' => map m' [100; 101; 102; 103; 104; 105; 106] | _ => [] end = map Some [97; 98; 97; 98; 99; 0; 7] /\
  match memmove true 8 2 0 2 m with Val m' => map m' [0; 1; 2; 3] | _ => [] end = map Some [97; 98; 97; 98] /\
  numeral 16 [65; 48] 160 /\ writenum 8 160 16 true 4 = Val [48; 48; 65; 48].
Proof.
  cbv zeta. split; [apply (at_cstr _ 0 _ []); [reflexivity|reflexivity|cbn; lia]|]. split; [apply (at_cstr _ 1 _ [7; 7; 7; 7; 7]); [reflexivity|reflexivity|cbn; lia]|].
  split; [intros x Hx; change (zlen s_ab + zlen s_abc + 1) with 6 in Hx; replace x with (100 * Z.of_nat 1 + Z.of_nat (Z.to_nat (x - 100))) by lia;
    rewrite (at_holds _ 1 _ eq_refl); [discriminate|cbn; lia|cbn; lia]|].
  split; [reflexivity|]. split; [reflexivity|]. split; [reflexivity|]. split; [reflexivity|]. split; [|reflexivity].
  split; [repeat apply Forall_cons; try apply Forall_nil; unfold is_digit, dval; cbn; lia|]. split; [reflexivity|]. split; [discriminate|discriminate].
Qed.

(** A string compares equal to every string it is a prefix of. *)
Theorem C42_strcmp_refuted : exists m a b l1 l2 fuel sc, cstr m a l1 /\ cstr m b l2 /\ lex l1 l2 = Lt /\ strcmp fuel sc a b m = Val 0.
Proof.
  exists (at100 [s_ab ++ [0]; s_abc ++ [0]]), 0, 100, s_ab, s_abc, 10%nat, true.
  split; [apply (at_cstr _ 0 _ []); [reflexivity|reflexivity|cbn; lia]|]. split; [apply (at_cstr _ 1 _ []); [reflexivity|reflexivity|cbn; lia]|]. split; reflexivity.
Qed.
Print Assumptions C42_strcmp_refuted.

(** Characters from 128 on sort first where [char] is signed. *)
Theorem C42_strcmp_signed_refuted : exists m a b l1 l2 fuel v, cstr m a l1 /\ cstr m b l2 /\ length l1 = length l2 /\ lex l1 l2 = Gt /\ strcmp fuel true a b m = Val v /\ v < 0.
Proof.
  exists (at100 [[200; 0]; [65; 0]]), 0, 100, [200], [65], 10%nat, (-121).
  split; [apply (at_cstr _ 0 _ []); [reflexivity|reflexivity|cbn; lia]|]. split; [apply (at_cstr _ 1 _ []); [reflexivity|reflexivity|cbn; lia]|]. repeat split; reflexivity.
Qed.
Print Assumptions C42_strcmp_signed_refuted.

(** [strcasecmp] finds "0" and "P", or "@" and "`", equal. *)
Theorem C42_strcasecmp_refuted : exists m a b l1 l2 fuel sc, cstr m a l1 /\ cstr m b l2 /\ length l1 = length l2 /\ map lower l1 <> map lower l2 /\ strcasecmp fuel sc a b m = Val 0.
Proof.
  exists (at100 [[48; 0]; [80; 0]]), 0, 100, [48], [80], 10%nat, true.
  split; [apply (at_cstr _ 0 _ []); [reflexivity|reflexivity|cbn; lia]|]. split; [apply (at_cstr _ 1 _ []); [reflexivity|reflexivity|cbn; lia]|]. split; [reflexivity|]. split; [discriminate|reflexivity].
Qed.
Print Assumptions C42_strcasecmp_refuted.

(** [strncasecmp] compares one character more than it should. *)
Theorem C42_strncasecmp_refuted : exists m a b l1 l2 fuel sc n v, cstr m a l1 /\ cstr m b l2 /\ map lower (firstn (Z.to_nat n) l1) = map lower (firstn (Z.to_nat n) l2) /\
  strncasecmp fuel sc n a b m = Val v /\ v <> 0.
Proof.
  exists (at100 [[97; 98; 0]; [97; 99; 0]]), 0, 100, [97; 98], [97; 99], 10%nat, true, 1, (-1).
  split; [apply (at_cstr _ 0 _ []); [reflexivity|reflexivity|cbn; lia]|]. split; [apply (at_cstr _ 1 _ []); [reflexivity|reflexivity|cbn; lia]|]. split; [reflexivity|]. split; [reflexivity|discriminate].
Qed.
Print Assumptions C42_strncasecmp_refuted.

(** [strncpy] leaves the rest of the destination as it was. *)
Theorem C42_strncpy_refuted : exists m d s l n m', cstr m s l /\ ok_range m d n /\ strncpy (Z.to_nat n) d s m = Val m' /\
  exists x, d + zlen l < x < d + n /\ m' x <> Some 0.
Proof.
  eexists (at100 [[97; 0]; [7; 7; 7; 7]]), 100, 0, [97], 4, _. split; [apply (at_cstr _ 0 _ []); [reflexivity|reflexivity|cbn; lia]|].
  split; [intros x Hx; replace x with (100 * Z.of_nat 1 + Z.of_nat (Z.to_nat (x - 100))) by lia; rewrite (at_holds _ 1 _ eq_refl); [discriminate|cbn; lia|cbn; lia]|].
  split; [reflexivity|]. exists 103. split; [unfold zlen; cbn; lia|]. discriminate.
Qed.
Print Assumptions C42_strncpy_refuted.

(** [strncat] with the count of ISO C (characters to append) appends nothing here. *)
Theorem C42_strncat_refuted : exists m d s l1 l2 n m' fuel, cstr m d l1 /\ cstr m s l2 /\ ok_range m d (zlen l1 + zlen l2 + 1) /\ zlen l2 = n /\
  strncat fuel (2 ^ 32) d s n m = Val m' /\ cstr m' d l1.
Proof.
  exists (at100 [s_ab ++ [0]; s_abc ++ [0; 7; 7; 7; 7]]), 100, 0, s_abc, s_ab, 2,
    (fun x => if x =? 103 then Some 0 else at100 [s_ab ++ [0]; s_abc ++ [0; 7; 7; 7; 7]] x), 20%nat.
  assert (A : cstr (at100 [s_ab ++ [0]; s_abc ++ [0; 7; 7; 7; 7]]) 100 s_abc).
  { split; [repeat apply Forall_cons; try apply Forall_nil; lia|]. intros i Hi. change (length (s_abc ++ [0])) with 4%nat in Hi.
    replace (100 + Z.of_nat i) with (100 * Z.of_nat 1 + Z.of_nat i) by lia. rewrite (at_holds _ 1 _ eq_refl) by (cbn; lia). do 4 (destruct i as [|i]; [reflexivity|]). lia. }
  split; [exact A|]. split; [apply (at_cstr _ 0 _ []); [reflexivity|reflexivity|cbn; lia]|].
  split; [intros x Hx; change (zlen s_abc + zlen s_ab + 1) with 6 in Hx; replace x with (100 * Z.of_nat 1 + Z.of_nat (Z.to_nat (x - 100))) by lia; rewrite (at_holds _ 1 _ eq_refl); [discriminate|cbn; lia|cbn; lia]|].
  split; [reflexivity|]. split; [reflexivity|]. destruct A as (A1 & A2). split; [exact A1|]. intros i Hi. cbv beta. change (length (s_abc ++ [0])) with 4%nat in Hi. rewrite A2 by exact Hi.
  destruct (Z.eqb_spec (100 + Z.of_nat i) 103); [|reflexivity]. replace i with 3%nat by lia. reflexivity.
Qed.
Print Assumptions C42_strncat_refuted.

(** [memmove] of more than 2 GiB to a higher address does nothing. *)
Theorem C42_memmove_refuted : exists m d s n, 0 <= n < 2 ^ 32 /\ ok_range m d n /\ ok_range m s n /\ memmove false 8 d s n m = Val m /\ ~ moved m m d s n.
Proof.
  exists (fun x => Some (if x <? 10 then 1 else 0)), 10, 0, (2 ^ 31 + 1). split; [lia|]. split; [intros x _; discriminate|]. split; [intros x _; discriminate|].
  split; [reflexivity|]. intro H. specialize (H 10). vm_compute in H. discriminate.
Qed.
Print Assumptions C42_memmove_refuted.

(** Where [unsigned long] has 4 bytes, printing a number of ten decimal digits, or a negative
    one of nine, writes outside the local buffer. *)
Theorem C42_writenum_refuted : writenum 4 1000000000 10 false 0 = UB /\ writenum 4 (-100000000) 10 false 0 = UB.
Proof. split; reflexivity. Qed.
Print Assumptions C42_writenum_refuted.

(** ["%u"] prints numbers from 2^31 on as negative ones. *)
Theorem C42_unsigned_refuted : exists v l, 0 <= v < 2 ^ 32 /\ writenum 8 (to_int v) 10 false 0 = Val (45 :: l).
Proof. eexists 4294967295, _. split; [lia|]. vm_compute. reflexivity. Qed.
Print Assumptions C42_unsigned_refuted.
