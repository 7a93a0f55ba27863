(** Proofs about the swap with an encrypted external update partition. *)
From Verif Require Import Base BaseLemmas HeaderModel Flash FlashLemmas CryptModel CryptSpec CryptProofs EncSwapModel EncSwapSpec.
Local Ltac Zify.zify_post_hook ::= idtac.

Lemma in_swap : forall x i, enc_ok x -> 0 <= i < SSZ (X x) -> part_address (X x) (SWP (X x) + i) = ESWAP.
Proof.
  intros x i (_ & _ & _ & _ & _ & _ & HD & _) Hi. unfold part_address. set (e := X x) in *.
  destruct (Z.leb_spec (UPD e) (SWP e + i)), (Z.ltb_spec (SWP e + i) (UPD e + PSZ e)); cbn [andb]; try lia;
    destruct (Z.leb_spec (SWP e) (SWP e + i)), (Z.ltb_spec (SWP e + i) (SWP e + SSZ e)); cbn [andb]; try lia; reflexivity.
Qed.

Lemma sect_mod : forall x, enc_ok x -> SSZ (X x) mod EBS (EC (X x)) = 0.
Proof.
  intros x (((HB & _) & _) & HF & _ & H1 & H2 & _). apply Z.mod_divide; [lia|]. apply Z.mod_divide in H1; [|lia]. apply Z.mod_divide in H2; [|lia].
  eapply Z.divide_trans; eassumption.
Qed.
Lemma mult_mod : forall a k b, 0 < b -> a mod b = 0 -> (k * a) mod b = 0.
Proof. intros a k b Hb H. rewrite Z.mul_mod, H, Z.mul_0_r by lia. apply Z.mod_0_l. lia. Qed.
Lemma sum_mod : forall a c b, 0 < b -> a mod b = 0 -> c mod b = 0 -> (a + c) mod b = 0.
Proof. intros a c b Hb H1 H2. rewrite Z.add_mod, H1, H2 by lia. apply Z.mod_0_l. lia. Qed.

(** Reading the swap partition decrypts with the cipher where it stands. *)
Lemma dec_swap : forall x f i p len, enc_ok x -> 0 <= i < SSZ (X x) -> i mod EBS (EC (X x)) = 0 -> 0 <= p -> p mod EBS (EC (X x)) = 0 ->
  0 <= len -> len mod EBS (EC (X x)) = 0 -> p + len + EBS (EC (X x)) < 2 ^ 32 ->
  let cur := (seek (EC (X x)) (p / EBS (EC (X x))), 0) in
  dec_read (X x) true cur f (SWP (X x) + i) len = Val (len, encrypted (EC (X x)) p (ext_read f (SWP (X x) + i) len)) /\
  after_read (X x) cur f (SWP (X x) + i) len = (seek (EC (X x)) ((p + len) / EBS (EC (X x))), 0).
Proof.
  intros x f i p len HX Hi Im Hp Pm Hl Lm HL cur. pose proof HX as (((HB & _) & _) & _ & _ & _ & _ & SM & _).
  pose proof HX as ((Lw & _) & _). set (e := X x) in *. set (B := EBS (EC e)) in *.
  assert (RM : (SWP e + i) mod B = 0) by (apply sum_mod; assumption).
  assert (LE : len / B * B = len) by (pose proof (Z.div_mod len B ltac:(lia)); lia).
  assert (PS : process (EC e) (fst cur) (snd cur) (ext_read f (SWP e + i) len) =
     (encrypted (EC e) p (ext_read f (SWP e + i) len), (seek (EC e) ((p + len) / B), 0))).
  { unfold cur. cbn [fst snd]. replace (process (EC e) (seek (EC e) (p / B)) 0) with (process (EC e) (seek (EC e) (p / B)) (p mod B)) by (rewrite Pm; reflexivity).
    unfold B at 1 2. rewrite process_stream; [|exact Lw|exact Hp|rewrite ext_read_len by exact Hl; apply div_bound; [exact HB|lia|unfold B in *; lia]].
    rewrite ext_read_len by exact Hl. fold B. rewrite (sum_mod p len B HB Pm Lm). reflexivity. }
  split.
  - unfold dec_read. fold B. rewrite RM. cbn [Z.eqb]. rewrite Z.sub_0_r. pose proof (in_swap x i HX Hi) as IS. fold e in IS. rewrite IS. cbn [negb andb].
    rewrite LE. destruct (Z.ltb_spec len 0); [lia|]. rewrite PS. cbn [fst snd].
    rewrite Z.sub_diag. cbn [Z.ltb Z.compare]. rewrite app_nil_r. cbn [app]. match goal with |- (let (_, _) := ?q in _) = _ => destruct q end. reflexivity.
  - unfold after_read. fold B. rewrite LE, PS. cbn [snd]. rewrite Z.sub_diag. reflexivity.
Qed.

(** ** The loop *)

Definition fl (d : epart) (g : store2) : flash := match d with EBoot => intf g | _ => extf g end.
Definition other (d : epart) (g : store2) : flash := match d with EBoot => extf g | _ => intf g end.

Section Loop.
  Variable x : encfg.
  Hypothesis HX : enc_ok x.
  Variables (s d : epart) (so do size : Z) (T : Z -> Z) (J : Z -> St (EC (X x)) * Z -> Prop) (g0 : store2).
  Let A := ebase x d + do.
  Let lim := size + XHDR x + XFB x.

  (** [pos] bytes are done. *)
  Definition partly (pos : Z) (g : store2) : Prop :=
    (forall a, ~ (A <= a < A + SSZ (X x)) -> fl d g a = fl d g0 a) /\ other d g = other d g0 /\
    (forall i, 0 <= i < pos -> i < SSZ (X x) -> fl d g (A + i) = T i \/ (fl d g (A + i) = 255 /\ size + XHDR x <= so + i)) /\
    (forall i, pos <= i < SSZ (X x) -> fl d g (A + i) = 255).

  Hypothesis Step : forall pos cur buf g, 0 <= pos -> pos mod XFB x = 0 -> pos + XFB x <= SSZ (X x) -> so + pos < lim -> J pos cur -> partly pos g ->
    exists b cur' g', read_chunk x s d (so + pos) cur buf g = Val (b, cur') /\ wb_write x d (do + pos) b g = Val g' /\
      J (pos + XFB x) cur' /\ other d g' = other d g /\
      (forall a, ~ (A + pos <= a < A + pos + XFB x) -> fl d g' a = fl d g a) /\
      (forall i, pos <= i < pos + XFB x -> fl d g' (A + i) = T i).

  Lemma chunks_ok : forall fuel pos cur buf g, 0 <= pos -> pos mod XFB x = 0 -> SSZ (X x) - pos <= Z.of_nat fuel ->
    (so + pos < lim -> J pos cur) -> partly pos g ->
    exists g', chunks fuel x s d so do size pos cur buf g = Val g' /\ partly (SSZ (X x)) g'.
  Proof.
    pose proof HX as (_ & (HF & _) & _ & SM & _).
    induction fuel as [|fuel IH]; intros pos cur buf g H0 Hm Hf HJ (P1 & P2 & P3 & P4); cbn [chunks].
    - destruct (Z.ltb_spec pos (SSZ (X x))) as [L|L]; [lia|]. exists g. split; [reflexivity|]. split; [exact P1|]. split; [exact P2|]. split; [|intros; lia].
      intros i Hi Hi2. apply P3; lia.
    - destruct (Z.ltb_spec pos (SSZ (X x))) as [L|L].
      2:{ exists g. split; [reflexivity|]. split; [exact P1|]. split; [exact P2|]. split; [|intros; lia]. intros i Hi Hi2. apply P3; lia. }
      assert (LE : pos + XFB x <= SSZ (X x)).
      { apply Z.mod_divide in Hm as (q1 & ->); [|lia]. apply Z.mod_divide in SM as (q2 & E2); [|lia]. clear -L E2 HF. assert (q1 < q2) by nia. nia. }
      assert (Hm' : (pos + XFB x) mod XFB x = 0) by (apply sum_mod; [exact HF|exact Hm|apply Z.mod_same; lia]).
      fold lim. destruct (Z.ltb_spec (so + pos) lim) as [K|K].
      + destruct (Step pos cur buf g H0 Hm LE K (HJ K)) as (b & cur' & g' & E1 & E2 & J' & O & F1 & F2); [repeat split; assumption|].
        rewrite E1. cbn [obind]. rewrite E2. cbn [obind]. apply IH; [lia|exact Hm'|lia|intro; exact J'|].
        split; [|split; [congruence|split]].
        * intros a Ha. rewrite F1 by lia. apply P1, Ha.
        * intros i Hi Hi2. destruct (Z.lt_ge_cases i pos) as [L1|L1]; [|left; apply F2; lia]. rewrite F1 by lia. apply P3; lia.
        * intros i Hi. rewrite F1 by lia. apply P4. lia.
      + apply IH; [lia|exact Hm'|lia|intro; lia|]. split; [exact P1|]. split; [exact P2|]. split.
        * intros i Hi Hi2. destruct (Z.lt_ge_cases i pos) as [L1|L1]; [apply P3; lia|]. right. split; [apply P4; lia|]. unfold lim in K. lia.
        * intros i Hi. apply P4. lia.
  Qed.

  Lemma start_partly : partly 0 (wb_erase x d do (SSZ (X x)) g0) -> J 0 (seek (EC (X x)) ((match s with ESwp => do | _ => so end) / EBS (EC (X x))), 0) ->
    forall buf, exists g', chunks (Z.to_nat (SSZ (X x))) x s d so do size 0 (seek (EC (X x)) ((match s with ESwp => do | _ => so end) / EBS (EC (X x))), 0) buf
      (wb_erase x d do (SSZ (X x)) g0) = Val g' /\ partly (SSZ (X x)) g'.
  Proof.
    intros P HJ buf. pose proof HX as (_ & (HF & _) & S0 & _). apply chunks_ok; [lia|apply Z.mod_0_l; lia|lia|intro; exact HJ|exact P].
  Qed.
End Loop.

Lemma erased_partly : forall x so do size T d g, partly x d so do size T g 0 (wb_erase x d do (SSZ (X x)) g).
Proof.
  intros. split; [|split; [|split]].
  - intros a Ha. destruct d; cbn [wb_erase fl intf extf ebase] in *; apply erase_out; lia.
  - destruct d; reflexivity.
  - intros; lia.
  - intros i Hi. destruct d; cbn [wb_erase fl intf extf ebase]; apply erase_in; lia.
Qed.

Lemma partly_bytes : forall x d so do size T g g', bytes2 g -> (forall i, is_byte (T i)) -> partly x d so do size T g (SSZ (X x)) g' -> bytes2 g'.
Proof.
  intros x d so do size T g g' (B1 & B2) HT (P1 & P2 & P3 & _).
  assert (F : bytes (fl d g')).
  { intro a. destruct (Z_lt_dec a (ebase x d + do)) as [L|L]; [rewrite P1 by lia; destruct d; [apply B1|apply B2..]|].
    destruct (Z_lt_dec a (ebase x d + do + SSZ (X x))) as [L2|L2]; [|rewrite P1 by lia; destruct d; [apply B1|apply B2..]].
    replace a with (ebase x d + do + (a - (ebase x d + do))) by ring.
    destruct (P3 (a - (ebase x d + do)) ltac:(lia) ltac:(lia)) as [-> | (-> & _)]; [apply HT|unfold is_byte; lia]. }
  destruct d; cbn [fl other] in *; split; try exact F; rewrite P2; assumption.
Qed.

Lemma nth_rdl : forall f a n i, 0 <= i < n -> nth (Z.to_nat i) (rdl f a (Z.to_nat n)) 0 = f (a + i).
Proof. intros f a n i H. rewrite rdl_nth by lia. f_equal. lia. Qed.

(** Writing to an erased range through the raw write of internal flash or swap. *)
Lemma write_erased : forall f a n d, (forall i, 0 <= i < n -> f (a + i) = 255) -> (forall i, 0 <= i < n -> is_byte (d i)) ->
  (forall i, 0 <= i < n -> write f a n d (a + i) = d i).
Proof. intros f a n d H Hd i Hi. rewrite write_in by lia. rewrite H by exact Hi. replace (a + i - a) with i by ring. apply land_255, Hd, Hi. Qed.

(** lia on the linear facts only. *)
Ltac ql := repeat match goal with
  | H : enc_ok _ |- _ => clear H | H : ext_ok _ |- _ => clear H | H : lawful _ |- _ => clear H | H : bytes2 _ |- _ => clear H
  | H : forall _, _ |- _ => clear H | H : _ mod _ = _ |- _ => clear H | H : True |- _ => clear H
  | H : @eq (Z -> Z) _ _ |- _ => clear H | H : @eq flash _ _ |- _ => clear H
  end; lia.

Section Copies.
  Variable x : encfg.
  Hypothesis HX : enc_ok x.
  Variable g0 : store2.
  Hypothesis HB0 : bytes2 g0.
  Local Notation e := (X x).
  Local Notation B := (EBS (EC (X x))).
  Local Notation S := (SSZ (X x)).

  Lemma HBp : 0 < B.
  Proof. apply HX. Qed.

  (** Update to swap: bytes as they are. *)
  Lemma copy_us : forall size k buf, 0 <= k -> (k + 1) * S <= PSZ e ->
    exists g, copy_enc x EUpd ESwp size k buf g0 = Val g /\ intf g = intf g0 /\
      (forall a, ~ (SWP e <= a < SWP e + S) -> extf g a = extf g0 a) /\ bytes2 g /\
      (forall i, 0 <= i < S -> k * S + i < size + XHDR x -> swap_raw x g i = upd_raw x g0 (k * S + i)).
  Proof.
    intros size k buf Hk HK. assert (KN : 0 <= k * S) by (pose proof HX as (_ & _ & S0 & _); apply Z.mul_nonneg_nonneg; ql). unfold copy_enc.
    assert (HT : forall i, is_byte ((fun i => upd_raw x g0 (k * S + i)) i)) by (intro; apply HB0).
    destruct (start_partly x HX EUpd ESwp (k * S) 0 size (fun i => upd_raw x g0 (k * S + i)) (fun _ _ => True) g0) with (buf := buf) as (g' & E & PP).
    - intros pos cur bf g H0 Hm HL Hlim _ (P1 & P2 & P3 & P4). cbn [fl other ebase] in *. rewrite Z.add_0_r in *. pose proof HX as (_ & (HF & HC) & _ & _ & FM & SM & HD & _).
      assert (Src : forall i, 0 <= i < XFB x -> extf g (UPD e + (k * S + pos) + i) = upd_raw x g0 (k * S + (pos + i))).
      { intros i Hi. rewrite P1 by ql. unfold upd_raw. f_equal. ring. }
      cbn [read_chunk wb_write ebase]. eexists _, _, _. split; [reflexivity|].
      pose proof (in_swap x (0 + pos) HX ltac:(ql)) as IS. unfold enc_write. rewrite IS.
      rewrite ext_write_ok by (rewrite ext_read_len; ql). cbn [obind]. split; [reflexivity|]. cbn [extf intf]. split; [exact I|]. split; [reflexivity|].
      split; [intros a Ha; apply write_out; cbn [Z.add]; ql|]. intros i Hi.
      replace (SWP e + i) with (SWP e + (0 + pos) + (i - pos)) by ring. rewrite write_erased.
      + unfold ext_read. rewrite nth_rdl by ql. rewrite Src by ql. f_equal. ring.
      + intros j Hj. replace (SWP e + (0 + pos) + j) with (SWP e + (pos + j)) by ring. apply P4. ql.
      + intros j Hj. unfold ext_read. rewrite nth_rdl by ql. rewrite Src by ql. apply HB0.
      + ql.
    - apply erased_partly.
    - exact I.
    - pose proof (partly_bytes _ _ _ _ _ _ _ _ HB0 HT PP) as BY. destruct PP as (P1 & P2 & P3 & P4). exists g'. rewrite E. cbn [fl other ebase] in *. rewrite Z.add_0_r in *. split; [reflexivity|]. split; [exact P2|]. split; [exact P1|].
      split; [exact BY|]. intros i Hi Hi2. destruct (P3 i ltac:(ql) ltac:(ql)) as [Q|(_ & Q)]; [exact Q|ql].
  Qed.

  (** Boot to swap: bytes as they are, in clear. *)
  Lemma copy_bs : forall size k buf, 0 <= k ->
    exists g, copy_enc x EBoot ESwp size k buf g0 = Val g /\ intf g = intf g0 /\
      (forall a, ~ (SWP e <= a < SWP e + S) -> extf g a = extf g0 a) /\ bytes2 g /\
      (forall i, 0 <= i < S -> k * S + i < size + XHDR x -> swap_raw x g i = boot_at x g0 (k * S + i)).
  Proof.
    intros size k buf Hk. unfold copy_enc.
    assert (HT : forall i, is_byte ((fun i => boot_at x g0 (k * S + i)) i)) by (intro; apply HB0).
    destruct (start_partly x HX EBoot ESwp (k * S) 0 size (fun i => boot_at x g0 (k * S + i)) (fun _ _ => True) g0) with (buf := buf) as (g' & E & PP).
    - intros pos cur bf g H0 Hm HL Hlim _ (P1 & P2 & P3 & P4). cbn [fl other ebase] in *. rewrite Z.add_0_r in *. pose proof HX as (_ & (HF & HC) & _ & _ & FM & SM & HD & _).
      assert (Src : forall i, 0 <= i < XFB x -> intf g (XBOOT x + (k * S + pos) + i) = boot_at x g0 (k * S + (pos + i))).
      { intros i Hi. rewrite P2. unfold boot_at. f_equal. ring. }
      cbn [read_chunk wb_write ebase]. eexists _, _, _. split; [reflexivity|].
      pose proof (in_swap x (0 + pos) HX ltac:(ql)) as IS. unfold enc_write. rewrite IS.
      rewrite ext_write_ok by (unfold zlen; rewrite length_rdl; ql). cbn [obind]. split; [reflexivity|]. cbn [extf intf]. split; [exact I|]. split; [reflexivity|].
      split; [intros a Ha; apply write_out; cbn [Z.add]; ql|]. intros i Hi.
      replace (SWP e + i) with (SWP e + (0 + pos) + (i - pos)) by ring. rewrite write_erased.
      + rewrite nth_rdl by ql. rewrite Src by ql. f_equal. ring.
      + intros j Hj. replace (SWP e + (0 + pos) + j) with (SWP e + (pos + j)) by ring. apply P4. ql.
      + intros j Hj. rewrite nth_rdl by ql. rewrite Src by ql. apply HB0.
      + ql.
    - apply erased_partly.
    - exact I.
    - pose proof (partly_bytes _ _ _ _ _ _ _ _ HB0 HT PP) as BY. destruct PP as (P1 & P2 & P3 & P4). exists g'. rewrite E. cbn [fl other ebase] in *. rewrite Z.add_0_r in *. split; [reflexivity|]. split; [exact P2|]. split; [exact P1|].
      split; [exact BY|]. intros i Hi Hi2. destruct (P3 i ltac:(ql) ltac:(ql)) as [Q|(_ & Q)]; [exact Q|ql].
  Qed.

  (** Boot to update: encrypted. *)
  Lemma copy_bu : forall size k buf, 0 <= k -> (k + 1) * S <= plain_from e ->
    exists g, copy_enc x EBoot EUpd size k buf g0 = Val g /\ intf g = intf g0 /\
      (forall a, ~ (UPD e + k * S <= a < UPD e + k * S + S) -> extf g a = extf g0 a) /\ bytes2 g /\
      (forall i, 0 <= i < S -> k * S + i < size + XHDR x -> upd_raw x g (k * S + i) = Z.lxor (boot_at x g0 (k * S + i)) (stream (EC e) (k * S + i))).
  Proof.
    intros size k buf Hk HK. assert (KN : 0 <= k * S) by (pose proof HX as (_ & _ & S0 & _); apply Z.mul_nonneg_nonneg; ql). unfold copy_enc. pose proof HBp as HB.
    pose proof HX as (HO & _). pose proof HO as (Lw & _ & _ & HSF & HPS & _).
    assert (PF : plain_from e <= SFO e - B) by (unfold plain_from; fold B; pose proof (Z.mul_div_le (SFO e - B) B HB); ql).
    assert (HT : forall i, is_byte ((fun i => Z.lxor (boot_at x g0 (k * S + i)) (stream (EC e) (k * S + i))) i)) by (intro; apply lxor_byte; [apply HB0|apply stream_byte, HX]).
    destruct (start_partly x HX EBoot EUpd (k * S) (k * S) size (fun i => Z.lxor (boot_at x g0 (k * S + i)) (stream (EC e) (k * S + i))) (fun _ _ => True) g0) with (buf := buf) as (g' & E & PP).
    - intros pos cur bf g H0 Hm HL Hlim _ (P1 & P2 & P3 & P4). cbn [fl other ebase] in *. pose proof HX as (_ & (HF & HC) & _ & _ & FM & SM & HD & _).
      assert (Src : forall i, 0 <= i < XFB x -> intf g (XBOOT x + (k * S + pos) + i) = boot_at x g0 (k * S + (pos + i))).
      { intros i Hi. rewrite P2. unfold boot_at. f_equal. ring. }
      cbn [read_chunk wb_write ebase]. eexists _, _, _. split; [reflexivity|].
      assert (PM : pos mod B = 0).
      { apply Z.mod_divide in Hm as (q & ->); [|ql]. apply mult_mod; assumption. }
      assert (AM : (k * S + pos) mod B = 0) by (apply sum_mod; [exact HB|apply mult_mod; [exact HB|apply sect_mod; exact HX]|exact PM]).
      rewrite (enc_write_ok e (extf g) (k * S + pos) _ (XFB x) HO) by (first [exact AM|exact FM|unfold zlen; rewrite length_rdl; ql|ql]).
      cbn [obind]. split; [reflexivity|]. cbn [extf intf]. split; [exact I|]. split; [reflexivity|].
      split; [intros a Ha; apply write_out; ql|]. intros i Hi.
      replace (UPD e + k * S + i) with (UPD e + (k * S + pos) + (i - pos)) by ring.
      assert (NB : forall j, 0 <= j < XFB x -> nth (Z.to_nat j) (encrypted (EC e) (k * S + pos) (firstn (Z.to_nat (XFB x)) (rdl (intf g) (XBOOT x + (k * S + pos)) (Z.to_nat (XFB x))))) 0 =
        Z.lxor (boot_at x g0 (k * S + (pos + j))) (stream (EC e) (k * S + (pos + j)))).
      { intros j Hj. rewrite firstn_all2 by (rewrite length_rdl; ql). rewrite encrypted_nth by (rewrite length_rdl; ql). rewrite nth_rdl by ql. rewrite Src by ql. f_equal. f_equal. ql. }
      rewrite write_erased.
      + rewrite NB by ql. f_equal; f_equal; ring.
      + intros j Hj. replace (UPD e + (k * S + pos) + j) with (UPD e + k * S + (pos + j)) by ring. apply P4. ql.
      + intros j Hj. rewrite NB by ql. apply lxor_byte; [apply HB0|apply stream_byte, Lw].
      + ql.
    - apply erased_partly.
    - exact I.
    - pose proof (partly_bytes _ _ _ _ _ _ _ _ HB0 HT PP) as BY. destruct PP as (P1 & P2 & P3 & P4). exists g'. rewrite E. cbn [fl other ebase] in *. split; [reflexivity|]. split; [exact P2|]. split; [exact P1|].
      split; [exact BY|]. intros i Hi Hi2. destruct (P3 i ltac:(ql) ltac:(ql)) as [Q|(_ & Q)]; [|ql]. unfold upd_raw. rewrite Z.add_assoc. exact Q.
  Qed.

  (** Swap to boot: decrypted with the keystream of the boot sector's position. *)
  Lemma copy_sb : forall k buf, 0 <= k -> (k + 1) * S <= PSZ e ->
    exists g, copy_enc x ESwp EBoot S k buf g0 = Val g /\ extf g = extf g0 /\
      (forall a, ~ (XBOOT x + k * S <= a < XBOOT x + k * S + S) -> intf g a = intf g0 a) /\ bytes2 g /\
      (forall i, 0 <= i < S -> boot_at x g (k * S + i) = Z.lxor (swap_raw x g0 i) (stream (EC e) (k * S + i))).
  Proof.
    intros k buf Hk HK. assert (KN : 0 <= k * S) by (pose proof HX as (_ & _ & S0 & _); apply Z.mul_nonneg_nonneg; ql). unfold copy_enc. pose proof HBp as HB.
    pose proof HX as (HO & _). pose proof HO as (Lw & _ & _ & HSF & HPS & _).
    assert (HT : forall i, is_byte ((fun i => Z.lxor (swap_raw x g0 i) (stream (EC e) (k * S + i))) i)) by (intro; apply lxor_byte; [apply HB0|apply stream_byte, HX]).
    destruct (start_partly x HX ESwp EBoot 0 (k * S) S (fun i => Z.lxor (swap_raw x g0 i) (stream (EC e) (k * S + i)))
      (fun pos cur => cur = (seek (EC e) ((k * S + pos) / B), 0)) g0) with (buf := buf) as (g' & E & PP).
    - intros pos cur bf g H0 Hm HL Hlim -> (P1 & P2 & P3 & P4). cbn [fl other ebase] in *. pose proof HX as (_ & (HF & HC) & _ & _ & FM & SM & HD & _).
      assert (PM : pos mod B = 0).
      { apply Z.mod_divide in Hm as (q & ->); [|ql]. apply mult_mod; assumption. }
      assert (AM : (k * S + pos) mod B = 0) by (apply sum_mod; [exact HB|apply mult_mod; [exact HB|apply sect_mod; exact HX]|exact PM]).
      destruct (dec_swap x (extf g) pos (k * S + pos) (XFB x) HX) as (D1 & D2); try (first [exact PM|exact AM|exact FM|ql]).
      cbn [read_chunk wb_write ebase Z.add]. rewrite D1, D2. cbn [obind].
      destruct (Z.eqb_spec (XFB x) (-1)); [ql|]. eexists _, _, _. split; [reflexivity|]. split; [reflexivity|]. cbn [extf intf]. split; [f_equal; f_equal; f_equal; ring|]. split; [reflexivity|].
      split; [intros a Ha; apply write_out; ql|]. intros i Hi.
      replace (XBOOT x + k * S + i) with (XBOOT x + (k * S + pos) + (i - pos)) by ring.
      assert (NB : forall j, 0 <= j < XFB x -> nth (Z.to_nat j) (encrypted (EC e) (k * S + pos) (ext_read (extf g) (SWP e + pos) (XFB x))) 0 =
        Z.lxor (swap_raw x g0 (pos + j)) (stream (EC e) (k * S + (pos + j)))).
      { intros j Hj. unfold ext_read. rewrite encrypted_nth by (rewrite length_rdl; ql). rewrite nth_rdl by ql. rewrite P2. unfold swap_raw. f_equal; f_equal; ql. }
      rewrite write_erased.
      + rewrite NB by ql. f_equal; f_equal; ring.
      + intros j Hj. replace (XBOOT x + (k * S + pos) + j) with (XBOOT x + k * S + (pos + j)) by ring. apply P4. ql.
      + intros j Hj. rewrite NB by ql. apply lxor_byte; [apply HB0|apply stream_byte, Lw].
      + ql.
    - apply erased_partly.
    - rewrite Z.add_0_r. reflexivity.
    - pose proof (partly_bytes _ _ _ _ _ _ _ _ HB0 HT PP) as BY. destruct PP as (P1 & P2 & P3 & P4). exists g'. rewrite E. cbn [fl other ebase] in *. split; [reflexivity|]. split; [exact P2|]. split; [exact P1|].
      split; [exact BY|]. intros i Hi. destruct (P3 i ltac:(ql) ltac:(ql)) as [Q|(_ & Q)]; [|pose proof HX as (_ & _ & _ & _ & _ & _ & _ & HH); ql]. unfold boot_at. rewrite Z.add_assoc. exact Q.
  Qed.

  (** Update to boot: decrypted. *)
  Lemma copy_ub : forall size k buf, 0 <= k -> (k + 1) * S <= plain_from e ->
    exists g, copy_enc x EUpd EBoot size k buf g0 = Val g /\ extf g = extf g0 /\
      (forall a, ~ (XBOOT x + k * S <= a < XBOOT x + k * S + S) -> intf g a = intf g0 a) /\ bytes2 g /\
      (forall i, 0 <= i < S -> k * S + i < size + XHDR x -> boot_at x g (k * S + i) = upd_at x g0 (k * S + i)).
  Proof.
    intros size k buf Hk HK. assert (KN : 0 <= k * S) by (pose proof HX as (_ & _ & S0 & _); apply Z.mul_nonneg_nonneg; ql). unfold copy_enc. pose proof HBp as HB.
    pose proof HX as (HO & _). pose proof HO as (Lw & _ & _ & HSF & HPS & _).
    assert (PF : plain_from e <= SFO e - B) by (unfold plain_from; pose proof (Z.mul_div_le (SFO e - B) B HB); ql).
    assert (HT : forall i, is_byte ((fun i => upd_at x g0 (k * S + i)) i)) by (intro; apply lxor_byte; [apply HB0|apply stream_byte, HX]).
    destruct (start_partly x HX EUpd EBoot (k * S) (k * S) size (fun i => upd_at x g0 (k * S + i)) (fun _ _ => True) g0) with (buf := buf) as (g' & E & PP).
    - intros pos cur bf g H0 Hm HL Hlim _ (P1 & P2 & P3 & P4). cbn [fl other ebase] in *. pose proof HX as (_ & (HF & HC) & _ & _ & FM & SM & HD & _).
      assert (PM : pos mod B = 0).
      { apply Z.mod_divide in Hm as (q & ->); [|ql]. apply mult_mod; assumption. }
      assert (AM : (k * S + pos) mod B = 0) by (apply sum_mod; [exact HB|apply mult_mod; [exact HB|apply sect_mod; exact HX]|exact PM]).
      pose proof (dec_read_ok e cur (extf g) (k * S + pos) (XFB x) HO ltac:(ql) ltac:(ql) ltac:(ql) (or_introl AM)) as D.
      cbn [read_chunk wb_write ebase]. rewrite D. cbn [obind].
      destruct (Z.eqb_spec (XFB x) (-1)); [ql|]. eexists _, _, _. split; [reflexivity|]. split; [reflexivity|]. cbn [extf intf]. split; [exact I|]. split; [reflexivity|].
      split; [intros a Ha; apply write_out; ql|]. intros i Hi.
      replace (XBOOT x + k * S + i) with (XBOOT x + (k * S + pos) + (i - pos)) by ring.
      assert (NB : forall j, 0 <= j < XFB x -> nth (Z.to_nat j) (encrypted (EC e) (k * S + pos) (ext_read (extf g) (UPD e + (k * S + pos)) (XFB x))) 0 = upd_at x g0 (k * S + (pos + j))).
      { intros j Hj. unfold ext_read. rewrite encrypted_nth by (rewrite length_rdl; ql). rewrite nth_rdl by ql. rewrite P2. unfold upd_at, upd_raw. f_equal; f_equal; ql. }
      rewrite write_erased.
      + rewrite NB by ql. f_equal. ring.
      + intros j Hj. replace (XBOOT x + (k * S + pos) + j) with (XBOOT x + k * S + (pos + j)) by ring. apply P4. ql.
      + intros j Hj. rewrite NB by ql. apply lxor_byte; [apply HB0|apply stream_byte, Lw].
      + ql.
    - apply erased_partly.
    - exact I.
    - pose proof (partly_bytes _ _ _ _ _ _ _ _ HB0 HT PP) as BY. destruct PP as (P1 & P2 & P3 & P4). exists g'. rewrite E. cbn [fl other ebase] in *. split; [reflexivity|]. split; [exact P2|]. split; [exact P1|].
      split; [exact BY|]. intros i Hi Hi2. destruct (P3 i ltac:(ql) ltac:(ql)) as [Q|(_ & Q)]; [|ql]. unfold boot_at. rewrite Z.add_assoc. exact Q.
  Qed.
End Copies.

(** ** Bytes stay bytes *)

Lemma bytes_read : forall f a n, bytes f -> all_bytes (rdl f a n).
Proof. intros f a n H. apply Forall_forall. intros v Hv. apply (In_nth _ _ 0) in Hv as (i & Hi & <-). rewrite length_rdl in Hi. rewrite rdl_nth by exact Hi. apply H. Qed.
