(** Histories of calls and reboots, and reading after a power failure. *)
From Verif Require Import Base BaseLemmas HeaderModel Flash FlashLemmas VaultModel VaultSpec VaultProofs VaultCalls VaultRefine.
Local Ltac Zify.zify_post_hook ::= idtac.

Section Vault.
Context (c : vcfg) (OK : vcfg_ok c).
Local Notation B := (VB c).
Local Notation SZ := (VSEC c).
Local Notation NS := (VaultProofs.NS c).
Local Notation tab := (VaultProofs.tab c).
Local Notation buf := (VaultProofs.buf c).
Local Notation hdr := (VaultProofs.hdr c).
Local Notation table_ok := (VaultProofs.table_ok c).
Local Notation vault_ok := (VaultProofs.vault_ok c).
Local Notation synced := (VaultProofs.synced c).
Local Notation kept := (VaultProofs.kept c).
Local Notation mid := (VaultProofs.mid c).
Local Notation like := (VaultProofs.like c).
Local Notation srel := (VaultRefine.srel c).
Local Notation nohandle := (mkH false false None None 0).
Local Notation spec1 := (spec_call (items c) (room c)).

Lemma call_wps : forall f hs s o k, srel f hs s -> call_ok s o -> (forall k', about s o = Some k' -> k = k') ->
  wps (call c o hs) (fun r g => fst r = fst (spec1 o s) /\ srel g (snd r) (snd (spec1 o s))) (mid f k) f.
Proof.
  intros f hs s o k R Co Ab.
  assert (Kf : mid f k f) by (left; apply (kept_self c); apply R).
  destruct o as [k0 ro|i|i len|i data]; cbn [call call_ok about] in *.
  - rewrite (Ab k0 eq_refl). apply wps_bind. eapply wps_post; [apply (open_spec c OK f hs s k0 ro R); tauto|].
    intros [r hs'] g HC [E S']. cbn [fst snd wps] in *. rewrite E. auto.
  - cbn [wps fst snd]. split; [exact Kf|]. split; [reflexivity|]. apply close_spec; assumption.
  - destruct Co as [Hi Hl]. apply wps_bind. eapply wps_post; [apply (read_spec c OK f hs s i len k R Hi Hl)|].
    intros [[n d] hs'] g HC (Eg & E & S'). cbn [fst snd wps] in *. rewrite E. auto.
  - destruct Co as (Hi & Bd & Hd). pose proof (handle_at c f hs s i R Hi) as H. unfold VaultRefine.hok in H.
    destruct (nth i (v_open s) None) as [a|] eqn:Na.
    + destruct (a_ro a) eqn:Ra.
      * destruct H as (H1 & H2 & H3 & H4 & H5 & j & Hj & E1 & E2 & E3 & E4).
        cbn [spec_call]. rewrite Na, Ra. unfold store_write. rewrite E2, E3, H2. cbn [bind wps fst snd]. auto.
      * rewrite (Ab (a_key a) eq_refl). apply wps_bind. eapply wps_post; [apply (write_spec c OK f hs s i data a R); assumption|].
        intros [n hs'] g HC [E S']. cbn [fst snd wps] in *. rewrite E. auto.
    + destruct H as [H1 H2]. cbn [spec_call]. rewrite Na. unfold store_write. rewrite H2. cbn [bind wps fst snd]. auto.
Qed.

Definition any_key (s : vstore) (o : vop) : key := match about s o with Some k => k | None => (0, 0, 0) end.

Lemma call_run : forall f hs s o, srel f hs s -> call_ok s o ->
  exists hs' g, run (call c o hs) f = Done (fst (spec1 o s), hs') g /\ srel g hs' (snd (spec1 o s)).
Proof.
  intros f hs s o R Co.
  destruct (wps_run _ _ _ _ (call_wps f hs s o (any_key s o) R Co
    ltac:(unfold any_key; intros k' E; rewrite E; reflexivity))) as ([r hs'] & g & E & H1 & H2).
  cbn [fst snd] in *. exists hs', g. subst r. auto.
Qed.

Lemma calls_run : forall os f hs s, srel f hs s -> calls_ok (items c) (room c) os s ->
  exists hs' g, run (calls c os hs) f = Done (fst (spec_calls (items c) (room c) os s), hs') g /\
    srel g hs' (snd (spec_calls (items c) (room c) os s)).
Proof.
  induction os as [|o os IH]; intros f hs s R H.
  - exists hs, f. split; [reflexivity|exact R].
  - cbn [calls_ok] in H. destruct H as [H1 H2]. destruct (call_run f hs s o R H1) as (hs1 & g1 & E1 & R1).
    cbn [calls spec_calls]. rewrite run_bind, E1. destruct (spec1 o s) as [r s1] eqn:Es. cbn [fst snd] in *.
    destruct (IH g1 hs1 s1 R1 H2) as (hs2 & g2 & E2 & R2). rewrite run_bind, E2.
    destruct (spec_calls (items c) (room c) os s1) as [rs s2]. cbn [fst snd run] in *.
    exists hs2, g2. split; [reflexivity|exact R2].
Qed.

Lemma reboot_rel : forall f hs s, srel f hs s -> srel f no_handles (reboot s).
Proof.
  intros f hs s [Sv Ss Sr Sh Sl Sx]. split; cbn [reboot v_objs v_open]; try assumption.
  - unfold no_handles. generalize MAX_OPEN. intro n. induction n as [|n IH]; cbn [repeat]; constructor; [split; reflexivity|exact IH].
  - apply repeat_length.
  - intros i i' a a' N. assert (E : nth i (repeat (@None ahandle) MAX_OPEN) None = None).
    { destruct (Nat.lt_ge_cases i MAX_OPEN) as [L|L].
      - apply (repeat_spec MAX_OPEN). apply nth_In. rewrite repeat_length. exact L.
      - apply nth_overflow. rewrite repeat_length. exact L. }
    congruence.
Qed.

Lemma boots_run : forall oss f hs s, srel f hs s -> boots_ok (items c) (room c) oss s ->
  exists hs' g, run (boots c oss) f = Done (fst (spec_boots (items c) (room c) oss s)) g /\
    srel g hs' (snd (spec_boots (items c) (room c) oss s)).
Proof.
  induction oss as [|os oss IH]; intros f hs s R H.
  - exists hs, f. split; [reflexivity|exact R].
  - cbn [boots_ok] in H. destruct H as [H1 H2].
    destruct (calls_run os f no_handles (reboot s) (reboot_rel f hs s R) H1) as (hs1 & g1 & E1 & R1).
    cbn [boots spec_boots]. rewrite run_bind, E1. destruct (spec_calls (items c) (room c) os (reboot s)) as [rs s1].
    cbn [fst snd] in *. destruct (IH g1 hs1 s1 R1 H2) as (hs2 & g2 & E2 & R2). rewrite run_bind, E2.
    destruct (spec_boots (items c) (room c) oss s1) as [rss s2]. cbn [fst snd run] in *.
    exists hs2, g2. split; [reflexivity|exact R2].
Qed.

(** ** A vault that was never used *)

Lemma fresh_out : forall i, 32 <= i -> fresh c i = 255.
Proof.
  intros i Hi. unfold fresh. destruct OK as (_ & _ & _ & _ & _ & _ & Hm & _).
  assert (BITMAP_SIZE c <= 28).
  { unfold BITMAP_SIZE. pose proof (Z.div_lt_upper_bound (MAXI c) 8 28). lia. }
  rewrite (proj2 (inr_false 4 (BITMAP_SIZE c) i)) by lia. apply put32_out. lia.
Qed.

Lemma fresh_table : table_ok (fresh c).
Proof.
  pose proof (ns_eq c OK) as NE. destruct OK as (_ & _ & _ & _ & _ & _ & Hm & _).
  assert (Nu : forall j, 0 <= j < NS -> ~ used (fresh c) j).
  { intros j Hj U. apply U. unfold s_tok, word. rewrite !fresh_out by (unfold sl; lia). reflexivity. }
  assert (Nb : forall p, 0 <= p < MAXI c -> bit (fresh c) p = false).
  { intros p Hp. unfold bit, fresh, BITMAP_SIZE. pose proof (Z.div_pos p 8). pose proof (Z.div_le_mono p (MAXI c) 8).
    rewrite (proj2 (inr_true 4 _ (4 + p / 8))) by lia. apply Z.bits_0. }
  assert (W : word (fresh c) 0 = VMAGIC).
  { unfold word, fresh. rewrite !(proj2 (inr_false 4 _ _)) by lia. reflexivity. }
  split; try (intros j Hj U; exfalso; exact (Nu j Hj U)); try (intros i j Hi Hj U; exfalso; exact (Nu i Hi U)).
  - exact W.
  - intros i Hi. apply fresh_out. lia.
  - intros p Hp Hb. rewrite Nb in Hb by exact Hp. discriminate.
Qed.

Lemma format : forall f, bytes f -> word f B <> VMAGIC -> word f (B + SZ) <> VMAGIC ->
  exists g, run (check_vault c) f = Done tt g /\ srel g no_handles empty_store.
Proof.
  intros f Bf M1 M2. pose proof (ns_eq c OK) as NE. pose proof (ns_pos c OK) as NP.
  assert (W : wps (check_vault c) (fun _ g => srel g no_handles empty_store) (fun _ => True) f).
  { unfold check_vault. cbn [wps]. rewrite (proj2 (Z.eqb_neq _ _) M1), (proj2 (Z.eqb_neq _ _) M2). apply wps_bind.
    apply (wps_commit c OK); [exact Bf| |lia|lia|intros; exact I|intros; exact I|].
    - intro i. unfold fresh. destruct (inr _ _ _); [unfold is_byte; lia|]. apply bytes_put32. intro x. unfold is_byte. lia.
    - intros g Bg S1 S2 Og. split; [exact I|]. cbn [wps]. split; [exact I|]. split; [exact I|].
      match goal with |- srel (erase g ?a ?n) _ _ => set (h := erase g a n) end.
      assert (Low : forall x, x < B + 2 * SZ -> h x = g x) by (intros x Hx; apply erase_out; lia).
      assert (L : like (fresh c) (tab h)).
      { intros i Hi. unfold VaultProofs.tab, cached. rewrite Low by lia. specialize (S2 i Hi). rewrite Z.add_0_r in S2. exact S2. }
      assert (T : table_ok (tab h)) by exact (like_table c OK _ _ L fresh_table).
      assert (Nu : forall j, 0 <= j < NS -> ~ used (tab h) j).
      { intros j Hj U. apply (like_used c OK _ _ j L Hj) in U. apply U. unfold s_tok, word. rewrite !fresh_out by (unfold sl; lia). reflexivity. }
      assert (V : vault_ok h).
      { split; [apply bytes_erase; exact Bg|]. split; [exact T|]. intros j Hj U. exfalso. exact (Nu j Hj U). }
      assert (R0 : srel h no_handles empty_store).
      { split; cbn [empty_store v_objs v_open].
        - exact V.
        - intros i Hi. rewrite !Low by lia. rewrite S1 by exact Hi. specialize (S2 i Hi). rewrite Z.add_0_r in S2. congruence.
        - split; [constructor|]. intros k d. split; [intros []|]. intros (j & Hj & U & _). exfalso. exact (Nu j Hj U).
        - unfold no_handles. generalize MAX_OPEN. intro n. induction n as [|n IH]; cbn [repeat]; constructor; [split; reflexivity|exact IH].
        - apply repeat_length.
        - intros i i' a a' N. exfalso. revert N. clear. revert i. generalize MAX_OPEN. intro n. induction n as [|n IH]; intros [|i]; cbn [repeat nth]; try discriminate. apply IH. }
      exact R0. }
  destruct (wps_run _ _ _ _ W) as ([] & g & E & H). exists g. auto.
Qed.

(** Calls before the first open find closed handles. *)
Definition closed (hs : list handle) : Prop := length hs = MAX_OPEN /\ forall i, h_open (nth i hs nohandle) = false /\ h_hdr (nth i hs nohandle) = None.

Lemma nth_none : forall n i, nth i (repeat (@None ahandle) n) None = None.
Proof. induction n as [|n IH]; intros [|i]; cbn [repeat nth]; auto. Qed.

Lemma spec_closed : forall i, set_nth (repeat (@None ahandle) MAX_OPEN) i None = repeat None MAX_OPEN.
Proof.
  intro i. pose proof (nth_none MAX_OPEN i) as E.
  pose proof (set_nth_same (repeat (@None ahandle) MAX_OPEN) i None) as X. rewrite E in X. exact X.
Qed.

Lemma closed_set : forall hs i, closed hs -> closed (store_close i hs).
Proof.
  intros hs i [L H]. unfold store_close. split; [rewrite set_nth_length; exact L|]. intro i'.
  destruct (Nat.eq_dec i' i) as [ -> |Ne].
  - destruct (Nat.lt_ge_cases i (length hs)) as [Hl|Hl].
    + rewrite nth_set by exact Hl. split; reflexivity.
    + rewrite nth_overflow by (rewrite set_nth_length; exact Hl). split; reflexivity.
  - rewrite nth_set_out by congruence. apply H.
Qed.

Lemma closed_rel : forall f hs, srel f no_handles empty_store -> closed hs -> srel f hs empty_store.
Proof.
  intros f hs [Sv Ss Sr Sh Sl Sx] [L H]. split; try assumption. cbn [empty_store v_open]. rewrite <- L. clear -H.
  induction hs as [|h hs IH]; cbn [length repeat]; constructor.
  - exact (H O).
  - apply IH. intro i. exact (H (S i)).
Qed.

Lemma first_calls : forall os f hs, bytes f -> word f B <> VMAGIC -> word f (B + SZ) <> VMAGIC -> closed hs ->
  calls_ok (items c) (room c) os empty_store ->
  exists hs' g, run (calls c os hs) f = Done (fst (spec_calls (items c) (room c) os empty_store), hs') g /\
    ((srel g hs' (snd (spec_calls (items c) (room c) os empty_store))) \/
     (g = f /\ snd (spec_calls (items c) (room c) os empty_store) = empty_store)).
Proof.
  induction os as [|o os IH]; intros f hs Bf M1 M2 C H.
  - exists hs, f. split; [reflexivity|]. right. auto.
  - destruct (format f Bf M1 M2) as (g0 & E0 & R0).
    assert (Open : forall k ro, o = OpOpen k ro -> run (calls c (o :: os) hs) f = run (calls c (o :: os) hs) g0).
    { intros k ro -> . cbn [calls call]. unfold store_open.
      destruct (free_handle hs) as [i|] eqn:F.
      - assert (G0 : run (check_vault c) g0 = Done tt g0).
        { destruct (sr_ok _ _ _ _ R0) as (_ & T & _). unfold check_vault. cbn [run]. rewrite magic_at, (to_magic c _ T), Z.eqb_refl. reflexivity. }
        rewrite !run_bind, E0, G0. reflexivity.
      - exfalso. rewrite (free_agree c g0 (repeat None MAX_OPEN) hs) in F by exact (sr_hs _ _ _ _ (closed_rel g0 hs R0 C)). discriminate. }
    destruct o as [k ro|i|i len|i data].
    + rewrite (Open k ro eq_refl). destruct (calls_run (OpOpen k ro :: os) g0 hs empty_store (closed_rel g0 hs R0 C) H) as (hs' & g & E & R).
      exists hs', g. split; [exact E|]. left. exact R.
    + cbn [calls_ok spec_call snd] in H. destruct H as [H1 H2]. cbn [empty_store v_objs v_open] in H2. rewrite spec_closed in H2.
      cbn [calls call bind spec_calls spec_call empty_store v_objs v_open]. rewrite spec_closed. fold empty_store.
      destruct (IH f (store_close i hs) Bf M1 M2 (closed_set hs i C) H2) as (hs' & g & E & R). rewrite run_bind, E.
      destruct (spec_calls (items c) (room c) os empty_store) as [rs s]. cbn [fst snd run] in *.
      exists hs', g. split; [reflexivity|exact R].
    + assert (Hn : nth i (repeat (@None ahandle) MAX_OPEN) None = None).
      { apply nth_none. }
      cbn [calls_ok spec_call empty_store v_open] in H. rewrite Hn in H. cbn [snd] in H. destruct H as [H1 H2]. fold empty_store in H2.
      cbn [calls call spec_calls spec_call empty_store v_open]. rewrite Hn. fold empty_store. unfold store_read. rewrite (proj2 (proj2 C i)). cbn [bind].
      destruct (IH f hs Bf M1 M2 C H2) as (hs' & g & E & R). rewrite run_bind, E.
      destruct (spec_calls (items c) (room c) os empty_store) as [rs s]. cbn [fst snd run] in *.
      exists hs', g. split; [reflexivity|exact R].
    + assert (Hn : nth i (repeat (@None ahandle) MAX_OPEN) None = None).
      { apply nth_none. }
      cbn [calls_ok spec_call empty_store v_open] in H. rewrite Hn in H. cbn [snd] in H. destruct H as [H1 H2]. fold empty_store in H2.
      cbn [calls call spec_calls spec_call empty_store v_open]. rewrite Hn. fold empty_store. unfold store_write. rewrite (proj2 (proj2 C i)). cbn [bind].
      destruct (IH f hs Bf M1 M2 C H2) as (hs' & g & E & R). rewrite run_bind, E.
      destruct (spec_calls (items c) (room c) os empty_store) as [rs s]. cbn [fst snd run] in *.
      exists hs', g. split; [reflexivity|exact R].
Qed.

Lemma closed_none : closed no_handles.
Proof.
  split; [apply repeat_length|]. unfold no_handles. generalize MAX_OPEN. intro n.
  induction n as [|n IH]; intros [|i]; cbn [repeat nth]; try (split; reflexivity). apply IH.
Qed.

Lemma first_boots : forall oss f, bytes f -> word f B <> VMAGIC -> word f (B + SZ) <> VMAGIC ->
  boots_ok (items c) (room c) oss empty_store ->
  exists g, run (boots c oss) f = Done (fst (spec_boots (items c) (room c) oss empty_store)) g /\
    ((exists hs', srel g hs' (snd (spec_boots (items c) (room c) oss empty_store))) \/
     (g = f /\ snd (spec_boots (items c) (room c) oss empty_store) = empty_store)).
Proof.
  induction oss as [|os oss IH]; intros f Bf M1 M2 H.
  - exists f. split; [reflexivity|]. right. auto.
  - cbn [boots_ok] in H. change (reboot empty_store) with empty_store in H. destruct H as [H1 H2].
    destruct (first_calls os f no_handles Bf M1 M2 closed_none H1) as (hs1 & g1 & E1 & R1).
    cbn [boots spec_boots]. change (reboot empty_store) with empty_store. rewrite run_bind, E1.
    destruct (spec_calls (items c) (room c) os empty_store) as [rs s1]. cbn [fst snd] in *. destruct R1 as [R1|[-> ->]].
    + destruct (boots_run oss g1 hs1 s1 R1 H2) as (hs2 & g2 & E2 & R2). rewrite run_bind, E2.
      destruct (spec_boots (items c) (room c) oss s1) as [rss s2]. cbn [fst snd run] in *.
      exists g2. split; [reflexivity|]. left. exists hs2. exact R2.
    + destruct (IH f Bf M1 M2 H2) as (g2 & E2 & R2). rewrite run_bind, E2.
      destruct (spec_boots (items c) (room c) oss empty_store) as [rss s2]. cbn [fst snd run] in *.
      exists g2. split; [reflexivity|exact R2].
Qed.

(** ** Reading after a power failure *)

Lemma kept_ext : forall f k g h, (forall x, h x = g x) -> kept f k g -> kept f k h.
Proof.
  intros f k g h E (Bg & T & D). split; [intro x; rewrite E; apply Bg|]. split.
  - apply (like_tkept c OK f k (tab g)); [|exact T]. intros i _. apply E.
  - intros j Hj Sf i Hi. rewrite E. apply D; assumption.
Qed.

Lemma recover : forall f k g, mid f k g -> exists h, run (check_vault c) g = Done tt h /\ kept f k h.
Proof.
  intros f k g [Kg|(M1 & M2 & Kr)].
  - exists g. split; [|exact Kg]. destruct Kg as (_ & [M _] & _). unfold check_vault. cbn [run]. rewrite magic_at, M, Z.eqb_refl. reflexivity.
  - unfold check_vault. cbn [run]. rewrite (proj2 (Z.eqb_neq _ _) M1), (proj2 (Z.eqb_eq _ _) M2).
    unfold restore_backup. cbn [run]. eexists. split; [reflexivity|]. eapply kept_ext; [|exact Kr].
    intro x. assert (160 <= SZ) by apply OK. unfold rst. rewrite !Z.add_0_r. destruct (inr B SZ x) eqn:E.
    + apply inr_true in E. rewrite write_in by lia. rewrite erase_in by lia. unfold cached. rewrite erase_out by lia.
      rewrite land_255; [f_equal; lia|]. destruct Kr as (Br & _). specialize (Br x). unfold rst in Br.
      rewrite (proj2 (inr_true B SZ x)) in Br by lia. replace (B + SZ + (x - B)) with (x + SZ) by lia. exact Br.
    + apply inr_false in E. rewrite write_out by lia. apply erase_out. lia.
Qed.

Lemma read_back : forall f k h j len, vault_ok f -> kept f k h -> 0 <= j < NS -> safe c f k j ->
  zlen (content c f j) <= len < 2 ^ 31 ->
  exists hs2 g2, run (calls c [OpOpen (keyat (tab f) j) true; OpRead 0 len] no_handles) h =
    Done ([ROpen (Opened 0); RRead (zlen (content c f j)) (content c f j)], hs2) g2.
Proof.
  intros f k h j len V Kh Hj Sf Hl. pose proof V as (Bf & T & D). pose proof Kh as (Bh & Tk & Dk).
  pose proof Sf as (U & _). destruct (D j Hj U) as [D1 D2].
  assert (W : forall a, 0 <= a <= 16 -> word (tab h) (sl j + a) = word (tab f) (sl j + a)).
  { intros a Ha. apply word_eq. intros b Hb. rewrite <- !Z.add_assoc. apply Tk; try assumption. lia. }
  assert (Ek : keyat (tab h) j = keyat (tab f) j) by (apply (kept_slot c f k); assumption).
  assert (Ep : s_pos (tab h) j = s_pos (tab f) j) by (apply W; lia).
  assert (Es : s_size (tab h) j = s_size (tab f) j) by (apply W; lia).
  pose proof (to_pos c _ T j Hj U) as Hp. pose proof (to_size c _ T j Hj U) as Hs.
  assert (H8 : 8 <= OSZ c < 2 ^ 31) by apply OK.
  assert (Fst : forall i, 0 <= i < j -> keyat (tab h) i <> keyat (tab f) j) by (apply Tk; assumption).
  assert (Dd : forall a, 0 <= a < OSZ c -> h (buf (s_pos (tab f) j) + a) = f (buf (s_pos (tab f) j) + a)) by (apply Dk; assumption).
  set (hs1 := set_nth no_handles 0 (mkH true true (Some (buf (s_pos (tab f) j))) (Some (hdr j)) 8)).
  assert (O : wps (store_open c (keyat (tab f) j) true no_handles) (fun r g => r = (Opened 0, hs1) /\ g = h) (fun _ => True) h).
  { unfold store_open. change (free_handle no_handles) with (Some O). apply wps_bind.
    apply check_vault_ok; [rewrite magic_at; apply Tk|exact I|]. apply wps_bind.
    apply (buffer_hit c OK h (keyat (tab f) j) j); try assumption.
    - rewrite Ep. exact Hp.
    - rewrite Ep. apply key_same in Ek. destruct Ek as [-> _]. rewrite <- D1. apply word_eq. intros a Ha. apply Dd. lia.
    - rewrite Ep. apply key_same in Ek. destruct Ek as [_ ->]. rewrite <- D2. apply word_eq. intros a Ha. rewrite <- !Z.add_assoc. apply Dd. lia.
    - exact I.
    - cbn [wps]. rewrite (find_hit c OK h (keyat (tab f) j) j Hj Ek Fst). cbn [bind wps]. rewrite Ep. auto. }
  destruct (wps_run _ _ _ _ O) as (r & g & E & -> & -> ).
  cbn [calls call]. rewrite !run_bind, E. cbn [run].
  unfold store_read, hs1. change (nth 0 (set_nth no_handles 0 ?x) nohandle) with x. cbn [h_hdr h_buf h_off h_open h_ro].
  set (hs2 := set_nth no_handles 0 _). cbn [bind run]. rewrite size_at, Es.
  rewrite (proj2 (Z.ltb_ge (OSZ c) (s_size (tab f) j))) by lia.
  set (d := content c f j). assert (Ld : length d = Z.to_nat (s_size (tab f) j - 8)) by apply length_rdl.
  assert (Zd : zlen d = s_size (tab f) j - 8) by (unfold zlen; lia).
  destruct (Z.leb_spec (s_size (tab f) j) 8) as [Em|Ne].
  - assert (d = []) by (apply length_zero_iff_nil; lia). cbn [bind run]. rewrite H. exists hs2, h. reflexivity.
  - fold d in Hl. rewrite Z.mod_small by lia.
    replace (if s_size (tab f) j <? 8 + len then s_size (tab f) j - 8 else len) with (zlen d)
      by (destruct (Z.ltb_spec (s_size (tab f) j) (8 + len)); lia).
    rewrite (proj2 (Z.ltb_lt 0 (zlen d))) by lia. cbn [bind run].
    assert (El : rdl h (buf (s_pos (tab f) j) + 8) (Z.to_nat (zlen d)) = d).
    { unfold d at 2. unfold content. rewrite Zd. apply rdl_ext. intros a Ha. rewrite <- !Z.add_assoc. apply Dd. lia. }
    rewrite El. eexists. exists h. reflexivity.
Qed.

Lemma safe_apart : forall f k j, OSZ c = SZ -> table_ok (tab f) -> key_ok k -> 0 <= j < NS -> used (tab f) j -> keyat (tab f) j <> k -> safe c f k j.
Proof.
  intros f k j E T K Hj U Ne. split; [exact U|]. split; [exact Ne|].
  assert (160 <= SZ) by apply OK. intros p Hp Mp. rewrite E, !Z.div_mul by lia. intro Epq.
  destruct Mp as [Nb|(i & Hi & Ei & Pi)].
  - pose proof (to_bit c _ T j Hj U). congruence.
  - assert (i = j); [|congruence]. apply (to_upos c _ T); try assumption; [|congruence]. apply (key_used _ _ k); assumption.
Qed.

End Vault.
