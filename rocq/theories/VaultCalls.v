(** The storage calls on a well-formed key vault, and what a client sees of it. *)
From Verif Require Import Base BaseLemmas HeaderModel Flash FlashLemmas VaultModel VaultSpec VaultProofs.
Local Ltac Zify.zify_post_hook ::= idtac.

Section Vault.
Context (c : vcfg) (OK : vcfg_ok c).
Local Notation B := (VB c).
Local Notation SZ := (VSEC c).
Local Notation NS := (VaultProofs.NS c).
Local Notation tab := (VaultProofs.tab c).
Local Notation buf := (VaultProofs.buf c).
Local Notation hdr := (VaultProofs.hdr c).
Local Notation table_ok := (VaultProofs.table_ok c).
Local Notation vault_ok := (VaultProofs.vault_ok c).
Local Notation synced := (VaultProofs.synced c).
Local Notation kept := (VaultProofs.kept c).
Local Notation mid := (VaultProofs.mid c).
Local Notation like := (VaultProofs.like c).

Lemma dkept_low : forall f k f1 g, table_ok (tab f) -> dkept c f k f1 -> (forall x, B + 2 * SZ <= x -> g x = f1 x) -> dkept c f k g.
Proof.
  intros f k f1 g T D H i Hi Sf a Ha. rewrite H; [apply D; assumption|].
  apply (buf_low c OK); [|lia]. apply (to_pos c _ T); [exact Hi|apply Sf].
Qed.

(** [kept] fixes the key of a safe slot. *)
Lemma kept_slot : forall f k s i, tkept c f k s -> 0 <= i < NS -> safe c f k i -> keyat s i = keyat (tab f) i.
Proof.
  intros f k s i [_ T] Hi Sf. destruct (T i Hi Sf) as [T1 _].
  assert (W : forall a, 0 <= a <= 16 -> word s (sl i + a) = word (tab f) (sl i + a)).
  { intros a Ha. apply word_eq. intros b Hb. rewrite <- !Z.add_assoc. apply T1. lia. }
  pose proof (W 0) as W0. rewrite !Z.add_0_r in W0.
  unfold keyat, s_ty, s_tok, s_obj. rewrite !W, W0 by lia. reflexivity.
Qed.

Record resized (f g : flash) (j n : Z) : Prop := {
  rs_bytes : bytes g;
  rs_tab : like (resize (tab f) j n) (tab g);
  rs_data : forall x, B + 2 * SZ <= x -> g x = f x
}.

Lemma resized_ok : forall f g j n, vault_ok f -> 0 <= j < NS -> 8 <= n <= OSZ c -> resized f g j n -> vault_ok g.
Proof.
  intros f g j n (Bf & T & D) Hj Hn [R1 R2 R3].
  assert (T' : table_ok (resize (tab f) j n)) by (apply resize_table; assumption).
  split; [exact R1|]. split; [exact (like_table c OK _ _ R2 T')|].
  intros i Hi U. rewrite (like_tok c OK _ _ i R2 Hi), (like_pos c OK _ _ i R2 Hi).
  destruct (key_same _ _ i i (like_key c OK _ _ i R2 Hi)) as [_ Eo]. rewrite Eo.
  apply (like_used c OK _ _ i R2 Hi), resize_used in U. rewrite resize_pos.
  destruct (key_same _ _ i i (resize_key (tab f) j n i)) as [E1 E2]. rewrite E1, E2.
  destruct (D i Hi U) as [D1 D2]. rewrite <- D1, <- D2. pose proof (to_pos c _ T i Hi U) as Hp.
  split; apply word_eq; intros a Ha; apply R3; [|rewrite <- Z.add_assoc]; apply (buf_low c OK); lia.
Qed.

Lemma update_size_spec : forall f k f1 j n (Q : unit -> flash -> Prop), table_ok (tab f) -> kept f k f1 -> vault_ok f1 ->
  0 <= j < NS -> keyat (tab f1) j = k -> 8 <= n <= OSZ c ->
  (forall g, resized f1 g j n -> vault_ok g -> synced g -> Q tt g) ->
  wps (update_store_size c (hdr j) n) Q (mid f k) f1.
Proof.
  intros f k f1 j n Q T Kf V Hj Ek Hn HQ. pose proof (ns_eq c OK) as NE. pose proof V as (B1 & T1 & D1).
  unfold update_store_size. rewrite (proj2 (Z.ltb_ge _ _)), (proj2 (Z.ltb_ge _ _)) by (unfold VaultProofs.hdr, HDROFF; lia).
  cbn [orb]. apply wps_bind. apply check_vault_ok; [|left; exact Kf|].
  { rewrite magic_at. apply T1. }
  cbn [wps]. replace (hdr j - B + 16) with (sl j + 16) by (unfold VaultProofs.hdr, HDROFF, sl; lia).
  change (put32 (cached f1 B) (sl j + 16) n) with (resize (tab f1) j n).
  apply (wps_commit_table c OK f k); [exact T|exact Kf|apply bytes_put32; intro x; apply B1| |].
  - destruct Kf as (_ & [M Tk] & _). split.
    + unfold resize. rewrite word_put32_out by (unfold sl; lia). exact M.
    + intros i Hi Sf. pose proof (kept_slot f k (tab f1) i (conj M Tk) Hi Sf) as Ei.
      assert (Ne : i <> j). { intros -> . destruct Sf as (_ & Nk & _). congruence. }
      destruct (Tk i Hi Sf) as [K1 K2]. split.
      * intros a Ha. rewrite resize_out by (unfold sl; lia). apply K1. exact Ha.
      * intros i' Hi'. rewrite resize_key. apply K2. exact Hi'.
  - intros g Bg Lg Sg Dg. assert (R : resized f1 g j n) by (split; assumption).
    apply HQ; [exact R|exact (resized_ok f1 g j n V Hj Hn R)|exact Sg].
Qed.

(** The bytes [d] at [off] in the object of position [p]. *)
Record stored_at (f g : flash) (p off : Z) (d : list Z) : Prop := {
  st_bytes : bytes g;
  st_tab : like (tab f) (tab g);
  st_in : forall i, 0 <= i < zlen d -> g (buf p + off + i) = nth (Z.to_nat i) d 0;
  st_out : forall x, B + 2 * SZ <= x -> ~ (buf p + off <= x < buf p + off + zlen d) -> g x = f x
}.

Lemma stored_ok : forall f g j off d, vault_ok f -> 0 <= j < NS -> used (tab f) j -> 8 <= off -> off + zlen d <= OSZ c ->
  stored_at f g (s_pos (tab f) j) off d -> vault_ok g.
Proof.
  intros f g j off d (Bf & T & D) Hj Uj H8 Ho [S1 S2 S3 S4].
  split; [exact S1|]. split; [exact (like_table c OK _ _ S2 T)|].
  intros i Hi U. rewrite (like_tok c OK _ _ i S2 Hi), (like_pos c OK _ _ i S2 Hi).
  destruct (key_same _ _ i i (like_key c OK _ _ i S2 Hi)) as [_ Eo]. rewrite Eo.
  apply (like_used c OK _ _ i S2 Hi) in U. destruct (D i Hi U) as [D1 D2]. rewrite <- D1, <- D2.
  pose proof (to_pos c _ T i Hi U) as Hp. pose proof (to_pos c _ T j Hj Uj) as Hpj. assert (H8' : 8 <= OSZ c) by apply OK.
  assert (X : forall a, 0 <= a < 8 -> g (buf (s_pos (tab f) i) + a) = f (buf (s_pos (tab f) i) + a)).
  { intros a Ha. apply S4; [apply (buf_low c OK); lia|]. intros R.
    destruct (Z.eq_dec (s_pos (tab f) i) (s_pos (tab f) j)) as [E|Ne]; [rewrite E in R; lia|].
    refine (buf_disjoint c _ _ a (buf (s_pos (tab f) i) + a - buf (s_pos (tab f) j)) _ _ Ne _ _ _); lia. }
  split; apply word_eq; intros a Ha; [apply X; lia|]. rewrite <- !Z.add_assoc. apply X. lia.
Qed.

Lemma write_loop_spec : forall f k f1 j off data len (Q : Z * Z -> flash -> Prop), table_ok (tab f) -> kept f k f1 -> vault_ok f1 ->
  0 <= j < NS -> keyat (tab f1) j = k -> key_ok k -> mine c f k (s_pos (tab f1) j) ->
  all_bytes data -> 0 <= len <= zlen data -> 8 <= off -> off + len <= OSZ c ->
  (forall g, stored_at f1 g (s_pos (tab f1) j) off (firstn (Z.to_nat len) data) -> vault_ok g -> kept f k g -> Q (len, off + len) g) ->
  wps (write_loop (S (Z.to_nat len)) c (buf (s_pos (tab f1) j)) data len 0 off) Q (mid f k) f1.
Proof.
  intros f k f1 j off data len Q T Kf V Hj Ek Kk Mp Bd Hl H8 Ho HQ.
  pose proof V as (B1 & T1 & D1). assert (U : used (tab f1) j) by (apply (key_used _ _ k); assumption).
  pose proof (to_pos c _ T1 j Hj U) as Hp. set (p := s_pos (tab f1) j) in *.
  assert (Zl : zlen (firstn (Z.to_nat len) data) = len) by (unfold zlen in *; rewrite firstn_length; lia).
  destruct (geom c OK p Hp) as (q & r & G1 & G2 & G3 & G4 & G5 & G6).
  cbn [write_loop]. destruct (Z.ltb_spec 0 len) as [Hpos|Hz].
  - assert (M0 : (buf p + off) mod SZ = r + off).
    { unfold VaultProofs.buf. destruct OK as (_ & M & HS & _).
      pose proof (Z_div_mod_eq_full B SZ) as DB. rewrite M in DB.
      symmetry. apply (Zmod_unique _ _ (B / SZ + 2 + q)); [lia|]. rewrite G3. rewrite DB at 1. lia. }
    rewrite M0. 
    replace (if len <? SZ - (r + off) then len else SZ - (r + off)) with len
      by (destruct (Z.ltb_spec len (SZ - (r + off))); lia).
    rewrite (proj2 (Z.ltb_ge (zlen data) (0 + len))) by lia.
    cbn [wps]. apply wps_bind.
    set (s2 := fun i : Z => if inr (r + off) len i then nth (Z.to_nat (0 + (i - (r + off)))) data 0 else f1 (buf p + off - (r + off) + i)).
    replace (buf p + off - (r + off) - B) with (2 * SZ + p * OSZ c - (p * OSZ c) mod SZ) by (unfold VaultProofs.buf; lia).
    apply (wps_commit_data c OK f k f1 s2 p); [exact T|exact Kf| |exact Hp|exact Mp|].
    + intro i. unfold s2. destruct (inr (r + off) len i) eqn:E; [|apply B1]. apply inr_true in E.
      apply (proj1 (Forall_forall _ _) Bd). apply nth_In. unfold zlen in *. lia.
    + intros g Bg Kg Lg Dg Og.
      assert (ST : stored_at f1 g p off (firstn (Z.to_nat len) data)).
      { split; [exact Bg|exact Lg| |]; rewrite Zl.
        - intros i Hi. pose proof (Dg (r + off + i)) as Di. rewrite G6 in Di.
          replace (buf p - r + (r + off + i)) with (buf p + off + i) in Di by lia. rewrite Di by lia.
          unfold s2. rewrite (proj2 (inr_true (r + off) len (r + off + i))) by lia.
          replace (Z.to_nat (0 + (r + off + i - (r + off)))) with (Z.to_nat i) by lia.
          rewrite <- (firstn_skipn (Z.to_nat len) data) at 1. rewrite app_nth1; [reflexivity|]. rewrite firstn_length. unfold zlen in *. lia.
        - intros x Hx Hn. destruct (inr (buf p - r) SZ x) eqn:E.
          + apply inr_true in E. pose proof (Dg (x - (buf p - r))) as Di. rewrite G6 in Di.
            replace (buf p - r + (x - (buf p - r))) with x in Di by lia. rewrite Di by lia. unfold s2.
            rewrite (proj2 (inr_false (r + off) len (x - (buf p - r)))) by lia. f_equal. lia.
          + apply inr_false in E. apply Og; [exact Hx|]. unfold in_sector. rewrite G6. unfold VaultProofs.buf in E. lia. }
      replace (Z.to_nat len) with (S (Z.to_nat len - 1)) by lia. cbn [write_loop].
      rewrite (proj2 (Z.ltb_ge (0 + len) len)) by lia. cbn [wps]. split; [left; exact Kg|].
      rewrite Z.add_0_l. apply HQ; [exact ST| |exact Kg]. apply (stored_ok f1 g j off (firstn (Z.to_nat len) data)); try assumption. lia.
  - assert (len = 0) by lia. subst len. cbn [wps]. split; [left; exact Kf|].
    replace (0, off) with (0, off + 0) by (f_equal; lia). apply HQ; [|exact V|exact Kf].
    split; [exact B1|intros i _; reflexivity| |intros; reflexivity]. rewrite Zl. intros i Hi. lia.
Qed.

End Vault.
