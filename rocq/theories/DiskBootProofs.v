From Verif Require Import Base BaseLemmas HeaderModel HeaderSpec HeaderProofs Flash FlashLemmas ImageModel ImageSpec ImageProofs GenuineProofs
  SwapSpec RefuseProofs DualModel DualProofs DiskModel DiskSpec DiskProofs DiskProps DiskBootModel DiskBootSpec.

Local Ltac Zify.zify_post_hook ::= idtac.

(** ** Hashing any size *)

Lemma feed_wraps : forall c f base size, 0 < BLK c -> 2 ^ 32 mod BLK c = 0 -> 2 ^ 32 - BLK c < size < 2 ^ 32 -> forall fuel pos,
  0 <= pos < 2 ^ 32 -> pos mod BLK c = 0 -> feed_image fuel c f base size pos = NoFuel.
Proof.
  intros c f base size HB HD HS. induction fuel as [|fuel IH]; intros pos HP HM; [reflexivity|]. cbn [feed_image].
  pose proof (Z.div_mod pos (BLK c) ltac:(lia)) as E1. pose proof (Z.div_mod (2 ^ 32) (BLK c) ltac:(lia)) as E2. rewrite HM in E1. rewrite HD in E2.
  set (a := pos / BLK c) in *. set (b := 2 ^ 32 / BLK c) in *. assert (LE : a + 1 <= b) by nia. assert (P1 : pos + BLK c <= 2 ^ 32) by nia.
  destruct (Z.gtb_spec pos size); [lia|].
  assert (N : (pos + BLK c) mod 2 ^ 32 = pos + BLK c \/ (pos + BLK c = 2 ^ 32 /\ (pos + BLK c) mod 2 ^ 32 = 0)).
  { destruct (Z.eq_dec (pos + BLK c) (2 ^ 32)) as [E|E]; [right; split; [exact E|rewrite E; reflexivity]|left; apply Z.mod_small; lia]. }
  assert (NL : (pos + BLK c) mod 2 ^ 32 <= 2 ^ 32 - BLK c).
  { destruct N as [N|(_ & N)]; rewrite N; [|nia]. assert (a + 2 <= b); [|nia].
    destruct (Z.eq_dec (a + 1) b) as [E|E]; [|lia]. exfalso. assert (pos + BLK c = 2 ^ 32) as E3 by nia. rewrite E3 in N. discriminate N. }
  assert (NM : ((pos + BLK c) mod 2 ^ 32) mod BLK c = 0).
  { destruct N as [N|(_ & N)]; rewrite N; [|apply Z.mod_0_l; lia]. rewrite Z.add_mod, HM, Z.mod_same by lia. apply Z.mod_0_l; lia. }
  assert (NP : 0 <= (pos + BLK c) mod 2 ^ 32) by (apply Z.mod_pos_bound; lia). set (q := (pos + BLK c) mod 2 ^ 32) in *.
  destruct (Z.gtb_spec q size); [lia|]. fold q. destruct (Z.ltb_spec q size); [|lia]. rewrite IH by (auto; lia). reflexivity.
Qed.

Lemma feed_all_le : forall fuel c f base size pos, 0 < BLK c < 2 ^ 32 -> 0 <= pos -> pos < size \/ pos = 0 /\ size = 0 -> size + BLK c <= 2 ^ 32 -> size - pos < Z.of_nat fuel ->
  feed_image fuel c f base size pos = Val (rdl f (base + pos) (Z.to_nat (size - pos))).
Proof.
  induction fuel as [|fuel IH]; intros c f base size pos Hb Hp Hps Hs Hf; [lia|].
  cbn [feed_image]. destruct (Z.gtb_spec pos size); [lia|].
  rewrite (Z.mod_small (pos + BLK c)) by lia.
  set (n := if pos + BLK c >? size then size - pos else BLK c).
  assert (Hn : 0 <= n <= size - pos /\ (n = 0 -> pos = size))
    by (unfold n; destruct (Z.gtb_spec (pos + BLK c) size); lia).
  rewrite (Z.mod_small (pos + n)) by lia.
  destruct (Z.ltb_spec (pos + n) size).
  - rewrite IH by lia. cbn [obind]. f_equal.
    replace (Z.to_nat (size - pos)) with (Z.to_nat n + Z.to_nat (size - (pos + n)))%nat by lia.
    rewrite rdl_app. do 2 f_equal. lia.
  - do 2 f_equal. lia.
Qed.

Lemma integrity_sound : forall c f img i img', bytes f -> cfg_ok c -> 0 <= i_size img < 2 ^ 32 -> verify_integrity c f img = Val (i, img') ->
  (i = false /\ img' = img /\ forall d, ~ intact c (i_hdr img) (hdr_bytes c f (i_hdr img)) (fw_bytes f img) d) \/
  (exists d, intact c (i_hdr img) (hdr_bytes c f (i_hdr img)) (fw_bytes f img) d /\ i = true /\
     img' = mkImage (i_part img) (i_hdr img) (i_base img) (i_size img) (i_hdr_ok img) true (i_sig_ok img) (Some d)).
Proof.
  intros c f img i img' Hb (Hh & HB & HD) Hs E.
  destruct (Z.ltb_spec (i_size img + BLK c) (2 ^ 32)) as [L|L].
  - destruct (verify_integrity_spec c f img Hb Hh) as [(d & I & Ei)|(N & Ei)]; [split; [lia|]; split; lia| |]; rewrite Ei in E; v2 E.
    + right. exists d. auto.
    + left. auto.
  - revert E. unfold verify_integrity, image_hash.
    destruct (hdr_facts c f (i_hdr img) Hb Hh) as (F1 & F2 & F3).
    destruct (get_header_val c f (i_hdr img) (c_hash_tag c) Hb Hh) as (r & E & K). rewrite E. cbn [obind]. destruct r as [[off len]|].
    + destruct K as (d & K1 & K2 & K3 & K4 & K5). destruct (Nat.eqb_spec len (c_digsz c)) as [Ln|Ln]; cbn [negb].
      * rewrite feed_header_all by lia. cbn [obind]. destruct (Z.eq_dec (i_size img + BLK c) (2 ^ 32)) as [EQ|NE].
        -- rewrite feed_all_le by lia. cbn [obind]. destruct (list_eqb _ _) eqn:EL; intro V; v2 V.
           ++ right. apply list_eqb_iff in EL. eexists. split; [|split; reflexivity]. exists off. rewrite K3.
              split; [exact K1|]. split; [congruence|]. rewrite <- K3, <- EL. do 2 f_equal.
              ** unfold hdr_bytes. rewrite rdl_firstn by lia. f_equal. lia.
              ** unfold fw_bytes. f_equal; lia.
           ++ left. split; [reflexivity|]. split; [reflexivity|]. intros d' (off' & I1 & I2 & I3).
              destruct (field_det _ _ _ _ _ _ _ F1 F3 K1 I1) as (<- & <-). assert (list_eqb (c_hash c (rdl f (i_hdr img) (Z.to_nat (i_hdr img + Z.of_nat off - 4 - i_hdr img)) ++ rdl f (i_base img + 0) (Z.to_nat (i_size img - 0)))) (rdl f (i_hdr img + Z.of_nat off) len) = true); [|congruence].
              apply list_eqb_iff. rewrite K3. rewrite I3. do 2 f_equal.
              ** unfold hdr_bytes. rewrite rdl_firstn by lia. f_equal. lia.
              ** unfold fw_bytes. f_equal; lia.
        -- rewrite feed_wraps; [discriminate|lia|exact HD|lia|lia|apply Z.mod_0_l; lia].
      * intro V; v2 V. left. split; [reflexivity|]. split; [reflexivity|]. intros d' (off' & I1 & I2 & I3).
        destruct (field_det _ _ _ _ _ _ _ F1 F3 K1 I1) as (<- & <-). congruence.
    + intro V; v2 V. left. split; [reflexivity|]. split; [reflexivity|]. intros d' (off' & I1 & I2 & I3). eapply field_none; eauto.
Qed.

(** ** Any disk *)

Lemma all_app : forall a b, all_bytes a -> all_bytes b -> all_bytes (a ++ b).
Proof. intros. apply Forall_app; auto. Qed.
Lemma all_firstn : forall n l, all_bytes l -> all_bytes (firstn n l).
Proof. intros n l H. rewrite <- (firstn_skipn n l) in H. apply Forall_app in H. apply H. Qed.
Lemma all_skipn : forall n l, all_bytes l -> all_bytes (skipn n l).
Proof. intros n l H. rewrite <- (firstn_skipn n l) in H. apply Forall_app in H. apply H. Qed.
Lemma all_splice : forall l o d, all_bytes l -> all_bytes d -> all_bytes (splice l o d).
Proof. intros l o d Hl Hd. unfold splice. apply all_app; [apply all_firstn, Hl|]. apply all_app; [exact Hd|apply all_skipn, Hl]. Qed.
Lemma all_rdl : forall f a n, bytes f -> all_bytes (rdl f a n).
Proof. intros f a n H. apply rdl_bytes, H. Qed.
Lemma all_nth : forall l n, all_bytes l -> is_byte (nth n l 0).
Proof.
  intros l n H. destruct (Nat.ltb_spec n (length l)) as [L|L].
  - exact (proj1 (Forall_forall _ _) H _ (nth_In _ _ L)).
  - rewrite nth_overflow by exact L. split; reflexivity || discriminate.
Qed.

Lemma read_sector_bytes : forall h st s c buf o ok st' b, byte_disk st -> all_bytes buf -> read_sector h st s c buf o = Val (ok, st', b) -> byte_disk st' /\ all_bytes b.
Proof.
  intros h st s c buf o ok st' b (D1 & D2) HB ER. unfold read_sector in ER. destruct (fate h (a_cmds st)); [destruct (_ <? _); [discriminate|]| |]; v3 ER; (split; [split; assumption|]); auto.
  apply all_splice; [exact HB|]. apply all_rdl, D1.
Qed.
Lemma pull_bytes : forall h st s st', byte_disk st -> cache_pull h st s = Val st' -> byte_disk st'.
Proof.
  intros h st s st' HD H. unfold cache_pull in H. destruct (a_cached st =? s); [v1 H; exact HD|].
  destruct (read_sector h st s 1 (a_cache st) 0) as [((ok, st1), b)| |] eqn:ER; try discriminate. cbn [obind] in H. v1 H.
  destruct (read_sector_bytes _ _ _ _ _ _ _ _ _ HD (proj2 HD) ER) as ((A & _) & B). split; assumption.
Qed.
Lemma ata_read_bytes : forall h st drv start size buf r st' b, byte_disk st -> all_bytes buf -> ata_read h st drv start size buf = Val (r, st', b) -> byte_disk st' /\ all_bytes b.
Proof.
  intros h st drv start size buf r st' b HD HB H. unfold ata_read in H. destruct ((drv <? 0) || _); [discriminate|]. destruct (last_drive h <? drv); [v3 H; auto|].
  cbv zeta in H. match type of H with obind ?e _ = _ => destruct e as [((st1, buf1), ok)| |] eqn:E1; try discriminate end. cbn [obind] in H.
  assert (A : byte_disk st1 /\ all_bytes buf1).
  { destruct (0 <? start - start / SECTOR * SECTOR); [|v3 E1; auto].
    destruct (cache_pull h st (start / SECTOR)) as [s2| |] eqn:EP; try discriminate. cbn [obind] in E1. pose proof (pull_bytes _ _ _ _ HD EP) as P.
    destruct (negb _); [v3 E1; auto|]. destruct (_ <? _); [discriminate|]. v3 E1. split; [exact P|]. apply all_splice; [exact HB|]. unfold sub. apply all_firstn, all_skipn, P. }
  destruct A as (A1 & A2). destruct ok; cbn [negb] in H; [|v3 H; auto].
  match type of H with obind ?e _ = _ => destruct e as [((ok2, st2), buf2)| |] eqn:E2; try discriminate end. cbn [obind] in H.
  assert (B : byte_disk st2 /\ all_bytes buf2) by (destruct (0 <? _) in E2; [eapply read_sector_bytes; eauto|v3 E2; auto]).
  destruct B as (B1 & B2). destruct ok2; cbn [negb] in H; [|v3 H; auto]. destruct (0 <? _) in H; [|v3 H; auto].
  match type of H with obind ?e _ = _ => destruct e as [st3| |] eqn:E3; try discriminate end. cbn [obind] in H. pose proof (pull_bytes _ _ _ _ B1 E3) as P.
  destruct (_ <? _) in H; [discriminate|]. v3 H. split; [exact P|]. apply all_splice; [exact B2|]. apply all_firstn, P.
Qed.
Lemma disk_read_bytes : forall h st dr drv part off sz buf r st' b, byte_disk st -> all_bytes buf -> disk_read h st dr drv part off sz buf = Val (r, st', b) -> byte_disk st' /\ all_bytes b.
Proof.
  intros h st dr drv part off sz buf r st' b HD HB H. unfold disk_read in H. destruct (open_part dr drv part) as [[p|]| |]; try discriminate; cbn [obind] in H; [|v3 H; auto].
  destruct (_ <? 0); [v3 H; auto|]. eapply ata_read_bytes; eauto.
Qed.
Lemma read_to_bytes : forall s st part off n m a sp r st' m', byte_disk st -> bytes m -> read_to s st part off n m a sp = Val (r, st', m') ->
  byte_disk st' /\ bytes m' /\ forall x, ~ (a <= x < a + sp) -> m' x = m x.
Proof.
  intros s st part off n m a sp r st' m' HD HM H. unfold read_to in H.
  destruct (disk_read _ _ _ _ _ _ _ _) as [((r1, st1), b)| |] eqn:E; try discriminate. cbn [obind] in H. v3 H.
  destruct (disk_read_bytes _ _ _ _ _ _ _ _ _ _ _ HD (all_rdl m a _ HM) E) as (A & B). split; [exact A|]. split.
  - apply bytes_load; [exact HM|]. intro i. apply all_nth, B.
  - intros x Hx. unfold load. rewrite (proj2 (inr_false a sp x)) by lia. reflexivity.
Qed.
Lemma load_image_bytes : forall c s w part size fuel st off m ok st' m', byte_disk st -> bytes m -> 0 <= off ->
  load_image fuel c s w st part size off m = Val (ok, st', m') ->
  byte_disk st' /\ bytes m' /\ forall x, ~ (r_load w <= x < r_top w) -> m' x = m x.
Proof.
  intros c s w part size. induction fuel as [|fuel IH]; intros st off m ok st' m' HD HM HO H; [discriminate|]. cbn [load_image] in H.
  destruct (read_to _ _ _ _ _ _ _ _) as [((r, st1), m1)| |] eqn:E; try discriminate. cbn [obind] in H.
  destruct (read_to_bytes _ _ _ _ _ _ _ _ _ _ _ HD HM E) as (A & B & C).
  assert (C' : forall x, ~ (r_load w <= x < r_top w) -> m1 x = m x) by (intros x Hx; apply C; lia).
  destruct (r <? 0); [v3 H; auto|]. cbv zeta in H. destruct (_ <? _); [|v3 H; auto].
  assert (M : 0 <= (off + r) mod 2 ^ 32) by (apply Z.mod_pos_bound; reflexivity).
  destruct (IH _ _ _ _ _ _ A B M H) as (X & Y & Z). split; [exact X|]. split; [exact Y|]. intros x Hx. rewrite Z, C' by exact Hx. reflexivity.
Qed.

(** ** One round *)

(** What holds between rounds. *)
Definition inv (a : Z) (x : world) : Prop :=
  byte_disk (w_disk x) /\ bytes (w_stk x) /\ bytes (w_mem x) /\ i_sig_ok (w_img x) = false /\ (i_hdr (w_img x) = 0 \/ i_hdr (w_img x) = a).

Ltac invt := unfold inv; cbn [w_disk w_stk w_mem w_img]; split; [assumption|]; split; [assumption|]; split; [assumption|]; split; [assumption|first [assumption|right; assumption]].

Lemma word_32 : forall m a, bytes m -> 0 <= word m a < 2 ^ 32.
Proof. intros. apply word_range; assumption. Qed.

(** Opening and verifying what was loaded at [a]. *)
Lemma check_loaded : forall c m a img o img1, cfg_ok c -> bytes m -> i_sig_ok img = false -> (i_hdr img = 0 \/ i_hdr img = a) ->
  open_loaded c m img a = (o, img1) ->
  (o = false /\ img1 = img /\ ~ valid c m a) \/
  (o = true /\ i_hdr img1 = a /\ i_base img1 = a + HDR c /\ i_sig_ok img1 = false /\
   (forall i img2, verify_integrity c m img1 = Val (i, img2) ->
     (i = false /\ img2 = img1 /\ ~ valid c m a) \/
     (i = true /\ i_hdr img2 = a /\ i_base img2 = a + HDR c /\
      ((valid c m a /\ verify_authenticity c m img2 = Val (Accept, set_sig img2 true)) \/
       (~ valid c m a /\ exists img3, verify_authenticity c m img2 = Val (Reject, img3) /\ i_sig_ok img3 = false /\ i_hdr img3 = a))))).
Proof.
  intros c m a img o img1 Hc Hb Hg Hh E. pose proof Hc as (Hs & _). unfold open_loaded in E.
  destruct (Z.eqb_spec (word m a) WOLFBOOT_MAGIC) as [M|M]; cbn [negb] in E; injection E as <- <-.
  2: { left. split; [reflexivity|]. split; [reflexivity|]. intros (V & _). contradiction. }
  right. assert (HH : (if i_hdr img =? 0 then a else i_hdr img) = a) by (destruct (Z.eqb_spec (i_hdr img) 0); [reflexivity|destruct Hh; [contradiction|assumption]]). rewrite HH.
  split; [reflexivity|]. split; [reflexivity|]. split; [reflexivity|]. split; [exact Hg|]. intros i img2 EI.
  match type of EI with verify_integrity _ _ ?im = _ => pose proof (integrity_sound c m im i img2 Hb Hc (word_32 m (a + 4) Hb) EI) as IS end.
  destruct IS as [(-> & -> & N)|(d & I & -> & ->)]; cbn [i_hdr i_base i_size i_part i_hdr_ok i_sha_ok i_sig_ok] in *.
  - left. split; [reflexivity|]. split; [reflexivity|]. intros (_ & d & I & _). apply (N d). exact I.
  - right. split; [reflexivity|]. split; [reflexivity|]. split; [reflexivity|].
    set (img2 := mkImage _ _ _ _ _ _ _ (Some d)).
    destruct (verify_authenticity_spec c m img2 d Hb Hs eq_refl Hg) as [(A & Ea)|(NA & img3 & Ea & Es)].
    + left. split; [|exact Ea]. split; [exact M|]. exists d. split; [exact I|exact A].
    + right. split.
      * intros (_ & d' & I' & A'). apply NA. cbn [img2 i_hdr]. destruct (hdr_facts c m a Hb Hs) as (F1 & _ & F3). unfold hdr_bytes in F1, F3.
        destruct I as (o1 & I & _), I' as (o2 & I' & _). unfold hdr_bytes in I. destruct (field_det _ _ _ _ _ _ _ F1 F3 I I') as (_ & ->). exact A'.
      * exists img3. split; [exact Ea|]. split; [exact Es|]. exact (proj1 (authenticity_keeps _ _ _ _ _ Ea)).
Qed.

(** Whatever the disk does: what is accepted is valid. *)
Lemma round_any : forall fuel c s w part x a x', cfg_ok c -> inv (r_load w) x -> round fuel c s w part x = Val (a, x') ->
  (forall y, ~ (r_load w <= y < r_top w) -> w_mem x' y = w_mem x y) /\
  match a with
  | Accepted => valid c (w_mem x') (r_load w) /\ i_base (w_img x') = r_load w + HDR c
  | TryOther => inv (r_load w) x'
  | GiveUp => True
  end.
Proof.
  intros fuel c s w part x a x' Hc (I1 & I2 & I3 & I4 & I5) H. unfold round in H.
  destruct (read_to _ _ _ _ _ _ _ _) as [((r, st1), stk1)| |] eqn:E1; try discriminate. cbn [obind] in H.
  destruct (read_to_bytes _ _ _ _ _ _ _ _ _ _ _ I1 I2 E1) as (A1 & A2 & _).
  destruct (negb (r =? HDR c)); [v2 H; split; [reflexivity|]; invt|]. cbv zeta in H. destruct (_ >? _); [v2 H; split; [reflexivity|exact I]|].
  destruct (load_image _ _ _ _ _ _ _ _ _) as [((ok, st2), m1)| |] eqn:E2; try discriminate. cbn [obind] in H.
  destruct (load_image_bytes _ _ _ _ _ _ _ _ _ _ _ _ A1 I3 (Z.le_refl 0) E2) as (B1 & B2 & B3).
  destruct ok; cbn [negb] in H; [|v2 H; split; [exact B3|]; invt].
  destruct (open_loaded c m1 (w_img x) (r_load w)) as (o, img1) eqn:EO.
  destruct (check_loaded _ _ _ _ _ _ Hc B2 I4 I5 EO) as [(-> & -> & _)|(-> & C1 & C2 & C3 & K)]; cbn [negb] in H.
  - v2 H. split; [exact B3|]. invt.
  - destruct (verify_integrity c m1 img1) as [(i, img2)| |] eqn:EI; try discriminate. cbn [obind] in H.
    destruct (K _ _ eq_refl) as [(-> & -> & _)|(-> & C4 & C5 & [(V & EA)|(V & img3 & EA & C6 & C7)])]; cbn [negb] in H.
    + v2 H. split; [exact B3|]. invt.
    + rewrite EA in H. cbn [obind] in H. v2 H. split; [exact B3|]. cbn [w_mem w_img]. split; [exact V|]. exact C5.
    + rewrite EA in H. cbn [obind] in H. v2 H. split; [exact B3|]. invt.
Qed.

(** ** Reliable disks *)

Lemma nth_skipn' : forall (l : list Z) n i, nth i (skipn n l) 0 = nth (n + i) l 0.
Proof. induction l as [|y l IH]; intros [|n] i; cbn [skipn Nat.add nth]; try reflexivity; [destruct i; reflexivity|]. rewrite IH. reflexivity. Qed.

Lemma read_to_ok : forall s st k p off n m a sp, reliable (s_hba s) -> drive_ok (s_hba s) 0 -> coherent st -> is_part (s_drive s) k p ->
  part_ok p /\ g_end p < 2 ^ 57 -> 0 <= off <= g_end p - g_start p -> 0 <= n <= 2 ^ 22 -> avail p off n <= sp ->
  exists st' m', read_to s st k off n m a sp = Val (avail p off n, st', m') /\ a_disk st' = a_disk st /\ coherent st' /\
    forall x, m' x = if inr a (avail p off n) x then a_disk st (g_start p + off + (x - a)) else m x.
Proof.
  intros s st k p off n m a sp R HD HC I (PO & HE) Ho Hn Hs. unfold read_to.
  assert (A0 : 0 <= avail p off n) by (unfold avail; lia). assert (AN : avail p off n <= n) by (unfold avail; lia).
  destruct (C35_read (s_hba s) st (s_drive s) 0 k p off n (rdl m a (Z.to_nat sp)) R HC HD I PO HE Ho) as (st' & E & _ & D & C').
  { unfold U64. clear -Hn. lia. } { clear -AN Hn. lia. } { unfold zlen. rewrite length_rdl. clear -A0 Hs. lia. }
  rewrite E. cbn [obind]. exists st'. eexists. split; [reflexivity|]. split; [exact D|]. split; [exact C'|]. intro x. unfold load.
  set (v := avail p off n) in *. clearbody v. destruct (inr a sp x) eqn:E1.
  - apply inr_true in E1. unfold put. rewrite length_rdl. destruct (inr a v x) eqn:E2.
    + apply inr_true in E2. rewrite app_nth1 by (rewrite length_rdl; lia). rewrite rdl_nth by lia. f_equal. lia.
    + apply inr_false in E2. rewrite app_nth2 by (rewrite length_rdl; lia). rewrite length_rdl, nth_skipn'. rewrite rdl_nth by lia. f_equal. lia.
  - apply inr_false in E1. rewrite (proj2 (inr_false a v x)) by lia. reflexivity.
Qed.

Lemma load_image_ok : forall c s w k p, reliable (s_hba s) -> drive_ok (s_hba s) 0 -> is_part (s_drive s) k p -> part_ok p /\ g_end p < 2 ^ 57 -> room_ok w ->
  forall size d, 0 < size + HDR c -> size + HDR c <= g_end p - g_start p -> r_load w + (size + HDR c) + 511 <= r_top w -> bytes d ->
  forall fuel st off m, coherent st -> a_disk st = d -> bytes m -> 0 <= off < size + HDR c -> size + HDR c - off <= 512 * Z.of_nat fuel ->
    (forall i, 0 <= i < off -> m (r_load w + i) = d (g_start p + i)) ->
  exists st' m', load_image fuel c s w st k size off m = Val (true, st', m') /\ coherent st' /\ a_disk st' = d /\ bytes m' /\
    forall i, 0 <= i < size + HDR c -> m' (r_load w + i) = d (g_start p + i).
Proof.
  intros c s w k p R HD I PO (W1 & W2 & _) size d HT HF HR Hd. set (t := size + HDR c) in *.
  induction fuel as [|fuel IH]; intros st off m HC ED HM HO HL HI; [lia|]. cbn [load_image].
  assert (AV : 0 < avail p off 512 <= 512) by (unfold avail; lia).
  destruct (read_to_ok s st k p off 512 m (r_load w + off) (Z.min 512 (r_top w - (r_load w + off))) R HD HC I PO) as (st1 & m1 & E1 & D1 & C1 & M1); [lia|lia|lia|].
  rewrite E1. cbn [obind]. destruct (Z.ltb_spec (avail p off 512) 0); [lia|]. fold t.
  rewrite (Z.mod_small t) by lia. rewrite (Z.mod_small (off + avail p off 512)) by lia.
  assert (B1 : bytes m1) by (intro x; rewrite M1, ED; destruct (inr _ _ _); [apply Hd|apply HM]).
  assert (HI1 : forall i, 0 <= i < off + avail p off 512 -> m1 (r_load w + i) = d (g_start p + i)).
  { intros i Hi. rewrite M1, ED. destruct (inr _ _ _) eqn:E.
    - f_equal. lia.
    - apply inr_false in E. apply HI. lia. }
  destruct (Z.ltb_spec (off + avail p off 512) t) as [L|L].
  - apply IH; auto; [rewrite D1; exact ED|lia|]. assert (avail p off 512 = 512) by (unfold avail in *; lia). lia.
  - exists st1, m1. split; [reflexivity|]. split; [exact C1|]. split; [rewrite D1; exact ED|]. split; [exact B1|]. intros i Hi. apply HI1. lia.
Qed.

(** What holds between rounds on a reliable disk [d]. *)
Definition inv_ok (d : flash) (a : Z) (x : world) : Prop := inv a x /\ coherent (w_disk x) /\ a_disk (w_disk x) = d.

Lemma byte_coherent : forall st d, coherent st -> a_disk st = d -> bytes d -> all_bytes (a_cache st) \/ a_cached st = CACHE_INVALID.
Proof. intros st d (_ & [C|(_ & C)]) <- Hd; [right; exact C|left; rewrite C; apply all_rdl, Hd]. Qed.

Lemma round_run : forall c s w k p fuel x d, cfg_ok c -> room_ok w -> reliable (s_hba s) -> drive_ok (s_hba s) 0 -> is_part (s_drive s) k p -> part_ok p /\ g_end p < 2 ^ 57 ->
  bytes d -> fits c d w p -> total c d p <= 512 * Z.of_nat fuel -> inv_ok d (r_load w) x ->
  exists x', (round fuel c s w k x = Val (Accepted, x') /\ loaded c d w p (w_mem x') /\ valid c (w_mem x') (r_load w) /\ i_base (w_img x') = r_load w + HDR c) \/
             (round fuel c s w k x = Val (TryOther, x') /\ inv_ok d (r_load w) x' /\ rejected c d w p).
Proof.
  intros c s w k p fuel x d Hc Hw R HD I PO Hd (F1 & F2) HF ((I1 & I2 & I3 & I4 & I5) & HC & ED). pose proof Hc as (Hh & HB & _). pose proof Hw as (W1 & W2 & W3).
  pose proof (word_32 d (g_start p + 4) Hd) as WR. unfold total in *. set (z := word d (g_start p + 4)) in *.
  assert (PO2 : 0 <= g_start p < g_end p) by apply PO.
  assert (AV : avail p 0 (HDR c) = HDR c) by (unfold avail; lia).
  destruct (read_to_ok s (w_disk x) k p 0 (HDR c) (w_stk x) 0 (HDR c) R HD HC I PO) as (st1 & stk1 & E1 & D1 & C1 & M1); [lia|lia|lia|].
  rewrite AV in E1, M1. unfold round. rewrite E1. cbn [obind]. rewrite Z.eqb_refl. cbn [negb]. cbv zeta.
  destruct (read_to_bytes _ _ _ _ _ _ _ _ _ _ _ I1 I2 E1) as (B1 & B2 & _).
  assert (SZ : word stk1 4 = z).
  { unfold z. apply word_ext. intros i Hi. rewrite M1, ED. rewrite (proj2 (inr_true 0 (HDR c) (4 + i))) by lia. f_equal. lia. }
  rewrite SZ. rewrite (Z.mod_small (r_top w - r_load w)) by lia. destruct (Z.gtb_spec z (r_top w - r_load w)); [lia|].
  destruct (load_image_ok c s w k p R HD I PO Hw z d ltac:(lia) ltac:(lia) ltac:(lia) Hd fuel st1 0 (w_mem x) C1 ltac:(congruence) I3 ltac:(lia) ltac:(lia) ltac:(lia))
    as (st2 & m1 & E2 & C2 & D2 & B3 & L). rewrite E2. cbn [obind negb].
  assert (LD : loaded c d w p m1) by (split; [exact B3|]; intros i Hi; apply L; unfold total in Hi; fold z in Hi; lia).
  assert (BD : byte_disk st2) by (eapply (load_image_bytes c s w k z fuel st1 0 (w_mem x)); eauto; lia).
  destruct (open_loaded c m1 (w_img x) (r_load w)) as (o, img1) eqn:EO.
  destruct (check_loaded _ _ _ _ _ _ Hc B3 I4 I5 EO) as [(-> & -> & NV)|(-> & K1 & K2 & K3 & K)]; cbn [negb].
  - eexists. right. split; [reflexivity|]. split; [split; [invt|cbn [w_disk]; auto]|]. exists m1. auto.
  - assert (SI : i_size img1 = z).
    { unfold open_loaded in EO. destruct (negb _) in EO; [discriminate EO|]. injection EO as EO. rewrite <- EO. cbn [i_size]. unfold image_size, z. apply word_ext. intros i Hi.
      replace (r_load w + 4 + i) with (r_load w + (4 + i)) by lia. rewrite L by lia. f_equal. lia. }
    assert (exists i img2, verify_integrity c m1 img1 = Val (i, img2)) as (i & img2 & EI).
    { destruct (verify_integrity_spec c m1 img1 B3 Hh) as [(dd & _ & Ei)|(_ & Ei)]; [unfold blk_ok; lia| |]; rewrite Ei; eauto. }
    rewrite EI. cbn [obind]. destruct (K _ _ EI) as [(-> & -> & NV)|(-> & K4 & K5 & [(V & EA)|(NV & img3 & EA & K6 & K7)])]; cbn [negb].
    + eexists. right. split; [reflexivity|]. split; [split; [invt|cbn [w_disk]; auto]|]. exists m1. auto.
    + rewrite EA. cbn [obind]. eexists. left. split; [reflexivity|]. cbn [w_mem w_img]. split; [exact LD|]. split; [exact V|]. exact K5.
    + rewrite EA. cbn [obind]. eexists. right. split; [reflexivity|]. split; [split; [invt|cbn [w_disk]; auto]|]. exists m1. auto.
Qed.

Lemma rounds_run : forall c s w fuel d pA pB, cfg_ok c -> room_ok w -> disk_ok s pA pB -> bytes d -> fits c d w pA -> fits c d w pB ->
  total c d pA <= 512 * Z.of_nat fuel -> total c d pB <= 512 * Z.of_nat fuel ->
  forall n (b : bool) x, inv_ok d (r_load w) x -> exists r, rounds (S (S n)) fuel c s w b x = Val r /\ decided c d w b (if b then pB else pA) (if b then pA else pB) r.
Proof.
  intros c s w fuel d pA pB Hc Hw HK Hd FA FB LA LB. destruct HK as [R HD IA IB PA PB].
  assert (ST : forall (b : bool) x, inv_ok d (r_load w) x -> exists x',
     (round fuel c s w (if b then d_B s else d_A s) x = Val (Accepted, x') /\ loaded c d w (if b then pB else pA) (w_mem x') /\ valid c (w_mem x') (r_load w) /\ i_base (w_img x') = r_load w + HDR c) \/
     (round fuel c s w (if b then d_B s else d_A s) x = Val (TryOther, x') /\ inv_ok d (r_load w) x' /\ rejected c d w (if b then pB else pA))).
  { intros [] x Hx; eapply round_run; eauto. }
  assert (G : forall n (b : bool) x, inv_ok d (r_load w) x -> rejected c d w (if b then pA else pB) ->
     exists r, rounds n fuel c s w b x = Val r /\ match r with
       | Some (b', x') => loaded c d w (if b' then pB else pA) (w_mem x') /\ valid c (w_mem x') (r_load w) /\ i_base (w_img x') = r_load w + HDR c /\ rejected c d w (if b' then pA else pB)
       | None => (n = 0%nat \/ rejected c d w (if b then pB else pA)) end).
  { induction n as [|n IH]; intros b x Hx Hr; [exists None; split; [reflexivity|left; reflexivity]|]. cbn [rounds].
    destruct (ST b x Hx) as (x' & [(E & L & V & B)|(E & Hx' & Rj)]); rewrite E; cbn [obind].
    - exists (Some (b, x')). auto.
    - destruct (IH (negb b) x' Hx') as (r & Er & K); [destruct b; exact Rj|]. exists r. split; [exact Er|]. destruct r as [(b', x'')|]; [exact K|]. right. exact Rj. }
  intros n b x Hx. cbn [rounds]. destruct (ST b x Hx) as (x' & [(E & L & V & B)|(E & Hx' & Rj)]); rewrite E; cbn [obind].
  - exists (Some (b, x')). split; [reflexivity|]. apply de_first; assumption.
  - destruct (G (S n) (negb b) x' Hx') as (r & Er & K); [destruct b; exact Rj|]. cbn [rounds] in Er. rewrite Er. exists r. split; [reflexivity|].
    destruct r as [(b', x'')|].
    + destruct K as (K1 & K2 & K3 & K4). destruct b, b'; cbn [negb] in *; first [apply de_first; assumption|apply (de_second c d w true); assumption|apply (de_second c d w false); assumption].
    + destruct K as [K|K]; [discriminate K|]. apply de_none; [exact Rj|]. destruct b; exact K.
Qed.

Lemma read_version_run : forall c s w k p st stk d v, cfg_ok c -> reliable (s_hba s) -> drive_ok (s_hba s) 0 -> is_part (s_drive s) k p -> part_ok p /\ g_end p < 2 ^ 57 ->
  bytes d -> fits c d w p -> coherent st -> byte_disk st -> a_disk st = d -> bytes stk -> header_version c d (g_start p) v ->
  exists st' stk', read_version c s st k stk = Val (to_int v, st', stk') /\ coherent st' /\ byte_disk st' /\ a_disk st' = d /\ bytes stk' /\ 0 <= v < 2 ^ 32.
Proof.
  intros c s w k p st stk d v (Hh & _) R HD I PO Hd (F1 & F2) HC HBd ED HB HV. unfold read_version.
  pose proof (word_32 d (g_start p + 4) Hd) as WR. unfold total in F1. assert (PO2 : 0 <= g_start p < g_end p) by apply PO.
  assert (AV : avail p 0 (HDR c) = HDR c) by (unfold avail; lia).
  destruct (read_to_ok s st k p 0 (HDR c) stk 0 (HDR c) R HD HC I PO) as (st1 & stk1 & E1 & D1 & C1 & M1); [lia|lia|lia|].
  rewrite AV in E1, M1. rewrite E1. cbn [obind]. rewrite Z.eqb_refl. destruct (read_to_bytes _ _ _ _ _ _ _ _ _ _ _ HBd HB E1) as (B1 & B2 & _).
  destruct (blob_val c stk1 0 B2 Hh) as (u & Eu & Vu). rewrite Eu. cbn [obind].
  assert (HV' : version_at c stk1 0 v).
  { apply HV; [exact B2|]. intros i Hi. rewrite M1, ED. rewrite (proj2 (inr_true 0 (HDR c) i)) by lia. f_equal. lia. }
  assert (u = v) as -> by (eapply version_det; eauto). exists st1, stk1. split; [reflexivity|]. split; [exact C1|]. split; [exact B1|]. split; [congruence|]. split; [exact B2|].
  clear -Vu B2. unfold version_at in Vu. destruct Vu as [(_ & ->)|[(_ & _ & ->)|(_ & off & dd & _ & ->)]]; [lia|lia|]. destruct dd; [lia|apply word_32, B2].
Qed.
