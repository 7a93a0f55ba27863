(** C36: booting from disk. *)
From Verif Require Import Base BaseLemmas HeaderModel HeaderSpec HeaderProofs Flash FlashLemmas ImageModel ImageSpec ImageProofs GenuineProofs
  Sample SwapSpec RefuseProofs DualModel DualProofs DiskModel DiskSpec DiskProofs DiskProps DiskBootModel DiskBootSpec DiskBootProofs.

Local Ltac Zify.zify_post_hook ::= idtac.

Definition no_image : image := mkImage PBOOT 0 0 0 false false false None.

Lemma rounds_any : forall c s w fuel n b x b' x', cfg_ok c -> inv (r_load w) x -> rounds n fuel c s w b x = Val (Some (b', x')) ->
  valid c (w_mem x') (r_load w) /\ i_base (w_img x') = r_load w + HDR c /\ forall y, ~ (r_load w <= y < r_top w) -> w_mem x' y = w_mem x y.
Proof.
  intros c s w fuel. induction n as [|n IH]; intros b x b' x' Hc Hx H; [discriminate|]. cbn [rounds] in H.
  destruct (round fuel c s w (if b then d_B s else d_A s) x) as [(a, x1)| |] eqn:E; try discriminate. cbn [obind] in H.
  destruct (round_any _ _ _ _ _ _ _ _ Hc Hx E) as (M & K). destruct a; try discriminate.
  - injection H as <- <-. destruct K. auto.
  - destruct (IH _ _ _ _ Hc K H) as (A & B & C). split; [exact A|]. split; [exact B|]. intros y Hy. rewrite C, M by exact Hy. reflexivity.
Qed.

Lemma read_version_bytes : forall c s st k stk v st' stk', byte_disk st -> bytes stk -> read_version c s st k stk = Val (v, st', stk') -> byte_disk st' /\ bytes stk'.
Proof.
  intros c s st k stk v st' stk' HD HB H. unfold read_version in H. destruct (read_to _ _ _ _ _ _ _ _) as [((r, st1), stk1)| |] eqn:E; try discriminate. cbn [obind] in H.
  destruct (read_to_bytes _ _ _ _ _ _ _ _ _ _ _ HD HB E) as (A & B & _). destruct (r =? HDR c); [|v3 H; auto].
  destruct (blob_version c stk1 0); try discriminate. cbn [obind] in H. v3 H. auto.
Qed.

(** Whatever the disk holds and however its commands end: the boot routine starts only a valid
    image, held in memory, at its first byte, and changes no memory but the one set aside. *)
Theorem C36_boots_verified : forall fuel c s w st stk m b x, cfg_ok c -> byte_disk st -> bytes stk -> bytes m ->
  boot_opened fuel c s w st stk m = Val (Some (b, x)) ->
  valid c (w_mem x) (r_load w) /\ i_base (w_img x) = r_load w + HDR c /\ forall y, ~ (r_load w <= y < r_top w) -> w_mem x y = m y.
Proof.
  intros fuel c s w st stk m b x Hc HD HS HM H. unfold boot_opened in H.
  destruct (read_version c s st (d_A s) stk) as [((vA, st1), stk1)| |] eqn:E1; try discriminate. cbn [obind] in H.
  destruct (read_version_bytes _ _ _ _ _ _ _ _ HD HS E1) as (A1 & A2).
  destruct (read_version c s st1 (d_B s) stk1) as [((vB, st2), stk2)| |] eqn:E2; try discriminate. cbn [obind] in H.
  destruct (read_version_bytes _ _ _ _ _ _ _ _ A1 A2 E2) as (B1 & B2). destruct (_ && _); [discriminate|].
  apply (rounds_any _ _ _ _ _ _ _ _ _ Hc) in H; [exact H|]. unfold inv. cbn [w_disk w_stk w_mem w_img i_hdr i_sig_ok]. split; [exact B1|]. split; [exact B2|]. split; [exact HM|]. split; [reflexivity|left; reflexivity].
Qed.
Print Assumptions C36_boots_verified.

Lemma start_inv : forall d a st stk m, coherent st -> byte_disk st -> a_disk st = d -> bytes stk -> bytes m -> inv_ok d a (mkWorld st stk m no_image).
Proof. intros. split; [|cbn; auto]. unfold inv. cbn. split; [assumption|]. split; [assumption|]. split; [assumption|]. split; [reflexivity|left; reflexivity]. Qed.

(** On a disk that works, with images that fit: neither partition has a version and the
    routine panics, or the one with the higher version (A if they are equal) is tried first,
    then the other, and the first valid one is started. *)
Theorem C36_decides : forall fuel c s w st stk m pA pB vA vB, cfg_ok c -> room_ok w -> disk_ok s pA pB -> coherent st -> byte_disk st -> bytes stk -> bytes m ->
  let d := a_disk st in
  fits c d w pA -> fits c d w pB -> total c d pA <= 512 * Z.of_nat fuel -> total c d pB <= 512 * Z.of_nat fuel ->
  header_version c d (g_start pA) vA -> header_version c d (g_start pB) vB -> 0 <= vA < 2 ^ 31 -> 0 <= vB < 2 ^ 31 ->
  exists r, boot_opened fuel c s w st stk m = Val r /\
    ((vA = 0 /\ vB = 0 /\ r = None) \/
     (0 < vA /\ vB <= vA /\ decided c d w false pA pB r) \/
     (vA < vB /\ decided c d w true pB pA r)).
Proof.
  intros fuel c s w st stk m pA pB vA vB Hc Hw HK HC HD HS HM d FA FB LA LB VA VB RA RB. pose proof HK as HK'. destruct HK' as [R HDr IA IB PA PB].
  assert (Hd : bytes d) by apply HD. unfold boot_opened.
  destruct (read_version_run c s w (d_A s) pA st stk d vA Hc R HDr IA PA Hd FA HC HD eq_refl HS VA) as (st1 & stk1 & E1 & C1 & D1 & Q1 & S1 & _). rewrite E1. cbn [obind].
  destruct (read_version_run c s w (d_B s) pB st1 stk1 d vB Hc R HDr IB PB Hd FB C1 D1 Q1 S1 VB) as (st2 & stk2 & E2 & C2 & D2 & Q2 & S2 & _). rewrite E2. cbn [obind].
  rewrite !to_int_small by assumption. destruct (Z.eqb_spec vB 0) as [->|NB]; [destruct (Z.eqb_spec vA 0) as [->|NA]|]; cbn [andb].
  - exists None. auto.
  - destruct (rounds_run c s w fuel d pA pB Hc Hw HK Hd FA FB LA LB 2 (vA <? 0) _ (start_inv d (r_load w) st2 stk2 m C2 D2 Q2 S2 HM)) as (r & E & K).
    unfold MAX_FAILURES. unfold no_image in E. rewrite E. exists r. split; [reflexivity|]. right; left. destruct (Z.ltb_spec vA 0); [lia|]. split; [lia|]. split; [lia|]. exact K.
  - destruct (rounds_run c s w fuel d pA pB Hc Hw HK Hd FA FB LA LB 2 (vA <? vB) _ (start_inv d (r_load w) st2 stk2 m C2 D2 Q2 S2 HM)) as (r & E & K).
    unfold MAX_FAILURES. unfold no_image in E. rewrite E. exists r. split; [reflexivity|]. right. destruct (Z.ltb_spec vA vB); [right|left]; split; try lia; [exact K|]. split; [lia|exact K].
Qed.
Print Assumptions C36_decides.

(** ** Genuine images *)

Lemma even16 : forall a, a mod 16 = 0 -> Z.odd a = false.
Proof. intros a H. rewrite Zodd_mod. pose proof (Z.div_mod a 16 ltac:(lia)). rewrite H in *. replace a with (8 * (a / 16) * 2) by lia. rewrite Z.mod_mul by lia. reflexivity. Qed.

Lemma genuine_total : forall c d p X v, bytes d -> cfg_ok c -> genuine c X v -> holds d (g_start p) X -> total c d p = zlen X.
Proof.
  intros c d p X v Hd (Hh & _) GX H. unfold total. assert (L : HDR c < zlen X) by apply GX.
  assert (E : word d (g_start p + 4) = zlen X - HDR c); [|lia].
  rewrite <- (gn_size _ _ _ GX), word_rdl. rewrite <- (holds_sub d (g_start p)) by (unfold zlen in *; auto; lia). reflexivity.
Qed.

Lemma genuine_loaded : forall c d w p X v m, bytes d -> cfg_ok c -> room_ok w -> 0 <= SECT c -> genuine c X v -> holds d (g_start p) X -> loaded c d w p m ->
  holds m (r_load w) X /\ valid c m (r_load w).
Proof.
  intros c d w p X v m Hd Hc (_ & _ & W) Hs GX H (Hb & L). rewrite (genuine_total c d p X v Hd Hc GX H) in L.
  assert (HM : holds m (r_load w) X) by (intros i Hi; rewrite L by exact Hi; apply H, Hi). split; [exact HM|].
  destruct (genuine_verified c m (r_load w) X v Hb (proj1 Hc) Hs (even16 _ W) GX HM) as (V1 & _ & V2). split; assumption.
Qed.

Lemma genuine_header : forall c d a X v, cfg_ok c -> genuine c X v -> holds d a X -> header_version c d a v.
Proof.
  intros c d a X v Hc GX H m Hm E. pose proof (proj1 Hc) as Hh.
  destruct (blob_val c m 0 Hm Hh) as (u & _ & Vu). assert (u = v) as <-; [|exact Vu].
  eapply (genuine_version c m 0 X); eauto. intros i Hi. cbn [Z.add]. rewrite E by exact Hi. apply H. destruct GX. lia.
Qed.

(** The newer of two genuine images is started. *)
Theorem C36_newest : forall fuel c s w st stk m pA pB (b : bool) X v u, cfg_ok c -> room_ok w -> 0 <= SECT c -> disk_ok s pA pB -> coherent st -> byte_disk st -> bytes stk -> bytes m ->
  let d := a_disk st in
  fits c d w pA -> fits c d w pB -> total c d pA <= 512 * Z.of_nat fuel -> total c d pB <= 512 * Z.of_nat fuel ->
  genuine c X v -> holds d (g_start (if b then pB else pA)) X -> header_version c d (g_start (if b then pA else pB)) u ->
  0 < v < 2 ^ 31 -> 0 <= u < 2 ^ 31 -> u < v \/ u = v /\ b = false ->
  exists x, boot_opened fuel c s w st stk m = Val (Some (b, x)) /\ holds (w_mem x) (r_load w) X /\ i_base (w_img x) = r_load w + HDR c.
Proof.
  intros fuel c s w st stk m pA pB b X v u Hc Hw Hsc HK HC HD HS HM d FA FB LA LB GX HX VU Rv Ru Hlt. assert (Hd : bytes d) by apply HD.
  pose proof (genuine_header c d _ X v Hc GX HX) as VV.
  assert (NR : ~ rejected c d w (if b then pB else pA)) by (intros (m0 & L0 & N0); apply N0; eapply genuine_loaded; eauto).
  assert (FIN : forall r, decided c d w b (if b then pB else pA) (if b then pA else pB) r -> exists x, r = Some (b, x) /\ holds (w_mem x) (r_load w) X /\ i_base (w_img x) = r_load w + HDR c).
  { intros r D. inversion D as [x L V B|x Rj L V B|Rj]; subst; [|contradiction|contradiction]. exists x. split; [reflexivity|]. split; [|exact B]. eapply genuine_loaded; eauto. }
  destruct b.
  - destruct (C36_decides fuel c s w st stk m pA pB u v Hc Hw HK HC HD HS HM FA FB LA LB VU VV Ru ltac:(lia)) as (r & E & [(_ & A & _)|[(_ & A & _)|(_ & D)]]); [lia|lia|].
    destruct (FIN r D) as (x & -> & K). exists x. auto.
  - destruct (C36_decides fuel c s w st stk m pA pB v u Hc Hw HK HC HD HS HM FA FB LA LB VV VU ltac:(lia) Ru) as (r & E & [(A & _)|[(_ & _ & D)|(A & _)]]); [lia| |lia].
    destruct (FIN r D) as (x & -> & K). exists x. auto.
Qed.
Print Assumptions C36_newest.

(** If the image tried first is not valid, a genuine one in the other partition is started,
    whatever its version. *)
Theorem C36_falls_back : forall fuel c s w st stk m pA pB (b : bool) X v u, cfg_ok c -> room_ok w -> 0 <= SECT c -> disk_ok s pA pB -> coherent st -> byte_disk st -> bytes stk -> bytes m ->
  let d := a_disk st in
  fits c d w pA -> fits c d w pB -> total c d pA <= 512 * Z.of_nat fuel -> total c d pB <= 512 * Z.of_nat fuel ->
  genuine c X v -> holds d (g_start (if b then pB else pA)) X -> header_version c d (g_start (if b then pA else pB)) u ->
  0 < v < 2 ^ 31 -> 0 <= u < 2 ^ 31 ->
  (forall m0, loaded c d w (if b then pA else pB) m0 -> ~ valid c m0 (r_load w)) ->
  exists x, boot_opened fuel c s w st stk m = Val (Some (b, x)) /\ holds (w_mem x) (r_load w) X /\ i_base (w_img x) = r_load w + HDR c.
Proof.
  intros fuel c s w st stk m pA pB b X v u Hc Hw Hsc HK HC HD HS HM d FA FB LA LB GX HX VU Rv Ru NV. assert (Hd : bytes d) by apply HD.
  pose proof (genuine_header c d _ X v Hc GX HX) as VV.
  assert (NR : ~ rejected c d w (if b then pB else pA)) by (intros (m0 & L0 & N0); apply N0; eapply genuine_loaded; eauto).
  assert (FIN : forall b' p q r, decided c d w b' p q r -> (b' = b /\ p = (if b then pB else pA) /\ q = (if b then pA else pB)) \/ (b' = negb b /\ q = (if b then pB else pA) /\ p = (if b then pA else pB)) ->
     exists x, r = Some (b, x) /\ holds (w_mem x) (r_load w) X /\ i_base (w_img x) = r_load w + HDR c).
  { intros b' p q r D [(-> & -> & ->)|(-> & -> & ->)]; inversion D as [x L V B|x Rj L V B|Rj Rj2]; subst; try contradiction; try (exfalso; eapply NV; eauto; fail); exists x; rewrite ?Bool.negb_involutive;
      (split; [reflexivity|]; split; [|exact B]; eapply genuine_loaded; eauto). }
  destruct b.
  - destruct (C36_decides fuel c s w st stk m pA pB u v Hc Hw HK HC HD HS HM FA FB LA LB VU VV Ru ltac:(lia)) as (r & E & [(_ & A & _)|[(_ & _ & D)|(_ & D)]]); [lia| |];
      (destruct (FIN _ _ _ r D) as (x & -> & K); [auto|]; exists x; auto).
  - destruct (C36_decides fuel c s w st stk m pA pB v u Hc Hw HK HC HD HS HM FA FB LA LB VV VU ltac:(lia) Ru) as (r & E & [(A & _)|[(_ & _ & D)|(_ & D)]]); [lia| |];
      (destruct (FIN _ _ _ r D) as (x & -> & K); [auto|]; exists x; auto).
Qed.
Print Assumptions C36_falls_back.

(** ** From the partition table on *)

Lemma find_pte_bytes : forall n h st drv i pte st' r, byte_disk st -> all_bytes pte -> find_pte n h st drv i pte = Val (st', r) -> byte_disk st'.
Proof.
  induction n as [|n IH]; intros h st drv i pte st' r HD HB H; cbn [find_pte] in H; [v2 H; exact HD|].
  destruct (ata_read h st drv _ 16 pte) as [((q, st1), b)| |] eqn:E; try discriminate. cbn [obind] in H.
  destruct (ata_read_bytes _ _ _ _ _ _ _ _ _ HD HB E) as (A & B). destruct (_ && _); [v2 H; exact A|]. eapply IH; eauto.
Qed.
Lemma read_entries_bytes : forall n h st drv sa az i pa parts ok st' r, byte_disk st -> (forall k, all_bytes (pa k)) -> read_entries n h st drv sa az i pa parts = Val (ok, st', r) -> byte_disk st'.
Proof.
  induction n as [|n IH]; intros h st drv sa az i pa parts ok st' r HD HB H; cbn [read_entries] in H; [v3 H; exact HD|]. cbv zeta in H.
  destruct (ata_read h st drv _ az (pa i)) as [((q, st1), b)| |] eqn:E; try discriminate. cbn [obind] in H.
  destruct (ata_read_bytes _ _ _ _ _ _ _ _ _ HD (HB i) E) as (A & B). destruct (q <? 0); [v3 H; exact A|]. destruct (_ && _); [v3 H; exact A|]. destruct (_ <? _); [v3 H; exact A|]. eapply IH; eauto.
Qed.
Lemma open_bytes : forall h st dr drv pte sig pt pa r st' dr', byte_disk st -> all_bytes pte -> all_bytes sig -> all_bytes pt -> (forall k, all_bytes (pa k)) ->
  disk_open h st dr drv (pte, sig, pt) pa = Val (r, st', dr') -> byte_disk st'.
Proof.
  intros h st dr drv pte sig pt pa r st' dr' HD B1 B2 B3 B4 H. unfold disk_open in H. destruct (_ || _); [v3 H; exact HD|].
  destruct (find_pte 4 h st drv 0 pte) as [(st1, lba)| |] eqn:E1; try discriminate. cbn [obind] in H. pose proof (find_pte_bytes _ _ _ _ _ _ _ _ HD B1 E1) as A1.
  destruct lba as [lba|]; [|v3 H; exact A1].
  destruct (ata_read h st1 drv 0x1FE 2 sig) as [((r2, st2), sig')| |] eqn:E2; try discriminate. cbn [obind] in H. destruct (ata_read_bytes _ _ _ _ _ _ _ _ _ A1 B2 E2) as (A2 & _).
  destruct (negb _); [v3 H; exact A2|].
  destruct (ata_read h st2 drv _ SECTOR pt) as [((r3, st3), pt')| |] eqn:E3; try discriminate. cbn [obind] in H. destruct (ata_read_bytes _ _ _ _ _ _ _ _ _ A2 B3 E3) as (A3 & _).
  destruct (_ || _); [v3 H; exact A3|].
  match type of H with obind ?e _ = _ => destruct e as [((ok, st4), parts)| |] eqn:E4; try discriminate end. cbn [obind] in H. v3 H. eapply read_entries_bytes; eauto.
Qed.

(** Buffers on the stack. *)
Definition stack_ok (lc : list Z * list Z * list Z) (pa : Z -> list Z) : Prop :=
  let '(pte, sig, pt) := lc in
  length pte = 16%nat /\ length sig = 2%nat /\ length pt = 512%nat /\ (forall i, length (pa i) = 128%nat) /\
  all_bytes pte /\ all_bytes sig /\ all_bytes pt /\ forall i, all_bytes (pa i).

(** From power-on, whatever the disk holds. *)
Theorem C36_start_verified : forall fuel c h A B w st lc pa stk m b x, cfg_ok c -> byte_disk st -> stack_ok lc pa -> bytes stk -> bytes m ->
  disk_start fuel c h A B w st lc pa stk m = Val (Some (b, x)) ->
  valid c (w_mem x) (r_load w) /\ i_base (w_img x) = r_load w + HDR c /\ forall y, ~ (r_load w <= y < r_top w) -> w_mem x y = m y.
Proof.
  intros fuel c h A B w st ((pte, sig), pt) pa stk m b x Hc HD (_ & _ & _ & _ & B1 & B2 & B3 & B4) HS HM H. unfold disk_start in H.
  destruct (disk_open h st (mkDrive false []) 0 (pte, sig, pt) pa) as [((r, st1), dr)| |] eqn:E; try discriminate. cbn [obind] in H. destruct (r <? 0); [discriminate|].
  assert (HD1 : byte_disk st1) by (exact (open_bytes _ _ _ _ _ _ _ _ _ _ _ HD B1 B2 B3 B4 E)).
  exact (C36_boots_verified _ _ _ _ _ _ _ _ _ Hc HD1 HS HM H).
Qed.
Print Assumptions C36_start_verified.

(** On a working disk with a partition table, the routine works on the partitions of the table. *)
Theorem C36_start : forall fuel c h A B w st lc pa stk m a, reliable h -> drive_ok h 0 -> coherent st -> byte_disk st -> stack_ok lc pa ->
  gpt_header (a_disk st) a -> le_disk (a_disk st) (a + 84) 4 = 128 -> le_disk (a_disk st) (a + 72) 8 * SECTOR + 2048 <= 2 ^ 57 ->
  let parts := gpt_parts (a_disk st) (le_disk (a_disk st) (a + 72) 8 * SECTOR) (Z.to_nat (Z.min (le_disk (a_disk st) (a + 80) 4) MAX_PARTITIONS)) in
  exists st', a_disk st' = a_disk st /\ coherent st' /\ byte_disk st' /\
    disk_start fuel c h A B w st lc pa stk m = boot_opened fuel c {| s_hba := h; s_drive := mkDrive true parts; d_A := A; d_B := B |} w st' stk m.
Proof.
  intros fuel c h A B w st ((pte, sig), pt) pa stk m a R HD HC HB (L1 & L2 & L3 & L4 & B1 & B2 & B3 & B4) HG H1 H2 parts.
  destruct (C35_open h st (mkDrive false []) 0 pte sig pt pa a R HC HD (proj1 HB) L1 L2 L3 L4 HG H1 H2) as (st' & E & D & C). fold parts in E.
  exists st'. split; [exact D|]. split; [exact C|]. split; [eapply open_bytes; [exact HB|exact B1|exact B2|exact B3|exact B4|exact E]|].
  unfold disk_start. rewrite E. cbn [obind]. pose proof (zlen_nonneg parts). destruct (Z.ltb_spec (zlen parts) 0); [lia|]. reflexivity.
Qed.
Print Assumptions C36_start.

(** ** Limits: an image that claims to be longer than its partition *)

Lemma load_stuck : forall c s w k p, reliable (s_hba s) -> drive_ok (s_hba s) 0 -> is_part (s_drive s) k p -> part_ok p /\ g_end p < 2 ^ 57 -> room_ok w ->
  forall size, g_end p - g_start p < size + HDR c < 2 ^ 32 -> r_load w + (g_end p - g_start p) + 512 <= r_top w ->
  forall fuel st off m, coherent st -> 0 <= off <= g_end p - g_start p -> load_image fuel c s w st k size off m = NoFuel.
Proof.
  intros c s w k p R HD I PO (W1 & W2 & _) size HS HR. induction fuel as [|fuel IH]; intros st off m HC HO; [reflexivity|]. cbn [load_image].
  assert (AV : 0 <= avail p off 512 <= 512 /\ off + avail p off 512 <= g_end p - g_start p) by (unfold avail; lia).
  destruct (read_to_ok s st k p off 512 m (r_load w + off) (Z.min 512 (r_top w - (r_load w + off))) R HD HC I PO) as (st1 & m1 & E1 & D1 & C1 & M1); [lia|lia|lia|].
  rewrite E1. cbn [obind]. destruct (Z.ltb_spec (avail p off 512) 0); [lia|].
  rewrite (Z.mod_small (size + HDR c)) by lia. rewrite (Z.mod_small (off + avail p off 512)) by lia.
  destruct (Z.ltb_spec (off + avail p off 512) (size + HDR c)); [|lia]. apply IH; [exact C1|lia].
Qed.

(** Then the routine never ends, and does not try the other partition. *)
Theorem C36_too_long_refuted : forall fuel c s w st stk m pA pB vA vB, cfg_ok c -> room_ok w -> disk_ok s pA pB -> coherent st -> byte_disk st -> bytes stk -> bytes m ->
  let d := a_disk st in
  HDR c <= g_end pA - g_start pA -> fits c d w pB -> header_version c d (g_start pA) vA -> header_version c d (g_start pB) vB ->
  0 <= vB <= vA -> 0 < vA < 2 ^ 31 ->
  g_end pA - g_start pA < total c d pA < 2 ^ 32 -> word d (g_start pA + 4) <= r_top w - r_load w -> r_load w + (g_end pA - g_start pA) + 512 <= r_top w ->
  boot_opened fuel c s w st stk m = NoFuel.
Proof.
  intros fuel c s w st stk m pA pB vA vB Hc Hw HK HC HD HS HM d HP FB VA VB RB RA HT HR1 HR2. pose proof HK as HK'. destruct HK' as [R HDr IA IB PA PB]. pose proof Hc as (Hh & _). pose proof Hw as (W1 & W2 & _).
  assert (Hd : bytes d) by apply HD. unfold boot_opened.
  assert (AV : avail pA 0 (HDR c) = HDR c) by (unfold avail; lia). assert (PO2 : 0 <= g_start pA < g_end pA) by apply PA.
  assert (RD : forall st stk, coherent st -> byte_disk st -> a_disk st = d -> bytes stk -> exists st1 stk1, read_to s st (d_A s) 0 (HDR c) stk 0 (HDR c) = Val (HDR c, st1, stk1) /\
     coherent st1 /\ byte_disk st1 /\ a_disk st1 = d /\ bytes stk1 /\ forall i, 0 <= i < HDR c -> stk1 i = d (g_start pA + i)).
  { intros st0 stk0 C0 D0 Q0 S0. destruct (read_to_ok s st0 (d_A s) pA 0 (HDR c) stk0 0 (HDR c) R HDr C0 IA PA) as (st1 & stk1 & E1 & D1 & C1 & M1); [lia|lia|lia|].
    rewrite AV in E1, M1. exists st1, stk1. split; [exact E1|]. destruct (read_to_bytes _ _ _ _ _ _ _ _ _ _ _ D0 S0 E1) as (B1 & B2 & _).
    split; [exact C1|]. split; [exact B1|]. split; [congruence|]. split; [exact B2|]. intros i Hi. rewrite M1, Q0. rewrite (proj2 (inr_true 0 (HDR c) i)) by lia. f_equal. lia. }
  destruct (RD st stk HC HD eq_refl HS) as (st1 & stk1 & E1 & C1 & D1 & Q1 & S1 & M1).
  assert (EV : read_version c s st (d_A s) stk = Val (vA, st1, stk1)).
  { unfold read_version. rewrite E1. cbn [obind]. rewrite Z.eqb_refl. destruct (blob_val c stk1 0 S1 Hh) as (u & Eu & Vu). rewrite Eu. cbn [obind].
    assert (u = vA) as -> by (eapply version_det; eauto). rewrite to_int_small by lia. reflexivity. }
  rewrite EV. cbn [obind].
  destruct (read_version_run c s w (d_B s) pB st1 stk1 d vB Hc R HDr IB PB Hd FB C1 D1 Q1 S1 VB) as (st2 & stk2 & E2 & C2 & D2 & Q2 & S2 & _). rewrite E2. cbn [obind].
  rewrite to_int_small by lia. destruct (Z.eqb_spec vA 0); [lia|]. rewrite Bool.andb_false_r. unfold MAX_FAILURES. cbn [rounds]. destruct (Z.ltb_spec vA vB); [lia|].
  unfold round. cbn [w_disk w_stk w_mem w_img]. destruct (RD st2 stk2 C2 D2 Q2 S2) as (st3 & stk3 & E3 & C3 & D3 & Q3 & S3 & M3). rewrite E3. cbn [obind]. rewrite Z.eqb_refl. cbn [negb]. cbv zeta.
  assert (SZ : word stk3 4 = word d (g_start pA + 4)) by (apply word_ext; intros i Hi; rewrite M3 by lia; f_equal; lia).
  rewrite SZ. rewrite (Z.mod_small (r_top w - r_load w)) by lia. destruct (Z.gtb_spec (word d (g_start pA + 4)) (r_top w - r_load w)); [lia|].
  rewrite (load_stuck c s w (d_A s) pA R HDr IA PA Hw); [reflexivity| |exact HR2|exact C3|lia]. unfold total in HT. lia.
Qed.
Print Assumptions C36_too_long_refuted.

(** ** Examples *)

Definition dcfg : cfg := {|
  BOOT := 1024; UPDATE := 2048; SWAP := 4096; UFLAGS := 2560; PART := 512; SECT := 128; HDR := 64; FB := 32;
  BLK := 32; c_hash_tag := HDR_SHA256; c_digsz := 4; c_auth := 0x200;
  c_hash := demo_hash;
  c_keys := [(None, 0xFF); (Some [1; 2; 3], 0x1); (Some [4; 5; 6], 0x2)]; c_sigsz := 4;
  c_verify := (fun n d s => (n =? 2)%nat && list_eqb s (demo_sign d)); c_hybrid := false; c_sigsz2 := 0;
  c_verify2 := (fun _ _ _ => false); c_allow_downgrade := false |}.
Definition part_a : gpart := mkPart 20480 25087 demo_name.
Definition part_b : gpart := mkPart 30720 35327 demo_name.
Definition dsrc : source := {| s_hba := demo_hba; s_drive := mkDrive true [part_a; part_b]; d_A := 0; d_B := 1 |}.
Definition droom : room := {| r_load := 65536; r_top := 131072 |}.
Definition blank : flash := fun _ => 0.
Definition two (a b : list Z) : ata := mkAta (Sample.store 20480 a (Sample.store 30720 b blank)) CACHE_INVALID (repeat 0 512) 0.

Lemma dcfg_ok : cfg_ok dcfg.
Proof. unfold cfg_ok. cbn. split; [lia|]. split; [lia|reflexivity]. Qed.
Lemma droom_ok : room_ok droom.
Proof. unfold room_ok. cbn. split; [lia|]. split; [lia|reflexivity]. Qed.
Lemma dsrc_ok : disk_ok dsrc part_a part_b.
Proof.
  constructor.
  - intro k; reflexivity.
  - unfold drive_ok, MAX_DRIVES; cbn; lia.
  - split; [reflexivity|]. split; [unfold MAX_PARTITIONS; cbn; lia|reflexivity].
  - split; [reflexivity|]. split; [unfold MAX_PARTITIONS; cbn; lia|reflexivity].
  - split; [unfold part_ok, U64; cbn; split; [reflexivity|]; split; [reflexivity|]; lia|cbn; lia].
  - split; [unfold part_ok, U64; cbn; split; [reflexivity|]; split; [reflexivity|]; lia|cbn; lia].
Qed.
Lemma blank_bytes : bytes blank.
Proof. intro x. split; reflexivity || discriminate. Qed.
Lemma two_bytes : forall a b, check_bytes a = true -> check_bytes b = true -> byte_disk (two a b).
Proof.
  intros a b Ha Hb. split; [|apply check_bytes_ok; vm_compute; reflexivity]. apply store_bytes; [apply check_bytes_ok, Ha|]. apply store_bytes; [apply check_bytes_ok, Hb|apply blank_bytes].
Qed.
Lemma two_coherent : forall a b, coherent (two a b).
Proof. intros a b. split; [reflexivity|left; reflexivity]. Qed.
Lemma two_a : forall a b, holds (a_disk (two a b)) 20480 a.
Proof. intros a b. apply store_holds. Qed.
Lemma two_b : forall a b, zlen a <= 10240 -> holds (a_disk (two a b)) 30720 b.
Proof. intros a b H. apply store_other; [lia|apply store_holds]. Qed.
Lemma fits_by : forall d p, (total dcfg d p <=? g_end p - g_start p) && (r_load droom + total dcfg d p + 511 <=? r_top droom) = true -> fits dcfg d droom p.
Proof. intros d p H. apply andb_prop in H. destruct H as (H1 & H2). apply Z.leb_le in H1, H2. split; assumption. Qed.

Lemma dcfg_old : genuine dcfg demo_old 3.
Proof. demo_genuine. Qed.
Lemma dcfg_new : genuine dcfg demo_new 5.
Proof. demo_genuine. Qed.

Example C36_newest_hyps : exists x, boot_opened 1 dcfg dsrc droom (two demo_old demo_new) blank blank = Val (Some (true, x)) /\ holds (w_mem x) (r_load droom) demo_new /\ i_base (w_img x) = r_load droom + HDR dcfg.
Proof.
  apply (C36_newest 1 dcfg dsrc droom (two demo_old demo_new) blank blank part_a part_b true demo_new 5 3).
  - exact dcfg_ok. - exact droom_ok. - cbn; lia. - exact dsrc_ok. - apply two_coherent. - apply two_bytes; vm_compute; reflexivity. - apply blank_bytes. - apply blank_bytes.
  - apply fits_by; vm_compute; reflexivity. - apply fits_by; vm_compute; reflexivity. - vm_compute; discriminate. - vm_compute; discriminate.
  - exact dcfg_new. - apply two_b. vm_compute; discriminate. - eapply genuine_header; [exact dcfg_ok|exact dcfg_old|apply two_a]. - lia. - lia. - left; lia.
Qed.

(** The same image with a changed byte of firmware. *)
Definition damaged : list Z := Eval vm_compute in firstn 100 demo_new ++ [77] ++ skipn 101 demo_new.

Lemma damaged_header : forall b, header_version dcfg (a_disk (two b damaged)) 30720 5 \/ 10240 < zlen b.
Proof.
  intro b. destruct (Z.leb_spec (zlen b) 10240) as [L|L]; [left|right; exact L].
  pose proof (genuine_header dcfg (Sample.store 30720 demo_new blank) 30720 demo_new 5 dcfg_ok dcfg_new (store_holds _ _ _)) as H. intros m Hm E. apply H; [exact Hm|].
  intros i Hi. rewrite E by exact Hi. rewrite (two_b b damaged L i) by (split; [apply Hi|]; eapply Z.lt_trans; [apply Hi|reflexivity]). unfold Sample.store.
  rewrite (proj2 (inr_true _ _ _)) by (split; [lia|]; cbn [HDR dcfg] in Hi; change (zlen demo_new) with 264; lia). replace (30720 + i - 30720) with i by ring.
  rewrite (DualProofs.nth_firstn_lt damaged 64) by (cbn [HDR dcfg] in Hi; lia). rewrite (DualProofs.nth_firstn_lt demo_new 64) by (cbn [HDR dcfg] in Hi; lia). reflexivity.
Qed.

Lemma rdl_list : forall m a X n, holds m a X -> (n <= length X)%nat -> rdl m a n = firstn n X.
Proof.
  intros m a X n H L. apply (nth_ext _ _ 0 0); [rewrite length_rdl, firstn_length; lia|]. intros i Hi. rewrite length_rdl in Hi. rewrite rdl_nth by exact Hi.
  rewrite H by (unfold zlen; lia). rewrite Nat2Z.id. apply DualProofs.nth_firstn_lt, Hi.
Qed.

Lemma damaged_invalid : forall d p m, bytes d -> holds d (g_start p) damaged -> loaded dcfg d droom p m -> ~ valid dcfg m (r_load droom).
Proof.
  intros d p m Hd H (Hb & L) (_ & dg & (off & F & Ln & E) & _).
  assert (T : total dcfg d p = 264).
  { unfold total. rewrite word_rdl. replace (rdl d (g_start p + 4) 4) with (sub damaged 4 4); [reflexivity|]. symmetry. exact (holds_sub d (g_start p) damaged 4 4 H ltac:(apply Nat.leb_le; reflexivity)). }
  rewrite T in L.
  assert (HM : holds m (r_load droom) damaged) by (intros i Hi; change (zlen damaged) with 264 in Hi; rewrite L by exact Hi; apply H; exact Hi).
  assert (EH : rdl m (r_load droom) (Z.to_nat (HDR dcfg)) = firstn 64 damaged) by (apply rdl_list; [exact HM|apply Nat.leb_le; reflexivity]).
  assert (EW : word m (r_load droom + 4) = 200).
  { rewrite word_rdl. replace (rdl m (r_load droom + 4) 4) with (sub damaged 4 4); [reflexivity|]. symmetry. exact (holds_sub m (r_load droom) damaged 4 4 HM ltac:(apply Nat.leb_le; reflexivity)). }
  assert (EF : rdl m (r_load droom + HDR dcfg) (Z.to_nat (word m (r_load droom + 4))) = sub damaged 64 200).
  { rewrite EW. exact (holds_sub m (r_load droom) damaged 64 200 HM ltac:(apply Nat.leb_le; reflexivity)). }
  rewrite EH, EF in *.
  assert (F2 : field_at (r_load droom) (firstn 64 damaged) (c_hash_tag dcfg) 28 (sub damaged 28 4)) by demo_field.
  assert (B1 : all_bytes (firstn 64 damaged)) by (apply check_bytes_ok; vm_compute; reflexivity).
  destruct (field_det _ _ _ _ _ _ _ B1 ltac:(vm_compute; reflexivity) F F2) as (-> & ->). vm_compute in E. discriminate E.
Qed.

Example C36_falls_back_hyps : exists x, boot_opened 1 dcfg dsrc droom (two demo_old damaged) blank blank = Val (Some (false, x)) /\ holds (w_mem x) (r_load droom) demo_old /\ i_base (w_img x) = r_load droom + HDR dcfg.
Proof.
  assert (BD : byte_disk (two demo_old damaged)) by (apply two_bytes; vm_compute; reflexivity).
  apply (C36_falls_back 1 dcfg dsrc droom (two demo_old damaged) blank blank part_a part_b false demo_old 3 5).
  - exact dcfg_ok. - exact droom_ok. - cbn; lia. - exact dsrc_ok. - apply two_coherent. - exact BD. - apply blank_bytes. - apply blank_bytes.
  - apply fits_by; vm_compute; reflexivity. - apply fits_by; vm_compute; reflexivity. - vm_compute; discriminate. - vm_compute; discriminate.
  - exact dcfg_old. - apply two_a. - destruct (damaged_header demo_old) as [D|D]; [exact D|vm_compute in D; discriminate D]. - lia. - lia.
  - intros m0 L0. eapply damaged_invalid; [apply BD| |exact L0]. apply two_b. vm_compute; discriminate.
Qed.

(** Outcome as a test: [None] if not a value. *)
Definition booted (r : out (option (bool * world))) : option (option bool) :=
  match r with Val (Some (b, _)) => Some (Some b) | Val None => Some None | _ => None end.

(** Versions are compared as signed integers: the newer image loses. *)
Definition demo_huge : list Z := Eval vm_compute in demo_image (2 ^ 31) demo_fw2.
Theorem C36_signed_refuted : exists c s w st X v Y u x, cfg_ok c /\ room_ok w /\ disk_ok s part_a part_b /\ coherent st /\ byte_disk st /\
  fits c (a_disk st) w part_a /\ fits c (a_disk st) w part_b /\ genuine c X v /\ holds (a_disk st) (g_start part_a) X /\ genuine c Y u /\ holds (a_disk st) (g_start part_b) Y /\ v < u /\
  boot_opened 1 c s w st blank blank = Val (Some (false, x)).
Proof.
  assert (T : booted (boot_opened 1 dcfg dsrc droom (two demo_old demo_huge) blank blank) = Some (Some false)) by (vm_compute; reflexivity).
  destruct (boot_opened 1 dcfg dsrc droom (two demo_old demo_huge) blank blank) as [[(b, x)|]| |] eqn:E; try discriminate T. cbn [booted] in T. injection T as ->.
  exists dcfg, dsrc, droom, (two demo_old demo_huge), demo_old, 3, demo_huge, (2 ^ 31), x.
  split; [exact dcfg_ok|]. split; [exact droom_ok|]. split; [exact dsrc_ok|]. split; [apply two_coherent|]. split; [apply two_bytes; vm_compute; reflexivity|].
  split; [apply fits_by; vm_compute; reflexivity|]. split; [apply fits_by; vm_compute; reflexivity|]. split; [exact dcfg_old|]. split; [apply two_a|]. split; [demo_genuine|].
  split; [apply two_b; vm_compute; discriminate|]. split; [reflexivity|exact E].
Qed.
Print Assumptions C36_signed_refuted.

(** A header that claims more than memory has makes the routine panic, although the other
    partition holds a genuine image. *)
Definition greedy : list Z := Eval vm_compute in le_bytes 4 WOLFBOOT_MAGIC ++ le_bytes 4 (2 ^ 20) ++ [1; 0; 4; 0] ++ le_bytes 4 9 ++ repeat 255 48.
Theorem C36_no_fallback_refuted : exists c s w st X v, cfg_ok c /\ room_ok w /\ disk_ok s part_a part_b /\ coherent st /\ byte_disk st /\
  genuine c X v /\ 0 < v < 2 ^ 31 /\ holds (a_disk st) (g_start part_b) X /\ fits c (a_disk st) w part_b /\ boot_opened 1 c s w st blank blank = Val None.
Proof.
  assert (T : booted (boot_opened 1 dcfg dsrc droom (two greedy demo_new) blank blank) = Some None) by (vm_compute; reflexivity).
  exists dcfg, dsrc, droom, (two greedy demo_new), demo_new, 5.
  split; [exact dcfg_ok|]. split; [exact droom_ok|]. split; [exact dsrc_ok|]. split; [apply two_coherent|]. split; [apply two_bytes; vm_compute; reflexivity|].
  split; [exact dcfg_new|]. split; [lia|]. split; [apply two_b; vm_compute; discriminate|]. split; [apply fits_by; vm_compute; reflexivity|].
  destruct (boot_opened 1 dcfg dsrc droom (two greedy demo_new) blank blank) as [[(b, x)|]| |]; try discriminate T. reflexivity.
Qed.
Print Assumptions C36_no_fallback_refuted.

(** The check of the size leaves out the header and the rounding to sectors: a genuine image
    is written past the end of the memory set aside. *)
Definition tight : room := {| r_load := 65536; r_top := 65736 |}.
Theorem C36_memory_refuted : exists c s w st X v, cfg_ok c /\ room_ok w /\ disk_ok s part_a part_b /\ coherent st /\ byte_disk st /\
  genuine c X v /\ holds (a_disk st) (g_start part_b) X /\ boot_opened 1 c s w st blank blank = UB.
Proof.
  exists dcfg, dsrc, tight, (two demo_old demo_new), demo_new, 5. split; [exact dcfg_ok|]. split; [unfold room_ok; cbn; split; [lia|]; split; [lia|reflexivity]|]. split; [exact dsrc_ok|].
  split; [apply two_coherent|]. split; [apply two_bytes; vm_compute; reflexivity|]. split; [exact dcfg_new|]. split; [apply two_b; vm_compute; discriminate|]. vm_compute. reflexivity.
Qed.
Print Assumptions C36_memory_refuted.

(** The hypotheses of [C36_too_long_refuted]: 16 KiB announced in a partition of 4607 bytes. *)
Definition endless : list Z := Eval vm_compute in le_bytes 4 WOLFBOOT_MAGIC ++ le_bytes 4 16384 ++ [1; 0; 4; 0] ++ le_bytes 4 9 ++ repeat 255 48.
Lemma version_by : forall c d a X v, cfg_ok c -> holds d a X -> zlen X = HDR c -> (forall m, bytes m -> holds m 0 X -> blob_version c m 0 = Val v) -> header_version c d a v.
Proof.
  intros c d a X v Hc H L HV m Hm E. pose proof (proj1 Hc) as Hh. destruct (blob_val c m 0 Hm Hh) as (u & Eu & Vu). rewrite HV in Eu; [injection Eu as <-; exact Vu|exact Hm|].
  intros i Hi. cbn [Z.add]. rewrite E by lia. apply H, Hi.
Qed.
Example C36_too_long_hyps : forall fuel, boot_opened fuel dcfg dsrc droom (two endless demo_new) blank blank = NoFuel.
Proof.
  intro fuel. assert (BD : byte_disk (two endless demo_new)) by (apply two_bytes; vm_compute; reflexivity).
  apply (C36_too_long_refuted fuel dcfg dsrc droom (two endless demo_new) blank blank part_a part_b 9 5).
  - exact dcfg_ok. - exact droom_ok. - exact dsrc_ok. - apply two_coherent. - exact BD. - apply blank_bytes. - apply blank_bytes.
  - cbn; lia. - apply fits_by; vm_compute; reflexivity.
  - apply (version_by dcfg _ 20480 endless); [exact dcfg_ok|apply two_a|reflexivity|]. intros m Hm H.
    unfold blob_version. rewrite word_rdl, (rdl_list m 0 endless 4 H) by (apply Nat.leb_le; reflexivity). change (negb (le_val (firstn 4 endless) =? WOLFBOOT_MAGIC)) with false. cbv iota.
    unfold get_header, hdr_bytes. rewrite (rdl_list m 0 endless _ H) by (apply Nat.leb_le; reflexivity).
    assert (FH : find_header 0 (firstn (Z.to_nat (HDR dcfg)) endless) HDR_VERSION = Val (Some (12%nat, 4%nat))) by (vm_compute; reflexivity). rewrite FH. cbn [obind Nat.eqb].
    rewrite word_rdl. replace (rdl m (0 + Z.of_nat 12) 4) with (sub endless 12 4) by (symmetry; apply (holds_sub m 0 endless 12 4 H); apply Nat.leb_le; reflexivity). reflexivity.
  - eapply genuine_header; [exact dcfg_ok|exact dcfg_new|]. apply two_b; vm_compute; discriminate.
  - lia. - lia. - vm_compute; split; reflexivity. - vm_compute; discriminate. - vm_compute; discriminate.
Qed.
(** The hypotheses of [C36_start] on the disk of [C35_open_hyps]. *)
Example C36_start_hyps : stack_ok locals (fun _ => repeat 0 128) /\ byte_disk (start_st (demo_bytes 128 128)).
Proof.
  split; [|split; [apply C35_open_hyps|apply check_bytes_ok; vm_compute; reflexivity]]. repeat (split; [reflexivity|]).
  split; [apply check_bytes_ok; reflexivity|]. split; [apply check_bytes_ok; reflexivity|]. split; [apply check_bytes_ok; vm_compute; reflexivity|]. intro i. apply check_bytes_ok; vm_compute; reflexivity.
Qed.
