(** Theorems about ELF images: C49 and C50. *)
From Verif Require Import Base BaseLemmas HeaderModel HeaderSpec HeaderProofs Flash FlashLemmas ImageModel ImageSpec
  ImageProofs GenuineProofs TrailerModel SwapModel SwapSpec Geometry NobackupModel RefuseProofs DualProofs DualProps Sample SwapLimits
  ElfModel ElfSpec ElfProofs ScatterProofs ScatterRun.
Local Ltac Zify.zify_post_hook ::= idtac.

(** ** Sample files *)

Definition phdr32 (ty off va pa fs ms : Z) : list Z :=
  le_bytes 4 ty ++ le_bytes 4 off ++ le_bytes 4 va ++ le_bytes 4 pa ++ le_bytes 4 fs ++ le_bytes 4 ms ++ le_bytes 4 5 ++ le_bytes 4 4.
Definition phdr64 (ty off va pa fs ms : Z) : list Z :=
  le_bytes 4 ty ++ le_bytes 4 5 ++ le_bytes 8 off ++ le_bytes 8 va ++ le_bytes 8 pa ++ le_bytes 8 fs ++ le_bytes 8 ms ++ le_bytes 8 4.
Definition elf32 (ty entry : Z) (phs : list (list Z)) (body : list Z) : list Z :=
  [127; 69; 76; 70; 1; 1; 1] ++ repeat 0 9 ++ le_bytes 2 ty ++ le_bytes 2 40 ++ le_bytes 4 1 ++ le_bytes 4 entry ++
  le_bytes 4 52 ++ le_bytes 4 0 ++ le_bytes 4 0 ++ le_bytes 2 52 ++ le_bytes 2 32 ++ le_bytes 2 (zlen phs) ++ repeat 0 6 ++
  concat phs ++ body.
Definition elf64 (ty entry : Z) (phs : list (list Z)) (body : list Z) : list Z :=
  [127; 69; 76; 70; 2; 1; 1] ++ repeat 0 9 ++ le_bytes 2 ty ++ le_bytes 2 243 ++ le_bytes 4 1 ++ le_bytes 8 entry ++
  le_bytes 8 64 ++ le_bytes 8 0 ++ le_bytes 4 0 ++ le_bytes 2 64 ++ le_bytes 2 56 ++ le_bytes 2 (zlen phs) ++ repeat 0 6 ++
  concat phs ++ body.

Definition m32 : ecfg := {| AW := 32; HBE := false; SWP := false; BOFF := 0 |}.
Definition m64 : ecfg := {| AW := 64; HBE := false; SWP := false; BOFF := 0 |}.

Definition text : list Z := map (fun i => Z.of_nat (i * 5 mod 251)) (seq 1 16).
Definition data : list Z := map (fun i => Z.of_nat (i * 9 mod 241)) (seq 3 12).
Definition tail_bytes : list Z := map (fun i => Z.of_nat (i * 3 mod 239)) (seq 2 64).

(** Two loadable segments and a note; four zeros between the segments. *)
Definition app_file : list Z := Eval vm_compute in
  elf32 2 8200 [phdr32 1 148 8192 8192 16 16; phdr32 1 168 9000 8320 12 40; phdr32 4 0 0 0 4 4]
    (text ++ repeat 0 4 ++ data ++ tail_bytes).
Definition app64 : list Z := Eval vm_compute in
  elf64 2 8200 [phdr64 1 176 8192 8192 16 16; phdr64 1 196 9000 8320 12 40] (text ++ repeat 0 4 ++ data ++ tail_bytes).

Lemma apart_by : forall a n b m, (a + n <=? b) || (b + m <=? a) = true -> apart a n b m.
Proof. intros a n b m H x (P & Q). unfold spans in *. apply orb_prop in H. lia. Qed.

Ltac elf_okay :=
  constructor;
  [ apply check_bytes_ok; vm_compute; reflexivity | vm_compute; reflexivity
  | first [left; vm_compute; reflexivity | right; vm_compute; reflexivity]
  | first [left; vm_compute; reflexivity | right; vm_compute; reflexivity]
  | vm_compute; discriminate | vm_compute; discriminate | vm_compute; discriminate
  | let s := fresh in let H := fresh in let L := fresh in intros s H L; vm_compute in H;
    repeat (destruct H as [<-|H]; [first [discriminate L | split; vm_compute; discriminate]|]); destruct H ].

Lemma app_file_ok : elf_ok app_file.
Proof. elf_okay. Qed.
Lemma app64_ok : elf_ok app64.
Proof. elf_okay. Qed.

(** A decision procedure for [no_overlap]. *)
Definition apartb (a n b m : Z) : bool := (a + n <=? b) || (b + m <=? a).
Definition isload (s : segment) : bool := s_type s =? 1.
Fixpoint pairs_b (addr size : segment -> Z) (l : list segment) : bool :=
  match l with
  | [] => true
  | s :: r => forallb (fun t => negb (isload s) || negb (isload t) || apartb (addr s) (size s) (addr t) (size t)) r &&
              pairs_b addr size r
  end.
Definition sep_b (addr size : segment -> Z) (top a n : Z) (l : list segment) : bool :=
  pairs_b addr size l &&
  forallb (fun s => negb (isload s) || ((0 <=? addr s) && (addr s + size s <=? top) && apartb (addr s) (size s) a n)) l.

Lemma load_is : forall s, loadable s -> isload s = true.
Proof. intros s L. unfold isload. rewrite L. reflexivity. Qed.

Lemma pairs_ok : forall addr size l, pairs_b addr size l = true ->
  forall i j s t, nth_error l i = Some s -> nth_error l j = Some t -> (i < j)%nat -> loadable s -> loadable t ->
    apart (addr s) (size s) (addr t) (size t).
Proof.
  induction l as [|x l IH]; intros H i j s t Hs Ht N Ls Lt; [destruct i; discriminate|].
  cbn [pairs_b] in H. apply andb_prop in H. destruct H as (H1 & H2).
  destruct j as [|j]; [lia|]. cbn [nth_error] in Ht. destruct i as [|i]; cbn [nth_error] in Hs.
  - assert (x = s) by congruence. subst x. rewrite forallb_forall in H1. specialize (H1 t (nth_error_In _ _ Ht)). cbn beta in H1.
    rewrite (load_is s Ls), (load_is t Lt) in H1. cbn [negb orb] in H1. apply apart_by. exact H1.
  - apply (IH H2 i j); auto. lia.
Qed.

Lemma sep_ok : forall addr size top a n l, sep_b addr size top a n l = true -> no_overlap l addr size top a n.
Proof.
  intros addr size top a n l H. unfold sep_b in H. apply andb_prop in H. destruct H as (H1 & H2). split.
  - intros i j s t Hs Ht N Ls Lt. destruct (Nat.lt_ge_cases i j) as [Q|Q].
    + apply (pairs_ok _ _ _ H1 i j); auto.
    + intros x (P1 & P2). apply (pairs_ok _ _ _ H1 j i t s Ht Hs ltac:(lia) Lt Ls x). auto.
  - intros s I L. rewrite forallb_forall in H2. specialize (H2 s I). cbn beta in H2. rewrite (load_is s L) in H2. cbn [negb orb] in H2.
    apply andb_prop in H2. destruct H2 as (H2 & H3). split; [lia|]. split; [lia|]. apply apart_by. exact H3.
Qed.
Ltac separate := apply sep_ok; vm_compute; reflexivity.

Lemma app_file_apart : no_overlap (segments app_file) s_vaddr s_memsz (2 ^ 32) 65536 (zlen app_file).
Proof. separate. Qed.

(** ** C49 *)

(** C49: an executable file that lies at [a] and whose loadable segments do not overlap one
    another or the file is loaded as the ELF standard says: every segment in memory at its
    virtual address, zeros after its file contents, everything else unchanged, and the
    result is the entry point.  Each range is mapped before it is used.  (A 64-bit file
    must be in the byte order of the machine.) *)
Theorem C49_load : forall e X a cb m,
  elf_ok X -> file_type X = 2 -> holds m a X -> 0 <= a -> a + zlen X <= 2 ^ AW e -> zlen X < 2 ^ 31 < 2 ^ AW e ->
  (HBE e = negb (little X) \/ SWP e = true /\ class32 X = true) ->
  no_overlap (segments X) s_vaddr s_memsz (2 ^ AW e) a (zlen X) -> 0 <= entry_point X < 2 ^ AW e ->
  (forall s, In s (segments X) -> loadable s -> 0 <= s_paddr s < 2 ^ AW e /\ (s_memsz s <> 0 -> maps cb s)) ->
  exists m', elf_load_image_mmu e m a cb = Val (LOk m' (entry_point X) (map_calls cb (segments X))) /\ in_memory X m m'.
Proof.
  intros e X a cb m OK TY H A0 A1 (LEN & POW) RD SEP EN MP.
  destruct (load_ok e X a OK ltac:(unfold reads; tauto) A0 A1 LEN POW SEP cb) with (m := m) as (m' & E & I & _); auto.
  - intros s I L. apply MP; assumption.
  - intros s I L. apply MP; assumption.
  - tauto.
  - exists m'. auto.
Qed.
Print Assumptions C49_load.

(** The sample file at 65536, with a mapping callback that takes everything below 64 KB. *)
Definition low_map (va pa sz : Z) : bool := va + sz <=? 65536.
Definition app_mem : flash := store 65536 app_file blank.
Example C49_load_case : exists m', elf_load_image_mmu m32 app_mem 65536 (Some low_map) =
    Val (LOk m' 8200 [(8192, 8192, 16); (9000, 8320, 40)]) /\ in_memory app_file app_mem m'.
Proof.
  apply (C49_load m32 app_file 65536 (Some low_map) app_mem).
  - exact app_file_ok.
  - vm_compute; reflexivity.
  - apply store_holds.
  - lia.
  - vm_compute; discriminate.
  - split; vm_compute; reflexivity.
  - left. vm_compute. reflexivity.
  - exact app_file_apart.
  - split; [vm_compute; discriminate|vm_compute; reflexivity].
  - intros s H L. vm_compute in H.
    repeat (destruct H as [<-|H]; [first [discriminate L|split; [split; [vm_compute; discriminate|vm_compute; reflexivity]|
      intros _; split; vm_compute; reflexivity]]|]). destruct H.
Qed.

(** The RAM boot starts a loaded file at its entry point, and anything that is not an
    executable ELF file at its first byte. *)
Theorem C49_started : forall e X a m,
  elf_ok X -> file_type X = 2 -> holds m a X -> 0 <= a -> a + zlen X <= 2 ^ AW e -> zlen X < 2 ^ 31 < 2 ^ AW e ->
  (HBE e = negb (little X) \/ SWP e = true /\ class32 X = true) ->
  no_overlap (segments X) s_vaddr s_memsz (2 ^ AW e) a (zlen X) -> 0 <= entry_point X < 2 ^ AW e ->
  (forall s, In s (segments X) -> loadable s -> 0 <= s_paddr s < 2 ^ AW e) ->
  exists m', ram_entry e m a = Val (m', entry_point X) /\ in_memory X m m'.
Proof.
  intros e X a m OK TY H A0 A1 LEN RD SEP EN MP.
  destruct (C49_load e X a None m) as (m' & E & I); auto.
  - intros s J L. split; [apply MP; assumption|intros _; exact I].
  - exists m'. split; [|exact I]. unfold ram_entry. rewrite E. reflexivity.
Qed.
Print Assumptions C49_started.

Example C49_started_case : exists m', ram_entry m32 app_mem 65536 = Val (m', 8200) /\ in_memory app_file app_mem m'.
Proof.
  apply (C49_started m32 app_file 65536 app_mem).
  - exact app_file_ok.
  - vm_compute; reflexivity.
  - apply store_holds.
  - lia.
  - vm_compute; discriminate.
  - split; vm_compute; reflexivity.
  - left. vm_compute. reflexivity.
  - exact app_file_apart.
  - split; [vm_compute; discriminate|vm_compute; reflexivity].
  - intros s H L. vm_compute in H.
    repeat (destruct H as [<-|H]; [first [discriminate L|split; [vm_compute; discriminate|vm_compute; reflexivity]]|]). destruct H.
Qed.

Theorem C49_raw : forall e m a, rdl m a 4 <> [127; 69; 76; 70] -> ram_entry e m a = Val (m, a).
Proof.
  intros e m a H. unfold ram_entry, elf_load_image_mmu. destruct (list_eqb (rdl m a 4) ELF_IDENT) eqn:E.
  - apply list_eqb_iff in E. contradiction.
  - reflexivity.
Qed.
Print Assumptions C49_raw.
Example C49_raw_case : rdl blank 4096 4 <> [127; 69; 76; 70].
Proof. vm_compute. discriminate. Qed.

(** What loading leaves at an address: entry point, byte, mapping calls. *)
Definition after_load (e : ecfg) (m : flash) (a : Z) (cb : option (Z -> Z -> Z -> bool)) (x : Z) : option (Z * Z * list (Z * Z * Z)) :=
  match elf_load_image_mmu e m a cb with Val (LOk m' en log) => Some (en, m' x, log) | _ => None end.
Lemma after_ok : forall e m a cb x en v log, after_load e m a cb x = Some (en, v, log) ->
  exists m', elf_load_image_mmu e m a cb = Val (LOk m' en log) /\ m' x = v.
Proof.
  intros e m a cb x en v log H. unfold after_load in H.
  destruct (elf_load_image_mmu e m a cb) as [[|m' en' log']| |]; try discriminate. exists m'. split; congruence.
Qed.

(** Refuted: "a file that cannot be loaded is not started".  A position-independent
    executable (type 3) is an ELF file the loader rejects; the RAM boot then starts it at
    its first byte, the ELF header. *)
Definition pie_file : list Z := Eval vm_compute in elf32 3 8200 [phdr32 1 84 8192 8192 16 16] (text ++ tail_bytes).
Theorem C49_type_refuted : exists e X a m, elf_ok X /\ holds m a X /\
  elf_load_image_mmu e m a None = Val (LErr (-2)) /\ ram_entry e m a = Val (m, a).
Proof.
  exists m32, pie_file, 65536, (store 65536 pie_file blank). split; [elf_okay|]. split; [apply store_holds|].
  assert (E : match elf_load_image_mmu m32 (store 65536 pie_file blank) 65536 None with Val (LErr z) => z | _ => 0 end = -2)
    by (vm_compute; reflexivity).
  unfold ram_entry. destruct (elf_load_image_mmu m32 (store 65536 pie_file blank) 65536 None) as [[z|]| |]; try discriminate E.
  cbn [obind]. subst z. auto.
Qed.
Print Assumptions C49_type_refuted.

(** Refuted: "success means that every segment is loaded".  When the callback cannot map a
    segment, the segment is skipped and loading still succeeds. *)
Definition no_data (va pa sz : Z) : bool := negb (va =? 9000).
Theorem C49_map_refuted : exists e X a cb m m', elf_ok X /\ file_type X = 2 /\ holds m a X /\
  no_overlap (segments X) s_vaddr s_memsz (2 ^ AW e) a (zlen X) /\
  elf_load_image_mmu e m a cb = Val (LOk m' (entry_point X) (map_calls cb (segments X))) /\ ~ in_memory X m m'.
Proof.
  destruct (after_ok m32 app_mem 65536 (Some no_data) 9000 8200 255 [(8192, 8192, 16); (9000, 8320, 40)]) as (m' & E & V);
    [vm_compute; reflexivity|].
  exists m32, app_file, 65536, (Some no_data), app_mem, m'. split; [exact app_file_ok|]. split; [vm_compute; reflexivity|].
  split; [apply store_holds|]. split; [exact app_file_apart|]. split; [exact E|]. intros (I & _).
  assert (K : m' 9000 = 27); [|congruence].
  rewrite (I (mkSeg 1 168 9000 8320 12 40) 9000); [vm_compute; reflexivity|vm_compute; auto|reflexivity|unfold spans; cbn; lia].
Qed.
Print Assumptions C49_map_refuted.

(** Refuted: "only bytes of the file are loaded".  The file's length is not known to the
    loader: a segment that lies outside the file is filled from whatever follows it. *)
Definition wild_file : list Z := Eval vm_compute in elf32 2 8192 [phdr32 1 1000 8192 8192 16 16] (text ++ tail_bytes).
Theorem C49_bounds_refuted : exists e X a m1 m2 m1' m2' x, holds m1 a X /\ holds m2 a X /\ file_type X = 2 /\
  (exists s, segments X = [s] /\ loadable s /\ zlen X < s_off s /\ spans (s_vaddr s) (s_filesz s) x) /\
  elf_load_image_mmu e m1 a None = Val (LOk m1' (entry_point X) []) /\
  elf_load_image_mmu e m2 a None = Val (LOk m2' (entry_point X) []) /\ m1' x <> m2' x.
Proof.
  set (f1 := store 65536 wild_file blank). set (f2 := store 66536 [42] f1).
  destruct (after_ok m32 f1 65536 None 8192 8192 255 []) as (m1 & E1 & V1); [vm_compute; reflexivity|].
  destruct (after_ok m32 f2 65536 None 8192 8192 42 []) as (m2 & E2 & V2); [vm_compute; reflexivity|].
  exists m32, wild_file, 65536, f1, f2, m1, m2, 8192. split; [apply store_holds|]. split.
  { apply store_other; [right; vm_compute; discriminate|apply store_holds]. }
  split; [vm_compute; reflexivity|]. split.
  { exists (mkSeg 1 1000 8192 8192 16 16). split; [vm_compute; reflexivity|]. split; [reflexivity|].
    split; [vm_compute; reflexivity|unfold spans; cbn; lia]. }
  split; [exact E1|]. split; [exact E2|]. congruence.
Qed.
Print Assumptions C49_bounds_refuted.

(** Refuted: "every byte written lies in a mapped range".  The range asked for is the memory
    size: a segment with more file contents than that is copied past its end, and of a
    memory size over 32 bits only the low bits are asked for. *)
Definition over_file : list Z := Eval vm_compute in elf32 2 8192 [phdr32 1 84 8192 8192 16 4] (text ++ tail_bytes).
Definition huge_file : list Z := Eval vm_compute in elf64 2 8192 [phdr64 1 120 1048576 1048576 16 (2 ^ 32 + 16)] (text ++ tail_bytes).
Theorem C49_mapped_refuted :
  (exists X a m m' x, holds m a X /\ elf_load_image_mmu m32 m a (Some (fun _ _ _ => true)) = Val (LOk m' (entry_point X) [(8192, 8192, 4)]) /\
     ~ spans 8192 4 x /\ m' x <> m x) /\
  (exists X a m m' x, elf_ok X /\ holds m a X /\ no_overlap (segments X) s_vaddr s_memsz (2 ^ 64) a (zlen X) /\
     elf_load_image_mmu m64 m a (Some (fun _ _ _ => true)) = Val (LOk m' (entry_point X) [(1048576, 1048576, 16)]) /\
     ~ spans 1048576 16 x /\ m' x <> m x).
Proof.
  split.
  - destruct (after_ok m32 (store 65536 over_file blank) 65536 (Some (fun _ _ _ => true)) 8200 8192 45 [(8192, 8192, 4)]) as (m' & E & V);
      [vm_compute; reflexivity|].
    exists over_file, 65536, (store 65536 over_file blank), m', 8200. split; [apply store_holds|]. split; [exact E|].
    split; [unfold spans; lia|]. rewrite V. vm_compute. discriminate.
  - destruct (after_ok m64 (store 65536 huge_file blank) 65536 (Some (fun _ _ _ => true)) 1060000 8192 0 [(1048576, 1048576, 16)]) as (m' & E & V);
      [vm_compute; reflexivity|].
    exists huge_file, 65536, (store 65536 huge_file blank), m', 1060000. split; [elf_okay|]. split; [apply store_holds|].
    split; [separate|]. split; [exact E|]. split; [unfold spans; lia|]. rewrite V. vm_compute. discriminate.
Qed.
Print Assumptions C49_mapped_refuted.

(** Refuted: "with ELF_ENDIAN_SUPPORT files of either byte order are loaded".  The offset of
    the program headers of a 64-bit file in the other byte order is swapped as 32 bits, so
    that the headers are looked for elsewhere; nothing is loaded, with success. *)
Definition big64 : ecfg := {| AW := 64; HBE := true; SWP := true; BOFF := 0 |}.
Theorem C49_endian_refuted : exists e X a m m', SWP e = true /\ elf_ok X /\ file_type X = 2 /\ holds m a X /\
  no_overlap (segments X) s_vaddr s_memsz (2 ^ AW e) a (zlen X) /\
  elf_load_image_mmu e m a None = Val (LOk m' (entry_point X) []) /\ ~ in_memory X m m'.
Proof.
  destruct (after_ok big64 (store 65536 app64 blank) 65536 None 8192 8200 255 []) as (m' & E & V); [vm_compute; reflexivity|].
  exists big64, app64, 65536, (store 65536 app64 blank), m'. split; [reflexivity|]. split; [exact app64_ok|].
  split; [vm_compute; reflexivity|]. split; [apply store_holds|]. split; [separate|]. split; [exact E|]. intros (I & _).
  assert (K : m' 8192 = 5); [|congruence].
  rewrite (I (mkSeg 1 176 8192 8192 16 16) 8192); [vm_compute; reflexivity|vm_compute; auto|reflexivity|unfold spans; cbn; lia].
Qed.
Print Assumptions C49_endian_refuted.

(** ** C50 *)

Lemma firmware_of : forall c f X v, geometry c -> genuine c X v -> holds f (BOOT c) X -> firmware c f = fw_of c X.
Proof.
  intros c f X v G GX H. pose proof (g_hdr c G). pose proof (gn_len _ _ _ GX) as L.
  assert (Es : word f (BOOT c + 4) = zlen X - HDR c).
  { rewrite <- (gn_size _ _ _ GX), word_rdl. rewrite <- (holds_sub f (BOOT c)) by (unfold zlen in *; auto; lia). reflexivity. }
  unfold firmware, fw_of. rewrite Es. replace (BOOT c + HDR c) with (BOOT c + Z.of_nat (Z.to_nat (HDR c))) by lia.
  rewrite (holds_sub f (BOOT c) X) by (unfold zlen in *; auto; lia). apply sub_all. unfold zlen in *. lia.
Qed.

(** C50: a genuine image of the supported layout is in the boot partition; anything may be
    at the run addresses.  The routine ends with the application's entry point and all
    segments in place (unless the hash function collides); only run addresses change.  A
    power failure at any moment leaves the image as it is, and running the routine again
    gives the same result. *)
Theorem C50_scatter : forall c e X v f, geometry c -> 32 <= AW e -> BOOT c + PART c <= 2 ^ AW e -> bytes f ->
  genuine c X v -> holds f (BOOT c) X -> scatterable c (BOFF e) (2 ^ AW e) f ->
  let good g := exists g', run (scatter c e) g = Done (entry_point (fw_of c X)) g' /\
                  same_outside (BOFF e) (fw_of c X) g g' /\
                  (all_in_place c (BOFF e) g' \/ g' = g /\ collides c (BOFF e) g) in
  good f /\ forall t g, crash t (scatter c e) f g ->
    same_outside (BOFF e) (fw_of c X) f g /\ holds g (BOOT c) X /\ verified c g (BOOT c) /\ good g.
Proof.
  intros c e X v f G AWOK TOP Hb GX H SC good.
  assert (step : forall g, bytes g -> holds g (BOOT c) X -> scatterable c (BOFF e) (2 ^ AW e) g -> good g).
  { intros g Bg Hg SG. pose proof (holds_verified c g PBOOT X v G Bg ltac:(discriminate) GX Hg) as V. cbn [part_addr] in V.
    destruct (wpc_run _ _ _ _ _ (scatter_wpc c e G AWOK TOP {| atomic_erase := fun _ => False; guarded := fun _ => False |} g Bg V SG))
      as (en & g' & R & (Q1 & _ & Q3 & Q4) & _).
    rewrite (firmware_of c g X v G GX Hg) in *. exists g'. subst en. auto. }
  split; [apply step; assumption|]. intros t g Cr.
  pose proof (holds_verified c f PBOOT X v G Hb ltac:(discriminate) GX H) as V. cbn [part_addr] in V.
  pose proof (wpc_crash _ _ _ _ _ (scatter_wpc c e G AWOK TOP t f Hb V SC) g Cr) as SO.
  pose proof (firmware_of c f X v G GX H) as FW.
  assert (Hg : holds g (BOOT c) X).
  { intros i Hi. rewrite <- (H i Hi). apply (same_boot c e f g); auto. rewrite FW.
    assert (zlen (fw_of c X) = zlen X - HDR c); [|lia].
    unfold fw_of, zlen in *. rewrite skipn_length. pose proof (gn_len _ _ _ GX). pose proof (g_hdr c G). unfold zlen in *. lia. }
  rewrite FW in SO. pose proof SO as (Bg & _).
  assert (SG : scatterable c (BOFF e) (2 ^ AW e) g).
  { destruct SC. rewrite FW in *. constructor; rewrite (firmware_of c g X v G GX Hg); assumption. }
  split; [exact SO|]. split; [exact Hg|]. split; [|apply step; assumption].
  exact (holds_verified c g PBOOT X v G Bg ltac:(discriminate) GX Hg).
Qed.
Print Assumptions C50_scatter.

(** The sample file signed as version 5, on a device that is otherwise blank. *)
Definition app_image : list Z := Eval vm_compute in demo_image 5 app_file.
Definition app_flash : flash := store 1024 app_image blank.
Lemma app_genuine : genuine demo app_image 5.
Proof. demo_genuine. Qed.
Lemma app_bytes : bytes app_flash.
Proof. apply store_bytes; [apply check_bytes_ok; vm_compute; reflexivity|apply blank_bytes]. Qed.

Lemma app_scatterable : scatterable demo 0 (2 ^ 32) app_flash.
Proof.
  assert (E : firmware demo app_flash = app_file) by (vm_compute; reflexivity).
  constructor; rewrite E.
  - exact app_file_ok.
  - unfold orderly. replace (class32 app_file) with true by (vm_compute; reflexivity).
    split; [vm_compute; reflexivity|]. split; [vm_compute; reflexivity|]. split; [vm_compute; reflexivity|].
    exists [mkSeg 1 148 8192 8192 16 16; mkSeg 1 168 9000 8320 12 40], [mkSeg 4 0 0 0 4 4], 180.
    split; [vm_compute; reflexivity|]. split; [discriminate|]. split; [repeat constructor|]. split.
    { constructor; [discriminate|constructor]. }
    replace (52 + phdr_count app_file * 32) with 148 by (vm_compute; reflexivity).
    split; [|split; [vm_compute; discriminate|vm_compute; discriminate]].
    cbn [laid s_off s_filesz]. repeat split; try lia.
    + intros i Hi.
      assert (K : i = 164 \/ i = 165 \/ i = 166 \/ i = 167) by lia. destruct K as [ -> |[ -> |[ -> | -> ]]]; vm_compute; reflexivity.
  - vm_compute; reflexivity.
  - separate.
Qed.

Example C50_scatter_case : exists g, run (scatter demo m32) app_flash = Done 8200 g /\
  rdl g 8192 16 = text /\ rdl g 8320 12 = data /\ g 8208 = 255.
Proof.
  pose proof (C50_scatter demo m32 app_image 5 app_flash demo_geometry ltac:(cbn; lia) ltac:(vm_compute; discriminate) app_bytes app_genuine
    ltac:(apply store_holds) app_scatterable) as ((g & R & _) & _).
  exists g. split; [exact R|].
  assert (E : match run (scatter demo m32) app_flash with Done _ g => (rdl g 8192 16, rdl g 8320 12, g 8208) | _ => ([], [], 0) end = (text, data, 255))
    by (vm_compute; reflexivity).
  rewrite R in E. split; [congruence|]. split; congruence.
Qed.

Lemma keeps_both : forall c im, keeps (verify_both c im).
Proof.
  intros c im. unfold verify_both. apply keeps_bind; [apply keeps_pure|]. intros [[|] im1]; [|apply keeps_ret].
  apply keeps_bind; [apply keeps_pure|]. intros [[] ?]; [apply keeps_ret|apply keeps_ret|apply keeps_panic].
Qed.
Lemma keeps_verify : forall c p, keeps (open_and_verify c p).
Proof.
  intros c p. unfold open_and_verify. apply keeps_bind; [apply keeps_get|]. intros [[|] im]; [apply keeps_both|apply keeps_ret].
Qed.
Lemma keeps_boot : forall c upd, keeps upd -> keeps (boot_stage c upd).
Proof.
  intros c upd K. unfold boot_stage. apply keeps_bind; [apply keeps_verify|]. intros [ok im].
  apply keeps_bind.
  - destruct ok; [apply keeps_ret|]. apply keeps_bind; [exact K|]. intros [|]; cbn [negb]; [|apply keeps_panic].
    apply keeps_bind; [apply keeps_verify|]. intros [[|] im2]; [apply keeps_ret|apply keeps_panic].
  - intro im'. destruct (sanity im'); [apply keeps_ret|apply keeps_panic].
Qed.
Lemma start_bytes : forall c u f r f', bytes f -> run (start c u) f = Done r f' -> bytes f'.
Proof.
  intros c u f r f' Hb E. assert (K : keeps (start c u)); [|specialize (K f Hb); rewrite E in K; exact K].
  unfold start. apply keeps_bind; [apply keeps_get|]. intros [bs us]. apply keeps_bind; [intro; apply keeps_final|]. intro b.
  apply keeps_bind; [|intro; apply keeps_boot, keeps_update].
  destruct b; [apply keeps_ret|].
  repeat match goal with |- keeps (if ?b then _ else _) => destruct b end;
    try apply keeps_ret; (apply keeps_bind; [apply keeps_update|intro; apply keeps_ret]).
Qed.

(** The whole boot: whenever the image that the boot routine settles on has the supported
    layout, its application is started, from segments that are in place. *)
Theorem C50_boot : forall c e u f r f1, geometry c -> 32 <= AW e -> BOOT c + PART c <= 2 ^ AW e -> bytes f ->
  run (start c u) f = Done r f1 -> scatterable c (BOFF e) (2 ^ AW e) f1 ->
  verified c f1 (BOOT c) /\
  exists f', run (start_scattered c e u) f = Done (entry_point (firmware c f1)) f' /\
    same_outside (BOFF e) (firmware c f1) f1 f' /\ firmware c f' = firmware c f1 /\
    (all_in_place c (BOFF e) f' \/ f' = f1 /\ collides c (BOFF e) f1).
Proof.
  intros c e u f r f1 G AWOK TOP Hb E SC. destruct (start_verified c u f r f1 G Hb E) as (V & _).
  assert (B1 : bytes f1) by (apply (start_bytes c u f r f1 Hb E)).
  split; [exact V|].
  destruct (wpc_run _ _ _ _ _ (scatter_wpc c e G AWOK TOP {| atomic_erase := fun _ => False; guarded := fun _ => False |} f1 B1 V SC))
    as (en & f' & R & (Q1 & Q2 & Q3 & Q4) & _).
  exists f'. split; [unfold start_scattered; rewrite run_bind, E, R; subst en; reflexivity|]. auto.
Qed.
Print Assumptions C50_boot.

Example C50_boot_case : exists r f1, run (start demo u_zero) app_flash = Done r f1 /\ scatterable demo 0 (2 ^ 32) f1.
Proof.
  destruct (run (start demo u_zero) app_flash) as [r f1|f1|] eqn:E; [|exfalso|exfalso].
  - exists r, f1. split; [reflexivity|].
    assert (K : match run (start demo u_zero) app_flash with Done _ g => firmware demo g | _ => [] end = app_file) by (vm_compute; reflexivity).
    rewrite E in K. destruct app_scatterable. assert (K0 : firmware demo app_flash = app_file) by (vm_compute; reflexivity).
    rewrite K0 in *. constructor; rewrite K; assumption.
  - assert (K : is_done (run (start demo u_zero) app_flash) = true) by (vm_compute; reflexivity). rewrite E in K. discriminate.
  - assert (K : is_done (run (start demo u_zero) app_flash) = true) by (vm_compute; reflexivity). rewrite E in K. discriminate.
Qed.

(** Refuted: "every signed ELF file whose segments are in place is started".  In four
    layouts, all produced by ordinary linkers, the digest is computed over something else
    than the file and the device panics on every boot:
    - the first segment starts at offset 0 and so contains the headers;
    - fewer bytes than an image header follow the last segment in the file;
    - the bytes between two segments are not zero;
    - the last program header is not loadable and points behind the last segment. *)
Definition ready (X : list Z) (segs : list (Z * list Z)) : flash :=
  fold_right (fun p f => store (fst p) (snd p) f) (store 1024 (demo_image 5 X) blank) segs.
Definition refused (X : list Z) : Prop :=
  exists f v, genuine demo (demo_image 5 X) v /\ holds f 1024 (demo_image 5 X) /\ bytes f /\ firmware demo f = X /\
    elf_ok X /\ no_overlap (segments X) s_paddr s_filesz (2 ^ 32) 1024 512 /\ all_in_place demo 0 f /\
    exists f', run (scatter demo m32) f = Panicked f'.

Definition whole_file : list Z := Eval vm_compute in
  elf32 2 8276 [phdr32 1 0 8192 8192 100 100] (text ++ tail_bytes).
Definition short_file : list Z := Eval vm_compute in
  elf32 2 8192 [phdr32 1 84 8192 8192 16 16] (text ++ firstn 63 tail_bytes).
Definition gap_file : list Z := Eval vm_compute in
  elf32 2 8192 [phdr32 1 116 8192 8192 16 16; phdr32 1 136 8320 8320 12 12] (text ++ [1; 2; 3; 4] ++ data ++ tail_bytes).
Definition note_file : list Z := Eval vm_compute in
  elf32 2 8192 [phdr32 1 116 8192 8192 16 16; phdr32 4 140 0 0 4 4] (text ++ tail_bytes).

Lemma panics : forall {A} (p : prog A) f, is_panic (run p f) = true -> exists f', run p f = Panicked f'.
Proof. intros A p f H. destruct (run p f) as [a f'|f'|]; try discriminate. eauto. Qed.

Lemma place_by : forall f b fw s, rdl f (s_paddr s + b) (Z.to_nat (s_filesz s)) = sub fw (Z.to_nat (s_off s)) (Z.to_nat (s_filesz s)) ->
  (Z.to_nat (s_off s) + Z.to_nat (s_filesz s) <= length fw)%nat -> 0 <= s_off s -> in_place f b fw s.
Proof.
  intros f b fw s E L O i Hi.
  replace (f (s_paddr s + b + i)) with (nth (Z.to_nat i) (rdl f (s_paddr s + b) (Z.to_nat (s_filesz s))) 0)
    by (rewrite rdl_nth by lia; f_equal; lia).
  rewrite E, nth_sub by lia. f_equal. lia.
Qed.

Ltac refuse segs :=
  match goal with |- refused ?X =>
    exists (ready X segs), 5; split; [demo_genuine|];
    split; [repeat (apply store_other; [right; vm_compute; discriminate|]); apply store_holds|];
    split; [repeat (apply store_bytes; [apply check_bytes_ok; vm_compute; reflexivity|]); apply blank_bytes|];
    assert (FW : firmware demo (ready X segs) = X) by (vm_compute; reflexivity);
    split; [exact FW|]; split; [elf_okay|]; split; [separate|];
    split; [|apply panics; vm_compute; reflexivity];
    unfold all_in_place; rewrite FW; clear FW; let s := fresh in let H := fresh in let L := fresh in intros s H L; vm_compute in H;
    repeat (destruct H as [<-|H]; [first [discriminate L | apply place_by;
      [vm_compute; reflexivity|apply Nat.leb_le; vm_compute; reflexivity|vm_compute; discriminate]]|]); destruct H
  end.

Theorem C50_layouts_refuted : refused whole_file /\ refused short_file /\ refused gap_file /\ refused note_file.
Proof.
  split; [refuse [(8192, firstn 100 whole_file)]|]. split; [refuse [(8192, text)]|].
  split; [refuse [(8192, text); (8320, data)]|refuse [(8192, text)]].
Qed.
Print Assumptions C50_layouts_refuted.

(** Refuted: "an application is started only if its segments are in place".  The check
    concatenates what it finds at the run addresses, in the order of the program headers,
    whatever file offsets these give: when two segments have the same contents in the file
    and a note stands between the second and a third one, the digest is right for the
    bytes that follow the contents in the file.  (No hash collision: the bytes hashed are
    those of the file.) *)
Definition twin_file : list Z := Eval vm_compute in
  elf32 2 8192 [phdr32 1 180 8192 8192 8 8; phdr32 1 180 8320 8320 8 8; phdr32 4 0 0 0 4 4; phdr32 1 196 8448 8448 12 12]
    (text ++ data ++ tail_bytes).
Definition twin_flash : flash := ready twin_file [(8192, firstn 8 text); (8320, skipn 8 text); (8448, data)].
Theorem C50_started_refuted : exists c e X f v, geometry c /\ genuine c X v /\ bytes f /\ holds f (BOOT c) X /\ elf_ok (firmware c f) /\
  no_overlap (segments (firmware c f)) s_paddr s_filesz (2 ^ 32) (BOOT c) (PART c) /\
  run (scatter c e) f = Done (entry_point (firmware c f)) f /\ ~ all_in_place c (BOFF e) f.
Proof.
  exists demo, m32, (demo_image 5 twin_file), twin_flash, 5. split; [exact demo_geometry|]. split; [demo_genuine|].
  split; [repeat (apply store_bytes; [apply check_bytes_ok; vm_compute; reflexivity|]); apply blank_bytes|].
  split; [repeat (apply store_other; [right; vm_compute; discriminate|]); apply store_holds|].
  assert (FW : firmware demo twin_flash = twin_file) by (vm_compute; reflexivity). rewrite FW.
  split; [elf_okay|]. split; [separate|]. split.
  - unfold scatter. cbn [get bind run].
    assert (E : elf_check_image_scattered demo m32 twin_flash = Val (Some (entry_point twin_file))) by (vm_compute; reflexivity).
    rewrite E. reflexivity.
  - unfold all_in_place. rewrite FW. intro P.
    specialize (P (mkSeg 1 180 8320 8320 8 8) ltac:(vm_compute; auto) eq_refl 0 ltac:(cbn; lia)). vm_compute in P. discriminate P.
Qed.
Print Assumptions C50_started_refuted.

(** Refuted: "a single-slot device without a valid image installs a genuine update".  With
    scattered ELF images the update first checks, and if need be copies, the segments of
    the image it is about to replace: without a valid one, for instance after a power
    failure during an earlier update, the device panics on every boot.  Without
    WOLFBOOT_ELF_SCATTERED the same device recovers. *)
Definition rescue_flash : flash := store 2048 app_image blank.
Theorem C50_update_refuted : exists c e X f v, geometry c /\ genuine c X v /\ bytes f /\ holds f (UPDATE c) X /\
  is_done (run (start_direct c) f) = true /\ run (start_direct_scattered c e) f = Panicked f.
Proof.
  exists demo, m32, app_image, rescue_flash, 5. split; [exact demo_geometry|]. split; [exact app_genuine|].
  split; [apply store_bytes; [apply check_bytes_ok; vm_compute; reflexivity|apply blank_bytes]|].
  split; [apply store_holds|]. split; [vm_compute; reflexivity|]. vm_compute. reflexivity.
Qed.
Print Assumptions C50_update_refuted.
