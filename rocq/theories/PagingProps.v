(** Properties C59 and C60: the page tables wolfBoot builds on 64-bit x86. *)
From Verif Require Import Base PagingSpec PagingModel PagingProofs PagingMap PagingLoop PagingIdentity.

(** * C59: the identity mapping

    The first stage calls this with [top = 4 GB] and seven zeroed pages. *)
Theorem C59_identity : forall m top pt,
  0 <= top <= 2 ^ 32 ->
  0 <= pt -> pt mod 4096 = 0 -> pt + 7 * 4096 <= 2 ^ 32 ->
  (forall a, pt <= a < pt + 7 * 4096 -> m a = 0) ->
  exists m', x86_paging_build_identity_mapping 7 m top pt = (m', 0) /\
    (forall va, 0 <= va < top -> translate m' pt va = Some (va, true)) /\
    (forall a, ~ (pt <= a < pt + 7 * 4096) -> m' a = m a).
Proof.
  intros m top pt T P0 PA PH Z0. change (7 * 4096) with 28672 in *.
  exists (result m top pt).
  split; [|split].
  - unfold result. rewrite (build_eq m top pt T P0 PA PH Z0). reflexivity.
  - intros va V. change (2 ^ 32) with 4294967296 in T.
    rewrite (translate_result m top pt T P0 PA PH Z0).
    + replace (va / 2097152 <? top / 2097152 + 1) with true by lia.
      unfold u32. change (2 ^ 32) with 4294967296. do 2 f_equal. lia.
    + left. change (2 ^ 47) with 140737488355328. lia.
  - intros a N. exact (result_frame m top pt T P0 PA PH Z0 a N).
Qed.
Print Assumptions C59_identity.

(** Below 4 GB nothing is mapped anywhere else, and nothing beyond the 2 MB page of the
    top address is mapped. *)
Theorem C59_nothing_else : forall m top pt m' va pa w,
  0 <= top < 2 ^ 32 ->
  0 <= pt -> pt mod 4096 = 0 -> pt + 7 * 4096 <= 2 ^ 32 ->
  (forall a, pt <= a < pt + 7 * 4096 -> m a = 0) ->
  x86_paging_build_identity_mapping 7 m top pt = (m', 0) ->
  canonical va -> translate m' pt va = Some (pa, w) ->
  pa = va /\ va / 2 ^ 21 <= top / 2 ^ 21.
Proof.
  intros m top pt m' va pa w T P0 PA PH Z0 B C TR. change (7 * 4096) with 28672 in *.
  assert (T' : 0 <= top <= 2 ^ 32) by lia.
  assert (E : m' = result m top pt) by (unfold result; rewrite B; reflexivity).
  rewrite E, (translate_result m top pt T' P0 PA PH Z0 va C) in TR.
  destruct (Z.ltb_spec (va / 2097152) (top / 2097152 + 1)) as [L|L]; [|discriminate].
  injection TR as <- <-. change (2 ^ 21) with 2097152. change (2 ^ 32) with 4294967296 in T.
  unfold canonical in C. change (2 ^ 47) with 140737488355328 in C.
  change (2 ^ 64) with 18446744073709551616 in C.
  unfold u32. change (2 ^ 32) with 4294967296. split; lia.
Qed.
Print Assumptions C59_nothing_else.

(** The hypotheses hold of zeroed memory; the theorem gives the tables for 4 GB. *)
Example C59_ex : exists m',
  x86_paging_build_identity_mapping 7 (fun _ => 0) (2 ^ 32) 4096 = (m', 0) /\
  translate m' 4096 3735928559 = Some (3735928559, true).
Proof.
  destruct (C59_identity (fun _ => 0) (2 ^ 32) 4096) as (m' & B & I & _);
    [lia|lia|reflexivity|lia|reflexivity|].
  exists m'. split; [exact B|]. apply I. lia.
Qed.

(** False for the mapping the first stage asks for: the 2 MB above 4 GB are mapped to
    physical address 0 (one entry too many is written, for [2048 << 21] in 32 bits). *)
Theorem C59_alias_refuted : exists m pt m' va pa,
  (forall a, m a = 0) /\ pt mod 4096 = 0 /\ 0 <= pt /\ pt + 7 * 4096 <= 2 ^ 32 /\
  x86_paging_build_identity_mapping 7 m (2 ^ 32) pt = (m', 0) /\
  canonical va /\ va <> pa /\ translate m' pt va = Some (pa, true).
Proof.
  exists (fun _ => 0), 4096, (result (fun _ => 0) (2 ^ 32) 4096), (2 ^ 32 + 4096), 4096.
  split; [reflexivity|]. split; [reflexivity|]. split; [lia|]. split; [lia|].
  assert (C : canonical (2 ^ 32 + 4096)) by (left; lia).
  split; [|split; [exact C|split; [lia|]]].
  - unfold result. rewrite build_eq; [reflexivity|lia|lia|reflexivity|lia|reflexivity].
  - rewrite translate_result; [reflexivity|lia|lia|reflexivity|lia|reflexivity|exact C].
Qed.
Print Assumptions C59_alias_refuted.

(** False for memory above 4 GB even if enough pages are configured: the call succeeds
    although addresses below [top] are not mapped. *)
Theorem C59_large_refuted : exists num m top pt va,
  (forall a, m a = 0) /\ pt mod 4096 = 0 /\ 0 <= va < top /\
  snd (x86_paging_build_identity_mapping num m top pt) = 0 /\
  translate (fst (x86_paging_build_identity_mapping num m top pt)) pt va = None.
Proof.
  exists 16, (fun _ => 0), (2 ^ 33), 4096, (2 ^ 21).
  split; [reflexivity|]. split; [reflexivity|]. split; [lia|].
  split; vm_compute; reflexivity.
Qed.
Print Assumptions C59_large_refuted.

(** * C60: mapping further memory *)

(** [va'] lies on a page that contains one of the bytes [va .. va+size-1]. *)
Definition touched (va size va' : Z) : Prop := exists b, va <= b < va + size /\ b / 4096 = va' / 4096.

Theorem C60_maps : forall fuel pool cr3 s va pa size,
  (* the pool of 512 pages *)
  0 <= pool -> pool mod 4096 = 0 -> pool + 512 * 4096 <= 2 ^ 52 ->
  (* the tables in use *)
  0 <= used s <= 511 -> sane (mem s) cr3 (pool + used s * 4096) (pool + 512 * 4096) ->
  (* the request *)
  0 < size < 2 ^ 32 -> canonical va -> canonical (va + size - 1) -> va + size <= 2 ^ 64 - 4096 ->
  4096 <= pa -> pa mod 4096 = va mod 4096 -> pa + size + 8192 <= 2 ^ 52 ->
  size / 4096 + 2 <= Z.of_nat fuel ->
  match x86_paging_map_memory fuel pool cr3 s va pa size with
  | Val (Some (s', r)) =>
    r = 0 /\
    (* pages that were mapped stay as they were; the others are mapped as requested *)
    (forall va', canonical va' -> touched va size va' ->
       translate (mem s') cr3 va' =
       match translate (mem s) cr3 va' with
       | Some x => Some x
       | None => Some (pa + (va' - va), true)
       end) /\
    (* nothing else changes *)
    (forall va', canonical va' -> ~ touched va size va' ->
       translate (mem s') cr3 va' = translate (mem s) cr3 va') /\
    (* only page tables are written *)
    (forall a, ~ (pool + used s * 4096 <= a < pool + 512 * 4096) ->
       (forall k va' t, (k < 4)%nat -> table (mem s) cr3 k va' = Some t -> ~ in_page t a) ->
       mem s' a = mem s a) /\
    (* the tables are ready for the next request *)
    used s <= used s' <= 511 /\
    sane (mem s') cr3 (pool + used s' * 4096) (pool + 512 * 4096)
  | Val None => 512 <= used s + 3 * (size / 4096 + 2)   (* panic: the pool is exhausted *)
  | UB => False
  | NoFuel => False
  end.
Proof.
  intros fuel pool cr3 s va pa size P0 P1 P2 U SN SZ C1 C2 TOPV PA1 PA2 PA3 FU.
  assert (PO : pool_ok pool) by (split; [exact P0|split; [exact P1|exact P2]]).
  assert (W : wf pool cr3 s) by (split; [exact U|exact SN]).
  assert (VB : 0 <= va < 2 ^ 64)
    by (unfold canonical in C1; change (2 ^ 47) with 140737488355328 in C1;
        change (2 ^ 64) with 18446744073709551616 in *; lia).
  unfold x86_paging_map_memory. rewrite !land_mask.
  change (2 ^ 32) with 4294967296 in *. change (2 ^ 52) with 4503599627370496 in *.
  change (2 ^ 64) with 18446744073709551616 in *.
  rewrite (Z.mod_small pa), (Z.mod_small va) by lia.
  replace (pa / 4096 * 4096 =? 0) with false by lia.
  unfold u64. change (2 ^ 64) with 18446744073709551616. rewrite (Z.mod_small (va + size)) by lia.
  assert (CAN : forall b, va / 4096 * 4096 <= b < va + size -> canonical b).
  { unfold canonical in *. change (2 ^ 47) with 140737488355328 in *.
    change (2 ^ 64) with 18446744073709551616 in *. intros b B. lia. }
  pose proof (map_loop_ok pool cr3 fuel s (va / 4096 * 4096) (va + size) (pa / 4096 * 4096) PO W) as L.
  specialize (L ltac:(lia) ltac:(lia) ltac:(lia)
    ltac:(change (2 ^ 64) with 18446744073709551616; lia) CAN ltac:(lia) ltac:(lia)
    ltac:(change (2 ^ 52) with 4503599627370496; lia) ltac:(unfold pages; lia)).
  destruct (map_loop fuel pool cr3 s (va / 4096 * 4096) (va + size) (pa / 4096 * 4096)) as [[s'|]| |];
    [|unfold pages in L; lia|exact L|exact L].
  destruct L as (X & F). split; [reflexivity|].
  split; [|split; [|split; [|split]]].
  - intros va' C (b & B1 & B2). rewrite F by exact C.
    replace ((va / 4096 * 4096 <=? va') && (va' / 4096 * 4096 <? va + size)) with true by lia.
    destruct (translate (mem s) cr3 va'); [reflexivity|]. do 2 f_equal. lia.
  - intros va' C NT. rewrite F by exact C.
    destruct ((va / 4096 * 4096 <=? va') && (va' / 4096 * 4096 <? va + size)) eqn:E; [|reflexivity].
    exfalso. apply NT. apply andb_prop in E. destruct E as (E1 & E2).
    exists (Z.max va (va' / 4096 * 4096)). lia.
  - intros a NL NT. apply (ext_frame _ _ _ _ X); [exact NL|].
    intros (k & va' & t & K & T & I). exact (NT k va' t K T I).
  - destruct (ext_wf _ _ _ _ X) as (U' & _). pose proof (ext_used _ _ _ _ X). lia.
  - destruct (ext_wf _ _ _ _ X) as (_ & SN'). exact SN'.
Qed.
Print Assumptions C60_maps.

(** Physical address 0 is refused. *)
Theorem C60_zero : forall fuel pool cr3 s va pa size, 0 <= pa < 4096 ->
  x86_paging_map_memory fuel pool cr3 s va pa size = Val (Some (s, -1)).
Proof.
  intros fuel pool cr3 s va pa size B. unfold x86_paging_map_memory. rewrite land_mask.
  replace ((pa mod 2 ^ 64) / 4096 * 4096 =? 0) with true; [reflexivity|].
  symmetry. apply Z.eqb_eq. rewrite (Z.mod_small pa); [lia|].
  change (2 ^ 64) with 18446744073709551616. lia.
Qed.
Print Assumptions C60_zero.

(** On the tables of the first stage: loading a program high in the address space leaves
    the first 4 GB as they are and succeeds while the pool lasts. *)
Theorem C60_after_identity : forall fuel m pt m' pool va pa size,
  0 <= pt -> pt mod 4096 = 0 -> pt + 7 * 4096 <= 2 ^ 32 ->
  (forall a, pt <= a < pt + 7 * 4096 -> m a = 0) ->
  x86_paging_build_identity_mapping 7 m (2 ^ 32) pt = (m', 0) ->
  0 <= pool -> pool mod 4096 = 0 -> pool + 512 * 4096 <= 2 ^ 32 ->
  (pool + 512 * 4096 <= pt \/ pt + 7 * 4096 <= pool) ->
  0 < size <= 168 * 4096 -> canonical va -> canonical (va + size - 1) ->
  2 ^ 32 + 2 ^ 21 <= va -> va + size <= 2 ^ 64 - 4096 ->
  4096 <= pa -> pa mod 4096 = va mod 4096 -> pa + size <= 2 ^ 32 ->
  170 <= Z.of_nat fuel ->
  exists s', x86_paging_map_memory fuel pool pt {| mem := m'; used := 0 |} va pa size = Val (Some (s', 0)) /\
    (forall b, va <= b < va + size -> translate (mem s') pt b = Some (pa + (b - va), true)) /\
    (forall b, 0 <= b < 2 ^ 32 -> translate (mem s') pt b = Some (b, true)).
Proof.
  intros fuel m pt m' pool va pa size A0 A1 A2 Z0 B P0 P1 P2 D SZ C1 C2 V1 V2 PA1 PA2 PA3 FU.
  change (7 * 4096) with 28672 in *.
  assert (T4 : 0 <= 2 ^ 32 <= 2 ^ 32) by lia.
  assert (E : m' = result m (2 ^ 32) pt) by (unfold result; rewrite B; reflexivity).
  pose proof (C60_maps fuel pool pt {| mem := m'; used := 0 |} va pa size P0 P1) as H.
  cbn [mem used] in H.
  assert (SN : sane m' pt (pool + 0 * 4096) (pool + 512 * 4096)).
  { rewrite E. apply sane_result; auto; lia. }
  assert (TR : forall b, canonical b -> translate m' pt b =
     if b / 2097152 <? 2 ^ 32 / 2097152 + 1
     then Some (u32 (b / 2097152 * 2097152) + b mod 2097152, true) else None).
  { intros b C. rewrite E. apply translate_result; auto. }
  change (2 ^ 32 / 2097152 + 1) with 2049 in TR.
  change (2 ^ 32) with 4294967296 in *. change (2 ^ 52) with 4503599627370496 in *.
  change (2 ^ 64) with 18446744073709551616 in *. change (2 ^ 21) with 2097152 in *.
  specialize (H ltac:(lia) ltac:(lia) SN ltac:(lia) C1 C2 V2 PA1 PA2 ltac:(lia) ltac:(lia)).
  destruct (x86_paging_map_memory fuel pool pt {| mem := m'; used := 0 |} va pa size) as [[[s' r]|]| |];
    [|lia|contradiction|contradiction].
  destruct H as (-> & H1 & H2 & _). exists s'. split; [reflexivity|].
  unfold canonical in C1, C2. change (2 ^ 47) with 140737488355328 in *.
  change (2 ^ 64) with 18446744073709551616 in *.
  split.
  - intros b Bb.
    assert (Cb : canonical b).
    { unfold canonical. change (2 ^ 47) with 140737488355328. change (2 ^ 64) with 18446744073709551616. lia. }
    rewrite H1; [|exact Cb|exists b; split; [exact Bb|reflexivity]].
    rewrite TR by exact Cb. replace (b / 2097152 <? 2049) with false by lia. reflexivity.
  - intros b Bb.
    assert (Cb : canonical b).
    { unfold canonical. change (2 ^ 47) with 140737488355328. lia. }
    rewrite H2; [|exact Cb|intros (x & X1 & X2); lia].
    rewrite TR by exact Cb. replace (b / 2097152 <? 2049) with true by lia.
    unfold u32. change (2 ^ 32) with 4294967296. do 2 f_equal. lia.
Qed.
Print Assumptions C60_after_identity.

(** A kernel of 600 KB at the usual address, tables at 1 MB, pool at 16 MB. *)
Example C60_ex : exists m' s',
  x86_paging_build_identity_mapping 7 (fun _ => 0) (2 ^ 32) 1048576 = (m', 0) /\
  x86_paging_map_memory 400 16777216 1048576 {| mem := m'; used := 0 |}
    18446744071562067968 33554432 614400 = Val (Some (s', 0)) /\
  translate (mem s') 1048576 (18446744071562067968 + 5000) = Some (33554432 + 5000, true) /\
  translate (mem s') 1048576 12345 = Some (12345, true).
Proof.
  destruct (C59_identity (fun _ => 0) (2 ^ 32) 1048576) as (m' & B & _);
    [lia|lia|reflexivity|lia|reflexivity|].
  destruct (C60_after_identity 400 (fun _ => 0) 1048576 m' 16777216
              18446744071562067968 33554432 614400) as (s' & M & I & J);
    try lia; try reflexivity; try exact B; try (right; lia).
  exists m', s'. split; [exact B|]. split; [exact M|]. split.
  - rewrite I by lia. do 2 f_equal.
  - apply J. lia.
Qed.

(** Three ways in which a request succeeds without being met.  The tables in the witnesses
    identify the first 6 MB. *)
Definition small : st :=
  {| mem := fst (x86_paging_build_identity_mapping 7 (fun _ => 0) (2 ^ 22) 1048576); used := 0 |}.

Lemma small_sane : sane (mem small) 1048576 (16777216 + used small * 4096) (16777216 + 512 * 4096).
Proof. change (used small) with 0. apply sane_result; [lia|lia|reflexivity|lia|reflexivity|lia]. Qed.

Definition asked_and_done (va pa size b : Z) (got : option (Z * bool)) : Prop :=
  0 < size < 2 ^ 32 /\ canonical va /\ canonical (va + size - 1) /\ 4096 <= pa /\
  va <= b < va + size /\ got <> Some (pa + (b - va), true) /\
  match x86_paging_map_memory 10 16777216 1048576 small va pa size with
  | Val (Some (s', r)) => r = 0 /\ translate (mem s') 1048576 b = got
  | _ => False
  end.

(** An address that is mapped already keeps its old target. *)
Theorem C60_mapped_refuted : exists va pa size b got,
  asked_and_done va pa size b got /\ va mod 4096 = pa mod 4096 /\ va + size <= 2 ^ 64 - 4096.
Proof.
  exists 2097152, 4194304, 4096, 2097152, (Some (2097152, true)).
  unfold asked_and_done. split; [|split; [reflexivity|lia]].
  split; [lia|]. split; [left; lia|]. split; [left; lia|]. split; [lia|]. split; [lia|].
  split; [discriminate|]. vm_compute. split; reflexivity.
Qed.
Print Assumptions C60_mapped_refuted.

(** Different offsets in the page: the bytes end up elsewhere. *)
Theorem C60_offset_refuted : exists va pa size b got,
  asked_and_done va pa size b got /\ translate (mem small) 1048576 va = None /\
  va + size <= 2 ^ 64 - 4096.
Proof.
  exists (2 ^ 46), 8390656, 16, (2 ^ 46 + 8), (Some (8388616, true)).
  unfold asked_and_done. split; [|split; [vm_compute; reflexivity|lia]].
  split; [lia|]. split; [left; lia|]. split; [left; lia|]. split; [lia|]. split; [lia|].
  split; [discriminate|]. vm_compute. split; reflexivity.
Qed.
Print Assumptions C60_offset_refuted.

(** The last page of the address space is not mapped: [va + size] wraps to 0. *)
Theorem C60_top_refuted : exists va pa size b got,
  asked_and_done va pa size b got /\ va mod 4096 = pa mod 4096 /\
  translate (mem small) 1048576 va = None /\ got = None.
Proof.
  exists (2 ^ 64 - 4096), 8388608, 4096, (2 ^ 64 - 1), None.
  unfold asked_and_done. split; [|split; [reflexivity|split; [vm_compute; reflexivity|reflexivity]]].
  split; [lia|]. split; [right; lia|]. split; [right; lia|]. split; [lia|]. split; [lia|].
  split; [discriminate|]. vm_compute. split; reflexivity.
Qed.
Print Assumptions C60_top_refuted.
