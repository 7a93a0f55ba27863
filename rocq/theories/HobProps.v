(** Properties C61 to C63: the memory list of the firmware, the Multiboot2 boot information
    and the Linux boot parameters made from it. *)
From Verif Require Import Base BaseLemmas HobSpec HobModel HobProofs Mb2Proofs HobBuild.

(** A list used in the examples: 640 kB of memory, a block of another kind, the memory above
    1 MB, the memory of the silicon package. *)
Definition ex_owner : list Z := repeat 0 16.
Definition ex_low : descriptor := {| owner := ex_owner; rtype := 0; attr := 7; start := 0; len := 655360 |}.
Definition ex_high : descriptor := {| owner := ex_owner; rtype := 0; attr := 7; start := 1048576; len := 2146435072 |}.
Definition ex_fsp : descriptor :=
  {| owner := FSP_RESERVED_GUID; rtype := 5; attr := 7; start := 2147483648; len := 4194304 |}.
Definition ex_list : list hob :=
  [Resource ex_low []; Other 4 (repeat 1 20); Resource ex_high [0; 0]; Resource ex_fsp []].

Lemma ex_list_ok : Forall hob_ok ex_list.
Proof.
  assert (K : forall d, (d = ex_low \/ d = ex_high \/ d = ex_fsp) -> desc_ok d).
  { intros d [ -> | [ -> | -> ]]; unfold desc_ok; cbn [owner rtype attr start len ex_low ex_high ex_fsp]; split; [reflexivity|lia|reflexivity|lia|reflexivity|lia]. }
  unfold ex_list. repeat apply Forall_cons; try apply Forall_nil; cbn [hob_ok].
  - split; [apply K; auto|reflexivity].
  - split; [lia|]. split; [lia|reflexivity].
  - split; [apply K; auto|reflexivity].
  - split; [apply K; auto|reflexivity].
Qed.

(** ** C61 *)

(** Walking a list visits exactly its resource descriptors, in order, until a visit fails,
    with no access outside the list: the memory modelled is the list and nothing else. *)
Theorem C61_visit : forall (S : Type) (cb : S -> Z -> Z -> Z -> out (S * Z)) l fuel s,
  Forall hob_ok l -> (length l < fuel)%nat ->
  hob_iterate_memory_map fuel (hob_list l) 0 cb s =
  visit (fun s d => cb s (start d) (len d) (rtype d)) s (descriptors l).
Proof. intros S cb l fuel s. apply iterate_whole. Qed.
Print Assumptions C61_visit.

(** The top of usable memory is the start of the first descriptor of the memory reserved by
    the silicon package. *)
Theorem C61_top : forall l fuel,
  Forall hob_ok l -> (length l < fuel)%nat ->
  get_top_address fuel (hob_list l) 0 =
  Val (option_map start
    (find (fun d => (rtype d =? MEMORY_RESERVED) &&
                    (if list_eq_dec Z.eq_dec (owner d) FSP_RESERVED_GUID then true else false))
          (descriptors l))).
Proof.
  intros l fuel K F. unfold get_top_address.
  destruct (find_list hob_fsp_reserved_guid l fuel [] K F) as (r & E & P). cbn [app length] in E, P.
  rewrite E. cbn [obind].
  assert (X : forall ds, find (fun d => (rtype d =? MEMORY_RESERVED) &&
                    (if list_eq_dec Z.eq_dec (owner d) FSP_RESERVED_GUID then true else false))
          ds = find (kept hob_fsp_reserved_guid) ds).
  { clear. induction ds as [|d ds IH]; [reflexivity|]. cbn [find].
    assert (Q : kept hob_fsp_reserved_guid d = (rtype d =? MEMORY_RESERVED) &&
                    (if list_eq_dec Z.eq_dec (owner d) FSP_RESERVED_GUID then true else false)).
    { unfold kept. f_equal. change hob_fsp_reserved_guid with FSP_RESERVED_GUID.
      destruct (list_eq_dec Z.eq_dec (owner d) FSP_RESERVED_GUID) as [e|n].
      - apply list_eqb_eq. exact e.
      - destruct (list_eqb (owner d) FSP_RESERVED_GUID) eqn:Y; [|reflexivity].
        apply list_eqb_eq in Y. contradiction. }
    rewrite <- Q. destruct (kept hob_fsp_reserved_guid d); [reflexivity|]. exact IH. }
  rewrite X. destruct (find (kept hob_fsp_reserved_guid) (descriptors l)) as [d|], r as [o|]; try contradiction;
    cbn [option_map]; [|reflexivity].
  rewrite P. reflexivity.
Qed.
Print Assumptions C61_top.

Example C61_ex :
  Forall hob_ok ex_list /\
  hob_iterate_memory_map 5 (hob_list ex_list) 0 (fun s a n t => Val (s ++ [(a, n, t)], 0)) [] =
  Val ([(0, 655360, 0); (1048576, 2146435072, 0); (2147483648, 4194304, 5)], 0) /\
  get_top_address 5 (hob_list ex_list) 0 = Val (Some 2147483648).
Proof.
  split; [exact ex_list_ok|]. split.
  - rewrite C61_visit; [reflexivity|exact ex_list_ok|cbn; lia].
  - rewrite C61_top; [reflexivity|exact ex_list_ok|cbn; lia].
Qed.

(** A block that claims to have no bytes stops the loader for ever. *)
Theorem C61_zero_refuted : forall (S : Type) (cb : S -> Z -> Z -> Z -> out (S * Z)) rest fuel s,
  hob_iterate_memory_map fuel (le_bytes 2 4 ++ le_bytes 2 0 ++ rest) 0 cb s = NoFuel /\
  get_top_address fuel (le_bytes 2 4 ++ le_bytes 2 0 ++ rest) 0 = NoFuel.
Proof.
  intros S cb rest fuel s. set (m := le_bytes 2 4 ++ le_bytes 2 0 ++ rest).
  assert (T : hob_get_type m 0 = Val 4) by (apply (ldw_at m [] 2 4 (le_bytes 2 0 ++ rest)); [reflexivity|reflexivity|change (256 ^ Z.of_nat 2) with 65536; lia]).
  assert (N : hob_get_next m 0 = Val 0%nat).
  { unfold hob_get_next, hob_get_length.
    rewrite (ldw_at m (le_bytes 2 4) 2 0 rest); [reflexivity|reflexivity|reflexivity|change (256 ^ Z.of_nat 2) with 65536; lia]. }
  split.
  - induction fuel as [|f IH]; [reflexivity|]. cbn [hob_iterate_memory_map]. rewrite T. cbn [obind].
    change (4 =? TYPE_END) with false. change (4 =? TYPE_RESOURCE) with false. cbv iota. cbn [obind].
    change (negb (0 =? 0)) with false. cbv iota. rewrite N. exact IH.
  - unfold get_top_address. assert (Q : hob_find_resource_by_guid fuel m 0 hob_fsp_reserved_guid = NoFuel).
    { induction fuel as [|f IH]; [reflexivity|]. cbn [hob_find_resource_by_guid]. rewrite T. cbn [obind].
      change (4 =? TYPE_END) with false. change (4 =? TYPE_RESOURCE) with false. cbv iota. cbn [obind].
      rewrite N. exact IH. }
    rewrite Q. reflexivity.
Qed.
Print Assumptions C61_zero_refuted.

(** ** C62 *)

Definition MB2_MAGIC : Z := 3897708758. (* 0xe85250d6 *)

(** The header found is the first one that starts at a multiple of 4 within the first 32764
    bytes of the image; none is found only if there is none. *)
Theorem C62_find : forall image size,
  0 <= size <= zlen image -> size <= 8191 \/ 32764 <= size ->
  exists r, mb2_find_header image size = Val r /\
  match r with
  | Some o => (o mod 4 = 0)%nat /\ Z.of_nat o + 4 <= size /\ Z.of_nat o + 4 <= 32764 /\ word image o = MB2_MAGIC /\
              forall p, (p mod 4 = 0)%nat -> (p < o)%nat -> word image p <> MB2_MAGIC
  | None => forall p, (p mod 4 = 0)%nat -> Z.of_nat p + 4 <= size -> Z.of_nat p + 4 <= 32764 ->
              word image p <> MB2_MAGIC
  end.
Proof.
  intros image size S0 SZ. unfold mb2_find_header, MB2_HEADER_MAX_OFF, MB2_MAGIC.
  change (32768 - 4) with 32764. change (32764 / 4) with 8191.
  assert (Q : exists e, (if size >? 8191 then 32764 else size) = e /\ 0 <= e <= zlen image /\
                        (e = size \/ e = 32764 /\ 32764 <= size) /\ e <= 32764).
  { destruct (Z.gtb_spec size 8191) as [G|G].
    - exists 32764. split; [reflexivity|]. lia.
    - exists size. split; [reflexivity|]. lia. }
  destruct Q as (e & -> & E0 & E1 & E2). unfold zlen in *.
  rewrite Z.quot_div_nonneg by lia.
  destruct (find_loop_ok image (Z.to_nat (e / 4)) 0) as (r & F & P); [lia|].
  exists r. split; [exact F|]. destruct r as [o|].
  - destruct P as (k & -> & B & W & N).
    split; [rewrite Nat.mul_comm; apply Nat.mod_mul; lia|]. split; [lia|]. split; [lia|]. split; [exact W|].
    intros p PM PL. replace p with (4 * (p / 4))%nat by lia. apply N. lia.
  - intros p PM P1 P2. replace p with (4 * (p / 4))%nat by lia. apply P. lia.
Qed.
Print Assumptions C62_find.

Example C62_find_ex :
  mb2_find_header ([1; 2; 3; 4; 5; 6; 7; 8] ++ le_bytes 4 MB2_MAGIC ++ [0; 0]) 14 = Val (Some 8%nat).
Proof. vm_compute. reflexivity. Qed.

(** Images of 8192 to 32763 bytes are searched beyond their end. *)
Theorem C62_bound_refuted : exists image, zlen image = 8192 /\ mb2_find_header image (zlen image) = UB.
Proof.
  exists (repeat 0 (Z.to_nat 8192)).
  assert (E : zlen (repeat 0 (Z.to_nat 8192)) = 8192) by (unfold zlen; rewrite repeat_length; lia).
  split; [exact E|]. rewrite E. vm_compute. reflexivity.
Qed.
Print Assumptions C62_bound_refuted.

(** The boot information consists of its size, a reserved word, the tags requested by the
    first request of the header, in order, and nothing else in the buffer is changed; it is
    built exactly if all of the requested tags are known and they fit. *)
Theorem C62_info : forall l fuel hdr base b max ts1 ts2 fl rs more,
  Forall hob_ok l -> (length l < fuel)%nat ->
  length hdr = 16%nat -> base mod 8 = 0 -> max <= zlen b -> zlen b < 2 ^ 32 ->
  Forall htag_ok ts1 -> Forall (fun t => ty t <> 1) ts1 -> (length ts1 < fuel)%nat ->
  Forall (fun r => 0 <= r < 2 ^ 32) rs -> 8 + 4 * zlen rs < 2 ^ 32 ->
  exists b' ret,
    mb2_build_boot_info_header fuel b (hdr ++ htags (ts1 ++ request fl rs :: ts2) ++ more) base (hob_list l) max =
      Val (b', ret) /\
    match tags_for (descriptors l) rs with
    | Some T => if 8 + zlen T <=? max
                then ret = 0 /\ b' = le_bytes 4 (8 + zlen T) ++ le_bytes 4 0 ++ T ++ skipn (8 + length T) b
                else ret = -1
    | None => ret = -1
    end.
Proof.
  intros l fuel hdr base b max ts1 ts2 fl rs more LOK LF H16 B8 MB BB K1 T1 L1 RS RL.
  pose proof (build_some l fuel LOK LF hdr H16 base B8 b max MB BB ts1 ts2 fl rs more K1 T1 L1 RS RL) as Q.
  cbv zeta in Q. destruct (tags_for (descriptors l) rs) as [T|].
  - destruct (8 + zlen T <=? max).
    + rewrite Q. do 2 eexists. split; [reflexivity|]. split; reflexivity.
    + destruct Q as (b' & ->). do 2 eexists. split; reflexivity.
  - destruct Q as (b' & ->). do 2 eexists. split; reflexivity.
Qed.
Print Assumptions C62_info.

(** Without a request there is no boot information. *)
Theorem C62_no_request : forall l fuel hdr base b max ts more,
  Forall hob_ok l -> (length l < fuel)%nat ->
  length hdr = 16%nat -> base mod 8 = 0 -> max <= zlen b -> zlen b < 2 ^ 32 ->
  Forall htag_ok ts -> Forall (fun t => ty t <> 1) ts -> (length ts < fuel)%nat ->
  exists b', mb2_build_boot_info_header fuel b (hdr ++ htags ts ++ more) base (hob_list l) max = Val (b', -1).
Proof.
  intros l fuel hdr base b max ts more LOK LF H16 B8 MB BB K1 T1 L1.
  exact (build_none l fuel LOK LF hdr H16 base B8 b max MB BB ts more K1 T1 L1).
Qed.
Print Assumptions C62_no_request.

Example C62_ex : exists b',
  mb2_build_boot_info_header 5 (repeat 7 200)
    (repeat 0 16 ++ htags [{| ty := 3; flags := 0; body := [1; 2; 3; 4] |}; request 0 [4; 6]]) 4096 (hob_list ex_list) 200 =
  Val (b', 0) /\
  firstn 8 b' = [112; 0; 0; 0; 0; 0; 0; 0] /\
  sub b' 8 16 = basic_tag 640 2096128 /\
  sub b' 24 88 = map_tag [ex_low; ex_high; ex_fsp] /\ skipn 112 b' = repeat 7 88.
Proof. eexists. split; [vm_compute; reflexivity|]. vm_compute. repeat split. Qed.

(** False: the boot information never contains the tag that must end it. *)
Theorem C62_end_refuted : forall l fuel hdr base b max ts1 ts2 fl rs more b',
  Forall hob_ok l -> (length l < fuel)%nat ->
  length hdr = 16%nat -> base mod 8 = 0 -> max <= zlen b -> zlen b < 2 ^ 32 ->
  Forall htag_ok ts1 -> Forall (fun t => ty t <> 1) ts1 -> (length ts1 < fuel)%nat ->
  Forall (fun r => 0 <= r < 2 ^ 32) rs -> 8 + 4 * zlen rs < 2 ^ 32 ->
  mb2_build_boot_info_header fuel b (hdr ++ htags (ts1 ++ request fl rs :: ts2) ++ more) base (hob_list l) max =
    Val (b', 0) ->
  forall f, terminated f b' 8 = false.
Proof.
  intros l fuel hdr base b max ts1 ts2 fl rs more b' LOK LF H16 B8 MB BB K1 T1 L1 RS RL E f.
  destruct (C62_info l fuel hdr base b max ts1 ts2 fl rs more LOK LF H16 B8 MB BB K1 T1 L1 RS RL) as (b2 & ret & E2 & P).
  rewrite E in E2. assert (Q : (b', 0) = (b2, ret)) by congruence. apply pair_equal_spec in Q. destruct Q as [<- <-].
  destruct (tags_for (descriptors l) rs) as [T|] eqn:ET; [|discriminate].
  destruct (Z.leb_spec (8 + zlen T) max) as [FIT|?]; [|discriminate]. destruct P as (_ & ->).
  pose proof (zlen_nonneg T) as NT.
  set (pre := le_bytes 4 (8 + zlen T) ++ le_bytes 4 0).
  assert (ZP : zlen pre = 8) by (unfold pre; rewrite zlen_app, !zlen_le; reflexivity).
  rewrite (app_assoc (le_bytes 4 (8 + zlen T))). fold pre.
  change (terminated f (pre ++ T ++ skipn (8 + length T) b) 8 = false). rewrite <- ZP.
  apply (not_terminated (descriptors l) rs T f pre _ ET).
  - rewrite ZP. reflexivity.
  - unfold pre at 1. rewrite <- app_assoc. rewrite zlen_app, ZP.
    apply (word_at [] (8 + zlen T)); [reflexivity|lia].
  - rewrite zlen_app, ZP. lia.
Qed.
Print Assumptions C62_end_refuted.

(** False: a request that the kernel marks as optional (flag 1) makes the boot fail as well. *)
Theorem C62_optional_refuted : exists l hdr base b max,
  Forall hob_ok l /\ max = zlen b /\ 1000 <= max /\
  exists b', mb2_build_boot_info_header 5 b (hdr ++ htags [request 1 [6; 8]]) base (hob_list l) max = Val (b', -1).
Proof.
  exists ex_list, (repeat 0 16), 4096, (repeat 0 1000), 1000.
  split; [exact ex_list_ok|]. split; [reflexivity|]. split; [lia|].
  destruct (C62_info ex_list 5 (repeat 0 16) 4096 (repeat 0 1000) 1000 [] [] 1 [6; 8] []) as (b' & ret & E & P);
    [exact ex_list_ok|cbn; lia|reflexivity|reflexivity|unfold zlen; rewrite repeat_length; lia
    |unfold zlen; rewrite repeat_length; lia|constructor|constructor|cbn; lia
    |repeat constructor; lia|cbn; lia|].
  rewrite app_nil_r in E. cbn [app] in E. change (ret = -1) in P. subst ret. exists b'. exact E.
Qed.
Print Assumptions C62_optional_refuted.

(** False: ports count as memory.  A list without any memory, with the 64 kB of ports, yields
    64 kB of lower memory, and a memory map with that range. *)
Definition ports : descriptor := {| owner := ex_owner; rtype := IO_PORTS; attr := 0; start := 0; len := 65536 |}.
Theorem C62_ports_refuted : forall b, 64 <= zlen b -> zlen b < 2 ^ 32 ->
  exists b',
    mb2_build_boot_info_header 5 b (repeat 0 16 ++ htags [request 0 [4; 6]]) 4096
      (hob_list [Resource ports []]) (zlen b) = Val (b', 0) /\
    sub b' 8 16 = basic_tag 64 0 /\ sub b' 24 40 = map_tag [ports].
Proof.
  intros b B BB.
  destruct (C62_info [Resource ports []] 5 (repeat 0 16) 4096 b (zlen b) [] [] 0 [4; 6] []) as (b' & ret & E & P);
    [|cbn; lia|reflexivity|reflexivity|lia|exact BB|constructor|constructor|cbn; lia|repeat constructor; lia|cbn; lia|].
  { constructor; [|constructor]. cbn [hob_ok]. split; [|reflexivity]. unfold desc_ok.
    cbn [owner rtype attr start len ports]. unfold IO_PORTS. split; [reflexivity|lia]. }
  rewrite app_nil_r in E. cbn [app] in E.
  assert (TE : tags_for (descriptors [Resource ports []]) [4; 6] = Some (basic_tag 64 0 ++ map_tag [ports] ++ []))
    by reflexivity.
  rewrite TE in P. rewrite app_nil_r in P.
  assert (ZT : zlen (basic_tag 64 0 ++ map_tag [ports]) = 56) by reflexivity.
  rewrite ZT in P. destruct (Z.leb_spec (8 + 56) (zlen b)) as [_|?]; [|lia]. destruct P as (-> & ->).
  eexists. split; [exact E|].
  set (x := le_bytes 4 (8 + 56)). set (y := le_bytes 4 0). set (k := skipn _ b).
  split.
  - replace (x ++ y ++ (basic_tag 64 0 ++ map_tag [ports]) ++ k) with ((x ++ y) ++ basic_tag 64 0 ++ map_tag [ports] ++ k)
      by (rewrite <- !app_assoc; reflexivity).
    apply sub_app'; reflexivity.
  - replace (x ++ y ++ (basic_tag 64 0 ++ map_tag [ports]) ++ k) with ((x ++ y ++ basic_tag 64 0) ++ map_tag [ports] ++ k)
      by (rewrite <- !app_assoc; reflexivity).
    apply sub_app'; reflexivity.
Qed.
Print Assumptions C62_ports_refuted.

(** ** C63 *)

(** The kernel gets its command line at 64 kB, its code at 1 MB, exactly the boot parameters
    of the protocol with the memory list of the firmware, and is entered where its header says. *)
Theorem C63_boot : forall image l fuel cmd,
  Forall hob_ok l -> (length l < fuel)%nat -> (length (descriptors l) <= 128)%nat ->
  (620 <= length image)%nat -> 0 <= code_size image < 2 ^ 32 -> code_offset image + code_size image <= zlen image ->
  load_linux fuel image (hob_list l) cmd =
  Val (Some {| writes := [(65536, cmd ++ [0]);
                          (1048576, sub image (Z.to_nat (code_offset image)) (Z.to_nat (code_size image)))];
               entry := code_entry image;
               zero_page := boot_parameters image 65536 (descriptors l) |}).
Proof.
  intros image l fuel cmd LOK LF LD LI SZ FIT.
  assert (EO : (let s := le_val (sub image 497 1) in if s =? 0 then 5 * 512 else (s + 1) * 512) = code_offset image).
  { unfold code_offset. cbv zeta. destruct (le_val (sub image 497 1) =? 0); lia. }
  assert (ES : HobModel.u32 (le_val (sub image 500 4) * 16) = code_size image).
  { unfold HobModel.u32. fold (word image 500). rewrite Z.mul_comm. apply Z.mod_small. exact SZ. }
  pose proof (linux_ok image l fuel cmd LOK LF LI) as Q. cbv zeta in Q, EO. rewrite EO, ES in Q. rewrite (Q FIT).
  destruct (Nat.leb_spec (length (descriptors l)) 168) as [_|?]; [|lia]. reflexivity.
Qed.
Print Assumptions C63_boot.

(** The boot parameters have the size of a page. *)
Theorem C63_page : forall image c ds, (length ds <= 128)%nat -> (620 <= length image)%nat ->
  length (boot_parameters image c ds) = 4096%nat.
Proof.
  intros image c ds LD LI. unfold boot_parameters.
  rewrite !app_length, !repeat_length, !le_bytes_length, length_e820s, !sub_len by lia. cbn [length]. lia.
Qed.
Print Assumptions C63_page.

(** False: with more than 168 descriptors the memory list is written past the page. *)
Theorem C63_table_refuted : forall image l fuel cmd,
  Forall hob_ok l -> (length l < fuel)%nat -> (168 < length (descriptors l))%nat ->
  (620 <= length image)%nat -> 0 <= code_size image < 2 ^ 32 -> code_offset image + code_size image <= zlen image ->
  load_linux fuel image (hob_list l) cmd = UB.
Proof.
  intros image l fuel cmd LOK LF LD LI SZ FIT.
  assert (EO : (let s := le_val (sub image 497 1) in if s =? 0 then 5 * 512 else (s + 1) * 512) = code_offset image).
  { unfold code_offset. cbv zeta. destruct (le_val (sub image 497 1) =? 0); lia. }
  assert (ES : HobModel.u32 (le_val (sub image 500 4) * 16) = code_size image).
  { unfold HobModel.u32. fold (word image 500). rewrite Z.mul_comm. apply Z.mod_small. exact SZ. }
  pose proof (linux_ok image l fuel cmd LOK LF LI) as Q. cbv zeta in Q, EO. rewrite EO, ES in Q. rewrite (Q FIT).
  destruct (Nat.leb_spec (length (descriptors l)) 168) as [?|_]; [lia|]. reflexivity.
Qed.
Print Assumptions C63_table_refuted.

(** An image with 1 setup sector and 32 bytes of code. *)
Definition ex_image : list Z :=
  repeat 0 497 ++ [1] ++ repeat 0 2 ++ le_bytes 4 2 ++ repeat 9 28 ++ le_bytes 4 1048576 ++ repeat 9 488 ++ repeat 144 32.
Example C63_ex :
  (length (descriptors ex_list) <= 128)%nat /\ (620 <= length ex_image)%nat /\
  0 <= code_size ex_image < 2 ^ 32 /\ code_offset ex_image + code_size ex_image = zlen ex_image /\
  load_linux 5 ex_image (hob_list ex_list) [113] =
  Val (Some {| writes := [(65536, [113; 0]); (1048576, repeat 144 32)]; entry := 1048576;
               zero_page := boot_parameters ex_image 65536 [ex_low; ex_high; ex_fsp] |}) /\
  Forall hob_ok (repeat (Resource ex_low []) 169) /\
  (168 < length (descriptors (repeat (Resource ex_low []) 169)))%nat.
Proof.
  assert (A : (length (descriptors ex_list) <= 128)%nat) by (cbn; lia).
  assert (B : (620 <= length ex_image)%nat) by (vm_compute; lia).
  assert (C : code_size ex_image = 32) by (vm_compute; reflexivity).
  assert (D : code_offset ex_image = 1024) by (vm_compute; reflexivity).
  assert (E : zlen ex_image = 1056) by (vm_compute; reflexivity).
  assert (F : 0 <= code_size ex_image < 2 ^ 32) by (rewrite C; lia).
  split; [exact A|]. split; [exact B|]. split; [exact F|]. split; [rewrite C, D, E; reflexivity|]. split; [|split].
  - rewrite C63_boot; [|exact ex_list_ok|cbn; lia|exact A|exact B|exact F|rewrite C, D, E; lia].
    rewrite C, D. vm_compute. reflexivity.
  - apply Forall_forall. intros h H. apply repeat_spec in H. subst h.
    pose proof ex_list_ok as K. inversion K as [|? ? K1 K2]. exact K1.
  - vm_compute. lia.
Qed.
