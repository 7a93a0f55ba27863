(** C84: while the bootloader runs, only its own code can be executed. *)
From Verif Require Import Base BaseLemmas MpuSpec MpuModel MpuProofs.
Local Ltac Zify.zify_post_hook ::= idtac.

(** Flash and RAM are outside the peripherals' addresses. *)
Definition memory_area (b n : Z) : Prop := 0 <= b /\ (b + n <= 0x40000000 \/ (0x60000000 <= b /\ b + n <= 0x80000000)).
Definition code_size (l : link) : Z := L_stored_data l - L_start_text l.
Definition ram_block (l : link) : Z := L_start_data l / 0x10000 * 0x10000.

(** The bootloader has at most 64 KB and starts at a multiple of its size rounded up; its data is
    somewhere else. *)
Record linked (l : link) : Prop := {
  l_size : 0 <= code_size l <= 0x10000;
  l_aligned : L_start_text l mod rounded (code_size l) = 0;
  l_data : Z.testbit (L_start_data l) 4 = false;
  l_text_area : memory_area (L_start_text l) (rounded (code_size l));
  l_data_area : memory_area (ram_block l) 0x10000;
  l_apart : forall a, within (ram_block l) 0x10000 a -> ~ within (L_start_text l) (rounded (code_size l)) a }.

Lemma init_attributes : forall l u, linked l -> fresh_unit u -> (8 <= u_regions u)%nat ->
  exists u', mpu_init l u false = (u', true) /\ enabled u' = true /\ u_ctrl u' = 1 /\ forall a, 0 <= a < 2 ^ 32 ->
  attributes u' (u_regions u') a = Some
   (if a / 2 ^ 28 =? 14 then A7 else if a / 2 ^ 30 =? 2 then A6 else if a / 2 ^ 29 =? 2 then A5 else
    if a / 2 ^ 16 =? L_start_data l / 2 ^ 16 then A2 (L_ram_code l)
    else if a / rounded (code_size l) =? L_start_text l / rounded (code_size l) then A1 (code_size l) else A0).
Proof.
  intros l u [Sz Al Da TA DA Ap] Fr N8.
  pose proof (aligned_bit4 _ _ Al) as B1. destruct TA as [T0 _].
  destruct (init_value l u N8 Sz B1 Da) as (u' & E & _).
  exists u'. split; [exact E|]. destruct (attributes_init l u Fr N8 Sz B1 Da u' E) as (En & C & At). auto.
Qed.

(** After the protection is set up, an address can be executed if and only if it is in the
    block of the bootloader's code, whose size is that of the code rounded up to 8, 16, 32 or 64
    KB, or, if the bootloader has code in RAM, in the 64 KB of RAM with its data.  In particular
    all of the bootloader can be executed. *)
Theorem C84_exec : forall l u, linked l -> fresh_unit u -> (8 <= u_regions u)%nat ->
  exists u', mpu_init l u false = (u', true) /\
    (forall a, 0 <= a < 2 ^ 32 ->
      (can_exec u' a = true <->
       within (L_start_text l) (rounded (code_size l)) a \/ (L_ram_code l = true /\ within (ram_block l) 0x10000 a))) /\
    (forall a, within (L_start_text l) (code_size l) a -> can_exec u' a = true).
Proof.
  intros l u L Fr N8. destruct (init_attributes l u L Fr N8) as (u' & E & En & _ & At). exists u'. split; [exact E|].
  destruct L as [Sz Al Da [T0 TA] [D0 DA] Ap].
  assert (R : 0 < rounded (code_size l) <= 0x10000) by (destruct (rounded_cases (code_size l)) as [Q|[Q|[Q|Q]]]; rewrite Q; lia).
  assert (Main : forall a, 0 <= a < 2 ^ 32 -> (can_exec u' a = true <->
       within (L_start_text l) (rounded (code_size l)) a \/ (L_ram_code l = true /\ within (ram_block l) 0x10000 a))).
  { intros a Ha. unfold can_exec. rewrite En, At by exact Ha. specialize (Ap a).
    unfold within in *. pose proof (block_at a 14 (2 ^ 28) ltac:(lia)) as K7. pose proof (block_at a 2 (2 ^ 30) ltac:(lia)) as K6. pose proof (block_at a 2 (2 ^ 29) ltac:(lia)) as K5.
    pose proof (block a (L_start_data l) (2 ^ 16) ltac:(lia)) as K2. pose proof (block a (L_start_text l) (rounded (code_size l)) ltac:(lia)) as K1.
    rewrite (aligned_base _ _ (proj1 R) Al) in K1. change (2 ^ 16) with 0x10000 in *. fold (ram_block l) in K2.
    destruct (a / 2 ^ 28 =? 14); [pose proof (proj1 K7 eq_refl); split; [discriminate|intro; exfalso; lia]|].
    destruct (a / 2 ^ 30 =? 2); [pose proof (proj1 K6 eq_refl); split; [discriminate|intro; exfalso; lia]|].
    destruct (a / 2 ^ 29 =? 2); [pose proof (proj1 K5 eq_refl); split; [discriminate|intro; exfalso; lia]|]. clear K7 K6 K5.
    destruct (a / 0x10000 =? L_start_data l / 0x10000).
    - pose proof (proj1 K2 eq_refl) as I. specialize (Ap I). destruct (L_ram_code l); cbn [A2]; split; intro H; try discriminate H; try reflexivity; [right; auto|].
      destruct H as [H|[H _]]; [tauto|discriminate H].
    - assert (I : ~ (ram_block l <= a < ram_block l + 0x10000)) by (intro I; apply K2 in I; discriminate I).
      destruct (a / rounded (code_size l) =? _).
      + pose proof (proj1 K1 eq_refl). split; [auto|]. intros _. unfold A1. destruct (code_size l <=? 0x2000); [reflexivity|].
        destruct (code_size l <=? 0x4000); [reflexivity|]. destruct (code_size l <=? 0x8000); reflexivity.
      + assert (I1 : ~ (L_start_text l <= a < L_start_text l + rounded (code_size l))) by (intro I1; apply K1 in I1; discriminate I1).
        split; [discriminate|]. tauto. }
  split; [exact Main|]. intros a Ha. unfold within in Ha. pose proof (rounded_room (code_size l) (proj2 Sz)). apply Main; [lia|]. left. unfold within. lia.
Qed.
Print Assumptions C84_exec.

(** An image is not executed before it is started: no address of a partition that begins
    behind the block of the bootloader and is not in the RAM block can be executed. *)
Theorem C84_partition : forall l u p size, linked l -> fresh_unit u -> (8 <= u_regions u)%nat ->
  L_start_text l + rounded (code_size l) <= p -> p + size <= ram_block l \/ ram_block l + 0x10000 <= p -> p + size <= 2 ^ 32 ->
  exists u', mpu_init l u false = (u', true) /\ forall a, within p size a -> can_exec u' a = false.
Proof.
  intros l u p size L Fr N8 P1 P2 P3. destruct (C84_exec l u L Fr N8) as (u' & E & X & _). exists u'. split; [exact E|].
  intros a Ha. unfold within in *. pose proof (proj1 (l_text_area l L)) as T0.
  assert (R : 0 < rounded (code_size l)) by (destruct (rounded_cases (code_size l)) as [Q|[Q|[Q|Q]]]; rewrite Q; lia).
  destruct (can_exec u' a) eqn:C; [|reflexivity]. apply X in C; lia.
Qed.
Print Assumptions C84_partition.

(** The bootloader can read and write every address, and the peripherals' addresses are not
    cached. *)
Theorem C84_access : forall l u, linked l -> fresh_unit u -> (8 <= u_regions u)%nat ->
  exists u', mpu_init l u false = (u', true) /\
    (forall a, 0 <= a < 2 ^ 32 -> can_access u' a = true) /\
    (forall a, within 0x40000000 0x20000000 a \/ within 0xA0000000 0x20000000 a \/ within 0xE0000000 0x10000000 a -> is_device u' a).
Proof.
  intros l u L Fr N8. destruct (init_attributes l u L Fr N8) as (u' & E & En & _ & At). exists u'. split; [exact E|]. split.
  - intros a Ha. unfold can_access. rewrite En, At by exact Ha.
    destruct (a / 2 ^ 28 =? 14); [reflexivity|]. destruct (a / 2 ^ 30 =? 2); [reflexivity|]. destruct (a / 2 ^ 29 =? 2); [reflexivity|].
    destruct (a / 2 ^ 16 =? _); [destruct (L_ram_code l); reflexivity|]. destruct (a / rounded _ =? _); [|reflexivity].
    unfold A1. destruct (code_size l <=? 0x2000); [reflexivity|]. destruct (code_size l <=? 0x4000); [reflexivity|]. destruct (code_size l <=? 0x8000); reflexivity.
  - intros a Ha. unfold within in Ha. pose proof (block_at a 14 (2 ^ 28) ltac:(lia)) as K7. pose proof (block_at a 2 (2 ^ 30) ltac:(lia)) as K6. pose proof (block_at a 2 (2 ^ 29) ltac:(lia)) as K5.
    unfold is_device. rewrite At by lia. destruct (a / 2 ^ 28 =? 14); [eexists; split; [reflexivity|]; repeat split|].
    destruct (a / 2 ^ 30 =? 2); [eexists; split; [reflexivity|]; repeat split|]. destruct (a / 2 ^ 29 =? 2); [eexists; split; [reflexivity|]; repeat split|].
    exfalso. assert (~ (14 * 2 ^ 28 <= a < 14 * 2 ^ 28 + 2 ^ 28)) by (intro I; apply K7 in I; discriminate I).
    assert (~ (2 * 2 ^ 30 <= a < 2 * 2 ^ 30 + 2 ^ 30)) by (intro I; apply K6 in I; discriminate I).
    assert (~ (2 * 2 ^ 29 <= a < 2 * 2 ^ 29 + 2 ^ 29)) by (intro I; apply K5 in I; discriminate I). lia.
Qed.
Print Assumptions C84_access.

(** The image starts without any protection, whatever the bootloader set up. *)
Theorem C84_off : forall l u on a, let u' := fst (mpu_off (fst (mpu_init l u on))) in
  can_exec u' a = default_exec a /\ can_access u' a = true.
Proof. intros l u on a u'. split; reflexivity. Qed.
Print Assumptions C84_off.

(** ** Where the code violates the property *)

(** A bootloader of more than 64 KB runs without protection: [mpu_init] gives up silently, and
    all flash and RAM can be executed. *)
Theorem C84_large_refuted : forall l u, 0 <= L_start_text l -> L_stored_data l < 2 ^ 32 -> 0x10000 < code_size l -> fresh_unit u ->
  exists u', mpu_init l u false = (u', false) /\ forall a, can_exec u' a = default_exec a.
Proof.
  intros l u T0 S32 Sz [C0 _]. unfold mpu_init. destruct (u_regions u) eqn:N.
  - exists u. split; [reflexivity|]. intro a. unfold can_exec, enabled. rewrite C0. reflexivity.
  - cbv zeta. fold (code_size l). rewrite Z.mod_small by (unfold code_size in *; lia).
    replace (mpusize (code_size l)) with MPUSIZE_ERR.
    + rewrite Z.eqb_refl. eexists. split; [reflexivity|]. intro a. unfold can_exec.
      replace (enabled _) with (enabled u) by reflexivity. unfold enabled. rewrite C0. reflexivity.
    + unfold mpusize. rewrite !(proj2 (Z.leb_gt (code_size l) _)) by lia. reflexivity.
Qed.
Print Assumptions C84_large_refuted.

(** Kinetis K64F and K82F: the boot partition is at 0xA000.  With a bootloader of more than 32
    KB that fits in front of it, the first 24 KB of the boot partition can be executed. *)
Theorem C84_neighbour_refuted : forall l u, linked l -> fresh_unit u -> (8 <= u_regions u)%nat -> L_start_text l = 0 ->
  0x8000 < code_size l <= 0xA000 ->
  exists u', mpu_init l u false = (u', true) /\ forall a, within 0xA000 0x6000 a -> can_exec u' a = true.
Proof.
  intros l u L Fr N8 T0 Sz. destruct (C84_exec l u L Fr N8) as (u' & E & X & _). exists u'. split; [exact E|].
  intros a Ha. unfold within in *. apply X; [lia|]. left.
  replace (rounded (code_size l)) with 0x10000; [lia|]. unfold rounded. rewrite !(proj2 (Z.leb_gt (code_size l) _)) by lia. reflexivity.
Qed.
Print Assumptions C84_neighbour_refuted.

(** External peripherals are said to be at 0xA0000000-0xCFFFFFFF.  A region of 1 GB begins at a
    multiple of 1 GB: the one that is set up is 0x80000000-0xBFFFFFFF.  Devices from 0xC0000000
    are cached, and external memory from 0x80000000 is treated as a device. *)
Theorem C84_devices_refuted : forall l u, linked l -> fresh_unit u -> (8 <= u_regions u)%nat ->
  exists u', mpu_init l u false = (u', true) /\ (forall a, within 0xC0000000 0x10000000 a -> is_cached u' a) /\
    (forall a, within 0x80000000 0x20000000 a -> is_device u' a).
Proof.
  intros l u L Fr N8. destruct (init_attributes l u L Fr N8) as (u' & E & _ & _ & At). exists u'. split; [exact E|].
  destruct L as [Sz Al Da [T0 TA] [D0 DA] Ap].
  assert (R : 0 < rounded (code_size l)) by (destruct (rounded_cases (code_size l)) as [Q|[Q|[Q|Q]]]; rewrite Q; lia).
  split; intros a Ha; unfold within in Ha; pose proof (block_at a 14 (2 ^ 28) ltac:(lia)) as K7; pose proof (block_at a 2 (2 ^ 30) ltac:(lia)) as K6; pose proof (block_at a 2 (2 ^ 29) ltac:(lia)) as K5.
  - unfold is_cached. rewrite At by lia. pose proof (block a (L_start_data l) (2 ^ 16) ltac:(lia)) as K2. pose proof (block a (L_start_text l) (rounded (code_size l)) R) as K1.
    rewrite (aligned_base _ _ R Al) in K1. change (2 ^ 16) with 0x10000 in *. fold (ram_block l) in K2.
    destruct (a / 2 ^ 28 =? 14); [pose proof (proj1 K7 eq_refl); exfalso; lia|].
    destruct (a / 2 ^ 30 =? 2); [pose proof (proj1 K6 eq_refl); exfalso; lia|]. destruct (a / 2 ^ 29 =? 2); [pose proof (proj1 K5 eq_refl); exfalso; lia|].
    destruct (a / 0x10000 =? _); [pose proof (proj1 K2 eq_refl); exfalso; lia|]. destruct (a / rounded _ =? _); [pose proof (proj1 K1 eq_refl); exfalso; lia|].
    eexists. split; [reflexivity|]. split; reflexivity.
  - unfold is_device. rewrite At by lia. destruct (a / 2 ^ 28 =? 14); [pose proof (proj1 K7 eq_refl); exfalso; lia|].
    destruct (a / 2 ^ 30 =? 2); [eexists; split; [reflexivity|]; repeat split|].
    exfalso. assert (~ (2 * 2 ^ 30 <= a < 2 * 2 ^ 30 + 2 ^ 30)) by (intro I; apply K6 in I; discriminate I). lia.
Qed.
Print Assumptions C84_devices_refuted.

(** A bootloader that does not start at a multiple of its rounded size loses its own code: 36 KB
    at 0x8000 ends behind the 64 KB block at 0. *)
Definition off_unit : unit_ := mkU 0 (fun _ => 0) (fun _ => 0) 0 8.
Theorem C84_unaligned_refuted : exists l a, 0 <= code_size l <= 0x10000 /\ Z.testbit (L_start_data l) 4 = false /\
  memory_area (L_start_text l) (rounded (code_size l)) /\ memory_area (ram_block l) 0x10000 /\
  snd (mpu_init l off_unit false) = true /\ within (L_start_text l) (code_size l) a /\
  can_exec (fst (mpu_init l off_unit false)) a = false.
Proof.
  exists {| L_start_text := 0x8000; L_stored_data := 0x11000; L_start_data := 0x20000000; L_ram_code := false |}.
  exists 0x10800. split; [vm_compute; split; discriminate|]. split; [reflexivity|].
  split; [vm_compute; split; [discriminate|left; discriminate]|]. split; [vm_compute; split; [discriminate|left; discriminate]|].
  split; [vm_compute; reflexivity|]. split; [vm_compute; split; [discriminate|reflexivity]|]. vm_compute. reflexivity.
Qed.
Print Assumptions C84_unaligned_refuted.

(** ** Concrete cases: an STM32F4 with 26 KB and a K64F with 36 KB *)
Definition f4_link (rc : bool) : link := {| L_start_text := 0x08000000; L_stored_data := 0x08006800; L_start_data := 0x20000000; L_ram_code := rc |}.
Definition k64_link : link := {| L_start_text := 0; L_stored_data := 0x9000; L_start_data := 0x20000000; L_ram_code := false |}.
Example C84_hyps : (forall rc, linked (f4_link rc)) /\ linked k64_link /\ fresh_unit off_unit /\ 0x8000 < code_size k64_link <= 0xA000.
Proof.
  assert (Area : forall b n, 0 <= b -> b + n <= 0x40000000 -> memory_area b n) by (intros; split; [lia|left; lia]).
  split; [|split; [|split]].
  - intro rc. constructor; [vm_compute; split; discriminate|vm_compute; reflexivity|vm_compute; reflexivity|apply Area; vm_compute; discriminate|apply Area; vm_compute; discriminate|].
    intro a. change (ram_block (f4_link rc)) with 0x20000000. change (rounded (code_size (f4_link rc))) with 0x8000. cbn [L_start_text f4_link]. unfold within. lia.
  - constructor; [vm_compute; split; discriminate|vm_compute; reflexivity|vm_compute; reflexivity|apply Area; vm_compute; discriminate|apply Area; vm_compute; discriminate|].
    intro a. change (ram_block k64_link) with 0x20000000. change (rounded (code_size k64_link)) with 0x10000. cbn [L_start_text k64_link]. unfold within. lia.
  - split; [reflexivity|]. intro r. reflexivity.
  - vm_compute. split; [reflexivity|discriminate].
Qed.
Example C84_f4 : let u' := fst (mpu_init (f4_link false) off_unit false) in
  map (can_exec u') [0x08000000; 0x080067FE; 0x08007FFE; 0x08008000; 0x08020100; 0x20000100; 0x20010000; 0x40000000] =
  [true; true; true; false; false; false; false; false].
Proof. vm_compute. reflexivity. Qed.
