(** Model of locking and unlocking a disk: the security commands of src/x86/ata.c and
    sata_unlock_disk in src/x86/ahci.c.  The asynchronous form of a command (erasing) is not
    modelled. *)
From Verif Require Import Base LockSpec.

(** ** The AHCI port *)

(** One port with its drive.  [ci]: the commands issued (PxCI; PxSACT is 0, queued commands are
    not used).  [stopped]: after a task file error the port executes nothing until the driver
    clears PxCMD.ST (AHCI 1.3.1, 6.2.2.1), and the bit in PxCI stays.  [sec]: the security state
    read last (src/x86/ata.c:82), 0 to begin with.  [left]: the number of commands after which
    power fails. *)
Record port := { dev : drive; ci : Z; stopped : bool; sec : Z; left : option nat }.

(** Ways to come to an end other than returning. *)
Inductive stop := Panicked | Waiting | Undefined | PowerLost.
Inductive res (A : Type) := Ret (a : A) (p : port) | Stop (s : stop) (p : port).
Arguments Ret {A}. Arguments Stop {A}.
Definition M (A : Type) := port -> res A.
Definition ret {A} (a : A) : M A := fun p => Ret a p.
Definition bind {A B} (m : M A) (k : A -> M B) : M B :=
  fun p => match m p with Ret a p => k a p | Stop s p => Stop s p end.
Notation "'dolet' x <- m 'in' k" := (bind m (fun x => k)) (at level 200, x pattern, right associativity).

(** find_cmd_slot, src/x86/ata.c:221-237. *)
Fixpoint slot_loop (n : nat) (slots i : Z) : Z :=
  match n with O => -1 | S n => if Z.even slots then i else slot_loop n (slots / 2) (i + 1) end.
Definition find_cmd_slot : M Z := fun p => Ret (slot_loop 32 (ci p) 0) p.

(** prepare_cmd_h2d_slot, src/x86/ata.c:250-275: the slot; the tables in memory are not
    modelled, the command is passed to [exec_cmd_slot] instead. *)
Definition prepare_cmd_h2d_slot : M Z := find_cmd_slot.

(** exec_cmd_slot, src/x86/ata.c:331-376 with async = 0.  The loop at 367-372 ends when the bit
    in PxCI is cleared or PxIS shows an error; the number of rounds is not modelled.  PxIS was
    cleared before (344-346). *)
Definition exec_cmd_slot (slot : Z) (c : command) : M Z := fun p =>
  let ci' := Z.lor (ci p) (Z.shiftl 1 slot) in
  let go d c s l := {| dev := d; ci := c; stopped := s; sec := sec p; left := l |} in
  if stopped p then Stop Waiting (go (dev p) ci' true (left p))
  else
    let run l :=
      match perform (dev p) c with
      | (true, d) => Ret 0 (go d (Z.clearbit ci' slot) false l)
      | (false, d) => Ret (-1) (go d ci' true l)
      end in
    match left p with
    | None => run None
    | Some O => Stop PowerLost p
    | Some (S n) => run (Some n)
    end.

(** ** The security commands *)

(** security_command, src/x86/ata.c:420-441. *)
Definition security_command (c : command) : M Z :=
  dolet slot <- prepare_cmd_h2d_slot in
  if slot <? 0 then ret slot else exec_cmd_slot slot c.

(** A character string: the bytes before the first 0; none if there is no 0 in the object. *)
Fixpoint c_string (m : list Z) : option (list Z) :=
  match m with
  | [] => None
  | c :: m => if c =? 0 then Some [] else match c_string m with Some s => Some (c :: s) | None => None end
  end.

(** The buffer filled by security_command_passphrase, src/x86/ata.c:471-474: 512 bytes. *)
Definition passphrase_block (s : list Z) (is_master : bool) : list Z :=
  firstn 512 ([if is_master then 1 else 0; 0] ++ s ++ repeat 0 510).

(** security_command_passphrase, src/x86/ata.c:461-488 with async = 0.  [mem]: the bytes of the
    object the passphrase points to.  The buffer has ATA_BUF_SIZE = 8192 bytes. *)
Definition security_command_passphrase (c : list Z -> command) (mem : list Z) (is_master : bool) : M Z :=
  dolet slot <- prepare_cmd_h2d_slot in
  match c_string mem with
  | None => fun p => Stop Undefined p
  | Some s =>
    if 8190 <? zlen s then fun p => Stop Undefined p
    else if slot <? 0 then ret slot else exec_cmd_slot slot (c (passphrase_block s is_master))
  end.

(** src/x86/ata.c:499-502, 527-530, 542-545, 558-561. *)
Definition ata_security_freeze_lock : M Z := security_command Freeze.
Definition ata_security_unlock_device (mem : list Z) (is_master : bool) : M Z :=
  security_command_passphrase Unlock mem is_master.
Definition ata_security_set_password (is_master : bool) (mem : list Z) : M Z :=
  security_command_passphrase SetPassword mem is_master.
Definition ata_security_disable_password (mem : list Z) (is_master : bool) : M Z :=
  security_command_passphrase Disable mem is_master.

(** include/x86/ata.h:55-63: SEC0 to SEC6. *)

(** The part of ata_identify_device that finds the security state, src/x86/ata.c:630-674. *)
Definition state_of (buf : list Z) : Z :=
  let supported := Z.testbit (nth 164 buf 0) 1 in
  if negb supported then 0
  else
    let w := nth 256 buf 0 in
    let s_frozen := Z.testbit w 3 in
    let s_locked := Z.testbit w 2 in
    let s_enabled := Z.testbit w 1 in
    if negb s_enabled && negb s_frozen then 1
    else if negb s_enabled && s_frozen then 2
    else if s_enabled && s_locked then 4
    else if negb s_locked && negb s_frozen then 5
    else if negb s_locked && s_frozen then 6
    else 0.

(** ata_identify_device, src/x86/ata.c:584-679. *)
Definition ata_identify_device : M Z :=
  dolet slot <- prepare_cmd_h2d_slot in
  if slot <? 0 then ret slot
  else
    dolet r <- exec_cmd_slot slot Identify in
    fun p =>
      if r =? 0
      then Ret r {| dev := dev p; ci := ci p; stopped := stopped p; sec := state_of (identify (dev p)); left := left p |}
      else Ret r p.

(** ata_security_get_state, src/x86/ata.c:681-685. *)
Definition ata_security_get_state : M Z := fun p => Ret (sec p) p.

Definition panic {A} : M A := fun p => Stop Panicked p.

(** ** Unlocking *)

(** sata_get_unlock_secret with WOLFBOOT_ATA_DISK_LOCK_PASSWORD, src/x86/ahci.c:185-195: the
    return code and the array [secret] of ATA_UNLOCK_DISK_KEY_SZ bytes.  [stack]: what the
    array held before; nothing initialises it (src/x86/ahci.c:411). *)
Definition password_secret (pw stack : list Z) : Z * list Z :=
  if zlen stack <? zlen pw then (-1, stack) else (0, pw ++ skipn (length pw) stack).

(** The same with WOLFBOOT_TPM_SEAL (TpmModel.ata_secret): the secret from the TPM is copied to
    the front of the array. *)
Definition sealed_secret (rc : Z) (s stack : list Z) : Z * list Z :=
  if rc =? 0 then (0, s ++ skipn (length s) stack) else (rc, stack).

(** sata_get_random_base64, src/x86/ahci.c:240-266: [size] is *out_size, [out] the array; the
    secret is its first bytes, the new *out_size of them.  Base64_Encode_NoNl writes the digits
    and, if there is room, a 0. *)
Definition random_base64 (rand : list Z) (size : Z) : option (list Z) :=
  let e := base64 rand in
  if size <? zlen e then None
  else if zlen e <? size then Some (e ++ [0]) else Some (removelast e ++ [0]).

(** sata_unlock_disk, src/x86/ahci.c:408-480.  [rc], [secret]: the outcome of
    sata_get_unlock_secret; [qemu]: TARGET_x86_fsp_qemu. *)
Definition sata_unlock_disk (qemu : bool) (rc : Z) (secret : list Z) (freeze : bool) : M Z :=
  if negb (rc =? 0) then ret rc
  else
    dolet st <- ata_security_get_state in
    if qemu && (st =? 0) then ret 0
    else
      let finish : M Z :=
        dolet st <- ata_security_get_state in
        if (freeze && negb (st =? 6)) || (negb freeze && negb (st =? 5)) then panic else ret 0 in
      if st =? 1 then
        dolet r <- ata_security_set_password false secret in
        if negb (r =? 0) then ret (-1)
        else
          dolet r <- (if freeze then ata_security_freeze_lock else ret 0) in
          if negb (r =? 0) then ret (-1)
          else
            dolet r <- ata_identify_device in
            if negb (r =? 0) then ret (-1) else finish
      else if st =? 4 then
        dolet r <- ata_security_unlock_device secret false in
        if negb (r =? 0) then ret (-1)
        else
          dolet r <- ata_identify_device in
          if negb (r =? 0) then ret (-1)
          else
            dolet st <- ata_security_get_state in
            if st =? 5 then
              dolet r <- (if freeze then ata_security_freeze_lock else ret 0) in
              if negb (r =? 0) then ret (-1)
              else
                dolet r <- ata_identify_device in
                if negb (r =? 0) then ret (-1) else finish
            else finish
      else finish.

(** sata_disable_password, src/x86/ahci.c:371-391 (WOLFBOOT_ATA_DISABLE_USER_PASSWORD).
    [mem]: ATA_MASTER_PASSWORD with its final 0. *)
Definition sata_disable_password (mem : list Z) : M Z :=
  dolet st <- ata_security_get_state in
  dolet r <- (if st =? 4 then
                dolet r <- ata_security_unlock_device mem true in
                if r =? 0 then ata_security_disable_password mem true else ret r
              else ret 0) in
  panic.

(** The disk at a boot: ata_drive_new and ata_identify_device as called by sata_enable
    (src/x86/ahci.c:700-713, the result is ignored), then wolfBoot_start, src/update_disk.c:95-104. *)
Definition new_port (d : drive) (power_for : option nat) : port :=
  {| dev := d; ci := 0; stopped := false; sec := 0; left := power_for |}.
Definition disk_start (qemu : bool) (rc : Z) (secret : list Z) : M unit :=
  dolet r <- ata_identify_device in
  dolet r <- sata_unlock_disk qemu rc secret true in
  if negb (r =? 0) then panic else ret tt.
