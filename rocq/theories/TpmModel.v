(** Model of src/tpm.c (measured boot, sealing, root of trust), of wolfBoot_unlock_disk in
    src/update_flash.c and of the sealed disk secret in src/x86/ahci.c.  The commands of the
    TPM are those of TpmSpec; a command that cannot fail in TpmSpec (starting a session,
    reading a PCR) does not fail here either. *)
From Verif Require Import Base TpmSpec.

(** Configuration: WOLFBOOT_SHA_BLOCK_SIZE; WOLFBOOT_MEASURED_PCR_A; sizeof(TPM2B_PUBLIC);
    sizeof of the buffer in TPM2B_PRIVATE; ARCH_SIM; WOLFBOOT_TPM_SEAL_AUTH (empty: not
    defined); the key store: keyslot_id_by_sha followed by wolfBoot_load_pubkey
    (src/tpm.c:338-409), the key for a hint. *)
Record config := { block : Z; pcr_a : nat; pub_cap : Z; priv_cap : Z; arch_sim : bool; seal_password : list Z;
                   lookup : list Z -> option (list Z) }.

Definition SEAL_BASE : Z := 20972288.   (* include/tpm.h:41: 0x01400300 *)
Definition KEY_BASE : Z := 20972032.    (* include/tpm.h:38: 0x01400200 *)
Definition MAX_SEAL : Z := 128.         (* include/tpm.h:49: MAX_SYM_DATA *)
Definition RC_POLICY_FAIL : Z := 157.   (* 0x9d *)
Definition RC_SIGNATURE : Z := 731.     (* 0x2db: TPM_RC_SIGNATURE for parameter 2 *)
Definition RC_INTEGRITY : Z := 479.     (* 0x1df: TPM_RC_INTEGRITY for parameter 1 *)
Definition RC_AUTH_FAIL : Z := 2446.    (* 0x98e: TPM_RC_AUTH_FAIL for session 1 *)
Definition RC_SESSION_POLICY : Z := 2461. (* 0x99d: TPM_RC_POLICY_FAIL for session 1 *)

(** ** Measured boot *)

(** self_sha256, src/tpm.c:222-248 (without NO_XIP): the bytes handed to the hash, in order.
    [part]: the boot partition; a byte behind it is out of bounds.  Hashing in pieces is
    hashing the concatenation. *)
Fixpoint self_loop (fuel : nat) (blk : Z) (part : list Z) (pos : Z) (acc : list Z) : out (list Z) :=
  match fuel with
  | O => NoFuel
  | S fuel =>
    let sz := zlen part in
    let n := if sz <? (pos + blk) mod 2 ^ 32 then (sz - pos) mod 2 ^ 32 else blk in
    if sz <? pos + n then UB
    else
      let acc := acc ++ sub part (Z.to_nat pos) (Z.to_nat n) in
      let pos := (pos + n) mod 2 ^ 32 in
      if pos <? sz then self_loop fuel blk part pos acc else Val acc
  end.
Definition self_hash (g : config) (C : suite) (part : list Z) : out (list Z) :=
  dlet m <- self_loop (S (length part)) (block g) part 0 [] in Val (hash C m).

(** wolfBoot_tpm2_extend, src/tpm.c:295-334: the simulator resets PCR 16 and up first. *)
Definition tpm2_extend (g : config) (C : suite) (T : tpm) (i : nat) (d : list Z) : tpm :=
  let T := if arch_sim g && (16 <=? i)%nat
           then {| pcr := fun j => if (j =? i)%nat then repeat 0 32 else pcr T j; updates := updates T; nv := nv T |}
           else T in
  extend C T i d.

(** wolfBoot_tpm2_init with WOLFBOOT_MEASURED_BOOT, src/tpm.c:1143-1229.  [rc]: the outcome of
    opening the TPM, reading its capabilities, creating the storage key and the session. *)
Definition tpm2_init (g : config) (C : suite) (rc : Z) (T : tpm) (part : list Z) : out (Z * tpm) :=
  if rc =? 0 then dlet d <- self_hash g C part in Val (0, tpm2_extend g C T (pcr_a g) d)
  else Val (rc, T).

(** ** PCR selections and policies *)

(** is_zero_digest, src/tpm.c:418-425. *)
Definition is_zero_digest (d : list Z) : bool := forallb (fun b => b =? 0) d.

(** The loop of wolfBoot_get_pcr_active, src/tpm.c:447-465: an 8-bit counter. *)
Fixpoint active_loop (fuel : nat) (v : nat -> list Z) (max i mask : Z) : out Z :=
  match fuel with
  | O => NoFuel
  | S fuel =>
    if i <=? max then
      let mask := if is_zero_digest (v (Z.to_nat i)) then mask else Z.lor mask (2 ^ i) in
      active_loop fuel v max ((i + 1) mod 256) mask
    else Val mask
  end.
(** wolfBoot_get_pcr_active, src/tpm.c:427-470. *)
Definition get_pcr_active (g : config) (fuel : nat) (T : tpm) (max : Z) : out Z :=
  active_loop fuel (pcr T) (if max =? 0 then if arch_sim g then 16 else 15 else max) 0 0.

(** wolfBoot_tpm_pcrmask_sel, src/tpm.c:472-486. *)
Fixpoint sel_loop (mask : Z) (cap : nat) (todo acc : list nat) : list nat :=
  match todo with
  | [] => acc
  | i :: todo =>
    sel_loop mask cap todo
      (if Z.testbit mask (Z.of_nat i) then if (length acc <? cap)%nat then acc ++ [i] else acc else acc)
  end.
Definition pcrmask_sel (mask : Z) (cap : nat) : list nat := sel_loop mask cap (seq 0 24) [].
(** The array has PCR_SELECT_MAX * 2 bytes, src/tpm.c:494 and 931. *)
Definition SEL_CAP : nat := 6.

(** TPM2_SetupPCRSelArray: the selection that contains the PCRs of an array. *)
Definition mask_of (l : list nat) : Z := fold_right (fun i m => Z.lor (2 ^ Z.of_nat i) m) 0 l.

(** wolfBoot_build_policy, src/tpm.c:489-533: the policy text for the sign tool.  [policyRef]
    is empty in the only call. *)
Definition build_policy (C : suite) (T : tpm) (mask : Z) : list Z :=
  let sel := pcrmask_sel mask SEL_CAP in
  le_bytes 4 mask ++ to_sign C (pcr_policy C no_policy (mask_of sel) (pcr T)) [].

(** ** The sealed blob in non-volatile memory *)

Inductive cmd := Undefine | Define (size : Z) | Write (off : nat) (d : list Z).
Definition run_cmd (T : tpm) (i : Z) (x : cmd) : Z * tpm :=
  match x with Undefine => nv_undefine T i | Define size => nv_define T i size | Write off d => nv_write T i off d end.
(** The return codes that do not stop the sequence: any of the deletion (src/tpm.c:878),
    TPM_RC_NV_DEFINED of the definition (src/tpm.c:615-618). *)
Definition tolerated (x : cmd) (rc : Z) : bool :=
  match x with Undefine => true | Define _ => rc =? RC_NV_DEFINED | Write _ _ => false end.
Fixpoint run_cmds (T : tpm) (i : Z) (l : list cmd) : Z * tpm :=
  match l with
  | [] => (0, T)
  | x :: l =>
    let (rc, T) := run_cmd T i x in
    if (rc =? 0) || tolerated x rc then run_cmds T i l else (rc, T)
  end.

(** wolfBoot_store_blob, src/tpm.c:580-660: sizes are 16-bit, little-endian. *)
Definition store_cmds (pub priv : list Z) : list cmd :=
  [ Define (2 + zlen pub + 2 + zlen priv);
    Write 0 (le_bytes 2 (zlen pub));
    Write 2 pub;
    Write (2 + length pub) (le_bytes 2 (zlen priv));
    Write (2 + length pub + 2) priv ].
Definition store_blob (T : tpm) (i : Z) (pub priv : list Z) : Z * tpm := run_cmds T i (store_cmds pub priv).

(** wolfBoot_delete_blob, src/tpm.c:722-751. *)
Definition delete_blob (T : tpm) (i : Z) : Z * tpm := nv_undefine T i.

(** wolfBoot_read_blob, src/tpm.c:662-720: return code, public and private part.  Reading
    more bytes than the buffer holds is out of bounds.  An unusable public area is left to
    [unwrap]. *)
Definition read_blob (g : config) (T : tpm) (i : Z) : out (Z * list Z * list Z) :=
  let (rc, b) := nv_read T i 0 2 in
  if negb (rc =? 0) then Val (rc, [], [])
  else
    let n := le_val b in
    let (rc, pub) := nv_read T i 2 (Z.to_nat n) in
    if negb (rc =? 0) then Val (rc, [], [])
    else if pub_cap g <? n then UB
    else
      let pos := (2 + Z.to_nat n)%nat in
      let (rc, b) := nv_read T i pos 2 in
      if negb (rc =? 0) then Val (rc, pub, [])
      else
        let k := le_val b in
        let (rc, priv) := nv_read T i (pos + 2) (Z.to_nat k) in
        if negb (rc =? 0) then Val (rc, pub, [])
        else if priv_cap g <? k then UB
        else Val (0, pub, priv).

(** ** Sealing *)

(** wolfBoot_seal_blob, src/tpm.c:754-835.  [auth]: empty for none. *)
Definition seal_blob (g : config) (C : suite) (hint policy secret auth : list Z) : Z * object :=
  let none := {| obj_policy := []; obj_password := None; obj_data := [] |} in
  if (zlen policy =? 0) || (MAX_SEAL <? zlen secret) then (-1, none)
  else
    match lookup g hint with
    | None => (-1, none)
    | Some key =>
      (0, {| obj_policy := signed_policy C key [];
             obj_password := match auth with [] => None | _ => Some auth end;
             obj_data := secret |})
    end.

(** wolfBoot_seal_auth, src/tpm.c:845-895: the commands on non-volatile memory, in order. *)
Definition seal_cmds (C : suite) (o : object) : list cmd :=
  Undefine :: store_cmds (fst (wrap C o)) (snd (wrap C o)).
Definition seal_auth (g : config) (C : suite) (T : tpm) (hint policy : list Z) (index : Z) (secret auth : list Z)
  : Z * tpm :=
  let (rc, o) := seal_blob g C hint policy secret auth in
  if rc =? 0 then run_cmds T (SEAL_BASE + index) (seal_cmds C o) else (rc, T).
(** wolfBoot_seal, src/tpm.c:896-908. *)
Definition seal (g : config) (C : suite) (T : tpm) (hint policy : list Z) (index : Z) (secret : list Z) : Z * tpm :=
  seal_auth g C T hint policy index secret (seal_password g).

(** wolfBoot_unseal_blob, src/tpm.c:911-1070.  [cap]: the size of the caller's buffer.  A
    policy shorter than the mask is read out of bounds (944, 953-954). *)
Definition unseal_blob (g : config) (C : suite) (T : tpm) (hint policy pub priv auth : list Z) (cap : Z)
  : out (Z * list Z) :=
  if zlen policy =? 0 then Val (-1, [])
  else if zlen policy <? 4 then UB
  else
    let mask := le_val (firstn 4 policy) in
    let sig := skipn 4 policy in
    let sel := pcrmask_sel mask SEL_CAP in
    match policy_pcr C T fresh (mask_of sel) with
    | None => Val (RC_SESSION_POLICY, [])
    | Some s =>
      match lookup g hint with
      | None => Val (-1, [])
      | Some key =>
        match policy_authorize C s key (digest s) [] sig with
        | None => Val (RC_SIGNATURE, [])
        | Some s =>
          match unwrap C pub priv with
          | None => Val (RC_INTEGRITY, [])
          | Some o =>
            match (match auth with [] => unseal_policy T s o | _ => unseal_password o auth end) with
            | None => Val (match auth with [] => RC_SESSION_POLICY | _ => RC_AUTH_FAIL end, [])
            | Some d => if cap <? zlen d then UB else Val (0, d)
            end
          end
        end
      end
    end.

(** wolfBoot_unseal_auth and wolfBoot_unseal, src/tpm.c:1072-1115. *)
Definition unseal_auth (g : config) (C : suite) (T : tpm) (hint policy : list Z) (index : Z) (auth : list Z) (cap : Z)
  : out (Z * list Z) :=
  dlet (r, priv) <- read_blob g T (SEAL_BASE + index) in
  let (rc, pub) := r : Z * list Z in
  if rc =? 0 then unseal_blob g C T hint policy pub priv auth cap else Val (rc, []).
Definition unseal (g : config) (C : suite) (T : tpm) (hint policy : list Z) (index cap : Z) : out (Z * list Z) :=
  unseal_auth g C T hint policy index (seal_password g) cap.

(** ** Users of the sealed secret *)

(** Sealing a new secret and reading it back: src/update_flash.c:915-946 and
    sata_create_and_seal_unlock_secret, src/x86/ahci.c:268-318. *)
Definition create_secret (g : config) (C : suite) (T : tpm) (hint policy : list Z) (index : Z) (new : list Z)
  : out (Z * tpm * list Z) :=
  let (rc, T) := seal g C T hint policy index new in
  if negb (rc =? 0) then Val (rc, T, new)
  else
    dlet (rc, check) <- unseal g C T hint policy index MAX_SEAL in
    if negb (rc =? 0) then Val (rc, T, new)
    else if same new check then Val (0, T, new) else Val (-1, T, new).

(** wolfBoot_unlock_disk, src/update_flash.c:880-984 (simulator): return code, TPM, secret.
    [policy] empty: the image has none.  [random]: 32 bytes from the TPM.  The extension of a
    PCR at 958-975 is not compiled: the function exists for ARCH_SIM only. *)
Definition unlock_disk (g : config) (C : suite) (T : tpm) (hint policy random : list Z) : out (Z * tpm * list Z) :=
  if zlen policy =? 0 then Val (- RC_POLICY_FAIL, T, [])
  else
    dlet (rc, secret) <- unseal g C T hint policy 0 MAX_SEAL in
    if rc =? 0 then Val (0, T, secret) else create_secret g C T hint policy 0 random.

(** sata_get_unlock_secret, src/x86/ahci.c:320-368: [cap] is *secret_size, [min]
    ATA_UNLOCK_DISK_KEY_SZ, [index] ATA_UNLOCK_DISK_KEY_NV_INDEX; [policy] was checked against
    TPM_MAX_POLICY_SIZE; [new]: the secret made of random bytes. *)
Definition ata_secret (g : config) (C : suite) (T : tpm) (hint policy : list Z) (index cap min : Z) (new : list Z)
  : out (Z * tpm * list Z) :=
  if cap <? min then Val (-1, T, [])
  else
    dlet (rc, secret) <- unseal g C T hint policy index cap in
    if rc =? 0 then Val (0, T, secret)
    else if Z.land rc 191 =? 139 then create_secret g C T hint policy index new
    else Val (rc, T, []).

(** ** Root of trust *)

(** wolfBoot_check_rot, src/tpm.c:1280-1326: the digest has 32 bytes. *)
Definition check_rot (T : tpm) (slot : Z) (hint : list Z) : Z :=
  let (rc, d) := nv_read T (KEY_BASE + slot) 0 32 in
  if rc =? 0 then if same d (firstn 32 hint) then 0 else -1 else rc.
