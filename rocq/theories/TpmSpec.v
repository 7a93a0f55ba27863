(** A Trusted Platform Module, as far as wolfBoot uses it: Trusted Platform Module Library,
    Family 2.0, Part 1 (PCR, policies, sealed objects) and Part 3 (commands).  wolfTPM, the
    library wolfBoot calls, is not part of the repository; its functions are taken to issue
    the commands they are named after. *)
From Verif Require Import Base.

(** ** Cryptography, as parameters *)

(** A sealed object: the policy that releases it; the password that releases it as well, if
    it may be released by password; the secret. *)
Record object := { obj_policy : list Z; obj_password : option (list Z); obj_data : list Z }.

(** [hash]: the hash of the PCR bank (SHA-256).  [verify key digest signature].  [key_name]:
    the name of a public key.  [wrap], [unwrap]: the public and the encrypted private part of
    an object under the storage key of this TPM; [unwrap] checks them. *)
Record suite := {
  hash : list Z -> list Z;
  verify : list Z -> list Z -> list Z -> bool;
  key_name : list Z -> list Z;
  wrap : object -> list Z * list Z;
  unwrap : list Z -> list Z -> option object }.

(** ** State *)

Record nv_area := { nv_size : Z; nv_written : bool; nv_data : list Z }.

(** [updates]: the counter of changes of PCR 0 to 15. *)
Record tpm := { pcr : nat -> list Z; updates : Z; nv : Z -> option nv_area }.

(** TPM2_PCR_Extend. *)
Definition extend (C : suite) (T : tpm) (i : nat) (d : list Z) : tpm :=
  {| pcr := fun j => if (j =? i)%nat then hash C (pcr T i ++ d) else pcr T j;
     updates := if (i <? 16)%nat then updates T + 1 else updates T;
     nv := nv T |}.

(** ** Policies *)

(** The PCRs of a selection (bit i: PCR i), in order. *)
Definition chosen (mask : Z) : list nat := filter (fun i => Z.testbit mask (Z.of_nat i)) (seq 0 24).

(** A selection of SHA-256 PCRs in bytes (Part 2, 10.6.2). *)
Definition selection (mask : Z) : list Z :=
  if mask =? 0 then [0; 0; 0; 0] else [0; 0; 0; 1] ++ [0; 11] ++ [3] ++ le_bytes 3 mask.

Definition CC_PolicyAuthorize : list Z := [0; 0; 1; 106].
Definition CC_PolicyPCR : list Z := [0; 0; 1; 127].
Definition no_policy : list Z := repeat 0 32.

(** The digest of the policy "the PCRs of [mask] have the values [v]". *)
Definition pcr_policy (C : suite) (before : list Z) (mask : Z) (v : nat -> list Z) : list Z :=
  hash C (before ++ CC_PolicyPCR ++ selection mask ++ hash C (concat (map v (chosen mask)))).

(** The digest of the policy "something signed by [key], with the qualifier [ref]". *)
Definition signed_policy (C : suite) (key ref : list Z) : list Z :=
  hash C (hash C (no_policy ++ CC_PolicyAuthorize ++ key_name C key) ++ ref).

(** What the signer of a policy signs. *)
Definition to_sign (C : suite) (policy ref : list Z) : list Z := hash C (policy ++ ref).

(** A policy session: its digest, and the counter of PCR changes when a PCR policy was checked. *)
Record session := { digest : list Z; checked : option Z }.
Definition fresh : session := {| digest := no_policy; checked := None |}.

Definition same (a b : list Z) : bool := if list_eq_dec Z.eq_dec a b then true else false.

(** The PCRs have not changed since they were checked. *)
Definition unchanged (T : tpm) (s : session) : bool :=
  match checked s with Some n => n =? updates T | None => true end.

(** TPM2_PolicyPCR (Part 3, 23.7). *)
Definition policy_pcr (C : suite) (T : tpm) (s : session) (mask : Z) : option session :=
  if unchanged T s then Some {| digest := pcr_policy C (digest s) mask (pcr T); checked := Some (updates T) |}
  else None.

(** TPM2_VerifySignature followed by TPM2_PolicyAuthorize (Part 3, 20.1 and 23.16). *)
Definition policy_authorize (C : suite) (s : session) (key approved ref sig : list Z) : option session :=
  if verify C key (to_sign C approved ref) sig && same (digest s) approved
  then Some {| digest := signed_policy C key ref; checked := checked s |} else None.

(** TPM2_Unseal with a policy session, with a password. *)
Definition unseal_policy (T : tpm) (s : session) (o : object) : option (list Z) :=
  if same (digest s) (obj_policy o) && unchanged T s then Some (obj_data o) else None.
Definition unseal_password (o : object) (pw : list Z) : option (list Z) :=
  match obj_password o with Some p => if same p pw then Some (obj_data o) else None | None => None end.

(** Anything that can be done with the TPM, between resets: extending PCRs, resetting PCR 16
    and up, changing non-volatile memory, and policy commands on a session. *)
Inductive step (C : suite) : tpm * session -> tpm * session -> Prop :=
| SExtend T s i d : step C (T, s) (extend C T i d, s)
| SReset T s i v : (16 <= i)%nat -> length v = 32%nat ->
    step C (T, s) ({| pcr := fun j => if (j =? i)%nat then v else pcr T j; updates := updates T; nv := nv T |}, s)
| SNv T s n : step C (T, s) ({| pcr := pcr T; updates := updates T; nv := n |}, s)
| SStart T s : step C (T, s) (T, fresh)
| SPcr T s mask s' : 0 <= mask < 2 ^ 24 -> policy_pcr C T s mask = Some s' -> step C (T, s) (T, s')
| SAuthorize T s key approved ref sig s' :
    policy_authorize C s key approved ref sig = Some s' -> step C (T, s) (T, s')
| SOther T s cc args : length cc = 4%nat -> cc <> CC_PolicyPCR -> cc <> CC_PolicyAuthorize ->
    step C (T, s) (T, {| digest := hash C (digest s ++ cc ++ args); checked := checked s |}).
Inductive steps (C : suite) : tpm * session -> tpm * session -> Prop :=
| SRefl a : steps C a a
| STrans a b c : steps C a b -> step C b c -> steps C a c.

(** ** Non-volatile memory *)

Definition RC_HANDLE : Z := 395.         (* 0x18b: TPM_RC_HANDLE for handle 1 *)
Definition RC_NV_RANGE : Z := 326.       (* 0x146 *)
Definition RC_NV_UNINITIALIZED : Z := 330. (* 0x14a *)
Definition RC_NV_DEFINED : Z := 332.     (* 0x14c *)

Definition set_nv (T : tpm) (i : Z) (a : option nv_area) : tpm :=
  {| pcr := pcr T; updates := updates T; nv := fun j => if j =? i then a else nv T j |}.

(** TPM2_NV_UndefineSpace, TPM2_NV_DefineSpace, TPM2_NV_Write, TPM2_NV_Read: return code and
    new state. *)
Definition nv_undefine (T : tpm) (i : Z) : Z * tpm :=
  match nv T i with None => (RC_HANDLE, T) | Some _ => (0, set_nv T i None) end.
Definition nv_define (T : tpm) (i size : Z) : Z * tpm :=
  match nv T i with
  | Some _ => (RC_NV_DEFINED, T)
  | None => (0, set_nv T i (Some {| nv_size := size; nv_written := false; nv_data := repeat 255 (Z.to_nat size) |}))
  end.
Definition nv_write (T : tpm) (i : Z) (off : nat) (d : list Z) : Z * tpm :=
  match nv T i with
  | None => (RC_HANDLE, T)
  | Some a =>
    if nv_size a <? Z.of_nat off + zlen d then (RC_NV_RANGE, T)
    else (0, set_nv T i (Some {| nv_size := nv_size a; nv_written := true;
                                 nv_data := firstn off (nv_data a) ++ d ++ skipn (off + length d) (nv_data a) |}))
  end.
Definition nv_read (T : tpm) (i : Z) (off n : nat) : Z * list Z :=
  match nv T i with
  | None => (RC_HANDLE, [])
  | Some a =>
    if negb (nv_written a) then (RC_NV_UNINITIALIZED, [])
    else if nv_size a <? Z.of_nat off + Z.of_nat n then (RC_NV_RANGE, [])
    else (0, sub (nv_data a) off n)
  end.
