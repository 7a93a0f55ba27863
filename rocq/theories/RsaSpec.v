(** RSA signatures after RFC 8017: what wc_RsaSSL_VerifyInline computes (RSAVP1, then the
    padding of EMSA-PKCS1-v1_5 is removed) and how a digest is encoded for signing. *)
From Verif Require Import Base.

(** OS2IP and I2OSP: big-endian byte strings and numbers. *)
Definition os2ip (l : list Z) : Z := fold_left (fun a b => 256 * a + b) l 0.
Fixpoint i2osp (x : Z) (k : nat) : list Z :=
  match k with O => [] | S k' => i2osp (x / 256) k' ++ [x mod 256] end.

(** A padded message of length [k] with its payload. *)
Definition padded (k : nat) (em d : list Z) : Prop :=
  length em = k /\ exists n, (8 <= n)%nat /\ em = [0; 1] ++ repeat 255 n ++ [0] ++ d.

(** Removing the padding. *)
Fixpoint skip_ff (l : list Z) (n : nat) : option (nat * list Z) :=
  match l with
  | b :: l' => if b =? 255 then skip_ff l' (S n) else if b =? 0 then Some (n, l') else None
  | [] => None
  end.
Definition unpad (em : list Z) : option (list Z) :=
  match em with
  | 0 :: 1 :: l => match skip_ff l 0 with Some (n, d) => if (8 <=? n)%nat then Some d else None | None => None end
  | _ => None
  end.

(** The public operation with modulus [n] of [k] bytes and exponent [e]. *)
Definition rsa_open (n e : Z) (k : nat) (sig : list Z) : option (list Z) :=
  if os2ip sig <? n then unpad (i2osp (os2ip sig ^ e mod n) k) else None.

(** DER of DigestInfo: the algorithm identifier's contents [alg] and the digest [h]. *)
Definition digest_info (alg h : list Z) : list Z :=
  [48; zlen alg + zlen h + 4; 48; zlen alg] ++ alg ++ [4; zlen h] ++ h.
Definition sha256_alg : list Z := [6; 9; 96; 134; 72; 1; 101; 3; 4; 2; 1; 5; 0].
Definition sha384_alg : list Z := [6; 9; 96; 134; 72; 1; 101; 3; 4; 2; 2; 5; 0].

(** Anything with the three tags: any algorithm identifier, anything after the digest, any
    total length. *)
Definition lax (t : Z) (A h R : list Z) : list Z := [48; t] ++ [48; zlen A] ++ A ++ [4; zlen h] ++ h ++ R.
