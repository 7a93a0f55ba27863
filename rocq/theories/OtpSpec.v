(** Specification of the OTP keystore. *)
From Verif Require Import Base HeaderModel Flash OtpModel.

(** A configuration: the area lies below 2^31 and has room for a key; slots have even size. *)
Definition otp_ok (h : otp) : Prop :=
  0 < OB h /\ OB h + OSZ h < 2 ^ 31 /\ 0 < KPS h /\ KPS h mod 2 = 0 /\ OTP_HDR_SIZE + SLOT h <= OSZ h.

(** The header announces [n] keys. *)
Definition announces (h : otp) (m : flash) (n : Z) : Prop :=
  rdl m (OB h) 8 = OTP_MAGIC /\ m (OB h + 8) + 256 * m (OB h + 9) = n.
(** Keys the keystore offers: those announced, unless the header is not one or announces more
    than fit. *)
Definition key_count (h : otp) (m : flash) (n : Z) : Prop :=
  announces h m n /\ n <= MAXKEYS h \/ n = 0 /\ forall k, announces h m k -> MAXKEYS h < k.

(** Slot [id]. *)
Definition slot_addr (h : otp) (id : Z) : Z := OB h + OTP_HDR_SIZE + id * SLOT h.
Definition slot_at (h : otp) (m : flash) (id : Z) : list Z := rdl m (slot_addr h id) (Z.to_nat (SLOT h)).

Definition otp_erased (h : otp) (m : flash) : Prop := forall x, OB h <= x < OB h + OSZ h -> m x = 255.

(** The [int] arguments whose product with the slot size does not overflow. *)
Definition id_ok (h : otp) (id : Z) : Prop := - 2 ^ 31 <= id * SLOT h /\ id < 2 ^ 31.
