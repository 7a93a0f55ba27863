(** Fault injection: an attacker makes the processor skip instructions.  The specification
    counts the instructions skipped by an execution and says what a check may not do unless
    that many were skipped. *)
From Verif Require Import Base.

(** [skipping next skip k s t]: the machine gets from [s] to [t] while [k] of the
    instructions on the way, at any places and at any times, are skipped. *)
Inductive skipping {S : Type} (next skip : S -> S) : nat -> S -> S -> Prop :=
| sk_stop : forall s, skipping next skip 0 s s
| sk_run  : forall k s t, skipping next skip k (next s) t -> skipping next skip k s t
| sk_skip : forall k s t, skipping next skip k (skip s) t -> skipping next skip (Datatypes.S k) s t.

(** What the checks of an image left behind (struct wolfBoot_image, include/image.h:195-211). *)
Record verdict := Verdict {
  hdr_ok : Z; sha_ok : Z; signature_ok : Z; not_signature_ok : Z;
  canary_FEED6789 : Z; canary_FEED4567 : Z; canary_FEED89AB : Z }.

Definition words (v : verdict) : list Z :=
  [hdr_ok v; sha_ok v; signature_ok v; not_signature_ok v; canary_FEED6789 v; canary_FEED4567 v; canary_FEED89AB v].

(** The flags are 32-bit words. *)
Definition sized (v : verdict) : Prop := Forall (fun x => 0 <= x < 2 ^ 32) (words v).

(** Every check of the image succeeded. *)
Definition flags_right (v : verdict) : Prop :=
  hdr_ok v = 1 /\ sha_ok v = 1 /\ signature_ok v = 1 /\ not_signature_ok v = 0xFFFFFFFE.

Definition canaries_right (v : verdict) : Prop :=
  canary_FEED6789 v = 0xFEED6789 /\ canary_FEED4567 v = 0xFEED4567 /\ canary_FEED89AB v = 0xFEED89AB.

(** A 32-bit word read as a signed number. *)
Definition signed (x : Z) : Z := if x <? 2 ^ 31 then x else x - 2 ^ 32.

(** The key with permissions [mask] may sign images for partition [id]. *)
Definition permitted (id mask : Z) : bool := Z.testbit mask id.
