(** Partition flags on flash that is erased to zero (FLAGS_INVERT, config/examples/stm32l0.config).
    The functions of src/libwolfboot.c are those of TrailerModel.v: the option changes only the
    constants and the memory below them. *)
From Verif Require Import Base HeaderModel Flash ImageModel TrailerModel.

(** include/wolfboot/wolfboot.h:320-325. *)
Definition IST_NEW : Z := 0x00.
Definition IST_UPDATING : Z := 0x8F.
Definition IST_TESTING : Z := 0xEF.
Definition IST_FINAL : Z := 0xBF.
Definition IST_SUCCESS : Z := 0xFF.
(** include/image.h:110-113. *)
Definition ISF_NEW : Z := 0x00.
Definition ISF_SWAPPING : Z := 0x08.
Definition ISF_BACKUP : Z := 0x0C.
Definition ISF_UPDATED : Z := 0x0F.

(** hal/sim.c:181-182, 189-215: erasing clears all bits, programming can only set bits. *)
Definition ierase (f : flash) (a n : Z) : flash := fun x => if inr a n x then 0 else f x.
Definition iwrite (f : flash) (a n : Z) (d : Z -> Z) : flash :=
  fun x => if inr a n x then Z.lor (f x) (d (x - a)) else f x.

(** Uninterrupted execution on this memory. *)
Fixpoint irun {A} (p : prog A) (f : flash) : outcome A :=
  match p with
  | Ret a => Done a f
  | Rd r => irun (r f) f
  | Er a n p' => irun p' (ierase f a n)
  | Wr a n d p' => irun p' (iwrite f a n d)
  | Panic => Panicked f
  | Stuck => Wrong
  end.

(** Power failure: an interrupted erase leaves any bytes; an interrupted write of at most four
    bytes leaves some of the new bits set, a longer one any bytes. *)
Definition itorn_erase (a n : Z) (f f' : flash) : Prop := bytes f' /\ (forall x, inr a n x = false -> f' x = f x).
Definition itorn_write (a n : Z) (d : Z -> Z) (f f' : flash) : Prop :=
  bytes f' /\ (forall x, inr a n x = false -> f' x = f x) /\
  (n <= 4 -> forall x, inr a n x = true -> exists m, f' x = Z.lor (f x) (Z.land (d (x - a)) m)).
Fixpoint icrash {A} (p : prog A) (f f' : flash) : Prop :=
  match p with
  | Ret _ => f' = f
  | Panic => f' = f
  | Stuck => f' = f
  | Rd r => icrash (r f) f f'
  | Er a n p' => f' = f \/ itorn_erase a n f f' \/ icrash p' (ierase f a n) f'
  | Wr a n d p' => f' = f \/ itorn_write a n d f f' \/ icrash p' (iwrite f a n d) f'
  end.

(** src/libwolfboot.c:735-781 [wolfBoot_update_trigger] with a driver that erases the whole
    sector. *)
Definition i_trigger (c : cfg) : prog unit :=
  Er ((endflags c PUPDATE - 1) / SECT c * SECT c) (SECT c) (set_partition_state c PUPDATE IST_UPDATING).

(** src/libwolfboot.c:791-806 [wolfBoot_success]. *)
Definition i_success (c : cfg) : prog unit := set_partition_state c PBOOT IST_SUCCESS.
