(** Address translation set up on PowerPC.  Sources: src/boot_ppc.c, hal/nxp_ppc.h. *)
From Verif Require Import Base.

(** The values of the registers that tlbwe writes into an entry. *)
Record mas := { mas0 : Z; mas1 : Z; mas2 : Z; mas3 : Z; mas7 : Z }.

(** hal/nxp_ppc.h:198-199 (e500, e5500) and 225-226 (e6500): MAS1_TSIZE. *)
Definition mas1_tsize (e6500 : bool) (x : Z) : Z :=
  if e6500 then Z.land (Z.shiftl x 7) 0x00000F80 else Z.land (Z.shiftl x 8) 0x00000F00.

(** hal/nxp_ppc.h:386-390, 556-557. *)
Definition BOOKE_MAS0 (tlbsel esel nv : Z) : Z :=
  Z.lor (Z.lor (Z.land (Z.shiftl tlbsel 28) 0x30000000) (Z.land (Z.shiftl esel 16) 0x0FFF0000)) (Z.land nv 0xFFF).

(** hal/nxp_ppc.h:392-395, 558-563. *)
Definition BOOKE_MAS1 (e6500 : bool) (v iprot tid ts tsize : Z) : Z :=
  Z.lor (Z.lor (Z.lor (Z.lor (Z.land (Z.shiftl v 31) 0x80000000) (Z.land (Z.shiftl iprot 30) 0x40000000))
    (Z.land (Z.shiftl tid 16) 0x3FFF0000)) (Z.land (Z.shiftl ts 12) 0x1000)) (mas1_tsize e6500 tsize).

(** hal/nxp_ppc.h:397, 564-565; 406, 566-567; 568. *)
Definition BOOKE_MAS2 (epn wimge : Z) : Z := Z.lor (Z.land epn 0xFFFFF000) wimge.
Definition BOOKE_MAS3 (rpn user perms : Z) : Z := Z.lor (Z.lor (Z.land rpn 0xFFFFF000) user) perms.
Definition BOOKE_MAS7 (urpn : Z) : Z := urpn.

(** src/boot_ppc.c:38-62 [set_tlb], [write_tlb]: the registers when tlbwe is executed. *)
Definition set_tlb (e6500 : bool) (tlb esel epn rpn urpn perms wimge ts tsize iprot : Z) : mas :=
  {| mas0 := BOOKE_MAS0 tlb esel 0; mas1 := BOOKE_MAS1 e6500 1 iprot 0 ts tsize;
     mas2 := BOOKE_MAS2 epn wimge; mas3 := BOOKE_MAS3 rpn 0 perms; mas7 := BOOKE_MAS7 urpn |}.

(** src/boot_ppc.c:64-75 [disable_tlb1]. *)
Definition disable_tlb1 (esel : Z) : mas :=
  {| mas0 := BOOKE_MAS0 1 esel 0; mas1 := 0; mas2 := 0; mas3 := 0; mas7 := 0 |}.
