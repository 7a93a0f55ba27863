(** Model of the checks hardened against fault injection (build option ARMORED=1,
    include/image.h:180-769 and include/loader.h:58-68): the inline assembly, one Thumb-2
    instruction at a time.

    Simplifications: the code the compiler adds around the assembly is reduced to the
    instruction that puts the first argument of a call in r0; an operand [%0] is a register
    that already holds the value of the C expression; a call, a return from it included, is
    one instruction; statements of C inside a macro are one instruction each; the stack (push,
    pop) is left out.  The GNU variants of the macros are modelled. *)
From Verif Require Import Base GlitchSpec.

Inductive reg := R0 | R1 | R2 | R4 | R5 | R6 | R7.

(** Branch targets: "." minus a number of halfwords, or a label. *)
Inductive dest := Back (n : nat) | To (a : nat).
Inductive cond := AL | NE | GE | LT.

Inductive instr :=
| MovI (d : reg) (v : Z)            (* mov rd, #v : mov.w, leaves the flags alone *)
| MovsI (d : reg) (v : Z)           (* movs rd, #v *)
| MovV (d : reg) (v : Z)            (* mov rd, %0 *)
| MovR (d s : reg)                  (* mov rd, rs *)
| CmpI (a : reg) (v : Z)            (* cmp ra, #v *)
| CmpW (a : reg) (v : Z)            (* cmp ra, #v, assembled to cmn.w ra, #-v *)
| CmpR (a b : reg)                  (* cmp ra, rb *)
| Br (c : cond) (t : dest)          (* b, bne, bge, blt *)
| AndI (d : reg) (v : Z)            (* and.w rd, rd, #v *)
| Lsls (d s : reg)                  (* lsls rd, rs *)
| Ands (d s : reg)                  (* ands rd, rs *)
| LsrI (d s : reg) (n : Z)          (* lsrs rd, rs, #n *)
| Ldr (d : reg)                     (* ldr rd, [%0] : the result cell of a verify function *)
| Bl (f : Z -> Z) (c1 c2 : Z) (cell : Z -> Z)
                                    (* a call: r0 := f r0, r1 and r2 clobbered, the cell written *)
| Nop                               (* nop, push, pop *)
| SaveTmp                           (* int tmp_ret = <r0> *)
| SetRet (v : Z)                    (* ret = v *)
| RetTmp                            (* ret = tmp_ret *)
| Confirm                           (* wolfBoot_image_confirm_signature_ok(img) *)
| Raw.                              (* bits that are not meant to be an instruction *)

Record cpu := Cpu {
  pc : nat;                                       (* in halfwords, from the start of the macro *)
  r0 : Z; r1 : Z; r2 : Z; r4 : Z; r5 : Z; r6 : Z; r7 : Z;
  zf : bool; nf : bool; vf : bool;                (* flags *)
  cell : Z; ret : Z; tmp : Z; confirmed : bool }. (* variables of the C code *)

(** 32-bit encodings (ARM DDI 0403 A5.3): mov.w and cmn.w with an immediate, and.w, bl. *)
Definition size (i : instr) : nat :=
  match i with
  | MovI _ _ | CmpW _ _ | AndI _ _ | Bl _ _ _ _ | Confirm => 2
  | _ => 1
  end.

(** The second halfword of a 32-bit instruction, executed on its own.  cmn.w r2, #2 is
    F112 0F02, and 0F02 is lsrs r2, r0, #28. *)
Definition tail (i : instr) : instr :=
  match i with
  | CmpW R2 v => if v =? 0xFFFFFFFE then LsrI R2 R0 28 else Raw
  | _ => Raw
  end.

(** The code of a list of instructions, a halfword at a time. *)
Definition lay (l : list instr) : list instr :=
  flat_map (fun i => if Nat.eqb (size i) 2 then [i; tail i] else [i]) l.

Definition get (s : cpu) (r : reg) : Z :=
  match r with
  | R0 => r0 s | R1 => r1 s | R2 => r2 s | R4 => r4 s | R5 => r5 s | R6 => r6 s | R7 => r7 s
  end.

Definition put (s : cpu) (r : reg) (v : Z) : cpu :=
  let 'Cpu p a0 a1 a2 a4 a5 a6 a7 z n o c t u f := s in
  match r with
  | R0 => Cpu p v a1 a2 a4 a5 a6 a7 z n o c t u f
  | R1 => Cpu p a0 v a2 a4 a5 a6 a7 z n o c t u f
  | R2 => Cpu p a0 a1 v a4 a5 a6 a7 z n o c t u f
  | R4 => Cpu p a0 a1 a2 v a5 a6 a7 z n o c t u f
  | R5 => Cpu p a0 a1 a2 a4 v a6 a7 z n o c t u f
  | R6 => Cpu p a0 a1 a2 a4 a5 v a7 z n o c t u f
  | R7 => Cpu p a0 a1 a2 a4 a5 a6 v z n o c t u f
  end.

Definition goto (s : cpu) (p : nat) : cpu :=
  let 'Cpu _ a0 a1 a2 a4 a5 a6 a7 z n o c t u f := s in Cpu p a0 a1 a2 a4 a5 a6 a7 z n o c t u f.

Definition flags (s : cpu) (z n o : bool) : cpu :=
  let 'Cpu p a0 a1 a2 a4 a5 a6 a7 _ _ _ c t u f := s in Cpu p a0 a1 a2 a4 a5 a6 a7 z n o c t u f.

Definition with_cell (s : cpu) (v : Z) : cpu :=
  let 'Cpu p a0 a1 a2 a4 a5 a6 a7 z n o _ t u f := s in Cpu p a0 a1 a2 a4 a5 a6 a7 z n o v t u f.
Definition with_ret (s : cpu) (v : Z) : cpu :=
  let 'Cpu p a0 a1 a2 a4 a5 a6 a7 z n o c _ u f := s in Cpu p a0 a1 a2 a4 a5 a6 a7 z n o c v u f.
Definition with_tmp (s : cpu) (v : Z) : cpu :=
  let 'Cpu p a0 a1 a2 a4 a5 a6 a7 z n o c t _ f := s in Cpu p a0 a1 a2 a4 a5 a6 a7 z n o c t v f.
Definition with_confirmed (s : cpu) : cpu :=
  let 'Cpu p a0 a1 a2 a4 a5 a6 a7 z n o c t u _ := s in Cpu p a0 a1 a2 a4 a5 a6 a7 z n o c t u true.

Definition top (x : Z) : bool := Z.testbit x 31.

(** Flags of a - b and of a + b (ARM DDI 0403 A2.2.1, AddWithCarry). *)
Definition sub_n (a b : Z) : bool := top ((a - b) mod 2 ^ 32).
Definition sub_v (a b : Z) : bool := negb (signed a - signed b =? signed ((a - b) mod 2 ^ 32)).
Definition add_n (a b : Z) : bool := top ((a + b) mod 2 ^ 32).
Definition add_v (a b : Z) : bool := negb (signed a + signed b =? signed ((a + b) mod 2 ^ 32)).

Definition holds (c : cond) (s : cpu) : bool :=
  match c with
  | AL => true
  | NE => negb (zf s)
  | GE => eqb (nf s) (vf s)
  | LT => negb (eqb (nf s) (vf s))
  end.

Definition target (p : nat) (t : dest) : nat :=
  match t with Back n => (p - n)%nat | To a => a end.

(** The effect of an instruction other than the move to the next one.  [Raw] is taken to jump
    wherever the attacker wants: to the end. *)
Definition set_nz (s : cpu) (d : reg) (v : Z) : cpu := put (flags s (v =? 0) (top v) (vf s)) d v.

Definition exec (fin : nat) (s : cpu) (i : instr) : cpu :=
  let s' := goto s (pc s + size i)%nat in
  match i with
  | MovI d v | MovV d v => put s' d v
  | MovsI d v => set_nz s' d v
  | MovR d r => put s' d (get s r)
  | CmpI a v => flags s' (get s a =? v) (sub_n (get s a) v) (sub_v (get s a) v)
  | CmpW a v =>
      let w := 2 ^ 32 - v in
      flags s' ((get s a + w) mod 2 ^ 32 =? 0) (add_n (get s a) w) (add_v (get s a) w)
  | CmpR a b => flags s' (get s a =? get s b) (sub_n (get s a) (get s b)) (sub_v (get s a) (get s b))
  | Br c t => if holds c s then goto s (target (pc s) t) else s'
  | AndI d v => put s' d (Z.land (get s d) v)
  | Lsls d r => set_nz s' d (Z.shiftl (get s d) (get s r mod 256) mod 2 ^ 32)
  | Ands d r => set_nz s' d (Z.land (get s d) (get s r))
  | LsrI d r n => set_nz s' d (Z.shiftr (get s r) n)
  | Ldr d => put s' d (cell s)
  | Bl f c1 c2 g => with_cell (put (put (put s' R0 (f (r0 s))) R1 c1) R2 c2) (g (cell s))
  | Nop => s'
  | SaveTmp => with_tmp s' (r0 s)
  | SetRet v => with_ret s' v
  | RetTmp => with_ret s' (tmp s)
  | Confirm => with_confirmed s'
  | Raw => goto s fin
  end.

(** One instruction; a machine past the end of the code stays there. *)
Definition next (code : list instr) (s : cpu) : cpu :=
  match nth_error code (pc s) with
  | Some i => exec (length code) s i
  | None => s
  end.

(** The same instruction, skipped. *)
Definition skip (code : list instr) (s : cpu) : cpu :=
  match nth_error code (pc s) with
  | Some i => goto s (pc s + size i)%nat
  | None => s
  end.

Definition ended (code : list instr) (s : cpu) : Prop := (length code <= pc s)%nat.

(** [k] skipped instructions take the code from its start in state [s] to [t]. *)
Definition glitched (code : list instr) (k : nat) (s t : cpu) : Prop :=
  pc s = 0%nat /\ skipping (next code) (skip code) k s t.

(** *** wolfBoot_panic, include/loader.h:61-66 *)
Definition panic : list instr :=
  lay [Br AL (Back 0); Br AL (Back 1); Br AL (Back 2); Br AL (Back 3); Br AL (Back 4)].

(** *** PART_SANITY_CHECK, include/image.h:249-364 *)

(** A comparison done four times; each failure goes back to a branch to itself. *)
Definition four_times (c : instr) : list instr :=
  lay [c; Br NE (Back 0); c; Br NE (Back 2); c; Br NE (Back 4); c; Br NE (Back 6)].

Definition zero_r2 : list instr := lay (repeat (MovI R2 0) 5).

(** image.h:250-265, 266-281, 282-297 *)
Definition check_flag (v : Z) : list instr :=
  zero_r2 ++ [MovV R2 v] ++ four_times (CmpI R2 1).
(** image.h:298-313 *)
Definition check_not (v : Z) : list instr :=
  zero_r2 ++ [MovV R2 v] ++ four_times (CmpW R2 0xFFFFFFFE).
(** image.h:314-330, 331-347, 348-364 *)
Definition check_canary (v want : Z) : list instr :=
  zero_r2 ++ [MovV R2 v; MovV R0 want] ++ four_times (CmpR R2 R0).

Definition part_sanity_check (v : verdict) : list instr :=
  check_flag (hdr_ok v) ++ check_flag (sha_ok v) ++ check_flag (signature_ok v) ++
  check_not (not_signature_ok v) ++
  check_canary (canary_FEED6789 v) 0xFEED6789 ++ check_canary (canary_FEED4567 v) 0xFEED4567 ++
  check_canary (canary_FEED89AB v) 0xFEED89AB.

(** *** VERIFY_FN, image.h:454-486.  [arg]: first argument of the verify function, [rc]: what it
    returns, [res]: what it leaves in the result cell, [c1] [c2]: what it leaves in r1, r2. *)
Definition verify_fn (arg rc res c1 c2 : Z) : list instr :=
  let nope := To 31 in
  lay ([MovI R0 50; MovI R0 50; MovI R0 50; MovV R0 arg; Bl (fun _ => rc) c1 c2 (fun _ => res);
        CmpI R0 0; Br NE nope; CmpI R0 0; Br NE nope; CmpI R0 0; Br NE nope; CmpI R0 0; Br NE nope;
        Ldr R2; CmpI R2 1; Br NE nope; Ldr R2; CmpI R2 1; Br NE nope;
        Ldr R2; CmpI R2 1; Br NE nope; Ldr R2; CmpI R2 1; Br NE nope;
        Confirm;
        (* nope: *) Nop]).

(** *** RSA_VERIFY_FN, image.h:372-398 *)
Definition rsa_verify_fn (arg rc c1 c2 size : Z) : list instr :=
  let nope := To 23 in
  lay ([MovI R0 0; MovI R0 0; MovI R0 0; MovV R0 arg; Bl (fun _ => rc) c1 c2 (fun c => c); SaveTmp;
        SetRet (-1);
        MovV R2 size; MovV R2 size; MovV R2 size;
        CmpR R0 R2; Br LT nope; CmpR R0 R2; Br LT nope; CmpR R0 R2; Br LT nope; CmpR R0 R2; Br LT nope;
        RetTmp;
        (* nope: *) Nop]).

(** *** RSA_VERIFY_HASH, image.h:406-440, for an image and a digest that are there.  [d1], [d2]:
    what the two calls of memcmp return. *)
Definition rsa_verify_hash (digest d1 d2 c1 c2 : Z) : list instr :=
  let hnope := To 30 in
  lay ([MovI R0 50; MovI R0 50; MovI R0 50; MovV R0 digest; Bl (fun _ => d1) c1 c2 (fun c => c);
        CmpI R0 0; Br NE hnope; CmpI R0 0; Br NE hnope; CmpI R0 0; Br NE hnope; CmpI R0 0; Br NE hnope;
        MovV R0 digest; Bl (fun _ => d2) c1 c2 (fun c => c);
        CmpI R0 0; Br NE hnope; CmpI R0 0; Br NE hnope; CmpI R0 0; Br NE hnope; CmpI R0 0; Br NE hnope;
        Confirm;
        (* hnope: *) Nop]).

(** *** VERIFY_VERSION_ALLOWED, image.h:561-648.  [ver p]: what wolfBoot_get_image_version
    returns for partition [p] (1: update, 0: boot). *)
Definition version_call (ver : Z -> Z) (c1 c2 : Z) : instr := Bl ver c1 c2 (fun c => c).

Definition verify_version_allowed (fb_ok : Z) (ver : Z -> Z) (c1 c2 : Z) : list instr :=
  let do_check := To 29 in
  let end_check := To 103 in
  lay [Nop;
       MovI R0 0; MovI R4 1; MovI R5 0; MovI R6 2; MovI R7 0;
       MovI R0 0; MovI R4 1; MovI R5 0; MovI R6 2; MovI R7 0;
       MovV R0 fb_ok;
       CmpI R0 1; Br NE do_check; CmpI R0 1; Br NE do_check; CmpI R0 1; Br NE do_check;
       Br AL end_check] ++
  (* do_check: *)
  lay [MovI R0 1; MovI R0 1; MovI R0 1; version_call ver c1 c2;
       MovR R5 R0; MovR R5 R0; MovR R5 R0;
       MovI R0 1; MovI R0 1; MovI R0 1; version_call ver c1 c2;
       MovR R7 R0; MovR R7 R0; MovR R7 R0] ++
  four_times (CmpR R5 R7) ++
  lay [MovI R0 0; MovI R0 0; MovI R0 0; version_call ver c1 c2;
       MovR R4 R0; MovR R4 R0; MovR R4 R0;
       MovI R0 0; MovI R0 0; MovI R0 0; version_call ver c1 c2;
       MovR R6 R0; MovR R6 R0; MovR R6 R0] ++
  four_times (CmpR R4 R6) ++
  lay [MovI R0 0; MovI R0 0; MovI R0 0;
       CmpR R4 R5; Br GE (Back 0); CmpR R6 R7; Br GE (Back 2);
       CmpR R4 R5; Br GE (Back 4); CmpR R6 R7; Br GE (Back 6);
       (* end_check: *) Nop].

(** *** CONFIRM_MASK_VALID, image.h:740-767 *)
Definition mask_round (mask : Z) : list instr :=
  [MovV R0 mask; MovsI R2 1; Lsls R2 R1; Ands R2 R0; MovsI R0 1; Lsls R0 R1; CmpR R0 R2; Br NE (Back 0)].

Definition confirm_mask_valid (id mask : Z) : list instr :=
  lay ([MovV R1 id; AndI R1 15] ++ mask_round mask ++ mask_round mask ++ mask_round mask).
