(** Model of the on-chip flash drivers: [hal_flash_write] and [hal_flash_erase] of
    hal/nrf52.c, nrf5340.c, stm32f1.c, stm32f4.c, stm32f7.c, stm32h7.c, stm32l4.c, stm32wb.c,
    stm32g0.c, stm32c0.c, stm32l5.c, stm32u5.c, stm32h5.c, stm32l0.c (erase), kinetis.c,
    mcxa.c, mcxw.c, lpc.c, hifive1.c, psoc6.c, same51.c, samr21.c (erase), cc26x2.c (erase),
    ti_hercules.c (write), renesas-rx.c (write), imx_rt.c (write), nxp_t2080.c.

    Simplifications: status polling always ends and is not shown; locking, caches, TrustZone
    aliases and claims are left out; addresses plus lengths stay below 2^32 except where the
    wrap-around is written out.  [UB] stands for a read outside the caller's buffer, a write
    outside a local buffer, and for a store the flash controller does not accept (an address
    that is not a multiple of the programming unit). *)
From Verif Require Import Base HalSpec.

Definition u32 (x : Z) : Z := x mod 2 ^ 32.

(** *** The chips *)

(** Programming NOR flash can only clear bits. *)
Definition nor (m : mem) (p : Z) (v : list Z) : mem :=
  fun x => if (p <=? x) && (x <? p + zlen v) then Z.land (m x) (nth (Z.to_nat (x - p)) v 0) else m x.

(** Flash with error correction: a unit can be programmed when it is erased, or set to zero;
    otherwise the controller raises an error flag and leaves the unit alone
    (RM0434 3.3.8, RM0444 3.3.8, RM0438 6.3.7, RM0433 4.3.9). *)
Definition ecc (m : mem) (p : Z) (v : list Z) : mem :=
  if forallb (fun k => m (p + Z.of_nat k) =? 255) (seq 0 (length v)) || forallb (Z.eqb 0) v
  then patch m p v
  else m.

(** The [n] bytes at [p]. *)
Definition bytes (m : mem) (p : Z) (n : nat) : list Z :=
  map (fun k => m (p + Z.of_nat k)) (seq 0 n).

(** [v] with the bytes from index [off] on replaced by [w]. *)
Definition splice (v : list Z) (off : Z) (w : list Z) : list Z :=
  firstn (Z.to_nat off) v ++ w ++ skipn (Z.to_nat off + length w) v.

(** [n] bytes of the caller's buffer from index [o] on. *)
Definition grab (d : list Z) (o n : Z) : out (list Z) :=
  if (0 <=? o) && (o + n <=? zlen d) then Val (sub d (Z.to_nat o) (Z.to_nat n)) else UB.

(** A store of the unit [v] at [p]: [p] must be a multiple of [u]. *)
Definition store_nor (u : Z) (m : mem) (p : Z) (v : list Z) : out mem :=
  if p mod u =? 0 then Val (nor m p v) else UB.
Definition store_ecc (u : Z) (m : mem) (p : Z) (v : list Z) : out mem :=
  if p mod u =? 0 then Val (ecc m p v) else UB.

(** *** Writes *)

(** hal/stm32f4.c:175-190, hal/stm32f7.c:245-260: one byte at a time.  [ARCH_FLASH_OFFSET] is
    not shown: the chip decodes the address without it as the same cell. *)
Fixpoint f4_write_loop (m : mem) (a : Z) (d : list Z) : mem :=
  match d with
  | [] => m
  | b :: d' => f4_write_loop (nor m a [b]) (a + 1) d'
  end.
Definition f4_write (m : mem) (a : Z) (d : list Z) : out (mem * Z) :=
  Val (f4_write_loop m a d, 0).

(** hal/stm32f1.c:96-106 [valid_flash_area]. *)
Definition f1_valid (a len : Z) : bool :=
  negb ((len <=? 0) || (131072 <? len)) &&
  negb ((a <? 134217728) || (134217728 + 131072 <=? a)) &&
  negb (134217728 + 131072 <? a + len).

(** hal/stm32f1.c:136-145 [flash_w16]: [prog m p lo hi] is what the controller makes of a
    half-word store; the result is read back. *)
Definition f1_w16 (prog : mem -> Z -> Z -> Z -> mem) (m : mem) (p lo hi : Z) : mem * bool :=
  let m' := prog m p lo hi in
  (m', (m' p =? lo) && (m' (p + 1) =? hi)).

(** hal/stm32f1.c:184-205: the main loop; [p] is the half-word address. *)
Fixpoint f1_write_loop (prog : mem -> Z -> Z -> Z -> mem) (fuel : nat) (m : mem) (p : Z)
    (src : list Z) : out (mem * Z) :=
  match fuel with
  | O => NoFuel
  | S f =>
      match src with
      | [] => Val (m, 0)
      | [b] =>
          let (m', ok) := f1_w16 prog m p b (m (p + 1)) in
          Val (m', if ok then 0 else -1)
      | b0 :: b1 :: src' =>
          let (m', ok) := f1_w16 prog m p b0 b1 in
          if ok then f1_write_loop prog f m' (p + 2) src' else Val (m', -1)
      end
  end.

(** hal/stm32f1.c:159-208. *)
Definition f1_write (prog : mem -> Z -> Z -> Z -> mem) (m : mem) (a : Z) (d : list Z)
  : out (mem * Z) :=
  if negb (f1_valid a (zlen d)) then Val (m, -1)
  else if a mod 2 =? 1 then
    match d with
    | [] => UB
    | b :: d' =>
        let (m', ok) := f1_w16 prog m (a - 1) (m (a - 1)) b in
        if ok then f1_write_loop prog (S (length d')) m' (a + 1) d' else Val (m', -1)
    end
  else f1_write_loop prog (S (length d)) m a d.

(** hal/lpc.c:107-132: pages of [ps] bytes are read, changed and programmed whole. *)
Fixpoint lpc_write_loop (ps : Z) (fuel : nat) (m : mem) (a : Z) (d : list Z) (idx : Z)
  : out (mem * Z) :=
  match fuel with
  | O => NoFuel
  | S f =>
      if idx <? zlen d then
        let page := (a + idx) / ps * ps in
        let offset := if page <? a then a - page else 0 in
        let size0 := ps - offset in
        let size := if zlen d - idx <? size0 then zlen d - idx else size0 in
        if 0 <? size then
          dlet v <- grab d idx size in
          let m' := nor m page (splice (bytes m page (Z.to_nat ps)) offset v) in
          lpc_write_loop ps f m' a d (idx + size)
        else lpc_write_loop ps f m a d (idx + size)
      else Val (m, 0)
  end.
Definition lpc_write (ps : Z) (m : mem) (a : Z) (d : list Z) : out (mem * Z) :=
  lpc_write_loop ps (S (length d)) m a d 0.

(** hal/nrf52.c:65-94, hal/nrf5340.c:211-247 (and, with other erased bits, hal/stm32l0.c:97-125).
    [da] is the address of the caller's buffer.  The controller takes aligned words only. *)
Fixpoint nrf_write_loop (fuel : nat) (m : mem) (a da : Z) (d : list Z) (i : Z) : out (mem * Z) :=
  match fuel with
  | O => NoFuel
  | S f =>
      if i <? zlen d then
        if (3 <? zlen d - i) && (((a + i) mod 4 =? 0) && ((da + i) mod 4 =? 0)) then
          dlet v <- grab d (4 * (i / 4)) 4 in
          dlet m' <- store_nor 4 m (a + 4 * (i / 4)) v in
          nrf_write_loop f m' a da d (i + 4)
        else
          let off := (a + i) mod 4 in
          let p := a - off + 4 * (i / 4) in
          dlet b <- grab d i 1 in
          dlet m' <- store_nor 4 m p (splice (bytes m p 4) off b) in
          nrf_write_loop f m' a da d (i + 1)
      else Val (m, 0)
  end.
Definition nrf_write (m : mem) (a da : Z) (d : list Z) : out (mem * Z) :=
  nrf_write_loop (S (length d)) m a da d 0.

(** hal/stm32wb.c:164-208, hal/stm32l4.c:125-175 with [shift] = 0; hal/stm32g0.c:119-157 and
    hal/stm32c0.c:135-173 with [shift] = [FLASHMEM_ADDRESS_SPACE], which they add to the address
    in the aligned branch only.  [lo] and [hi] bound the flash; the error flags are not looked
    at (stm32l4.c:166 looks at the one of the last store only and is not modelled). *)
Definition dword_at (lo hi : Z) (m : mem) (p : Z) (v : list Z) : out mem :=
  if (lo <=? p) && (p + 8 <=? hi) then store_ecc 8 m p v else UB.
Fixpoint dw_write_loop (lo hi shift : Z) (fuel : nat) (m : mem) (a da : Z) (d : list Z) (i : Z)
  : out (mem * Z) :=
  match fuel with
  | O => NoFuel
  | S f =>
      if i <? zlen d then
        if (3 <? zlen d - i) && (((a + i) mod 8 =? 0) && ((da + i) mod 8 =? 0)) then
          dlet v <- grab d (4 * (i / 4)) 8 in
          dlet m' <- dword_at lo hi m (a + shift + 4 * (i / 4)) v in
          dw_write_loop lo hi shift f m' a da d (i + 8)
        else
          let off := (a + i) mod 8 in
          let p := a / 8 * 8 + 4 * (i / 4) in
          let n := Z.min (8 - off) (zlen d - i) in
          dlet v <- grab d i n in
          dlet m' <- dword_at lo hi m p (splice (bytes m p 8) off v) in
          dw_write_loop lo hi shift f m' a da d (i + n)
      else Val (m, 0)
  end.
Definition dw_write (lo hi shift : Z) (m : mem) (a da : Z) (d : list Z) : out (mem * Z) :=
  dw_write_loop lo hi shift (S (length d)) m a da d 0.

(** hal/stm32l5.c:66-104 ([u] = 8), hal/stm32u5.c:64-116 ([u] = 16), hal/imx_rt.c:910-954
    ([u] = the page size; a NOR part, the same as this one where the target is erased): whole
    units, whatever the length. *)
Fixpoint unit_write_loop (u : Z) (fuel : nat) (m : mem) (a : Z) (d : list Z) (i : Z)
  : out (mem * Z) :=
  match fuel with
  | O => NoFuel
  | S f =>
      if i <? zlen d then
        dlet v <- grab d i u in
        dlet m' <- store_ecc u m (a + i) v in
        unit_write_loop u f m' a d (i + u)
      else Val (m, 0)
  end.
Definition unit_write (u : Z) (m : mem) (a : Z) (d : list Z) : out (mem * Z) :=
  unit_write_loop u (S (length d)) m a d 0.

(** hal/stm32h5.c:91-134: as above with [u] = 8, the second word is replaced by all ones when
    only one byte is left ([len > i + 1]). *)
Fixpoint h5_write_loop (fuel : nat) (m : mem) (a : Z) (d : list Z) (i : Z) : out (mem * Z) :=
  match fuel with
  | O => NoFuel
  | S f =>
      if i <? zlen d then
        dlet v0 <- grab d i 4 in
        dlet v1 <- (if i + 1 <? zlen d then grab d (i + 4) 4 else Val [255; 255; 255; 255]) in
        dlet m' <- store_ecc 8 m (a + i) (v0 ++ v1) in
        h5_write_loop f m' a d (i + 8)
      else Val (m, 0)
  end.
Definition h5_write (m : mem) (a : Z) (d : list Z) : out (mem * Z) :=
  h5_write_loop (S (length d)) m a d 0.

(** hal/renesas-rx.c:489-527: blocks of [u] = 128 bytes, the last one completed from the
    flash; the low bits of [FSADDR] must be 0. *)
Fixpoint rx_write_loop (u : Z) (fuel : nat) (m : mem) (a : Z) (d : list Z) (i : Z)
  : out (mem * Z) :=
  match fuel with
  | O => NoFuel
  | S f =>
      if i <? zlen d then
        let left := zlen d - i in
        dlet v <- (if left <? u
                   then dlet w <- grab d i left in
                        Val (w ++ bytes m (a + i + left) (Z.to_nat (u - left)))
                   else grab d i u) in
        dlet m' <- store_nor u m (a + i) v in
        rx_write_loop u f m' a d (i + u)
      else Val (m, 0)
  end.
Definition rx_write (u : Z) (m : mem) (a : Z) (d : list Z) : out (mem * Z) :=
  rx_write_loop u (S (length d)) m a d 0.

(** hal/kinetis.c:311-345 ([u] = 8), hal/mcxa.c:70-108 ([u] = 16).  The vendor's program
    function wants aligned units.  [w] counts the bytes taken in the unaligned branch; the
    branch advances by the end index [i] in the unit; the aligned branch leaves [w] alone. *)
Definition all_ones (v : list Z) : bool := forallb (Z.eqb 255) v.
Fixpoint kin_write_loop (u : Z) (fuel : nat) (m : mem) (a : Z) (d : list Z) (w len : Z)
  : out (mem * Z) :=
  match fuel with
  | O => NoFuel
  | S f =>
      if 0 <? len then
        if (len <? u) || negb (a mod u =? 0) then
          let off := a mod u in
          let i := Z.min u (len + off) in
          dlet v <- grab d w (i - off) in
          let unit := splice (bytes m (a - off) (Z.to_nat u)) off v in
          dlet m' <- (if all_ones unit then Val m else store_nor u m (a - off) unit) in
          kin_write_loop u f m' (a + i) d (w + (i - off)) (len - i)
        else
          let n := len / u * u in
          dlet v <- grab d w n in
          dlet m' <- store_nor u m a v in
          kin_write_loop u f m' (a + n) d w (len - n)
      else Val (m, 0)
  end.
Definition kin_write (u : Z) (m : mem) (a : Z) (d : list Z) : out (mem * Z) :=
  kin_write_loop u (S (length d)) m a d 0 (zlen d).

(** hal/mcxw.c:85-134: as kinetis.c with [u] = 16, except for the aligned branch: when the
    buffer is not aligned it is first copied to 16 bytes on the stack (and the copy not used).
    The comparison with the empty unit never succeeds (its first word is 0xFFFFFFF).
    [(uint32_t* )data + w] is byte index [4 * w]. *)
Fixpoint mcxw_write_loop (fuel : nat) (m : mem) (a da : Z) (d : list Z) (w len : Z)
  : out (mem * Z) :=
  match fuel with
  | O => NoFuel
  | S f =>
      if 0 <? len then
        if (len <? 16) || negb (a mod 16 =? 0) then
          let off := a mod 16 in
          let i := Z.min 16 (len + off) in
          dlet v <- grab d w (i - off) in
          dlet m' <- store_nor 16 m (a - off) (splice (bytes m (a - off) 16) off v) in
          mcxw_write_loop f m' (a + i) da d (w + (i - off)) (len - i)
        else
          let n := len / 16 * 16 in
          if negb ((da + w) mod 16 =? 0) && (16 <? n) then UB
          else
            dlet v <- grab d (4 * w) n in
            dlet m' <- store_nor 16 m a v in
            mcxw_write_loop f m' (a + n) da d w (len - n)
      else Val (m, 0)
  end.
Definition mcxw_write (m : mem) (a da : Z) (d : list Z) : out (mem * Z) :=
  mcxw_write_loop (S (length d)) m a da d 0 (zlen d).

(** hal/hifive1.c:480-536: pages of 256 bytes ([ps]); [len] is not reduced in the loop. *)
Fixpoint hifive_write_loop (ps : Z) (fuel : nat) (m : mem) (page off : Z) (d : list Z) (j : Z)
  : out (mem * Z) :=
  match fuel with
  | O => NoFuel
  | S f =>
      if j <? zlen d then
        if (0 <? off) || (zlen d <? ps) then
          let rel := Z.min (ps - off) (zlen d) in
          dlet v <- grab d j rel in
          let m' := nor m (page * ps) (splice (bytes m (page * ps) (Z.to_nat ps)) off v) in
          hifive_write_loop ps f m' (page + 1) 0 d (j + rel)
        else
          dlet v <- grab d j ps in
          hifive_write_loop ps f (nor m (page * ps) v) (page + 1) 0 d (j + ps)
      else Val (m, 0)
  end.
Definition hifive_write (ps : Z) (m : mem) (a : Z) (d : list Z) : out (mem * Z) :=
  hifive_write_loop ps (S (length d)) m (a / ps) (a mod ps) d 0.

(** hal/psoc6.c:121-143: rows of [row] bytes.  [inflash] says that the buffer is in flash.
    The address and the source stay the same in the loop. *)
Fixpoint psoc_write_loop (row : Z) (fuel : nat) (m : mem) (a : Z) (d : list Z) (len : Z)
  : out (mem * Z) :=
  match fuel with
  | O => NoFuel
  | S f =>
      if len =? 0 then Val (m, 0)
      else
        dlet v <- grab d 0 row in
        dlet m' <- store_nor row m a v in
        let len' := len - row in
        if (0 <? len') && (len' <? row) then Val (m', -1)
        else psoc_write_loop row f m' a d len'
  end.
Definition psoc_write (row : Z) (inflash : bool) (m : mem) (a : Z) (d : list Z) : out (mem * Z) :=
  if zlen d <? row then Val (m, -1)
  else if inflash && negb (zlen d =? row) then Val (m, -1)
  else psoc_write_loop row (S (length d)) m a d (zlen d).

(** hal/same51.c:339-374: words; the page buffer is taken to be written through.  In the
    unaligned branch the offset is that of the first byte, whatever [i]. *)
Fixpoint same51_write_loop (fuel : nat) (m : mem) (a da : Z) (d : list Z) (i : Z)
  : out (mem * Z) :=
  match fuel with
  | O => NoFuel
  | S f =>
      if i <? zlen d then
        if (3 <? zlen d - i) && (((a + i) mod 4 =? 0) && ((da + i) mod 4 =? 0)) then
          dlet v <- grab d (4 * (i / 4)) 4 in
          dlet m' <- store_nor 4 m (a + 4 * (i / 4)) v in
          same51_write_loop f m' a da d (i + 4)
        else
          let off := a mod 4 in
          let p := a - off + 4 * ((i + off) / 4) in
          let n := Z.min (4 - off) (zlen d - i) in
          dlet v <- grab d i n in
          dlet m' <- store_nor 4 m p (splice (bytes m p 4) off v) in
          same51_write_loop f m' a da d (i + n)
      else Val (m, 0)
  end.
Definition same51_write (m : mem) (a da : Z) (d : list Z) : out (mem * Z) :=
  same51_write_loop (S (length d)) m a da d 0.

(** hal/ti_hercules.c:117-170 ([bs] = [WRITE_BLOCK_SIZE]): short requests go through a buffer
    of one block on the stack; a programming command must stay in one block. *)
Fixpoint ti_write_loop (bs : Z) (fuel : nat) (m : mem) (a : Z) (d : list Z) (off : Z)
  : out (mem * Z) :=
  match fuel with
  | O => NoFuel
  | S f =>
      if off <? zlen d then
        let n := Z.min bs (zlen d - off) in
        dlet v <- grab d off n in
        if (a + off) mod bs + n <=? bs
        then ti_write_loop bs f (nor m (a + off) v) a d (off + n)
        else UB
      else Val (m, 0)
  end.
Definition ti_write (bs : Z) (m : mem) (a : Z) (d : list Z) : out (mem * Z) :=
  if zlen d <? bs then
    if a mod bs + zlen d <=? bs
    then let p := a - a mod bs in
         Val (nor m p (splice (bytes m p (Z.to_nat bs)) (a mod bs) d), 0)
    else UB
  else ti_write_loop bs (S (length d)) m a d 0.

(** hal/nxp_t2080.c:524-539. *)
Definition t2080_write (m : mem) (a : Z) (d : list Z) : out (mem * Z) := Val (m, 0).
Definition t2080_erase (m : mem) (a len : Z) : out (mem * Z) := Val (m, 0).

(** *** Erases *)

(** The page that contains [p]. *)
Definition page_erase (ps : Z) (m : mem) (p : Z) : mem := wipe m (p / ps * ps) ps.

(** The loops [for (p = start; p <= end; p += ps)] ([le]) and [p < end]. *)
Fixpoint page_loop (le : bool) (ps : Z) (fuel : nat) (m : mem) (p e : Z) : out (mem * Z) :=
  match fuel with
  | O => NoFuel
  | S f =>
      if (if le then p <=? e else p <? e)
      then page_loop le ps f (page_erase ps m p) (u32 (p + ps)) e
      else Val (m, 0)
  end.

(** hal/nrf52.c:105-116, hal/hifive1.c:570-596 ([address] relative to the flash). *)
Definition nrf52_erase (ps : Z) (fuel : nat) (m : mem) (a len : Z) : out (mem * Z) :=
  page_loop true ps fuel m a (u32 (a + len - 1)).

(** hal/nrf5340.c:249-270: the start is rounded down. *)
Definition nrf5340_erase (ps : Z) (fuel : nat) (m : mem) (a len : Z) : out (mem * Z) :=
  page_loop true ps fuel m (a - a mod ps) (u32 (a + len - 1)).

(** hal/stm32l0.c:156-171, stm32g0.c:180-197, stm32c0.c:196-213, stm32wb.c:211-232,
    stm32h5.c:180-223, and stm32l5.c:150-193, stm32u5.c:176-220 inside the flash. *)
Definition stm_erase (ps : Z) (fuel : nat) (m : mem) (a len : Z) : out (mem * Z) :=
  if len =? 0 then Val (m, -1)
  else page_loop false ps fuel m a (u32 (a + len - 1)).

(** hal/same51.c:386-397, hal/cc26x2.c:63-76: by sectors of the bootloader ([ss]), the chip
    erases its block ([ps]) that contains the address. *)
Fixpoint count_erase (ps ss : Z) (fuel : nat) (m : mem) (a len : Z) : out (mem * Z) :=
  match fuel with
  | O => NoFuel
  | S f =>
      if 0 <? len then count_erase ps ss f (page_erase ps m a) (a + ss) (len - ss)
      else Val (m, 0)
  end.

(** hal/kinetis.c:356-368: the test comes after the first erase.  [FLASH_Erase] of one sector
    of the bootloader at an aligned address. *)
Definition kin_erase (ss : Z) (fuel : nat) (m : mem) (a len : Z) : out (mem * Z) :=
  if a mod ss =? 0
  then count_erase ss ss fuel (page_erase ss m a) (a + ss) (len - ss)
  else Val (m, -1).

(** hal/mcxw.c:144-163: [address] is rounded down and then stays the same. *)
Fixpoint mcxw_erase_loop (ss : Z) (fuel : nat) (m : mem) (a len : Z) : out (mem * Z) :=
  match fuel with
  | O => NoFuel
  | S f =>
      if 0 <? len then mcxw_erase_loop ss f (page_erase ss m a) a (len - ss)
      else Val (m, 0)
  end.
Definition mcxw_erase (ss : Z) (fuel : nat) (m : mem) (a len : Z) : out (mem * Z) :=
  mcxw_erase_loop ss fuel m (a - a mod ss) len.

(** hal/samr21.c:205-214: the wait for the controller has no body of its own, so that the
    reduction of [len] by 64 is done once per unsuccessful poll.  [polls] gives the number of
    unsuccessful polls after each command.  A row has [row] bytes. *)
Fixpoint samr_erase (row : Z) (polls : list Z) (m : mem) (a len : Z) : out (mem * Z) :=
  match polls with
  | [] => NoFuel
  | k :: polls' =>
      if 0 <? len then samr_erase row polls' (page_erase row m a) a (len - 64 * k)
      else Val (m, 0)
  end.

(** hal/lpc.c:143-151: [FLASHIAP_EraseSector] takes the first and the last sector. *)
Definition lpc_erase (ss : Z) (m : mem) (a len : Z) : out (mem * Z) :=
  let first := a / ss in
  let last := (a + (len - 1)) / ss in
  Val (wipe m (first * ss) ((last - first + 1) * ss), 0).

(** hal/psoc6.c:153-168. *)
Fixpoint psoc_erase_loop (row : Z) (fuel : nat) (m : mem) (p e : Z) : out (mem * Z) :=
  match fuel with
  | O => NoFuel
  | S f =>
      if row <=? u32 (e - p) then psoc_erase_loop row f (page_erase row m p) (p + row) e
      else Val (m, 0)
  end.
Definition psoc_erase (row : Z) (fuel : nat) (m : mem) (a len : Z) : out (mem * Z) :=
  if len =? 0 then Val (m, -1) else psoc_erase_loop row fuel m a (a + len).

(** hal/stm32f1.c:114-134 [flash_erase_page]: [er m a] is what the controller makes of the
    command; the page is then read back by words. *)
Definition f1_erase_page (er : mem -> Z -> mem) (m : mem) (a : Z) : mem * bool :=
  let m' := er m a in
  (m', forallb (fun k => m' (a + Z.of_nat k) =? 255) (seq 0 1024)).

(** hal/stm32f1.c:221-238. *)
Fixpoint f1_erase_loop (er : mem -> Z -> mem) (fuel : nat) (m : mem) (a e : Z)
  : out (mem * Z) :=
  match fuel with
  | O => NoFuel
  | S f =>
      if a <? e then
        let (m', ok) := f1_erase_page er m a in
        if ok then f1_erase_loop er f m' (a + 1024) e else Val (m', -1)
      else Val (m, 0)
  end.
Definition f1_erase (er : mem -> Z -> mem) (fuel : nat) (m : mem) (a len : Z) : out (mem * Z) :=
  if negb (f1_valid a len) then Val (m, -1)
  else if negb (len mod 1024 =? 0) then Val (m, -1)
  else f1_erase_loop er fuel m a (a + len).

(** hal/stm32f4.c:218-228 and, for a table without unused entries, hal/stm32f7.c:287-306:
    the search for the first and the last sector.  [tab] is [flash_sector]. *)
Definition sec_at (tab : list Z) (i : Z) : Z := nth (Z.to_nat i) tab 0.
Fixpoint f4_search (tab : list Z) (a e : Z) (n : nat) (i s t : Z) : Z * Z :=
  match n with
  | O => (s, t)
  | S n' =>
      let s' := if (sec_at tab i <=? a) && (a <? sec_at tab (i + 1)) then i else s in
      let t' := if (sec_at tab i <=? e) && (e <? sec_at tab (i + 1)) then i else t in
      if (0 <? s') && (0 <? t') then (s', t') else f4_search tab a e n' (i + 1) s' t'
  end.

(** hal/stm32f4.c:163-173 [flash_erase_sector]: sector number [i] of the chip, whose real
    sectors are [phys]. *)
Definition erase_sector (phys : list Z) (m : mem) (i : Z) : mem :=
  wipe m (sec_at phys i) (sec_at phys (i + 1) - sec_at phys i).
Fixpoint erase_sectors (phys : list Z) (m : mem) (i : Z) (n : nat) : mem :=
  match n with
  | O => m
  | S n' => erase_sectors phys (erase_sector phys m i) (i + 1) n'
  end.

(** hal/stm32f4.c:205-234, hal/stm32f7.c:275-312 (addresses relative to the flash in the
    first, absolute in the second). *)
Definition f4_erase (tab phys : list Z) (m : mem) (a len : Z) : out (mem * Z) :=
  if len =? 0 then Val (m, -1)
  else
    let e := u32 (a + len - 1) in
    let top := nth (length tab - 1) tab 0 in
    if (a <? sec_at tab 0) || (top <? e) then Val (m, -1)
    else
      let (s, t) := f4_search tab a e (length tab - 1) 0 (-1) (-1) in
      if (s <? 0) || (t <? 0) then Val (m, -1)
      else Val (erase_sectors phys m s (Z.to_nat (t - s + 1)), 0).

(** hal/stm32f4.c:107-138 (relative addresses). *)
Definition f4_table : list Z :=
  [0; 16384; 32768; 49152; 65536; 131072; 262144; 393216; 524288; 655360; 786432; 917504;
   1048576].

(** hal/stm32f7.c:161-205, single bank, with the addresses relative to 0x8000000. *)
Definition f7_table : list Z :=
  [0; 32768; 65536; 98304; 131072; 262144; 524288; 786432; 1048576; 1310720; 1572864; 1622016;
   2097152].
(** The sectors of the chip (the comments of the same lines, AN4826): four of 32 KB, one of
    128 KB, seven of 256 KB. *)
Definition f7_sectors : list Z :=
  [0; 32768; 65536; 98304; 131072; 262144; 524288; 786432; 1048576; 1310720; 1572864; 1835008;
   2097152].

(** hal/stm32h7.c:195-229: addresses relative to 0x8000000; a sector has 128 KB, the second
    bank starts at 1 MB.  The sector field has three bits (stm32h7.h:274); the bits the driver
    sets above it are interrupt enables and are not shown. *)
Definition h7_sector : Z := 131072.
Definition h7_bank2 : Z := 1048576.
Fixpoint h7_erase_loop (fuel : nat) (m : mem) (p e : Z) : out (mem * Z) :=
  match fuel with
  | O => NoFuel
  | S f =>
      if p <? e then
        let m1 := if p <? h7_bank2 then wipe m (p / h7_sector * h7_sector) h7_sector else m in
        if (h7_bank2 <=? p) && (p <=? 2097151) then
          let p' := u32 (p - 135266304) in
          let m2 := wipe m1 (h7_bank2 + (p' / h7_sector) mod 8 * h7_sector) h7_sector in
          h7_erase_loop f m2 (u32 (p' + h7_sector)) e
        else h7_erase_loop f m1 (u32 (p + h7_sector)) e
      else Val (m, 0)
  end.
Definition h7_erase (fuel : nat) (m : mem) (a len : Z) : out (mem * Z) :=
  if len =? 0 then Val (m, -1) else h7_erase_loop fuel m a (u32 (a + len - 1)).

(** *** STM32H7 writes: a list of chip operations, so that power can fail in between *)

Inductive chip_op :=
| Wipe (a n : Z)
| Prog (p : Z) (v : list Z).

Definition chip_step (m : mem) (o : chip_op) : mem :=
  match o with
  | Wipe a n => wipe m a n
  | Prog p v => ecc m p v
  end.
Definition chip_run (m : mem) (l : list chip_op) : mem := fold_left chip_step l m.

(** The partitions of a configuration (include/target.h), relative to the flash. *)
Record h7_conf := { boot_at : Z; update_at : Z; part_size : Z }.

(** hal/stm32h7.h:301-311. *)
Definition flags_page (e : Z) : Z := (e - 1) / h7_sector * h7_sector.
Definition in_flags (e x : Z) : bool := (flags_page e <=? x) && (x <? e).

(** hal/stm32h7.c:87-159.  The words are read before the erase, as in the code; [m] is the
    content at that moment. *)
Fixpoint h7_write_loop (c : h7_conf) (fuel : nat) (m : mem) (a da : Z) (d : list Z) (i : Z)
    (ops : list chip_op) : out (list chip_op * Z) :=
  match fuel with
  | O => NoFuel
  | S f =>
      if i <? zlen d then
        if (32 <? zlen d - i) && (((a + i) mod 32 =? 0) && ((da + i) mod 32 =? 0)) then
          dlet v <- grab d i 32 in
          h7_write_loop c f (ecc m (a + i) v) a da d (i + 32) (ops ++ [Prog (a + i) v])
        else
          let off := (a + i) mod 32 in
          let base := a + i - off in
          let cache := bytes m base 32 in
          let boot_end := boot_at c + part_size c in
          let upd_end := update_at c + part_size c in
          let n := Z.min (32 - off) (zlen d - i) in
          dlet v <- grab d i n in
          let word := splice cache off v in
          if in_flags boot_end a then
            if negb (base =? boot_end - 32) then Val (ops, -1)
            else
              let m1 := wipe m (flags_page boot_end) h7_sector in
              h7_write_loop c f (ecc m1 base word) a da d (i + n)
                (ops ++ [Wipe (flags_page boot_end) h7_sector; Prog base word])
          else if in_flags upd_end a then
            if negb (base =? upd_end - 32) then Val (ops, -1)
            else
              let m1 := wipe m (flags_page upd_end) h7_sector in
              h7_write_loop c f (ecc m1 base word) a da d (i + n)
                (ops ++ [Wipe (flags_page upd_end) h7_sector; Prog base word])
          else
            h7_write_loop c f (ecc m base word) a da d (i + n) (ops ++ [Prog base word])
      else Val (ops, 0)
  end.
Definition h7_write (c : h7_conf) (m : mem) (a da : Z) (d : list Z) : out (list chip_op * Z) :=
  h7_write_loop c (S (length d)) m a da d 0 [].

(** config/examples/stm32h7.config, docs/Targets.md:1004-1008. *)
Definition h7_example : h7_conf :=
  {| boot_at := 131072; update_at := 983040; part_size := 851968 |}.
