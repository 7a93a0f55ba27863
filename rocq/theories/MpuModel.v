(** The memory protection of the bootloader on ARMv6-M and ARMv7-M.  Source: src/boot_arm.c
    without WOLFBOOT_NO_MPU (the Cortex-M33 configurations set it).  Simplification: the
    registers are those of MpuSpec.v; barriers and the PC's privilege are not modelled. *)
From Verif Require Import Base MpuSpec.

(** The symbols of the linker script (lines 29-31) and the RAM_CODE option. *)
Record link := { L_start_text : Z; L_stored_data : Z; L_start_data : Z; L_ram_code : bool }.

(** src/boot_arm.c:49-62. *)
Definition MPU_RASR_ENABLE : Z := 1.
Definition MPU_RASR_ATTR_XN : Z := Z.shiftl 1 28.
Definition MPU_RASR_ATTR_AP_PRW_UNO : Z := Z.shiftl 1 24.
Definition MPU_RASR_ATTR_S : Z := Z.shiftl 1 18.
Definition MPU_RASR_ATTR_B : Z := Z.shiftl 1 16.
Definition MPU_RASR_ATTR_SCB : Z := Z.shiftl 7 16.

(** src/boot_arm.c:88-97. *)
Definition MPUSIZE_8K : Z := Z.shiftl 0x0c 1.
Definition MPUSIZE_16K : Z := Z.shiftl 0x0d 1.
Definition MPUSIZE_32K : Z := Z.shiftl 0x0e 1.
Definition MPUSIZE_64K : Z := Z.shiftl 0x0f 1.
Definition MPUSIZE_256M : Z := Z.shiftl 0x1b 1.
Definition MPUSIZE_512M : Z := Z.shiftl 0x1c 1.
Definition MPUSIZE_1G : Z := Z.shiftl 0x1d 1.
Definition MPUSIZE_4G : Z := Z.shiftl 0x1f 1.
Definition MPUSIZE_ERR : Z := Z.shiftl 0xff 1.

(** src/boot_arm.c:66-76 [mpu_setaddr], [mpu_setattr]. *)
Definition mpu_setaddr (region addr : Z) (u : unit_) : unit_ := write_rbar (write_rnr u region) addr.
Definition mpu_setattr (region attr : Z) (u : unit_) : unit_ := write_rasr (write_rnr u region) attr.

(** src/boot_arm.c:78-86 [mpu_on]; the static [mpu_is_on] is [on], MPU_TYPE is 0 iff there are no
    regions. *)
Definition mpu_on (u : unit_) (on : bool) : unit_ * bool :=
  if on then (u, on) else
  match u_regions u with
  | O => (u, on)
  | S _ => (write_ctrl u 1, true)
  end.

(** src/boot_arm.c:99-110 [mpusize]. *)
Definition mpusize (size : Z) : Z :=
  if size <=? 8 * 1024 then MPUSIZE_8K
  else if size <=? 16 * 1024 then MPUSIZE_16K
  else if size <=? 32 * 1024 then MPUSIZE_32K
  else if size <=? 64 * 1024 then MPUSIZE_64K
  else MPUSIZE_ERR.

Definition ors (l : list Z) : Z := fold_right Z.lor 0 l.

(** src/boot_arm.c:112-161 [mpu_init]. *)
Definition mpu_init (l : link) (u : unit_) (on : bool) : unit_ * bool :=
  let wolfboot_flash_size := (L_stored_data l - L_start_text l) mod 2 ^ 32 in
  match u_regions u with
  | O => (u, on)
  | S _ =>
      let u := mpu_setaddr 0 0 u in
      let u := mpu_setattr 0 (ors [MPUSIZE_4G; MPU_RASR_ENABLE; MPU_RASR_ATTR_SCB; MPU_RASR_ATTR_AP_PRW_UNO; MPU_RASR_ATTR_XN]) u in
      let wolfboot_mpusize := mpusize wolfboot_flash_size in
      if wolfboot_mpusize =? MPUSIZE_ERR then (u, on) else
      let u := mpu_setaddr 1 (L_start_text l) u in
      let u := mpu_setattr 1 (ors [wolfboot_mpusize; MPU_RASR_ENABLE; MPU_RASR_ATTR_SCB; MPU_RASR_ATTR_AP_PRW_UNO]) u in
      let u := mpu_setaddr 2 (L_start_data l) u in
      let u := mpu_setattr 2 (ors [MPUSIZE_64K; MPU_RASR_ENABLE; MPU_RASR_ATTR_SCB; MPU_RASR_ATTR_AP_PRW_UNO;
                                   if L_ram_code l then 0 else MPU_RASR_ATTR_XN]) u in
      let u := mpu_setaddr 5 0x40000000 u in
      let u := mpu_setattr 5 (ors [MPUSIZE_512M; MPU_RASR_ENABLE; MPU_RASR_ATTR_S; MPU_RASR_ATTR_B; MPU_RASR_ATTR_AP_PRW_UNO; MPU_RASR_ATTR_XN]) u in
      let u := mpu_setaddr 6 0xA0000000 u in
      let u := mpu_setattr 6 (ors [MPUSIZE_1G; MPU_RASR_ENABLE; MPU_RASR_ATTR_S; MPU_RASR_ATTR_B; MPU_RASR_ATTR_AP_PRW_UNO; MPU_RASR_ATTR_XN]) u in
      let u := mpu_setaddr 7 0xE0000000 u in
      let u := mpu_setattr 7 (ors [MPUSIZE_256M; MPU_RASR_ENABLE; MPU_RASR_ATTR_S; MPU_RASR_ATTR_B; MPU_RASR_ATTR_AP_PRW_UNO; MPU_RASR_ATTR_XN]) u in
      mpu_on u on
  end.

(** src/boot_arm.c:163-167 [mpu_off]; lines 463-465: the last thing before the image is
    entered. *)
Definition mpu_off (u : unit_) : unit_ * bool := (write_ctrl u 0, false).
