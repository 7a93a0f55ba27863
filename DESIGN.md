# Formal model of wolfBoot in Rocq/Coq 8.16 — design

Source of truth: `/repo` (wolfSSL/wolfBoot, pinned commit), read as text only.
Everything is under `rocq/theories` (logical name `Verif`).

## Method

* Small total Gallina functions over `Z` (bytes are `Z` in `[0,256)`), `list`, `nat`
  (lengths, indices, fuel). Machine wrap-around is written explicitly (`mod 2^32`,
  `mod 2^8`, ...) where the code relies on or suffers from it.
* Undefined behaviour and out-of-bounds accesses are a *distinct outcome* (`None`, `Wrong`,
  `UB`), never a default value that makes a theorem true.
* Loops are structural or fuelled; running out of fuel is a distinct outcome (`NoFuel`)
  that the theorems exclude or mention.
* External primitives (hash, signature verification, stream cipher, disk commands,
  bank swap) are fields of a configuration record, so every theorem quantifies over them.
  No `Axiom`, `Parameter`, functor or module type is used.
* Uninitialised locals and stack contents are explicit, universally quantified arguments.
* Files, per topic: `<Topic>Model.v` (definitions only, each citing file:lines),
  `<Topic>Spec.v` (small independent vocabulary of the statements), `<Topic>Proofs.v` (or
  several files for long developments), `<Topic>Props.v` (the property theorems with
  `Print Assumptions`, the examples showing that their hypotheses are met, and the
  refutations). `SwapLimits.v` holds refutations of the swap update.
* If the faithful model violates a property, `..._refuted` gives a concrete witness and
  the strongest version that holds is proved beside it.

## Flash and power failure

`flash := Z -> Z`, one address space. Erasing sets bytes to 0xFF, programming ANDs (NOR
semantics, as `hal/sim.c:hal_flash_write`). Code that mutates flash is a value of the free
monad `prog A` (`Flash.v`: read, erase, write, `Stuck` for undefined behaviour), so the same
text has two semantics:

* `run`: uninterrupted execution;
* `crash t p f f'`: every flash content `f'` that may be left if power fails somewhere in
  `p` — before, after or in the middle of any operation. What a torn operation leaves is a
  parameter `t`:
  * `tear_free`: anything at all in the range of the operation;
  * `tear_std`: a torn erase leaves arbitrary bytes, a torn program any bit pattern
    between old and new; excluded are only forging the 4-byte trailer magic where neither
    the old nor the new content had it, and tearing the erase of the sector that
    holds the update partition's flags (C19 refutes power-fail safety without this last assumption);
  * `cut` / `cut_bits` (write-once trailers, C29): programming stops between two bytes,
    respectively inside a byte.

Reasoning: a crash-aware weakest precondition `wpc t p Q C f` (`FlashLemmas.v`) with a bind
rule. C16, C17, C21, C25, C26 and C29 are invariants over all flash contents reachable by
any sequence of interrupted and completed boots.

## Properties

| id | modelled code | files | how it is proved |
|----|------|------|------|
| C01, C02, C04 | header lookup, blob version/type/delta base (libwolfboot.c) | Header*, BlobProofs | induction on the parser's fuel against a declarative reading of the header |
| C03 | header layout by the signing tool (sign.c) | Sign* | induction over the field list |
| C05-C07 | trailers, trigger, success | Trailer*, TriggerProofs | nibble arithmetic, frame reasoning |
| C08-C11 | open_image, integrity, authenticity, key lookup (image.c) | Image*, GenuineProofs | loop invariants on the hashed position; decision rules with oracles |
| C12-C20 | wolfBoot_start/update/copy_sector/final erase (update_flash.c) | Swap*, CopyProofs, RefuseProofs, HistoryProofs, Decide*, Direct* | `wpc` with a phase invariant; histories by induction |
| C21, C22 | DISABLE_BACKUP update, bootloader self-update | Nobackup* | `wpc`, invariant "the update partition is intact" |
| C23, C24 | wb_patch, wb_diff (delta.c) | DeltaModel/Spec/Proofs/Props | equivalence with a whole-stream decoder; in-place invariant |
| C25, C26 | delta installation | DeltaUpdate*, DeltaApply, DeltaLoop, DeltaFinal | `wpc`, sector-by-sector invariant in both directions |
| C27, C28, C32 | update_ram.c, update_flash_hwswap.c, dual boot selection | Dual* | case analysis, loop invariants |
| C29 | NVM_FLASH_WRITEONCE trailers | WriteOnce* | enumeration of crash points with arbitrary torn contents |
| C30, C31, C37, C38 | external flash encryption, image encryption, key storage | Crypt* | counter arithmetic, block induction |
| C33 | xmalloc.c | Heap* | invariant over operation lists |
| C34 | OTP keystore and primer | Otp* | bounds and layout arithmetic |
| C35, C39 | gpt.c, ata.c (transfer part) | Disk* | refinement to an array of bytes |
| C40, C41 | copying sectors with an encrypted external update partition (update_flash.c) | EncSwap* | loop invariant over the buffers of a sector, induction over sectors |
| C42 | string.c | String* | induction on lengths, partial memory |
| C43, C44 | pkcs11_store.c | Vault* | refinement of named byte strings; invariant at every flash operation; the five states an interrupted creation can leave |
| C45, C46, C48 | fdt.c, fdt.h | Fdt* | relation between trees and blobs; token-level walks; splices |
| C47 | fdt.c | FdtSafe | bounds of every pointer for arbitrary bytes |
| C49 | elf.c, elf.h, update_ram.c | Elf{Model,Spec,Proofs,Props} | loop over program headers; memory before and after |
| C50 | elf.c, image.c, update_flash.c | Scatter{Proofs,Run}, ElfProps | bytes hashed = file with segments read back; copy loop under power failure |
| C51, C52 | spi_flash.c, qspi_flash.c, hal.h | Spi{Spec,Model,Proofs,Props} | the chip as a state machine over transactions, any busy times; loops by induction on pages, sectors, bytes |
| C53 | image.c (RSA), sign.c | Rsa{Spec,Model,Proofs,Props} | the decoder inverted on every payload; public-key operation as modular power, forged cubes by the mean-value bound between neighbouring cubes |
| C54, C55, C56 | pci.c | Pci{Spec,Model,Proofs,Tree,Bars,Enum,Bridge,Scan,Run,Loop,Flat,Props} | a machine as a tree of functions with wired and writable register bits; configuration cycles routed through bridges as programmed so far; induction over the tree with the allocation cursors, the regions laid out between them and the bus numbers as invariant |
| C57, C58 | uart_flash.c, ufserver.c | Uart{Spec,Model,Proofs,Run,Live,Props} | target and server as processes over two byte streams, interleaved by a schedule; with blocking receives the network is confluent, so every run leads to the one of the calls in order; the polling target is simulated by the blocking one until a timeout; progress by induction over the target's code |
| C59, C60 | x86/paging.c | Paging{Spec,Model,Proofs,Map,Loop,Identity,Props} | the processor's 4-level walk as specification; hanging a cleared page into an empty slot and filling an empty last-level slot change exactly the translations they should, given that no page is used as a table twice; induction over the pages |
| C61–C63 | x86/hob.c, multiboot.c, x86/linux_loader.c, boot_x86_fsp.c:128-143 | Hob{Spec,Model,Proofs,Build,Props}, Mb2Proofs | the walk equals a fold over the descriptors of the encoded list; buffer = done ++ rest invariant for the tags, induction over requests; exact page for Linux |
| C64–C67 | tpm.c, update_flash.c:880-984, x86/ahci.c:268-368, loader.c:118-124 | Tpm{Spec,Model,Proofs,Props}, MeasureProps | the TPM (PCRs, policy sessions, sealed objects, non-volatile memory) specified from TPM 2.0 with ideal cryptography as parameters; invariant over all command sequences relating a session's digest to checked PCR values; update and measurement combined with C13, C15 |
| C68–C70 | x86/ata.c:221-561, 584-685, x86/ahci.c:185-266, 371-480, update_disk.c:95-104 | Lock{Spec,Model,Proofs,Props} | the security state machine of the drive from ATA8-ACS; the driver as a state monad over one AHCI port with power failing after any command; exact result of a boot by cases, then induction over histories of boots, power failures and commands |
| C71–C74 | hal_flash_write and hal_flash_erase of 25 files in hal/ (list in HalModel.v) | Hal{Spec,Model,Proofs,WriteProofs,Write2Proofs,EraseProofs,Props} | the chip as a function from addresses to bytes, programmed as NOR or as error-corrected units; one loop lemma for each driver (contents after the bytes from index i on); erase loops against the set of pages with a byte of the range; sector search by uniqueness in a growing table |
| C75–C77 | the ARMORED macros of include/image.h and wolfBoot_panic, as Thumb-2 instructions | Glitch{Spec,Model,Proofs,CodeProofs,VersionProofs,RunProofs,Props} | a small Thumb-2 machine with halfword addresses, so that `bne .-8` after 32-bit instructions lands where it does in the code (in the middle of one, executed as what its bits mean); an execution may skip any instruction, the relation counts the skips. Lower bounds by a cost for every state that no instruction lowers and a skip lowers by at most one; upper bounds by executions |
| C78–C79 | the emergency update in wolfBoot_start, on the model of C05–C07 | Emergency{Spec,Proofs,Props} | the invariant of the swap, with a mode (triggered, fallback, emergency) that says why the next boot enters the update, and for an old image of which only the size field is known: its bytes are moved, never looked at. After the recovery C13 applies: the image in the update partition does not verify, nothing happens |
| C80–C81 | the swap update of C05–C07 with FLAGS_HOME (the flags of the update partition 8 bytes before the end of the boot partition) | Home{Proofs,Props} | the invariant of the swap holds for both layouts; the final phase is proved again, with one more crash state: the boot trailer erased, no flags at all, the new image complete |
| C82 | tools/bin-assemble (argument parsing, sort, overlap check, fill, copy) | Bin{Model,Spec,Proofs,Props} | the file so far is the factory image of the parts so far; the overlap check on neighbours decides overlap of any two parts |
| C83 | libwolfboot.c flags with EXT_FLASH (`ext_cache`) | ExtFlags{Model,Spec,Proofs,Props} | the word written has the old neighbours; a torn word changes only the flag |
| C84 | boot_arm.c `mpu_init`, `mpu_off` | Mpu{Spec,Model,Proofs,Props} | the architecture's region rules; the attributes of every address in closed form |
| C85 | string.c `uart_vprintf` | Print{Model,Spec,Props} | induction over the pieces of a format; numbers by C42 |
| C86 | libwolfboot.c flags with FLAGS_INVERT | Invert{Model,Spec,Proofs,Props} | the programs of TrailerModel.v run on memory where programming sets bits |
| C87 | boot_ppc.c flush_cache, do_boot | Start{Model,Spec,Props} | an explicit loop on 32-bit addresses; caches that hold any set of lines |
| C88 | reset code of boot_arm.c, boot_ppc.c, boot_riscv.c, boot_arm32.c | Start{Model,Spec,Props} | induction over the words of the sections |
| C89 | x86/mptable.c | Mpt{Model,Spec,Props} | the bytes of both tables, read back by a parser of the specification |
| C90 | boot_ppc.c set_tlb, disable_tlb1 | Tlb{Model,Spec,Props} | registers as numbers, decoded by bit fields of the manuals |
| C36 | update_disk.c | DiskBoot* | loop invariants |

## Where the code violates a property

Each item is a theorem `..._refuted` with a concrete witness; the note in `MANIFEST.json`
says what remains true.

* C02: a header area of 64 KiB or more makes a 16-bit field length hide later fields.
* C03: the signing tool does not check that the fields fit the header.
* C04: a version or type field shorter than its value type is read past its end.
* C06: sector flags alias from sector 512 on (8-bit index).
* C08: image sizes near 2^32 wrap the hashing position.
* C09: in hybrid builds the second signature is checked against a stale digest when the
  integrity check has not run.
* C14: a power cut during the first confirmation can lead to a downgrade.
* C17: an image that contains the trailer magic at one particular offset goes back on trial.
* C18: an accepted update may overlap the sector that holds the update flags.
* C19: a torn erase of the update trailer can make every further boot panic.
* C20: the boot routine depends on an uninitialised stack variable.
* C22: the bootloader's self-update has no size check.
* C24: wb_diff: sectors over 64 KiB, repeats of 64 KiB, offsets beyond 2^23, reads past the
  end, and bases altered outside the image.
* C27: update_ram.c: endless loop when both images fail, good image erased before the
  alternative is verified, versions from 2^31 on, no bound on the loaded size.
* C28: a good but unconfirmed image is discarded before the other one is verified.
* C29: atomicity fails if single bits of a byte may be torn; trigger clears flags.
* C31: short, unaligned and partial accesses of the encrypted external flash.
* C33: pool table of ECC builds with SP math in C declares more than its buffer.
* C34: odd slot sizes, mixed key sizes, key hashes, lock range.
* C35: offsets beyond the end, one-sector partitions, the last sector, high sectors,
  partition entry sizes, drive numbers, labels.
* C36: signed version comparison, images longer than the partition, no fallback when the
  load fails, images larger than the load area.
* C38: changing the key is not power-fail safe.
* C39: the sector cache goes stale when cached and direct transfers are mixed.
* C41: with encryption, the sector saved while the flags are erased is stored in clear and
  restored through decryption; old and new image are encrypted with the same keystream.
* C42: strcmp and strcasecmp ignore the rest of the second string, strncasecmp compares one
  character too many, strncpy does not pad, strncat takes the size of the destination,
  memmove has an `int` index, printing long decimal numbers overruns a buffer.
* C43: with objects longer than a sector, a write of more than a sector reads beyond the
  caller's buffer; token id 0xFFFFFFFF is accepted, and the object is overwritten by the next.
* C44: a torn programming of the vault's table loses all objects; objects in the same sector as
  one being written are lost if another is created before they are read; after a power failure
  data in the backup sector can pass for the header of an object that was never created.

* C45: `fdt_node_offset_by_compatible` does not end if a "compatible" value has no zero at its end.
* C46: `fdt_del_node` accepts the root.
* C47: a property of length 0xFFFFFFF4 makes every walk over nodes endless; `fdt_get_string` reads at any
  offset; property lengths from 2^31 on are returned as negative numbers, which `fit_load_image` uses as
  the size of a copy.
* C48: images and configurations are looked up by name in the whole tree, not below "/images" and
  "/configurations".
* C49: `elf_load_image_mmu` ignores failed mappings, copies segments that lie outside the file or are larger
  than their memory size, asks for only the low 32 bits of a memory size to be mapped, and reads the program
  header offset of a 64-bit file in the other byte order as 0. The RAM boot starts an ELF file that is not of
  type EXEC at its first byte.
* C50: `elf_check_image_scattered` hashes something else than the file unless its layout is as in
  `ElfSpec.orderly`, and such images always panic; program headers that repeat a file offset let other bytes
  pass for a segment; single-slot updates require the old image to be valid. Erasing is modelled as affecting
  exactly the range requested, so that segments sharing a flash page are outside the theorems.
* C51: the inner loop of `spi_flash_write_page` ends at page boundaries only and ignores `len`; bytes after the
  caller's data are read and programmed (the one-byte writes of partition states and sector flags included).
  `ext_flash_erase` counts sectors from an unaligned address, and does not end for length 0 at address 0.
* C52: the QSPI `spi_flash_write` sends a full page for the last part of a long write, does not split data at page
  boundaries, and never waits for the chip before the write enable command; a page skipped so is not reported.
- C53: `RsaDecodeSignature` accepts any algorithm identifier, any total length up to the
  payload's, and anything after the digest.  For a key with public exponent 3 (the key tool
  makes 65537, imported keys may have 3) this is the 2006 attack: for every digest there is a
  signature, the same for all keys of that length, that needs no private key.  When the
  algorithm identifier reaches the payload's end, the next tag and length are read from
  behind the payload, which is at the end of the buffer.
- C54: the 16-bit accesses through I/O ports compose the port address twice, which reaches another
  register on host bridges that take bits 24..27 as high bits of the register number;
  `pci_get_mmio_addr` reads the wrong register for all but the first region.
- C56: `pci_program_bar` restores a region without room by writing to configuration offset
  `bar_idx` (not `0x10 + 4 * bar_idx`), so the register stays at all ones and the device is
  enabled again; only the start of a region is compared with the limit, so a region larger than
  the range overlaps what follows; a 64-bit region of 4 GB has computed length 0 and is moved to
  address 0; `pci_program_bridge` writes the I/O window to 0x30/0x32 (upper halves) instead of
  0x1C/0x1D.
- C58: the serial-line protocol has no resynchronisation.  The server waits without limit for the
  rest of a command; after a timeout or reset of the target (a power failure during an update, in
  particular) the next commands are stored as data of the interrupted write and acknowledged.
  `uart_flash_write` returns on a bad range without telling, and the data that follow are parsed as
  commands.  `address + len` is a 32-bit sum that wraps around.
- C59: `x86_paging_get_needed_entries` counts one entry too many and `i << 21` is computed in 32 bits,
  so that with the 4 GB mapping the first stage builds, addresses 4 GB .. 4 GB + 2 MB reach physical
  address 0.  Counts are cut to 12 bits: for 8 GB (with more pages configured) only 2 MB get mapped,
  and the function returns 0.
- C60: `x86_paging_map_page` silently keeps an existing mapping, so a segment whose physical address
  differs from its virtual one below 4 GB is loaded through the identity mapping; offsets in the page
  are dropped separately for both addresses; `va + size` wraps for the last page.
- C61: a hand-off block of length 0 makes `hob_iterate_memory_map` and `get_top_address` loop for ever.
- C62: `mb2_find_header` compares the size in bytes with MB2_HEADER_MAX_OFF / 4 and then searches 32 kB,
  beyond the end of smaller images; the boot information has no terminating tag (type 0, size 8), for any
  input; a request flagged optional fails the boot like any other; every resource descriptor, ports
  included, becomes a memory map entry, and whatever starts at 0 sets mem_lower.
- C63: `e820_add_entry_cb` does not bound the number of entries: 169 descriptors overflow the zero page
  (a stack variable).
- C64: `wolfBoot_tpm2_init` measures the boot partition before `wolfBoot_start` installs an update: the PCR
  describes the replaced image; its return code is ignored; "wolfBoot hash" (docs/TPM.md) is the hash of the
  boot partition, the boot loader is not measured.
- C65: the PCR array has PCR_SELECT_MAX * 2 = 6 entries, further PCRs of the mask are dropped silently;
  sealing with a password sets userWithAuth, after which the policy is not needed; the PCR extension "to
  prevent future unsealing" is inside `!defined(ARCH_SIM)` in a function that exists for ARCH_SIM only, and
  x86/ahci.c has none; a policy of 1 to 3 bytes is over-read (and its size wraps); get_pcr_active(255)
  does not end.
- C66: `wolfBoot_seal_auth` deletes the old object before it stores the new one; a power failure after the
  definition of a disk's first secret leaves an index that every later boot refuses to use or replace; the
  simulator's `wolfBoot_unlock_disk` replaces the secret after any failure to unseal; `wolfBoot_read_blob`
  reads as many bytes as the stored size says into fixed buffers.
- Not stated as a theorem: `TPM2_ForceZero(secret, sizeof(secretSz))` (update_flash.c:982) clears 4 bytes of
  the secret.
- C68: the emulator target (TARGET_x86_fsp_qemu) starts from a drive without security features.
- C69: `sata_get_unlock_secret` copies a compiled-in password without its final 0 into the uninitialised array
  of `sata_unlock_disk`, and `security_command_passphrase` takes its `strlen`: stack contents become part of
  the drive's password, which another boot with other stack contents cannot unlock; a password of 32
  characters is over-read.
- C70: `ata_security_set_password` leaves the level at "high": the drive's master password, by default a
  published value, unlocks the disk as well. After a rejected command (task file error) the port is never
  restarted: the next command waits without limit.
- C72, nRF52/nRF5340/STM32L0: the branch for single bytes computes `dst = address - off` with the offset of byte
  `i` and indexes it by `i >> 2`: every request of two bytes or more that is not made of aligned words (and at
  most one byte) ends in an unaligned store.
- C72, STM32WB/L4/G0/C0: with aligned address and buffer the fast branch is taken when only four bytes are left
  and reads eight; G0 and C0 add the flash base in that branch only; a double word in use is left alone and 0
  returned. With address and buffer equally misaligned the second store is computed from `i >> 2` and is
  misaligned.
- C72, STM32L5/U5/H5 and i.MX RT: only whole units; a single flag byte over-reads the caller's buffer.
- C72, Kinetis/MCXA: the bytes after the last whole unit are taken from the start of the buffer; a request from
  the middle of one unit into the next loses its second part. MCXW: an unaligned buffer of 32 bytes or more
  overruns 16 bytes on the stack.
- C72, HiFive1: `len` is not reduced in the loop, a request that ends in the middle of its second page or later
  reads past the buffer. PSoC 6: of several rows only the first is written. SAM E51: the offset in the word is
  that of the first byte throughout. Hercules: a short request across two blocks overruns the stack. T2080:
  nothing is written, 0 is returned.
- C73, STM32L0/G0/C0/WB/L5/U5/H5: `p < end_address` with the last address leaves out a page of which only the
  first byte is in the range. nRF52/HiFive1: an unaligned start can leave out the last page; a range of length
  0 at address 0 never ends. Kinetis: length 0 erases a sector. PSoC 6: the rest after whole rows is not erased.
- C73, MCXW and SAMR21: the address does not move, only the first sector is ever erased. STM32H7: in the second
  bank only the first sector (the address is reduced by the absolute base and wraps around). STM32F7: sector 11
  has a wrong start address in the table.
- C74: the STM32H7 driver erases the sector before it writes a flag: a power failure in between loses all flags
  of the partition. With config/examples/stm32h7.config the sector also holds the first 64 KB of the update
  partition, which every flag written to the boot partition erases.
- C75: four skips (the four `bne`) start an image without a signature; the panic loop, "that cannot be glitched
  past", takes five. The expected canary is loaded into r0 once: if a canary was overwritten with the value r0
  holds, such as the canary before it, one skip is enough.
- C75: `cmp r2, #0xFFFFFFFE` assembles to a 32-bit `cmn`, so the `bne .-8` after it goes to the middle of an
  instruction. By luck that half is `lsrs r2, r0, #28` and the bound holds.
- C76: RSA_VERIFY_FN clears r0 before the compiler loads the arguments, so that when the call is skipped r0 holds
  the address of the signature, which is taken for a length. (`digest_out` is still NULL then;
  RsaDecodeSignature would parse from address 0.)
- C77: `bge` compares versions as signed numbers, the C code as unsigned ones. An update with version 2^31 or more
  passes the check in C and stops the boot loader for good in VERIFY_VERSION_ALLOWED.
- C77: skipping both `bl wolfBoot_get_image_version` for the running firmware leaves 0, the partition number, in
  both registers: two skips let an older version in. CONFIRM_MASK_VALID loads r1 once: one skip checks the
  permission for the partition a stale r1 names.
- C78: a resumed swap takes its length from the headers in the boot and update partitions, not from the swap
  sector. With an invalid boot header a power failure just before the first sector of the boot partition is erased
  (the good first sector is then only in the swap sector, the bad one in the update
  partition) leaves neither partition with a header: `wolfBoot_update(1)` fails on every later boot although all of
  the good image is in flash. An erased or torn first sector is what an interrupted write of the boot partition
  leaves.
- C79: the emergency update passes `fallback_allowed = 1` and so skips the version check. Without ALLOW_DOWNGRADE, one
  damaged byte in the running image brings back the version before it.
- C81: the final phase of the swap records itself in the update partition's flags, and its next step erases the last
  sector of the boot partition. With FLAGS_HOME that sector holds those flags. A power failure before the mark
  `IMG_STATE_TESTING` is written leaves no trace of the update: the new image runs without trial and is never rolled
  back.
- C81: in the same window the sector before the trailer is copied back from the swap area. If the image reaches that
  sector, a power failure loses the update (the previous image comes back through the emergency update, the new one is
  damaged). A second one in the recovery leaves two damaged images and a device that does not boot.
- C81 (also C07): with FLAGS_HOME `wolfBoot_update_trigger` erases the boot partition's state. An image on trial that
  triggers an update without confirming itself first is no longer on trial.
- C82: bin-assemble fills a gap only if it is shorter than `INT_MAX`. A part 2 GB or more above the one before it
  (external flash at 0x90000000, internal flash at 0x08000000) is put directly behind that one, and the tool reports
  success.
- C82: an address that is not a number is taken for the number it starts with, or for 0. The tool prints a message and
  goes on. A number with a leading 0 is octal.
- C83: on a big-endian processor with flags in external flash (nxp-p1021.config) `ext_cache |= val` puts the new
  value in the last byte of the cached word, but it is read from the first. Setting a state leaves the state and destroys the
  magic number, so no update is ever triggered and no image ever confirmed.
- C84: a bootloader of more than 64 KB (`MPUSIZE_ERR`) runs without any memory protection, silently. Its code size is
  rounded up to a power of two: on kinetis-k64f.config (boot partition at 0xA000) a bootloader of more than 32 KB leaves 24 KB
  of the unverified boot partition executable. If it is not linked at a multiple of the rounded size, part of its own code
  cannot be executed. The region for external devices (1 GB at 0xA0000000) is not aligned: the processor applies it to
  0x80000000-0xBFFFFFFF, so devices from 0xC0000000 are cached and memory-mapped external flash at 0x90000000 is not.
- C85: `%p` and `%lx` print the low 32 bits only (an address at a multiple of 4 GB is printed as 0x0); `%llx` takes one
  of the two arguments on 32-bit processors, so the following conversions use wrong ones. A format that ends in `%` is read
  behind its end. `maxdigits <<= 8` makes lengths of two digits wrong: `%10d` prints 17 digits; `%3d` does not align.
- C86: with FLAGS_INVERT, a boot partition whose trailer was filled with 0xFF (bin-assemble built for another configuration, images
  for both partitions in one file) never gets a state: programming the magic number over 0xFF leaves 0xFF, silently, so no image
  is ever confirmed. `wolfBoot_update_trigger` erases the update partition's flags for this reason, nothing erases the boot
  partition's. The intermediate state FINAL_FLAGS is 0xBF, two bits away from UPDATING (0x8F); on ordinary flash it is one bit (0x70 to
  0x30). If power fails between the bits, the update is neither in progress nor finished: the new image is started without
  being on trial and is never replaced by the old one.
- C87: `do_boot` on PowerPC flushes 32 KB from the start of the image (`L1_CACHE_SZ`), not the length of the image. The code
  past them may still be in the data cache, or an older line may be in the instruction cache; the bytes loaded last are the
  ones a cache holds. Hashing the image after loading it usually evicts these lines, but nothing guarantees it. ELF images
  are flushed segment by segment and are not affected. `flush_cache(0, 0)` never ends; `elf_load_image_mmu` skips empty segments.
- C88: the loops write whole words. `hal/ti_hercules.ld` does not align the end of the data section, so up to three bytes after
  it are overwritten (by the copy, before bss is cleared).
- C89: the number of entries in the header of the MultiProcessor table (`oem_entry_count`, offset 34) is 0. On the Kontron board
  the I/O APIC has identifier 2, as the second processor (`i * 2`), and interrupt 9 is wired twice, with different polarity
  and trigger. For QEMU the I/O APIC has identifier 0, as the boot processor usually has. Linux reads by length, not by count.
- C90: `set_tlb` does not check that a page is on a multiple of its size; the processor ignores the low bits, so another page
  is translated.

## Not modelled

Cryptographic primitives themselves, HAL drivers (except the ATA transfer and security
layers, the SPI and QSPI flash drivers and the flash writes and erases of C71–C74, without their
registers and timing; not renesas-ra.c and aurix_tc3xx.c), asynchronous ATA erase, interrupts
and caches, MMUs (except x86 page tables), the TPM bus protocol, wolfHSM, Renesas and NXP offload,
the code compilers put around the `WOLFBOOT_ARMORED` assembly and the IAR variants of its macros, FLAGS_INVERT apart from the flags (C86), FLAGS_HOME outside the swap update and C07 (C80–C81), MULTI_SECTOR_ERASE, the C
compiler and memory-mapped I/O. Every model file names the build options it covers in its
header.

## Trusted base

* Coq 8.16.1's kernel, and its `vm_compute` conversion (used by examples and refutations).
* `Print Assumptions` says "Closed under the global context" for every property theorem:
  no axiom is used. `coqchk -o` over the whole development lists as axioms only the seven
  constants of the standard library's `Coq.ssr.ssrunder.Under_rel` (an opaque module the
  standard library loads); no theorem depends on them.
* The reading of the C code into the model: the comment of each definition gives the lines
  it models and the simplifications made.

## Testing the theorems

`seeded/LOG.jsonl` records wrong programs, one edit of a model definition each.

- `first_failing_proofs`: in each file, the proof at which the build of the edited model stopped.
- `theorems_failed`: those theorems, and the theorems whose proofs mention a failing lemma directly or through other
  lemmas (found by name; uses through hints are missed).
- `n_not_reached`: other theorems that were not checked against this edit because they are later in a file that stopped, or
  in a file that imports one. Nothing is known about them. Earlier versions of the log listed them as failed.
- `theorems_tightened`: theorems strengthened or added because the edit was not noticed.
- `run_again`: some of the edits for which no theorem of the claimed property was in `theorems_failed` were run again, with
  each failing proof assumed in the scratch copy, so that the remaining proofs were tried as well.

A proof that fails shows that the edit was noticed. It does not show that the theorem is false of the edited program: a
proof script can also fail for another reason, as it does for several edits that are marked as equivalent. Falsity was judged from the edit when its claim was written down, and not
checked by machine.
