{
 "claims": [
  {
   "property": "C01",
   "status": "proved",
   "theorems": [
    "C01_lookup_safe"
   ],
   "note": "Every header content, size, type and address."
  },
  {
   "property": "C02",
   "status": "proved",
   "theorems": [
    "C02_reading_exists",
    "C02_lookup_first_field",
    "C02_huge_header_refuted"
   ],
   "note": "Equality with a declarative reading, for headers below 65544 bytes; beyond that the code's 16-bit truncation makes it false (refuted witness)."
  },
  {
   "property": "C03",
   "status": "proved",
   "theorems": [
    "C03_fields_round_trip",
    "C03_same_bytes_hashed",
    "C03_overflow_refuted"
   ],
   "note": "For every option set whose fields fit the header; the tool does not check that they fit (refuted witness)."
  },
  {
   "property": "C04",
   "status": "proved",
   "theorems": [
    "C04_version",
    "C04_diffbase",
    "C04_type",
    "C04_short_field_refuted"
   ],
   "note": "Exact when the field has its declared size (or is empty/absent); a shorter field at the end makes the read leave the header (refuted witness)."
  },
  {
   "property": "C05",
   "status": "proved",
   "theorems": [
    "C05_state_read_after_write"
   ],
   "note": "Any flash content whose trailer magic bytes are erased, complete or partly programmed."
  },
  {
   "property": "C06",
   "status": "proved",
   "theorems": [
    "C06_sector_flags",
    "C06_sector_flags_fresh",
    "C06_aliasing_refuted"
   ],
   "note": "Holds for sectors below 512; from sector 512 on the 8-bit index aliases (refuted witness)."
  },
  {
   "property": "C07",
   "status": "proved",
   "theorems": [
    "C07_trigger",
    "C07_success"
   ],
   "note": "Both page-erasing and exact-length-erasing drivers."
  },
  {
   "property": "C08",
   "status": "proved",
   "theorems": [
    "C08_integrity",
    "C08_same_header_collision",
    "C08_wrap_refuted"
   ],
   "note": "Integrity accepts exactly intact images; the unbounded claim is refuted by C08_wrap_refuted (32-bit position wrap)."
  },
  {
   "property": "C09",
   "status": "proved",
   "theorems": [
    "C09_authenticity",
    "C09_genuine_accepted",
    "C09_hybrid_without_integrity_refuted"
   ],
   "note": "Exact acceptance rule after an integrity check; without one, the hybrid build verifies the second signature against the wrong digest."
  },
  {
   "property": "C10",
   "status": "proved",
   "theorems": [
    "C10_key_lookup",
    "C10_mask_enforced"
   ],
   "note": ""
  },
  {
   "property": "C11",
   "status": "proved",
   "theorems": [
    "C11_open_bounds"
   ],
   "note": ""
  },
  {
   "property": "C12",
   "status": "proved",
   "theorems": [
    "C12_boots_verified",
    "C12_direct_boots_verified",
    "C12_boots_verified_delta",
    "C12_defined",
    "C12_direct_defined"
   ],
   "note": "Every flash content and every uninitialised value, so in particular after any power-failure history."
  },
  {
   "property": "C13",
   "status": "proved",
   "theorems": [
    "C13_rejected_update",
    "C21_rejected_update",
    "C25_rejected_update"
   ],
   "note": "Needs header size <= sector size or a size word within the partition (open_image clamps the size otherwise), and a stack value other than FINAL (see C20)."
  },
  {
   "property": "C14",
   "status": "proved",
   "theorems": [
    "C14_one_boot",
    "C14_direct_one_boot",
    "C14_never_below_confirmed",
    "C13_rejected_update",
    "C14_torn_confirm_refuted"
   ],
   "note": "One boot on arbitrary contents of the update partition (headers smaller than a sector, partitions of at least three sectors), and whole device histories with genuine or rejected candidates. A torn first confirmation breaks the history version (refuted)."
  },
  {
   "property": "C15",
   "status": "proved",
   "theorems": [
    "C15_update"
   ],
   "note": ""
  },
  {
   "property": "C16",
   "status": "proved",
   "theorems": [
    "C16_power_fail_safe",
    "C16_every_history"
   ],
   "note": "Any number of power cuts; every history of boots, cuts, confirmations, downloads and triggers follows the expected life cycle."
  },
  {
   "property": "C17",
   "status": "proved",
   "theorems": [
    "C17_fallback",
    "C17_confirmed",
    "C17_marker_refuted"
   ],
   "note": "A genuine image containing the trailer magic at one offset is put back on trial (refuted), hence the 'clean' hypothesis."
  },
  {
   "property": "C18",
   "status": "partial",
   "theorems": [
    "C18_overlap_refuted",
    "C18_accepted_size"
   ],
   "note": "The property is false of the code: an accepted update may overlap the trailer sector; the bound that does hold is proved."
  },
  {
   "property": "C19",
   "status": "partial",
   "theorems": [
    "C19_torn_trailer_erase_refuted"
   ],
   "note": "The property is false of the code: a witness tear makes every further boot panic."
  },
  {
   "property": "C20",
   "status": "partial",
   "theorems": [
    "C20_uninitialised_refuted",
    "C20_partial",
    "C20_first_use_partial"
   ],
   "note": "The property is false of the code; only whether the values equal FINAL matters."
  },
  {
   "property": "C22",
   "status": "proved",
   "theorems": [
    "C22_self_update",
    "C22_defined",
    "C22_only_verified_newer",
    "C22_overrun_refuted"
   ],
   "note": "Exact when the new bootloader fits its region; the code has no size check (refuted)."
  },
  {
   "property": "C23",
   "status": "proved",
   "theorems": [
    "C23_buffering",
    "C23_same_stream",
    "C23_cache",
    "C23_cache_stream"
   ],
   "note": "Buffers of at least six bytes (the code refuses smaller ones)."
  },
  {
   "property": "C24",
   "status": "proved",
   "theorems": [
    "C24_roundtrip",
    "C24_big_sector_refuted",
    "C24_long_repeat_refuted",
    "C24_far_offset_refuted",
    "C24_past_end_refuted",
    "C24_untouched_base_refuted"
   ],
   "note": "Round trip for sectors up to 64 KiB, images up to 0x7F0000 bytes without 64 KiB repetitions, applied in place; each limit is shown necessary by a counterexample."
  },
  {
   "property": "C21",
   "status": "proved",
   "theorems": [
    "C21_recoverable",
    "C21_update",
    "C21_trigger_marks",
    "C21_rejected_update",
    "C12_direct_boots_verified"
   ],
   "note": "For any tear whatsoever; the only other outcome is that the boot partition already held another verified image at least as new."
  },
  {
   "property": "C25",
   "status": "proved",
   "theorems": [
    "C25_install",
    "C25_fallback",
    "C25_confirmed",
    "C25_wrong_base",
    "C25_rejected_update",
    "C24_roundtrip"
   ],
   "note": "On the device: trigger, installation over the base image, trial, fallback through the inverse patch, confirmation; decoding buffers that divide the sector size, base version above 0."
  },
  {
   "property": "C26",
   "status": "proved",
   "theorems": [
    "C26_power_fail_safe",
    "C26_resume"
   ],
   "note": "Any number of power cuts at any point, including during the fallback."
  },
  {
   "property": "C27",
   "status": "proved",
   "theorems": [
    "C27_boots_verified",
    "C27_boots_candidate",
    "C27_newest",
    "C27_falls_back",
    "C27_panics",
    "C27_never_ends",
    "C27_terminates_refuted",
    "C27_keeps_good_image_refuted",
    "C27_high_version_refuted",
    "C27_load_bounds_refuted"
   ],
   "note": "Only verified images run, for any flash driver; selection and fallback for a driver that works and versions below 2^31. Limits shown by counterexamples: endless loop when both images fail, an image on trial is erased before the alternative is verified, versions from 2^31 on are refused, the size is unchecked while loading."
  },
  {
   "property": "C28",
   "status": "proved",
   "theorems": [
    "C28_start",
    "C28_terminates",
    "C28_boots_verified",
    "C28_boots_candidate",
    "C28_newest",
    "C28_falls_back",
    "C28_trial",
    "C28_keeps_good_image_refuted"
   ],
   "note": "Every behaviour of the loader; an unconfirmed image is discarded even if the other one turns out to be unusable (counterexample)."
  },
  {
   "property": "C32",
   "status": "proved",
   "theorems": [
    "C32_candidate",
    "C32_candidate_unique"
   ],
   "note": "The specification has exactly one answer for each flash content."
  },
  {
   "property": "C29",
   "status": "proved",
   "theorems": [
    "C29_atomic",
    "C29_reads",
    "C29_state",
    "C29_flag",
    "C29_flag_set",
    "C29_frame",
    "C29_bit_tears_refuted",
    "C29_trigger_clears_flags_refuted"
   ],
   "note": "NVM_FLASH_WRITEONCE, internal flash, NVM cache of one sector. For all histories of complete and interrupted operations (set state, set flag, trigger, reads) an interrupted operation leaves the old or the new trailer (or, if there was none, also the empty one). Flags are set in sector order and no byte of the trailer is 0xFF. Tears: programming is sequential, a torn erase is bytewise. Refuted: with erases torn inside a byte a third state can be read; the trigger does not clear old sector flags in these builds."
  },
  {
   "property": "C30",
   "status": "proved",
   "theorems": [
    "C30_counter",
    "C30_distinct",
    "C30_seek"
   ],
   "note": "For all nonces and 32-bit block numbers."
  },
  {
   "property": "C31",
   "status": "proved",
   "theorems": [
    "C31_write",
    "C31_chunks",
    "C31_read",
    "C31_round_trip",
    "C31_flags_plain",
    "C31_no_key",
    "C31_read_overrun",
    "C31_write_whole_blocks",
    "C31_write_short",
    "C31_short_read_refuted",
    "C31_partial_block_refuted",
    "C31_short_write_refuted",
    "C31_unaligned_write_refuted",
    "C31_write_unaligned",
    "C31_swap_raw"
   ],
   "note": "Update partition on external flash with NOR semantics, for every cipher whose stepping agrees with seeking (proved for AES-CTR and ChaCha). Requests outside the supported ones: reads that stay inside one block overrun the buffer, short writes over-read, trailing bytes are dropped, unaligned writes destroy the start of their block."
  },
  {
   "property": "C37",
   "status": "proved",
   "theorems": [
    "C37_tool",
    "C37_update_partition",
    "C37_ram"
   ],
   "note": "The block ciphers are oracles."
  },
  {
   "property": "C38",
   "status": "proved",
   "theorems": [
    "C38_set",
    "C38_erase",
    "C38_power_fail_refuted"
   ],
   "note": "Internal flash, builds without MMU, FLAGS_HOME and NVM_FLASH_WRITEONCE. The power-fail part is false (counterexample)."
  },
  {
   "property": "C33",
   "status": "proved",
   "theorems": [
    "C33_disjoint",
    "C33_size",
    "C33_malloc",
    "C33_reuse",
    "C33_stray_free",
    "C33_pools",
    "C33_ecc_c_refuted"
   ],
   "note": "All histories, frees of arbitrary pointers included, on pools whose table agrees with the buffers; shown for the tables of all builds except ECC with SP math in C, where it is false (counterexample: 3 points declared for a buffer of 2)."
  },
  {
   "property": "C34",
   "status": "proved",
   "theorems": [
    "C34_count",
    "C34_query",
    "C34_key_hash",
    "C34_provision",
    "C34_lock",
    "C34_odd_slot_refuted",
    "C34_odd_slot_provision_refuted",
    "C34_mixed_keys_refuted",
    "C34_key_hash_refuted",
    "C34_lock_refuted"
   ],
   "note": "For slots of even size every query on arbitrary OTP contents is defined and gives the provisioned slot or refuses; the primer stores exactly its keys on an erased area. Refuted cases: odd slot sizes (ED448) overrun the slot cache and lose keys, the image generator misplaces keys of mixed sizes, the key hash trusts the stored size, and locking can shift by 32."
  },
  {
   "property": "C35",
   "status": "proved",
   "theorems": [
    "C35_read",
    "C35_read_only",
    "C35_write_inside",
    "C35_write",
    "C35_open",
    "C35_open_parts",
    "C35_label",
    "C35_offset_refuted",
    "C35_one_sector_refuted",
    "C35_last_sector_refuted",
    "C35_high_write_refuted",
    "C35_entry_size_refuted",
    "C35_drive_refuted",
    "C35_label_refuted"
   ],
   "note": "Reads return exactly the partition's bytes and change nothing; writes stay inside the partition's sectors whatever the drive's failures, for offsets inside the partition and partitions of two sectors or more below 8 GiB; opening a disk reads exactly the partition table. Outside these limits it is false: counterexamples for offsets past the end, one-sector partitions, sectors past 8 GiB, long table entries, drive number 4 and names with a byte order mark."
  },
  {
   "property": "C39",
   "status": "partial",
   "theorems": [
    "C39_partial_sectors",
    "C39_whole_sectors",
    "C39_refuted",
    "C39_lost_write_refuted",
    "C39_failure_refuted",
    "C39_after_failed_read"
   ],
   "note": "True for histories without whole-sector writes and for histories of whole-sector accesses only; false when both are mixed (stale cache: counterexamples) and when the drive reports errors."
  },
  {
   "property": "C36",
   "status": "partial",
   "theorems": [
    "C36_boots_verified",
    "C36_decides",
    "C36_newest",
    "C36_falls_back",
    "C36_start_verified",
    "C36_start",
    "C36_signed_refuted",
    "C36_no_fallback_refuted",
    "C36_memory_refuted",
    "C36_too_long_refuted"
   ],
   "note": "Only a valid image is ever started, whatever the disk holds and however its commands end. On a working disk, with versions below 2^31 and images that fit partition and memory, the newest valid image is started and the other one is the fallback. Without these conditions it is false (counterexamples): signed versions, a size beyond memory panics without trying the other partition, a size beyond the partition never ends, and the memory check leaves out the header."
  },
  {
   "property": "C40",
   "status": "proved",
   "theorems": [
    "C40_sector_retries",
    "C40_interrupted",
    "C40_sector",
    "C40_image",
    "C40_update",
    "C40_direct"
   ],
   "note": "For builds with internal boot and external update and swap partitions, whose sectors consist of whole buffers of whole cipher blocks, and the part of the partition that is encrypted. Sector flags are the subject of C13-C19."
  },
  {
   "property": "C41",
   "status": "partial",
   "theorems": [
    "C41_restored",
    "C41_restore_refuted",
    "C41_keystream_refuted"
   ],
   "note": "False: the sector is saved in clear and decrypted when it is restored, so every image that reaches it is damaged (theorem: each of its bytes comes back combined with the keystream); its clear text stays in external flash; and the old image is encrypted with the keystream of the new one."
  },
  {
   "property": "C42",
   "status": "partial",
   "theorems": [
    "C42_memcpy",
    "C42_memmove",
    "C42_memset",
    "C42_memcmp",
    "C42_memchr",
    "C42_strlen",
    "C42_strncmp",
    "C42_strcpy",
    "C42_strcat",
    "C42_strncpy_partial",
    "C42_strncat_partial",
    "C42_strcmp_partial",
    "C42_writenum",
    "C42_strcmp_refuted",
    "C42_strcmp_signed_refuted",
    "C42_strcasecmp_refuted",
    "C42_strncasecmp_refuted",
    "C42_strncpy_refuted",
    "C42_strncat_refuted",
    "C42_memmove_refuted",
    "C42_writenum_refuted",
    "C42_unsigned_refuted"
   ],
   "note": "Proved for memcpy, memmove up to 2 GiB, memset, memcmp, memchr, strlen, strncmp, strcpy and strcat. False for strcmp and strcasecmp (a prefix compares equal), strncasecmp (one character too many), strncpy (no padding), strncat (count is the size of the destination), memmove above 2 GiB, decimal numbers of ten digits on 32-bit targets (buffer overrun) and unsigned numbers from 2^31 on; the theorems ending in _partial say what these functions do."
  },
  {
   "property": "C43",
   "status": "proved",
   "theorems": [
    "C43_history",
    "C43_read_back",
    "C43_overrun_refuted",
    "C43_reserved_refuted"
   ],
   "note": "For all histories on every geometry whose sectors hold whole objects, and clients that do not use the two reserved token ids nor open an object for writing twice. Counterexamples outside: with objects longer than a sector a write reads beyond the caller's buffer; an object with token id 0xFFFFFFFF is overwritten."
  },
  {
   "property": "C44",
   "status": "partial",
   "theorems": [
    "C44_power_failure",
    "C44_creation_again",
    "C44_torn_refuted",
    "C44_shared_refuted",
    "C44_ghost_refuted"
   ],
   "note": "Proved for power failure between flash operations with one object per sector; an interrupted creation can be repeated, any number of times, and then everything is as if there had been no failure. False (counterexamples) when the programming of the table sector is torn, when objects share a sector and another object is created before the repair, and data of an interrupted write can be taken for the header of an object that was never created."
  },
  {
   "property": "C45",
   "status": "partial",
   "theorems": [
    "C45_every_tree",
    "C45_search",
    "C45_property",
    "C45_compatible_refuted"
   ],
   "note": "Proved for all trees and blobs without NOP tags in which every \"compatible\" value ends in a zero byte. False otherwise: such a value makes fdt_node_offset_by_compatible run forever."
  },
  {
   "property": "C46",
   "status": "proved",
   "theorems": [
    "C46_setprop",
    "C46_fixup",
    "C46_add",
    "C46_delete",
    "C46_shrink",
    "C46_root_refuted"
   ],
   "note": "For all trees and blobs without NOP tags. Deleting the root is accepted and leaves a blob without a tree."
  },
  {
   "property": "C47",
   "status": "partial",
   "theorems": [
    "C47_in_bounds",
    "C47_ends",
    "C47_stall_refuted",
    "C47_name_refuted",
    "C47_length_refuted"
   ],
   "note": "Proved for walks over nodes. Counterexamples: a property length of 0xFFFFFFF4 is an endless loop; the name of a property is read at any offset; a length that wraps around is returned as negative, and fit_load_image copies that many bytes."
  },
  {
   "property": "C48",
   "status": "partial",
   "theorems": [
    "C48_default",
    "C48_types",
    "C48_load",
    "C48_missing",
    "C48_scope_refuted"
   ],
   "note": "Proved with names looked up in the whole tree. False of names below /images: a node of that name anywhere before it is loaded instead."
  },
  {
   "property": "C49",
   "status": "partial",
   "theorems": [
    "C49_load",
    "C49_started",
    "C49_raw",
    "C49_type_refuted",
    "C49_map_refuted",
    "C49_bounds_refuted",
    "C49_mapped_refuted",
    "C49_endian_refuted"
   ],
   "note": "Proved for well-formed executable files that do not overlap their load ranges. False otherwise: a failed mapping is ignored, segments outside the file or longer than their memory are copied all the same, 64-bit files in the other byte order load nothing with success, and a position-independent executable is started at its ELF header."
  },
  {
   "property": "C50",
   "status": "partial",
   "theorems": [
    "C50_scatter",
    "C50_boot",
    "C50_layouts_refuted",
    "C50_started_refuted",
    "C50_update_refuted"
   ],
   "note": "Proved for files whose program headers follow the file header, with loadable segments first and in order, zeros between them and at least an image header's length of data after them. Four ordinary layouts that differ always panic; one accepts segments that are not in place; a single-slot device without a valid image can no longer be updated."
  },
  {
   "property": "C51",
   "status": "partial",
   "theorems": [
    "C51_read",
    "C51_erase",
    "C51_erase_exact",
    "C51_write",
    "C51_write_exact",
    "C51_single",
    "C51_overrun_refuted",
    "C51_state_refuted",
    "C51_erase_refuted",
    "C51_empty_refuted",
    "C51_address_refuted"
   ],
   "note": "Reading, erasing from a sector boundary, single-byte mode and page-mode writes that end on a page boundary are exact. False otherwise: a page-mode write always runs to the end of its last page, reading past the data and programming what it finds there (writing a partition's state destroys its magic number); erasing from inside a sector can miss the last one; erasing nothing at address 0 never ends; addresses past the chip wrap around."
  },
  {
   "property": "C52",
   "status": "partial",
   "theorems": [
    "C52_read",
    "C52_erase",
    "C52_success",
    "C52_write_page",
    "C52_write_pages",
    "C52_overrun_refuted",
    "C52_unaligned_refuted",
    "C52_busy_refuted"
   ],
   "note": "Proved for a ready chip and data within one page or whole pages from a page boundary on. False otherwise: the last page of a longer write is sent in full from past the end of the data, data that cross a page boundary wrap around in the page, and on a busy chip the first page is skipped although the call succeeds."
  },
  {
   "property": "C53",
   "status": "partial",
   "theorems": [
    "C53_accepted",
    "C53_invalid",
    "C53_genuine",
    "C53_forged_refuted",
    "C53_overread_refuted"
   ],
   "note": "Exactly which payloads are accepted is proved, and that standard signatures are. False: with public exponent 3 a byte string accepted for a given digest under every key of its length exists for every digest (data after the digest are not rejected); signatures whose algorithm identifier ends at the payload's end make the decoder read up to two bytes past its buffer, exactly characterised."
  },
  {
   "property": "C54",
   "status": "partial",
   "theorems": [
    "C54_read",
    "C54_write",
    "C54_extended_refuted",
    "C54_address_refuted"
   ],
   "note": "Proved for the first 256 bytes of every function and both access mechanisms. False: on host bridges that take the high bits of the port address as register number, 16-bit accesses to functions other than number 0 reach another register; the function that returns a region's address reads it from the wrong register for all but the first."
  },
  {
   "property": "C55",
   "status": "proved",
   "theorems": [
    "C55_ends",
    "C55_regions",
    "C55_windows",
    "C55_buses",
    "C55_unchanged"
   ],
   "note": "For every conforming tree; the ranges must hold twice the size of each region plus two megabytes per bridge. Status bits that are cleared by writing ones are treated as wired."
  },
  {
   "property": "C56",
   "status": "partial",
   "theorems": [
    "C56_unfit_refuted",
    "C56_overlap_refuted",
    "C56_io_refuted",
    "C56_huge_refuted"
   ],
   "note": "False; C55 is the part that holds (regions that fit, memory windows). Witnesses: a region without room is left at all ones with the device enabled (the restore writes to the wrong offset); a region larger than the range is accepted and overlaps the other range; a 4 GB region ends at address 0; a bridge's I/O window goes to registers 0x30/0x32 instead of 0x1C."
  },
  {
   "property": "C57",
   "status": "proved",
   "theorems": [
    "C57_refines",
    "C57_memory",
    "C57_progress"
   ],
   "note": "For every interleaving and delay; bytes are not lost or changed on the line. Success of the version report, which returns nothing in C, counts as success of a call. Progress assumes that within the target's polls the server gets done with what it has received and a poll then sees what has arrived."
  },
  {
   "property": "C58",
   "status": "partial",
   "theorems": [
    "C58_timeout_refuted",
    "C58_reset_refuted",
    "C58_range_refuted",
    "C58_wrap_refuted"
   ],
   "note": "False; C57 is the part that holds (no timeout, no reset, ranges inside the memory). Witnesses: after a write that timed out or was cut off by a reset, the next write reports success and its command and data end up in the middle of the first; a write past the end whose data look like an erase command reports success and erases; a write at the top of the 32-bit address space makes the server write outside its file."
  },
  {
   "property": "C59",
   "status": "partial",
   "theorems": [
    "C59_identity",
    "C59_nothing_else",
    "C59_alias_refuted",
    "C59_large_refuted"
   ],
   "note": "Proved for every top address up to 4 GB, except that nothing else is mapped, which is proved below 4 GB and false for 4 GB: 2048 << 21 is 0 in 32 bits. Above 4 GB the call can succeed without mapping the memory."
  },
  {
   "property": "C60",
   "status": "partial",
   "theorems": [
    "C60_maps",
    "C60_zero",
    "C60_after_identity",
    "C60_mapped_refuted",
    "C60_offset_refuted",
    "C60_top_refuted"
   ],
   "note": "Proved for every set of tables without sharing and 1 GB pages (the tables of C59 are such), with pages that are already mapped keeping their target; false without that exception. The walk is the one of the Intel manual."
  },
  {
   "property": "C61",
   "status": "partial",
   "theorems": [
    "C61_visit",
    "C61_top",
    "C61_zero_refuted"
   ],
   "note": "Proved for every well-formed list (lengths include the header; an end marker is present); a block of length 0 makes both walks endless."
  },
  {
   "property": "C62",
   "status": "partial",
   "theorems": [
    "C62_find",
    "C62_info",
    "C62_no_request",
    "C62_bound_refuted",
    "C62_end_refuted",
    "C62_optional_refuted",
    "C62_ports_refuted"
   ],
   "note": "Exact contents and exact success condition proved for every header whose tags are well-formed at an 8-byte aligned address; the end tag required by the specification is never written."
  },
  {
   "property": "C63",
   "status": "partial",
   "theorems": [
    "C63_boot",
    "C63_page",
    "C63_table_refuted"
   ],
   "note": "Proved for images whose code size fits 32 bits and lists of at most 128 resources; false for more than 168 (no bound is checked). Copies are not checked for overlap with each other or the loader. The header length byte (0x201) is ignored: 123 bytes are copied."
  },
  {
   "property": "C64",
   "status": "partial",
   "theorems": [
    "C64_measure",
    "C64_identifies",
    "C64_started_partial",
    "C64_update_refuted",
    "C64_ignored_refuted",
    "C64_loader_refuted"
   ],
   "note": "The measurement is exact for every partition and block size whose sum fits 32 bits; it is the one of the started image in boots that install nothing, and never in boots that install an update. SHA-256 with memory-mapped flash; hashing is a parameter."
  },
  {
   "property": "C65",
   "status": "partial",
   "theorems": [
    "C65_unseal",
    "C65_policy",
    "C65_active",
    "C65_roundtrip",
    "C65_bound",
    "C65_active_refuted",
    "C65_selection_refuted",
    "C65_password_refuted",
    "C65_again_refuted",
    "C65_short_refuted"
   ],
   "note": "Selections of at most six of 24 PCRs. C65_bound quantifies over all command sequences of the modelled TPM, for an ideal hash and approvals over PCR 0 to 15. wolfTPM and the TPM are modelled from the TPM 2.0 specification."
  },
  {
   "property": "C66",
   "status": "partial",
   "theorems": [
    "C66_stored",
    "C66_kept",
    "C66_crash_refuted",
    "C66_stuck_refuted",
    "C66_replaced_refuted",
    "C66_size_refuted"
   ],
   "note": "Round trip and isolation for every earlier content; power failures and the simulator's error handling lose secrets."
  },
  {
   "property": "C67",
   "status": "proved",
   "theorems": [
    "C67_exact",
    "C67_only"
   ],
   "note": ""
  },
  {
   "property": "C68",
   "status": "proved",
   "theorems": [
    "C68_exact",
    "C68_protected",
    "C68_refused",
    "C68_emulator_refuted"
   ],
   "note": "Exact for all targets but the emulator, for which the refutation stands beside it. The drive is specified from ATA8-ACS; one AHCI port, waiting times not modelled."
  },
  {
   "property": "C69",
   "status": "partial",
   "theorems": [
    "C69_never_lost",
    "C69_locked",
    "C69_secret",
    "C69_secret_room",
    "C69_unsealing_fails",
    "C69_password_partial",
    "C69_password_refuted",
    "C69_length_refuted"
   ],
   "note": "Proved for secrets from the TPM. With a password compiled in it holds only if the byte behind the password happens to be 0."
  },
  {
   "property": "C70",
   "status": "partial",
   "theorems": [
    "C70_guarded",
    "C70_disable",
    "C70_master_refuted",
    "C70_waits_refuted"
   ],
   "note": "Nobody without a password opens the drive; the master password, which wolfBoot leaves alone, does."
  },
  {
   "property": "C71",
   "status": "proved",
   "theorems": [
    "C71_byte_writes",
    "C71_page_writes",
    "C71_block_writes",
    "C71_checked_writes",
    "C71_checked_writes_work"
   ],
   "note": "Flash as NOR cells; the controllers' registers and waiting are not modelled."
  },
  {
   "property": "C72",
   "status": "partial",
   "theorems": [
    "C72_word_writes_partial",
    "C72_word_writes_refuted",
    "C72_double_word_writes_partial",
    "C72_double_word_overread_refuted",
    "C72_double_word_odd_refuted",
    "C72_base_added_refuted",
    "C72_silent_refuted",
    "C72_unit_writes_partial",
    "C72_unit_writes_refuted",
    "C72_h5_writes_partial",
    "C72_h5_writes_refuted",
    "C72_kinetis_writes_partial",
    "C72_kinetis_rest_refuted",
    "C72_kinetis_cut_refuted",
    "C72_mcxw_writes_partial",
    "C72_mcxw_stack_refuted",
    "C72_hifive_writes_partial",
    "C72_hifive_writes_refuted",
    "C72_psoc_writes_partial",
    "C72_psoc_short_writes",
    "C72_psoc_rows_refuted",
    "C72_same51_writes_partial",
    "C72_same51_writes_refuted",
    "C72_hercules_writes_partial",
    "C72_hercules_writes_refuted",
    "C72_t2080_refuted"
   ],
   "note": "For each driver the requests that are stored (_partial) and what happens to the others (_refuted)."
  },
  {
   "property": "C73",
   "status": "partial",
   "theorems": [
    "C73_nrf5340",
    "C73_lpc",
    "C73_nrf52_partial",
    "C73_nrf52_refuted",
    "C73_nrf52_nothing_refuted",
    "C73_stm32_partial",
    "C73_stm32_nothing",
    "C73_stm32_refuted",
    "C73_counting_partial",
    "C73_kinetis_nothing_refuted",
    "C73_stuck_refuted",
    "C73_psoc_partial",
    "C73_psoc_rest_refuted",
    "C73_checked",
    "C73_sector_table",
    "C73_f7_table_refuted",
    "C73_h7_partial",
    "C73_h7_bank2_refuted"
   ],
   "note": "nRF5340, LPC, STM32F1 and F4 in full; the others under the stated condition, with the refutation beside it."
  },
  {
   "property": "C74",
   "status": "partial",
   "theorems": [
    "C74_h7_flags_partial",
    "C74_h7_power_refuted",
    "C74_h7_example_refuted"
   ],
   "note": "The flag written and its neighbours are right at the end; not across a power failure, and the rest of the sector is lost."
  },
  {
   "property": "C75",
   "status": "partial",
   "theorems": [
    "C75_good_image_passes",
    "C75_bad_image_needs_four",
    "C75_four_skips_refuted",
    "C75_canary_noticed",
    "C75_canary_needs_four_partial",
    "C75_canary_one_skip_refuted",
    "C75_panic_needs_five",
    "C75_panic_refuted"
   ],
   "note": "Bounds are exact for the flags and the panic loop; the canaries' one holds when no other register content equals the wrong value."
  },
  {
   "property": "C76",
   "status": "partial",
   "theorems": [
    "C76_good_signature_confirmed",
    "C76_bad_signature_needs_four",
    "C76_four_skips_refuted",
    "C76_right_digest_confirmed",
    "C76_wrong_digest_needs_seven",
    "C76_rsa_length",
    "C76_rsa_skipped_call_refuted"
   ],
   "note": "VERIFY_FN and RSA_VERIFY_HASH in full; RSA_VERIFY_FN without faults, and refuted for a skipped call."
  },
  {
   "property": "C77",
   "status": "partial",
   "theorems": [
    "C77_newer_version_passes",
    "C77_fallback_passes",
    "C77_old_version_needs_two",
    "C77_two_skips_refuted",
    "C77_large_version_refuted",
    "C77_permitted_key_passes",
    "C77_forbidden_key_stopped",
    "C77_forbidden_key_needs_two_partial",
    "C77_forbidden_key_one_skip_refuted"
   ],
   "note": "Versions below 2^31; key permissions when the stale r1 does not name a permitted partition."
  },
  {
   "property": "C78",
   "status": "partial",
   "theorems": [
    "C78_recovers",
    "C78_power_fail_safe",
    "C78_no_header_power_cut_refuted"
   ],
   "note": "Power failures: refuted when the header of the boot image is damaged. Not covered: a header with the right magic word whose size field exceeds the space in front of the partition trailer."
  },
  {
   "property": "C79",
   "status": "proved",
   "theorems": [
    "C79_not_undone",
    "C79_no_downgrade_refuted"
   ],
   "note": "Recovery in one uninterrupted boot, damage not in the first eight bytes. The refuted theorem is about a downgrade, which the property does not exclude."
  },
  {
   "property": "C80",
   "status": "proved",
   "theorems": [
    "C80_update",
    "C80_power_fail_safe",
    "C80_fallback"
   ],
   "note": ""
  },
  {
   "property": "C81",
   "status": "partial",
   "theorems": [
    "C81_trial_lost_refuted",
    "C81_update_lost_refuted",
    "C81_two_cuts_refuted"
   ],
   "note": "Refuted: both halves are false of the code."
  },
  {
   "property": "C82",
   "status": "partial",
   "theorems": [
    "C82_layout",
    "C82_overlap",
    "C82_hex",
    "C82_decimal",
    "C82_gap_refuted",
    "C82_text_refuted"
   ],
   "note": "Refuted for gaps of 2^31-1 bytes and more and for text that is not a number; proved otherwise."
  },
  {
   "property": "C83",
   "status": "partial",
   "theorems": [
    "C83_read",
    "C83_state",
    "C83_flag",
    "C83_state_power_failure",
    "C83_flag_power_failure",
    "C83_trigger",
    "C83_big_endian_refuted",
    "C83_big_endian_trigger_refuted"
   ],
   "note": "Proved for little-endian processors; refuted for every flash content on big-endian ones."
  },
  {
   "property": "C84",
   "status": "partial",
   "theorems": [
    "C84_exec",
    "C84_partition",
    "C84_access",
    "C84_off",
    "C84_large_refuted",
    "C84_neighbour_refuted",
    "C84_devices_refuted",
    "C84_unaligned_refuted"
   ],
   "note": "Proved for bootloaders of at most 64 KB linked at a multiple of their rounded size, up to that size; refuted for larger, unaligned and neighbouring code and for devices from 0xC0000000."
  },
  {
   "property": "C85",
   "status": "partial",
   "theorems": [
    "C85_printf",
    "C85_long_refuted",
    "C85_long_long_refuted",
    "C85_end_refuted",
    "C85_length_refuted"
   ],
   "note": "Proved for 32-bit arguments and the lengths 01 to 08; refuted for 64-bit arguments, other lengths and a format that ends in a percent sign."
  },
  {
   "property": "C86",
   "status": "partial",
   "theorems": [
    "C86_state",
    "C86_transitions",
    "C86_flag",
    "C86_state_power_failure",
    "C86_flag_power_failure",
    "C86_trigger",
    "C86_success",
    "C86_fill_refuted",
    "C86_final_refuted"
   ],
   "note": "Proved for trailers that are erased or partly programmed; refuted for trailers with the fill byte 0xFF and for the end of an update, which sets two bits. The whole update on such flash is not modelled."
  },
  {
   "property": "C87",
   "status": "partial",
   "theorems": [
    "C87_flush",
    "C87_boot",
    "C87_large_refuted",
    "C87_whole_refuted"
   ],
   "note": "Proved for the range flushed; refuted for the part of an image past its first 32 KB, and for ranges from the first line to the last, where the flush does not end."
  },
  {
   "property": "C88",
   "status": "proved",
   "theorems": [
    "C88_initialised",
    "C88_unaligned_refuted"
   ],
   "note": "For sections of whole words; C88_unaligned_refuted shows that this is needed."
  },
  {
   "property": "C89",
   "status": "partial",
   "theorems": [
    "C89_kontron",
    "C89_qemu",
    "C89_count_refuted",
    "C89_ids_refuted",
    "C89_twice_refuted"
   ],
   "note": "Proved except that the header counts no entries, identifiers of processors and I/O APIC coincide, and one interrupt of the Kontron board is described twice."
  },
  {
   "property": "C90",
   "status": "proved",
   "theorems": [
    "C90_mapping",
    "C90_disabled",
    "C90_unaligned_refuted"
   ],
   "note": "For pages on a multiple of their size, as the processor requires; C90_unaligned_refuted shows that set_tlb does not check it. The arguments of the callers are not modelled."
  }
 ]
}