{"id": "C01", "title": "Header field lookup is memory-safe and terminates", "statement": "Looking up any field type in any image header terminates, reads only bytes inside the header buffer, and when it reports a field the whole reported value lies inside the header.", "quantifier": "every header content (all byte strings of the header size), every header size, every field type", "why_tests_cant": "The header comes from untrusted flash; the parser advances by attacker-chosen lengths, and only a proof covers every length/padding combination.", "anchors": ["src/libwolfboot.c:wolfBoot_find_header"]}
{"id": "C02", "title": "Header field lookup returns exactly the first well-formed field of that type", "statement": "The lookup returns (length,value) iff, reading the header as padding bytes, type/length/value records and an end marker, the first record of the requested type has that length and value; otherwise it reports absence.", "quantifier": "every header content and field type", "why_tests_cant": "Equality with a declarative grammar for all byte strings is an infinite claim.", "anchors": ["src/libwolfboot.c:wolfBoot_find_header"]}
{"id": "C03", "title": "Images written by the signing tool are read back identically by the bootloader", "statement": "For every header the signing tool lays out (version, optional timestamp, image type, delta fields, custom fields, key hint, digest, signatures, with its alignment padding), the bootloader's lookup returns each field's exact value, and the digest the bootloader recomputes covers exactly the bytes the tool hashed.", "quantifier": "every field value, every combination of optional fields, every custom-field list whose tags do not collide, every header size they fit in", "why_tests_cant": "The two sides are separate programs; agreement must hold for all layouts, alignments and values.", "anchors": ["tools/keytools/sign.c:make_header_ex", "tools/keytools/sign.c:header_append_tag", "src/libwolfboot.c:wolfBoot_find_header", "src/image.c:header_sha256"]}
{"id": "C04", "title": "Version and type read-out", "statement": "The reported firmware version/type is the little-endian value of the first version/type field when the magic is present and such a non-empty field exists, and 0 otherwise; no read leaves the header when the field has its declared size.", "quantifier": "every header content", "why_tests_cant": "Version comparison drives anti-rollback; wrong decoding on some byte pattern would be a silent downgrade.", "anchors": ["src/libwolfboot.c:wolfBoot_get_blob_version", "src/libwolfboot.c:wolfBoot_get_blob_type", "src/libwolfboot.c:wolfBoot_get_blob_diffbase_version"]}
{"id": "C05", "title": "Partition state read-after-write", "statement": "After setting a partition's state, reading that state returns the value set whenever the value only clears bits of the stored one (every transition wolfBoot performs), and nothing else in flash changes except the state byte and the trailer magic.", "quantifier": "every flash content, both partitions, every state value", "why_tests_cant": "Flash can only clear bits without erase; correctness depends on all prior contents.", "anchors": ["src/libwolfboot.c:wolfBoot_set_partition_state", "src/libwolfboot.c:wolfBoot_get_partition_state"]}
{"id": "C06", "title": "Sector flag read-after-write and independence", "statement": "Setting the update flag of one sector makes that flag read back, and leaves every other sector's flag, both partition states and all image data unchanged, for every pair of distinct sectors of the partition.", "quantifier": "every flash content, every sector pair, every legal flag transition", "why_tests_cant": "Two flags share one byte and the index is narrowed to 8 bits; only quantifying over all sectors shows where independence holds (below 512 sectors) and where it fails.", "anchors": ["src/libwolfboot.c:wolfBoot_set_update_sector_flag", "src/libwolfboot.c:wolfBoot_get_update_sector_flag"]}
{"id": "C07", "title": "Triggering an update and confirming an image have exactly their documented effect", "statement": "After the application triggers an update, the update partition reads UPDATING and every sector flag reads NEW; after it confirms, the boot partition reads SUCCESS; neither call modifies any image byte or the other partition's state.", "quantifier": "every prior flash content reachable in the life cycle", "why_tests_cant": "Depends on what every possible previous update left in the trailer.", "anchors": ["src/libwolfboot.c:wolfBoot_update_trigger", "src/libwolfboot.c:wolfBoot_success"]}
{"id": "C08", "title": "Integrity check covers every signed byte", "statement": "The integrity check accepts an image iff the digest field of the right size equals the hash of exactly the header bytes before that field followed by exactly the declared number of firmware bytes, whatever block size is used to feed the hash.", "quantifier": "every image, every firmware size and block size, every hash function", "why_tests_cant": "Off-by-one at block boundaries and the header cut point depend on the size of each image.", "anchors": ["src/image.c:wolfBoot_verify_integrity", "src/image.c:header_sha256", "src/image.c:image_sha256", "src/image.c:get_sha_block"]}
{"id": "C09", "title": "Authenticity decision rule", "statement": "The authenticity check accepts iff the key hint names a key in the keystore, the image type carries the configured authentication method, the key is permitted for the image's partition id, and the signature over the image digest verifies with that key (in hybrid mode: and the second signature with a permitted second key as well).", "quantifier": "every image, every keystore content, every signature primitive", "why_tests_cant": "All header/keystore combinations including short, absent and duplicated fields.", "anchors": ["src/image.c:wolfBoot_verify_authenticity", "src/image.c:keyslot_id_by_sha"]}
{"id": "C10", "title": "Key lookup by hint", "statement": "The key lookup returns the lowest keystore slot whose public-key hash equals the hint, and fails iff no slot matches.", "quantifier": "every keystore and hint", "why_tests_cant": "Quantifies over all keystore contents.", "anchors": ["src/image.c:keyslot_id_by_sha", "src/image.c:key_sha256"]}
{"id": "C11", "title": "Opening an image never yields a size beyond the partition", "statement": "Opening a partition succeeds iff it starts with the image magic and the declared size plus header fits the partition; whatever the flash content, the size recorded never exceeds the partition minus the header.", "quantifier": "every flash content", "why_tests_cant": "Size is attacker-controlled 32-bit data.", "anchors": ["src/image.c:wolfBoot_open_image", "src/image.c:wolfBoot_open_image_address"]}
{"id": "C12", "title": "Never boots an unverified image", "statement": "Whatever the flash contains (including half-written updates and corrupted trailers) and wherever earlier power failures occurred, when the boot routine hands control to firmware, the firmware in the boot partition at that moment passes the integrity and authenticity checks.", "quantifier": "every flash content, every undefined local value, every power-failure history", "why_tests_cant": "The routine may rewrite flash before booting; every path and every content must be covered.", "anchors": ["src/update_flash.c:wolfBoot_start"]}
{"id": "C13", "title": "A rejected update leaves the boot image untouched", "statement": "If no update is in progress and the candidate in the update partition fails verification, has the wrong type, or is not newer while no fallback is due, then a boot leaves every byte of the boot image partition unchanged and boots the current image.", "quantifier": "every update partition content (attacker supplied), every current image", "why_tests_cant": "Attacker-chosen update contents are unbounded.", "anchors": ["src/update_flash.c:wolfBoot_update", "src/update_flash.c:wolfBoot_start"]}
{"id": "C14", "title": "Anti-rollback", "statement": "With a confirmed (not TESTING) verified image installed and no update in progress, a completed boot never ends up running a version lower than the installed one; it runs either the installed image or one with a strictly greater version.", "quantifier": "every update partition content, every pair of versions", "why_tests_cant": "Every version pair and malformed header.", "anchors": ["src/update_flash.c:wolfBoot_update", "src/update_flash.c:wolfBoot_start"]}
{"id": "C15", "title": "Uninterrupted update swaps the two images", "statement": "With a valid newer image in the update partition and an update triggered, one boot without power failure boots the new image: afterwards the boot partition holds exactly the new image, the update partition holds exactly the old one, the new image is in TESTING state and the update trailer is clear.", "quantifier": "every pair of images (contents and sizes) that fit below the trailer sector, every sector size, partition size and flash buffer size", "why_tests_cant": "All size combinations, including old image longer than new and vice versa, and partial last sectors.", "anchors": ["src/update_flash.c:wolfBoot_update", "src/update_flash.c:wolfBoot_copy_sector", "src/update_flash.c:wolfBoot_swap_and_final_erase"]}
{"id": "C16", "title": "Update is power-fail safe at every point, any number of times", "statement": "Starting from a triggered update with valid old and new images, let power fail any number of times, each time at any flash operation and even in the middle of it (leaving the bytes being erased or programmed corrupted); when a boot finally completes, it boots one of the two images, complete and verified, and the other image is still intact in the update partition.", "quantifier": "every crash point inside every boot, every sequence of crashes, every torn erase/program outcome (that does not forge the trailer magic and does not tear the update-trailer erase), every pair of images", "why_tests_cant": "Crash points times torn contents times repeated crashes is an infinite space; power-fail tests sample one page.", "anchors": ["src/update_flash.c:wolfBoot_update", "src/update_flash.c:wolfBoot_swap_and_final_erase", "src/update_flash.c:wolfBoot_start"]}
{"id": "C17", "title": "Automatic fallback when a new image is not confirmed", "statement": "If the new image reboots without confirming, the next boot reinstalls the previous image and boots it; once confirmed, later boots (with no new trigger) keep booting the confirmed image and change no image byte.", "quantifier": "every pair of images, every number of boots, every crash point", "why_tests_cant": "Histories of boots, confirmations and power failures are unbounded.", "anchors": ["src/update_flash.c:wolfBoot_start", "src/libwolfboot.c:wolfBoot_success"]}
{"id": "C18", "title": "Accepted updates cannot overlap the trailer", "statement": "Every update accepted for installation fits below the sector that holds the update flags.", "quantifier": "every update size, header size, sector size and partition size", "why_tests_cant": "Boundary sizes only; the accepted bound omits the header size so the claim is false for some sizes.", "anchors": ["src/update_flash.c:wolfBoot_update", "src/update_flash.c:MAX_UPDATE_SIZE"]}
{"id": "C19", "title": "A power failure while clearing the update trailer cannot brick the device", "statement": "If power fails during the final erase of the update trailer, leaving some of its bytes erased and others not, the device still boots one of the two valid images.", "quantifier": "every partial outcome of that one erase", "why_tests_cant": "Needs a specific byte-level partial erase followed by a fallback; no test produces it.", "anchors": ["src/update_flash.c:wolfBoot_swap_and_final_erase"]}
{"id": "C20", "title": "Boot behaviour does not depend on uninitialised data", "statement": "For a given flash content the boot routine performs the same flash operations and boots the same image whatever was on the stack beforehand.", "quantifier": "every flash content and every initial value of uninitialised locals", "why_tests_cant": "Stack garbage cannot be enumerated by tests.", "anchors": ["src/update_flash.c:wolfBoot_swap_and_final_erase"]}
{"id": "C21", "title": "Single-slot update (no backup) is recoverable", "statement": "In the no-backup build, an update interrupted any number of times at any point, eventually completes on a later uninterrupted boot with the new image installed and verified.", "quantifier": "every crash point, number of crashes, pair of images", "why_tests_cant": "As C16; the recovery relies on the emergency path.", "anchors": ["src/update_flash.c:wolfBoot_update (DISABLE_BACKUP)", "src/update_flash.c:wolfBoot_start"]}
{"id": "C22", "title": "Bootloader self-update only installs verified newer bootloaders", "statement": "The bootloader region is written only when the update partition holds an image of bootloader type that passes integrity and authenticity and whose version is greater than the running one; after the write the region holds exactly that image's payload.", "quantifier": "every update partition content", "why_tests_cant": "Quantifies over attacker-supplied images.", "anchors": ["src/update_flash.c:wolfBoot_check_self_update", "src/update_flash.c:wolfBoot_self_update"]}
{"id": "C23", "title": "Patch output is independent of how it is consumed", "statement": "Applying a patch through any sequence of output buffer sizes produces the same byte stream as applying it in one go.", "quantifier": "every patch, base image and sequence of positive buffer sizes", "why_tests_cant": "The decoder keeps resumable state across arbitrary cut points (mid-copy, mid-escape).", "anchors": ["src/delta.c:wb_patch", "src/delta.c:wb_patch_init"]}
{"id": "C24", "title": "Delta round-trip", "statement": "A patch produced by the diff tool from base A to target B, applied to A, reproduces B byte for byte.", "quantifier": "every pair of images, every sector size", "why_tests_cant": "Match lengths, escapes and sector boundaries depend on contents; some inputs (very long matches) break 16-bit lengths.", "anchors": ["src/delta.c:wb_diff", "src/delta.c:wb_patch"]}
{"id": "C25", "title": "In-place delta installation", "statement": "Applying the patch in place, sector by sector over the base image itself, yields the target although earlier sectors of the base have already been overwritten.", "quantifier": "every pair of images and sector sizes", "why_tests_cant": "Correctness relies on each copy referring only to not-yet-overwritten base data or already-written target data.", "anchors": ["src/delta.c:wb_diff", "src/delta.c:wb_patch", "src/update_flash.c:wolfBoot_delta_update"]}
{"id": "C26", "title": "Delta installation resumes after power failure", "statement": "An interrupted in-place delta installation, resumed any number of times, ends with the same boot image as an uninterrupted one.", "quantifier": "every crash point and number of crashes", "why_tests_cant": "The decoder state is rebuilt by re-reading partially overwritten flash.", "anchors": ["src/update_flash.c:wolfBoot_delta_update"]}
{"id": "C27", "title": "RAM boot selects and boots only verified images", "statement": "The RAM-boot loader starts only an image that passed verification after being loaded; it prefers the partition with the higher version and falls back to the other one when verification fails.", "quantifier": "every content of both partitions", "why_tests_cant": "All version/validity combinations and contents; includes a livelock when both fail.", "anchors": ["src/update_ram.c:wolfBoot_start", "src/libwolfboot.c:wolfBoot_dualboot_candidate"]}
{"id": "C28", "title": "Hardware-swap boot selects and boots only verified images, and always terminates", "statement": "The hardware-swap loader boots only a verified image, prefers the higher version, erases an image that failed, and always ends in a boot or a panic.", "quantifier": "every content of both banks", "why_tests_cant": "Termination over all contents.", "anchors": ["src/update_flash_hwswap.c:wolfBoot_start"]}
{"id": "C29", "title": "Write-once flag storage is power-fail atomic", "statement": "On flash that forbids reprogramming, where bytes are programmed in order and an interrupted erase leaves every byte either old or blank, a state or flag update interrupted at any point (also repeatedly, in any history of such operations) leaves the trailer reading either entirely the old flags or entirely the new ones; a completed one reads back as written, and nothing but the two trailer sectors changes. Stated limits: with erases torn within a byte it fails; triggering an update keeps old sector flags.", "quantifier": "every trailer content made of non-blank bytes, every history of complete and interrupted operations, crash point and torn operation", "why_tests_cant": "Two redundant sectors with a content-based selection rule.", "anchors": ["src/libwolfboot.c:nvm_select_fresh_sector", "src/libwolfboot.c:trailer_write"]}
{"id": "C30", "title": "Stream cipher positioning", "statement": "Setting the cipher position to block n from a stored 16-byte nonce yields the nonce plus n as a 128-bit big-endian counter, for every nonce and n including carries through all words.", "quantifier": "every nonce and block index", "why_tests_cant": "Carry chains happen for 2^-32 of random inputs.", "anchors": ["src/libwolfboot.c:aes_set_iv"]}
{"id": "C31", "title": "Encrypted external flash round-trip", "statement": "Data written through the encrypting flash interface at a block-aligned address is returned unchanged by the decrypting read of any sub-range, and other flash bytes are not disturbed; for unaligned requests the exact failing cases are characterised.", "quantifier": "every address, length, key and content", "why_tests_cant": "Alignment and length combinations; several violate memory safety.", "anchors": ["src/libwolfboot.c:ext_flash_encrypt_write", "src/libwolfboot.c:ext_flash_decrypt_read"]}
{"id": "C32", "title": "Partition selection by version (dual boot)", "statement": "The dual-boot candidate is the partition with the greater non-zero version (boot on ties), none if both are zero, and a candidate still in TESTING is discarded in favour of the other when one exists.", "quantifier": "every content of both partitions", "why_tests_cant": "All version/state combinations.", "anchors": ["src/libwolfboot.c:wolfBoot_dualboot_candidate"]}
{"id": "C33", "title": "Crypto heap never hands out the same block twice", "statement": "Under any sequence of allocations and frees, no two live allocations share a block, each returned block has exactly the requested size, and a freed block can be allocated again.", "quantifier": "every sequence of allocate/free calls", "why_tests_cant": "Unbounded histories.", "anchors": ["src/xmalloc.c:XMALLOC", "src/xmalloc.c:XFREE"]}
{"id": "C34", "title": "OTP keystore access stays in bounds", "statement": "Queries on the OTP keystore never touch memory outside the OTP area whatever the OTP header and slot contents, and return exactly the provisioned key for valid slots.", "quantifier": "every OTP content and slot number", "why_tests_cant": "Corrupted OTP contents are attacker/fault controlled.", "anchors": ["src/flash_otp_keystore.c"]}
{"id": "C35", "title": "Disk partition accesses stay inside the partition", "statement": "A read or write through the disk API on an opened partition touches only sectors of that partition, whatever offset and size are requested.", "quantifier": "every offset, size and partition table", "why_tests_cant": "64-bit arithmetic wrap-around.", "anchors": ["src/x86/gpt.c:disk_read", "src/x86/gpt.c:disk_write", "src/x86/gpt.c:disk_open"]}
{"id": "C36", "title": "Disk boot picks the newest valid image", "statement": "The disk loader boots only a verified image, prefers the higher version and falls back to the other partition otherwise.", "quantifier": "every partition content", "why_tests_cant": "Versions are compared as signed integers; sizes are attacker-controlled.", "anchors": ["src/update_disk.c:wolfBoot_start"]}
{"id": "C37", "title": "Encrypted images decrypt to the signed image", "statement": "An image encrypted by the signing tool is decrypted by the bootloader, in the update partition (any supported read) and in RAM (whole image), to exactly the bytes that were signed, for every image, key stream and nonce; RAM decryption writes less than one block past the image.", "quantifier": "every image, nonce, block cipher and read range", "why_tests_cant": "The tool counts through the file, the bootloader seeks per read; agreement depends on every counter value and range.", "anchors": ["tools/keytools/sign.c", "src/libwolfboot.c:ext_flash_decrypt_read", "src/libwolfboot.c:wolfBoot_ram_decrypt", "src/libwolfboot.c:decrypt_header"]}
{"id": "C38", "title": "Encryption key storage", "statement": "Setting the encryption key stores exactly the given key and nonce and changes nothing else but the trailer magic; erasing it leaves none of it and a key that the loader refuses. A power failure while the key is set should leave the old or the new key and the rest of the sector intact (it does not).", "quantifier": "every flash content, key and crash point", "why_tests_cant": "Needs every flash content and every crash point.", "anchors": ["src/libwolfboot.c:hal_set_key", "src/libwolfboot.c:wolfBoot_set_encrypt_key", "src/libwolfboot.c:wolfBoot_get_encrypt_key", "src/libwolfboot.c:wolfBoot_erase_encrypt_key"]}
{"id": "C39", "title": "A disk behaves as an array of bytes", "statement": "Over any history of reads and writes through the disk API on opened partitions, each read returns the bytes last written to the place it names (or the initial contents), and the disk ends up holding exactly the writes.", "quantifier": "every history of reads and writes, every offset and size, every initial content", "why_tests_cant": "A one-sector cache sits between partial and whole-sector transfers: only an interleaving argument over all histories shows when it is transparent (it is not when a whole-sector write hits the cached sector).", "anchors": ["src/x86/gpt.c:disk_read", "src/x86/gpt.c:disk_write", "src/x86/ata.c:ata_drive_read", "src/x86/ata.c:ata_drive_write"]}
{"id": "C40", "title": "Encrypted update: the swap keeps both images", "statement": "With an encrypted update partition in external flash, swapping leaves the new image in clear in the boot partition and the old image, encrypted and readable through the library, in the update partition; nothing else changes, and each step may be interrupted and repeated any number of times.", "quantifier": "every pair of images, cipher, geometry, flash content, and every content a power failure may leave in the sector being written", "why_tests_cant": "Three keystream positions must agree in every sector and every buffer, from any torn content of the destination.", "anchors": ["src/update_flash.c:wolfBoot_copy_sector", "src/update_flash.c:wolfBoot_update", "src/libwolfboot.c:ext_flash_encrypt_write", "src/libwolfboot.c:ext_flash_decrypt_read"]}
{"id": "C41", "title": "Encrypted update: finishing an update keeps the image and its secrecy", "statement": "When an encrypted update is finished, the boot sector that is saved in the swap partition while the flags are erased comes back unchanged; firmware never appears in clear on external flash, and no keystream encrypts two different images (none of the three holds).", "quantifier": "every image, cipher, geometry and flash content", "why_tests_cant": "Only images that reach the last but one sector of the partition are affected, and secrecy is not an output a test can check.", "anchors": ["src/update_flash.c:wolfBoot_swap_and_final_erase", "src/update_flash.c:wolfBoot_copy_sector", "src/libwolfboot.c:ext_flash_encrypt_write"]}
{"id": "C42", "title": "C library functions", "statement": "The memory, string and number printing functions that wolfBoot brings along do what ISO C says on every valid argument and access no memory outside their arguments (several do not).", "quantifier": "every memory content, address, length, string and number; overlapping ranges for memmove; word and byte copies", "why_tests_cant": "All lengths, alignments and overlaps; unit tests use the host's C library instead of these functions.", "anchors": ["src/string.c:memcpy", "src/string.c:memmove", "src/string.c:memset", "src/string.c:memcmp", "src/string.c:memchr", "src/string.c:strlen", "src/string.c:strcmp", "src/string.c:strncmp", "src/string.c:strcasecmp", "src/string.c:strncasecmp", "src/string.c:strcpy", "src/string.c:strncpy", "src/string.c:strcat", "src/string.c:strncat", "src/string.c:uart_writenum"]}
{"id": "C43", "title": "Key vault behaves as named byte strings", "statement": "A client of the key vault that opens, reads, writes and closes objects sees, over any sequence of calls and reboots, named byte strings: what was written under a name is what is read back under it, up to the object size; objects do not affect each other; the only errors are those for a missing object, a full vault and too many handles; and no memory outside the caller's buffers is accessed.", "quantifier": "every sequence of calls and reboots, every object name, data and length, every vault geometry with whole objects in a sector", "why_tests_cant": "The vault's answer depends on the whole history of creations and rewrites and on the geometry.", "anchors": ["src/pkcs11_store.c:wolfPKCS11_Store_Open", "src/pkcs11_store.c:wolfPKCS11_Store_Read", "src/pkcs11_store.c:wolfPKCS11_Store_Write", "src/pkcs11_store.c:wolfPKCS11_Store_Close", "src/pkcs11_store.c:create_object", "src/pkcs11_store.c:find_object_buffer"]}
{"id": "C44", "title": "Key vault survives power failure", "statement": "If power fails at any point of a call on one object, every other object is read back unchanged after the next boot, and no object exists that was not created. An interrupted creation can be repeated after the next boot, and loses no room in the vault.", "quantifier": "every history, call, object and point of failure", "why_tests_cant": "There are too many failure points and histories, and the damage appears only after later calls.", "anchors": ["src/pkcs11_store.c:cache_commit", "src/pkcs11_store.c:restore_backup", "src/pkcs11_store.c:check_vault", "src/pkcs11_store.c:find_object_buffer"]}
{"id": "C45", "title": "Device tree lookups", "statement": "On every blob that holds a device tree, the searches by name, by string property and by compatible device return the first matching node after the starting point in document order, or \"not found\"; reading a property returns its value's exact place and length; the search ends.", "quantifier": "every device tree, every layout of its blob (padding, order of strings, free space), starting node, name and value", "why_tests_cant": "All trees and all encodings of them.", "anchors": ["src/fdt.c:fdt_find_node_offset", "src/fdt.c:fdt_find_prop_offset", "src/fdt.c:fdt_node_offset_by_compatible", "src/fdt.c:fdt_getprop", "src/fdt.c:fdt_getprop_address", "src/fdt.c:fdt_get_name", "src/fdt.c:fdt_next_node"]}
{"id": "C46", "title": "Device tree changes", "statement": "Setting a property, adding a child, deleting a child and shrinking change the device tree in exactly that way: afterwards the blob holds the changed tree. They fail only when the space between used and total size is too small (or the child exists), leave the tree unchanged then, and never write beyond the total size.", "quantifier": "every device tree and blob of it, node, property name and value, any available space", "why_tests_cant": "The change moves everything behind it; all trees, positions and sizes.", "anchors": ["src/fdt.c:fdt_setprop", "src/fdt.c:fdt_add_subnode", "src/fdt.c:fdt_del_node", "src/fdt.c:fdt_shrink", "src/fdt.c:fdt_fixup_val", "src/fdt.c:fdt_fixup_val64", "src/fdt.c:fdt_splice_struct_", "src/fdt.c:fdt_find_add_string_"]}
{"id": "C47", "title": "Malformed device trees are harmless", "statement": "Whatever bytes a blob holds, if its total size does not exceed the buffer, lookups read nothing outside the buffer and end (true of walks over nodes as long as no property claims 0xFFFFFFF4 bytes, false of lookups of properties).", "quantifier": "every byte string, every starting offset and name", "why_tests_cant": "All byte strings.", "anchors": ["src/fdt.c:fdt_next_tag", "src/fdt.c:fdt_offset_ptr", "src/fdt.c:fdt_find_node_offset", "src/fdt.c:fdt_get_name", "src/fdt.c:fdt_get_string", "src/fdt.c:fit_load_image"]}
{"id": "C48", "title": "FIT images", "statement": "From a FIT image the kernel and device tree of the default configuration are chosen (without configurations, the first images of those types), and loading an image copies exactly its data to its load address and returns its entry point.", "quantifier": "every FIT image, image name and address", "why_tests_cant": "All trees and contents.", "anchors": ["src/fdt.c:fit_find_images", "src/fdt.c:fit_load_image", "src/update_ram.c:wolfBoot_start"]}
{"id": "C49", "title": "ELF files are loaded as the standard says", "statement": "elf_load_image_mmu places every loadable segment of an executable file at its virtual address, followed by zeros up to its memory size, changes nothing else, asks for exactly those ranges to be mapped and returns the file's entry point; what is not an ELF file is started as a raw binary. (False if a mapping fails, if a segment lies outside the file or has more contents than memory, and for 64-bit files in the other byte order.)", "quantifier": "every file of either class and byte order, every address, memory contents and mapping callback", "why_tests_cant": "All files, layouts and memories.", "anchors": ["src/elf.c:elf_load_image_mmu", "include/elf.h", "src/update_ram.c:wolfBoot_start", "src/boot_x86_fsp_payload.c:do_boot"]}
{"id": "C50", "title": "Scattered ELF images", "statement": "With WOLFBOOT_ELF_SCATTERED, whatever is at the run addresses of a verified image, the application is started at its entry point with every loadable segment in place, nothing else in flash is changed, and a power failure while segments are copied is repaired at the next boot. (True of one layout of ELF files only, and single-slot updates need a valid old image.)", "quantifier": "every flash content, image, and moment of power failure", "why_tests_cant": "All images, flash contents and crash points.", "anchors": ["src/elf.c:elf_store_image_scattered", "src/elf.c:elf_open", "src/elf.c:elf_hdr_size", "src/image.c:elf_check_image_scattered", "src/update_flash.c:wolfBoot_start", "src/update_flash.c:wolfBoot_update"]}
{"id": "C51", "title": "SPI flash driver", "statement": "Through the SPI flash driver, reading returns the chip's bytes, erasing a range erases its sectors and no others, and writing programs exactly the given bytes at the given address (bits are only cleared) and reports success, or an error when a byte could not be stored. (True in single-byte mode; in page mode only for writes that end on a page boundary.)", "quantifier": "every chip content, address, length, data, busy times of the chip, page and sector size", "why_tests_cant": "All alignments, lengths and busy times; what is read past the buffer depends on the neighbouring memory.", "anchors": ["src/spi_flash.c:spi_flash_write", "src/spi_flash.c:spi_flash_read", "src/spi_flash.c:spi_flash_sector_erase", "include/hal.h:ext_flash_erase"]}
{"id": "C52", "title": "QSPI flash driver", "statement": "Through the QSPI flash driver, reading returns the chip's bytes, erasing a range erases its sectors and no others, and a write that reports success has programmed exactly the given bytes at the given address. (True of a ready chip for data within one page, or whole pages from a page boundary on.)", "quantifier": "every chip content, address, length, data, busy times of the chip, page and sector size", "why_tests_cant": "All alignments, lengths and busy times.", "anchors": ["src/qspi_flash.c:spi_flash_write", "src/qspi_flash.c:spi_flash_read", "src/qspi_flash.c:spi_flash_sector_erase", "src/qspi_flash.c:qspi_write_enable", "include/hal.h:ext_flash_erase"]}
{"id": "C53", "title": "RSA image signatures", "statement": "An RSA signature over an image is confirmed only for the digest it carries, every signature made as PKCS#1 v1.5 says (over the plain or the encoded digest) is confirmed, a confirmed signature was made with the private key, and checking any signature reads only its own buffers. (The last two are false: the encoding is not checked to the end, so with public exponent 3 a signature of any digest is computed without a key; and some signatures make the decoder read past the buffer.)", "quantifier": "every signature, digest, algorithm identifier, modulus and exponent", "why_tests_cant": "All signatures and keys; a forged signature exists for each digest and is one in an astronomical number of byte strings.", "anchors": ["src/image.c:RsaDecodeSignature", "src/image.c:wolfBoot_verify_signature_rsa", "src/image.c:DecodeAsn1Tag", "tools/keytools/sign.c:sign_digest"]}
{"id": "C54", "title": "PCI configuration access", "statement": "Reading 1, 2 or 4 aligned bytes of a PCI function's configuration space returns these bytes, and writing them changes exactly these bytes, whichever access mechanism is used; the address reported for a memory region is the one the function responds at. (True, except for 16-bit accesses through I/O ports on host bridges with extended register numbers, and for the address of regions other than the first.)", "quantifier": "every machine, bus, device, function, offset, value, and access mechanism (I/O ports or memory-mapped)", "why_tests_cant": "All machines, offsets and widths; the hardware is needed to run the code at all.", "anchors": ["src/pci.c:pci_config_read32", "src/pci.c:pci_config_write32", "src/pci.c:pci_config_read16", "src/pci.c:pci_config_write8", "src/pci.c:pci_get_mmio_addr"]}
{"id": "C55", "title": "PCI enumeration", "statement": "On every conforming machine whose regions fit, PCI enumeration ends; gives every memory and I/O region an aligned address inside the given range, no two overlapping; opens each bridge's memory windows for all memory behind it and for none elsewhere; numbers the buses so that every function can be reached; and changes no other register.", "quantifier": "every tree of devices and bridges, every combination of regions and sizes, both access mechanisms, every address range large enough", "why_tests_cant": "Unboundedly many bus trees; needs hardware; overlap shows as a fault in an unrelated device.", "anchors": ["src/pci.c:pci_enum_do", "src/pci.c:pci_enum_bus", "src/pci.c:pci_enum_next_aligned32", "src/pci.c:pci_program_bar", "src/pci.c:pci_program_bridge", "src/pci.c:pci_pre_enum"]}
{"id": "C56", "title": "PCI enumeration of machines that do not fit", "statement": "Whatever regions the functions ask for, PCI enumeration leaves no enabled device responding outside the given ranges or overlapping another, and bridges forward the I/O ports of the functions behind them. (False: a region that does not fit is left at the top of the address space; sizes are not compared with the range; a 4 GB region is moved to address 0; the I/O window is written to other registers.)", "quantifier": "every conforming machine and every address range", "why_tests_cant": "The machines that trigger it are not at hand in a test.", "anchors": ["src/pci.c:pci_program_bar", "src/pci.c:pci_program_bridge", "src/pci.c:pci_enum_next_aligned32"]}
{"id": "C57", "title": "Remote flash over a serial line", "statement": "As long as every call of the serial-line flash interface reports success, the calls return what they would on a memory at hand, for every interleaving of target and server and every delay; between calls the server's file holds what was written; and when the server answers before the target's polls run out, every call succeeds.", "quantifier": "every sequence of calls (each depending on earlier results), every interleaving, every delay of bytes, every number of polls before a timeout", "why_tests_cant": "The interleavings of two programs and the delays of the line cannot be enumerated.", "anchors": ["src/uart_flash.c:ext_flash_write", "src/uart_flash.c:ext_flash_read", "src/uart_flash.c:ext_flash_erase", "src/uart_flash.c:wait_ack", "tools/uart-flash-server/ufserver.c:serve_update", "tools/uart-flash-server/ufserver.c:uart_flash_write"]}
{"id": "C58", "title": "Remote flash after a failure", "statement": "A write to the serial-line flash that reports success has written its data, and nothing else, also after an earlier call has timed out, after a reset of the target, and for ranges outside the memory. (False: the server keeps waiting for the rest of an interrupted command and takes the next command for it; a write outside the memory is dropped and its data taken for commands; the server's range check wraps around.)", "quantifier": "every sequence of calls, interleaving, timeout and reset", "why_tests_cant": "The crash points and interleavings that trigger it are rare in tests.", "anchors": ["src/uart_flash.c:ext_flash_write", "tools/uart-flash-server/ufserver.c:uart_flash_write", "tools/uart-flash-server/ufserver.c:serve_update"]}
{"id": "C59", "title": "Identity mapping", "statement": "After the page tables for memory up to an address have been built, every address below it translates to itself and is writable, no address translates to anything else, and only the table pages have been written. (False of the second part for 4 GB, the size in use: the 2 MB above are mapped to address 0; and false above 4 GB.)", "quantifier": "every top address, table location, previous memory contents and linear address", "why_tests_cant": "The tables are read by the processor, not by the code; there are 2^48 addresses.", "anchors": ["src/x86/paging.c:x86_paging_build_identity_mapping", "src/boot_x86_fsp.c:jump_into_wolfboot"]}
{"id": "C60", "title": "Mapping memory for a payload", "statement": "A request to map a range of addresses that succeeds makes every byte of the range translate to the requested physical byte, changes no other translation, writes only page tables, and leaves the tables ready for the next request. (False for addresses mapped already, for addresses with different offsets in the page and for the last page of the address space.)", "quantifier": "every set of page tables, every range, every linear address", "why_tests_cant": "A wrong entry is noticed only when the one address it serves is used.", "anchors": ["src/x86/paging.c:x86_paging_map_memory", "src/x86/paging.c:x86_paging_map_page", "src/x86/paging.c:x86_paging_setup_ptp"]}
{"id": "C61", "title": "Reading the firmware's memory list", "statement": "The resources the firmware describes in its hand-off blocks are all found, in order and with their types, addresses and sizes, whatever other blocks are between them, without reading outside the list; the top of usable memory is the start of the region reserved by the silicon package. (Termination is false of lists with a block of length 0.)", "quantifier": "every list of hand-off blocks, every user of it", "why_tests_cant": "The list comes from a binary firmware package and differs per board; tests use a fixed one.", "anchors": ["src/x86/hob.c:hob_iterate_memory_map", "src/x86/hob.c:hob_find_resource_by_guid", "src/boot_x86_fsp.c:get_top_address"]}
{"id": "C62", "title": "Multiboot2 boot information", "statement": "The Multiboot2 header of a kernel is found wherever it may be; the boot information passed to the kernel has the tags the kernel requested, with exactly the firmware's memory, never exceeds the space set aside, and is refused otherwise. (False: images of 8 to 32 kB are searched beyond their end, the terminating tag is missing, optional requests are not optional, I/O ports are listed as memory.)", "quantifier": "every kernel image and header, every request, every list of memory, every buffer", "why_tests_cant": "The kernel trusts the information; the mistakes concern sizes and lists that a test kernel does not have.", "anchors": ["src/multiboot.c:mb2_find_header", "src/multiboot.c:mb2_build_boot_info_header", "src/multiboot.c:mb2_add_mem_map", "src/multiboot.c:mb2_add_basic_mem_info"]}
{"id": "C63", "title": "Linux boot parameters", "statement": "A Linux kernel is entered at the address of its header, with its code at 1 MB, its command line, and boot parameters that are exactly its setup header, the loader's fields and the firmware's memory. (False of memory lists that do not fit: they are written past the page.)", "quantifier": "every image, every memory list, every command line", "why_tests_cant": "The parameters have 4096 bytes and depend on image and firmware.", "anchors": ["src/x86/linux_loader.c:load_linux", "src/x86/linux_loader.c:e820_add_entry_cb"]}
{"id": "C64", "title": "Measured boot", "statement": "Before an image is started, the chosen PCR of the TPM is extended with the hash of exactly the bytes of the partition that is started; different partitions leave different PCR values; nothing else of the TPM changes. (False: the measurement is taken before an update is installed, its failure is ignored, and the boot loader itself is not measured.)", "quantifier": "every partition content and block size, every TPM state, every boot", "why_tests_cant": "A test measures one image once; which image is running when the value is used depends on the whole boot.", "anchors": ["src/tpm.c:self_sha256", "src/tpm.c:wolfBoot_tpm2_extend", "src/tpm.c:wolfBoot_tpm2_init", "src/loader.c:main"]}
{"id": "C65", "title": "Sealed secrets", "statement": "A secret sealed with a policy key is handed out exactly when that key signed the present values of the selected PCRs, and is then what was sealed; whatever commands anybody sends to the TPM, it is not handed out while the PCRs have values that were not approved. (False: only six PCRs are looked at; with a password the PCRs do not matter; the secret can be unsealed again after the boot; policies shorter than four bytes are over-read.)", "quantifier": "every TPM state, every sequence of TPM commands, every selection, key, signature and secret", "why_tests_cant": "An attacker chooses the sequence of commands; tests try the intended one.", "anchors": ["src/tpm.c:wolfBoot_seal_blob", "src/tpm.c:wolfBoot_unseal_blob", "src/tpm.c:wolfBoot_build_policy", "src/tpm.c:wolfBoot_tpm_pcrmask_sel", "src/tpm.c:wolfBoot_get_pcr_active", "src/update_flash.c:wolfBoot_unlock_disk"]}
{"id": "C66", "title": "Storage of sealed secrets", "statement": "Sealing stores the object so that it is read back as written, replacing whatever was there and nothing else; a disk's secret is never replaced while one is stored; power failures lose no secret. (The last part is false; so is the second on the simulator target; stored sizes are trusted.)", "quantifier": "every content of the TPM's memory, every object, every point at which power fails", "why_tests_cant": "Power failures between TPM commands and foreign memory contents are not exercised.", "anchors": ["src/tpm.c:wolfBoot_store_blob", "src/tpm.c:wolfBoot_read_blob", "src/tpm.c:wolfBoot_seal_auth", "src/x86/ahci.c:sata_get_unlock_secret", "src/update_flash.c:wolfBoot_unlock_disk"]}
{"id": "C67", "title": "Root of trust in the TPM", "statement": "A key of the key store is trusted exactly when the TPM holds its hash, at the index of its slot.", "quantifier": "every TPM state, slot and key", "why_tests_cant": "Acceptance must be excluded for every other key and every other memory content.", "anchors": ["src/tpm.c:wolfBoot_check_rot"]}
{"id": "C68", "title": "Opening a locked disk", "statement": "wolfBoot goes on with the disk exactly when the drive has no password and accepts the secret as its password, or is locked with the secret and is unlocked, or was already unlocked and frozen. The operating system then finds a drive with a password, unlocked and frozen, whose passwords no command changes until power off. In every other case the boot stops, and a locked drive stays locked. (The emulator target also accepts drives without the security feature set.)", "quantifier": "every state of the drive, every secret, every sequence of commands of the operating system, every point at which power fails", "why_tests_cant": "Drives have many states (frozen by firmware, attempts used up, foreign passwords); tests use a fresh one.", "anchors": ["src/x86/ahci.c:sata_unlock_disk", "src/x86/ata.c:ata_identify_device", "src/x86/ata.c:security_command_passphrase", "src/update_disk.c:wolfBoot_start"]}
{"id": "C69", "title": "Disks are not lost", "statement": "Starting with a drive without a password, after any number of boots, with power failing after any drive command of any of them and the secret unavailable at any of them, the next boot with the secret opens the disk; from the first start of the operating system on, the drive is locked with the secret whenever it is switched on. The generated secret is a string that keeps all its randomness. (False for a password compiled in: uninitialised memory becomes part of it, and one of 32 characters is over-read.)", "quantifier": "every history of boots and power failures, every secret, every command sequence of the operating system", "why_tests_cant": "The property is about all histories of power failures; uninitialised memory is usually the same in tests.", "anchors": ["src/x86/ahci.c:sata_unlock_disk", "src/x86/ahci.c:sata_get_unlock_secret", "src/x86/ahci.c:sata_get_random_base64"]}
{"id": "C70", "title": "Who else can open the disk", "statement": "Whoever does not know the passwords of a locked drive does not get at its data by any sequence of commands and power cycles; only the secret opens it; after an error the driver can go on. (The second part is false: the drive's master password opens it; so is the third.)", "quantifier": "every sequence of drive commands and power cycles, every drive state", "why_tests_cant": "An attacker chooses the sequence of commands.", "anchors": ["src/x86/ata.c:security_command_passphrase", "src/x86/ata.c:exec_cmd_slot_ex", "src/x86/ahci.c:sata_disable_password"]}
{"id": "C71", "title": "Writing the chip's flash", "statement": "hal_flash_write of any bytes at any address, of any length, where no bit has to go from 0 to 1, returns 0, the flash then holds the bytes there, and no other byte changed (STM32F4, F7, LPC546xx; RX from the start of a block on). On STM32F1 this holds whenever 0 is returned, whatever the flash controller does with the commands, and 0 is returned when the target is erased.", "quantifier": "every flash content, address, data and length; on STM32F1 every behaviour of the controller inside the half-word addressed", "why_tests_cant": "Alignment, length and earlier contents combine; tests run on a simulator whose driver is memcpy.", "anchors": ["hal/stm32f4.c:hal_flash_write", "hal/stm32f7.c:hal_flash_write", "hal/stm32f1.c:hal_flash_write", "hal/lpc.c:hal_flash_write", "hal/renesas-rx.c:hal_flash_write"]}
{"id": "C72", "title": "Writing the chip's flash by words", "statement": "The same on the parts that are written by words, double words or pages (nRF52/5340, STM32L0/L4/L5/U5/WB/G0/C0/H5, Kinetis, MCXA, MCXW, i.MX RT, HiFive1, PSoC 6, SAM E51, Hercules, T2080). (False on each of them; the requests that do work are given exactly or by a sufficient condition, and what happens to the others.)", "quantifier": "every flash content, address, data, length and address of the caller's buffer", "why_tests_cant": "The failures need particular combinations of address, length and buffer alignment.", "anchors": ["hal/nrf52.c:hal_flash_write", "hal/stm32wb.c:hal_flash_write", "hal/stm32g0.c:hal_flash_write", "hal/stm32l5.c:hal_flash_write", "hal/stm32h5.c:hal_flash_write", "hal/kinetis.c:hal_flash_write", "hal/mcxw.c:hal_flash_write", "hal/hifive1.c:fespi_write_address", "hal/psoc6.c:hal_flash_write", "hal/same51.c:hal_flash_write", "hal/ti_hercules.c:hal_flash_write"]}
{"id": "C73", "title": "Erasing the chip's flash", "statement": "hal_flash_erase of a range returns 0 exactly when every page or sector with a byte of the range is erased, and nothing else changes. (False on most parts: the conditions under which it holds are proved, and what happens otherwise.)", "quantifier": "every flash content, start, length, sector table, and number of times the controller is busy", "why_tests_cant": "Unaligned ranges, lengths of a page and a byte, and the second bank are rarely tested; the simulator's erase is memset.", "anchors": ["hal/nrf52.c:hal_flash_erase", "hal/nrf5340.c:hal_flash_erase", "hal/stm32f1.c:hal_flash_erase", "hal/stm32f4.c:hal_flash_erase", "hal/stm32f7.c:flash_sector", "hal/stm32h7.c:hal_flash_erase", "hal/samr21.c:hal_flash_erase", "hal/mcxw.c:hal_flash_erase", "hal/psoc6.c:hal_flash_erase", "hal/lpc.c:hal_flash_erase"]}
{"id": "C74", "title": "Partition flags on the STM32H7", "statement": "Setting a flag of a partition keeps the other flags, survives a power failure at any point, and leaves everything else alone. (Only the first part is true.)", "quantifier": "every configuration, flash content, flag and point of power failure", "why_tests_cant": "A power failure between the erase and the program command has to be timed; the loss of the neighbouring data shows up later.", "anchors": ["hal/stm32h7.c:hal_flash_write", "hal/stm32h7.h:STM32H7_BOOT_FLAGS_PAGE", "config/examples/stm32h7.config"]}
{"id": "C75", "title": "Skipped instructions: the final check", "statement": "With ARMORED=1, an image is started only if its header, hash and signature were all found to be right, even if the processor is made to skip instructions of the final check, at any places and at any times: fewer than four skips do not get a bad image through, fewer than five do not leave the panic loop. (Four and five do; one is enough for a corrupted canary that holds the value of another.)", "quantifier": "every value of the flags, every content of the registers and flags of the processor, every number and choice of skipped instructions", "why_tests_cant": "Fault injection needs hardware, and a campaign tries a few points in time.", "anchors": ["include/image.h:PART_SANITY_CHECK", "include/loader.h:wolfBoot_panic"]}
{"id": "C76", "title": "Skipped instructions: the signature", "statement": "With ARMORED=1, a signature is confirmed only if the verify function ran, returned success and reported a match, unless at least four instructions are skipped; for RSA the digest comparison takes seven. The length the RSA operation returned is passed on only if it is at least that of a digest. (Skipping the call breaks the last part.)", "quantifier": "every return value and reported result, every content of the registers, every number and choice of skipped instructions", "why_tests_cant": "Fault injection needs hardware, and a campaign tries a few points in time.", "anchors": ["include/image.h:VERIFY_FN", "include/image.h:RSA_VERIFY_FN", "include/image.h:RSA_VERIFY_HASH"]}
{"id": "C77", "title": "Skipped instructions: versions and key permissions", "statement": "With ARMORED=1, no single skipped instruction lets an update in that is not newer than the running firmware, or a key sign for a partition it has no permission for; updates and keys that are allowed pass. (Versions from 2^31 on stop the boot loader; two skips let an old version in; one skip can let a wrong key in.)", "quantifier": "every pair of versions, partition, permission mask, every content of the registers, every number and choice of skipped instructions", "why_tests_cant": "Fault injection needs hardware; version numbers with the top bit set are not tested.", "anchors": ["include/image.h:VERIFY_VERSION_ALLOWED", "include/image.h:CONFIRM_MASK_VALID"]}
{"id": "C78", "title": "Recovery from a damaged boot image", "statement": "If the image in the boot partition does not verify, and a good image is in the update partition, whatever its version and whether or not an update was triggered, the next boot that is not interrupted installs that image and runs it, on trial. If only the contents of the boot image are damaged and not the first eight bytes of its header, this also holds when power fails at any flash operation, any number of times: every complete boot runs a verified image. (If the header is damaged too, a power failure can leave a device that does not boot.)", "quantifier": "every geometry, every content of flash outside the good image, every state of the partitions, every history of power failures and boots", "why_tests_cant": "Power failures during a recovery from a corrupted image combine two faults at arbitrary places; tests corrupt an image or cut power, at a few points.", "anchors": ["src/update_flash.c:wolfBoot_start", "src/update_flash.c:wolfBoot_update", "src/update_flash.c:wolfBoot_copy_sector"]}
{"id": "C79", "title": "A damaged image does not come back", "statement": "After a recovery, the damaged image that was moved to the update partition is never put back: even if the recovered image is never confirmed, no boot, complete or interrupted, changes flash, and every complete boot runs the recovered image. (The recovery does not look at versions, so damaging the running image brings back an older one.)", "quantifier": "every geometry, damaged image, good image, every history of power failures and boots after the recovery", "why_tests_cant": "It is about all later boots.", "anchors": ["src/update_flash.c:wolfBoot_start", "src/update_flash.c:wolfBoot_update"]}
{"id": "C80", "title": "Updates with all flags in the boot partition (FLAGS_HOME)", "statement": "Built with FLAGS_HOME, a triggered update between images that leave the sector before the trailer free behaves as with the default layout: an uninterrupted boot exchanges the two images and puts the new one on trial; a boot without confirmation puts the previous image back; and after any number of power failures, at any flash operation or in the middle of it, the next complete boot runs one of the two images, complete, with the other one complete in the update partition.", "quantifier": "every geometry, every pair of good images that leave the sector before the trailer free, every sequence of interrupted boots", "why_tests_cant": "The flags of both partitions share one sector, which the final phase erases while it is still in progress; the crash points multiply with the sectors.", "anchors": ["src/update_flash.c:wolfBoot_swap_and_final_erase", "src/update_flash.c:wolfBoot_update", "src/libwolfboot.c:wolfBoot_update_trigger", "src/libwolfboot.c:PART_UPDATE_ENDFLAGS"]}
{"id": "C81", "title": "FLAGS_HOME keeps the trial and the whole image across a power failure", "statement": "Built with FLAGS_HOME, an image installed by an update is on trial until it is confirmed, whatever power failures happened during the update, and this and the safety of C80 hold for every image the update check accepts.", "quantifier": "every geometry, every pair of good images, every sequence of interrupted boots", "why_tests_cant": "It needs a power failure in a window of a few flash operations, and an image of a certain size.", "anchors": ["src/update_flash.c:wolfBoot_swap_and_final_erase", "src/libwolfboot.c:PART_UPDATE_ENDFLAGS"]}
{"id": "C82", "title": "The factory image has every part at its address", "statement": "The factory image tool writes one file in which every given part is at its own address relative to the lowest one, with fill bytes (0xFF) between the parts and nothing in front or behind. It writes no file if and only if two parts overlap. The addresses are the numbers the command line says, in hexadecimal or decimal.", "quantifier": "every number of parts, in every order, with every address, gap and length, and every address text", "why_tests_cant": "The number and order of the parts, the gaps and their relation to the block size are unbounded, and files with gaps of gigabytes are not tested.", "anchors": ["tools/bin-assemble/bin-assemble.c:main", "tools/bin-assemble/bin-assemble.c:binentry_address_compare"]}
{"id": "C83", "title": "Flags in external flash", "statement": "When the flags of a partition are in external flash, a state or sector flag that was set is read back, no other flag and no other byte changes, triggering an update marks it and renews all sector flags, and a power failure while a flag is set damages no other flag and setting it again succeeds. This does not depend on what was read before or on the byte order of the processor.", "quantifier": "every flash content, earlier read, partition, state, sector flag, point of power failure (also inside the programming of a word) and byte order", "why_tests_cant": "The cached word carries three neighbouring bytes with every write, and the tests run on little-endian machines.", "anchors": ["src/libwolfboot.c:get_trailer_at", "src/libwolfboot.c:set_trailer_at", "src/libwolfboot.c:wolfBoot_set_partition_state", "src/libwolfboot.c:wolfBoot_set_update_sector_flag", "src/libwolfboot.c:wolfBoot_update_trigger"]}
{"id": "C84", "title": "Only the bootloader's own code can be executed while it runs", "statement": "With the memory protection of ARM Cortex-M switched on, the processor executes the bootloader's code and nothing else: no address of a partition, of data or of a peripheral can be executed before the image is started. The bootloader can still read and write every address, peripherals are not cached, and the image starts without restrictions.", "quantifier": "every address, link layout of the bootloader, code in RAM or not, and earlier contents of the protection registers", "why_tests_cant": "Host tests do not run on a processor with a protection unit; which of the overlapping regions counts depends on every address and every bootloader size.", "anchors": ["src/boot_arm.c:mpu_init", "src/boot_arm.c:mpusize", "src/boot_arm.c:mpu_on", "src/boot_arm.c:mpu_off"]}
{"id": "C85", "title": "Messages of the bootloader", "statement": "A message printed by the bootloader's own printf consists of the text of its format with every conversion replaced by its own argument in the usual notation, padded with zeros where asked; nothing else is printed and no memory outside the format, the arguments and the local buffer is touched.", "quantifier": "every format made of text, %%, %d, %i, %u, %x, %p, %s and %c with or without zero padding and size letters, every argument, 32- and 64-bit processors", "why_tests_cant": "Tests print a few numbers; sign, width, size letters and the order of arguments combine without bound.", "anchors": ["src/string.c:uart_vprintf", "src/string.c:uart_writenum"]}
{"id": "C86", "title": "Flags on flash that is erased to zero", "statement": "On flash whose erased bytes are zero and where programming only sets bits, a state or sector flag that was set is read back, no other flag and no other byte changes, triggering an update marks it and renews all sector flags, confirming an image works from every state, and a power failure while a flag is set damages no other flag and setting it again succeeds.", "quantifier": "every flash content, partition, state, sector flag and point of power failure, also inside the programming of a byte", "why_tests_cant": "Tests run the inverted constants on a few histories in the simulator, without interrupting the programming of a byte.", "anchors": ["src/libwolfboot.c:wolfBoot_set_partition_state", "src/libwolfboot.c:wolfBoot_set_update_sector_flag", "src/libwolfboot.c:wolfBoot_update_trigger", "src/libwolfboot.c:wolfBoot_success", "include/wolfboot/wolfboot.h:IMG_STATE_UPDATING", "include/image.h:SECT_FLAG_SWAPPING"]}
{"id": "C87", "title": "Caches when an image starts on PowerPC", "statement": "Before an image is started on a PowerPC, its lines are written from the data cache to memory and dropped from the instruction cache, so the processor executes the bytes that were loaded and verified; the flush ends, touches exactly the lines of the range, and does not change what the program reads.", "quantifier": "every content of the caches, line size, address and length, up to the end of the address space", "why_tests_cant": "Cache contents depend on timing and history; simulators and host tests have coherent caches.", "anchors": ["src/boot_ppc.c:flush_cache", "src/boot_ppc.c:do_boot", "src/elf.c:elf_load_image_mmu", "hal/nxp_ppc.h:L1_CACHE_SZ"]}
{"id": "C88", "title": "Variables when the bootloader starts", "statement": "When main is entered, every variable with an initial value has it, every other static variable is zero, and no other byte of memory was changed by the start code, whatever memory contained before.", "quantifier": "every memory content and every layout of the sections in whole words", "why_tests_cant": "Host tests are started by the host's loader and never run this code.", "anchors": ["src/boot_arm.c:isr_reset", "src/boot_ppc.c:boot_entry_C", "src/boot_riscv.c:_reset", "src/boot_arm32.c:boot_entry_C"]}
{"id": "C89", "title": "Processors and interrupts described to the operating system", "statement": "The MultiProcessor table built for the operating system is well formed: its floating pointer and its table have their signatures and checksums of zero, the length is that of the entries, the entries are the boot processor with the identifier, version and signature read from the hardware, the other processors of the board and its buses and interrupts, all entries are counted, identifiers are unique, and no memory outside the table changes.", "quantifier": "every value of the APIC registers and of the processor signature, every memory content, and both boards with a table", "why_tests_cant": "The registers differ between processors and the table is only read by an operating system's start code.", "anchors": ["src/x86/mptable.c:mptable_setup", "src/x86/mptable.c:calc_checksum", "include/x86/mptable.h:struct mptable"]}
{"id": "C90", "title": "Address translation on PowerPC", "statement": "A translation set up for a page writes the chosen entry and translates exactly the addresses of that page, to the chosen physical page of up to 36 bits, with the permissions, cache attributes, address space and protection given; an entry that is disabled translates nothing.", "quantifier": "every entry, page, physical address, page size of e500, e5500 and e6500 cores, permission, attribute and address", "why_tests_cant": "A wrong bit in a register shows only on the hardware, at addresses that tests do not touch.", "anchors": ["src/boot_ppc.c:set_tlb", "src/boot_ppc.c:disable_tlb1", "hal/nxp_ppc.h:BOOKE_MAS1", "hal/nxp_ppc.h:MAS1_TSIZE"]}
