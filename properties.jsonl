{"id": "C01", "title": "Partition entry write/read round trip", "statement": "A used partition serialised into a 128-byte table entry and read back by the partition-table reader yields the same type GUID (with its canonical OS label), the same partition GUID, the same first/last LBA, the same flags, and the same name up to the documented on-disk name limit.", "quantifier": "every type GUID, partition GUID, 64-bit first/last LBA and flags, and every Unicode name; every device and entry number inside its array (in a debug build fewer than 2^31 entries or a device below 256 GiB, since the library counts empty entries in an i32)", "why_tests_cant": "2^128 GUIDs x 2^192 numeric fields x all Unicode names; a test samples a handful", "anchors": ["src/partition.rs: Partition::as_bytes, file_read_partitions", "src/header/mod.rs: parse_uuid"]}
{"id": "C02", "title": "Partition names survive, or are cut exactly at 36 UTF-16 units / first NUL", "statement": "A name without NUL whose UTF-16 form has at most 36 code units is read back unchanged. A longer name is read back as its first 36 UTF-16 units, a surrogate pair that straddles the limit becoming one U+FFFD; a name holding NUL is read back up to the NUL. Reading never fails because of the name.", "quantifier": "every sequence of Unicode scalar values of any length; every 72-byte name field on disk", "why_tests_cant": "names are unbounded Unicode strings and the surrogate boundary is one position among infinitely many", "anchors": ["src/partition.rs: Partition::as_bytes (encode_utf16().take(36)), file_read_partitions (from_utf16_lossy)"]}
{"id": "C03", "title": "Entry serialisation has exactly the requested size and zero partition is all zeros", "statement": "Serialising any partition for an entry size s produces exactly s bytes, for s >= 56 + 2*(name units) the tail is zero padding, and the 'zero' partition serialises to all-zero bytes for every size.", "quantifier": "every partition value and every 32-bit entry size", "why_tests_cant": "all partitions x all 2^32 sizes", "anchors": ["src/partition.rs: Partition::as_bytes, Partition::zero"]}
{"id": "C04", "title": "Writing one partition entry touches only its slot", "statement": "Writing a partition entry to a device at index i changes only the bytes [start_lba*block + i*entry_size, +entry_size), whatever I/O faults occur; it fails with an error (nothing written) when start_lba*block or i*entry_size exceeds 64 bits.", "quantifier": "every device content, index, start LBA, block size, entry size and every I/O fault schedule", "why_tests_cant": "unbounded devices and arbitrary fault schedules", "anchors": ["src/partition.rs: Partition::write_to_device, Partition::write_zero_entries_to_device"]}
{"id": "C05", "title": "Partition length and offset arithmetic is exact or an error", "statement": "sectors_len, bytes_len and bytes_start return the exact mathematical value (last-first+1, that times the block size, first times the block size) whenever it is representable in 64 bits and first <= last, and return an error otherwise; they never panic or wrap.", "quantifier": "all 64-bit first/last LBAs and both block sizes", "why_tests_cant": "2^128 LBA pairs; the failing ones are at the edge of the range", "anchors": ["src/partition.rs: Partition::sectors_len, bytes_len, bytes_start"]}
{"id": "C06", "title": "Header write/read round trip", "statement": "A header written as primary (or backup) and then read from the same place is returned with every field unchanged, with the checksum fields holding the CRC-32 of the partition array on the device and of the header; reserved is read as zero.", "quantifier": "every header with the standard signature and in-range fields whose array does not overlap its own block, every device large enough, both block sizes", "why_tests_cant": "header contents are ~700 bits of free data", "anchors": ["src/header/mod.rs: Header::write_primary, write_backup, file_write_header, to_bytes, file_read_header"]}
{"id": "C07", "title": "Header acceptance is exactly signature plus CRC", "statement": "Reading a header from a device succeeds if and only if 92 bytes are readable there, they begin with 'EFI PART', and the stored CRC-32 equals the CRC-32 of those 92 bytes with the CRC field zeroed; the error tells which of the three failed; it never panics.", "quantifier": "every device content, of any length, and both block sizes", "why_tests_cant": "arbitrary (adversarial) device contents", "anchors": ["src/header/mod.rs: file_read_header, read_primary_header, read_backup_header, read_header_from_arbitrary_device"]}
{"id": "C08", "title": "A damaged header is detected", "statement": "If a readable header is changed on the device in exactly one of its 92 bytes, or in any run of at most 4 consecutive bytes that does not straddle the CRC field, reading it fails.", "quantifier": "every valid header, every position and every replacement value", "why_tests_cant": "error detection of CRC-32 is a statement about all messages and all error patterns", "anchors": ["src/header/mod.rs: file_read_header, calculate_crc32"]}
{"id": "C09", "title": "A damaged partition array is detected", "statement": "If the partition array that a header's checksum covers is changed in any run of 1 to 4 consecutive bytes, reading the partitions through that header fails; conversely reading succeeds (for 128-byte entries, in-range array) whenever the CRC matches.", "quantifier": "every partition array of any number of entries, every position and replacement (for success: in a debug build fewer than 2^31 entries or a device below 256 GiB, since the library counts empty entries in an i32)", "why_tests_cant": "all arrays x all error patterns", "anchors": ["src/partition.rs: file_read_partitions"]}
{"id": "C10", "title": "Opening a disk never modifies it", "statement": "Opening a disk (from a device or path), successful or not, writable or not, leaves every byte of the device unchanged, both as visible and as durably stored, whatever the contents and whatever I/O faults occur.", "quantifier": "every device content, configuration and I/O fault schedule", "why_tests_cant": "arbitrary contents and fault schedules", "anchors": ["src/lib.rs: GptConfig::open, open_from_device", "src/header/mod.rs: read_primary_header, read_backup_header", "src/partition.rs: file_read_partitions"]}
{"id": "C11", "title": "Open succeeds with one valid header and reports the primary's error otherwise", "statement": "With default configuration on a fault-free device, open fails with the primary header's error iff both headers are unreadable; otherwise the primary header is used when readable, else the backup; the disk GUID and the partition list come from the header used.", "quantifier": "every device content and block size", "why_tests_cant": "four header-validity cases x arbitrary contents", "anchors": ["src/lib.rs: GptConfig::open_from_device"]}
{"id": "C12", "title": "only_valid_headers rejects any disk with an unreadable header", "statement": "With only_valid_headers set, open succeeds only if both headers are readable; otherwise it returns the error of the first unreadable one (primary first).", "quantifier": "every device content, block size and fault schedule", "why_tests_cant": "arbitrary contents", "anchors": ["src/lib.rs: GptConfig::only_valid_headers, open_from_device"]}
{"id": "C13", "title": "Open never panics on an untrusted disk", "statement": "Opening a disk returns a result - never panics - whatever bytes it holds.", "quantifier": "every device content, block size, configuration", "why_tests_cant": "adversarial contents; the panicking image is one in 2^32 entry sizes with a recomputed CRC", "anchors": ["src/partition.rs: file_read_partitions (assert_eq!(header.part_size, 128))", "src/lib.rs: open_from_device"]}
{"id": "C14", "title": "A disk opened read-only can never be written", "statement": "write and write_inplace on a disk whose configuration is not writable return ReadOnly, and issue no device operation at all; in-memory state is unchanged.", "quantifier": "every disk state reachable by any history of API calls, every device", "why_tests_cant": "all histories", "anchors": ["src/lib.rs: GptDisk::write_inplace, write, GptConfig::writable"]}
{"id": "C15", "title": "No API call except write touches the device", "statement": "Adding, removing, replacing or taking partitions, changing the GUID and querying the disk leave every device byte unchanged under every I/O fault schedule, in any order and number; changes are recorded only by write/write_inplace.", "quantifier": "every finite sequence of non-write API calls, every device, every fault schedule", "why_tests_cant": "unbounded histories", "anchors": ["src/lib.rs: add_partition, add_partition_at, remove_partition, remove_partition_by_guid, update_guid, update_partitions, take_partitions, init_headers"]}
{"id": "C16", "title": "Writing a partition table preserves LBA0 and the whole usable area", "statement": "write_inplace on a disk with a sane layout, even when it is cut short by an I/O error or crash after any number of bytes, changes only the two header blocks and the two partition arrays: LBA 0 and every byte of every LBA from first_usable to last_usable are preserved.", "quantifier": "every disk with a sane header, every partition list, every device content, every fault schedule (crash point, torn write)", "why_tests_cant": "every crash point and every layout", "anchors": ["src/lib.rs: GptDisk::write_inplace", "src/header/mod.rs: file_write_header", "src/partition.rs: write_to_device, write_zero_entries_to_device"]}
{"id": "C17", "title": "Write then open returns the same partition table", "statement": "After a successful write_inplace, opening the device again succeeds and returns the same disk GUID as the header, both headers, and exactly the used partitions that were in memory, in ascending id order, with the same type, GUID, span, flags and (normalised) name, renumbered 1,2,3,...", "quantifier": "every writable disk with a sane layout and any list of partitions that fits, every prior device content, both block sizes", "why_tests_cant": "all partition lists x all device contents", "anchors": ["src/lib.rs: write_inplace, open_from_device", "src/partition.rs: file_read_partitions"]}
{"id": "C18", "title": "Partition ids are stable across write and reopen", "statement": "A partition written under id k is found under id k after reopening the disk.", "quantifier": "every disk and partition map", "why_tests_cant": "requires quantifying over all id maps; maps with gaps are the failing ones", "anchors": ["src/lib.rs: write_inplace (enumerate)"]}
{"id": "C19", "title": "Both copies written agree", "statement": "After a successful write_inplace (backup not read-only), the backup partition array on the device equals the primary one byte for byte, and the backup header equals the primary one except for swapped LBAs, the array start and its CRC.", "quantifier": "every writable disk with a sane layout, every partition list and device content", "why_tests_cant": "all layouts and contents", "anchors": ["src/lib.rs: write_inplace", "src/header/builder.rs: HeaderBuilder::build"]}
{"id": "C20", "title": "Rewriting is idempotent", "statement": "Writing a disk, reopening it and writing again leaves the device byte-for-byte identical; writing twice in a row does too; and a crash at any point of such a redundant rewrite leaves the device identical.", "quantifier": "every disk with a sane layout, any partition list, every crash point of the second write", "why_tests_cant": "all disks and crash points", "anchors": ["src/lib.rs: write_inplace, open_from_device"]}
{"id": "C21", "title": "The backup restores a destroyed primary", "statement": "If after a write the primary header block and primary array are overwritten with arbitrary bytes that do not form a valid header, opening with default configuration returns the same partitions, and a following write_inplace restores the device byte-for-byte to its state before the damage.", "quantifier": "every disk with a sane layout, any partition list, any damage confined to the primary metadata", "why_tests_cant": "arbitrary damage patterns", "anchors": ["src/lib.rs: open_from_device, write_inplace", "src/header/builder.rs"]}
{"id": "C22", "title": "A damaged primary array falls back to the backup copy", "statement": "If the primary header is intact but the primary partition array is damaged (its CRC does not match), opening still returns the partitions from the intact backup copy.", "quantifier": "every disk, any damage confined to the primary array", "why_tests_cant": "all damage patterns", "anchors": ["src/lib.rs: open_from_device"]}
{"id": "C23", "title": "Interrupted write leaves an openable disk", "statement": "If write_inplace is interrupted at any point on a disk that was openable before, the disk can still be opened afterwards and shows either the old or the new partition list.", "quantifier": "every crash point of every write", "why_tests_cant": "crash points are a continuum of states no unit test enumerates", "anchors": ["src/lib.rs: write_inplace"]}
{"id": "C24", "title": "readonly_backup never touches the backup copy", "statement": "With readonly_backup set, write_inplace on a disk with a sane layout leaves every byte outside LBA1 and the primary partition array unchanged, under every fault schedule - in particular the backup header and backup array.", "quantifier": "every disk state, device content and fault schedule", "why_tests_cant": "arbitrary contents and crash points", "anchors": ["src/lib.rs: write_inplace, GptConfig::readonly_backup"]}
{"id": "C25", "title": "Free-space report is exactly the complement of the used partitions", "statement": "find_free_sectors returns a list of non-empty sections in ascending order, separated by at least one used LBA, such that an LBA is in some section iff it is between first_usable and last_usable and in no used partition.", "quantifier": "every disk whose used partitions are disjoint and inside the usable range, any number of them, any ids", "why_tests_cant": "all partition layouts", "anchors": ["src/lib.rs: find_free_sectors"]}
{"id": "C26", "title": "Free-space computation ignores insertion order and unused entries", "statement": "find_free_sectors depends only on the multiset of spans of used partitions: permuting ids or adding/removing unused entries does not change its result.", "quantifier": "all partition maps", "why_tests_cant": "all permutations", "anchors": ["src/lib.rs: find_free_sectors"]}
{"id": "C27", "title": "add_partition places the partition at the lowest suitable position", "statement": "When add_partition succeeds, the new partition has exactly ceil(size/block) sectors, starts at the lowest LBA that is a multiple of the requested alignment such that its whole span is usable and free, and has the requested name, type and flags; every other partition is unchanged.", "quantifier": "every disk with disjoint in-range partitions, every size, alignment, name, type, flags", "why_tests_cant": "optimality quantifies over all placements", "anchors": ["src/lib.rs: add_partition"]}
{"id": "C28", "title": "add_partition fails only when nothing fits", "statement": "add_partition returns NotEnoughSpace iff no aligned free span of the requested size exists in the usable area, and then leaves the disk unchanged.", "quantifier": "every disk with disjoint in-range partitions, every size and alignment", "why_tests_cant": "non-existence is a universal statement", "anchors": ["src/lib.rs: add_partition"]}
{"id": "C29", "title": "Partitions created by add_partition never overlap", "statement": "Starting from a freshly created disk or an opened disk with disjoint in-range partitions, after any sequence of add_partition, remove_partition, remove_partition_by_guid, update_guid, take_partitions and write_inplace calls (partition count fixed), used partitions are pairwise disjoint and inside [first_usable, last_usable].", "quantifier": "all finite API histories", "why_tests_cant": "unbounded histories", "anchors": ["src/lib.rs: add_partition, remove_partition, find_free_sectors"]}
{"id": "C30", "title": "add_partition_at never creates an overlapping or out-of-range partition", "statement": "When add_partition_at succeeds the new partition lies inside one free section: it overlaps no used partition and does not exceed last_usable.", "quantifier": "all disks, ids, first LBAs and lengths", "why_tests_cant": "the condition has to hold for all start/length combinations", "anchors": ["src/lib.rs: add_partition_at"]}
{"id": "C31", "title": "add_partition_at accepts every legal placement and stores exactly what was asked", "statement": "If the id is free, needs no change of the partition count, and [first, first+length) is free and usable, add_partition_at succeeds, stores exactly that span/type/flags/name under that id and leaves all other partitions unchanged; it refuses an id in use; it panics only for id 0 or length 0 (or 64-bit overflow of the end).", "quantifier": "all disks with disjoint in-range partitions, all ids, spans", "why_tests_cant": "universal over placements", "anchors": ["src/lib.rs: add_partition_at"]}
{"id": "C32", "title": "Next partition id is the smallest free one", "statement": "find_next_partition_id returns the smallest id in 1..=num_parts that is absent or unused, and None iff all of them are used; add_partition never overwrites a used partition.", "quantifier": "all partition maps and all num_parts >= 1", "why_tests_cant": "all maps", "anchors": ["src/lib.rs: find_next_partition_id, add_partition"]}
{"id": "C33", "title": "Partition count is fixed unless allowed to change", "statement": "Without change_partition_count, no API call changes the number of partition slots recorded in the header.", "quantifier": "all histories, all opened disks", "why_tests_cant": "all histories; the failing disks have more than 128 slots", "anchors": ["src/lib.rs: add_partition, add_partition_at, update_partitions, init_headers", "src/header/mod.rs: num_parts_would_change"]}
{"id": "C34", "title": "Growing the partition count keeps partitions and metadata apart", "statement": "After a call that grew the partition count, the partition array of the new size still does not overlap any existing partition, and the backup array does not overlap the backup header.", "quantifier": "all disks with change_partition_count", "why_tests_cant": "depends on block rounding of the array for every count", "anchors": ["src/lib.rs: add_partition, init_headers", "src/header/builder.rs: build"]}
{"id": "C35", "title": "Every partition in memory is written", "statement": "On a disk built through the API from a created disk, write_inplace never fails with OverflowPartitionCount.", "quantifier": "all histories", "why_tests_cant": "all histories; needs an id beyond the table plus a full table", "anchors": ["src/lib.rs: add_partition_at, init_headers, write_inplace"]}
{"id": "C36", "title": "update_guid is persisted by write", "statement": "After update_guid(g) and a successful write, reopening the disk reports GUID g.", "quantifier": "all disks and GUIDs", "why_tests_cant": "all disks", "anchors": ["src/lib.rs: update_guid, write_inplace"]}
{"id": "C37", "title": "Alignment detection", "statement": "calculate_alignment returns 0 for an empty partition list, and otherwise the largest power of two not above 2048 that divides the first LBA of every used partition (2048 if none is used); it never panics and always terminates.", "quantifier": "all partition lists", "why_tests_cant": "unbounded lists of 64-bit values", "anchors": ["src/lib.rs: calculate_alignment"]}
{"id": "C38", "title": "Removal removes exactly one partition", "statement": "remove_partition(id) returns id and removes that entry iff it exists; remove_partition_by_guid removes the entry with the smallest id having that GUID, iff any; all other entries are unchanged.", "quantifier": "all partition maps, ids, GUIDs", "why_tests_cant": "all maps", "anchors": ["src/lib.rs: remove_partition, remove_partition_by_guid, take_partitions"]}
{"id": "C39", "title": "HeaderBuilder produces a consistent layout", "statement": "A header built from scratch (backup LBA set, optional first/last usable not beyond the computed range) satisfies: LBA0, primary header, primary array, usable area, backup array, backup header are pairwise disjoint and in that order, and primary/backup headers built from the same builder mirror each other; building fails iff the backup LBA is missing or too early.", "quantifier": "all backup LBAs, entry counts, block sizes (entry sizes whose array fits in 32 bits)", "why_tests_cant": "all 64-bit backup LBAs and 32-bit counts", "anchors": ["src/header/builder.rs: HeaderBuilder"]}
{"id": "C40", "title": "Building a header from a header is stable", "statement": "Building a primary from a primary header of a sane layout keeps all its fields (checksums reset), and building the backup then the primary again returns the original.", "quantifier": "all sane headers", "why_tests_cant": "all headers", "anchors": ["src/header/builder.rs: from_header, build"]}
{"id": "C41", "title": "Backup header location", "statement": "The backup header is looked for at the last whole block of the device, determined without moving the stream position; devices shorter than three blocks are rejected with ToSmallForBackup.", "quantifier": "all device lengths, both block sizes, all stream positions", "why_tests_cant": "all lengths", "anchors": ["src/header/mod.rs: find_backup_lba, read_backup_header"]}
{"id": "C42", "title": "Reading a header leaves the stream position unchanged", "statement": "Reading the primary or backup header leaves the stream position where it was, whether or not the header is valid.", "quantifier": "all contents and positions of fault-free devices", "why_tests_cant": "all contents", "anchors": ["src/header/mod.rs: read_primary_header, read_backup_header"]}
{"id": "C43", "title": "Create checks the size and starts from a sane layout", "statement": "Creating a disk succeeds iff the device is large enough for both arrays, both headers, LBA0 and one usable block; the created disk has 128 slots, no partitions, the given GUID and a sane layout; the device is untouched.", "quantifier": "all device lengths, GUIDs and configurations", "why_tests_cant": "all lengths", "anchors": ["src/lib.rs: GptConfig::create_from_device, init_headers"]}
{"id": "C44", "title": "Protective MBR round trip", "statement": "Any MBR value serialises to exactly 512 bytes ending in 55 AA and parses back to itself; parsing any 512-byte sector with that signature and serialising returns the same bytes; parsing fails exactly on wrong length or wrong signature.", "quantifier": "all MBR values, all sector contents, both block sizes", "why_tests_cant": "2^4096 sectors", "anchors": ["src/mbr.rs: ProtectiveMBR::to_bytes, from_bytes, PartRecord::to_bytes, from_bytes"]}
{"id": "C45", "title": "MBR writes touch only what they claim", "statement": "overwrite_lba0 changes only bytes 0..512; update_conservative changes only bytes 446..512; write_bootcode only 0..440; write_disk_signature only 440..444 - under every fault schedule - and on success the stream position is restored and the bytes are what was asked.", "quantifier": "all devices, positions, MBR values and fault schedules", "why_tests_cant": "all contents and fault schedules", "anchors": ["src/mbr.rs: overwrite_lba0, update_conservative, write_bootcode, write_disk_signature"]}
{"id": "C46", "title": "MBR reads return what was written", "statement": "On a fault-free device, from_disk after overwrite_lba0 returns the same MBR; read_bootcode/read_disk_signature return what write_bootcode/write_disk_signature wrote and what bootcode()/disk_signature() of from_disk report; update_conservative keeps bootcode and disk signature.", "quantifier": "all devices and MBR values", "why_tests_cant": "all contents", "anchors": ["src/mbr.rs"]}
{"id": "C47", "title": "MBR record accessors", "statement": "partition(i) returns record i for i in 0..=3 and None otherwise; set_partition(i, r) replaces only record i and returns the previous one, and does nothing for other i.", "quantifier": "all MBR values, all indices, all records", "why_tests_cant": "all indices", "anchors": ["src/mbr.rs: partition, set_partition, set_bootcode, set_disk_signature"]}
{"id": "C48", "title": "Protective MBR covers the disk", "statement": "A protective MBR built for n blocks has exactly one non-empty record, of type EE, starting at LBA 1 with n blocks (0xFFFFFFFF by default).", "quantifier": "all 32-bit sizes", "why_tests_cant": "2^32 sizes", "anchors": ["src/mbr.rs: with_lb_size, new, PartRecord::new_protective, zero"]}
{"id": "C49", "title": "Partition type lookup is consistent", "statement": "Every well-known type constant is found from its GUID (From<Uuid>) and from its name or hyphenated GUID in any letter case; the well-known GUIDs are pairwise distinct; an unknown GUID maps to a type with that GUID and no OS.", "quantifier": "all GUIDs; all strings, all case variants", "why_tests_cant": "all strings and GUIDs", "anchors": ["src/macros.rs: partition_types!", "src/partition_types.rs"]}
{"id": "C50", "title": "Type::from_str and From<Uuid> agree", "statement": "Whenever Type::from_str accepts a string denoting a GUID, it returns the same type as converting that GUID, and letter case never matters.", "quantifier": "all strings accepted as GUIDs", "why_tests_cant": "all textual forms (hyphenated, simple, braced, urn)", "anchors": ["src/macros.rs: FromStr for Type"]}
{"id": "C51", "title": "Successful path-based write is durable", "statement": "When write/write_inplace succeeds on a disk opened or created by path, everything written has been synced: the durable contents equal the visible contents.", "quantifier": "all disks and contents", "why_tests_cant": "durability concerns all interleavings of caching", "anchors": ["src/lib.rs: GptConfig::open, create, write_inplace, file_sync_all"]}
{"id": "C52", "title": "Swapping the device keeps the table", "statement": "with_disk_device returns a disk with the same GUID, headers and partitions on the new device; writing it and reopening that device gives the same table; update_disk_device returns the previous device and only changes device and writability; clone equals the original (I/O error details aside); take_device returns the device untouched.", "quantifier": "all disks and devices", "why_tests_cant": "all disks", "anchors": ["src/lib.rs: with_disk_device, update_disk_device, Clone, take_device, device_ref"]}
{"id": "C53", "title": "Write never panics on an openable disk", "statement": "write_inplace on a disk returned by open (any contents) returns a result and never panics, in debug and release builds.", "quantifier": "every device content, every history, both overflow-check modes", "why_tests_cant": "adversarial headers (extreme LBAs, counts)", "anchors": ["src/lib.rs: write_inplace", "src/header/builder.rs: build (u32 multiplication)", "src/lib.rs: find_free_sectors"]}
{"id": "C54", "title": "Release and debug builds agree", "statement": "On disks with a sane layout and requests whose sizes fit in 64 bits, overflow-checked (debug) and wrapping (release) builds behave identically: same results, same device bytes.", "quantifier": "all sane disks and requests", "why_tests_cant": "needs all values near the overflow edges", "anchors": ["src/lib.rs", "src/header/builder.rs", "src/partition.rs"]}
{"id": "C55", "title": "Block size conversion", "statement": "LogicalBlockSize converts to u64/usize and back without loss; only 512 and 4096 are accepted.", "quantifier": "all u64 values", "why_tests_cant": "2^64 values", "anchors": ["src/disk.rs: LogicalBlockSize"]}
{"id": "C56", "title": "write_header creates a readable primary header", "statement": "The standalone write_header on a file of sufficient size writes a primary header at LBA 1 only, returns the GUID it wrote, and reading the header back succeeds with that GUID and a layout matching the file size.", "quantifier": "all file contents and lengths, GUIDs, block sizes, fault schedules", "why_tests_cant": "all contents and lengths", "anchors": ["src/header/mod.rs: write_header, read_header"]}
{"id": "C57", "title": "The partition array means what the UEFI layout says", "statement": "Reading a partition array returns, under id k, exactly the partition that bytes 128(k-1)..128k encode in the documented layout (mixed-endian GUIDs, little-endian numbers, UTF-16LE name up to NUL), for every slot that is not all zero, and nothing else; the bytes leave no choice about the partition. The public parse_uuid takes exactly the first 16 bytes in that order and refuses shorter data without taking any.", "quantifier": "all devices, headers with 128-byte entries, array contents", "why_tests_cant": "2^1024 contents per slot, any number of slots", "anchors": ["src/partition.rs: file_read_partitions, Partition::as_bytes"]}
{"id": "C58", "title": "Writing keeps the usable range", "statement": "Writing a disk keeps first_usable and last_usable as they were in the header.", "quantifier": "all disks with a sane layout, all contents", "why_tests_cant": "all headers", "anchors": ["src/lib.rs: write_inplace", "src/header/builder.rs: build"]}
{"id": "C59", "title": "Opening and writing keeps partition contents", "statement": "Opening a disk and writing it back never changes a byte inside any of its partitions.", "quantifier": "all device contents that open, all fault schedules while writing", "why_tests_cant": "adversarial headers; all crash points", "anchors": ["src/lib.rs: open_from_device, write_inplace", "src/header/builder.rs: build"]}
{"id": "C60", "title": "A partition can be added whenever there is room and a free id", "statement": "If an id up to num_parts is free and an aligned run of free blocks of the requested size exists, add_partition succeeds, with the smallest such id and the lowest such place.", "quantifier": "all disks, sizes, alignments", "why_tests_cant": "all free-space layouts and id patterns", "anchors": ["src/lib.rs: add_partition, find_next_partition_id", "src/header/mod.rs: num_parts_would_change"]}
{"id": "C61", "title": "Every device error is reported", "statement": "If write, write_inplace, create_from_device, add_partition, add_partition_at, update_partitions, a header or entry write, read_partitions or an MBR call returns Ok, then none of the device operations it performed failed, and result, disk and device contents are those of the same call on a device that never fails.", "quantifier": "all disks, arguments and fault schedules (which operations fail and how far they got), both builds", "why_tests_cant": "a fault in every single one of the device operations, in combination", "anchors": ["src/lib.rs: write_inplace, init_headers, create_from_device", "src/header/mod.rs: write_primary, write_backup, file_write_header, write_header", "src/partition.rs: write_to_device, write_zero_entries, file_read_partitions", "src/mbr.rs"]}
{"id": "C62", "title": "Opening under device errors", "statement": "Whatever device operations fail during open: if it succeeds, the primary header reported is the one in block 1 and the backup header the one in the last block, and the partitions and GUID are those of the header in use.", "quantifier": "all device contents, positions, configurations and fault schedules", "why_tests_cant": "faults in each operation of open, whose results are partly discarded", "anchors": ["src/lib.rs: open_from_device", "src/header/mod.rs: file_read_header, read_primary_header, read_backup_header"]}
{"id": "C63", "title": "Sessions: what one session leaves is a good start for the next", "statement": "Take a disk with a sane layout whose partitions lie apart in the usable blocks, do any calls of add_partition, remove_partition, remove_partition_by_guid, take_partitions, update_guid, write_inplace (any device operation may fail), then a write that reports success, then open again: the opened table is the one in memory, and it again has a sane layout with partitions apart in the usable blocks; no byte of block 0 or of the usable blocks changed. Hence the same for any number of sessions, and for a created disk.", "quantifier": "all starting disks, all histories (in a release build with alignments whose sum with the size stays below 2^64, see C27), all fault schedules, any number of sessions with any settings that keep the block size and the number of entries", "why_tests_cant": "an induction over unbounded sequences of sessions with faults", "anchors": ["src/lib.rs: open_from_device, create_from_device, add_partition, remove_partition, take_partitions, update_guid, write_inplace"]}
{"id": "C64", "title": "A disk does not open with the wrong block size", "statement": "A disk written with one logical block size is rejected when opened with the other.", "quantifier": "all written disks in both directions, all previous contents of the device", "why_tests_cant": "entries that look like headers; stale bytes in block 0", "anchors": ["src/lib.rs: open_from_device", "src/header/mod.rs: file_read_header, read_backup_header", "src/disk.rs: LogicalBlockSize"]}
{"id": "C65", "title": "Looking at an opened disk does not panic", "statement": "After any calls on an opened or created disk, header(), find_free_sectors and find_next_partition_id return without panicking.", "quantifier": "all device contents that open, all histories, both builds", "why_tests_cant": "fields at the ends of the 64-bit range", "anchors": ["src/lib.rs: find_free_sectors, find_next_partition_id, header"]}
{"id": "C66", "title": "A device that changed its size", "statement": "A disk whose device has grown still opens with the same partitions, and writing it puts the backup at the new end, makes the new space usable and keeps every byte of user data; one whose device has shrunk can be written if its partitions still fit.", "quantifier": "all written disks, all contents and lengths of the new space", "why_tests_cant": "every geometry and every content of the added blocks", "anchors": ["src/lib.rs: open_from_device, update_partitions, init_headers, write_inplace", "src/header/mod.rs: find_backup_lba", "src/header/builder.rs: build"]}
{"id": "C67", "title": "A printed partition or header says which one it is", "statement": "The text printed for a partition shows name, both GUIDs, span and flags, and no other partition (up to the OS label) prints the same text, whatever characters the name contains; likewise for a header's GUID and checksums. A printed type GUID is read back by Type::from_str as that type; a printed block size is its number of bytes.", "quantifier": "all partitions and headers, all names including line breaks and look-alikes", "why_tests_cant": "all names; injectivity", "anchors": ["src/partition.rs: Display for Partition", "src/header/mod.rs: Display for Header", "src/disk.rs: Display for LogicalBlockSize"]}
{"id": "C68", "title": "An error message identifies the error", "statement": "Two errors (GptError, HeaderError, MBRError) that print the same message are equal, up to I/O errors that print alike.", "quantifier": "all pairs of errors, any text printed for I/O errors", "why_tests_cant": "all pairs", "anchors": ["src/lib.rs: Display for GptError", "src/header/mod.rs: Display for HeaderError", "src/mbr.rs: Display for MBRError"]}
{"id": "C69", "title": "Every operating system label can be named", "statement": "Each label of the table of partition types other than Custom is the result of OperatingSystem::from_str for some name, in any letter case.", "quantifier": "all strings, all labels", "why_tests_cant": "all strings", "anchors": ["src/partition_types.rs: FromStr for OperatingSystem"]}
{"id": "C70", "title": "Partition attributes are the UEFI bits", "statement": "The constants of PartitionAttributes are bits 0, 1 and 2; from_bits accepts exactly the flags made of these; from_bits_truncate keeps exactly these.", "quantifier": "all 64-bit flags", "why_tests_cant": "2^64 values", "anchors": ["src/partition.rs: PartitionAttributes"]}
{"id": "C71", "title": "An interrupted write is never mistaken for a finished one", "statement": "However a write is interrupted (any operation fails, after any number of bytes), opening the disk afterwards gives an error, the table that was there before, or the new table - never a mixture - and does not panic.", "quantifier": "all disks with a valid primary header, all tables, all crash points, both builds", "why_tests_cant": "every crash point of every write, torn blocks included; needs an argument about the checksum", "anchors": ["src/lib.rs: write_inplace", "src/lib.rs: open_from_device", "src/partition.rs: file_read_partitions"]}
{"id": "C72", "title": "A call that fails changes nothing in memory", "statement": "When add_partition, add_partition_at or update_partitions returns an error, the disk in memory is as before; a write, however it ends, leaves table, GUID and settings in memory alone.", "quantifier": "all states, arguments and fault schedules, both builds", "why_tests_cant": "every error path in every state", "anchors": ["src/lib.rs: add_partition", "src/lib.rs: add_partition_at", "src/lib.rs: update_partitions", "src/lib.rs: write_inplace"]}
{"id": "C73", "title": "update_partitions installs exactly the given table or refuses it", "statement": "update_partitions panics on an id 0 and refuses a table needing more entries than the header has unless change_partition_count is set, without effect. On success the table is the one given, the device is unwritten, and both headers have max(128, number of partitions) entries, the disk's GUID, the previous entry size, the backup in the last whole block and a usable range including the previous start bound.", "quantifier": "all disks with a valid header, all tables of fewer than 2^32 partitions, all fault schedules, both builds", "why_tests_cant": "all tables and states", "anchors": ["src/lib.rs: update_partitions", "src/lib.rs: init_headers", "src/header/mod.rs: num_parts_would_change"]}
{"id": "C74", "title": "A device too small for a partition table is refused", "statement": "On a device of fewer than three blocks, create, write, write_header and update_partitions fail with ToSmallForBackup and the device keeps every byte; under device errors they fail too.", "quantifier": "all devices of fewer than three blocks, both block sizes, all disks in memory, all fault schedules", "why_tests_cant": "all sizes and states", "anchors": ["src/header/mod.rs: find_backup_lba", "src/lib.rs: write_inplace", "src/lib.rs: init_headers"]}
{"id": "C75", "title": "Headers are accepted exactly as UEFI prescribes", "statement": "read_primary_header and read_backup_header return a header exactly if the block holds a valid one according to UEFI 5.3: signature, HeaderSize between 92 and the block size, the checksum of HeaderSize bytes, MyLBA naming the block.", "quantifier": "all devices of at least three blocks below 2^64 bytes, both block sizes, fault-free", "why_tests_cant": "every possible content of the header blocks", "anchors": ["src/header/mod.rs: read_primary_header", "src/header/mod.rs: read_backup_header", "src/header/mod.rs: file_read_header"]}
{"id": "C76", "title": "What the library writes is a valid GPT", "statement": "After a write that reports success the device holds a valid GPT according to UEFI 5.3: both headers with size 92, revision 1.0, zero reserved bytes and right checksums in block 1 and in the last block, naming each other; equal arrays outside the usable blocks with the checksum of the headers; all used partitions inside the usable blocks and apart from one another.", "quantifier": "all disks the library creates, all histories of calls, all fault schedules, both block sizes, both builds", "why_tests_cant": "all histories; the definition of validity is independent of the library's own reader", "anchors": ["src/lib.rs: write_inplace", "src/lib.rs: create_from_device", "src/lib.rs: add_partition_at"]}
{"id": "C77", "title": "Valid GPTs are read completely and stay valid", "statement": "A valid GPT with 92-byte headers and fewer than 2^25 entries opens, with or without only_valid_headers, and the table holds exactly its used entries under their numbers (besides entries without a type that are not blank). After any additions, removals, changes of GUID and writes, a write that reports success leaves a valid GPT.", "quantifier": "all devices holding a valid GPT (also one this library would not lay out this way), all such histories (in a release build with alignments whose sum with the size stays below 2^64, see C27), all fault schedules, both builds", "why_tests_cant": "all valid GPTs, including those made by other programs", "anchors": ["src/lib.rs: open_from_device", "src/partition.rs: file_read_partitions", "src/lib.rs: write_inplace"]}
{"id": "C78", "title": "The checksum is CRC-32 as published", "statement": "The checksum required of headers and arrays (and written to them) is CRC-32/ISO-HDLC by its definition: the message polynomial times x^32, its first 32 bits inverted, is divided by x^32+x^26+x^23+x^22+x^16+x^12+x^11+x^10+x^8+x^7+x^5+x^4+x^2+x+1, and the remainder is mirrored and inverted. A header can be read exactly if its 92 bytes are on the device, begin with the signature and carry this checksum of themselves with the checksum field zero; an array on the device exactly if the header carries its checksum.", "quantifier": "all messages of all lengths, all devices, both block sizes (arrays: in a debug build fewer than 2^31 entries or a device below 256 GiB, since the library counts empty entries in an i32)", "why_tests_cant": "messages of every length; test vectors cover a few", "anchors": ["src/header/mod.rs: calculate_crc32", "src/header/mod.rs: file_read_header", "src/partition.rs: file_read_partitions"]}
{"id": "C79", "title": "Up to four flipped bits in a header are noticed", "statement": "If a header can be read and then any one to four bits of the device are flipped, at least one of them among the 92 bytes of that header (its checksum field included), reading it is an error.", "quantifier": "all devices with a readable primary (or backup) header, all sets of up to four bits, both block sizes", "why_tests_cant": "there are 12 thousand million sets of four bits in a header, for each header", "anchors": ["src/header/mod.rs: file_read_header", "src/header/mod.rs: calculate_crc32"]}
{"id": "C80", "title": "One or two flipped bits in an array are noticed, three need not be", "statement": "If an array of fewer than 2^22 entries can be read and one or two bits of the device are flipped, one of them at least in the array, reading it gives a checksum error. This is all that can be promised: in every array of at least 11456 bytes (90 entries), flipping bits p, p+49961 and p+91639 goes unnoticed; on the disk image of the crate's tests it makes partition 1 overlap partition 2 and the disk still opens.", "quantifier": "all headers and arrays, all pairs of bits; for the limit, all arrays and all p", "why_tests_cant": "all pairs of bits in arrays of every size up to half a gigabyte", "anchors": ["src/partition.rs: file_read_partitions"]}
{"id": "C81", "title": "Two flipped bits anywhere never give a different table", "statement": "Take a valid GPT with 92-byte headers and fewer than 2^22 entries and flip up to two bits anywhere on the device. Opening it gives the same partitions and disk GUID as before, or an error. With three bits it can give a different table.", "quantifier": "all devices with a valid GPT, all pairs of bits of the whole device, all configurations, both builds", "why_tests_cant": "all pairs of bits of every device", "anchors": ["src/lib.rs: open_from_device", "src/partition.rs: file_read_partitions"]}
{"id": "C82", "title": "Partition types have their published GUIDs", "statement": "Sixty well-known types (unused, EFI system, BIOS boot, Microsoft, Linux, FreeBSD, Apple, Solaris, NetBSD, ChromeOS, ...) are found under their names in any letter case, are written to disk as exactly the 16 bytes their owners publish, and entries with these bytes are read as these types, with the right operating system.", "quantifier": "all sixty types, all spellings of their names, all partitions of these types, all entries on disk", "why_tests_cant": "all partitions and entries; the published values are an independent table", "anchors": ["src/partition_types.rs: partition_types!", "src/macros.rs: partition_types", "src/partition.rs: as_bytes"]}
{"id": "C83", "title": "Split and interrupted transfers make no difference", "statement": "Let the device answer every read and write with a piece of any size, or with ErrorKind::Interrupted, as Read and Write allow. Then opening, creating, any history of calls on an open disk and every function on a device returns the same result and leaves the same contents and position as when each transfer is done at once. If a call fails after some pieces, it is as if that transfer had failed after so many bytes.", "quantifier": "all devices (fixed or growing), all sequences of answers of the device, all programs of device calls, in particular all library functions and all histories", "why_tests_cant": "tests use Cursor and regular files, which never split a transfer; the number of splittings is exponential", "anchors": ["src/lib.rs: DiskDevice", "src/header/mod.rs: file_read_header", "src/partition.rs: file_read_partitions", "src/lib.rs: write_inplace", "src/mbr.rs: from_disk"]}
{"id": "C84", "title": "The protective record and the partition table do not disturb each other", "statement": "Any sequence of overwrite_lba0, update_conservative, write_bootcode and write_disk_signature calls, even with device errors in the middle, leaves what open_from_device finds on the device unchanged (the same GptDisk apart from the device, or the same error); write_inplace, even cut short, leaves what ProtectiveMBR::from_disk, read_bootcode and read_disk_signature return unchanged; and the table written after such calls is byte for byte the one written without them.", "quantifier": "all devices, all sequences of calls and their arguments, all failures of the device, both build modes", "why_tests_cant": "needs every interleaving of two independent sets of functions with every failure point and every previous content of the device", "anchors": ["src/mbr.rs: overwrite_lba0, update_conservative, write_bootcode, write_disk_signature, from_disk", "src/lib.rs: open_from_device, write_inplace"]}
{"id": "C85", "title": "Adding and removing are inverse to each other", "statement": "If add_partition or add_partition_at succeeds and the new partition is removed again by its id or its GUID, the partitions in use, the settings, the disk GUID, the contents of the device, the headers and the free sectors are what they were before; the GptDisk is equal to the old one if there was no (unused) entry under that id.  If remove_partition takes away a used partition, add_partition_at with the same values under the same id gives back the very same GptDisk.", "quantifier": "all disks, tables, arguments, both build modes; removal of any used partition of a table whose partitions lie apart", "why_tests_cant": "the addition can reuse ids, replace unused entries, rebuild headers and change the number of entries; tests add and remove in a few fixed states", "anchors": ["src/lib.rs: add_partition, add_partition_at, remove_partition, remove_partition_by_guid, find_free_sectors"]}
{"id": "C86", "title": "Saving in the course of a session leaves no trace in what is saved last", "statement": "Take an open, writable disk whose number of entries is fixed and whose header describes a sane layout that reaches up to the backup array. Run any sequence of add_partition, add_partition_at, remove_partition, take_partitions, update_guid and update_partitions calls with attempts to write_inplace anywhere in between, each of which may fail at any point (update_partitions only if the header has at most 128 entries and its backup is in the last block). The calls panic exactly if they would without those attempts, the table and the GUID end up the same, and a last write that succeeds leaves the same bytes on the device and the same primary header in memory as the calls without any attempt in between. Without the condition that the layout reaches up to the backup array this fails: a write moves the last usable block up to the array, and add_partition then finds room it did not find before.", "quantifier": "all sequences of editing calls and attempts to save, all arguments, all fault schedules of each attempt, all disks and block sizes, both overflow modes", "why_tests_cant": "Tests save once, at the end; a trace of an earlier or failed save would need the same session run with and without it, for every placement of the save and every point of failure.", "anchors": ["src/lib.rs:865-976 (write_inplace)", "src/lib.rs:495-652 (add_partition, add_partition_at)", "src/lib.rs:786-812 (update_partitions)"]}
{"id": "C87", "title": "Opening a disk whose two copies disagree", "statement": "An open that insists on two valid headers (only_valid_headers) succeeds only if both headers describe the same disk, and what was written last is what an open finds when the primary header is lost. Whatever the copies say: if the primary header is valid then it and its array alone decide the primary header, GUID and table an open shows, whatever else is on the device and whatever the configuration. A successful write_inplace without readonly_backup makes the two headers mirror images of each other and both arrays give the table that open shows. With readonly_backup any session of edits and complete or interrupted saves leaves the backup as it was, and what an open finds after the primary header is lost is the table the backup held before the session.", "quantifier": "all devices, configurations and headers; for the last part all sessions of edits and saves with any fault schedule", "why_tests_cant": "Tests open disks whose copies were written together; a pair of valid but different headers, or a stale backup found after the loss of the primary, is not constructed.", "anchors": ["src/lib.rs:269-301 (open_from_device)", "src/lib.rs:865-976 (write_inplace)", "src/lib.rs:189-190 (only_valid_headers)"]}
{"id": "C88", "title": "One entry can be changed without opening the disk", "statement": "Take a device with a valid primary header in block 1 that opens with only_valid_headers off. Partition::write_to_device for entry i followed by Header::write_primary with the header read from the disk changes nothing but the 128 bytes of that entry and the header's block, and opening afterwards shows the same GUID and the old table with partition i+1 replaced by the one given (added, if the entry was empty); with Partition::zero() it shows the table without partition i+1. If the second step is left out, or done first, opening fails with an I/O error whenever the CRC-32 of the array is no longer what it was. If instead the primary header is unreadable and the disk opens by its backup header, the same holds for entry i of the backup array and Header::write_backup.", "quantifier": "all devices, headers (any number of 128-byte entries, any position of the array from block 2 on; in a debug build fewer than 2^31 entries or a device below 256 GiB, since the library counts empty entries in an i32), entries and partitions, both block sizes, both overflow modes", "why_tests_cant": "write_to_device, write_primary and open_from_device are tested apart; that together they replace one entry and nothing else needs every header, array and entry.", "anchors": ["src/partition.rs:113-135 (write_to_device)", "src/header/mod.rs: write_primary", "src/lib.rs: open_from_device"]}
{"id": "C89", "title": "A HeaderBuilder builds what it was last asked for", "statement": "Start a HeaderBuilder from nothing or from a header and make any sequence of calls to its setters. What build returns depends only on the last value given to each setting (a number of entries below 128 counts as 128), or the value started with. If the array takes less than 2^32 bytes, build fails with MissingBackupLba exactly if the backup block lies before the primary one, with BackupLbaToEarly exactly if there is no room for the array before the backup header or the usable range would be empty, and otherwise gives a header with these values, its first usable block moved up behind the primary array and its last usable block moved up to the block before the backup array if they were before that, checksums 0, and its array right behind the primary header or right behind the last usable block. The usable blocks stay clear of the backup array exactly if the last usable block asked for does; a later one is not refused. With an array of 2^32 bytes or more a debug build panics; a release build can return a header whose usable range starts inside its own array.", "quantifier": "all sequences of setter calls and their arguments, all headers to start from, both block sizes, both overflow modes", "why_tests_cant": "the test suite builds three fixed headers; setters like last_usable and part_size are not called by any test, and sequences that set a value twice or in another order are not tried", "anchors": ["src/header/builder.rs:24-176 (HeaderBuilder::new, from_header, the setters, build)"]}
{"id": "C90", "title": "A configuration says what it was last asked for; copies of an open disk behave like the original", "statement": "Start from GptConfig::new() and call its setters in any order: each setting has the value last given to it, or its default (blocks of 512 bytes, not writable, one valid header is enough, both copies are written, the number of entries is fixed). A disk opened or created with a configuration last told writable(false), or never told writable, keeps the contents of its device whatever calls are made on it (other than update_disk_device), and every write_inplace replies ReadOnly. A clone of an open disk replies to every sequence of calls exactly as the original does and leaves its device in the same state, whatever device operations fail. A copy made by with_disk_device replies as the disk itself would after update_disk_device with the same arguments and leaves the same bytes, as long as no device operation fails; but it never calls sync_all, so what it has written need not have reached the medium when write_inplace returns.", "quantifier": "all sequences of configuration calls, all open disks in any state, all sequences of calls (edits, writes, questions, changes of device), all devices (for clones: all failure patterns), both overflow modes", "why_tests_cant": "the tests clone no disk and compare a copy on another device for one write; that no later call tells the copy from the original needs all states and all sequences of calls", "anchors": ["src/lib.rs:199-237 (GptConfig setters)", "src/lib.rs:326-336 (GptConfig::default)", "src/lib.rs:369-389 (Clone for GptDisk)", "src/lib.rs:432-463 (update_disk_device, with_disk_device)"]}
{"id": "C91", "title": "An open disk says which of its headers is usable, and why one is not", "statement": "After opening, primary_header() and backup_header() give the header found in block 1 and in the last block, or the reason why there is none there (too short, no signature, wrong checksum, device too small for a backup). If device operations fail while opening, they give what reading the header gave: the same header, or an error with the same cause (for an I/O error, one of the same kind). After create, both are valid, unless readonly_backup is set, when backup_header() says InvalidGptSignature whatever is on the device. In any sequence of calls each answer changes only to a valid header, the answer about the backup never if readonly_backup is set, and calls other than write_inplace, update_partitions and additions on a disk whose number of entries may change do not change them at all. Once write_inplace or update_partitions has succeeded both are valid (the backup unless readonly_backup is set). header() is the primary header if primary_header() gives one, else the backup header, and panics exactly if neither gives one.", "quantifier": "all devices, configurations and failure patterns; all open disks and sequences of calls; both overflow modes", "why_tests_cant": "the tests look at primary_header() and backup_header() of four prepared images; the reasons for errors, failures of the device and the answers after later calls are not looked at", "anchors": ["src/lib.rs:391-415 (primary_header, backup_header, try_header, header)", "src/header/mod.rs:50-63 (lossy_clone)", "src/lib.rs: open_from_device, init_headers, write_inplace"]}
{"id": "C92", "title": "Logging makes no difference", "statement": "Whether the crate is built with the log or tracing feature or without, and whether the level of a message is enabled, add_partition, add_partition_at, write_to_device and write_zero_entries_to_device (the only functions whose messages compute a sum) give the same result and leave the same disk and device. The one exception: a debug build that panics because the partition would end beyond block 2^64 - 1 may refuse with PartitionCountWouldChange instead if the message is suppressed, and leaves the disk as it was. So a program that does not panic does the same however it logs, and in a release build every program does.", "quantifier": "all arguments, open disks and sequences of calls, all three ways of logging, both overflow modes", "why_tests_cant": "tests run with one set of features and no logger installed", "anchors": ["src/logging.rs:1-49", "src/lib.rs:517-571 (add_partition)", "src/lib.rs:605-653 (add_partition_at)", "src/partition.rs:111-167 (write_to_device, write_zero_entries_to_device)"]}
{"id": "C93", "title": "Functions that take a path touch the named file only, and only by writing", "statement": "The functions that take the path of a file (`GptConfig::open`, `GptConfig::create`, `disk::read_disk`, `header::read_header`, `header::write_header`, `Partition::write`, `partition::read_partitions`) need permission to read the file, and to write it only if the configuration is writable or the function writes; without it they fail and no file changes. No file is ever created, removed or truncated and no other file is touched. Opening, creating and reading leave all files as they were; so does using the disk, with a read-only configuration or until `write` is called. A `write` that succeeds is on the medium and survives a power cut, and opening the path again then shows the table written; `write_header` and `Partition::write` wait for nothing to reach the medium.", "quantifier": "all sets of files, paths, configurations, file behaviours and failures, and conversations with the opened disk", "why_tests_cant": "Which permissions are asked for and what else the calls do to the file system depends on flags in four places; tests run as a user with all permissions and on one temporary file.", "anchors": ["src/lib.rs:239-265", "src/disk.rs:79-82", "src/header/mod.rs:280-286", "src/header/mod.rs:447-468", "src/partition.rs:98-109", "src/partition.rs:234-242"]}
{"id": "C94", "title": "Memory: a hostile disk cannot make opening or a session ask for more than its own size", "statement": "The longest byte buffer the library asks for while opening a device or reading the entries of any header is no longer than the device, whatever the device contains. Any sequence of calls on an opened disk needs no buffer longer than the device, plus 128 bytes for each partition the caller brings in, or 16384 bytes if that is more; on a created disk the contents of the device play no part; `write_header` needs 16384 bytes. With that much memory every call gives the result it gives with unlimited memory. Only the functions that write a header or entries the caller supplies ask for what that header or the arguments say: `write_primary` of a header read from a disk can exhaust memory where it should have failed with an error.", "quantifier": "all devices, contents, faults, configurations, sequences of calls and memory sizes, both overflow modes", "why_tests_cant": "Needs disks whose headers claim sizes near 2^64 and an allocator with a limit; tests run with small tables and unlimited memory.", "anchors": ["src/partition.rs:63-167", "src/partition.rs:246-319", "src/header/mod.rs:132-203", "src/header/mod.rs:413-440", "src/header/mod.rs:447-468", "src/lib.rs:853-976"]}
{"id": "C95", "title": "Device calls: every operation ends after a bounded number of them", "statement": "Opening makes at most 15 calls of the device (seeks, reads) plus one for each 128 bytes of it, whatever its headers claim; reading one header at most 4 (primary) or 7 (backup); creating at most 3; adding and replacing partitions at most 3; removing, taking and renaming none; writing at most 17 plus 4 for each partition in use.", "quantifier": "all devices, contents, faults, configurations, open disks and calls, both overflow modes", "why_tests_cant": "A header may claim 2^32 - 1 entries; a test that opened it would not show whether reading stops at the end of the device for every such header.", "anchors": ["src/lib.rs:267-299 (open_from_device)", "src/lib.rs:301-323 (create_from_device)", "src/lib.rs:853-976 (write_inplace)", "src/partition.rs:246-319", "src/header/mod.rs:296-319"]}
{"id": "C96", "title": "Word size: the library does the same on 32-bit machines as on 64-bit machines", "statement": "Opening, reading the entries of a header and writing give the same results and leave the same device whatever the number of bits of a `usize`. In particular the checksum of a partition array covers the whole array.", "quantifier": "all machines (bits of `usize`, memory), devices, contents, faults, headers, both overflow modes", "why_tests_cant": "Tests run on 64-bit machines; the difference needs an array of 4 GB or more on a 32-bit one.", "anchors": ["src/partition.rs:307-316 (pt_len as usize)", "src/partition.rs:152-166 (usize::try_from)", "src/header/mod.rs:413-440 (pt_len as usize)"]}
{"id": "C97", "title": "At every moment of a write one of the two copies is complete", "statement": "Wherever write_inplace stops, the disk holds at block 1 or at the place of the backup a valid header whose partition array has the checksum it says.", "quantifier": "every disk with the usual layout whose two copies were complete before the write, every change, every device operation and byte at which the write can stop", "why_tests_cant": "a write has hundreds of device operations and can stop inside each; the moment that matters is one of them", "anchors": ["src/lib.rs: GptDisk::write_inplace", "src/header/mod.rs: write_primary, write_backup", "src/partition.rs: write_to_device"]}
{"id": "C98", "title": "Settings: each does what it says and nothing else", "statement": "Two open disks that differ only in settings where one permits more (writable, change_partition_count) or in only_valid_headers give the same replies to every conversation, do the same to the device and keep the same headers, table and GUID, until a call is refused to one of them that the settings of the other permit; a call refused for want of permission (ReadOnly, PartitionCountWouldChange) has changed nothing, and is not refused for it where it is permitted. Opening depends on the block size and only_valid_headers alone, creating on the block size and readonly_backup alone; writing with readonly_backup leaves the bytes that writing without it leaves, except for the backup copy, which stays what it was.", "quantifier": "all conversations (edits, writes, questions, replaced devices), open disks, pairs of configurations, devices, faults, both overflow modes; for readonly_backup all disks with the usual layout on devices without faults", "why_tests_cant": "2^4 combinations of settings times every history of calls; tests fix one configuration and look at one call.", "anchors": ["src/lib.rs:184-238 (GptConfig)", "src/lib.rs:239-323 (open, create)", "src/lib.rs:488-654 (add_partition, add_partition_at)", "src/lib.rs:786-836 (update_partitions, init_headers)", "src/lib.rs:853-976 (write_inplace)"]}
{"id": "C99", "title": "Adding is monotone, and an empty disk fills up without waste", "statement": "Take an open disk in order with at least 128 entries. If the number of entries is fixed and add_partition succeeds, then it also succeeds for a partition that is no larger, with an alignment that divides the first one, and with any of the partitions on the disk removed before; the id and the first block are then no higher. On a disk without partitions, add_partition called any number of times up to the number of entries, with the same alignment, succeeds every time if the partitions placed one after the other, each on the next multiple of the alignment, end within the usable blocks: they get the ids 1, 2, 3 ... and lie exactly there. The first one that would end beyond the usable blocks is refused with NotEnoughSpace and changes nothing. So a newly created disk takes any 128 partitions whose sizes in whole blocks add up to at most the number of usable blocks.", "quantifier": "all disks with a usable range, tables, sizes, alignments (sum of alignment and size below 2^64 blocks), sequences of requests, both block sizes, both overflow modes, change_partition_count off for the first part and on or off for the rest", "why_tests_cant": "A test fills a disk with a few partitions of chosen sizes; that first-fit never leaves a usable gap, for every sequence of sizes and every alignment, needs an invariant over all sequences.", "anchors": ["src/lib.rs:495-577", "src/lib.rs:708-740", "src/lib.rs:746-763"]}
{"id": "C100", "title": "The documented way to set up a disk works, from the empty device to the opened disk", "statement": "On a fault-free device that is large enough, writing a protective MBR with overwrite_lba0, creating a GPT with create_from_device, adding any list of at most 128 partitions with add_partition and calling write all succeed. The device returned has the same size, block 0 holds that MBR, the rest is a GPT as UEFI defines it (two valid headers, equal arrays, no overlaps), and the usable blocks hold the bytes they held before. Opening it with any settings of the same block size gives both headers, the chosen disk GUID and exactly the partitions asked for, numbered 1, 2, 3, ... and placed one after the other at multiples of the alignment. Large enough means: two tables plus the partitions with their alignment gaps.", "quantifier": "for all builds (writing and reading), settings with write permission and a writable backup, disk GUIDs, MBR sizes, alignments, lists of partitions and device contents", "why_tests_cant": "The example in the documentation runs this once, for one size and two partitions, and looks at none of the bytes; the theorem covers every device, block size, list and alignment and says what a second reader finds", "anchors": ["src/lib.rs:35-68", "src/mbr.rs:233-242", "src/lib.rs:303-323", "src/lib.rs:495-571", "src/lib.rs:838-851"]}
{"id": "C101", "title": "What is stored in the partitions is neither looked at nor copied", "statement": "Opening a disk depends only on the size of the device, the 92 bytes of each header and the bytes of the array of the header it goes by: two devices that agree there give the same result, success or error. So whatever is put into the usable blocks, the disk opens the same. And a write puts down bytes that depend only on the disk in memory: there is one picture of the metadata such that, on whatever device of that size and however it fails, each byte left by write_inplace is the byte that was there or, in the place of the metadata, the byte of the picture, and after a success all of the metadata is the picture. Nothing of what the device held ends up in the metadata.", "quantifier": "for all builds, settings, device contents, fault schedules (of the write) and disks in memory that can be written", "why_tests_cant": "A test compares two or three devices; that no other byte of the device has any influence, and that no byte of a file leaks into the table on any failure, is a statement about all contents and all failures", "anchors": ["src/header/mod.rs:296-375", "src/header/mod.rs:167-203", "src/partition.rs:247-318", "src/lib.rs:269-299", "src/lib.rs:865-970"]}
{"id": "C102", "title": "Partitions can be told apart by their GUIDs, from session to session", "statement": "If the GUIDs drawn by the calls are new and differ from each other, then in any history of calls (except update_partitions, which brings in a whole table), whatever the arguments and whatever fails, no two entries of the table have the same GUID; the same holds after any number of sessions of calls, write and open. So remove_partition_by_guid removes the one partition that has the GUID and leaves all others. And although ids may change when a disk is opened again, a GUID is a lasting name: as long as no call removes the partition, every later session finds a partition with that GUID at the same blocks with the same type, flags and (kept) name.", "quantifier": "for all builds, histories, arguments, fault schedules and numbers of sessions; sessions as in C63 (number of entries fixed)", "why_tests_cant": "A test looks at one or two partitions with freshly drawn GUIDs in one session; renumbering on reopening and failing calls in between are the cases in which a mix-up would happen", "anchors": ["src/lib.rs:495-571", "src/lib.rs:584-654", "src/lib.rs:685-704", "src/lib.rs:865-970", "src/partition.rs:247-318"]}
{"id": "C103", "title": "Free and used blocks add up", "statement": "On a disk whose used partitions lie in the usable range and do not overlap, the lengths reported by find_free_sectors and the lengths of the used partitions add up to the number of usable blocks. A successful add_partition lowers the free total by exactly the blocks asked for (gaps left by an alignment stay free), remove_partition raises it by exactly the blocks of the partition, and by nothing if the entry was unused; writing and opening again keeps the number of used blocks. The report is empty if and only if every usable block is taken, and an addition without alignment is refused for lack of space if and only if every reported section is too short.", "quantifier": "for all builds, disks, tables, sizes, alignments (up to the sizes excluded in C27)", "why_tests_cant": "Off-by-one errors in one corner (a partition ending at the last usable block, a gap of one block) need exactly that arrangement in a test; the sum over all arrangements is what an administrator relies on", "anchors": ["src/lib.rs:708-742", "src/lib.rs:495-571", "src/lib.rs:685-690"]}
{"id": "C104", "title": "Where a write goes, whatever layout the header describes", "statement": "Writing a disk whose header describes any layout (any header blocks, usable range and entry count, sane or not) changes only the bytes of the two header blocks and of the two arrays: the primary array right behind the primary header, the backup array right behind the usable blocks. If there is no room for the arrays nothing is written and the write fails. If these places do not overlap and are on the device, the write succeeds and leaves two complete copies. A write that fails changes nothing, and one that succeeds leaves two complete copies.", "quantifier": "For all headers with positions below 2^64, tables, configurations, devices and I/O faults", "why_tests_cant": "A header may be read from any disk; tests only write layouts the crate made itself", "anchors": ["src/lib.rs:853-976", "src/header/builder.rs:123-176", "src/header/mod.rs:132-203"]}
{"id": "C105", "title": "A failed device operation is what the caller is told about", "statement": "Whenever a call ends after a device operation (seek, read, write, flush, sync) failed, it returns an error, and that error is the error of the device: an I/O error, passed on unchanged. Whenever no operation failed, the outcome (success, error or panic) is that on a device without faults. This goes for opening, creating, changing and writing disks, for reading and writing single headers, entries and arrays, and for the functions of the mbr module.", "quantifier": "For all disks and devices in any state, all arguments and all fault schedules", "why_tests_cant": "Tests have no failing devices, and the number of places where a fault can occur grows with the table", "anchors": ["src/lib.rs:814-976", "src/header/mod.rs:132-203", "src/header/mod.rs:295-440", "src/partition.rs:100-167", "src/partition.rs:246-319", "src/mbr.rs:150-262"]}
{"id": "C106", "title": "Without overflow checks: what is reported free and where partitions go, for any header and table", "statement": "In a build without overflow checks find_free_sectors returns a report for any header and any table of 64-bit positions, and exactly one: the ends of the usable range and of the used partitions, computed modulo 2^64 and sorted, are taken in pairs; a pair reports the blocks in between, but a pair of two zeros reports everything from block 1 and a pair of two last blocks everything from block 0. add_partition takes the first reported section in which the blocks behind the next multiple of the alignment fit modulo 2^64, and computes the position modulo 2^64; it returns NotEnoughSpace, changing nothing, exactly if there is no such section. In both builds an alignment of 0 panics if a section is reported. add_partition_at for blocks beyond 2^64 that fit a section panics with overflow checks and otherwise stores a last block computed modulo 2^64.", "quantifier": "every header, table, size, alignment and position; release build (debug where said)", "why_tests_cant": "positions near 2^64 and tables with such entries are not tried by tests, and tests run in the debug profile", "anchors": ["src/lib.rs: GptDisk::find_free_sectors", "src/lib.rs: GptDisk::add_partition", "src/lib.rs: GptDisk::add_partition_at"]}
{"id": "C107", "title": "Every call of the library, used sensibly, keeps a disk in good order over any number of sessions", "statement": "Take a disk in good order (its header describes a sane layout, the used partitions lie in the usable blocks and do not overlap). In a session the program makes any calls: add_partition with a sensible alignment, add_partition_at with blocks that are free at that moment, update_partitions with a table that lies in the usable blocks at that moment without overlap, remove_partition, remove_partition_by_guid, take_partitions, update_guid, write_inplace. Device operations may fail at any point. After the session the disk is in good order again, its first usable block is the same, its last usable block is not lower, and its number of entries has not grown and has not gone below 128 unless it was below already. If the session ends with a successful write, opening the device gives back the table written, every byte of block 0 and of the usable blocks is as before, and the next session starts from a disk in good order; so for any number of sessions, and for a disk the library created.", "quantifier": "all disks in good order, all histories of calls each sensible in the state in which it is made, all schedules of device failures, any number of sessions, overflow checks on or off", "why_tests_cant": "A test follows one history; update_partitions and add_partition_at change what the later calls may do, so the claim is about every order of calls and every point of failure.", "anchors": ["src/lib.rs:488-572", "src/lib.rs:574-654", "src/lib.rs:786-812", "src/lib.rs:814-836", "src/lib.rs:848-979", "src/lib.rs:202-299"]}
{"id": "C108", "title": "Which headers a disk has after update_partitions or an addition that needs more entries, for any header it had", "statement": "Let the header in use say anything about its place, the usable blocks and the size of an entry (numbers that do not overflow the machine's words). When update_partitions succeeds, or add_partition or add_partition_at succeeds although its id needs more entries than the header has, the new primary header keeps the place of the old one (the smaller of the two blocks it names), names the last whole block of the device for the backup, has the disk's GUID, as many entries as there are partitions but at least 128, entries of the old size, the array right behind itself, the first usable block of the old header raised to 2 + the blocks of the array, and the last usable block of the old header raised to the block before the backup array. The backup header, unless readonly_backup is set, is its mirror image with the array right behind the last usable block. Nothing else in memory or on the device changes but the table. Without faults update_partitions succeeds exactly if that order can be met; otherwise it reports MissingBackupLba or BackupLbaToEarly accordingly and only the table has changed.", "quantifier": "all headers in use, all tables, all devices with any faults (the result: without faults), both build modes", "why_tests_cant": "A test has a well-formed header on a device of one size; the claim is about every header a disk may carry.", "anchors": ["src/lib.rs:786-812", "src/lib.rs:814-836", "src/header/builder.rs:39-65", "src/header/builder.rs:106-177", "src/lib.rs:488-654"]}
{"id": "C109", "title": "One table on several devices", "statement": "Take any history of calls in which each call is sensible where it is made (as in C107), and let the device be exchanged any number of times in between, with update_disk_device or by going on with a copy made by with_disk_device, each time for a device with room for what the header in use describes. The disk is then still in good order; every device used has the length it came with and, in block 0 and the usable blocks, the bytes it came with, whatever operations failed; and a write that reports success puts the table in memory on the device in use, from which it can be opened again. Such a write does succeed if the device does not fail, the disk was last told that it may write, and the used partitions have entries.", "quantifier": "all disks in good order with a fixed number of entries, all such histories and exchanges, all devices with room and all failure patterns, both overflow modes", "why_tests_cant": "the tests exchange the device once, for one of the same size; that no history mixes up the contents of two devices needs all of them", "anchors": ["src/lib.rs: update_disk_device, with_disk_device, update_partitions, add_partition, add_partition_at, write_inplace, open_from_device"]}
{"id": "C110", "title": "Devices that choose which calls to refuse", "statement": "A device may decide on each call, by what is called, where, what it holds and what happened before, whether to carry it out: a disk with bad blocks, a quota, a medium that wears out, a file whose offsets stop at 2^63. On any such device a successful open reports only headers that are there and the table of the one in use; a write that reports success has done what it does on a device that never fails; a write changes neither block 0 nor the usable blocks, whatever was refused; and every history of calls does what it does on a device with some fixed pattern of failures. In particular a primary header that cannot be read is treated like one that is not valid: the disk opens by way of the backup copy, or, if both headers must be valid, is refused with the device's error. If some bytes can never be read, then a disk opens as long as they all lie before the backup copies and some are in the primary header; but if the primary header can be read and not all of its array, the disk does not open, whatever the backup array holds. Bad bytes in the backup header alone leave a disk that opens by its primary one. Bad bytes in neither header nor the array in use make no difference to opening. On a file whose offsets are limited and which is shorter than the limit, opening does what it does without a limit if the array in use starts below it, and otherwise fails with the error of the seek.", "quantifier": "all devices and all ways of choosing which calls fail (with any memory of their own), all programs of device calls that behave as the functions of the library, all disks and histories, both overflow modes", "why_tests_cant": "tests have no device that refuses calls, let alone one that chooses", "anchors": ["src/header/mod.rs: read_primary_header, read_backup_header", "src/lib.rs: open_from_device, write_inplace"]}
