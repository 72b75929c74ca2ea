{"claims": [
{"property": "C01", "status": "proved", "theorems": ["C01_entry_round_trip"], "note": "Partition entry write/read round trip"},
{"property": "C02", "status": "proved", "theorems": ["C02_name_that_fits", "C02_name_any", "C02_name_reread"], "note": "Partition names survive, or are cut exactly at 36 UTF-16 units / first NUL"},
{"property": "C03", "status": "proved", "theorems": ["C03_entry_size", "C03_entry_padding", "C03_zero_partition", "C03_entry_layout"], "note": "Entry serialisation has exactly the requested size and zero partition is all zeros"},
{"property": "C04", "status": "partial", "theorems": ["C04_entry_write_frame_partial", "C04_offset_overflow_is_an_error", "C04_sum_overflow_refuted", "C04_written"], "note": "The frame holds under every fault schedule and a product over 64 bits is an error. The statement is false for the sum: start + i*size can pass 64 bits although both products fit; C04_sum_overflow_refuted shows the write at the wrapped offset."},
{"property": "C05", "status": "proved", "theorems": ["C05_sectors_len", "C05_bytes_len", "C05_bytes_start"], "note": "Partition length and offset arithmetic is exact or an error"},
{"property": "C06", "status": "proved", "theorems": ["C06_primary_round_trip", "C06_backup_round_trip", "C06_wrong_role_refused"], "note": "Header write/read round trip"},
{"property": "C07", "status": "proved", "theorems": ["C07_primary_header_acceptance", "C07_backup_header_acceptance", "C07_acceptance_unique", "C07_reading_never_panics"], "note": "Header acceptance is exactly signature plus CRC"},
{"property": "C08", "status": "proved", "theorems": ["C08_damaged_primary_header", "C08_damaged_backup_header", "C08_one_byte", "C08_straddling_run_refuted"], "note": "Stated for primary and backup headers. C08_straddling_run_refuted shows that the exception for runs straddling the CRC field is needed."},
{"property": "C09", "status": "proved", "theorems": ["C09_damaged_array", "C09_intact_array", "C09_damaged_never_read"], "note": "A damaged partition array is detected"},
{"property": "C10", "status": "proved", "theorems": ["C10_open_changes_nothing"], "note": "Opening a disk never modifies it"},
{"property": "C11", "status": "proved", "theorems": ["C11_header_error", "C11_header_used", "C11_table_unique", "C11_by_path", "C11_opened"], "note": "Open succeeds with one valid header and reports the primary's error otherwise"},
{"property": "C12", "status": "proved", "theorems": ["C12_only_valid_headers", "C12_any_faults"], "note": "only_valid_headers rejects any disk with an unreadable header"},
{"property": "C13", "status": "partial", "theorems": ["C13_panics_exactly", "C13_read_partitions", "C13_entry_size_panics_refuted", "C13_panics_iff_partial", "C13_debug_open_partial", "C13_empty_entries_refuted"], "note": "False when the header says an entry size other than 128 (C13_entry_size_panics_refuted: an assertion fails) and, with overflow checks, when 2^31 entries or more are empty (C13_empty_entries_refuted, a device of 256 GiB). Proved: in a release build, and in a debug build on devices below 2^38 bytes, open panics exactly if the header in use asks for another entry size; with 128-byte entries and fewer than 2^31 of them it never panics. C13_panics_exactly has it for every build and size: the header in use has another entry size or, with overflow checks, 2^31 empty entries on the device."},
{"property": "C14", "status": "proved", "theorems": ["C14_read_only", "C14_read_only_history"], "note": "A disk opened read-only can never be written"},
{"property": "C15", "status": "proved", "theorems": ["C15_calls_do_not_write", "C15_history_without_write", "C15_create_does_not_write"], "note": "No API call except write touches the device"},
{"property": "C16", "status": "proved", "theorems": ["C16_write_frame", "C16_usable_area_preserved"], "note": "Writing a partition table preserves LBA0 and the whole usable area"},
{"property": "C17", "status": "proved", "theorems": ["C17_write_then_open", "C17_write_then_open_primary"], "note": "Write then open returns the same partition table"},
{"property": "C18", "status": "partial", "theorems": ["C18_ids_stable_refuted", "C18_ids_stable_partial"], "note": "False: gaps in the numbering close on write (C18_ids_stable_refuted). True when the used partitions have the ids 1 to n."},
{"property": "C19", "status": "proved", "theorems": ["C19_copies_agree"], "note": "Both copies written agree"},
{"property": "C20", "status": "partial", "theorems": ["C20_write_twice_readonly", "C20_reopen_and_write_readonly_partial", "C20_write_twice", "C20_reopen_and_write_partial", "C20_reopened_names", "C20_reopen_and_write_refuted"], "note": "Writing twice is proved without reservation, at every crash point. Reopening and rewriting is false for names that reading does not return as they were (C20_reopen_and_write_refuted: a NUL inside); true for all other names, hence from the second reopening on (C20_reopened_names). With readonly_backup only the primary copy is concerned (C20_write_twice_readonly, C20_reopen_and_write_readonly_partial)."},
{"property": "C21", "status": "partial", "theorems": ["C21_backup_is_used", "C21_rewrite_restores_partial", "C21_rewrite_restores_refuted"], "note": "Opening through the backup is proved in full. Byte-for-byte restoration needs names that a write keeps, for the reason given in C20 (C21_rewrite_restores_refuted)."},
{"property": "C22", "status": "partial", "theorems": ["C22_damaged_array_fallback_refuted", "C22_damaged_array_reported_partial"], "note": "False: opening fails (C22_damaged_array_fallback_refuted). What holds is that the damage is always reported and never yields a wrong list."},
{"property": "C23", "status": "partial", "theorems": ["C23_interrupted_write_refuted", "C23_retry_completes_partial"], "note": "False: C23_interrupted_write_refuted cuts a write after its first entry and the disk no longer opens. What holds: nothing outside the metadata is lost (C16) and repeating the write completes it. Which of the two copies is whole at each moment is C97, and what opening gives is C71."},
{"property": "C24", "status": "proved", "theorems": ["C24_readonly_backup"], "note": "readonly_backup never touches the backup copy"},
{"property": "C25", "status": "partial", "theorems": ["C25_free_space_partial", "C25_sections_unique", "C25_any_table", "C25_wrapped", "C25_first_zero_refuted"], "note": "False when the header says that block 0 is usable: without overflow checks the section reported then lies beyond the usable range (C25_first_zero_refuted), with overflow checks the call panics (C65). Proved for every header with a usable range from block 1 on and ending before block 2^64-1. C25_any_table says what is reported for tables with overlapping partitions: the blocks with an odd number of edges below them. C25_wrapped: in the release build, if two edges are 0, all blocks from 1 to 2^64-1 are reported first."},
{"property": "C26", "status": "proved", "theorems": ["C26_order_irrelevant"], "note": "Free-space computation ignores insertion order and unused entries"},
{"property": "C27", "status": "partial", "theorems": ["C27_lowest_position_partial", "C27_huge_alignment_refuted", "C27_any_table", "C27_wrapped_refuted"], "note": "False in the release build for alignments close to 2^64: off + size wraps and the partition is placed beyond the usable range (C27_huge_alignment_refuted). True whenever alignment + size stays below 2^64, and in the debug build always. C27_any_table drops the condition that the partitions do not overlap: it takes the lowest aligned place among the blocks reported free. C27_wrapped_refuted: in the release build a partition of block 0 makes the next partition land on the primary header."},
{"property": "C28", "status": "partial", "theorems": ["C28_not_enough_space_partial", "C28_alignment_panics_refuted", "C28_any_table"], "note": "False as a statement about every alignment: alignment 0 and, in the debug build, a sum above 2^64 panic (C28_alignment_panics_refuted). For all other alignments NotEnoughSpace is returned exactly when nothing fits; C28_any_table has it for overlapping partitions too."},
{"property": "C29", "status": "partial", "theorems": ["C29_no_overlap_partial", "C29_huge_alignment_refuted", "C29_no_overlap_created_partial", "C29_room", "C29_count_may_change_partial"], "note": "False in the release build for alignments close to 2^64, where add_partition places the partition beyond the usable blocks (C29_huge_alignment_refuted, as in C27). True for all other histories, and in the debug build for all; with change_partition_count set, for as long as no call needs more entries (C29_count_may_change_partial). C29_room bounds the additions instead of looking at the run."},
{"property": "C30", "status": "partial", "theorems": ["C30_overlap_refuted", "C30_what_is_checked_partial", "C30_any_table"], "note": "False: only the first block and the length are compared with a free section, so the span may run into the next partition or past last_usable (C30_overlap_refuted). C30_what_is_checked_partial is what success does guarantee, C30_any_table which calls are accepted, whatever the table."},
{"property": "C31", "status": "partial", "theorems": ["C31_panics_only", "C31_legal_accepted_partial", "C31_id_in_use", "C31_panics_only_partial", "C31_first_zero_refuted"], "note": "False when the header says that block 0 is usable: every span of usable blocks is then refused, with a panic under overflow checks (C31_first_zero_refuted). Proved for every header with a usable range from block 1 on and ending before block 2^64-1; the panic clause (C31_panics_only) without overflow checks for every call, with them unless the table grows and the larger array has 2^32 bytes or more."},
{"property": "C32", "status": "partial", "theorems": ["C32_next_id", "C32_no_overwrite_partial", "C32_overwrite_refuted"], "note": "The smallest free id is proved in full. 'Never overwrites' holds while the number of entries may not change; with change_partition_count it is false (C32_overwrite_refuted)."},
{"property": "C33", "status": "partial", "theorems": ["C33_count_shrinks_refuted", "C33_count_fixed_partial", "C33_created_partial", "C33_room"], "note": "False: without permission update_partitions reduces a count above 128 (C33_count_shrinks_refuted: 200 to 128). It never grows, and it is unchanged when it was at most 128 or update_partitions is not called. With permission nothing differs from a fixed count while there are entries for the partitions in use and those to be added (C33_room)."},
{"property": "C34", "status": "partial", "theorems": ["C34_growth_overlaps_refuted", "C34_growth_always_overlaps_refuted", "C34_growth_partial"], "note": "False on every disk without spare blocks before the backup header, so on every disk the library created or wrote (C34_growth_always_overlaps_refuted); C34_growth_overlaps_refuted also has the array growing over a partition. True with spare room at both ends."},
{"property": "C35", "status": "partial", "theorems": ["C35_write_overflow_refuted", "C35_written_partial", "C35_created_partial", "C35_opened_partial"], "note": "False: update_partitions accepts ids with a gap, add_partition then fills it beyond the number of entries (C35_write_overflow_refuted). True for histories whose update_partitions tables have ids at most their size or 128, from created and from opened disks."},
{"property": "C36", "status": "partial", "theorems": ["C36_old_guid_refuted", "C36_guid_lost_refuted", "C36_persisted_partial"], "note": "False for every disk: the header keeps its GUID and the write uses the header (C36_old_guid_refuted). True if update_partitions is called between update_guid and the write."},
{"property": "C37", "status": "proved", "theorems": ["C37_alignment"], "note": "Alignment detection"},
{"property": "C38", "status": "proved", "theorems": ["C38_remove", "C38_remove_by_guid"], "note": "Removal removes exactly one partition"},
{"property": "C39", "status": "proved", "theorems": ["C39_build_from_scratch"], "note": "HeaderBuilder produces a consistent layout"},
{"property": "C40", "status": "partial", "theorems": ["C40_last_usable_refuted", "C40_rebuild_partial", "C40_what_changes_partial"], "note": "False: a last usable block before the computed one is moved up (C40_last_usable_refuted). Every other field is kept; with the computed last usable block the header is returned unchanged, also by way of the backup header."},
{"property": "C41", "status": "proved", "theorems": ["C41_backup_location", "C41_last_whole_block"], "note": "Backup header location"},
{"property": "C42", "status": "proved", "theorems": ["C42_position_unknown", "C42_position_restored"], "note": "Reading a header leaves the stream position unchanged"},
{"property": "C43", "status": "proved", "theorems": ["C43_create", "C43_created_tidy", "C43_create_write_open", "C43_by_path"], "note": "Create checks the size and starts from a sane layout"},
{"property": "C44", "status": "proved", "theorems": ["C44_round_trip", "C44_parse", "C44_record"], "note": "Protective MBR round trip"},
{"property": "C45", "status": "proved", "theorems": ["C45_only_its_bytes", "C45_success", "C45_succeeds"], "note": "MBR writes touch only what they claim"},
{"property": "C46", "status": "proved", "theorems": ["C46_overwrite_read", "C46_write_read", "C46_reads_agree", "C46_reads_only_read", "C46_update_keeps"], "note": "MBR reads return what was written"},
{"property": "C47", "status": "proved", "theorems": ["C47_partition", "C47_set_partition", "C47_setters"], "note": "MBR record accessors"},
{"property": "C48", "status": "proved", "theorems": ["C48_covers", "C48_default", "C48_on_disk"], "note": "Protective MBR covers the disk"},
{"property": "C49", "status": "proved", "theorems": ["C49_found", "C49_distinct", "C49_unknown"], "note": "Partition type lookup is consistent"},
{"property": "C50", "status": "partial", "theorems": ["C50_simple_form_refuted", "C50_case_refuted", "C50_hyphenated_partial", "C50_other_forms_partial", "C50_accepted_partial", "C50_case_partial"], "note": "False: C50_simple_form_refuted gives a GUID of a well-known type whose 32-digit text is accepted but yields no OS, and C50_case_refuted shows that a URN is rejected when its prefix is in capitals. Proved instead: the hyphenated form in any letter case agrees with From<Uuid> (C50_hyphenated_partial), every other form gives that GUID with no OS and so agrees exactly when the table lists none (C50_other_forms_partial), exactly the names and the four textual forms are accepted (C50_accepted_partial), and letter case matters only for a URN (C50_case_partial)."},
{"property": "C51", "status": "proved", "theorems": ["C51_write_is_durable"], "note": "Successful path-based write is durable"},
{"property": "C52", "status": "proved", "theorems": ["C52_with_disk_device", "C52_write_to_new_device", "C52_update_and_clone"], "note": "Swapping the device keeps the table"},
{"property": "C53", "status": "partial", "theorems": ["C53_last_usable_refuted", "C53_release_partial", "C53_release_created_partial", "C53_debug_partial", "C53_debug_panics_iff_partial", "C53_small_disk_partial"], "note": "False: C53_last_usable_refuted gives a small valid disk whose header says last_usable = 2^64-1; it opens and write_inplace panics in a debug build (and in a release build wraps around and overwrites block 0 while reporting success). True and proved: after open or create, in a release build no call with documented arguments panics in any history, any faults (C53_release_partial, C53_release_created_partial); in a debug build on a fixed-size device write_inplace panics exactly when the header in use overflows (C53_debug_partial for any faults, C53_debug_panics_iff_partial); a disk below 4 GiB as opened has only the two extreme header values left (C53_small_disk_partial)."},
{"property": "C54", "status": "proved", "theorems": ["C54_growing", "C54_debug_determines_release", "C54_histories", "C54_agree", "C54_room"], "note": "Release and debug builds agree"},
{"property": "C55", "status": "proved", "theorems": ["C55_conversion", "C55_back"], "note": "Block size conversion"},
{"property": "C56", "status": "proved", "theorems": ["C56_write_header", "C56_only_block_1"], "note": "write_header creates a readable primary header"},
{"property": "C57", "status": "proved", "theorems": ["C57_array_meaning", "C57_entry_meaning_unique", "C57_whenever_read", "C57_parse_uuid"], "note": "The partition array means what the UEFI layout says"},
{"property": "C58", "status": "partial", "theorems": ["C58_last_usable_raised_refuted", "C58_usable_range_partial"], "note": "False: last_usable is raised to the block before the backup array (C58_last_usable_raised_refuted). first_usable is kept and last_usable never lowered."},
{"property": "C59", "status": "partial", "theorems": ["C59_contents_overwritten_refuted", "C59_contents_kept_partial"], "note": "False: a header read at block 1 that says it is at another block is written there (C59_contents_overwritten_refuted). True, under all faults, when the header describes a sane layout and the partition lies in the usable range."},
{"property": "C60", "status": "partial", "theorems": ["C60_small_table_refuted", "C60_added_partial"], "note": "False for tables of fewer than 128 entries without change_partition_count (C60_small_table_refuted). Proved in full for 128 entries or more, for alignments whose sum with the size stays below 2^64."},
{"property": "C61", "status": "proved", "theorems": ["C61_write", "C61_update_partitions", "C61_add_partition", "C61_add_partition_at", "C61_create", "C61_single_calls", "C61_mbr", "C61_write_back"], "note": "Every device error is reported"},
{"property": "C62", "status": "partial", "theorems": ["C62_wrong_primary_refuted", "C62_opened_under_faults_partial", "C62_no_fault_partial"], "note": "False: file_read_header discards the result of its seek, so after a failed seek the bytes at the current position are read, and C62_wrong_primary_refuted has the backup header reported as the primary although block 1 holds a valid one. Proved: under every fault schedule the headers reported are valid headers stored on the device, GUID and partitions are exactly those of the header in use, and nothing is changed; if no operation failed the result is that of a fault-free open."},
{"property": "C63", "status": "proved", "theorems": ["C63_room", "C63_room_sessions", "C63_session", "C63_sessions", "C63_created"], "note": "Sessions: what one session leaves is a good start for the next"},
{"property": "C64", "status": "partial", "theorems": ["C64_small_as_large_partial", "C64_large_as_small_partial", "C64_stale_table_refuted"], "note": "False: C64_stale_table_refuted (a 512-byte-block table that fits in block 0 survives a write with 4096-byte blocks and is opened with the default settings). C64_large_as_small_partial adds that no header was in the second 512 bytes before; C64_small_as_large_partial (other direction) that no partition type GUID spells EFI PART, and at least 128 entries."},
{"property": "C65", "status": "partial", "theorems": ["C65_find_free_refuted", "C65_free_panics_iff_partial", "C65_opened_partial", "C65_created_partial"], "note": "False in debug builds: C65_find_free_refuted. C65_free_panics_iff_partial says exactly when find_free_sectors panics; C65_opened_partial and C65_created_partial prove the rest for every history (all of it in release builds)."},
{"property": "C66", "status": "partial", "theorems": ["C66_opens", "C66_moved_partial", "C66_grown_partial", "C66_write_alone_refuted", "C66_backup_lost_refuted", "C66_shrunk_refuted"], "note": "C66_opens: a grown disk opens as before if its primary header is valid (false otherwise: C66_backup_lost_refuted). Writing alone leaves the backup where it was: C66_write_alone_refuted; after update_partitions with the same partitions the whole claim holds: C66_moved_partial, and from write to reopening C66_grown_partial (at least 128 entries). Shrunk: false, C66_shrunk_refuted."},
{"property": "C67", "status": "proved", "theorems": ["C67_partition", "C67_partition_unique", "C67_header", "C67_header_unique", "C67_reread", "C67_block_size"], "note": "A printed partition or header says which one it is"},
{"property": "C68", "status": "proved", "theorems": ["C68_gpt_message", "C68_header_message", "C68_mbr_message"], "note": "An error message identifies the error"},
{"property": "C69", "status": "partial", "theorems": ["C69_names_partial", "C69_no_name_refuted", "C69_case_refuted"], "note": "False: C69_no_name_refuted (Windows, NetBsd and others have no name), C69_case_refuted (letter case matters). C69_names_partial says exactly which names are understood."},
{"property": "C70", "status": "proved", "theorems": ["C70_bits", "C70_from_bits"], "note": "Partition attributes are the UEFI bits"},
{"property": "C71", "status": "partial", "theorems": ["C71_old_new_or_error_partial", "C71_small_change", "C71_second_write_partial", "C71_mixture_refuted", "C71_readonly_partial"], "note": "False for deliberately chosen GUIDs: C71_mixture_refuted (the old and new first entry have the same CRC). True whenever no cut of the old and new array has the old checksum by accident (C71_old_new_or_error_partial, C71_second_write_partial), in particular whenever the array changes in a run of at most four bytes (C71_small_change). These with readonly_backup off; with it on there is a fourth case, the table of the backup copy, when the cut falls into the primary header (C71_readonly_partial)."},
{"property": "C72", "status": "partial", "theorems": ["C72_failed_add_refuted", "C72_failed_update_refuted", "C72_refused_partial", "C72_fixed_count_partial", "C72_write"], "note": "False where the table has to grow and there is no room: C72_failed_add_refuted, C72_failed_update_refuted (the error is returned after the table in memory was changed). Every error other than a header error leaves the disk alone (C72_refused_partial); without change_partition_count every error of adding does (C72_fixed_count_partial). Writing: C72_write, in full."},
{"property": "C73", "status": "proved", "theorems": ["C73_refused", "C73_accepted"], "note": "update_partitions installs exactly the given table or refuses it"},
{"property": "C74", "status": "proved", "theorems": ["C74_too_small", "C74_too_small_faults", "C74_too_small_new"], "note": "A device too small for a partition table is refused"},
{"property": "C75", "status": "partial", "theorems": ["C75_acceptance_partial", "C75_long_header_refuted", "C75_wrong_block_refuted"], "note": "True for headers of 92 bytes that name their own block (C75_acceptance_partial). A longer header is rejected (C75_long_header_refuted), since the library always takes the checksum of 92 bytes, and a header of another block is accepted (C75_wrong_block_refuted), since MyLBA is not compared."},
{"property": "C76", "status": "partial", "theorems": ["C76_room", "C76_written", "C76_created", "C76_readonly_backup_refuted", "C76_add_at_refuted"], "note": "Proved for every history of add_partition, removals, changes of GUID and writes (C76_created) and for every disk in good order (C76_written), without readonly_backup and change_partition_count. False with readonly_backup, where the backup is left as it was (C76_readonly_backup_refuted), and after add_partition_at, which can place a partition outside the usable blocks (C76_add_at_refuted). change_partition_count may be set if at most 128 partitions are added (C76_room)."},
{"property": "C77", "status": "proved", "theorems": ["C77_opens", "C77_stays_valid"], "note": "Valid GPTs are read completely and stay valid"},
{"property": "C78", "status": "proved", "theorems": ["C78_crc", "C78_headers", "C78_arrays"], "note": "The checksum is CRC-32 as published"},
{"property": "C79", "status": "proved", "theorems": ["C79_primary_header", "C79_backup_header"], "note": "Up to four flipped bits in a header are noticed"},
{"property": "C80", "status": "proved", "theorems": ["C80_arrays", "C80_three_bits_unnoticed", "C80_three_bits_on_test_image"], "note": "One or two flipped bits in an array are noticed, three need not be"},
{"property": "C81", "status": "proved", "theorems": ["C81_disk", "C81_three_bits"], "note": "Two flipped bits anywhere never give a different table"},
{"property": "C82", "status": "proved", "theorems": ["C82_published"], "note": "Partition types have their published GUIDs"},
{"property": "C83", "status": "proved", "theorems": ["C83_programs", "C83_failures", "C83_device_functions", "C83_opening", "C83_calls", "C83_write", "C83_any_piece", "C83_no_more_than_asked"], "note": "Split and interrupted transfers make no difference"},
{"property": "C84", "status": "partial", "theorems": ["C84_record_calls", "C84_record_calls_opened", "C84_write_keeps_record", "C84_either_order", "C84_write_keeps_record_refuted", "C84_record_calls_refuted"], "note": "Holds for every device of at least 512 bytes if no readable header places its array in block 0 (C84_record_calls; in terms of the header in use, C84_record_calls_opened) and, for writing, for disks with a sane layout (C84_write_keeps_record, C84_either_order).  For an arbitrary disk that opens both directions are false: a header may name block 0 as its own place, and write_inplace then replaces the protective record by the header (C84_write_keeps_record_refuted); a header may name block 0 as the place of its array, and writing boot code then makes the disk unreadable (C84_record_calls_refuted)."},
{"property": "C85", "status": "partial", "theorems": ["C85_add_then_remove", "C85_add_then_remove_tidy", "C85_add_at_then_remove", "C85_remove_then_add_at", "C85_grown_refuted"], "note": "Holds in both directions (C85_add_then_remove, C85_add_at_then_remove, C85_remove_then_add_at) with one exception, which makes the property as stated false: if the array has to grow for the new partition it stays grown after the removal, and its blocks are lost to the free space (C85_grown_refuted).  Table, settings, GUID and device contents are restored even then.  add_partition may also overwrite a used partition when the count may change (C32_overwrite_refuted); C85_add_then_remove assumes that it did not, C85_add_then_remove_tidy proves that it cannot when the count is fixed."},
{"property": "C86", "status": "proved", "theorems": ["C86_saves_leave_no_trace", "C86_saves_leave_no_trace_refuted"], "note": "C86_saves_leave_no_trace is the property as stated; C86_saves_leave_no_trace_refuted shows that the condition on the layout is needed (a header that stops one block short of the backup array)."},
{"property": "C87", "status": "partial", "theorems": ["C87_primary_decides", "C87_write_unites", "C87_readonly_fallback", "C87_strict_refuted", "C87_found_after_loss_refuted"], "note": "Refuted by the code: C87_strict_refuted shows an open with only_valid_headers that accepts two valid headers with different GUIDs and tables, C87_found_after_loss_refuted that with readonly_backup a table written successfully is not the one found after the primary header is lost. Everything else in the statement is proved: C87_primary_decides, C87_write_unites, C87_readonly_fallback."},
{"property": "C88", "status": "proved", "theorems": ["C88_replace", "C88_clear", "C88_unfinished", "C88_header_first", "C88_backup_replace", "C88_backup_clear"], "note": "One entry can be changed without opening the disk"},
{"property": "C89", "status": "proved", "theorems": ["C89_one_order", "C89_same_order", "C89_built", "C89_too_large", "C89_wrapped_refuted", "C89_last_refuted", "C89_last_iff", "C89_release", "C89_panics_iff"], "note": "C89_wrapped_refuted and C89_last_refuted show that the two provisos (size of the array below 2^32, last usable block asked for not beyond the backup array) are needed for a sound layout. C89_release says what a build without overflow checks does for every order, C89_panics_iff when one with them panics."},
{"property": "C90", "status": "proved", "theorems": ["C90_configured", "C90_read_only", "C90_clone", "C90_other_device", "C90_copy_not_synced_refuted"], "note": "C90_copy_not_synced_refuted shows why the comparison of with_disk_device with update_disk_device leaves out what has reached the medium: the copy of a disk opened from a path does not sync."},
{"property": "C91", "status": "proved", "theorems": ["C91_header", "C91_opened", "C91_cause", "C91_created", "C91_conversation", "C91_kept"], "note": "An open disk says which of its headers is usable, and why one is not"},
{"property": "C92", "status": "proved", "theorems": ["C92_add", "C92_add_at", "C92_write", "C92_history", "C92_suppressed_refuted"], "note": "C92_suppressed_refuted shows that the exception named in the statement occurs."},
{"property": "C93", "status": "proved", "theorems": ["C93_permission", "C93_reading", "C93_writing", "C93_in_use", "C93_synced", "C93_saved"], "note": "Functions that take a path touch the named file only, and only by writing"},
{"property": "C94", "status": "proved", "theorems": ["C94_open", "C94_read_partitions", "C94_write", "C94_session", "C94_created", "C94_write_header", "C94_write_primary_refuted", "C94_write_primary_partial", "C94_entries"], "note": "C94_write_primary_refuted shows that the last sentence of the statement is needed: the functions on a header given by the caller are not bounded by the device; C94_write_primary_partial is what holds of them. Counted are the byte buffers whose length the disk or the caller determines (Memory.v); the nodes of the partition table and texts are not."},
{"property": "C95", "status": "proved", "theorems": ["C95_open", "C95_create", "C95_calls", "C95_read"], "note": "Device calls: every operation ends after a bounded number of them"},
{"property": "C96", "status": "partial", "theorems": ["C96_read_partial", "C96_open_partial", "C96_checked", "C96_read_refuted", "C96_write_refuted", "C96_zero_entries"], "note": "False: `pt_len as usize` drops the upper bits, so with 32 bits the checksum of an array of 2^25 entries covers none of them. C96_read_refuted: such a table with a wrong checksum is accepted; C96_write_refuted: a header is written whose array is not on the disk. C96_checked says exactly what is covered. What holds (C96_read_partial, C96_open_partial, C94_write, C94_session): no difference if the arrays described by the headers fit the memory."},
{"property": "C97", "status": "partial", "theorems": ["C97_opened", "C97_gap_refuted", "C97_backup_first_partial", "C97_same_table_partial", "C97_readonly_partial"], "note": "False: both partition arrays are written before either header, so for every change of the table there is a moment at which neither copy is complete and the disk cannot be opened (C97_gap_refuted, for all disks; C97_steps lists the moments of one write). Proved: the primary header is not touched before the backup copy is complete, whatever was on the disk; a write that leaves the table bytes alone always leaves a complete copy; with readonly_backup a complete backup stays complete; opening needs a complete copy."},
{"property": "C98", "status": "proved", "theorems": ["C98_permission", "C98_refused", "C98_enough", "C98_open", "C98_create", "C98_readonly_backup"], "note": "Settings: each does what it says and nothing else"},
{"property": "C99", "status": "proved", "theorems": ["C99_monotone", "C99_fill", "C99_full", "C99_created"], "note": "Adding is monotone, and an empty disk fills up without waste"},
{"property": "C100", "status": "proved", "theorems": ["C100_workflow"], "note": "The documented way to set up a disk works, from the empty device to the opened disk"},
{"property": "C101", "status": "proved", "theorems": ["C101_opening_looks_at", "C101_contents_unseen", "C101_writing_puts_down"], "note": "What is stored in the partitions is neither looked at nor copied"},
{"property": "C102", "status": "proved", "theorems": ["C102_history", "C102_remove_the_one", "C102_sessions", "C102_lasting_name"], "note": "Partitions can be told apart by their GUIDs, from session to session"},
{"property": "C103", "status": "proved", "theorems": ["C103_balance", "C103_add", "C103_remove", "C103_largest", "C103_full", "C103_read_back"], "note": "Free and used blocks add up"},
{"property": "C104", "status": "partial", "theorems": ["C104_places", "C104_no_room", "C104_written", "C104_one_block", "C104_one_block_refuted", "C104_backup_lost_refuted", "C104_written_readonly"], "note": "The last sentence is false. C104_one_block_refuted: with both headers in one block the write fails (it always does, C104_one_block) after both arrays have been written. C104_backup_lost_refuted: with usable blocks up to the backup header the write succeeds and the backup array covers the backup header. The rest is proved: C104_places (any layout, any faults), C104_no_room, C104_written, and C104_written_readonly where the backup is not to be touched."},
{"property": "C105", "status": "partial", "theorems": ["C105_write", "C105_write_back", "C105_changes", "C105_create", "C105_single_calls", "C105_open_refuted", "C105_open_partial"], "note": "False for opening: the result of the seek to a header is not looked at, so a failed seek is reported as a bad signature (C105_open_refuted), or not at all (C62). C105_open_partial: true if the two headers were read without faults. Proved for everything else: C105_write, C105_write_back, C105_changes, C105_create, C105_single_calls."},
{"property": "C106", "status": "proved", "theorems": ["C106_report", "C106_report_unique", "C106_add", "C106_alignment_zero", "C106_at"], "note": "Without overflow checks: what is reported free and where partitions go, for any header and table"},
{"property": "C107", "status": "proved", "theorems": ["C107_history", "C107_update_accepted", "C107_session", "C107_sessions", "C107_created"], "note": "Every call of the library, used sensibly, keeps a disk in good order over any number of sessions"},
{"property": "C108", "status": "proved", "theorems": ["C108_update", "C108_update_result", "C108_add", "C108_add_at"], "note": "Which headers a disk has after update_partitions or an addition that needs more entries, for any header it had"},
{"property": "C109", "status": "proved", "theorems": ["C109_history", "C109_saved", "C109_writes"], "note": "One table on several devices"},
{"property": "C110", "status": "proved", "theorems": ["C110_open_calls", "C110_bad_primary", "C110_bad_array", "C110_not_noticed", "C110_bad_primary_refused", "C110_bad_backup", "C110_programs", "C110_device_functions", "C110_open", "C110_write_success", "C110_write_keeps", "C110_history", "C110_unreadable_primary", "C110_unreadable_refused", "C110_offsets", "C110_offset_refused"], "note": "Devices that choose which calls to refuse"}
]}
