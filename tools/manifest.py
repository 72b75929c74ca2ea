#!/usr/bin/env python3
"""Write MANIFEST.json from the theorem names in rocq/theories/Props_*.v (theorems named Cnn_...)."""
import glob, json, os, re, sys
ROOT = os.path.join(os.path.dirname(os.path.abspath(__file__)), "..")
# property -> (status, note); the default is ("proved", "")
NOTES = {
  "C04": ("partial", "The frame holds under every fault schedule and a product over 64 bits is an error. The statement is false for the sum: start + i*size can pass 64 bits although both products fit; C04_sum_overflow_refuted shows the write at the wrapped offset."),
  "C08": ("proved", "Stated for primary and backup headers. C08_straddling_run_refuted shows that the exception for runs straddling the CRC field is needed."),
  "C13": ("partial", "False when the header says an entry size other than 128 (C13_entry_size_panics_refuted: an assertion fails) and, with overflow checks, when 2^31 entries or more are empty (C13_empty_entries_refuted, a device of 256 GiB). Proved: in a release build, and in a debug build on devices below 2^38 bytes, open panics exactly if the header in use asks for another entry size; with 128-byte entries and fewer than 2^31 of them it never panics. C13_panics_exactly has it for every build and size: the header in use has another entry size or, with overflow checks, 2^31 empty entries on the device."),
  "C18": ("partial", "False: gaps in the numbering close on write (C18_ids_stable_refuted). True when the used partitions have the ids 1 to n."),
  "C20": ("partial", "Writing twice is proved without reservation, at every crash point. Reopening and rewriting is false for names that reading does not return as they were (C20_reopen_and_write_refuted: a NUL inside); true for all other names, hence from the second reopening on (C20_reopened_names). With readonly_backup only the primary copy is concerned (C20_write_twice_readonly, C20_reopen_and_write_readonly_partial)."),
  "C21": ("partial", "Opening through the backup is proved in full. Byte-for-byte restoration needs names that a write keeps, for the reason given in C20 (C21_rewrite_restores_refuted)."),
  "C22": ("partial", "False: opening fails (C22_damaged_array_fallback_refuted). What holds is that the damage is always reported and never yields a wrong list."),
  "C27": ("partial", "False in the release build for alignments close to 2^64: off + size wraps and the partition is placed beyond the usable range (C27_huge_alignment_refuted). True whenever alignment + size stays below 2^64, and in the debug build always. C27_any_table drops the condition that the partitions do not overlap: it takes the lowest aligned place among the blocks reported free. C27_wrapped_refuted: in the release build a partition of block 0 makes the next partition land on the primary header."),
  "C28": ("partial", "False as a statement about every alignment: alignment 0 and, in the debug build, a sum above 2^64 panic (C28_alignment_panics_refuted). For all other alignments NotEnoughSpace is returned exactly when nothing fits; C28_any_table has it for overlapping partitions too."),
  "C30": ("partial", "False: only the first block and the length are compared with a free section, so the span may run into the next partition or past last_usable (C30_overlap_refuted). C30_what_is_checked_partial is what success does guarantee, C30_any_table which calls are accepted, whatever the table."),
  "C32": ("partial", "The smallest free id is proved in full. 'Never overwrites' holds while the number of entries may not change; with change_partition_count it is false (C32_overwrite_refuted)."),
  "C40": ("partial", "False: a last usable block before the computed one is moved up (C40_last_usable_refuted). Every other field is kept; with the computed last usable block the header is returned unchanged, also by way of the backup header."),
  "C33": ("partial", "False: without permission update_partitions reduces a count above 128 (C33_count_shrinks_refuted: 200 to 128). It never grows, and it is unchanged when it was at most 128 or update_partitions is not called. With permission nothing differs from a fixed count while there are entries for the partitions in use and those to be added (C33_room)."),
  "C34": ("partial", "False on every disk without spare blocks before the backup header, so on every disk the library created or wrote (C34_growth_always_overlaps_refuted); C34_growth_overlaps_refuted also has the array growing over a partition. True with spare room at both ends."),
  "C35": ("partial", "False: update_partitions accepts ids with a gap, add_partition then fills it beyond the number of entries (C35_write_overflow_refuted). True for histories whose update_partitions tables have ids at most their size or 128, from created and from opened disks."),
  "C36": ("partial", "False for every disk: the header keeps its GUID and the write uses the header (C36_old_guid_refuted). True if update_partitions is called between update_guid and the write."),
  "C58": ("partial", "False: last_usable is raised to the block before the backup array (C58_last_usable_raised_refuted). first_usable is kept and last_usable never lowered."),
  "C59": ("partial", "False: a header read at block 1 that says it is at another block is written there (C59_contents_overwritten_refuted). True, under all faults, when the header describes a sane layout and the partition lies in the usable range."),
  "C60": ("partial", "False for tables of fewer than 128 entries without change_partition_count (C60_small_table_refuted). Proved in full for 128 entries or more, for alignments whose sum with the size stays below 2^64."),
  "C50": ("partial", "False: C50_simple_form_refuted gives a GUID of a well-known type whose 32-digit text is accepted but yields no OS, and C50_case_refuted shows that a URN is rejected when its prefix is in capitals. Proved instead: the hyphenated form in any letter case agrees with From<Uuid> (C50_hyphenated_partial), every other form gives that GUID with no OS and so agrees exactly when the table lists none (C50_other_forms_partial), exactly the names and the four textual forms are accepted (C50_accepted_partial), and letter case matters only for a URN (C50_case_partial)."),
  "C53": ("partial", "False: C53_last_usable_refuted gives a small valid disk whose header says last_usable = 2^64-1; it opens and write_inplace panics in a debug build (and in a release build wraps around and overwrites block 0 while reporting success). True and proved: after open or create, in a release build no call with documented arguments panics in any history, any faults (C53_release_partial, C53_release_created_partial); in a debug build on a fixed-size device write_inplace panics exactly when the header in use overflows (C53_debug_partial for any faults, C53_debug_panics_iff_partial); a disk below 4 GiB as opened has only the two extreme header values left (C53_small_disk_partial)."),
  "C62": ("partial", "False: file_read_header discards the result of its seek, so after a failed seek the bytes at the current position are read, and C62_wrong_primary_refuted has the backup header reported as the primary although block 1 holds a valid one. Proved: under every fault schedule the headers reported are valid headers stored on the device, GUID and partitions are exactly those of the header in use, and nothing is changed; if no operation failed the result is that of a fault-free open."),
  "C64": ("partial", "False: C64_stale_table_refuted (a 512-byte-block table that fits in block 0 survives a write with 4096-byte blocks and is opened with the default settings). C64_large_as_small_partial adds that no header was in the second 512 bytes before; C64_small_as_large_partial (other direction) that no partition type GUID spells EFI PART, and at least 128 entries."),
  "C65": ("partial", "False in debug builds: C65_find_free_refuted. C65_free_panics_iff_partial says exactly when find_free_sectors panics; C65_opened_partial and C65_created_partial prove the rest for every history (all of it in release builds)."),
  "C66": ("partial", "C66_opens: a grown disk opens as before if its primary header is valid (false otherwise: C66_backup_lost_refuted). Writing alone leaves the backup where it was: C66_write_alone_refuted; after update_partitions with the same partitions the whole claim holds: C66_moved_partial, and from write to reopening C66_grown_partial (at least 128 entries). Shrunk: false, C66_shrunk_refuted."),
  "C69": ("partial", "False: C69_no_name_refuted (Windows, NetBsd and others have no name), C69_case_refuted (letter case matters). C69_names_partial says exactly which names are understood."),
  "C71": ("partial", "False for deliberately chosen GUIDs: C71_mixture_refuted (the old and new first entry have the same CRC). True whenever no cut of the old and new array has the old checksum by accident (C71_old_new_or_error_partial, C71_second_write_partial), in particular whenever the array changes in a run of at most four bytes (C71_small_change). These with readonly_backup off; with it on there is a fourth case, the table of the backup copy, when the cut falls into the primary header (C71_readonly_partial)."),
  "C72": ("partial", "False where the table has to grow and there is no room: C72_failed_add_refuted, C72_failed_update_refuted (the error is returned after the table in memory was changed). Every error other than a header error leaves the disk alone (C72_refused_partial); without change_partition_count every error of adding does (C72_fixed_count_partial). Writing: C72_write, in full."),
  "C75": ("partial", "True for headers of 92 bytes that name their own block (C75_acceptance_partial). A longer header is rejected (C75_long_header_refuted), since the library always takes the checksum of 92 bytes, and a header of another block is accepted (C75_wrong_block_refuted), since MyLBA is not compared."),
  "C76": ("partial", "Proved for every history of add_partition, removals, changes of GUID and writes (C76_created) and for every disk in good order (C76_written), without readonly_backup and change_partition_count. False with readonly_backup, where the backup is left as it was (C76_readonly_backup_refuted), and after add_partition_at, which can place a partition outside the usable blocks (C76_add_at_refuted). change_partition_count may be set if at most 128 partitions are added (C76_room)."),
  "C84": ("partial", "Holds for every device of at least 512 bytes if no readable header places its array in block 0 (C84_record_calls; in terms of the header in use, C84_record_calls_opened) and, for writing, for disks with a sane layout (C84_write_keeps_record, C84_either_order).  For an arbitrary disk that opens both directions are false: a header may name block 0 as its own place, and write_inplace then replaces the protective record by the header (C84_write_keeps_record_refuted); a header may name block 0 as the place of its array, and writing boot code then makes the disk unreadable (C84_record_calls_refuted)."),
  "C85": ("partial", "Holds in both directions (C85_add_then_remove, C85_add_at_then_remove, C85_remove_then_add_at) with one exception, which makes the property as stated false: if the array has to grow for the new partition it stays grown after the removal, and its blocks are lost to the free space (C85_grown_refuted).  Table, settings, GUID and device contents are restored even then.  add_partition may also overwrite a used partition when the count may change (C32_overwrite_refuted); C85_add_then_remove assumes that it did not, C85_add_then_remove_tidy proves that it cannot when the count is fixed."),
  "C86": ("proved", "C86_saves_leave_no_trace is the property as stated; C86_saves_leave_no_trace_refuted shows that the condition on the layout is needed (a header that stops one block short of the backup array)."),
  "C87": ("partial", "Refuted by the code: C87_strict_refuted shows an open with only_valid_headers that accepts two valid headers with different GUIDs and tables, C87_found_after_loss_refuted that with readonly_backup a table written successfully is not the one found after the primary header is lost. Everything else in the statement is proved: C87_primary_decides, C87_write_unites, C87_readonly_fallback."),
  "C89": ("proved", "C89_wrapped_refuted and C89_last_refuted show that the two provisos (size of the array below 2^32, last usable block asked for not beyond the backup array) are needed for a sound layout. C89_release says what a build without overflow checks does for every order, C89_panics_iff when one with them panics."),
  "C90": ("proved", "C90_copy_not_synced_refuted shows why the comparison of with_disk_device with update_disk_device leaves out what has reached the medium: the copy of a disk opened from a path does not sync."),
  "C92": ("proved", "C92_suppressed_refuted shows that the exception named in the statement occurs."),
  "C94": ("proved", "C94_write_primary_refuted shows that the last sentence of the statement is needed: the functions on a header given by the caller are not bounded by the device; C94_write_primary_partial is what holds of them. Counted are the byte buffers whose length the disk or the caller determines (Memory.v); the nodes of the partition table and texts are not."),
  "C96": ("partial", "False: `pt_len as usize` drops the upper bits, so with 32 bits the checksum of an array of 2^25 entries covers none of them. C96_read_refuted: such a table with a wrong checksum is accepted; C96_write_refuted: a header is written whose array is not on the disk. C96_checked says exactly what is covered. What holds (C96_read_partial, C96_open_partial, C94_write, C94_session): no difference if the arrays described by the headers fit the memory."),
  "C25": ("partial", "False when the header says that block 0 is usable: without overflow checks the section reported then lies beyond the usable range (C25_first_zero_refuted), with overflow checks the call panics (C65). Proved for every header with a usable range from block 1 on and ending before block 2^64-1. C25_any_table says what is reported for tables with overlapping partitions: the blocks with an odd number of edges below them. C25_wrapped: in the release build, if two edges are 0, all blocks from 1 to 2^64-1 are reported first."),
  "C31": ("partial", "False when the header says that block 0 is usable: every span of usable blocks is then refused, with a panic under overflow checks (C31_first_zero_refuted). Proved for every header with a usable range from block 1 on and ending before block 2^64-1; the panic clause (C31_panics_only) without overflow checks for every call, with them unless the table grows and the larger array has 2^32 bytes or more."),
  "C97": ("partial", "False: both partition arrays are written before either header, so for every change of the table there is a moment at which neither copy is complete and the disk cannot be opened (C97_gap_refuted, for all disks; C97_steps lists the moments of one write). Proved: the primary header is not touched before the backup copy is complete, whatever was on the disk; a write that leaves the table bytes alone always leaves a complete copy; with readonly_backup a complete backup stays complete; opening needs a complete copy."),
  "C29": ("partial", "False in the release build for alignments close to 2^64, where add_partition places the partition beyond the usable blocks (C29_huge_alignment_refuted, as in C27). True for all other histories, and in the debug build for all; with change_partition_count set, for as long as no call needs more entries (C29_count_may_change_partial). C29_room bounds the additions instead of looking at the run."),
  "C104": ("partial", "The last sentence is false. C104_one_block_refuted: with both headers in one block the write fails (it always does, C104_one_block) after both arrays have been written. C104_backup_lost_refuted: with usable blocks up to the backup header the write succeeds and the backup array covers the backup header. The rest is proved: C104_places (any layout, any faults), C104_no_room, C104_written, and C104_written_readonly where the backup is not to be touched."),
  "C105": ("partial", "False for opening: the result of the seek to a header is not looked at, so a failed seek is reported as a bad signature (C105_open_refuted), or not at all (C62). C105_open_partial: true if the two headers were read without faults. Proved for everything else: C105_write, C105_write_back, C105_changes, C105_create, C105_single_calls."),
  "C23": ("partial", "False: C23_interrupted_write_refuted cuts a write after its first entry and the disk no longer opens. What holds: nothing outside the metadata is lost (C16) and repeating the write completes it. Which of the two copies is whole at each moment is C97, and what opening gives is C71."),
}
def main():
    thms = {}
    for f in sorted(glob.glob(os.path.join(ROOT, "rocq/theories/Props_*.v"))):
        for m in re.finditer(r"^Theorem ((C\d\d+)_\w+)", open(f).read(), re.M):
            thms.setdefault(m.group(2), []).append(m.group(1))
    props = [json.loads(l) for l in open(os.path.join(ROOT, "properties.jsonl"))]
    claims = []
    for p in props:
        i = p["id"]
        if i not in thms: continue
        st, note = NOTES.get(i, ("proved", ""))
        if i not in NOTES and any(t.endswith(("_partial", "_refuted")) for t in thms[i]):
            sys.exit("no note for " + i)
        claims.append({"property": i, "status": st, "theorems": thms[i], "note": note or p["title"]})
    with open(os.path.join(ROOT, "MANIFEST.json"), "w") as f:
        f.write('{"claims": [\n' + ",\n".join(json.dumps(c) for c in claims) + "\n]}\n")
    print(len(claims), "claims;", "missing:", [p["id"] for p in props if p["id"] not in thms])
main()
