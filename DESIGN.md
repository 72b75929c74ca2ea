# Formal model of Quyzi/gpt in Rocq (Coq 8.16.1)

Source modelled: `/repo/src/*.rs` (crate `gpt`). Model, specification and proofs: `/verif/rocq/theories`.
Properties: `properties.jsonl`; which theorems answer which property: `MANIFEST.json`; attempts to break the
theorems by changing the model: `seeded/LOG.jsonl`.

## How the code is modelled

* Values: `u8` is `Coq.Init.Byte.byte`; `u16/u32/u64/usize` are `N` with explicit range hypotheses; `usize` is
  64-bit, except in Memory.v, where it has any number of bits. Plain Rust `+ - *` on machine words goes through `addw/subw/mulw`, parameterised by `oc : bool`
  ("overflow checks"): `oc = true` panics (debug profile), `oc = false` wraps (release profile). `checked_*`,
  `saturating_*` are modelled as such. Theorems quantify over `oc` unless they are about the difference.
* `Result`/panic: `outcome E A := Ok a | Err e | Panic`. Functions taking `&mut` become state-passing functions
  `S -> outcome E A * S`: on an error or a panic the state reached so far is kept, so partial effects are visible.
* Device (`Read + Write + Seek`): a byte list, a stream position, flags (`growable`: writes past the end extend the
  device as `Cursor<Vec<u8>>` and files do, or fail after a partial write as block devices and `Cursor<&mut [u8]>` do;
  `eof_moves`: where a failed `read_exact` leaves the position), a fault schedule and a durable image.
  The fault schedule is an arbitrary list: the k-th device operation takes the k-th element; `Some m` makes it fail
  after having transferred at most m bytes, `None` lets it through. A crash or a torn write after any byte of any
  write is thus one fault schedule, and "for every schedule" is "for every crash point and I/O error history".
* Randomness: each `Uuid::new_v4()` is an extra argument, universally quantified in the theorems.
* `BTreeMap<u32, Partition>`: association list sorted by key.
* `String` partition names: lists of Unicode scalar values; UTF-16 encode / lossy decode are written out.
* External crates, written out from their documented behaviour: `crc` (CRC-32/ISO-HDLC, bitwise), `uuid`
  (`as_fields`, `from_fields`, `try_parse`), `simple_bytes` (panicking cursor), `std` (`encode_utf16`,
  `from_utf16_lossy`, `BTreeMap`, `sort_unstable`, `Vec::resize`, `chunks_exact`).
* A history of API calls is a list of `op`; `run oc ops g` (Disk.v) gives the disk after it, or `None` on a panic.

## Where the model is simpler than the code

* Functions taking a path (`GptConfig::open`, `create`, `disk::read_disk`, `header::read_header`, `write_header`,
  `Partition::write`, `partition::read_partitions`) are modelled in Files.v as operations on a set of files with
  permissions. A path is a name of a file: directories and links are left out, and nobody else changes the files meanwhile.
  The properties other than C93 start from the opened file (`open_path`, `create_path`, ...).
* `read_exact`/`write_all` are one device operation each: short reads and writes and `Interrupted` are retried inside
  `std`. The loops of `std` are written out in StdIo.v, and C83 proves that every function, run on them over a device
  that splits and interrupts transfers, does what the one-operation model says. Reading or writing zero bytes does not
  reach the device.
* A device may be of any size; theorems that need it assume its length is below 2^64 (`addressable`). The `i64` limit
  of `File::seek` offsets, bad blocks and full file systems are failures chosen by the device; C110 (`offsets_below`,
  `bad_bytes`) proves that the theorems about all failure patterns hold for such devices too.
* `Header::signature` is its UTF-8 bytes; a signature that is not UTF-8 fails the comparison, as in the code.
* In `HeaderBuilder::new` reached through `init_headers` the random GUID is overwritten at once and left out.
* `device_ref`, `take_device` are the record field; `device_mut` hands out the device for arbitrary use: where it
  matters, theorems quantify over the device put back (`set_device`).

## Not modelled

`Debug` formatting, what is logged (that the `trace!`/`debug!` arguments are evaluated, and when, is modelled: the
rest of the model is the default build without `log` and `tracing`, and C92 compares the others with it), failure to
allocate anything but the byte buffers of Memory.v (the rest of the model has unlimited memory, and C94 says how much is
enough; the other places where a `u64` becomes a `usize`, in `src/mbr.rs`, `src/lib.rs` and `as_bytes`, have values below
2^32), concurrency (the API takes `&mut self`), the OS behind `File` beyond the
device contract above.

## Source to model

| Source | Model |
|---|---|
| `src/disk.rs` | Lb.v (`read_disk`: Files.v) |
| `src/header/mod.rs`, `src/header/builder.rs` | Header.v, Crc32.v, Uuid.v |
| `src/partition.rs` | Partition.v, Utf16.v, Uuid.v, Crc32.v |
| `src/partition_types.rs`, `src/macros.rs` | PartTypes.v (the complete table of types), Base.v (`ResultInsert`) |
| `src/mbr.rs` | Mbr.v |
| `src/lib.rs` | Disk.v, Device.v |
| `std::io` `default_read_exact`, `Write::write_all` | StdIo.v |
| `Display` in all files, `PartitionAttributes` | Text.v (what std prints for an I/O error is a parameter) |
| `Vec` buffers in `src/partition.rs`, `src/header/mod.rs` | Memory.v: the same functions with a limit on the length of a buffer and a `usize` of any number of bits |
| `src/logging.rs` | Logging.v: which arguments are evaluated when |
| `tests/fixtures/gpt-disk.img` | Fixture.v: the image, opened through the model, gives what the crate's tests expect |
| `tests/*.rs`, the `#[test]` functions in `src`, the examples in the documentation that run | CrateTests.v: the same calls and assertions on the model |

Each definition in these files carries the lines it models.

## Files

* Model: Base, Device, Crc32, Uuid, Utf16, PartTypes, Lb, Header, Partition, Mbr, Disk, Text, StdIo, Logging, Files, Memory; checks of the
  model: Fixture (a real disk image), CrateTests (every test of the crate, run through the model).
* Specification, written without the model's functions wherever possible (UEFI layout by byte ranges, arithmetic on
  blocks): Spec, SpecMbr, SpecTypes, SpecPanic, SpecFault, SpecSession, SpecQuery, SpecBlocks,
  SpecResize, SpecText, SpecCrash, SpecUefi, SpecCrc, SpecPublished, SpecPieces, SpecBlock0, SpecUndo, SpecIdle, SpecRival, SpecByHand, SpecBuilder,
  SpecClone, SpecReport, SpecFiles, SpecMemory, SpecCopies, SpecSettings, SpecPacking, SpecContents, SpecIdentity, SpecAccount, SpecAnyTable, SpecAnyLayout, SpecBlame, SpecWrap, SpecCareful, SpecRebuilt, SpecMoved, SpecCount, SpecMoody, SpecCalls.
* Property theorems: `Props_*.v`; one theorem or more per property, `Cnn_...`, each followed by `Print Assumptions` and
  examples of concrete cases that meet the hypotheses. A name ending in `_refuted` proves by a witness that the property
  as stated is false of the code; one ending in `_partial` is the strongest true version proved.
* Proofs: `*Facts.v`, Frame.v, CrcPoly.v, CrcBits.v, FixtureUefi.v. Sample disks for the examples: Samples.v.
* `tools/props.py`, `tools/manifest.py`, `tools/assumptions.py` generate properties.jsonl, MANIFEST.json and the table
  at the end of this file.

## Method per property

| Id | Model | Proof |
|---|---|---|
| C01-C03, C57 | `as_bytes`, entry parser, UTF-16 | codec round trip by list/le lemmas; UTF-16 by induction on the name |
| C04 | `write_to_device` | frame lemma for every fault schedule |
| C05 | length arithmetic | case analysis |
| C06, C07 | `to_bytes`, `file_write_header`, `file_read_header` | round trip, exact acceptance condition |
| C08, C09 | bitwise CRC | injectivity of the CRC step in state and in a 32-bit window |
| C10, C15 | all non-write API calls | compositional "pure on data" predicate over the state monad |
| C11, C12, C13 | `open_from_device` | exact description of the result; C13 refuted by crafted devices, exact otherwise |
| C14 | `write_inplace` | definitional on the guard, lifted to histories |
| C16, C24, C58, C59 | `write_inplace` | compositional frame predicate, every fault schedule |
| C17, C19, C20, C21 | `write_inplace`, `open_from_device` | explicit final image as nested patches, read back |
| C18, C22, C23 | same | refuted by concrete witnesses; what holds instead |
| C25, C26 | `find_free_sectors` | uniqueness of sorted permutation; gap lemma |
| C27, C28, C29, C60 | `add_partition` | first-fit optimality, induction on histories |
| C30, C31, C32 | `add_partition_at`, `find_next_partition_id` | direct; C30 refuted by witness, C31 and C25 where block 0 is usable |
| C33-C36 | `init_headers`, `num_parts_would_change`, `update_guid` | refuted by witness; partial positive versions |
| C37, C38 | `calculate_alignment`, removal | induction |
| C39-C43 | `HeaderBuilder`, `find_backup_lba`, `create_from_device` | arithmetic |
| C44-C48 | mbr.rs | codecs and frames |
| C49, C50 | type table, `from_str` | finite check lifted; C50 refuted for simple/braced/urn forms |
| C51 | `sync_all` | durable image equality |
| C52 | device swapping | direct |
| C53, C54 | overflow modes | refuted / equality under sane layout |
| C55, C56 | conversions, `write_header` | direct |
| C61, C62 | fault schedules | compositional "reports faults" / "traced" predicates over the state monad |
| C63 | histories, `write_inplace`, `open_from_device` | invariant of a session, induction on sessions |
| C64 | two block sizes on one device | where the other block size looks: an entry or block 0; refuted by a stale table |
| C65 | `find_free_sectors` | exact panic condition; invariant over histories |
| C66 | `open_from_device`, `update_partitions` | reading a prefix of the device; explicit rebuilt header; witnesses for what fails |
| C67, C68 | `Display` | taking the text apart from its end; case analysis |
| C69, C70 | names, bit flags | finite check; bitwise |
| C71 | `write_inplace` under faults, then `open_from_device` | the three stages of a write as an inductive; array = new up to byte k, old after; burst property of CRC-32; witness from the CRC polynomial |
| C72-C74 | adding, `update_partitions`, `init_headers`, `find_backup_lba` | a predicate preserved by queries; inversion of `build`; small witnesses |
| C75-C77 | reading, opening and writing against UEFI 5.3 | SpecUefi.v defines validity on the bytes alone; the image of a write satisfies it field by field; a valid disk satisfies `tidy`, so the invariants of C29 apply |
| C78 | bitwise CRC | one step of the register is one step of the division; congruence modulo the generator |
| C79-C81 | reading headers and arrays, `open_from_device` | a flipped bit adds a power of x to the remainder; no sum of at most four powers below x^768 is zero (search over pairs with a trie, checked by the kernel); the order of x is 2^32-1 (Fermat-type argument on its five prime factors); explicit trinomial for the limit |
| C82 | type table | independent table of published GUIDs, compared by computation, lifted to all entries and spellings |
| C83 | device calls | free monad of calls; induction over the answers for the loops, over the program for the rest; each function shown to be such a program |
| C84 | block 0 | relation of two devices that agree beyond byte 512, kept by every read at or beyond it; frames of C16 and C45 |
| C85 | `add_partition`, `add_partition_at`, `remove_partition` | what any successful addition leaves; extensionality of sorted tables |
| C86 | editing calls and `write_inplace` | two runs side by side, one of them saving: what the editing calls look at is the same |
| C87 | `open_from_device`, `write_inplace` with `readonly_backup` | opening depends on one header block and one array; a session's writes stay in the primary copy |
| C88 | `write_to_device`, `write_primary`, `open_from_device` | what a read finds in a slot of an array one entry of which was stored; the header's checksums follow the array |
| C89 | `HeaderBuilder`: `new`, `from_header`, setters, `build` | each field of the builder is the last value set; case analysis of `build` |
| C90 | `GptConfig` setters and `default`, `Clone`, `with_disk_device`, `update_disk_device`, every call on an open disk | a relation between two open disks that agree in all but the detail of header errors and the sync flag, preserved by every call |
| C91 | `primary_header`, `backup_header`, `header`, `lossy_clone` after `open_from_device`, `create_from_device` and any calls | a relation between the disk before and after a call (headers only become valid), transitive |
| C92 | `trace!`, `debug!`, `add_partition`, `add_partition_at`, `write_to_device`, `write_zero_entries_to_device` | the functions written with the point where the message is computed, compared call by call |
| C93 | `GptConfig::open`, `create`, `read_disk`, `read_header`, `write_header`, `Partition::write`, `read_partitions` | a set of files with permissions; frame lemmas of the device functions lifted to it |
| C94 | all functions that make a byte buffer | the same functions with a longest buffer; equal to the model where it suffices, by an invariant on the header in use over histories |
| C95 | opening, creating, reading, calls on an open disk | elements taken off the schedule of faults, added up along the code |
| C96 | functions that turn lengths into `usize` | the functions of C94 with truncation; CRC-32 of 2^32 zeros by squaring the matrix of one step |
| C97 | `write_inplace`, `open_from_device` | the stages of an interrupted write (C71); a schedule that stops right after the arrays, from counting the device operations of each call |
| C98 | every call on an open disk, `open_from_device`, `create_from_device` | each call under two configurations, composed through bind; refusals only before the first change of state; the two images a write can leave compared byte by byte |
| C99 | `add_partition` | exactness of C27, C28, C32 and C60; an invariant of the filled part (no free multiple of the alignment before its end) |
| C100 | `overwrite_lba0`, `create_from_device`, `add_partition`, `write`, `open_from_device` | the theorems about the single calls, put together: C43, C99, C76, C17, C16, C45 |
| C101 | `open_from_device`, `write_inplace` on two devices | two runs side by side (every read is of bytes that agree); explicit picture of the bytes after a write (C20, C31) and the stages of an interrupted write (C32) |
| C102 | histories (`run`), `remove_partition_by_guid`, sessions | what each call can add to the table; induction over histories and sessions (C63) |
| C103 | `find_free_sectors`, `add_partition`, `remove_partition` | C25 (free blocks are the complement) and counting: the blocks of sections and partitions are a permutation of the usable blocks |
| C25, C27, C28, C30 on tables with overlapping partitions | `find_free_sectors`, `add_partition`, `add_partition_at` | the sorted list of edges taken two at a time; the report is the set of blocks with an odd number of edges below |
| C104 | `write_inplace`, `HeaderBuilder::build`, `write_primary`, `write_backup` | the two headers built are computed for any layout; each stage then keeps the bytes outside the four places (`grown`), or is followed step by step as in C14 |
| C105 | all functions that use the device | `blames`: shown for each device operation, kept by `bind` and by passing errors on; then function by function |
| C106 | `find_free_sectors`, `add_partition`, `add_partition_at` without overflow checks | arithmetic modulo 2^64 pair by pair; the sections one after the other |
| C107 | all calls of an open disk but `update_disk_device` | each call keeps good order if it is sensible in the state in which it is made (induction over the history); the write and the reopening as in C63 |
| C108 | `update_partitions`, `init_headers`, `HeaderBuilder::build`, `add_partition`, `add_partition_at` | the builder's order made from the header in use; both builds by C89's rule |
| C109 | `update_disk_device`, `with_disk_device` and all calls of C107 | the invariant of C107 carries over to any device with room for the header in use; induction over the history |
| C110 | all functions that use the device | a device that chooses behaves, on a given program of calls, as one with a fixed pattern of failures: induction on the program; then the theorems for all patterns; for bad bytes and limited offsets the calls of opening are written out (SpecCalls.v) and followed |
| C31, C54 where the table grows | `add_partition`, `add_partition_at`, `init_headers` | what `build` needs in order not to overflow |
| C29, C33, C54, C63, C76 with `change_partition_count` (`..._room`) | same calls | a number of free entries kept by induction on the calls; C98 then gives the run with a fixed count |

## Trusted base

* Coq 8.16.1's kernel (and `coqchk`, which re-checks the compiled files). `vm_compute` is used for closed examples and
  witnesses. No native compilation, no plugins, no axioms of our own, no kernel check switched off.
* No theorem depends on an axiom: the table below is what `Print Assumptions` prints. The standard library files loaded
  contain the seven axioms of `Coq.ssr.ssrunder` (`Under_rel`, `Under_rel_from_rel`, `Under_relE`, `over_rel`,
  `over_rel_done`, `under_rel_done`, `Over_rel`: the parameters of a sealed module, brought in with the tactic
  language and `Lia`); `coqchk` lists them for the whole context, no theorem uses them.
* The reading of the Rust source (and of the documented behaviour of `std`, `crc`, `uuid`, `simple_bytes`) into the
  model is trusted. The code was not run: there is no network and no dependency here. Fixture.v checks the model
  against the disk image of the crate's own tests, CrateTests.v against the assertions of all its tests.
* The English of `properties.jsonl` against the statements of the theorems is for the reader to compare; the
  vocabulary they are stated in is in the `Spec*.v` files.

## Assumptions of each theorem

<!-- assumptions -->
| Property | Theorem | File | `Print Assumptions` |
|---|---|---|---|
| C01 | `C01_entry_round_trip` | Props_Entry | Closed under the global context |
| C02 | `C02_name_that_fits` | Props_Entry | Closed under the global context |
| C02 | `C02_name_any` | Props_Entry | Closed under the global context |
| C02 | `C02_name_reread` | Props_Entry | Closed under the global context |
| C03 | `C03_entry_size` | Props_Entry | Closed under the global context |
| C03 | `C03_entry_padding` | Props_Entry | Closed under the global context |
| C03 | `C03_zero_partition` | Props_Entry | Closed under the global context |
| C03 | `C03_entry_layout` | Props_Entry | Closed under the global context |
| C04 | `C04_entry_write_frame_partial` | Props_Entry | Closed under the global context |
| C04 | `C04_offset_overflow_is_an_error` | Props_Entry | Closed under the global context |
| C04 | `C04_sum_overflow_refuted` | Props_Entry | Closed under the global context |
| C04 | `C04_written` | Props_Exact | Closed under the global context |
| C05 | `C05_sectors_len` | Props_Entry | Closed under the global context |
| C05 | `C05_bytes_len` | Props_Entry | Closed under the global context |
| C05 | `C05_bytes_start` | Props_Entry | Closed under the global context |
| C06 | `C06_primary_round_trip` | Props_Header | Closed under the global context |
| C06 | `C06_backup_round_trip` | Props_Header | Closed under the global context |
| C06 | `C06_wrong_role_refused` | Props_Header | Closed under the global context |
| C07 | `C07_primary_header_acceptance` | Props_Header | Closed under the global context |
| C07 | `C07_backup_header_acceptance` | Props_Header | Closed under the global context |
| C07 | `C07_acceptance_unique` | Props_Header | Closed under the global context |
| C07 | `C07_reading_never_panics` | Props_Header | Closed under the global context |
| C08 | `C08_damaged_primary_header` | Props_Header | Closed under the global context |
| C08 | `C08_damaged_backup_header` | Props_Header | Closed under the global context |
| C08 | `C08_one_byte` | Props_Header | Closed under the global context |
| C08 | `C08_straddling_run_refuted` | Props_Header | Closed under the global context |
| C09 | `C09_damaged_array` | Props_Header | Closed under the global context |
| C09 | `C09_intact_array` | Props_Header | Closed under the global context |
| C09 | `C09_damaged_never_read` | Props_Success | Closed under the global context |
| C10 | `C10_open_changes_nothing` | Props_Open | Closed under the global context |
| C11 | `C11_header_error` | Props_Open | Closed under the global context |
| C11 | `C11_header_used` | Props_Open | Closed under the global context |
| C11 | `C11_table_unique` | Props_Open | Closed under the global context |
| C11 | `C11_by_path` | Props_Settings | Closed under the global context |
| C11 | `C11_opened` | Props_Success | Closed under the global context |
| C12 | `C12_only_valid_headers` | Props_Open | Closed under the global context |
| C12 | `C12_any_faults` | Props_Success | Closed under the global context |
| C13 | `C13_panics_exactly` | Props_Empty | Closed under the global context |
| C13 | `C13_read_partitions` | Props_Empty | Closed under the global context |
| C13 | `C13_entry_size_panics_refuted` | Props_Open | Closed under the global context |
| C13 | `C13_panics_iff_partial` | Props_Open | Closed under the global context |
| C13 | `C13_debug_open_partial` | Props_Open | Closed under the global context |
| C13 | `C13_empty_entries_refuted` | Props_Panic | Closed under the global context |
| C14 | `C14_read_only` | Props_Write | Closed under the global context |
| C14 | `C14_read_only_history` | Props_Write | Closed under the global context |
| C15 | `C15_calls_do_not_write` | Props_Write | Closed under the global context |
| C15 | `C15_history_without_write` | Props_Write | Closed under the global context |
| C15 | `C15_create_does_not_write` | Props_Write | Closed under the global context |
| C16 | `C16_write_frame` | Props_Write | Closed under the global context |
| C16 | `C16_usable_area_preserved` | Props_Write | Closed under the global context |
| C17 | `C17_write_then_open` | Props_Write | Closed under the global context |
| C17 | `C17_write_then_open_primary` | Props_Write | Closed under the global context |
| C18 | `C18_ids_stable_refuted` | Props_Write | Closed under the global context |
| C18 | `C18_ids_stable_partial` | Props_Write | Closed under the global context |
| C19 | `C19_copies_agree` | Props_Write | Closed under the global context |
| C20 | `C20_write_twice_readonly` | Props_Again | Closed under the global context |
| C20 | `C20_reopen_and_write_readonly_partial` | Props_Again | Closed under the global context |
| C20 | `C20_write_twice` | Props_Write | Closed under the global context |
| C20 | `C20_reopen_and_write_partial` | Props_Write | Closed under the global context |
| C20 | `C20_reopened_names` | Props_Write | Closed under the global context |
| C20 | `C20_reopen_and_write_refuted` | Props_Write | Closed under the global context |
| C21 | `C21_backup_is_used` | Props_Write | Closed under the global context |
| C21 | `C21_rewrite_restores_partial` | Props_Write | Closed under the global context |
| C21 | `C21_rewrite_restores_refuted` | Props_Write | Closed under the global context |
| C22 | `C22_damaged_array_fallback_refuted` | Props_Write | Closed under the global context |
| C22 | `C22_damaged_array_reported_partial` | Props_Write | Closed under the global context |
| C23 | `C23_interrupted_write_refuted` | Props_Write | Closed under the global context |
| C23 | `C23_retry_completes_partial` | Props_Write | Closed under the global context |
| C24 | `C24_readonly_backup` | Props_Write | Closed under the global context |
| C25 | `C25_free_space_partial` | Props_Alloc | Closed under the global context |
| C25 | `C25_sections_unique` | Props_Alloc | Closed under the global context |
| C25 | `C25_any_table` | Props_AnyTable | Closed under the global context |
| C25 | `C25_wrapped` | Props_AnyTable | Closed under the global context |
| C25 | `C25_first_zero_refuted` | Props_Exact | Closed under the global context |
| C26 | `C26_order_irrelevant` | Props_Alloc | Closed under the global context |
| C27 | `C27_lowest_position_partial` | Props_Alloc | Closed under the global context |
| C27 | `C27_huge_alignment_refuted` | Props_Alloc | Closed under the global context |
| C27 | `C27_any_table` | Props_AnyTable | Closed under the global context |
| C27 | `C27_wrapped_refuted` | Props_AnyTable | Closed under the global context |
| C28 | `C28_not_enough_space_partial` | Props_Alloc | Closed under the global context |
| C28 | `C28_alignment_panics_refuted` | Props_Alloc | Closed under the global context |
| C28 | `C28_any_table` | Props_AnyTable | Closed under the global context |
| C29 | `C29_no_overlap_partial` | Props_Alloc | Closed under the global context |
| C29 | `C29_huge_alignment_refuted` | Props_Alloc | Closed under the global context |
| C29 | `C29_no_overlap_created_partial` | Props_Build | Closed under the global context |
| C29 | `C29_room` | Props_Room | Closed under the global context |
| C29 | `C29_count_may_change_partial` | Props_Settings | Closed under the global context |
| C30 | `C30_overlap_refuted` | Props_Alloc | Closed under the global context |
| C30 | `C30_what_is_checked_partial` | Props_Alloc | Closed under the global context |
| C30 | `C30_any_table` | Props_AnyTable | Closed under the global context |
| C31 | `C31_panics_only` | Props_AddPanic | Closed under the global context |
| C31 | `C31_legal_accepted_partial` | Props_Alloc | Closed under the global context |
| C31 | `C31_id_in_use` | Props_Alloc | Closed under the global context |
| C31 | `C31_panics_only_partial` | Props_Alloc | Closed under the global context |
| C31 | `C31_first_zero_refuted` | Props_Exact | Closed under the global context |
| C32 | `C32_next_id` | Props_Alloc | Closed under the global context |
| C32 | `C32_no_overwrite_partial` | Props_Alloc | Closed under the global context |
| C32 | `C32_overwrite_refuted` | Props_Count | Closed under the global context |
| C33 | `C33_count_shrinks_refuted` | Props_Count | Closed under the global context |
| C33 | `C33_count_fixed_partial` | Props_Count | Closed under the global context |
| C33 | `C33_created_partial` | Props_Count | Closed under the global context |
| C33 | `C33_room` | Props_Room | Closed under the global context |
| C34 | `C34_growth_overlaps_refuted` | Props_Count | Closed under the global context |
| C34 | `C34_growth_always_overlaps_refuted` | Props_Count | Closed under the global context |
| C34 | `C34_growth_partial` | Props_Count | Closed under the global context |
| C35 | `C35_write_overflow_refuted` | Props_Count | Closed under the global context |
| C35 | `C35_written_partial` | Props_Count | Closed under the global context |
| C35 | `C35_created_partial` | Props_Count | Closed under the global context |
| C35 | `C35_opened_partial` | Props_Count | Closed under the global context |
| C36 | `C36_old_guid_refuted` | Props_Count | Closed under the global context |
| C36 | `C36_guid_lost_refuted` | Props_Count | Closed under the global context |
| C36 | `C36_persisted_partial` | Props_Count | Closed under the global context |
| C37 | `C37_alignment` | Props_Alloc | Closed under the global context |
| C38 | `C38_remove` | Props_Alloc | Closed under the global context |
| C38 | `C38_remove_by_guid` | Props_Alloc | Closed under the global context |
| C39 | `C39_build_from_scratch` | Props_Build | Closed under the global context |
| C40 | `C40_last_usable_refuted` | Props_Build | Closed under the global context |
| C40 | `C40_rebuild_partial` | Props_Build | Closed under the global context |
| C40 | `C40_what_changes_partial` | Props_Build | Closed under the global context |
| C41 | `C41_backup_location` | Props_Header | Closed under the global context |
| C41 | `C41_last_whole_block` | Props_Header | Closed under the global context |
| C42 | `C42_position_unknown` | Props_Exact | Closed under the global context |
| C42 | `C42_position_restored` | Props_Header | Closed under the global context |
| C43 | `C43_create` | Props_Build | Closed under the global context |
| C43 | `C43_created_tidy` | Props_Build | Closed under the global context |
| C43 | `C43_create_write_open` | Props_Build | Closed under the global context |
| C43 | `C43_by_path` | Props_Settings | Closed under the global context |
| C44 | `C44_round_trip` | Props_Mbr | Closed under the global context |
| C44 | `C44_parse` | Props_Mbr | Closed under the global context |
| C44 | `C44_record` | Props_Mbr | Closed under the global context |
| C45 | `C45_only_its_bytes` | Props_Mbr | Closed under the global context |
| C45 | `C45_success` | Props_Mbr | Closed under the global context |
| C45 | `C45_succeeds` | Props_Mbr | Closed under the global context |
| C46 | `C46_overwrite_read` | Props_Mbr | Closed under the global context |
| C46 | `C46_write_read` | Props_Mbr | Closed under the global context |
| C46 | `C46_reads_agree` | Props_Mbr | Closed under the global context |
| C46 | `C46_reads_only_read` | Props_Mbr | Closed under the global context |
| C46 | `C46_update_keeps` | Props_Mbr | Closed under the global context |
| C47 | `C47_partition` | Props_Mbr | Closed under the global context |
| C47 | `C47_set_partition` | Props_Mbr | Closed under the global context |
| C47 | `C47_setters` | Props_Mbr | Closed under the global context |
| C48 | `C48_covers` | Props_Mbr | Closed under the global context |
| C48 | `C48_default` | Props_Mbr | Closed under the global context |
| C48 | `C48_on_disk` | Props_Mbr | Closed under the global context |
| C49 | `C49_found` | Props_Types | Closed under the global context |
| C49 | `C49_distinct` | Props_Types | Closed under the global context |
| C49 | `C49_unknown` | Props_Types | Closed under the global context |
| C50 | `C50_simple_form_refuted` | Props_Types | Closed under the global context |
| C50 | `C50_case_refuted` | Props_Types | Closed under the global context |
| C50 | `C50_hyphenated_partial` | Props_Types | Closed under the global context |
| C50 | `C50_other_forms_partial` | Props_Types | Closed under the global context |
| C50 | `C50_accepted_partial` | Props_Types | Closed under the global context |
| C50 | `C50_case_partial` | Props_Types | Closed under the global context |
| C51 | `C51_write_is_durable` | Props_Write | Closed under the global context |
| C52 | `C52_with_disk_device` | Props_Write | Closed under the global context |
| C52 | `C52_write_to_new_device` | Props_Write | Closed under the global context |
| C52 | `C52_update_and_clone` | Props_Write | Closed under the global context |
| C53 | `C53_last_usable_refuted` | Props_Panic | Closed under the global context |
| C53 | `C53_release_partial` | Props_Panic | Closed under the global context |
| C53 | `C53_release_created_partial` | Props_Panic | Closed under the global context |
| C53 | `C53_debug_partial` | Props_Panic | Closed under the global context |
| C53 | `C53_debug_panics_iff_partial` | Props_Panic | Closed under the global context |
| C53 | `C53_small_disk_partial` | Props_Panic | Closed under the global context |
| C54 | `C54_growing` | Props_AddPanic | Closed under the global context |
| C54 | `C54_debug_determines_release` | Props_Panic | Closed under the global context |
| C54 | `C54_histories` | Props_Panic | Closed under the global context |
| C54 | `C54_agree` | Props_Panic | Closed under the global context |
| C54 | `C54_room` | Props_Room | Closed under the global context |
| C55 | `C55_conversion` | Props_Types | Closed under the global context |
| C55 | `C55_back` | Props_Types | Closed under the global context |
| C56 | `C56_write_header` | Props_Build | Closed under the global context |
| C56 | `C56_only_block_1` | Props_Build | Closed under the global context |
| C57 | `C57_array_meaning` | Props_Entry | Closed under the global context |
| C57 | `C57_entry_meaning_unique` | Props_Entry | Closed under the global context |
| C57 | `C57_whenever_read` | Props_Success | Closed under the global context |
| C57 | `C57_parse_uuid` | Props_Success | Closed under the global context |
| C58 | `C58_last_usable_raised_refuted` | Props_More | Closed under the global context |
| C58 | `C58_usable_range_partial` | Props_More | Closed under the global context |
| C59 | `C59_contents_overwritten_refuted` | Props_More | Closed under the global context |
| C59 | `C59_contents_kept_partial` | Props_More | Closed under the global context |
| C60 | `C60_small_table_refuted` | Props_More | Closed under the global context |
| C60 | `C60_added_partial` | Props_More | Closed under the global context |
| C61 | `C61_write` | Props_Fault | Closed under the global context |
| C61 | `C61_update_partitions` | Props_Fault | Closed under the global context |
| C61 | `C61_add_partition` | Props_Fault | Closed under the global context |
| C61 | `C61_add_partition_at` | Props_Fault | Closed under the global context |
| C61 | `C61_create` | Props_Fault | Closed under the global context |
| C61 | `C61_single_calls` | Props_Fault | Closed under the global context |
| C61 | `C61_mbr` | Props_Fault | Closed under the global context |
| C61 | `C61_write_back` | Props_Success | Closed under the global context |
| C62 | `C62_wrong_primary_refuted` | Props_Fault | Closed under the global context |
| C62 | `C62_opened_under_faults_partial` | Props_Fault | Closed under the global context |
| C62 | `C62_no_fault_partial` | Props_Fault | Closed under the global context |
| C63 | `C63_room` | Props_Room | Closed under the global context |
| C63 | `C63_room_sessions` | Props_Room | Closed under the global context |
| C63 | `C63_session` | Props_Session | Closed under the global context |
| C63 | `C63_sessions` | Props_Session | Closed under the global context |
| C63 | `C63_created` | Props_Session | Closed under the global context |
| C64 | `C64_small_as_large_partial` | Props_Blocks | Closed under the global context |
| C64 | `C64_large_as_small_partial` | Props_Blocks | Closed under the global context |
| C64 | `C64_stale_table_refuted` | Props_Blocks | Closed under the global context |
| C65 | `C65_find_free_refuted` | Props_Query | Closed under the global context |
| C65 | `C65_free_panics_iff_partial` | Props_Query | Closed under the global context |
| C65 | `C65_opened_partial` | Props_Query | Closed under the global context |
| C65 | `C65_created_partial` | Props_Query | Closed under the global context |
| C66 | `C66_opens` | Props_Resize | Closed under the global context |
| C66 | `C66_moved_partial` | Props_Resize | Closed under the global context |
| C66 | `C66_grown_partial` | Props_Resize | Closed under the global context |
| C66 | `C66_write_alone_refuted` | Props_Resize | Closed under the global context |
| C66 | `C66_backup_lost_refuted` | Props_Resize | Closed under the global context |
| C66 | `C66_shrunk_refuted` | Props_Resize | Closed under the global context |
| C67 | `C67_partition` | Props_Text | Closed under the global context |
| C67 | `C67_partition_unique` | Props_Text | Closed under the global context |
| C67 | `C67_header` | Props_Text | Closed under the global context |
| C67 | `C67_header_unique` | Props_Text | Closed under the global context |
| C67 | `C67_reread` | Props_Text | Closed under the global context |
| C67 | `C67_block_size` | Props_Text | Closed under the global context |
| C68 | `C68_gpt_message` | Props_Text | Closed under the global context |
| C68 | `C68_header_message` | Props_Text | Closed under the global context |
| C68 | `C68_mbr_message` | Props_Text | Closed under the global context |
| C69 | `C69_names_partial` | Props_Text | Closed under the global context |
| C69 | `C69_no_name_refuted` | Props_Text | Closed under the global context |
| C69 | `C69_case_refuted` | Props_Text | Closed under the global context |
| C70 | `C70_bits` | Props_Text | Closed under the global context |
| C70 | `C70_from_bits` | Props_Text | Closed under the global context |
| C71 | `C71_old_new_or_error_partial` | Props_Crash | Closed under the global context |
| C71 | `C71_small_change` | Props_Crash | Closed under the global context |
| C71 | `C71_second_write_partial` | Props_Crash | Closed under the global context |
| C71 | `C71_mixture_refuted` | Props_Crash | Closed under the global context |
| C71 | `C71_readonly_partial` | Props_CrashReadonly | Closed under the global context |
| C72 | `C72_failed_add_refuted` | Props_Refuse | Closed under the global context |
| C72 | `C72_failed_update_refuted` | Props_Refuse | Closed under the global context |
| C72 | `C72_refused_partial` | Props_Refuse | Closed under the global context |
| C72 | `C72_fixed_count_partial` | Props_Refuse | Closed under the global context |
| C72 | `C72_write` | Props_Refuse | Closed under the global context |
| C73 | `C73_refused` | Props_Refuse | Closed under the global context |
| C73 | `C73_accepted` | Props_Refuse | Closed under the global context |
| C74 | `C74_too_small` | Props_Refuse | Closed under the global context |
| C74 | `C74_too_small_faults` | Props_Refuse | Closed under the global context |
| C74 | `C74_too_small_new` | Props_Success | Closed under the global context |
| C75 | `C75_acceptance_partial` | Props_Uefi | Closed under the global context |
| C75 | `C75_long_header_refuted` | Props_Uefi | Closed under the global context |
| C75 | `C75_wrong_block_refuted` | Props_Uefi | Closed under the global context |
| C76 | `C76_room` | Props_Room | Closed under the global context |
| C76 | `C76_written` | Props_Uefi | Closed under the global context |
| C76 | `C76_created` | Props_Uefi | Closed under the global context |
| C76 | `C76_readonly_backup_refuted` | Props_Uefi | Closed under the global context |
| C76 | `C76_add_at_refuted` | Props_Uefi | Closed under the global context |
| C77 | `C77_opens` | Props_Uefi | Closed under the global context |
| C77 | `C77_stays_valid` | Props_Uefi | Closed under the global context |
| C78 | `C78_crc` | Props_Crc | Closed under the global context |
| C78 | `C78_headers` | Props_Crc | Closed under the global context |
| C78 | `C78_arrays` | Props_Crc | Closed under the global context |
| C79 | `C79_primary_header` | Props_Crc | Closed under the global context |
| C79 | `C79_backup_header` | Props_Crc | Closed under the global context |
| C80 | `C80_arrays` | Props_Crc | Closed under the global context |
| C80 | `C80_three_bits_unnoticed` | Props_Crc | Closed under the global context |
| C80 | `C80_three_bits_on_test_image` | Props_Crc | Closed under the global context |
| C81 | `C81_disk` | Props_Crc | Closed under the global context |
| C81 | `C81_three_bits` | Props_Crc | Closed under the global context |
| C82 | `C82_published` | Props_Published | Closed under the global context |
| C83 | `C83_programs` | Props_Pieces | Closed under the global context |
| C83 | `C83_failures` | Props_Pieces | Closed under the global context |
| C83 | `C83_device_functions` | Props_Pieces | Closed under the global context |
| C83 | `C83_opening` | Props_Pieces | Closed under the global context |
| C83 | `C83_calls` | Props_Pieces | Closed under the global context |
| C83 | `C83_write` | Props_Pieces | Closed under the global context |
| C83 | `C83_any_piece` | Props_Pieces | Closed under the global context |
| C83 | `C83_no_more_than_asked` | Props_Pieces | Closed under the global context |
| C84 | `C84_record_calls` | Props_Block0 | Closed under the global context |
| C84 | `C84_record_calls_opened` | Props_Block0 | Closed under the global context |
| C84 | `C84_write_keeps_record` | Props_Block0 | Closed under the global context |
| C84 | `C84_either_order` | Props_Block0 | Closed under the global context |
| C84 | `C84_write_keeps_record_refuted` | Props_Block0 | Closed under the global context |
| C84 | `C84_record_calls_refuted` | Props_Block0 | Closed under the global context |
| C85 | `C85_add_then_remove` | Props_Undo | Closed under the global context |
| C85 | `C85_add_then_remove_tidy` | Props_Undo | Closed under the global context |
| C85 | `C85_add_at_then_remove` | Props_Undo | Closed under the global context |
| C85 | `C85_remove_then_add_at` | Props_Undo | Closed under the global context |
| C85 | `C85_grown_refuted` | Props_Undo | Closed under the global context |
| C86 | `C86_saves_leave_no_trace` | Props_Idle | Closed under the global context |
| C86 | `C86_saves_leave_no_trace_refuted` | Props_Idle | Closed under the global context |
| C87 | `C87_primary_decides` | Props_Rival | Closed under the global context |
| C87 | `C87_write_unites` | Props_Rival | Closed under the global context |
| C87 | `C87_readonly_fallback` | Props_Rival | Closed under the global context |
| C87 | `C87_strict_refuted` | Props_Rival | Closed under the global context |
| C87 | `C87_found_after_loss_refuted` | Props_Rival | Closed under the global context |
| C88 | `C88_replace` | Props_ByHand | Closed under the global context |
| C88 | `C88_clear` | Props_ByHand | Closed under the global context |
| C88 | `C88_unfinished` | Props_ByHand | Closed under the global context |
| C88 | `C88_header_first` | Props_ByHand | Closed under the global context |
| C88 | `C88_backup_replace` | Props_ByHand | Closed under the global context |
| C88 | `C88_backup_clear` | Props_ByHand | Closed under the global context |
| C89 | `C89_one_order` | Props_Builder | Closed under the global context |
| C89 | `C89_same_order` | Props_Builder | Closed under the global context |
| C89 | `C89_built` | Props_Builder | Closed under the global context |
| C89 | `C89_too_large` | Props_Builder | Closed under the global context |
| C89 | `C89_wrapped_refuted` | Props_Builder | Closed under the global context |
| C89 | `C89_last_refuted` | Props_Builder | Closed under the global context |
| C89 | `C89_last_iff` | Props_Builder | Closed under the global context |
| C89 | `C89_release` | Props_Builder | Closed under the global context |
| C89 | `C89_panics_iff` | Props_Builder | Closed under the global context |
| C90 | `C90_configured` | Props_Clone | Closed under the global context |
| C90 | `C90_read_only` | Props_Clone | Closed under the global context |
| C90 | `C90_clone` | Props_Clone | Closed under the global context |
| C90 | `C90_other_device` | Props_Clone | Closed under the global context |
| C90 | `C90_copy_not_synced_refuted` | Props_Clone | Closed under the global context |
| C91 | `C91_header` | Props_Report | Closed under the global context |
| C91 | `C91_opened` | Props_Report | Closed under the global context |
| C91 | `C91_cause` | Props_Report | Closed under the global context |
| C91 | `C91_created` | Props_Report | Closed under the global context |
| C91 | `C91_conversation` | Props_Report | Closed under the global context |
| C91 | `C91_kept` | Props_Report | Closed under the global context |
| C92 | `C92_add` | Props_Logging | Closed under the global context |
| C92 | `C92_add_at` | Props_Logging | Closed under the global context |
| C92 | `C92_write` | Props_Logging | Closed under the global context |
| C92 | `C92_history` | Props_Logging | Closed under the global context |
| C92 | `C92_suppressed_refuted` | Props_Logging | Closed under the global context |
| C93 | `C93_permission` | Props_Files | Closed under the global context |
| C93 | `C93_reading` | Props_Files | Closed under the global context |
| C93 | `C93_writing` | Props_Files | Closed under the global context |
| C93 | `C93_in_use` | Props_Files | Closed under the global context |
| C93 | `C93_synced` | Props_Files | Closed under the global context |
| C93 | `C93_saved` | Props_Files | Closed under the global context |
| C94 | `C94_open` | Props_Memory | Closed under the global context |
| C94 | `C94_read_partitions` | Props_Memory | Closed under the global context |
| C94 | `C94_write` | Props_Memory | Closed under the global context |
| C94 | `C94_session` | Props_Memory | Closed under the global context |
| C94 | `C94_created` | Props_Memory | Closed under the global context |
| C94 | `C94_write_header` | Props_Memory | Closed under the global context |
| C94 | `C94_write_primary_refuted` | Props_Memory | Closed under the global context |
| C94 | `C94_write_primary_partial` | Props_Memory | Closed under the global context |
| C94 | `C94_entries` | Props_Memory | Closed under the global context |
| C95 | `C95_open` | Props_Memory | Closed under the global context |
| C95 | `C95_create` | Props_Memory | Closed under the global context |
| C95 | `C95_calls` | Props_Memory | Closed under the global context |
| C95 | `C95_read` | Props_Memory | Closed under the global context |
| C96 | `C96_read_partial` | Props_Word | Closed under the global context |
| C96 | `C96_open_partial` | Props_Word | Closed under the global context |
| C96 | `C96_checked` | Props_Word | Closed under the global context |
| C96 | `C96_read_refuted` | Props_Word | Closed under the global context |
| C96 | `C96_write_refuted` | Props_Word | Closed under the global context |
| C96 | `C96_zero_entries` | Props_Word | Closed under the global context |
| C97 | `C97_opened` | Props_Copies | Closed under the global context |
| C97 | `C97_gap_refuted` | Props_Copies | Closed under the global context |
| C97 | `C97_backup_first_partial` | Props_Copies | Closed under the global context |
| C97 | `C97_same_table_partial` | Props_Copies | Closed under the global context |
| C97 | `C97_readonly_partial` | Props_Copies | Closed under the global context |
| C98 | `C98_permission` | Props_Settings | Closed under the global context |
| C98 | `C98_refused` | Props_Settings | Closed under the global context |
| C98 | `C98_enough` | Props_Settings | Closed under the global context |
| C98 | `C98_open` | Props_Settings | Closed under the global context |
| C98 | `C98_create` | Props_Settings | Closed under the global context |
| C98 | `C98_readonly_backup` | Props_Settings | Closed under the global context |
| C99 | `C99_monotone` | Props_Packing | Closed under the global context |
| C99 | `C99_fill` | Props_Packing | Closed under the global context |
| C99 | `C99_full` | Props_Packing | Closed under the global context |
| C99 | `C99_created` | Props_Packing | Closed under the global context |
| C100 | `C100_workflow` | Props_Workflow | Closed under the global context |
| C101 | `C101_opening_looks_at` | Props_Contents | Closed under the global context |
| C101 | `C101_contents_unseen` | Props_Contents | Closed under the global context |
| C101 | `C101_writing_puts_down` | Props_Contents | Closed under the global context |
| C102 | `C102_history` | Props_Identity | Closed under the global context |
| C102 | `C102_remove_the_one` | Props_Identity | Closed under the global context |
| C102 | `C102_sessions` | Props_Identity | Closed under the global context |
| C102 | `C102_lasting_name` | Props_Identity | Closed under the global context |
| C103 | `C103_balance` | Props_Account | Closed under the global context |
| C103 | `C103_add` | Props_Account | Closed under the global context |
| C103 | `C103_remove` | Props_Account | Closed under the global context |
| C103 | `C103_largest` | Props_Account | Closed under the global context |
| C103 | `C103_full` | Props_Account | Closed under the global context |
| C103 | `C103_read_back` | Props_Account | Closed under the global context |
| C104 | `C104_places` | Props_AnyLayout | Closed under the global context |
| C104 | `C104_no_room` | Props_AnyLayout | Closed under the global context |
| C104 | `C104_written` | Props_AnyLayout | Closed under the global context |
| C104 | `C104_one_block` | Props_AnyLayout | Closed under the global context |
| C104 | `C104_one_block_refuted` | Props_AnyLayout | Closed under the global context |
| C104 | `C104_backup_lost_refuted` | Props_AnyLayout | Closed under the global context |
| C104 | `C104_written_readonly` | Props_AnyLayout | Closed under the global context |
| C105 | `C105_write` | Props_Blame | Closed under the global context |
| C105 | `C105_write_back` | Props_Blame | Closed under the global context |
| C105 | `C105_changes` | Props_Blame | Closed under the global context |
| C105 | `C105_create` | Props_Blame | Closed under the global context |
| C105 | `C105_single_calls` | Props_Blame | Closed under the global context |
| C105 | `C105_open_refuted` | Props_Blame | Closed under the global context |
| C105 | `C105_open_partial` | Props_Blame | Closed under the global context |
| C106 | `C106_report` | Props_Wrap | Closed under the global context |
| C106 | `C106_report_unique` | Props_Wrap | Closed under the global context |
| C106 | `C106_add` | Props_Wrap | Closed under the global context |
| C106 | `C106_alignment_zero` | Props_Wrap | Closed under the global context |
| C106 | `C106_at` | Props_Wrap | Closed under the global context |
| C107 | `C107_history` | Props_Careful | Closed under the global context |
| C107 | `C107_update_accepted` | Props_Careful | Closed under the global context |
| C107 | `C107_session` | Props_Careful | Closed under the global context |
| C107 | `C107_sessions` | Props_Careful | Closed under the global context |
| C107 | `C107_created` | Props_Careful | Closed under the global context |
| C108 | `C108_update` | Props_Rebuilt | Closed under the global context |
| C108 | `C108_update_result` | Props_Rebuilt | Closed under the global context |
| C108 | `C108_add` | Props_Rebuilt | Closed under the global context |
| C108 | `C108_add_at` | Props_Rebuilt | Closed under the global context |
| C109 | `C109_history` | Props_Moved | Closed under the global context |
| C109 | `C109_saved` | Props_Moved | Closed under the global context |
| C109 | `C109_writes` | Props_Moved | Closed under the global context |
| C110 | `C110_open_calls` | Props_BadBlock | Closed under the global context |
| C110 | `C110_bad_primary` | Props_BadBlock | Closed under the global context |
| C110 | `C110_bad_array` | Props_BadBlock | Closed under the global context |
| C110 | `C110_not_noticed` | Props_BadBlock | Closed under the global context |
| C110 | `C110_bad_primary_refused` | Props_BadBlock | Closed under the global context |
| C110 | `C110_bad_backup` | Props_BadBlock | Closed under the global context |
| C110 | `C110_programs` | Props_Moody | Closed under the global context |
| C110 | `C110_device_functions` | Props_Moody | Closed under the global context |
| C110 | `C110_open` | Props_Moody | Closed under the global context |
| C110 | `C110_write_success` | Props_Moody | Closed under the global context |
| C110 | `C110_write_keeps` | Props_Moody | Closed under the global context |
| C110 | `C110_history` | Props_Moody | Closed under the global context |
| C110 | `C110_unreadable_primary` | Props_Moody | Closed under the global context |
| C110 | `C110_unreadable_refused` | Props_Moody | Closed under the global context |
| C110 | `C110_offsets` | Props_Offsets | Closed under the global context |
| C110 | `C110_offset_refused` | Props_Offsets | Closed under the global context |
