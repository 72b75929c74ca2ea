(** Header.v - src/header/mod.rs and src/header/builder.rs. *)
From Verif Require Export Lb Crc32 Uuid.

(** [MIN_NUM_PARTS] (src/header/mod.rs:17). *)
Definition MIN_NUM_PARTS : N := 128.

(** [HeaderError] (src/header/mod.rs:19-48). *)
Inductive hdr_err : Type :=
| HIo (e : io_err)
| HInvalidGptSignature
| HInvalidCRC32Checksum
| HMissingBackupLba
| HBackupLbaToEarly
| HWritingToWrongLba
| HOverflow (m : string)
| HToSmallForBackup.

(** [HeaderError::lossy_clone] (src/header/mod.rs:50-63): an I/O error keeps only its kind. *)
Definition io_lossy (e : io_err) : io_err :=
  match e with IoOther _ => IoOther "" | _ => e end.
Definition lossy_clone (e : hdr_err) : hdr_err :=
  match e with HIo e => HIo (io_lossy e) | _ => e end.

(** [Header] (src/header/mod.rs:96-129).  [signature] is the UTF-8 bytes of the String. *)
Record header := mkHeader {
  signature : list byte;
  rev_major : N;       (* revision.0 : u16 *)
  rev_minor : N;       (* revision.1 : u16 *)
  header_size_le : N;  (* u32 *)
  crc32_hdr : N;       (* field crc32 : u32 *)
  reserved : N;        (* u32 *)
  current_lba : N;     (* u64 *)
  backup_lba : N;      (* u64 *)
  first_usable : N;    (* u64 *)
  last_usable : N;     (* u64 *)
  disk_guid : uuid;
  part_start : N;      (* u64 *)
  num_parts : N;       (* u32 *)
  part_size : N;       (* u32 *)
  crc32_parts : N      (* u32 *)
}.

Definition set_crc32_parts (h : header) (c : N) : header :=
  mkHeader (signature h) (rev_major h) (rev_minor h) (header_size_le h) (crc32_hdr h)
    (reserved h) (current_lba h) (backup_lba h) (first_usable h) (last_usable h)
    (disk_guid h) (part_start h) (num_parts h) (part_size h) c.
Definition set_crc32 (h : header) (c : N) : header :=
  mkHeader (signature h) (rev_major h) (rev_minor h) (header_size_le h) c
    (reserved h) (current_lba h) (backup_lba h) (first_usable h) (last_usable h)
    (disk_guid h) (part_start h) (num_parts h) (part_size h) (crc32_parts h).

(** The string "EFI PART". *)
Definition EFI_PART : list byte := [x45; x46; x49; x20; x50; x41; x52; x54].

(** [Header::to_bytes] (src/header/mod.rs:211-237): the checksum position and the 92-byte array.
    The signature is written as is, so a signature that is not 8 bytes long shifts the rest
    (and panics when it overflows the array). *)
Definition hdr_writer {E} (h : header) (partitions_checksum : N) : M warr E nat :=
  wr_bytes (signature h) ;;
  wr_le 2 (rev_minor h) ;;
  wr_le 2 (rev_major h) ;;
  wr_le 4 (header_size_le h) ;;
  let* checksum_position := wr_position in
  wr_le 4 0 ;;
  wr_le 4 0 ;;
  wr_le 8 (current_lba h) ;;
  wr_le 8 (backup_lba h) ;;
  wr_le 8 (first_usable h) ;;
  wr_le 8 (last_usable h) ;;
  wr_le 4 (uuid_d1 (disk_guid h)) ;;
  wr_le 2 (uuid_d2 (disk_guid h)) ;;
  wr_le 2 (uuid_d3 (disk_guid h)) ;;
  wr_bytes (uuid_d4 (disk_guid h)) ;;
  wr_le 8 (part_start h) ;;
  wr_le 4 (num_parts h) ;;
  wr_le 4 (part_size h) ;;
  wr_le 4 partitions_checksum ;;
  ret checksum_position.
Definition hdr_to_bytes {E} (h : header) (partitions_checksum : N) : outcome E (nat * warr) :=
  match hdr_writer h partitions_checksum (mkWarr (zeros 92) 0) with
  | (Ok p, w) => Ok (p, w)
  | (Err e, _) => Err e
  | (Panic, _) => Panic
  end.

(** [partentry_checksum] (src/header/mod.rs:413-440). *)
Definition partentry_checksum (h : header) (lb : lbsize) : M dev hdr_err N :=
  let* start := lift (ok_or (checked_mul64 (part_start h) (lb_u64 lb))
                        (HOverflow "header overflow - partition table start")) in
  map_err HIo (seek_start start) ;;
  let* pt_len := lift (ok_or (checked_mul64 (num_parts h) (part_size h))
                         (HOverflow "partition table - size")) in
  let* buf := map_err HIo (read_exact pt_len) in
  ret (crc32 buf).

(** [Header::file_write_header] (src/header/mod.rs:166-203).  [&mut self] and [&mut file] are
    both threaded: the header's checksum fields are updated on the way, also when a later step
    fails. *)
Definition file_write_header (h : header) (lba : N) (lb : lbsize) (d : dev)
  : outcome hdr_err N * (header * dev) :=
  match partentry_checksum h lb d with
  | (Err e, d) => (Err e, (h, d))
  | (Panic, d) => (Panic, (h, d))
  | (Ok parts_checksum, d) =>
    let h := set_crc32_parts h parts_checksum in
    match hdr_to_bytes (E := hdr_err) h parts_checksum with
    | Err e => (Err e, (h, d))
    | Panic => (Panic, (h, d))
    | Ok (checksum_pos, header_bytes) =>
      let checksum := crc32 (arr header_bytes) in
      let h := set_crc32 h checksum in
      match (wr_seek checksum_pos ;; wr_le 4 checksum) header_bytes with
      | (Err e, _) => (Err e, (h, d))
      | (Panic, _) => (Panic, (h, d))
      | (Ok tt, header_bytes) =>
        let m :=
          let* start := lift (ok_or (checked_mul64 lba (lb_u64 lb))
                                (HOverflow "writing header: lba * lbs")) in
          map_err HIo (seek_start start) ;;
          let bytes := firstn (N.to_nat (lb_u64 lb))
                         (arr header_bytes ++ zeros (N.to_nat (lb_u64 lb) - 92)) in
          map_err HIo (write_all bytes) ;;
          ret (lenN bytes) in
        let (r, d) := m d in (r, (h, d))
      end
    end
  end.

(** [Header::write_primary] (src/header/mod.rs:132-147). *)
Definition write_primary (h : header) (lb : lbsize) (d : dev)
  : outcome hdr_err N * (header * dev) :=
  if backup_lba h <=? current_lba h then (Err HWritingToWrongLba, (h, d))
  else file_write_header h (current_lba h) lb d.

(** [Header::write_backup] (src/header/mod.rs:149-164). *)
Definition write_backup (h : header) (lb : lbsize) (d : dev)
  : outcome hdr_err N * (header * dev) :=
  if current_lba h <=? backup_lba h then (Err HWritingToWrongLba, (h, d))
  else file_write_header h (current_lba h) lb d.

(** [Header::num_parts_would_change] (src/header/mod.rs:205-209). *)
Definition num_parts_would_change (h : header) (partitions_len : N) : bool :=
  negb (num_parts h =? N.max (N.max partitions_len MIN_NUM_PARTS) (num_parts h)).

(** The field reads of [file_read_header] after the signature (src/header/mod.rs:336-357);
    struct fields are evaluated in source order. *)
Definition read_fields (sig : list byte) : M (list byte) hdr_err header :=
  let* minor := rd_le 2 in
  let* major := rd_le 2 in
  let* hsize := rd_le 4 in
  let* crc := rd_le 4 in
  let* resv := rd_le 4 in
  let* cur := rd_le 8 in
  let* bak := rd_le 8 in
  let* fu := rd_le 8 in
  let* lu := rd_le 8 in
  let* g := map_err HIo parse_uuid in
  let* ps := rd_le 8 in
  let* np := rd_le 4 in
  let* psz := rd_le 4 in
  let* crcp := rd_le 4 in
  ret (mkHeader sig major minor hsize crc resv cur bak fu lu g ps np psz crcp).

(** [file_read_header] after the 92 bytes are in memory (src/header/mod.rs:330-373).
    [String::from_utf8_lossy(bytes) != "EFI PART"] is modelled as inequality of the bytes: lossy
    decoding inserts U+FFFD, which is not in that string, whenever the bytes are not UTF-8. *)
Definition parse_header (bytes : list byte) : outcome hdr_err header :=
  match rd_bytes (E := hdr_err) 8 bytes with
  | (Ok sig, rest) =>
      if negb (bytes_eqb sig EFI_PART) then Err HInvalidGptSignature else
      let? h := fst (read_fields sig rest) in
      let c := crc32 (splice 16 (zeros 4) bytes) in
      if c =? crc32_hdr h then Ok h else Err HInvalidCRC32Checksum
  | (Err e, _) => Err e
  | (Panic, _) => Panic
  end.

(** [file_read_header] (src/header/mod.rs:321-374).  The result of the seek is discarded. *)
Definition file_read_header (offset : N) : M dev hdr_err header :=
  let* _ := attempt (seek_start offset) in
  let* bytes := map_err HIo (read_exact 92) in
  lift (parse_header bytes).

(** [find_backup_lba] (src/header/mod.rs:376-401). *)
Definition find_backup_lba (lb : lbsize) : M dev hdr_err N :=
  let* old_pos := map_err HIo stream_position in
  let* len := map_err HIo seek_end in
  map_err HIo (seek_start old_pos) ;;
  if len <? lb_u64 lb * 3 then throw HToSmallForBackup
  else ret ((len - lb_u64 lb) / lb_u64 lb).

(** [stream_position().unwrap_or(0)] *)
Definition stream_position_or_0 : M dev hdr_err N :=
  let* r := attempt stream_position in
  ret (match r with Ok p => p | _ => 0 end).

(** [read_primary_header] (src/header/mod.rs:296-305); [read_header] (280-286) on an opened file
    and [read_header_from_arbitrary_device] (289-294) are the same function. *)
Definition read_primary_header (lb : lbsize) : M dev hdr_err header :=
  let* cur := stream_position_or_0 in
  let* res := attempt (file_read_header (lb_u64 lb)) in
  let* _ := attempt (seek_start cur) in
  lift res.

(** [read_backup_header] (src/header/mod.rs:307-319). *)
Definition read_backup_header (lb : lbsize) : M dev hdr_err header :=
  let* cur := stream_position_or_0 in
  let* h2sect := find_backup_lba lb in
  let* offset := lift (ok_or (checked_mul64 h2sect (lb_u64 lb))
                         (HOverflow "backup header overflow - offset")) in
  let* res := attempt (file_read_header offset) in
  let* _ := attempt (seek_start cur) in
  lift res.

(** [HeaderBuilder] (src/header/builder.rs:6-21). *)
Record builder := mkBuilder {
  b_primary : bool;
  b_disk_guid : uuid;
  b_primary_lba : N;
  b_backup_lba : N;
  b_first_usable : N;
  b_last_usable : N;
  b_num_parts : N;
  b_part_size : N
}.

(** [HeaderBuilder::new] (builder.rs:25-36); [rnd] is the value [Uuid::new_v4()] returned. *)
Definition builder_new (rnd : uuid) : builder :=
  mkBuilder true rnd 1 0 0 0 MIN_NUM_PARTS 128.

(** [HeaderBuilder::from_header] (builder.rs:39-58). *)
Definition builder_from_header (h : header) : builder :=
  let primary := current_lba h <? backup_lba h in
  mkBuilder primary (disk_guid h)
    (if primary then current_lba h else backup_lba h)
    (if primary then backup_lba h else current_lba h)
    (first_usable h) (last_usable h) (num_parts h) (part_size h).

(** [HeaderBuilder::from_maybe_header] (builder.rs:60-64). *)
Definition builder_from_maybe_header (o : outcome hdr_err header) (rnd : uuid) : builder :=
  match o with Ok h => builder_from_header h | _ => builder_new rnd end.

(** Setters (builder.rs:67-118). *)
Definition bset_primary (v : bool) (b : builder) : builder :=
  mkBuilder v (b_disk_guid b) (b_primary_lba b) (b_backup_lba b) (b_first_usable b)
    (b_last_usable b) (b_num_parts b) (b_part_size b).
Definition bset_disk_guid (v : uuid) (b : builder) : builder :=
  mkBuilder (b_primary b) v (b_primary_lba b) (b_backup_lba b) (b_first_usable b)
    (b_last_usable b) (b_num_parts b) (b_part_size b).
Definition bset_backup_lba (v : N) (b : builder) : builder :=
  mkBuilder (b_primary b) (b_disk_guid b) (b_primary_lba b) v (b_first_usable b)
    (b_last_usable b) (b_num_parts b) (b_part_size b).
Definition bset_first_usable (v : N) (b : builder) : builder :=
  mkBuilder (b_primary b) (b_disk_guid b) (b_primary_lba b) (b_backup_lba b) v
    (b_last_usable b) (b_num_parts b) (b_part_size b).
Definition bset_last_usable (v : N) (b : builder) : builder :=
  mkBuilder (b_primary b) (b_disk_guid b) (b_primary_lba b) (b_backup_lba b)
    (b_first_usable b) v (b_num_parts b) (b_part_size b).
Definition bset_num_parts (v : N) (b : builder) : builder :=
  mkBuilder (b_primary b) (b_disk_guid b) (b_primary_lba b) (b_backup_lba b)
    (b_first_usable b) (b_last_usable b) (N.max v MIN_NUM_PARTS) (b_part_size b).
Definition bset_part_size (v : N) (b : builder) : builder :=
  mkBuilder (b_primary b) (b_disk_guid b) (b_primary_lba b) (b_backup_lba b)
    (b_first_usable b) (b_last_usable b) (b_num_parts b) v.

(** [u64_div_ceil] (builder.rs:185-187); its arguments never make the sum exceed u64. *)
Definition div_ceil (lhs rhs : N) : N := (lhs + (rhs - 1)) / rhs.

(** [HeaderBuilder::build] (builder.rs:123-176). *)
Definition build (oc : bool) (b : builder) (lb : lbsize) : outcome hdr_err header :=
  if b_backup_lba b <? b_primary_lba b then Err HMissingBackupLba else
  let current := if b_primary b then b_primary_lba b else b_backup_lba b in
  let backup := if b_primary b then b_backup_lba b else b_primary_lba b in
  let? part_array_size := mulw oc 32 (b_num_parts b) (b_part_size b) in
  let part_array_lbs := div_ceil part_array_size (lb_u64 lb) in
  let first_usable := N.max (b_first_usable b) (1 + 1 + part_array_lbs) in
  let? lu_min := ok_or (checked_sub64 (b_backup_lba b) (part_array_lbs + 1)) HBackupLbaToEarly in
  let last_usable := N.max (b_last_usable b) lu_min in
  if last_usable <? first_usable then Err HBackupLbaToEarly else
  let? part_start := if b_primary b then addw oc 64 (b_primary_lba b) 1
                     else addw oc 64 last_usable 1 in
  Ok (mkHeader EFI_PART 1 0 92 0 0 current backup first_usable last_usable
        (b_disk_guid b) part_start (b_num_parts b) (b_part_size b) 0).

(** [write_header] (src/header/mod.rs:447-468) on an opened file; [rnd] is what [Uuid::new_v4()]
    inside [HeaderBuilder::new] returned.  The file is dropped afterwards. *)
Definition write_header (oc : bool) (uuid_opt : option uuid) (rnd : uuid) (lb : lbsize)
  : M dev hdr_err uuid :=
  let* bak := find_backup_lba lb in
  let b := builder_new rnd in
  let b := match uuid_opt with Some u => bset_disk_guid u b | None => b end in
  let* h := lift (build oc (bset_backup_lba bak b) lb) in
  fun d => match write_primary h lb d with
           | (Ok _, (h', d')) => (Ok (disk_guid h'), d')
           | (Err e, (_, d')) => (Err e, d')
           | (Panic, (_, d')) => (Panic, d')
           end.
