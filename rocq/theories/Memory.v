(** Memory.v - the byte buffers the library asks for, on machines that have less memory or a shorter [usize]. *)
From Verif Require Export Disk.
Open Scope list_scope.
Open Scope N_scope.

(** The machine: how many bits a [usize] has and the length of the longest buffer the program can get.  [Vec] panics
    ("capacity overflow") for lengths above [isize::MAX]; for others the process is aborted if the allocator fails.  Both are
    [Panic] here: the call does not return.  Counted are the buffers whose length the caller or the disk determines; arrays of
    fixed size on the stack, texts and the nodes of the partition table are not.  The rest of the model is a machine with a
    [usize] of 64 bits and unlimited memory. *)
Record machine := mkMachine { m_bits : N; m_mem : N }.
Definition buffer {S E} (mc : machine) (n : N) : M S E unit := if n <=? m_mem mc then ret tt else panic.
(** [n as usize] for [n : u64] drops the upper bits, [usize::try_from(n).ok()] does not. *)
Definition as_usize (mc : machine) (n : N) : N := n mod 2 ^ m_bits mc.
Definition try_usize (mc : machine) (n : option N) : option N :=
  match n with Some n => if n <? 2 ^ m_bits mc then Some n else None | None => None end.

(** [Partition::as_bytes] (src/partition.rs:63-96): [Vec::with_capacity(entry_size)], grown to the 128 bytes of an entry,
    cut or extended to [entry_size].  [Partition::write_to_device] (111-135). *)
Definition write_to_device_in (mc : machine) (oc : bool) (p : partition) (partition_index start_lba : N)
    (lb : lbsize) (bytes_per_partition : N) : M dev io_err unit :=
  let* pstart := lift (ok_or (checked_mul64 start_lba (lb_u64 lb))
                         (IoOther "partition overflow - start offset")) in
  let* offset := lift (ok_or (checked_mul64 partition_index bytes_per_partition)
                         (IoOther "partition overflow")) in
  let* at_ := lift (addw oc 64 pstart offset) in
  seek_start at_ ;;
  buffer mc (N.max bytes_per_partition 128) ;;
  write_all (as_bytes p bytes_per_partition).
(** [Partition::write_zero_entries_to_device] (src/partition.rs:137-167): [vec![0_u8; bytes_to_zero]]. *)
Definition write_zero_entries_in (mc : machine) (oc : bool) (starting_index number_entries start_lba : N)
    (lb : lbsize) (bytes_per_partition : N) : M dev io_err unit :=
  let* pstart := lift (ok_or (checked_mul64 start_lba (lb_u64 lb))
                         (IoOther "partition overflow - start offset")) in
  let* offset := lift (ok_or (checked_mul64 starting_index bytes_per_partition)
                         (IoOther "partition overflow")) in
  let* at_ := lift (addw oc 64 pstart offset) in
  seek_start at_ ;;
  let* bytes_to_zero := lift (ok_or (try_usize mc (checked_mul64 bytes_per_partition number_entries))
                                (IoOther "partition overflow - bytes to zero")) in
  buffer mc bytes_to_zero ;;
  write_all (zeros (N.to_nat bytes_to_zero)).
(** [partition::file_read_partitions] (src/partition.rs:246-319): [vec![0; pt_len as usize]] at 310. *)
Definition file_read_partitions_in (mc : machine) (oc : bool) (h : header) (lb : lbsize) : M dev io_err pmap :=
  let* pstart := lift (ok_or (checked_mul64 (part_start h) (lb_u64 lb))
                         (IoOther "partition overflow - start offset")) in
  seek_start pstart ;;
  if negb (part_size h =? 128) then panic else
  let* parts := read_entries oc (N.to_nat (num_parts h)) 0 0 [] in
  seek_start pstart ;;
  let* pt_len := lift (ok_or (checked_mul64 (num_parts h) (part_size h))
                         (IoOther "partitions - size")) in
  let pt_len := as_usize mc pt_len in
  buffer mc pt_len ;;
  let* table := read_exact pt_len in
  if crc32 table =? crc32_parts h then ret parts
  else throw (IoOther "partition table CRC mismatch").

(** [partentry_checksum] (src/header/mod.rs:413-440): [vec![0; pt_len as usize]] at 434. *)
Definition partentry_checksum_in (mc : machine) (h : header) (lb : lbsize) : M dev hdr_err N :=
  let* start := lift (ok_or (checked_mul64 (part_start h) (lb_u64 lb))
                        (HOverflow "header overflow - partition table start")) in
  map_err HIo (seek_start start) ;;
  let* pt_len := lift (ok_or (checked_mul64 (num_parts h) (part_size h))
                         (HOverflow "partition table - size")) in
  let pt_len := as_usize mc pt_len in
  buffer mc pt_len ;;
  let* buf := map_err HIo (read_exact pt_len) in
  ret (crc32 buf).
(** [Header::file_write_header] (src/header/mod.rs:166-203): a buffer of one block at 193. *)
Definition file_write_header_in (mc : machine) (h : header) (lba : N) (lb : lbsize) (d : dev)
  : outcome hdr_err N * (header * dev) :=
  match partentry_checksum_in mc h lb d with
  | (Err e, d) => (Err e, (h, d))
  | (Panic, d) => (Panic, (h, d))
  | (Ok parts_checksum, d) =>
    let h := set_crc32_parts h parts_checksum in
    match hdr_to_bytes (E := hdr_err) h parts_checksum with
    | Err e => (Err e, (h, d))
    | Panic => (Panic, (h, d))
    | Ok (checksum_pos, header_bytes) =>
      let checksum := crc32 (arr header_bytes) in
      let h := set_crc32 h checksum in
      match (wr_seek checksum_pos ;; wr_le 4 checksum) header_bytes with
      | (Err e, _) => (Err e, (h, d))
      | (Panic, _) => (Panic, (h, d))
      | (Ok tt, header_bytes) =>
        let m :=
          let* start := lift (ok_or (checked_mul64 lba (lb_u64 lb))
                                (HOverflow "writing header: lba * lbs")) in
          map_err HIo (seek_start start) ;;
          buffer mc (lb_u64 lb) ;;
          let bytes := firstn (N.to_nat (lb_u64 lb))
                         (arr header_bytes ++ zeros (N.to_nat (lb_u64 lb) - 92)) in
          map_err HIo (write_all bytes) ;;
          ret (lenN bytes) in
        let (r, d) := m d in (r, (h, d))
      end
    end
  end.
(** [Header::write_primary] (src/header/mod.rs:132-147), [Header::write_backup] (149-164). *)
Definition write_primary_in (mc : machine) (h : header) (lb : lbsize) (d : dev) : outcome hdr_err N * (header * dev) :=
  if backup_lba h <=? current_lba h then (Err HWritingToWrongLba, (h, d))
  else file_write_header_in mc h (current_lba h) lb d.
Definition write_backup_in (mc : machine) (h : header) (lb : lbsize) (d : dev) : outcome hdr_err N * (header * dev) :=
  if current_lba h <=? backup_lba h then (Err HWritingToWrongLba, (h, d))
  else file_write_header_in mc h (current_lba h) lb d.

(** [GptConfig::open_from_device] (src/lib.rs:267-299). *)
Definition open_from_device_in (mc : machine) (oc : bool) (cfg : config) : M dev gpt_err gdisk :=
  let* h1 := attempt (read_primary_header (c_lb cfg)) in
  let* h2 := attempt (read_backup_header (c_lb cfg)) in
  let* hh :=
    (if c_only_valid_headers cfg then
       let* a := lift (omap_err GHeader h1) in
       let* b := lift (omap_err GHeader h2) in
       ret (Ok a, Ok b)
     else match h1, h2 with
          | Err e, Err _ => throw (GHeader e)
          | _, _ => ret (h1, h2)
          end) in
  let (h1, h2) := hh : outcome hdr_err header * outcome hdr_err header in
  let* h := (match or_else h1 h2 with Ok h => ret h | _ => panic end) in
  let* table := map_err GIo (file_read_partitions_in mc oc h (c_lb cfg)) in
  fun d => (Ok (mkGdisk cfg d (disk_guid h) h1 h2 table false), d).

(** [GptDisk::write_inplace] (src/lib.rs:853-976), in the parts of Disk.v. *)
Fixpoint write_entries_in (mc : machine) (oc : bool) (lb : lbsize) (ph : header) (bh : option header)
    (l : pmap) (idx : N) : M dev gpt_err N :=
  match l with
  | [] => ret idx
  | (_, p) :: r =>
      if num_parts ph <=? idx then throw GOverflowPartitionCount else
      map_err GIo (write_to_device_in mc oc p idx (part_start ph) lb (part_size ph)) ;;
      (match bh with
       | None => ret tt
       | Some bh =>
           if num_parts bh <=? idx then throw GOverflowPartitionCount else
           if part_start ph =? part_start bh then ret tt
           else map_err GIo (write_to_device_in mc oc p idx (part_start bh) lb (part_size bh))
       end) ;;
      write_entries_in mc oc lb ph bh r (idx + 1)
  end.
Definition write_tables_in (mc : machine) (oc : bool) (lb : lbsize) (ph : header) (bh : option header) (m : pmap)
  : M dev gpt_err unit :=
  let* next := write_entries_in mc oc lb ph bh (used_parts m) 0 in
  let* n := lift (sub_unwrap (num_parts ph) next) in
  map_err GIo (write_zero_entries_in mc oc next n (part_start ph) lb (part_size ph)) ;;
  match bh with
  | None => ret tt
  | Some bh =>
      let* n := lift (sub_unwrap (num_parts bh) next) in
      map_err GIo (write_zero_entries_in mc oc next n (part_start bh) lb (part_size bh))
  end.
Definition write_backup_of_in (mc : machine) (bh : header) : M gdisk gpt_err unit := fun g =>
  match write_backup_in mc bh (c_lb (g_config g)) (g_device g) with
  | (r, (bh', d)) =>
      (omap_err GHeader (let? _ := r in Ok tt), set_device d (set_backup (Ok bh') g))
  end.
Definition write_primary_of_in (mc : machine) (ph : header) : M gdisk gpt_err unit := fun g =>
  match write_primary_in mc ph (c_lb (g_config g)) (g_device g) with
  | (r, (ph', d)) =>
      (omap_err GHeader (let? _ := r in Ok tt), set_device d (set_primary (Ok ph') g))
  end.
Definition write_inplace_in (mc : machine) (oc : bool) : M gdisk gpt_err unit := fun g =>
  if negb (c_writable (g_config g)) then (Err GReadOnly, g) else
  let lb := c_lb (g_config g) in
  (on_device (map_err GHeader (find_backup_lba lb)) ;;
   (fun g =>
    (let* h := lift (the_header g) in
     let* ph := lift (omap_err GHeader (build oc (bset_primary true (builder_from_header h)) lb)) in
     (fun g => (Ok tt, set_primary (Ok ph) g)) ;;
     (let* bh :=
        (if c_readonly_backup (g_config g) then ret None
         else
           let* bh := lift (omap_err GHeader
                              (build oc (bset_primary false (builder_from_header ph)) lb)) in
           (fun g => (Ok (Some bh), set_backup (Ok bh) g))) in
      on_device (write_tables_in mc oc lb ph bh (g_partitions g)) ;;
      (match bh with Some bh => write_backup_of_in mc bh | None => ret tt end) ;;
      write_primary_of_in mc ph ;;
      on_device (map_err GIo flush) ;;
      (if g_sync g then on_device (map_err GIo sync_all) else ret tt))) g)) g.
(** [header::write_header] (src/header/mod.rs:447-468), on the opened file. *)
Definition write_header_in (mc : machine) (oc : bool) (uuid_opt : option uuid) (rnd : uuid) (lb : lbsize)
  : M dev hdr_err uuid :=
  let* bak := find_backup_lba lb in
  let b := builder_new rnd in
  let b := match uuid_opt with Some u => bset_disk_guid u b | None => b end in
  let* h := lift (build oc (bset_backup_lba bak b) lb) in
  fun d => match write_primary_in mc h lb d with
           | (Ok _, (h', d')) => (Ok (disk_guid h'), d')
           | (Err e, (_, d')) => (Err e, d')
           | (Panic, (_, d')) => (Panic, d')
           end.
