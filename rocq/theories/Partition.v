(** Partition.v - src/partition.rs. *)
From Verif Require Export Header PartTypes Utf16.
Open Scope N_scope.

(** [Partition] (src/partition.rs:33-48).  [name] is the list of chars of the String. *)
Record partition := mkPart {
  part_type : ptype;   (* part_type_guid : Type *)
  part_guid : uuid;
  first_lba : N;       (* u64 *)
  last_lba : N;        (* u64 *)
  flags : N;           (* u64 *)
  name : list N
}.

(** [Partition::zero] (src/partition.rs:51-61). *)
Definition partition_zero : partition := mkPart UNUSED uuid_nil 0 0 0 [].

(** [Partition::is_used] (src/partition.rs:187-190). *)
Definition is_used (p : partition) : bool := negb (uuid_eqb (guid (part_type p)) (guid UNUSED)).

(** [Vec::resize(n, 0)] *)
Definition resize (n : nat) (l : list byte) : list byte := firstn n l ++ zeros (n - length l).

(** [Partition::as_bytes] (src/partition.rs:63-96). *)
Definition as_bytes (p : partition) (entry_size : N) : list byte :=
  resize (N.to_nat entry_size)
    (uuid_le_bytes (guid (part_type p)) ++
     uuid_le_bytes (part_guid p) ++
     le_bytes 8 (first_lba p) ++ le_bytes 8 (last_lba p) ++ le_bytes 8 (flags p) ++
     flat_map (le_bytes 2) (firstn 36 (encode_utf16 (name p)))).

(** [Partition::write_to_device] (src/partition.rs:111-135).  The argument of [trace!] is
    evaluated too, with the same sum. *)
Definition write_to_device (oc : bool) (p : partition) (partition_index start_lba : N)
    (lb : lbsize) (bytes_per_partition : N) : M dev io_err unit :=
  let* pstart := lift (ok_or (checked_mul64 start_lba (lb_u64 lb))
                         (IoOther "partition overflow - start offset")) in
  let* offset := lift (ok_or (checked_mul64 partition_index bytes_per_partition)
                         (IoOther "partition overflow")) in
  let* at_ := lift (addw oc 64 pstart offset) in
  seek_start at_ ;;
  write_all (as_bytes p bytes_per_partition).

(** [Partition::write] (src/partition.rs:98-109), on an opened file. *)
Definition partition_write (oc : bool) (p : partition) (partition_index start_lba : N)
    (lb : lbsize) : M dev io_err unit :=
  write_to_device oc p partition_index start_lba lb 128.

(** [Partition::write_zero_entries_to_device] (src/partition.rs:137-167). *)
Definition write_zero_entries (oc : bool) (starting_index number_entries start_lba : N)
    (lb : lbsize) (bytes_per_partition : N) : M dev io_err unit :=
  let* pstart := lift (ok_or (checked_mul64 start_lba (lb_u64 lb))
                         (IoOther "partition overflow - start offset")) in
  let* offset := lift (ok_or (checked_mul64 starting_index bytes_per_partition)
                         (IoOther "partition overflow")) in
  let* at_ := lift (addw oc 64 pstart offset) in
  seek_start at_ ;;
  let* bytes_to_zero := lift (ok_or (checked_mul64 bytes_per_partition number_entries)
                                (IoOther "partition overflow - bytes to zero")) in
  write_all (zeros (N.to_nat bytes_to_zero)).

(** [Partition::sectors_len] (src/partition.rs:192-201). *)
Definition sectors_len (p : partition) : outcome io_err N :=
  let? n := ok_or (checked_sub64 (last_lba p) (first_lba p))
              (IoOther "Invalid partition.  last_lba < first_lba") in
  ok_or (checked_add64 n 1) (IoOther "partition length overflow - sectors").

(** [Partition::bytes_len] (src/partition.rs:169-176). *)
Definition bytes_len (p : partition) (lb : lbsize) : outcome io_err N :=
  let? n := sectors_len p in
  ok_or (checked_mul64 n (lb_u64 lb)) (IoOther "partition length overflow - bytes").

(** [Partition::bytes_start] (src/partition.rs:178-185). *)
Definition bytes_start (p : partition) (lb : lbsize) : outcome io_err N :=
  ok_or (checked_mul64 (first_lba p) (lb_u64 lb)) (IoOther "partition start overflow - bytes").

(** [BTreeMap<u32, Partition>] as an association list in ascending key order, which is its
    iteration order. *)
Definition pmap := list (N * partition).
Fixpoint pm_get (k : N) (m : pmap) : option partition :=
  match m with
  | [] => None
  | (k', p) :: r => if k =? k' then Some p else pm_get k r
  end.
Fixpoint pm_insert (k : N) (p : partition) (m : pmap) : pmap :=
  match m with
  | [] => [(k, p)]
  | (k', p') :: r =>
      if k <? k' then (k, p) :: m
      else if k =? k' then (k, p) :: r
      else (k', p') :: pm_insert k p r
  end.
Fixpoint pm_remove (k : N) (m : pmap) : pmap :=
  match m with
  | [] => []
  | (k', p') :: r => if k =? k' then r else (k', p') :: pm_remove k r
  end.

(** The name field (src/partition.rs:283-290, 298): 36 code units; cut at the first zero unit. *)
Fixpoint read_units {E} (n : nat) : M (list byte) E (list N) :=
  match n with
  | O => ret []
  | S n' => let* u := rd_le 2 in
            let* r := read_units n' in
            ret (u :: r)
  end.
Fixpoint until_zero (l : list N) : list N :=
  match l with
  | [] => []
  | u :: r => if u =? 0 then [] else u :: until_zero r
  end.

(** One non-empty entry (src/partition.rs:276-299). *)
Definition parse_entry : M (list byte) io_err partition :=
  let* type_guid := parse_uuid in
  let* part_guid := parse_uuid in
  let* first := rd_le 8 in
  let* last := rd_le 8 in
  let* fl := rd_le 8 in
  let* units := read_units 36 in
  ret (mkPart (type_from_uuid type_guid) part_guid first last fl
         (decode_utf16_lossy (until_zero units))).

(** The loop of [file_read_partitions] (src/partition.rs:264-302).  [i] is the loop index,
    [left] the remaining iterations, [empty] the i32 counter of empty entries (its overflow
    panics in a checked build). *)
Fixpoint read_entries (oc : bool) (left : nat) (i empty : N) (parts : pmap)
  : M dev io_err pmap :=
  match left with
  | O => ret parts
  | S left' =>
      let* bytes := read_exact 128 in
      if bytes_eqb bytes (zeros 128) then
        let* empty' := lift (addw oc 31 empty 1) in
        read_entries oc left' (i + 1) empty' parts
      else
        let* p := lift (fst (parse_entry bytes)) in
        read_entries oc left' (i + 1) empty (pm_insert (i + 1) p parts)
  end.

(** [file_read_partitions] (src/partition.rs:246-319); [read_partitions] (234-242) is the same on
    an opened file. *)
Definition file_read_partitions (oc : bool) (h : header) (lb : lbsize) : M dev io_err pmap :=
  let* pstart := lift (ok_or (checked_mul64 (part_start h) (lb_u64 lb))
                         (IoOther "partition overflow - start offset")) in
  seek_start pstart ;;
  (* assert_eq!(header.part_size, 128) *)
  if negb (part_size h =? 128) then panic else
  let* parts := read_entries oc (N.to_nat (num_parts h)) 0 0 [] in
  seek_start pstart ;;
  let* pt_len := lift (ok_or (checked_mul64 (num_parts h) (part_size h))
                         (IoOther "partitions - size")) in
  let* table := read_exact pt_len in
  if crc32 table =? crc32_parts h then ret parts
  else throw (IoOther "partition table CRC mismatch").
