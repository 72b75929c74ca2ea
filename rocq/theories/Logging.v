(** Logging.v - [trace!] and [debug!] (src/logging.rs) and the functions whose log messages compute something that
    can overflow. *)
From Verif Require Export Disk.
Open Scope list_scope.
Open Scope N_scope.

(** How the crate logs.  Without the features [log] and [tracing] the macros become [let _ = expr;] (src/logging.rs:41-48):
    the arguments are evaluated and dropped.  With one of them the arguments are evaluated if the level of the message is
    enabled, and printed; what is printed is left out (the [Display] texts are in Text.v, they cannot fail).
    With both features they may be evaluated twice, which makes no difference. *)
Inductive logging : Type := NoFeature | Enabled | Disabled.
Definition evaluated (k : logging) : bool := match k with Disabled => false | _ => true end.
Definition log_argument {S E A} (k : logging) (o : outcome E A) : M S E unit :=
  if evaluated k then let* _ := lift o in ret tt else ret tt.

(** Lines 545-567 and 623-649 of src/lib.rs with the number of the last block computed where the partition is made. *)
Definition place (oc : bool) (id start size_lba : N) (mk : N -> partition) : M gdisk gpt_err N :=
  let* changes := check_count id in
  let* last := lift (let? e := addw oc 64 start size_lba in subw oc 64 e 1) in
  insert_partition oc id (mk last) changes.

(** The loop of [add_partition] (src/lib.rs:517-571); the messages at 526 and 561 compute nothing. *)
Fixpoint add_in_sections_logging (k : logging) (oc : bool) (nm : list N) (size_lba : N) (ty : ptype) (fl : N)
    (al : option N) (rnd : uuid) (sections : list (N * N)) : M gdisk gpt_err N :=
  match sections with
  | [] => throw GNotEnoughSpace
  | (starting_lba, len) :: rest =>
      let* off :=
        lift (match al with
              | Some a => let? r := remw starting_lba a in
                          let? s := subw oc 64 a r in remw s a
              | None => Ok 0
              end) in
      let* need := lift (addw oc 64 off size_lba) in
      if need <=? len then
        let* start := lift (addw oc 64 starting_lba off) in
        let* next := (fun g => (find_next_partition_id g, g)) in
        let* id := (match next with
                    | Some i => ret i
                    | None => fun g => (let? h := the_header g in addw oc 32 (num_parts h) 1, g)
                    end) in
        log_argument k (let? e := addw oc 64 start size_lba in subw oc 64 e 1) ;;
        place oc id start size_lba (fun last => mkPart ty rnd start last fl nm)
      else add_in_sections_logging k oc nm size_lba ty fl al rnd rest
  end.
(** [add_partition] (src/lib.rs:488-572). *)
Definition add_partition_logging (k : logging) (oc : bool) (nm : list N) (size : N) (ty : ptype) (fl : N)
    (al : option N) (rnd : uuid) : M gdisk gpt_err N := fun g =>
  if size =? 0 then (Panic, g) else
  let size_lba := (size - 1) / lb_u64 (c_lb (g_config g)) + 1 in
  (let* sections := (fun g => (find_free_sectors oc g, g)) in
   add_in_sections_logging k oc nm size_lba ty fl al rnd sections) g.

(** The loop of [add_partition_at] (src/lib.rs:605-653). *)
Fixpoint add_at_in_sections_logging (k : logging) (oc : bool) (nm : list N) (id first length_lba : N) (ty : ptype)
    (fl : N) (rnd : uuid) (sections : list (N * N)) : M gdisk gpt_err N :=
  match sections with
  | [] => throw GNotEnoughSpace
  | (starting_lba, len) :: rest =>
      if negb ((starting_lba <=? first) && (length_lba <=? len))
      then add_at_in_sections_logging k oc nm id first length_lba ty fl rnd rest
      else
        log_argument k (let? e := addw oc 64 first length_lba in subw oc 64 e 1) ;;
        place oc id first length_lba (fun last => mkPart ty rnd first last fl nm)
  end.
(** [add_partition_at] (src/lib.rs:574-654). *)
Definition add_partition_at_logging (k : logging) (oc : bool) (nm : list N) (id first length_lba : N) (ty : ptype)
    (fl : N) (rnd : uuid) : M gdisk gpt_err N := fun g =>
  if length_lba =? 0 then (Panic, g) else
  if id =? 0 then (Panic, g) else
  if match pm_get id (g_partitions g) with Some p => is_used p | None => false end
  then (Err GPartitionIdAlreadyUsed, g) else
  (let* sections := (fun g => (find_free_sectors oc g, g)) in
   add_at_in_sections_logging k oc nm id first length_lba ty fl rnd sections) g.

(** [Partition::write_to_device] (src/partition.rs:111-135), message at 129. *)
Definition write_to_device_logging (k : logging) (oc : bool) (p : partition) (partition_index start_lba : N)
    (lb : lbsize) (bytes_per_partition : N) : M dev io_err unit :=
  let* pstart := lift (ok_or (checked_mul64 start_lba (lb_u64 lb))
                         (IoOther "partition overflow - start offset")) in
  let* offset := lift (ok_or (checked_mul64 partition_index bytes_per_partition)
                         (IoOther "partition overflow")) in
  log_argument k (addw oc 64 pstart offset) ;;
  let* at_ := lift (addw oc 64 pstart offset) in
  seek_start at_ ;;
  write_all (as_bytes p bytes_per_partition).
(** [Partition::write_zero_entries_to_device] (src/partition.rs:137-167), message at 159. *)
Definition write_zero_entries_logging (k : logging) (oc : bool) (starting_index number_entries start_lba : N)
    (lb : lbsize) (bytes_per_partition : N) : M dev io_err unit :=
  let* pstart := lift (ok_or (checked_mul64 start_lba (lb_u64 lb))
                         (IoOther "partition overflow - start offset")) in
  let* offset := lift (ok_or (checked_mul64 starting_index bytes_per_partition)
                         (IoOther "partition overflow")) in
  log_argument k (addw oc 64 pstart offset) ;;
  let* at_ := lift (addw oc 64 pstart offset) in
  seek_start at_ ;;
  let* bytes_to_zero := lift (ok_or (checked_mul64 bytes_per_partition number_entries)
                                (IoOther "partition overflow - bytes to zero")) in
  write_all (zeros (N.to_nat bytes_to_zero)).
