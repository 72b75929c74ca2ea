(** Disk.v - [GptConfig], [GptDisk] and [GptError] (src/lib.rs). *)
From Verif Require Export Partition.
Open Scope N_scope.

(** [GptError] (src/lib.rs:100-124). *)
Inductive gpt_err : Type :=
| GIo (e : io_err)
| GHeader (e : hdr_err)
| GCreatingInitializedDisk
| GOverflow (m : string)
| GNotEnoughSpace
| GReadOnly
| GOverflowPartitionCount
| GPartitionCountWouldChange
| GPartitionIdAlreadyUsed.

(** [GptConfig] (src/lib.rs:183-198), [Default] (326-336) and the setters (206-237). *)
Record config := mkConfig {
  c_lb : lbsize;
  c_writable : bool;
  c_only_valid_headers : bool;
  c_readonly_backup : bool;
  c_change_partition_count : bool
}.
Definition config_default : config := mkConfig default_sector_size false false false false.
Definition cset_writable (v : bool) (c : config) : config :=
  mkConfig (c_lb c) v (c_only_valid_headers c) (c_readonly_backup c) (c_change_partition_count c).
Definition cset_lb (v : lbsize) (c : config) : config :=
  mkConfig v (c_writable c) (c_only_valid_headers c) (c_readonly_backup c) (c_change_partition_count c).
Definition cset_only_valid_headers (v : bool) (c : config) : config :=
  mkConfig (c_lb c) (c_writable c) v (c_readonly_backup c) (c_change_partition_count c).
Definition cset_readonly_backup (v : bool) (c : config) : config :=
  mkConfig (c_lb c) (c_writable c) (c_only_valid_headers c) v (c_change_partition_count c).
Definition cset_change_partition_count (v : bool) (c : config) : config :=
  mkConfig (c_lb c) (c_writable c) (c_only_valid_headers c) (c_readonly_backup c) v.

(** [GptDisk<D>] (src/lib.rs:338-351).  [g_sync] says whether the [sync_all] function pointer is
    set, i.e. the disk came from [GptConfig::open] or [GptConfig::create]. *)
Record gdisk := mkGdisk {
  g_config : config;
  g_device : dev;
  g_guid : uuid;
  g_primary : outcome hdr_err header;   (* Result<Header, HeaderError>: never Panic *)
  g_backup : outcome hdr_err header;
  g_partitions : pmap;
  g_sync : bool
}.
Definition set_device (d : dev) (g : gdisk) : gdisk :=
  mkGdisk (g_config g) d (g_guid g) (g_primary g) (g_backup g) (g_partitions g) (g_sync g).
Definition set_config (c : config) (g : gdisk) : gdisk :=
  mkGdisk c (g_device g) (g_guid g) (g_primary g) (g_backup g) (g_partitions g) (g_sync g).
Definition set_guid (u : uuid) (g : gdisk) : gdisk :=
  mkGdisk (g_config g) (g_device g) u (g_primary g) (g_backup g) (g_partitions g) (g_sync g).
Definition set_primary (h : outcome hdr_err header) (g : gdisk) : gdisk :=
  mkGdisk (g_config g) (g_device g) (g_guid g) h (g_backup g) (g_partitions g) (g_sync g).
Definition set_backup (h : outcome hdr_err header) (g : gdisk) : gdisk :=
  mkGdisk (g_config g) (g_device g) (g_guid g) (g_primary g) h (g_partitions g) (g_sync g).
Definition set_partitions (p : pmap) (g : gdisk) : gdisk :=
  mkGdisk (g_config g) (g_device g) (g_guid g) (g_primary g) (g_backup g) p (g_sync g).
Definition set_sync (b : bool) (g : gdisk) : gdisk :=
  mkGdisk (g_config g) (g_device g) (g_guid g) (g_primary g) (g_backup g) (g_partitions g) b.

(** [Result::or] on references followed by nothing else. *)
Definition or_else {E A} (a b : outcome E A) : outcome E A :=
  match a with Ok x => Ok x | _ => b end.

(** [GptDisk::try_header] (src/lib.rs:402-410). *)
Definition try_header (g : gdisk) : outcome hdr_err header :=
  omap_err lossy_clone (or_else (g_primary g) (g_backup g)).
(** [GptDisk::header] (src/lib.rs:412-415): panics when there is none. *)
Definition the_header {E} (g : gdisk) : outcome E header :=
  match try_header g with Ok h => Ok h | _ => Panic end.
(** [primary_header], [backup_header] (src/lib.rs:392-400). *)
Definition primary_header (g : gdisk) : outcome hdr_err header := omap_err lossy_clone (g_primary g).
Definition backup_header (g : gdisk) : outcome hdr_err header := omap_err lossy_clone (g_backup g).

(** Run a device operation on the disk's device ([&mut self.device]). *)
Definition on_device {E A} (m : M dev E A) : M gdisk E A := fun g =>
  let (r, d) := m (g_device g) in (r, set_device d g).

(** [GptConfig::open_from_device] (src/lib.rs:267-299).  The second component is the device
    afterwards, also when opening fails. *)
Definition open_from_device (oc : bool) (cfg : config) : M dev gpt_err gdisk :=
  let* h1 := attempt (read_primary_header (c_lb cfg)) in
  let* h2 := attempt (read_backup_header (c_lb cfg)) in
  let* hh :=
    (if c_only_valid_headers cfg then
       let* a := lift (omap_err GHeader h1) in
       let* b := lift (omap_err GHeader h2) in
       ret (Ok a, Ok b)
     else match h1, h2 with
          | Err e, Err _ => throw (GHeader e)
          | _, _ => ret (h1, h2)
          end) in
  let (h1, h2) := hh : outcome hdr_err header * outcome hdr_err header in
  let* h := (match or_else h1 h2 with Ok h => ret h | _ => panic end) in
  let* table := map_err GIo (file_read_partitions oc h (c_lb cfg)) in
  fun d => (Ok (mkGdisk cfg d (disk_guid h) h1 h2 table false), d).

(** [init_headers] (src/lib.rs:814-836).  [HeaderBuilder::new], reached when neither header is
    valid, draws a random GUID that the next lines overwrite, so its value is left out. *)
Definition init_headers (oc : bool) : M gdisk gpt_err unit :=
  fun g => (
  let lb := c_lb (g_config g) in
  let* bak := on_device (map_err GHeader (find_backup_lba lb)) in
  fun g =>
  let num_parts := lenN (g_partitions g) mod modulus 32 in
  let b := builder_from_maybe_header (try_header g) uuid_nil in
  let b := bset_primary true (bset_disk_guid (g_guid g) (bset_backup_lba bak (bset_num_parts num_parts b))) in
  match build oc b lb with
  | Err e => (Err (GHeader e), g)
  | Panic => (Panic, g)
  | Ok h1 =>
      let g := set_primary (Ok h1) g in
      if c_readonly_backup (g_config g) then (Ok tt, g)
      else match build oc (bset_primary false (builder_from_header h1)) lb with
           | Err e => (Err (GHeader e), g)
           | Panic => (Panic, g)
           | Ok h2 => (Ok tt, set_backup (Ok h2) g)
           end
  end) g.

(** [GptConfig::create_from_device] (src/lib.rs:301-323); [rnd] is what [Uuid::new_v4] returned. *)
Definition create_from_device (oc : bool) (cfg : config) (guid_opt : option uuid) (rnd : uuid)
  : M dev gpt_err gdisk := fun d =>
  let g := mkGdisk cfg d (match guid_opt with Some u => u | None => rnd end)
             (Err HInvalidGptSignature) (Err HInvalidGptSignature) [] false in
  match init_headers oc g with
  | (Ok _, g) => (Ok g, g_device g)
  | (Err e, g) => (Err e, g_device g)
  | (Panic, g) => (Panic, g_device g)
  end.

(** [GptConfig::open], [GptConfig::create] (src/lib.rs:239-265) on the opened file. *)
Definition with_sync (m : M dev gpt_err gdisk) : M dev gpt_err gdisk :=
  let* g := m in ret (set_sync true g).
Definition open_path (oc : bool) (cfg : config) : M dev gpt_err gdisk :=
  with_sync (open_from_device oc cfg).
Definition create_path (oc : bool) (cfg : config) (rnd : uuid) : M dev gpt_err gdisk :=
  with_sync (create_from_device oc cfg None rnd).

(** [Clone for GptDisk] (src/lib.rs:369-389). *)
Definition gdisk_clone (g : gdisk) : gdisk :=
  mkGdisk (g_config g) (g_device g) (g_guid g) (omap_err lossy_clone (g_primary g))
    (omap_err lossy_clone (g_backup g)) (g_partitions g) (g_sync g).
(** [update_disk_device] (src/lib.rs:432-437). *)
Definition update_disk_device (d : dev) (w : bool) (g : gdisk) : dev * gdisk :=
  (g_device g, set_device d (set_config (cset_writable w (g_config g)) g)).
(** [with_disk_device] (src/lib.rs:439-463). *)
Definition with_disk_device (d : dev) (w : bool) (g : gdisk) : gdisk :=
  mkGdisk (cset_writable w (g_config g)) d (g_guid g) (omap_err lossy_clone (g_primary g))
    (omap_err lossy_clone (g_backup g)) (g_partitions g) false.

(** [sort_unstable] on a [Vec<u64>] (src/lib.rs:725): equal elements are indistinguishable, so
    the result is determined. *)
Fixpoint insert_sorted (x : N) (l : list N) : list N :=
  match l with
  | [] => [x]
  | y :: r => if x <=? y then x :: l else y :: insert_sorted x r
  end.
Definition sort_N (l : list N) : list N := fold_right insert_sorted [] l.

Definition used_parts (m : pmap) : pmap := filter (fun p => is_used (snd p)) m.

(** The [chunks_exact(2).filter_map(..)] of [find_free_sectors] (src/lib.rs:727-739). *)
Fixpoint free_chunks {E} (oc : bool) (l : list N) : outcome E (list (N * N)) :=
  match l with
  | a :: b :: r =>
      let? start := addw oc 64 a 1 in
      let? end_ := subw oc 64 b 1 in
      if start <=? end_ then
        let? d := subw oc 64 end_ start in
        let? len := addw oc 64 d 1 in
        let? rest := free_chunks oc r in
        Ok ((start, len) :: rest)
      else free_chunks oc r
  | _ => Ok []
  end.

(** [find_free_sectors] (src/lib.rs:706-740). *)
Definition find_free_sectors {E} (oc : bool) (g : gdisk) : outcome E (list (N * N)) :=
  let? h := the_header g in
  let? before := subw oc 64 (first_usable h) 1 in
  let? after := addw oc 64 (last_usable h) 1 in
  free_chunks oc
    (sort_N (before :: flat_map (fun p => [first_lba (snd p); last_lba (snd p)])
                         (used_parts (g_partitions g)) ++ [after])).

(** [find_next_partition_id] (src/lib.rs:742-763): the loop [for i in 1..=num_parts]. *)
Fixpoint first_free_id (m : pmap) (i : N) (left : nat) : option N :=
  match left with
  | O => None
  | S left' =>
      match pm_get i m with
      | Some p => if is_used p then first_free_id m (i + 1) left' else Some i
      | None => Some i
      end
  end.
Definition find_next_partition_id {E} (g : gdisk) : outcome E (option N) :=
  match g_partitions g with
  | [] => Ok (Some 1)
  | m => let? h := the_header g in
         Ok (first_free_id m 1 (N.to_nat (num_parts h)))
  end.

(** The tail shared by [add_partition] (src/lib.rs:545-567) and [add_partition_at] (623-649). *)
Definition insert_partition (oc : bool) (id : N) (p : partition) (changes : bool)
  : M gdisk gpt_err N :=
  (fun g => (Ok tt, set_partitions (pm_insert id p (g_partitions g)) g)) ;;
  (if changes then init_headers oc else ret tt) ;;
  ret id.
Definition check_count (id : N) : M gdisk gpt_err bool := fun g =>
  (let? h := the_header g in
   let changes := num_parts_would_change h id in
   if changes && negb (c_change_partition_count (g_config g))
   then Err GPartitionCountWouldChange
   else Ok changes, g).

(** The loop of [add_partition] (src/lib.rs:517-571).  [rnd] is the new partition GUID. *)
Fixpoint add_in_sections (oc : bool) (nm : list N) (size_lba : N) (ty : ptype) (fl : N)
    (al : option N) (rnd : uuid) (sections : list (N * N)) : M gdisk gpt_err N :=
  match sections with
  | [] => throw GNotEnoughSpace
  | (starting_lba, len) :: rest =>
      let* off :=
        lift (match al with
              | Some a => let? r := remw starting_lba a in
                          let? s := subw oc 64 a r in remw s a
              | None => Ok 0
              end) in
      let* need := lift (addw oc 64 off size_lba) in
      if need <=? len then
        let* start := lift (addw oc 64 starting_lba off) in
        let* next := (fun g => (find_next_partition_id g, g)) in
        let* id := (match next with
                    | Some i => ret i
                    | None => fun g => (let? h := the_header g in addw oc 32 (num_parts h) 1, g)
                    end) in
        (* evaluated by debug! (537-543) and again for the struct (556) *)
        let* e := lift (addw oc 64 start size_lba) in
        let* last := lift (subw oc 64 e 1) in
        let* changes := check_count id in
        insert_partition oc id (mkPart ty rnd start last fl nm) changes
      else add_in_sections oc nm size_lba ty fl al rnd rest
  end.

(** [add_partition] (src/lib.rs:488-572). *)
Definition add_partition (oc : bool) (nm : list N) (size : N) (ty : ptype) (fl : N)
    (al : option N) (rnd : uuid) : M gdisk gpt_err N := fun g =>
  if size =? 0 then (Panic, g) else
  let size_lba := (size - 1) / lb_u64 (c_lb (g_config g)) + 1 in
  (let* sections := (fun g => (find_free_sectors oc g, g)) in
   add_in_sections oc nm size_lba ty fl al rnd sections) g.

(** The loop of [add_partition_at] (src/lib.rs:605-653). *)
Fixpoint add_at_in_sections (oc : bool) (nm : list N) (id first length_lba : N) (ty : ptype)
    (fl : N) (rnd : uuid) (sections : list (N * N)) : M gdisk gpt_err N :=
  match sections with
  | [] => throw GNotEnoughSpace
  | (starting_lba, len) :: rest =>
      if negb ((starting_lba <=? first) && (length_lba <=? len))
      then add_at_in_sections oc nm id first length_lba ty fl rnd rest
      else
        let* e := lift (addw oc 64 first length_lba) in
        let* last := lift (subw oc 64 e 1) in
        let* changes := check_count id in
        insert_partition oc id (mkPart ty rnd first last fl nm) changes
  end.

(** [add_partition_at] (src/lib.rs:574-654). *)
Definition add_partition_at (oc : bool) (nm : list N) (id first length_lba : N) (ty : ptype)
    (fl : N) (rnd : uuid) : M gdisk gpt_err N := fun g =>
  if length_lba =? 0 then (Panic, g) else
  if id =? 0 then (Panic, g) else
  if match pm_get id (g_partitions g) with Some p => is_used p | None => false end
  then (Err GPartitionIdAlreadyUsed, g) else
  (let* sections := (fun g => (find_free_sectors oc g, g)) in
   add_at_in_sections oc nm id first length_lba ty fl rnd sections) g.

(** [calculate_alignment] (src/lib.rs:656-682): the inner loop lowers the exponent until
    2^exponent divides; it stops at 0 at the latest because 2^0 = 1 divides everything. *)
Fixpoint lower_exponent (exponent : nat) (first : N) : nat :=
  match exponent with
  | O => O
  | S e' => if first mod 2 ^ N.of_nat exponent =? 0 then exponent else lower_exponent e' first
  end.
Definition calculate_alignment (g : gdisk) : N :=
  match g_partitions g with
  | [] => 0
  | m => 2 ^ N.of_nat
           (fold_left (fun e p => lower_exponent e (first_lba (snd p))) (used_parts m) 11%nat)
  end.

(** [remove_partition] (src/lib.rs:684-690). *)
Definition remove_partition (id : N) (g : gdisk) : option N * gdisk :=
  match pm_get id (g_partitions g) with
  | Some _ => (Some id, set_partitions (pm_remove id (g_partitions g)) g)
  | None => (None, g)
  end.
(** [remove_partition_by_guid] (src/lib.rs:692-704). *)
Definition remove_partition_by_guid (u : uuid) (g : gdisk) : option N * gdisk :=
  match find (fun p => uuid_eqb (part_guid (snd p)) u) (g_partitions g) with
  | Some (id, _) => (Some id, set_partitions (pm_remove id (g_partitions g)) g)
  | None => (None, g)
  end.
(** [take_partitions] (src/lib.rs:765-768). *)
Definition take_partitions (g : gdisk) : pmap * gdisk := (g_partitions g, set_partitions [] g).
(** [update_guid] (src/lib.rs:770-784). *)
Definition update_guid (u : option uuid) (rnd : uuid) (g : gdisk) : gdisk :=
  set_guid (match u with Some u => u | None => rnd end) g.
(** [update_partitions] (src/lib.rs:786-812). *)
Definition update_partitions (oc : bool) (pp : pmap) : M gdisk gpt_err unit :=
  (if match pm_get 0 pp with Some _ => true | None => false end then panic else ret tt) ;;
  check_count (lenN pp mod modulus 32) ;;
  (fun g => (Ok tt, set_partitions pp g)) ;;
  init_headers oc.

(** The entry loop of [write_inplace] (src/lib.rs:891-934): [idx] is [part_idx]; returns
    [next_partition_index]. *)
Fixpoint write_entries (oc : bool) (lb : lbsize) (ph : header) (bh : option header)
    (l : pmap) (idx : N) : M dev gpt_err N :=
  match l with
  | [] => ret idx
  | (_, p) :: r =>
      if num_parts ph <=? idx then throw GOverflowPartitionCount else
      map_err GIo (write_to_device oc p idx (part_start ph) lb (part_size ph)) ;;
      (match bh with
       | None => ret tt
       | Some bh =>
           if num_parts bh <=? idx then throw GOverflowPartitionCount else
           if part_start ph =? part_start bh then ret tt
           else map_err GIo (write_to_device oc p idx (part_start bh) lb (part_size bh))
       end) ;;
      write_entries oc lb ph bh r (idx + 1)
  end.

(** [checked_sub(..).unwrap()] (src/lib.rs:942-944, 953-955). *)
Definition sub_unwrap {E} (a b : N) : outcome E N :=
  match checked_sub64 a b with Some n => Ok n | None => Panic end.

(** Everything [write_inplace] writes before the headers (src/lib.rs:891-960). *)
Definition write_tables (oc : bool) (lb : lbsize) (ph : header) (bh : option header) (m : pmap)
  : M dev gpt_err unit :=
  let* next := write_entries oc lb ph bh (used_parts m) 0 in
  let* n := lift (sub_unwrap (num_parts ph) next) in
  map_err GIo (write_zero_entries oc next n (part_start ph) lb (part_size ph)) ;;
  match bh with
  | None => ret tt
  | Some bh =>
      let* n := lift (sub_unwrap (num_parts bh) next) in
      map_err GIo (write_zero_entries oc next n (part_start bh) lb (part_size bh))
  end.

(** [self.backup_header.write_backup(&mut self.device, ..)] and its primary twin
    (src/lib.rs:962-967): the header is updated in place. *)
Definition write_backup_of (bh : header) : M gdisk gpt_err unit := fun g =>
  match write_backup bh (c_lb (g_config g)) (g_device g) with
  | (r, (bh', d)) =>
      (omap_err GHeader (let? _ := r in Ok tt), set_device d (set_backup (Ok bh') g))
  end.
Definition write_primary_of (ph : header) : M gdisk gpt_err unit := fun g =>
  match write_primary ph (c_lb (g_config g)) (g_device g) with
  | (r, (ph', d)) =>
      (omap_err GHeader (let? _ := r in Ok tt), set_device d (set_primary (Ok ph') g))
  end.

(** [write_inplace] (src/lib.rs:853-976). *)
Definition write_inplace (oc : bool) : M gdisk gpt_err unit := fun g =>
  if negb (c_writable (g_config g)) then (Err GReadOnly, g) else
  let lb := c_lb (g_config g) in
  (on_device (map_err GHeader (find_backup_lba lb)) ;;
   (fun g =>
    (let* h := lift (the_header g) in
     let* ph := lift (omap_err GHeader (build oc (bset_primary true (builder_from_header h)) lb)) in
     (fun g => (Ok tt, set_primary (Ok ph) g)) ;;
     (let* bh :=
        (if c_readonly_backup (g_config g) then ret None
         else
           let* bh := lift (omap_err GHeader
                              (build oc (bset_primary false (builder_from_header ph)) lb)) in
           (fun g => (Ok (Some bh), set_backup (Ok bh) g))) in
      on_device (write_tables oc lb ph bh (g_partitions g)) ;;
      (match bh with Some bh => write_backup_of bh | None => ret tt end) ;;
      write_primary_of ph ;;
      on_device (map_err GIo flush) ;;
      (if g_sync g then on_device (map_err GIo sync_all) else ret tt))) g)) g.

(** [write] (src/lib.rs:838-851): consumes the disk and returns the device. *)
Definition write (oc : bool) : M gdisk gpt_err dev :=
  write_inplace oc ;; (fun g => (Ok (g_device g), g)).

(** [device_ref], [take_device] (src/lib.rs:465-481) are [g_device]; [device_mut] hands out the
    device for arbitrary use and is modelled, where needed, by quantifying over [set_device]. *)

(** Calls a program can make on a [GptDisk] that change it, with the random GUIDs drawn. *)
Inductive op : Type :=
| OpAdd (nm : list N) (size : N) (ty : ptype) (fl : N) (al : option N) (rnd : uuid)
| OpAddAt (nm : list N) (id first len : N) (ty : ptype) (fl : N) (rnd : uuid)
| OpRemove (id : N)
| OpRemoveGuid (u : uuid)
| OpTake
| OpUpdateGuid (u : option uuid) (rnd : uuid)
| OpUpdatePartitions (pp : pmap)
| OpWrite
| OpUpdateDevice (d : dev) (w : bool).

(** One call; the result value is dropped, [None] means the call panicked. *)
Definition kept {A} (r : outcome gpt_err A * gdisk) : option gdisk :=
  match r with (Panic, _) => None | (_, g) => Some g end.
Definition step (oc : bool) (o : op) (g : gdisk) : option gdisk :=
  match o with
  | OpAdd nm size ty fl al rnd => kept (add_partition oc nm size ty fl al rnd g)
  | OpAddAt nm id first len ty fl rnd => kept (add_partition_at oc nm id first len ty fl rnd g)
  | OpRemove id => Some (snd (remove_partition id g))
  | OpRemoveGuid u => Some (snd (remove_partition_by_guid u g))
  | OpTake => Some (snd (take_partitions g))
  | OpUpdateGuid u rnd => Some (update_guid u rnd g)
  | OpUpdatePartitions pp => kept (update_partitions oc pp g)
  | OpWrite => kept (write_inplace oc g)
  | OpUpdateDevice d w => Some (snd (update_disk_device d w g))
  end.
Fixpoint run (oc : bool) (ops : list op) (g : gdisk) : option gdisk :=
  match ops with
  | [] => Some g
  | o :: r => match step oc o g with Some g' => run oc r g' | None => None end
  end.
