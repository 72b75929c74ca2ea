(** SpecRival.v - vocabulary of C87: a disk whose two copies of the partition table do not say the same. *)
From Verif Require Export SpecIdle.
Open Scope list_scope.
Open Scope N_scope.

(** The two headers describe the same disk, each naming the other. *)
Definition mirror (hp hb : header) : Prop :=
  current_lba hb = backup_lba hp /\ backup_lba hb = current_lba hp /\ disk_guid hb = disk_guid hp /\
  first_usable hb = first_usable hp /\ last_usable hb = last_usable hp /\ num_parts hb = num_parts hp /\
  part_size hb = part_size hp /\ crc32_parts hb = crc32_parts hp.
(** The bytes of the header in the given block, and of the array a header describes. *)
Definition header_bytes_of (lb : lbsize) (block i : N) : Prop := between (block * lb_u64 lb) (block * lb_u64 lb + 92) i.
Definition array_bytes_of (lb : lbsize) (h : header) (i : N) : Prop :=
  between (array_at lb h) (array_at lb h + array_len h) i.
(** Two disks that show the same. *)
Definition shows_same (g g' : gdisk) : Prop :=
  g_primary g' = g_primary g /\ g_guid g' = g_guid g /\ g_partitions g' = g_partitions g.
