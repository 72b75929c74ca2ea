(** SpecCopies.v - vocabulary for the two copies of the table. *)
From Verif Require Export SpecCrash SpecCrc.
Open Scope list_scope.
Open Scope N_scope.

(** A complete copy at a block: a valid header whose array is there in full and has the checksum the header says. *)
Definition complete (lb : lbsize) (l : list byte) (lba : N) : Prop :=
  exists h, header_at l (lba * lb_u64 lb) (Ok h) /\
    let array := range (part_start h * lb_u64 lb) (num_parts h * part_size h) l in
    lenN array = num_parts h * part_size h /\ checksum_of array (crc32_parts h).
(** The array of the backup copy, for a disk working with header [h]. *)
Definition backup_array (lb : lbsize) (h : header) (d : dev) : list byte :=
  range ((backup_at h - array_blocks lb h) * lb_u64 lb) (128 * num_parts h) (data d).
(** What the device of a disk holds after a write under a schedule of faults. *)
Definition left_by (oc : bool) (g : gdisk) (fs : list (option nat)) : list byte :=
  data (g_device (snd (write_inplace oc (set_device (with_faults fs (g_device g)) g)))).
