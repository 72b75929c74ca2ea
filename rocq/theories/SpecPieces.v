(** SpecPieces.v - vocabulary for devices that transfer in pieces: when a program of device calls (StdIo.v) is the
    library's, and what such a device is. *)
From Verif Require Export Spec StdIo.
Open Scope list_scope.
Open Scope N_scope.

(** The device never fails (it may interrupt calls and transfer less than asked), it has no schedule of faults as a
    single-step device, and a read up to its end leaves it there, as the loop of std does. *)
Definition splits (d : dev) (s : list answer) : Prop := ~ In Fails s /\ fault_free d /\ eof_moves d = true.
(** [p] makes the calls of a function on devices. *)
Definition program_of {A} (p : prog A) (f : dev -> A * dev) : Prop := forall d, run_steps p d = f d.
(** Results that contain the device: the program returns them with any device inside. *)
Definition holding (d : dev) (r : outcome gpt_err gdisk) : outcome gpt_err gdisk :=
  match r with Ok g => Ok (set_device d g) | Err e => Err e | Panic => Panic end.
Definition program_of_opening (p : prog (outcome gpt_err gdisk)) (f : M dev gpt_err gdisk) : Prop :=
  forall d, f d = let (r, d') := run_steps p d in (holding d' r, d').
(** Calls on the open disk [g], whatever its device. *)
Definition program_of_call {A} (p : prog (A * gdisk)) (f : gdisk -> A * gdisk) (g : gdisk) : Prop :=
  forall d, f (set_device d g) = let '((a, g'), d') := run_steps p d in (a, set_device d' g').
Definition program_of_history (p : prog (option gdisk)) (oc : bool) (ops : list op) (g : gdisk) : Prop :=
  forall d, run oc ops (set_device d g) = let (x, d') := run_steps p d in option_map (set_device d') x.
(** Not one that replaces the device. *)
Definition on_this_device (o : op) : Prop := match o with OpUpdateDevice _ _ => False | _ => True end.

(** The public functions that work on a device directly. *)
Inductive device_function : forall A, (dev -> A * dev) -> Prop :=
| df_primary lb : device_function _ (read_primary_header lb)
| df_backup lb : device_function _ (read_backup_header lb)
| df_partitions oc h lb : device_function _ (file_read_partitions oc h lb)
| df_write_header oc u rnd lb : device_function _ (write_header oc u rnd lb)
| df_partition_write oc p i a lb : device_function _ (partition_write oc p i a lb)
| df_from_disk lb : device_function _ (mbr_from_disk lb)
| df_overwrite m : device_function _ (overwrite_lba0 m)
| df_conservative m : device_function _ (update_conservative m)
| df_read_bootcode : device_function _ read_bootcode
| df_write_bootcode b : device_function _ (write_bootcode b)
| df_read_signature : device_function _ read_disk_signature
| df_write_signature b : device_function _ (write_disk_signature b).
(** The ways to get an open disk. *)
Inductive opening : M dev gpt_err gdisk -> Prop :=
| op_open oc cfg : opening (open_from_device oc cfg)
| op_create oc cfg u rnd : opening (create_from_device oc cfg u rnd)
| op_open_path oc cfg : opening (open_path oc cfg)
| op_create_path oc cfg rnd : opening (create_path oc cfg rnd).
