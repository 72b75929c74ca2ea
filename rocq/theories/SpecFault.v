(** SpecFault.v - vocabulary for what happens to device faults. *)
From Verif Require Export Spec.
Open Scope list_scope.
Open Scope N_scope.

(** None of the device operations performed between [d] and [d'] failed: the part of the fault
    schedule that was used up lets everything pass. *)
Definition no_fault_between (d d' : dev) : Prop :=
  exists fs, faults d = fs ++ faults d' /\ Forall (eq None) fs.
(** The disk with its device working from now on. *)
Definition repaired_disk (g : gdisk) : gdisk := set_device (repaired (g_device g)) g.
(** A call on a device (on a disk) that never succeeds when one of its device operations failed, and
    whose success does not depend on faults that did not occur. *)
Definition reports_faults {E A} (m : M dev E A) : Prop := forall d a d', m d = (Ok a, d') ->
  no_fault_between d d' /\ m (repaired d) = (Ok a, repaired d').
Definition disk_reports_faults {E A} (m : M gdisk E A) : Prop := forall g a g', m g = (Ok a, g') ->
  no_fault_between (g_device g) (g_device g') /\ m (repaired_disk g) = (Ok a, repaired_disk g').
(** Somewhere on the device there is a valid header, [h]. *)
Definition stored_header (l : list byte) (h : header) : Prop := exists off, header_at l off (Ok h).
(** The result of opening, with the device of the disk working from now on. *)
Definition repaired_result (r : outcome gpt_err gdisk) : outcome gpt_err gdisk :=
  match r with Ok g => Ok (repaired_disk g) | Err e => Err e | Panic => Panic end.
