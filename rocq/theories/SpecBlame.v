(** SpecBlame.v - which errors a failed device operation leads to. *)
From Verif Require Export SpecFault.
From Verif Require Import Mbr.
Open Scope list_scope.
Open Scope N_scope.

(** Some device operation between the two states failed. *)
Definition fault_between (d d' : dev) : Prop :=
  exists fs, faults d = fs ++ faults d' /\ Exists (fun f => f <> None) fs.
(** The error of the device, as each layer reports it. *)
Definition io_failed (e : io_err) : Prop := e = IoFault.
Definition hdr_failed (e : hdr_err) : Prop := e = HIo IoFault.
Definition gpt_failed (e : gpt_err) : Prop := e = GIo IoFault \/ e = GHeader (HIo IoFault).
Definition mbr_failed (e : mbr_err) : Prop := e = MIo IoFault.
(** Either no operation failed, and the outcome (success, error or panic) is that of a device without faults; or one failed,
    and its error is what the caller gets. *)
Definition blames {E A} (failed : E -> Prop) (m : M dev E A) : Prop := forall d r d', m d = (r, d') ->
  no_fault_between d d' /\ m (repaired d) = (r, repaired d') \/
  fault_between d d' /\ exists e, r = Err e /\ failed e.
Definition disk_blames {E A} (failed : E -> Prop) (m : M gdisk E A) : Prop := forall g r g', m g = (r, g') ->
  no_fault_between (g_device g) (g_device g') /\ m (repaired_disk g) = (r, repaired_disk g') \/
  fault_between (g_device g) (g_device g') /\ exists e, r = Err e /\ failed e.
