(** SpecSettings.v - vocabulary of C98: which settings make a difference, and where. *)
From Verif Require Export SpecClone SpecSession.
Open Scope list_scope.
Open Scope N_scope.

(** [c'] permits everything that [c] permits, with the same block size and the same choice about the backup; the
    setting only_valid_headers may differ. *)
Definition looser (c c' : config) : Prop :=
  c_lb c' = c_lb c /\ c_readonly_backup c' = c_readonly_backup c /\
  (c_writable c = true -> c_writable c' = true) /\
  (c_change_partition_count c = true -> c_change_partition_count c' = true).
(** A reply that says that the settings do not permit the call. *)
Definition forbids (r : reply) : Prop := r = Refused GReadOnly \/ r = Refused GPartitionCountWouldChange.
(** [c] refuses the call with this reply, [c'] would not have. *)
Definition lifted (c c' : config) (r : reply) : Prop :=
  r = Refused GReadOnly /\ c_writable c = false /\ c_writable c' = true \/
  r = Refused GPartitionCountWouldChange /\ c_change_partition_count c = false /\ c_change_partition_count c' = true.

(** Calls that add one partition, without asking for an entry beyond the first [n]; calls other than these and
    update_partitions need no entries. *)
Fixpoint additions (ops : list op) : N :=
  match ops with
  | [] => 0
  | (OpAdd _ _ _ _ _ _ | OpAddAt _ _ _ _ _ _ _) :: r => 1 + additions r
  | _ :: r => additions r
  end.
Definition asks_within (n : N) (o : op) : Prop :=
  match o with
  | OpAddAt _ id _ _ _ _ _ => id <= n
  | OpUpdatePartitions _ => False
  | _ => True
  end.
(** Enough entries for the partitions in use and all that are going to be added. *)
Definition roomy (ops : list op) (g : gdisk) (h : header) : Prop :=
  header_of g h /\ map_ok (g_partitions g) /\ 128 <= num_parts h /\
  lenN (used_in_order (g_partitions g)) + additions ops <= num_parts h /\ Forall (asks_within (num_parts h)) ops.
(** The same disk, not permitted to change the number of entries. *)
Definition strict (g : gdisk) : gdisk := set_config (cset_change_partition_count false (g_config g)) g.
(** Any number of sessions with block size [lb]; [ops] are the calls of all of them, one session after the other.  The settings may
    differ from session to session. *)
Inductive sessions_of (oc : bool) (lb : lbsize) : list op -> gdisk -> gdisk -> Prop :=
| so_none g : sessions_of oc lb [] g g
| so_one cfg ops rest fs m g g2 g3 : c_lb cfg = lb -> session oc cfg ops fs g m g2 -> sessions_of oc lb rest g2 g3 ->
    sessions_of oc lb (ops ++ rest) g g3.
