(** SpecIdentity.v - vocabulary of C102: partitions told apart by their GUIDs. *)
From Verif Require Export SpecSession.
Open Scope list_scope.
Open Scope N_scope.

(** No two entries have the same GUID. *)
Definition told_apart (m : pmap) : Prop :=
  forall j p k q, has m j p -> has m k q -> part_guid p = part_guid q -> j = k.
(** [u] is the GUID of an entry. *)
Definition names_one (m : pmap) (u : uuid) : Prop := exists k p, has m k p /\ part_guid p = u.
(** The GUIDs drawn for partitions by the calls of a history. *)
Fixpoint drawn (ops : list op) : list uuid :=
  match ops with
  | [] => []
  | (OpAdd _ _ _ _ _ rnd | OpAddAt _ _ _ _ _ _ rnd) :: r => rnd :: drawn r
  | _ :: r => drawn r
  end.
(** Calls that do not bring in partitions with GUIDs of their own. *)
Definition no_table (o : op) : Prop := match o with OpUpdatePartitions _ => False | _ => True end.
(** Calls that do not take away the partition with GUID [u]: no removal of that GUID, and no removal by number. *)
Definition spares (u : uuid) (o : op) : Prop :=
  match o with
  | OpRemoveGuid v => v <> u
  | OpRemove _ | OpTake => False
  | _ => True
  end.
(** A partition that is [p], or [p] as it is read back. *)
Definition still_there (m : pmap) (p : partition) : Prop := exists k q, has m k q /\ (q = p \/ same_entry p q).
(** Any number of sessions as in C63, with all their calls. *)
Inductive visits (oc : bool) (lb : lbsize) : list op -> gdisk -> gdisk -> Prop :=
| vi_none g : visits oc lb [] g g
| vi_one cfg ops rest fs m g g2 g3 : c_lb cfg = lb -> c_change_partition_count cfg = false ->
    session oc cfg ops fs g m g2 -> visits oc lb rest g2 g3 -> visits oc lb (ops ++ rest) g g3.
