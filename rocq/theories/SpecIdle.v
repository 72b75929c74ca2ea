(** SpecIdle.v - vocabulary of C86: writes in the course of a session that no one needs. *)
From Verif Require Export Spec.
Open Scope list_scope.
Open Scope N_scope.

(** What a program does with an open disk: a call that edits the table, or an attempt to save it, during which the
    device fails as [fs] says (not at all for []) and is in order afterwards. *)
Inductive act : Type :=
| Edit (o : op)
| Save (fs : list (option nat)).
Definition act_step (oc : bool) (a : act) (g : gdisk) : option gdisk :=
  match a with
  | Edit o => step oc o g
  | Save fs =>
      match write_inplace oc (set_device (with_faults fs (g_device g)) g) with
      | (Panic, _) => None
      | (_, g') => Some (set_device (repaired (g_device g')) g')
      end
  end.
Fixpoint act_run (oc : bool) (l : list act) (g : gdisk) : option gdisk :=
  match l with
  | [] => Some g
  | a :: r => match act_step oc a g with Some g' => act_run oc r g' | None => None end
  end.
(** The same without the attempts to save. *)
Fixpoint edits (l : list act) : list op :=
  match l with
  | [] => []
  | Edit o :: r => o :: edits r
  | Save _ :: r => edits r
  end.
(** The calls that edit, with arguments as the Rust types allow them. *)
Definition edit_ok (o : op) : Prop :=
  match o with
  | OpAdd _ _ _ _ _ _ | OpAddAt _ _ _ _ _ _ _ | OpRemove _ | OpRemoveGuid _ | OpTake | OpUpdatePartitions _ => True
  | OpUpdateGuid u rnd => guid_ok (match u with Some u => u | None => rnd end)
  | OpWrite | OpUpdateDevice _ _ => False
  end.
Definition act_ok (a : act) : Prop := match a with Edit o => edit_ok o | Save _ => True end.
Definition replaces_table (a : act) : Prop := exists pp, a = Edit (OpUpdatePartitions pp).
(** A writable disk on a device in order, with a fixed number of entries and a header that describes a sane layout. *)
Record settled (g : gdisk) (h : header) : Prop := mkSettled {
  st_writable : c_writable (g_config g) = true;
  st_fixed : c_change_partition_count (g_config g) = false;
  st_header : header_of g h;
  st_size : addressable (g_device g);
  st_faults : fault_free (g_device g);
  st_layout : layout_ok (c_lb (g_config g)) (lenN (data (g_device g))) h;
  st_guid : guid_ok (g_guid g)
}.
(** No block between the usable ones and the backup array is left out. *)
Definition up_to_backup (lb : lbsize) (h : header) : Prop := last_usable h + array_blocks lb h + 1 = backup_at h.
(** Both runs panic, or neither does and a last write, on a device in order, gives the same disk. *)
Definition same_end (oc : bool) (h : header) (o1 o2 : option gdisk) : Prop :=
  match o1, o2 with
  | Some g1, Some g2 =>
      g_partitions g1 = g_partitions g2 /\ g_guid g1 = g_guid g2 /\
      (lenN (used_in_order (g_partitions g1)) <= num_parts h ->
       exists w1 w2, write_inplace oc g1 = (Ok tt, w1) /\ write_inplace oc g2 = (Ok tt, w2) /\
         data (g_device w1) = data (g_device w2) /\ g_primary w1 = g_primary w2 /\
         g_partitions w1 = g_partitions w2 /\ g_guid w1 = g_guid w2 /\ g_config w1 = g_config w2)
  | None, None => True
  | _, _ => False
  end.
