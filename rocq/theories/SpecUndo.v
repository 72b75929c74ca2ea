(** SpecUndo.v - vocabulary of C85: adding a partition and removing it again. *)
From Verif Require Export Spec.
Open Scope list_scope.
Open Scope N_scope.

(** [g2] is what [g] was before partition [id] was added: the table without that id (an unused entry that was there is
    gone), the same partitions in use, the same settings, GUID and contents of the device; and if the number of entries
    did not have to grow, the same headers and free space - the very same disk if there was no entry under that id. *)
Record as_before (oc : bool) (g : gdisk) (id : N) (g2 : gdisk) : Prop := mkAsBefore {
  ab_table : dropped (g_partitions g) id (g_partitions g2);
  ab_used : forall k p, used p -> (has (g_partitions g2) k p <-> has (g_partitions g) k p);
  ab_rest : g_config g2 = g_config g /\ g_guid g2 = g_guid g /\ g_sync g2 = g_sync g /\ same_medium (g_device g) (g_device g2);
  ab_fixed : c_change_partition_count (g_config g) = false \/ (exists h, header_of g h /\ N.max id 128 <= num_parts h) ->
    g2 = set_partitions (g_partitions g2) g /\
    @find_free_sectors gpt_err oc g2 = find_free_sectors oc g /\
    ((forall p, ~ has (g_partitions g) id p) -> g2 = g)
}.
