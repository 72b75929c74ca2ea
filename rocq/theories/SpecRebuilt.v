(** SpecRebuilt.v - the headers of an open disk after they have been made anew. *)
From Verif Require Export SpecBuilder.
Open Scope list_scope.
Open Scope N_scope.

(** The order the headers are made to: the header in use with the disk's GUID, [n] entries and the backup in the
    block [last].  The backup header is made from the primary one. *)
Definition order_for (g : gdisk) (h : header) (n last : N) : order :=
  mkOrder true (g_guid g) (primary_at h) last (first_usable h) (last_usable h) n (part_size h).
Definition order_back (o : order) (hp : header) : order :=
  mkOrder false (o_guid o) (o_front o) (o_back o) (first_usable hp) (last_usable hp) (o_num o) (o_size o).
(** [g'] is [g] with headers made to the order [o] whose array takes [t] blocks, and the table [m]. *)
Record rebuilt (o : order) (t : N) (m : pmap) (g g' : gdisk) : Prop := mkRebuilt {
  rb_table : g_partitions g' = m;
  rb_rest : g_config g' = g_config g /\ g_guid g' = g_guid g /\ g_sync g' = g_sync g /\
            same_medium (g_device g) (g_device g');
  rb_primary : exists hp, g_primary g' = Ok hp /\ as_ordered o t hp /\
    (c_readonly_backup (g_config g) = true -> g_backup g' = g_backup g) /\
    (c_readonly_backup (g_config g) = false -> exists hb, g_backup g' = Ok hb /\ as_ordered (order_back o hp) t hb)
}.
(** Why an order cannot be met. *)
Definition unmet (o : order) (t : N) (e : hdr_err) : Prop :=
  e = HMissingBackupLba /\ o_back o < o_front o \/
  e = HBackupLbaToEarly /\ o_front o <= o_back o /\
    (o_back o < t + 1 \/ N.max (o_last o) (o_back o - t - 1) < N.max (o_first o) (t + 2)).
(** Numbers small enough for the machine. *)
Definition within_words (o : order) : Prop :=
  o_num o * o_size o < 2 ^ 32 /\ o_front o + 1 < 2 ^ 64 /\ o_last o + 1 < 2 ^ 64.
