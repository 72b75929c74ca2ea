(** SpecCrash.v - vocabulary for writes that are cut short. *)
From Verif Require Export Spec.
Open Scope list_scope.
Open Scope N_scope.

(** The new bytes up to position [k], the old ones from there on. *)
Definition torn (old new : list byte) (k : nat) : list byte := firstn k new ++ skipn k old.
(** Wherever the change from [old] to [new] is cut, the checksum tells, unless there is nothing to
    tell. *)
Definition tear_proof (old new : list byte) : Prop :=
  forall k, crc32 (torn old new k) = crc32 old -> torn old new k = old \/ torn old new k = new.
(** The two differ in a run of at most four bytes. *)
Definition small_change (old new : list byte) : Prop :=
  exists a w w' b, old = a ++ w ++ b /\ new = a ++ w' ++ b /\ length w = length w' /\ (length w <= 4)%nat.
(** The partition array of the primary copy, for a disk working with header [h]. *)
Definition primary_array (lb : lbsize) (h : header) (d : dev) : list byte :=
  range (2 * lb_u64 lb) (128 * num_parts h) (data d).
