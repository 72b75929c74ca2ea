(** SpecAccount.v - vocabulary of C103: adding up blocks. *)
From Verif Require Export Spec.
Open Scope list_scope.
Open Scope N_scope.

(** The blocks in a list of (start, length). *)
Definition total (secs : list (N * N)) : N := fold_right (fun s n => snd s + n) 0 secs.
(** The blocks of a partition, and of all used partitions of a table. *)
Definition extent (p : partition) : N := last_lba p + 1 - first_lba p.
Definition taken (m : pmap) : N := fold_right (fun p n => extent p + n) 0 (used_in_order m).
(** The usable blocks. *)
Definition usable_blocks (h : header) : N := last_usable h + 1 - first_usable h.
