(** SpecAnyTable.v - vocabulary for the free space of tables in any state, overlapping partitions included. *)
From Verif Require Export SpecQuery.
Open Scope list_scope.
Open Scope N_scope.

(** A block that lies between two edges (C65) and has an odd number of edges below it.  If the partitions lie in the
    usable range and do not overlap, these are the free blocks. *)
Definition between_edges (h : header) (m : pmap) (x : N) : Prop :=
  ~ In x (edges h m) /\ Nat.Odd (length (filter (fun e => e <? x) (edges h m))).
(** The condition of C65 for asking for the free space without overflow. *)
Definition askable (h : header) (m : pmap) : Prop :=
  fields_fit h m /\ 1 <= first_usable h /\ last_usable h + 1 < 2 ^ 64 /\
  ~ at_least_two 0 (edges h m) /\ ~ at_least_two (2 ^ 64 - 1) (edges h m).
