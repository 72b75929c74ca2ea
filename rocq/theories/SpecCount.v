(** SpecCount.v - arrays with very many empty entries. *)
From Verif Require Export Spec.
Open Scope list_scope.
Open Scope N_scope.

(** The entry number [i] (from 0) of the array of [h] is there and empty. *)
Definition empty_entry (lb : lbsize) (h : header) (l : list byte) (i : N) : Prop :=
  i < num_parts h /\ array_at lb h + 128 * (i + 1) <= lenN l /\ range (array_at lb h + 128 * i) 128 l = repeat x00 128.
(** There are at least [n] of them. *)
Definition empty_entries (lb : lbsize) (h : header) (l : list byte) (n : N) : Prop :=
  exists is, NoDup is /\ lenN is = n /\ Forall (empty_entry lb h l) is.
