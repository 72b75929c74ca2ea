(** SpecQuery.v - words for the statements about calls that only look at a disk. *)
From Verif Require Export SpecPanic.
Open Scope list_scope.
Open Scope N_scope.

(** The blocks next to free space: the last before and the first after the usable blocks, and the ends of
    every used partition. *)
Definition edges (h : header) (m : pmap) : list N :=
  (first_usable h - 1) :: flat_map (fun p => [first_lba p; last_lba p]) (used_in_order m) ++ [last_usable h + 1].
Definition at_least_two (x : N) (l : list N) : Prop := (2 <= count_occ N.eq_dec l x)%nat.
(** Numbers of blocks are 64 bits wide. *)
Definition fields_fit (h : header) (m : pmap) : Prop :=
  first_usable h < 2 ^ 64 /\ last_usable h < 2 ^ 64 /\
  forall k p, has m k p -> first_lba p < 2 ^ 64 /\ last_lba p < 2 ^ 64.
