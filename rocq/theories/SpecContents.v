(** SpecContents.v - vocabulary of C101: the bytes that opening looks at and that writing puts down. *)
From Verif Require Export SpecBlock0.
Open Scope list_scope.
Open Scope N_scope.

(** Two byte arrays that agree wherever [P] says. *)
Definition agree (P : N -> Prop) (a b : list byte) : Prop := forall i, P i -> byte_no a i = byte_no b i.
(** The header that opening goes by: the one in block 1, or the one in the last block if there is none. *)
Definition goes_by (lb : lbsize) (d : dev) (h : header) : Prop :=
  header_at (data d) (lb_u64 lb) (Ok h) \/
  (forall h', ~ header_at (data d) (lb_u64 lb) (Ok h')) /\ backup_header_at lb d (Ok h).
(** The places of the two headers and of the array of [h]. *)
Definition header_places (lb : lbsize) (d : dev) (i : N) : Prop :=
  between (lb_u64 lb) (lb_u64 lb + 92) i \/
  between (last_whole_block lb d * lb_u64 lb) (last_whole_block lb d * lb_u64 lb + 92) i.
Definition array_place (lb : lbsize) (h : header) (i : N) : Prop :=
  between (part_start h * lb_u64 lb) (part_start h * lb_u64 lb + 128 * num_parts h) i.
(** Where files live: the usable blocks of [h]. *)
Definition usable_place (lb : lbsize) (h : header) (i : N) : Prop :=
  between (first_usable h * lb_u64 lb) ((last_usable h + 1) * lb_u64 lb) i.
(** Where a write puts bytes. *)
Definition metadata_place (cfg : config) (h : header) (i : N) : Prop :=
  primary_copy (c_lb cfg) h i \/ c_readonly_backup cfg = false /\ backup_copy (c_lb cfg) h i.
