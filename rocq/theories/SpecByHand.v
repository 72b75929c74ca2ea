(** SpecByHand.v - vocabulary of C88: changing one entry of a partition array without opening the disk. *)
From Verif Require Export SpecRival.
Open Scope list_scope.
Open Scope N_scope.

(** The bytes [l] hold a primary header [h] with its array, where they belong. *)
Record primary_on (lb : lbsize) (l : list byte) (h : header) : Prop := mkPrimaryOn {
  po_header : header_at l (lb_u64 lb) (Ok h);
  po_psize : part_size h = 128;
  po_first : current_lba h = 1 /\ 1 < backup_lba h;
  po_start : 2 <= part_start h;
  po_fits : array_at lb h + array_len h <= lenN l
}.
(** Table [m'] is [m] with a partition under id [k] that says what [p] says; with nothing under id [k]. *)
Definition entry_set (k : N) (p : partition) (m m' : pmap) : Prop :=
  map_ok m' /\ forall j q, has m' j q <-> (j <> k /\ has m j q) \/ (j = k /\ same_entry p q).
Definition entry_cleared (k : N) (m m' : pmap) : Prop :=
  map_ok m' /\ forall j q, has m' j q <-> j <> k /\ has m j q.
(** The bytes of entry number [i], counting from 0. *)
Definition entry_no (lb : lbsize) (h : header) (i j : N) : Prop :=
  between (array_at lb h + i * 128) (array_at lb h + i * 128 + 128) j.
(** The device [d] has lost its primary header, but still holds a backup header [h] in its last block, and its array before it. *)
Record backup_on (lb : lbsize) (d : dev) (h : header) (e : hdr_err) : Prop := mkBackupOn {
  bo_primary : header_at (data d) (lb_u64 lb) (Err e);
  bo_header : backup_header_at lb d (Ok h);
  bo_psize : part_size h = 128;
  bo_last : current_lba h = last_whole_block lb d /\ backup_lba h < current_lba h;
  bo_start : 2 <= part_start h;
  bo_fits : array_at lb h + array_len h <= current_lba h * lb_u64 lb
}.
