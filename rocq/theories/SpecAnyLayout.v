(** SpecAnyLayout.v - where a disk is written whose header describes any layout. *)
From Verif Require Export Spec.
Open Scope list_scope.
Open Scope N_scope.

(** The last usable block is raised to the block before the backup array, but never lowered. *)
Definition last_kept (lb : lbsize) (h : header) : N :=
  N.max (last_usable h) (backup_at h - array_blocks lb h - 1).
Definition in_block (lb : lbsize) (b i : N) : Prop := between (b * lb_u64 lb) ((b + 1) * lb_u64 lb) i.
Definition in_array (lb : lbsize) (b n i : N) : Prop := between (b * lb_u64 lb) (b * lb_u64 lb + n * 128) i.
(** The header blocks and the arrays: the primary array right behind the primary header, the backup array right behind
    the usable blocks. *)
Definition write_places (lb : lbsize) (backup_too : bool) (h : header) (i : N) : Prop :=
  in_block lb (primary_at h) i \/ in_array lb (primary_at h + 1) (num_parts h) i \/
  backup_too = true /\ (in_block lb (backup_at h) i \/ in_array lb (last_kept lb h + 1) (num_parts h) i).
(** No position reaches 2^64. *)
Definition places_fit_64 (lb : lbsize) (h : header) : Prop :=
  num_parts h * 128 < 2 ^ 32 /\
  (N.max (backup_at h) (last_kept lb h) + 1) * lb_u64 lb + num_parts h * 128 < 2 ^ 64.
(** There is no room for two arrays and one usable block. *)
Definition no_room (lb : lbsize) (h : header) : Prop :=
  backup_at h < array_blocks lb h + 1 \/ last_kept lb h < N.max (first_usable h) (array_blocks lb h + 2).
(** The places do not overlap. *)
Definition places_apart (lb : lbsize) (h : header) : Prop :=
  primary_at h < backup_at h /\ primary_at h < last_kept lb h /\
  (primary_at h + 1 + array_blocks lb h <= backup_at h) /\
  (primary_at h + 1 + array_blocks lb h <= last_kept lb h + 1) /\
  (last_kept lb h + 1 + array_blocks lb h <= backup_at h \/ backup_at h <= last_kept lb h).
