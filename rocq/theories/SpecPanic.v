(** SpecPanic.v - words for the statements about panics and overflow checks. *)
From Verif Require Export Spec.
Open Scope N_scope.

(** Arguments within what the documentation asks for: no partition of size 0, no alignment 0, no
    partition number 0.  A GUID is 16 bytes by its type. *)
Definition args_ok (o : op) : Prop :=
  match o with
  | OpAdd _ size _ _ al _ => size <> 0 /\ al <> Some 0
  | OpAddAt _ id _ len _ _ _ => id <> 0 /\ len <> 0
  | OpUpdatePartitions pp => pm_get 0 pp = None
  | OpUpdateGuid u rnd => guid_ok (match u with Some u => u | None => rnd end)
  | _ => True
  end.
(** The header in use makes write_inplace compute a number that does not fit: the size of the array
    in bytes (32 bits), or - if it gets that far - the block after the primary header or the block
    after the last usable one (64 bits). *)
Definition overflows (lb : lbsize) (readonly_backup : bool) (h : header) : Prop :=
  2 ^ 32 <= num_parts h * part_size h \/
  (let t := blocks_for (num_parts h * part_size h) lb in
   t + 1 <= backup_at h /\
   N.max (first_usable h) (2 + t) <= N.max (last_usable h) (backup_at h - (t + 1)) /\
   (primary_at h + 1 = 2 ^ 64 \/ (readonly_backup = false /\ last_usable h + 1 = 2 ^ 64))).
(** Calls of C29 with a non-empty partition whose end computation fits in 64 bits. *)
Definition fitting_op (lb : lbsize) (o : op) : Prop :=
  match o with
  | OpAdd _ size _ _ al _ =>
      1 <= size /\ 1 <= alignment al /\ alignment al + blocks_for size lb < 2 ^ 64
  | OpRemove _ | OpRemoveGuid _ | OpTake | OpUpdateGuid _ _ | OpWrite => True
  | _ => False
  end.
