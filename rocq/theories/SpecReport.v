(** SpecReport.v - vocabulary of C91: what an open disk says about its two headers. *)
From Verif Require Export SpecClone.
Open Scope list_scope.
Open Scope N_scope.

(** The kind of an I/O error ([std::io::ErrorKind]), which is all that is kept when the error is reported again. *)
Inductive error_kind : Type := UnexpectedEof | WriteZero | DeviceFault | OtherError.
Definition kind (e : io_err) : error_kind :=
  match e with IoUnexpectedEof => UnexpectedEof | IoWriteZero => WriteZero | IoFault => DeviceFault | IoOther _ => OtherError end.
Definition same_cause (e e' : hdr_err) : Prop :=
  match e with
  | HIo a => match e' with HIo b => kind a = kind b | _ => False end
  | _ => e' = e
  end.
(** [r] reports what reading gave. *)
Definition reports (r read : outcome hdr_err header) : Prop :=
  match r with
  | Ok h => read = Ok h
  | Err e => exists e', read = Err e' /\ same_cause e e'
  | Panic => read = Panic
  end.
(** Calls that lay out the headers anew. *)
Definition renews (c : call) : Prop :=
  match c with Do OpWrite | Do (OpUpdatePartitions _) => True | _ => False end.
(** Calls that leave the headers alone; adding a partition lays them out anew if the number of entries has to grow. *)
Definition leaves_headers (g : gdisk) (c : call) : Prop :=
  match c with
  | Do OpWrite | Do (OpUpdatePartitions _) => False
  | Do (OpAdd _ _ _ _ _ _) | Do (OpAddAt _ _ _ _ _ _ _) => c_change_partition_count (g_config g) = false
  | _ => True
  end.
Definition valid (r : outcome hdr_err header) : Prop := exists h, r = Ok h.
