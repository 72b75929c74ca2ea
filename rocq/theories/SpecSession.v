(** SpecSession.v - vocabulary for working with a disk in several sessions. *)
From Verif Require Export Spec.
Open Scope list_scope.
Open Scope N_scope.

(** What Rust's types guarantee of a partition and of the arguments of a call. *)
Definition typed (p : partition) : Prop :=
  guid_ok (guid (part_type p)) /\ guid_ok (part_guid p) /\ flags p < 2 ^ 64 /\ Forall char_ok (name p).
Definition typed_op (o : op) : Prop :=
  match o with
  | OpAdd nm _ ty fl _ rnd => guid_ok (guid ty) /\ guid_ok rnd /\ fl < 2 ^ 64 /\ Forall char_ok nm
  | _ => True
  end.
Definition typed_table (m : pmap) : Prop := forall k p, has m k p -> typed p.

(** One session with an open disk [g]: a history of calls, during which any device operations may fail,
    ending with a write that reports success; then the device is opened again, as [g2].  [m] is the table
    in memory when it was written. *)
Definition session (oc : bool) (cfg : config) (ops : list op) (fs : list (option nat)) (g : gdisk) (m : pmap)
    (g2 : gdisk) : Prop :=
  exists g1 gw, run oc ops (set_device (with_faults fs (g_device g)) g) = Some g1 /\ m = g_partitions g1 /\
    write_inplace oc g1 = (Ok tt, gw) /\ fst (open_from_device oc cfg (repaired (g_device gw))) = Ok g2.
(** Any number of sessions with calls of the kind [P]; each may use other settings, except that the block
    size stays the same and the number of entries is kept. *)
Inductive sessions (oc : bool) (lb : lbsize) (P : op -> Prop) : gdisk -> gdisk -> Prop :=
| ses_none g : sessions oc lb P g g
| ses_one cfg ops fs m g g2 g3 : c_lb cfg = lb -> c_change_partition_count cfg = false -> Forall P ops ->
    session oc cfg ops fs g m g2 -> sessions oc lb P g2 g3 -> sessions oc lb P g g3.
(** Bytes that belong to nobody but the user: block 0 and the usable blocks. *)
Definition user_byte (lb : lbsize) (h : header) (i : N) : Prop :=
  i < lb_u64 lb \/ first_usable h * lb_u64 lb <= i < (last_usable h + 1) * lb_u64 lb.
