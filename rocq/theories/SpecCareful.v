(** SpecCareful.v - histories in which every call is allowed, provided each is sensible where it is made. *)
From Verif Require Export SpecSession.
Open Scope list_scope.
Open Scope N_scope.

(** What a careful caller checks before a call on the disk [g] as it is: a place given to
    add_partition_at is free, a table given to update_partitions lies in the usable blocks without overlap.
    The other calls are those of [tidy_op]. *)
Definition careful (oc : bool) (g : gdisk) (o : op) : Prop :=
  match o with
  | OpAddAt _ _ first n _ _ _ => forall h, header_of g h -> free_run h (g_partitions g) first n
  | OpUpdatePartitions pp => forall h, header_of g h -> arranged h pp
  | _ => tidy_op oc (c_lb (g_config g)) o
  end.
(** What Rust's types guarantee of the arguments. *)
Definition typed_call (o : op) : Prop :=
  match o with
  | OpAdd nm _ ty fl _ rnd | OpAddAt nm _ _ _ ty fl rnd =>
      guid_ok (guid ty) /\ guid_ok rnd /\ fl < 2 ^ 64 /\ Forall char_ok nm
  | OpUpdateGuid u rnd => guid_ok (match u with Some u => u | None => rnd end)
  | OpUpdatePartitions pp => typed_table pp
  | _ => True
  end.
(** A history of such calls; [careful] is asked of each call in the state in which it is made. *)
Inductive careful_run (oc : bool) : list op -> gdisk -> gdisk -> Prop :=
| cr_none g : careful_run oc [] g g
| cr_call o ops g g1 g' : careful oc g o -> typed_call o -> step oc o g = Some g1 -> careful_run oc ops g1 g' ->
    careful_run oc (o :: ops) g g'.
(** A session as in SpecSession, with such a history. *)
Definition careful_session (oc : bool) (cfg : config) (fs : list (option nat)) (g : gdisk) (m : pmap)
    (g2 : gdisk) : Prop :=
  exists ops g1 gw, careful_run oc ops (set_device (with_faults fs (g_device g)) g) g1 /\ m = g_partitions g1 /\
    write_inplace oc g1 = (Ok tt, gw) /\ fst (open_from_device oc cfg (repaired (g_device gw))) = Ok g2.
Inductive careful_sessions (oc : bool) (lb : lbsize) : gdisk -> gdisk -> Prop :=
| cs_none g : careful_sessions oc lb g g
| cs_one cfg fs m g g2 g3 : c_lb cfg = lb -> c_change_partition_count cfg = false ->
    careful_session oc cfg fs g m g2 -> careful_sessions oc lb g2 g3 -> careful_sessions oc lb g g3.
