(** SpecMemory.v - vocabulary of C94 to C96: memory and device calls. *)
From Verif Require Export Spec Memory.
Open Scope list_scope.
Open Scope N_scope.

(** How many partitions a call, and a history, brings in. *)
Definition given (o : op) : N :=
  match o with OpAdd _ _ _ _ _ _ | OpAddAt _ _ _ _ _ _ _ => 1 | OpUpdatePartitions pp => lenN pp | _ => 0 end.
Definition all_given (ops : list op) : N := fold_right (fun o n => given o + n) 0 ops.
(** A machine whose buffers are no longer than a [usize] can say. *)
Definition machine_ok (mc : machine) : Prop := m_mem mc < 2 ^ m_bits mc.
(** A history on the machine [mc]. *)
Definition step_in (mc : machine) (oc : bool) (o : op) (g : gdisk) : option gdisk :=
  match o with OpWrite => kept (write_inplace_in mc oc g) | _ => step oc o g end.
Fixpoint run_in (mc : machine) (oc : bool) (ops : list op) (g : gdisk) : option gdisk :=
  match ops with
  | [] => Some g
  | o :: r => match step_in mc oc o g with Some g => run_in mc oc r g | None => None end
  end.

(** Between [d] and [d'] at most [n] calls of the device were made: each call takes one element off the schedule of faults. *)
Definition spent (n : N) (d d' : dev) : Prop := exists k, N.of_nat k <= n /\ faults d' = skipn k (faults d).
(** How many a call may make. *)
Definition budget (o : op) (g : gdisk) : N :=
  match o with
  | OpAdd _ _ _ _ _ _ | OpAddAt _ _ _ _ _ _ _ | OpUpdatePartitions _ => 3
  | OpWrite => 17 + 4 * lenN (used_in_order (g_partitions g))
  | _ => 0
  end.
