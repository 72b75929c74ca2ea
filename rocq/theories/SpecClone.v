(** SpecClone.v - vocabulary of C90: configurations, and conversations with an open disk. *)
From Verif Require Export SpecBuilder.
Open Scope list_scope.
Open Scope N_scope.

(** The calls on a [GptConfig]. *)
Inductive csetting : Type := SetWritable (v : bool) | SetBlock (v : lbsize) | SetValid (v : bool) | SetReadonly (v : bool) | SetCount (v : bool).
Definition capply (c : config) (s : csetting) : config :=
  match s with
  | SetWritable v => cset_writable v c
  | SetBlock v => cset_lb v c
  | SetValid v => cset_only_valid_headers v c
  | SetReadonly v => cset_readonly_backup v c
  | SetCount v => cset_change_partition_count v c
  end.
(** [GptConfig::new()] followed by such calls. *)
Definition configured (ss : list csetting) : config := fold_left capply ss config_default.
Definition asks_writable (s : csetting) : option bool := match s with SetWritable v => Some v | _ => None end.
Definition asks_block (s : csetting) : option lbsize := match s with SetBlock v => Some v | _ => None end.
Definition asks_valid (s : csetting) : option bool := match s with SetValid v => Some v | _ => None end.
Definition asks_readonly (s : csetting) : option bool := match s with SetReadonly v => Some v | _ => None end.
Definition asks_count (s : csetting) : option bool := match s with SetCount v => Some v | _ => None end.

(** A call on an open disk: one of those that may change it, or a question. *)
Inductive call : Type :=
| Do (o : op)
| AskPrimary | AskBackup | AskHeader | AskTable | AskGuid | AskBlock | AskFree | AskId | AskAlignment.
(** What it returns. *)
Inductive value : Type :=
| VUnit | VId (n : N) | VMaybe (n : option N) | VTable (m : pmap) | VFree (l : list (N * N)) | VNum (n : N)
| VHeader (h : outcome hdr_err header) | VGuid (u : uuid) | VBlock (b : lbsize)
| VDevice (contents : list byte) (position : N).
Inductive reply : Type := Returned (v : value) | Refused (e : gpt_err) | Panicked.
Definition replied {A} (f : A -> value) (r : outcome gpt_err A * gdisk) : reply * gdisk :=
  (match fst r with Ok a => Returned (f a) | Err e => Refused e | Panic => Panicked end, snd r).
Definition told {A} (f : A -> value) (r : A * gdisk) : reply * gdisk := (Returned (f (fst r)), snd r).
Definition ask (oc : bool) (c : call) (g : gdisk) : reply * gdisk :=
  match c with
  | Do (OpAdd nm size ty fl al rnd) => replied VId (add_partition oc nm size ty fl al rnd g)
  | Do (OpAddAt nm id first len ty fl rnd) => replied VId (add_partition_at oc nm id first len ty fl rnd g)
  | Do (OpRemove id) => told VMaybe (remove_partition id g)
  | Do (OpRemoveGuid u) => told VMaybe (remove_partition_by_guid u g)
  | Do OpTake => told VTable (take_partitions g)
  | Do (OpUpdateGuid u rnd) => (Returned VUnit, update_guid u rnd g)
  | Do (OpUpdatePartitions pp) => replied (fun _ => VUnit) (update_partitions oc pp g)
  | Do OpWrite => replied (fun _ => VUnit) (write_inplace oc g)
  | Do (OpUpdateDevice d w) => told (fun d => VDevice (data d) (pos d)) (update_disk_device d w g)
  | AskPrimary => (Returned (VHeader (primary_header g)), g)
  | AskBackup => (Returned (VHeader (backup_header g)), g)
  | AskHeader => replied (fun h => VHeader (Ok h)) (the_header g, g)
  | AskTable => (Returned (VTable (g_partitions g)), g)
  | AskGuid => (Returned (VGuid (g_guid g)), g)
  | AskBlock => (Returned (VBlock (c_lb (g_config g))), g)
  | AskFree => replied VFree (find_free_sectors oc g, g)
  | AskId => replied VMaybe (find_next_partition_id g, g)
  | AskAlignment => (Returned (VNum (calculate_alignment g)), g)
  end.
(** A conversation ends with the first panic. *)
Fixpoint talk (oc : bool) (cs : list call) (g : gdisk) : list reply * gdisk :=
  match cs with
  | [] => ([], g)
  | c :: cs =>
      match ask oc c g with
      | (Panicked, g) => ([Panicked], g)
      | (r, g) => let (l, g) := talk oc cs g in (r :: l, g)
      end
  end.
(** Devices put in during the conversation do not fail. *)
Definition sound_call (c : call) : Prop := match c with Do (OpUpdateDevice d _) => fault_free d | _ => True end.
(** The device stays. *)
Definition keeps_device (c : call) : Prop := match c with Do (OpUpdateDevice _ _) => False | _ => True end.
(** Everything of a device but what is known to have reached the medium. *)
Definition same_dev (d d' : dev) : Prop :=
  data d' = data d /\ pos d' = pos d /\ growable d' = growable d /\ eof_moves d' = eof_moves d /\ faults d' = faults d.
