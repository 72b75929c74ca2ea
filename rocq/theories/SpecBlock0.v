(** SpecBlock0.v - vocabulary of C84: the protective record in block 0 beside the partition table. *)
From Verif Require Export SpecMbr.
From Verif Require Import Mbr.
Open Scope list_scope.
Open Scope N_scope.

(** The calls that write the protective record. *)
Inductive mbr_call : Type :=
| CallOverwrite (m : mbr)
| CallUpdate (m : mbr)
| CallBootcode (b : list byte)
| CallSignature (s : list byte).
(** Arguments that the Rust types allow. *)
Definition call_ok (c : mbr_call) : Prop :=
  match c with
  | CallOverwrite m | CallUpdate m => mbr_ok m
  | CallBootcode b => length b = 440%nat
  | CallSignature s => length s = 4%nat
  end.
(** The device after one call, whatever the call reports, and after several. *)
Definition after_call (c : mbr_call) (d : dev) : dev :=
  match c with
  | CallOverwrite m => snd (overwrite_lba0 m d)
  | CallUpdate m => snd (update_conservative m d)
  | CallBootcode b => snd (write_bootcode b d)
  | CallSignature s => snd (write_disk_signature s d)
  end.
Definition after_calls (cs : list mbr_call) (d : dev) : dev := fold_left (fun d c => after_call c d) cs d.
(** Two devices of the same size that differ at most in the first 512 bytes. *)
Definition same_beyond_512 (a b : list byte) : Prop :=
  lenN a = lenN b /\ forall i, 512 <= i -> byte_no a i = byte_no b i.
(** The same disk in memory, on another device. *)
Definition same_in_memory (g g' : gdisk) : Prop := g' = set_device (g_device g') g.
(** The results of two openings: the same error, or the same disk but for the device. *)
Definition same_opened (r r' : outcome gpt_err gdisk) : Prop :=
  match r, r' with
  | Ok g, Ok g' => same_in_memory g g'
  | Err e, Err e' => e = e'
  | Panic, Panic => True
  | _, _ => False
  end.
