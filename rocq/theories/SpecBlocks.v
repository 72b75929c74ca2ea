(** SpecBlocks.v - words for the statements about opening a disk with the wrong block size. *)
From Verif Require Export Spec.
Open Scope list_scope.
Open Scope N_scope.

(** A partition whose type GUID, as stored, begins like a GPT header. *)
Definition disguised (p : partition) : Prop := firstn 8 (guid_on_disk (guid (part_type p))) = efi_part.
