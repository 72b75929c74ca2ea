(** SpecBuilder.v - vocabulary of C89: what a [HeaderBuilder] was asked for. *)
From Verif Require Export Spec.
Open Scope list_scope.
Open Scope N_scope.

(** A builder starts from nothing, with a random GUID, or from a header. *)
Inductive start : Type := Scratch (rnd : uuid) | Copy (h : header).
Definition started (s : start) : builder := match s with Scratch rnd => builder_new rnd | Copy h => builder_from_header h end.
(** The values it starts with.  The header it copies is taken for the primary one if it says its own block comes first. *)
Definition front (h : header) : Prop := current_lba h < backup_lba h.
Definition value0 {A} (scratch : A) (of : header -> A) (s : start) : A := match s with Scratch _ => scratch | Copy h => of h end.
Definition guid0 (s : start) : uuid := match s with Scratch rnd => rnd | Copy h => disk_guid h end.
Definition first0 : start -> N := value0 0 first_usable.
Definition last0 : start -> N := value0 0 last_usable.
Definition num0 : start -> N := value0 128 num_parts.
Definition size0 : start -> N := value0 128 part_size.
Inductive where0 : start -> bool -> N -> N -> Prop :=
| w_scratch rnd : where0 (Scratch rnd) true 1 0
| w_front h : front h -> where0 (Copy h) true (current_lba h) (backup_lba h)
| w_back h : ~ front h -> where0 (Copy h) false (backup_lba h) (current_lba h).
(** [v] is the last of the values a sequence of settings gives to something, or [v0] if none of them does. *)
Definition asked {S A} (pick : S -> option A) (ss : list S) (v0 v : A) : Prop :=
  (exists a s b, ss = a ++ s :: b /\ pick s = Some v /\ Forall (fun x => pick x = None) b) \/
  (Forall (fun x => pick x = None) ss /\ v = v0).
Definition asks_primary (s : setting) : option bool := match s with SetPrimary v => Some v | _ => None end.
Definition asks_guid (s : setting) : option uuid := match s with SetGuid u => Some u | _ => None end.
Definition asks_backup (s : setting) : option N := match s with SetBackup n => Some n | _ => None end.
Definition asks_first (s : setting) : option N := match s with SetFirst n => Some n | _ => None end.
Definition asks_last (s : setting) : option N := match s with SetLast n => Some n | _ => None end.
(** Fewer than 128 entries cannot be asked for. *)
Definition asks_num (s : setting) : option N := match s with SetNum n => Some (N.max n 128) | _ => None end.
Definition asks_size (s : setting) : option N := match s with SetSize n => Some n | _ => None end.
(** All that a builder has been asked for. *)
Record order := mkOrder {
  o_primary : bool; o_guid : uuid; o_front : N; o_back : N; o_first : N; o_last : N; o_num : N; o_size : N
}.
Record asked_for (s : start) (ss : list setting) (o : order) : Prop := mkAskedFor {
  af_where : exists p0 b0, where0 s p0 (o_front o) b0 /\ asked asks_primary ss p0 (o_primary o) /\ asked asks_backup ss b0 (o_back o);
  af_guid : asked asks_guid ss (guid0 s) (o_guid o);
  af_first : asked asks_first ss (first0 s) (o_first o);
  af_last : asked asks_last ss (last0 s) (o_last o);
  af_num : asked asks_num ss (num0 s) (o_num o);
  af_size : asked asks_size ss (size0 s) (o_size o)
}.
(** The header built for an order, given the number [t] of blocks its array takes: the usable range asked for, widened
    where it ends too early and cut where it begins inside the primary array. *)
Record as_ordered (o : order) (t : N) (h : header) : Prop := mkAsOrdered {
  ao_fixed : signature h = efi_part /\ rev_major h = 1 /\ rev_minor h = 0 /\ header_size_le h = 92 /\
             crc32_hdr h = 0 /\ reserved h = 0 /\ crc32_parts h = 0;
  ao_lbas : if o_primary o then current_lba h = o_front o /\ backup_lba h = o_back o
            else current_lba h = o_back o /\ backup_lba h = o_front o;
  ao_guid : disk_guid h = o_guid o;
  ao_num : num_parts h = o_num o /\ part_size h = o_size o;
  ao_first : first_usable h = N.max (o_first o) (t + 2);
  ao_last : last_usable h = N.max (o_last o) (o_back o - t - 1);
  ao_array : if o_primary o then part_start h = o_front o + 1 else part_start h = last_usable h + 1;
  ao_sane : o_front o <= o_back o /\ t + 1 <= o_back o /\ first_usable h <= last_usable h
}.
