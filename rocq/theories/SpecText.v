(** SpecText.v - words for the statements about printed texts. *)
From Verif Require Export SpecTypes Text.
Open Scope list_scope.
Open Scope N_scope.

(** [s] is the decimal numeral of [n]: digits only, no superfluous zero in front, and [n] is its value. *)
Definition digit (c : N) : Prop := 48 <= c <= 57.
Definition value (s : list N) : N := fold_left (fun v c => 10 * v + (c - 48)) s 0.
Definition numeral (s : list N) (n : N) : Prop :=
  s <> [] /\ Forall digit s /\ value s = n /\ (forall r, s = 48 :: r -> r = []).
(** [s] spells the GUID [u] as hyphenated text, up to letter case. *)
Definition spells_guid (s : list N) (u : uuid) : Prop :=
  exists t, s = chars t /\ same_text t (guid_text u).
(** What a printed partition and a printed header must look like. *)
Definition prints_partition (p : partition) (s : list N) : Prop :=
  exists g1 g2 a b f, spells_guid g1 (part_guid p) /\ spells_guid g2 (guid (part_type p)) /\
    numeral a (first_lba p) /\ numeral b (last_lba p) /\ numeral f (flags p) /\
    s = chars "Partition:" ++ [9; 9] ++ name p ++ [10] ++ chars "Partition GUID:" ++ [9; 9] ++ g1 ++ [10] ++
        chars "Partition Type:" ++ [9; 9] ++ g2 ++ [10] ++
        chars "Span:" ++ [9; 9; 9] ++ a ++ chars " - " ++ b ++ [10] ++ chars "Flags:" ++ [9; 9; 9] ++ f.
Definition prints_header (h : header) (s : list N) : Prop :=
  exists g a b, spells_guid g (disk_guid h) /\ numeral a (crc32_hdr h) /\ numeral b (crc32_parts h) /\
    s = chars "Disk:" ++ [9; 9] ++ g ++ [10] ++ chars "CRC32:" ++ [9; 9] ++ a ++ [10] ++
        chars "Table CRC:" ++ [9] ++ b.

(** The names of operating systems the library understands. *)
Definition os_names : list (string * os_label) :=
  [("unused", OsNone); ("android", OsAndroid); ("atari", OsAtari); ("Ceph", OsCeph); ("Chrome", OsChrome);
   ("DragonFlyBsd", OsDragonFlyBsd); ("FreeBsd", OsFreeBsd); ("FreeDesktop", OsFreeDesktop); ("Haiku", OsHaiku);
   ("HP-UX", OsHpUnix); ("Linux", OsLinux); ("MacOS", OsMacOs); ("MidnightBsd", OsMidnightBsd); ("Onie", OsOnie);
   ("PowerPc", OsPowerPc); ("Solaris Illumos", OsSolaris)]%string.
