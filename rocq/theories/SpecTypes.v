(** SpecTypes.v - vocabulary of the properties of partition types (C49, C50). *)
From Verif Require Export Spec.
Open Scope list_scope.
Open Scope N_scope.

(** Two texts that differ at most in the case of ASCII letters. *)
Definition same_char (a b : Ascii.ascii) : Prop :=
  a = b \/ exists n, n < 26 /\
    ((a = Ascii.ascii_of_N (65 + n) /\ b = Ascii.ascii_of_N (97 + n)) \/
     (a = Ascii.ascii_of_N (97 + n) /\ b = Ascii.ascii_of_N (65 + n))).
Definition same_text (s t : string) : Prop :=
  Forall2 same_char (list_ascii_of_string s) (list_ascii_of_string t).
(** The ways of writing a GUID as text: hyphenated, simple, in braces, as a URN. *)
Inductive denotes : string -> uuid -> Prop :=
| dn_hyphenated s u : same_text s (guid_text u) -> denotes s u
| dn_simple s u : same_text s (hex_bytes u) -> denotes s u
| dn_braced t u : same_text t (guid_text u) -> denotes ("{" ++ t ++ "}") u
| dn_urn t u : same_text t (guid_text u) -> denotes ("urn:uuid:" ++ t) u.
(** No type in the table has this GUID. *)
Definition not_well_known (u : uuid) : Prop := forall nm o, ~ In (nm, guid_text u, o) type_table.
