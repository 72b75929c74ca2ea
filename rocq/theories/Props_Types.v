(** Props_Types.v - properties C49, C50 and C55: partition types and block sizes. *)
From Verif Require Import TypeFacts Samples.
Open Scope list_scope.
Open Scope N_scope.

(** C49.  Every well-known type is found from its GUID, and from its name or hyphenated GUID in any
    letter case. *)
Theorem C49_found : forall nm g o, In (nm, g, o) type_table ->
  exists u, guid_ok u /\ guid_text u = g /\ type_from_uuid u = mkType u o /\
    forall s, same_text s nm \/ same_text s g -> type_from_str s = Ok (mkType u o).
Proof.
  intros nm g o I. destruct (row_facts _ _ _ I) as (UN & _ & _ & _ & T & G & UG).
  exists (lit_uuid g). split; [exact G|]. split; [exact T|]. split; [apply (from_uuid_known nm), I|].
  intros s H. unfold type_from_str. rewrite !same_text_upper, UN, UG in H. rewrite (find_row nm g o _ I H). reflexivity.
Qed.
Print Assumptions C49_found.
(** The well-known GUIDs are pairwise distinct, and so are the names. *)
Theorem C49_distinct : NoDup (map (fun x => snd (fst x)) type_table) /\ NoDup (map (fun x => fst (fst x)) type_table).
Proof. split; [exact table_guids_nodup|exact table_names_nodup]. Qed.
Print Assumptions C49_distinct.
(** A GUID keeps its value; one that is not well known has no OS. *)
Theorem C49_unknown : forall u, guid_ok u ->
  guid (type_from_uuid u) = u /\ (not_well_known u -> type_from_uuid u = mkType u OsNone).
Proof. intros u G. split; [apply from_uuid_guid, G|apply from_uuid_unknown, G]. Qed.
Print Assumptions C49_unknown.
Example C49_applies :
  In ("LINUX_FS", "0FC63DAF-8483-4772-8E79-3D69D8477DE4", OsLinux)%string type_table /\
  type_from_str "linux_Fs" = Ok (mkType linux_fs OsLinux) /\
  type_from_str "0fc63daf-8483-4772-8E79-3D69D8477DE4" = Ok (mkType linux_fs OsLinux) /\
  guid_ok sample_guid /\ type_from_uuid sample_guid = mkType sample_guid OsNone.
Proof.
  split; [|vm_compute; auto].
  apply find_some with (f := fun x : string * string * os_label => String.eqb (fst (fst x)) "LINUX_FS"). vm_compute. reflexivity.
Qed.

(** C50.  The full statement, that [Type::from_str] agrees with [From<Uuid>] on every text of a GUID
    and never looks at letter case, is false: the table is only consulted for the hyphenated form. *)
Theorem C50_simple_form_refuted : exists s u t,
  guid_ok u /\ denotes s u /\ type_from_str s = Ok t /\ t <> type_from_uuid u.
Proof.
  exists (hex_bytes linux_fs), linux_fs, (mkType linux_fs OsNone). split; [reflexivity|].
  split; [apply dn_simple, same_text_upper; reflexivity|]. split; [vm_compute; reflexivity|]. vm_compute. discriminate.
Qed.
Print Assumptions C50_simple_form_refuted.
(** And a URN is rejected when its prefix is not in small letters. *)
Theorem C50_case_refuted : exists s t, same_text s t /\
  (exists ty, type_from_str s = Ok ty) /\ (exists e, type_from_str t = Err e).
Proof.
  exists ("urn:uuid:" ++ guid_text linux_fs)%string, ("URN:UUID:" ++ guid_text linux_fs)%string.
  split; [apply same_text_upper; reflexivity|]. split; eexists; vm_compute; reflexivity.
Qed.
Print Assumptions C50_case_refuted.
(** What holds: the hyphenated form, in any letter case, gives the same type as the GUID. *)
Theorem C50_hyphenated_partial : forall s u, guid_ok u -> same_text s (guid_text u) ->
  type_from_str s = Ok (type_from_uuid u).
Proof.
  intros s u G H. destruct (known_dec u) as [(nm & o & I)|N].
  - destruct (C49_found _ _ _ I) as (u' & G' & T & F & S). apply guid_text_inj in T; auto. subst u'. rewrite F. apply S. auto.
  - rewrite (from_uuid_unknown u G N). unfold type_from_str.
    rewrite (denotes_parse s u G (dn_hyphenated s u H)).
    rewrite not_in_table; [reflexivity|]. intros nm g o I. destruct (row_facts _ _ _ I) as (_ & P & _).
    apply same_text_upper in H. rewrite guid_text_upper in H by exact G. rewrite H. split.
    + intros <-. apply (N _ _ I).
    + intros <-. rewrite try_parse_text in P by exact G. discriminate.
Qed.
Print Assumptions C50_hyphenated_partial.
(** The other forms give the GUID without an OS, so they agree exactly when the table has none. *)
Theorem C50_other_forms_partial : forall s u, guid_ok u -> denotes s u ->
  length (list_ascii_of_string s) <> 36%nat ->
  type_from_str s = Ok (mkType u OsNone) /\
  (type_from_str s = Ok (type_from_uuid u) <-> os (type_from_uuid u) = OsNone).
Proof.
  intros s u G D L.
  assert (E : type_from_str s = Ok (mkType u OsNone)).
  { unfold type_from_str. rewrite (other_form_not_in_table s u G D L), (denotes_parse s u G D). reflexivity. }
  split; [exact E|]. rewrite E. pose proof (from_uuid_guid u G) as F. destruct (type_from_uuid u) as [g o]. cbn in *. subst g. split; congruence.
Qed.
Print Assumptions C50_other_forms_partial.
(** Exactly these texts are accepted: names of types and the four ways of writing a GUID. *)
Theorem C50_accepted_partial : forall s,
  match type_from_str s with
  | Ok t => (exists nm g o, In (nm, g, o) type_table /\ same_text s nm /\ guid_text (guid t) = g /\ os t = o) \/
            (guid_ok (guid t) /\ denotes s (guid t))
  | Err _ => (forall nm g o, In (nm, g, o) type_table -> ~ same_text s nm) /\
             forall u, guid_ok u -> ~ denotes s u
  | Panic => False
  end.
Proof.
  intros s. unfold type_from_str. pose proof (find_by_str_spec type_table (upper s)) as F.
  destruct (find_by_str type_table (upper s)) as [t|].
  - destruct F as (nm & g & o & I & C & ->). destruct (row_facts _ _ _ I) as (UN & _ & _ & _ & T & G & UG). cbn [guid os].
    destruct C as [C|C].
    + right. split; [exact G|]. apply dn_hyphenated. rewrite T. apply same_text_upper. congruence.
    + left. exists nm, g, o. split; [exact I|]. split; [apply same_text_upper; congruence|]. auto.
  - destruct (uuid_try_parse s) as [u|] eqn:E.
    + right. apply parse_denotes. exact E.
    + split.
      * intros nm g o I H. destruct (row_facts _ _ _ I) as (UN & _). apply same_text_upper in H. rewrite UN in H. destruct (F _ _ _ I); contradiction.
      * intros u G D. rewrite (denotes_parse s u G D) in E. discriminate.
Qed.
Print Assumptions C50_accepted_partial.
(** Letter case matters for nothing but a URN's prefix. *)
Theorem C50_case_partial : forall s t, same_text s t -> length (list_ascii_of_string s) <> 45%nat ->
  type_from_str s = type_from_str t.
Proof.
  intros s t H L. pose proof (same_text_length _ _ H) as LE. apply same_text_upper in H. unfold type_from_str. rewrite H.
  rewrite <- (try_parse_upper s L), H, try_parse_upper by congruence. reflexivity.
Qed.
Print Assumptions C50_case_partial.
Example C50_applies : guid_ok linux_fs /\ same_text "0fc63daf-8483-4772-8E79-3D69D8477dE4" (guid_text linux_fs) /\
  denotes "{0fc63daf-8483-4772-8E79-3D69D8477dE4}" linux_fs /\ denotes "0FC63DAF848347728E793D69D8477DE4" linux_fs /\
  os (type_from_uuid linux_fs) = OsLinux /\ os (type_from_uuid sample_guid) = OsNone.
Proof.
  split; [reflexivity|]. split; [apply same_text_upper; reflexivity|]. split; [|split; [|split; vm_compute; reflexivity]].
  - apply (dn_braced "0fc63daf-8483-4772-8E79-3D69D8477dE4"). apply same_text_upper. reflexivity.
  - apply dn_simple, same_text_upper. reflexivity.
Qed.

(** C55.  Only 512 and 4096 are block sizes, and conversion loses nothing. *)
Theorem C55_conversion : forall v,
  match lb_try_from v with
  | Ok l => lb_u64 l = v /\ (v = 512 \/ v = 4096)
  | Err _ => v <> 512 /\ v <> 4096
  | Panic => False
  end.
Proof.
  intros v. unfold lb_try_from. destruct (N.eqb_spec v 512) as [->|H1]; [auto|].
  destruct (N.eqb_spec v 4096) as [->|H2]; [auto|auto].
Qed.
Print Assumptions C55_conversion.
Theorem C55_back : forall l, lb_try_from (lb_u64 l) = Ok l /\ lb_u64 l < 2 ^ 16.
Proof. intros []; split; reflexivity. Qed.
Print Assumptions C55_back.
Example C55_applies : lb_try_from 512 = Ok Lb512 /\ lb_try_from 4096 = Ok Lb4096 /\
  lb_try_from 0 = Err (IoOther "unsupported logical block size (must be 512 or 4096)").
Proof. repeat split. Qed.
