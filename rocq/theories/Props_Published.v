(** Props_Published.v - property C82: the types mean what their owners say. *)
From Verif Require Import TypeFacts SpecPublished Props_Entry LayoutFacts Samples SpecFacts.
Open Scope list_scope.
Open Scope N_scope.

Definition row_ok (r : string * os_label * list byte) : Prop :=
  let '(nm, o, b) := r in
  exists t, type_from_str nm = Ok t /\ os t = o /\ guid_ok (guid t) /\ guid_on_disk (guid t) = b /\ type_from_uuid (guid t) = t.
Lemma published_ok : Forall row_ok published.
Proof. repeat constructor; cbv beta iota; (eexists; split; [vm_compute; reflexivity|vm_compute; auto]). Qed.

Lemma published_named : Forall (fun '(nm, _, _) => find_by_str type_table (upper nm) <> None) published.
Proof. repeat constructor; vm_compute; discriminate. Qed.

(** C82.  A published type is found under its name in any letter case; an entry of that type has the published
    16 bytes on disk; and an entry with these bytes on disk is read as that type. *)
Theorem C82_published : forall nm o b, In (nm, o, b) published ->
  exists t, (forall s, same_text s nm -> type_from_str s = Ok t) /\ os t = o /\
    (forall p, partition_ok p -> part_type p = t -> range 0 16 (as_bytes p 128) = b) /\
    (forall e p, entry_decodes e p -> range 0 16 e = b -> part_type p = t).
Proof.
  intros nm o b I. pose proof published_ok as P. rewrite Forall_forall in P. destruct (P _ I) as (t & T & O & G & B & U).
  exists t. split.
  { intros s H. apply same_text_upper in H. rewrite <- T. 
    pose proof (proj1 (Forall_forall _ _) published_named _ I) as X. cbn beta iota in X.
    unfold type_from_str. rewrite H. destruct (find_by_str type_table (upper nm)); [reflexivity|congruence]. }
  split; [exact O|]. split.
  - intros p K E. rewrite (eb_type _ _ (C03_entry_layout p K)), E. exact B.
  - intros e p [E1 E2 _] E. rewrite (eb_type _ _ E1) in E. rewrite <- B in E. apply guid_on_disk_inj in E.
    pose proof (canonical_os_from_uuid _ G) as C. rewrite U in C. rewrite E in E2.
    destruct (part_type p) as [pg po], t as [tg to]. cbn [guid os] in *. subst pg. f_equal. eapply canonical_os_fun; eauto.
Qed.
Print Assumptions C82_published.

(** The BIOS boot partition's type is an ASCII text on disk. *)
Example C82_case : In ("BIOS"%string, OsNone, list_byte_of_string "Hah!IdontNeedEFI") published /\
  type_from_str "bios" = Ok (mkType (guid_on_disk (list_byte_of_string "Hah!IdontNeedEFI")) OsNone) /\
  range 0 16 (as_bytes (mkPart (mkType (guid_on_disk (list_byte_of_string "Hah!IdontNeedEFI")) OsNone) sample_guid 34 40 0 []) 128)
    = list_byte_of_string "Hah!IdontNeedEFI".
Proof. split; [do 3 right; left; reflexivity|]. split; vm_compute; reflexivity. Qed.
