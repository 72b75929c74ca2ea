(** Props_Block0.v - the protective record and the partition table do not disturb each other (C84). *)
From Verif Require Import SpecBlock0 Block0Facts RetryFacts MapFacts Props_Mbr Props_Write Samples.
Open Scope list_scope.
Open Scope N_scope.

Lemma call_beyond c d : call_ok c -> 512 <= lenN (data d) -> same_beyond_512 (data d) (data (after_call c d)).
Proof.
  intros H L. destruct c as [m|m|b|s]; cbn [after_call call_ok] in *.
  - destruct (C45_only_its_bytes m (zeros 440) (zeros 4) d H eq_refl eq_refl) as (X & _). eapply wrote_beyond; eauto; lia.
  - destruct (C45_only_its_bytes m (zeros 440) (zeros 4) d H eq_refl eq_refl) as (_ & X & _). eapply wrote_beyond; eauto; lia.
  - destruct (C45_only_its_bytes sample_mbr b (zeros 4) d sample_mbr_ok H eq_refl) as (_ & _ & X & _). eapply wrote_beyond; eauto; lia.
  - destruct (C45_only_its_bytes sample_mbr (zeros 440) s d sample_mbr_ok eq_refl H) as (_ & _ & _ & X). eapply wrote_beyond; eauto; lia.
Qed.
Lemma calls_beyond cs : forall d, Forall call_ok cs -> 512 <= lenN (data d) ->
  same_beyond_512 (data d) (data (after_calls cs d)).
Proof.
  induction cs as [|c cs IH]; intros d H L; [apply beyond_refl|]. inversion H as [|? ? H1 H2]; subst.
  pose proof (call_beyond c d H1 L) as X. eapply beyond_trans; [exact X|]. cbn. apply IH; auto. rewrite <- (proj1 X). exact L.
Qed.

(** C84.  Whatever calls on the protective record are made, however the device fails during them: opening finds what
    it found before - the same disk, or the same error -, unless a readable header places its array in block 0. *)
Theorem C84_record_calls : forall oc cfg cs d, Forall call_ok cs -> addressable d -> 512 <= lenN (data d) ->
  (forall h, header_at (data d) (lb_u64 (c_lb cfg)) (Ok h) \/ backup_header_at (c_lb cfg) d (Ok h) -> 1 <= part_start h) ->
  same_opened (fst (open_from_device oc cfg (repaired d))) (fst (open_from_device oc cfg (repaired (after_calls cs d)))).
Proof.
  intros oc cfg cs d HC HA HL HP. rewrite addressable_iff in HA.
  apply open_near.
  - split; [reflexivity|]. split; [reflexivity|]. cbn [repaired with_faults data]. apply calls_beyond; auto.
  - exact HA.
  - intros h HS. apply HP. change (data (repaired d)) with (data d) in HS.
    pose proof (read_header_at_spec (lb_u64 (c_lb cfg)) (data d)) as S1.
    pose proof (backup_header_spec (c_lb cfg) d) as S2.
    change (read_backup_at (c_lb cfg) (repaired d)) with (read_backup_at (c_lb cfg) d) in HS. unfold select in HS.
    destruct (read_header_at _ _) as [a|e|], (read_backup_at _ _) as [b|e'|]; try discriminate;
      try (injection HS as <-; auto); destruct (c_only_valid_headers cfg); try discriminate; injection HS as <-; auto.
Qed.
Print Assumptions C84_record_calls.
(** In terms of the disk that was opened: it suffices that the header in use has its array elsewhere. *)
Theorem C84_record_calls_opened : forall oc cfg cs d g h, Forall call_ok cs -> addressable d -> 512 <= lenN (data d) ->
  fst (open_from_device oc cfg (repaired d)) = Ok g -> header_of g h -> 1 <= part_start h ->
  exists g', fst (open_from_device oc cfg (repaired (after_calls cs d))) = Ok g' /\ same_in_memory g g'.
Proof.
  intros oc cfg cs d g h HC HA HL HO HH HP. rewrite addressable_iff in HA.
  assert (X : same_opened (fst (open_from_device oc cfg (repaired d))) (fst (open_from_device oc cfg (repaired (after_calls cs d))))).
  { apply open_near.
    - split; [reflexivity|]. split; [reflexivity|]. cbn [repaired with_faults data]. apply calls_beyond; auto.
    - exact HA.
    - intros h' HS. rewrite open_ok in HO by (auto; reflexivity). cbn zeta in HO.
      rewrite HS in HO. destruct (map_err GIo _ _) as [[t|e|] x]; try discriminate. injection HO as <-.
      apply header_of_iff in HH. unfold try_header in HH. cbn [g_primary g_backup] in HH. unfold select in HS.
      destruct (read_header_at _ _) as [a|e|], (read_backup_at _ _) as [b|e'|]; try discriminate; cbn in HH;
        try destruct (c_only_valid_headers cfg); try discriminate; congruence. }
  rewrite HO in X. destruct (fst (open_from_device oc cfg (repaired (after_calls cs d)))) as [g'|e|]; [exists g'; auto|destruct X|destruct X].
Qed.
Print Assumptions C84_record_calls_opened.

(** Writing the table, however it is cut short, leaves everything that can be read of the record as it was. *)
Theorem C84_write_keeps_record : forall oc g h, header_of g h -> addressable (g_device g) ->
  layout_ok (c_lb (g_config g)) (lenN (data (g_device g))) h ->
  let d := repaired (g_device g) in let d' := repaired (g_device (snd (write_inplace oc g))) in
  fst (mbr_from_disk (c_lb (g_config g)) d') = fst (mbr_from_disk (c_lb (g_config g)) d) /\
  fst (read_bootcode d') = fst (read_bootcode d) /\ fst (read_disk_signature d') = fst (read_disk_signature d).
Proof.
  intros oc g h HT HA HS d d'. set (L := lb_u64 (c_lb (g_config g))).
  assert (L5 : 512 <= L) by (unfold L; destruct (c_lb (g_config g)); cbn; lia).
  assert (LD : L <= dev_len d).
  { pose proof (sane_areas _ _ _ (sane_of _ _ _ HS)) as (A1 & A2 & A3 & A4 & A5 & A6). fold L in A4.
    change (dev_len d) with (lenN (data (g_device g))). eapply N.le_trans; [|exact A4]. apply N.le_add_l. }
  assert (LE : dev_len d' = dev_len d) by (apply (C16_write_frame oc g h HT HA HS)).
  assert (B : forall off n, off + n <= L -> slice off n (data d') = slice off n (data d)).
  { intros off n LL. apply slice_eq_byte_at. intros i Hi. apply (C16_usable_area_preserved oc g h i HT HA HS). left. fold L. lia. }
  unfold read_bootcode, read_disk_signature.
  rewrite !from_disk_ok by (try reflexivity; try (intros b; apply from_bytes_no_panic); fold L; lia).
  rewrite !read_at_ok by (try reflexivity; lia). cbn [fst]. rewrite !B by (fold L; lia). auto.
Qed.
Print Assumptions C84_write_keeps_record.
(** And it does not matter whether the record is written before or after the table: after any calls on the record,
    the table written is byte for byte the one that would have been written without them, and the record stays. *)
Theorem C84_either_order : forall oc cs fs g h, Forall call_ok cs -> ready g h -> fault_free (g_device g) ->
  c_readonly_backup (g_config g) = false ->
  let d1 := repaired (after_calls cs (with_faults fs (g_device g))) in
  exists w w1, write_inplace oc g = (Ok tt, w) /\ write_inplace oc (set_device d1 g) = (Ok tt, w1) /\
    same_in_memory w w1 /\ same_beyond_512 (data (g_device w)) (data (g_device w1)) /\
    range 0 512 (data (g_device w)) = range 0 512 (data (g_device g)) /\
    range 0 512 (data (g_device w1)) = range 0 512 (data d1).
Proof.
  intros oc cs fs g h HC HR HF HB d1. pose proof (ready_sane g h HR) as (T & A & S & U & _).
  assert (BY : same_beyond_512 (data (g_device g)) (data d1)).
  { pose proof (sane_areas _ _ _ S) as (A1 & A2 & A3 & A4 & A5 & A6). unfold dev_len in A4.
    apply (calls_beyond cs (with_faults fs (g_device g))); auto. cbn. lia. }
  assert (GD : good_dev (g_device g)) by (split; [apply fault_free_iff, HF|exact A]).
  assert (L1 : dev_len d1 = dev_len (g_device g)) by (symmetry; apply BY).
  destruct (write_inplace_sane oc g h) as (w & W & D & P & K & C & G & M & Y & _ & Z); auto; [apply HR|].
  destruct (write_inplace_sane oc (set_device d1 g) h) as (w1 & W1 & D1 & P1 & K1 & C1 & G1 & M1 & Y1 & _ & Z1); auto.
  { apply HR. } { split; [reflexivity|]. cbn [set_device g_device]. rewrite L1. exact A. }
  { cbn [set_device g_device g_config]. rewrite L1. exact S. }
  exists w, w1. split; [exact W|]. split; [exact W1|].
  assert (SL1 : sane (c_lb (g_config g)) (lenN (data d1)) h) by (change (lenN (data d1)) with (dev_len d1); rewrite L1; exact S).
  assert (SL : sane (c_lb (g_config g)) (lenN (data (g_device g))) h) by exact S.
  pose proof (final_image_agree_off _ h _ (data (g_device g)) SL U) as (F1 & F2).
  pose proof (final_image_agree_off _ h _ (data d1) SL1 U) as (F3 & F4).
  pose proof (sane_areas _ _ _ S) as (A1 & A2 & A3 & A4 & A5 & A6).
  assert (NI : forall i, i < 512 -> ~ (primary_area (c_lb (g_config g)) h i \/ backup_area (c_lb (g_config g)) h i)).
  { intros i Hi. unfold primary_area, backup_area, in_area. lia. }
  split; [|split; [|split]].
  - unfold same_in_memory, set_device in *. cbn [g_config g_guid g_primary g_backup g_partitions g_sync g_device] in *.
    destruct w, w1; cbn in *. congruence.
  - rewrite D, D1. cbn [set_device g_device g_config g_partitions].
    apply final_image_beyond; auto.
  - change range with slice. apply slice_eq_byte_at. intros i Hi. rewrite D. apply F2, NI. lia.
  - change range with slice. apply slice_eq_byte_at. intros i Hi. rewrite D1. apply F4, NI. lia.
Qed.
Print Assumptions C84_either_order.

(** A concrete disk: the sample written with a record in place; then the record is overwritten with another boot code
    while the device fails, and the disk still opens as before. *)
Definition with_record : dev := snd (overwrite_lba0 sample_mbr mini_dev).
Definition written_beside : dev :=
  g_device (snd (write_inplace true (set_device with_record (mini_disk [(1, sample_part)])))).
Example C84_applies :
  Forall call_ok [CallBootcode (repeat x90 440); CallUpdate sample_mbr; CallSignature [x01; x02; x03; x04]] /\
  addressable written_beside /\ 512 <= lenN (data written_beside) /\
  (let after := after_calls [CallBootcode (repeat x90 440); CallUpdate sample_mbr; CallSignature [x01; x02; x03; x04]]
                  (with_faults [None; None; Some 7%nat] written_beside) in
   fst (read_bootcode (repaired after)) <> fst (read_bootcode written_beside) /\
   match fst (open_from_device true mini_config written_beside), fst (open_from_device true mini_config (repaired after)) with
   | Ok g, Ok g' => g_primary g = g_primary g' /\ lenN (g_partitions g) = 1 /\ g_partitions g = g_partitions g' /\
       match g_primary g with Ok h => part_start h = 2 | _ => False end
   | _, _ => False
   end).
Proof.
  split; [repeat (constructor; try reflexivity); exact sample_mbr_ok|].
  split; [vm_compute; reflexivity|]. split; [vm_compute; discriminate|]. cbn zeta.
  split; [vm_compute; discriminate|]. vm_compute. auto.
Qed.

(** For an arbitrary disk that opens, neither direction holds.  A header may say that its own place is block 0 - this is
    not compared with where it was found -, and writing then replaces the record by the header. *)
Definition lost_header : header := mkHeader EFI_PART 1 0 92 0 0 0 5 3 3 sample_guid 2 4 128 0.
Definition lost_dev : dev := snd (snd (file_write_header lost_header 1 Lb512 with_record)).
Theorem C84_write_keeps_record_refuted : exists d g w, fault_free d /\ addressable d /\
  fst (open_from_device true mini_config d) = Ok g /\ write_inplace true g = (Ok tt, w) /\
  (exists m, fst (mbr_from_disk Lb512 d) = Ok m) /\
  fst (mbr_from_disk Lb512 (g_device w)) = Err (MInvalidMBRSignature).
Proof.
  exists lost_dev.
  destruct (fst (open_from_device true mini_config lost_dev)) as [g|e|] eqn:E;
    [|exfalso; vm_compute in E; discriminate|exfalso; vm_compute in E; discriminate].
  exists g, (snd (write_inplace true g)).
  split; [vm_compute; reflexivity|]. split; [vm_compute; reflexivity|]. split; [reflexivity|].
  vm_compute in E. injection E as <-. split; [vm_compute; reflexivity|]. split; [|vm_compute; reflexivity].
  destruct (fst (mbr_from_disk Lb512 lost_dev)) as [m|x|] eqn:F; [eauto|vm_compute in F; discriminate|vm_compute in F; discriminate].
Qed.
Print Assumptions C84_write_keeps_record_refuted.
(** And a header may place its array in block 0; writing boot code then makes the disk unreadable. *)
Definition shared_header : header := mkHeader EFI_PART 1 0 92 0 0 1 5 3 3 sample_guid 0 4 128 0.
Definition shared_dev : dev := snd (snd (file_write_header shared_header 1 Lb512 with_record)).
Theorem C84_record_calls_refuted : exists d g c, fault_free d /\ addressable d /\ call_ok c /\
  fst (open_from_device true mini_config d) = Ok g /\
  exists e, fst (open_from_device true mini_config (after_call c d)) = Err e.
Proof.
  exists shared_dev.
  destruct (fst (open_from_device true mini_config shared_dev)) as [g|e|] eqn:E;
    [|exfalso; vm_compute in E; discriminate|exfalso; vm_compute in E; discriminate].
  exists g, (CallBootcode (repeat x90 440)).
  split; [vm_compute; reflexivity|]. split; [vm_compute; reflexivity|]. split; [reflexivity|]. split; [reflexivity|].
  clear E. destruct (fst (open_from_device true mini_config (after_call (CallBootcode (repeat x90 440)) shared_dev))) as [x|x|] eqn:F;
    [vm_compute in F; discriminate|eauto|vm_compute in F; discriminate].
Qed.
Print Assumptions C84_record_calls_refuted.
