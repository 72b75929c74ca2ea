(** Props_Idle.v - writes in between, whether they work or not, leave no trace in what is written last (C86). *)
From Verif Require Import SpecIdle IdleFacts Samples.
Open Scope list_scope.
Open Scope N_scope.

(** C86.  Take any calls that edit the table, with any attempts to save in between, each interrupted anywhere or not at
    all.  The calls panic or do not panic as they would without those attempts, and what is written last is the same. *)
Theorem C86_saves_leave_no_trace : forall oc acts g h, settled g h -> up_to_backup (c_lb (g_config g)) h ->
  Forall act_ok acts ->
  (num_parts h <= 128 /\ backup_at h = last_whole_block (c_lb (g_config g)) (g_device g)) \/
    Forall (fun a => ~ replaces_table a) acts ->
  same_end oc h (act_run oc acts g) (run oc (edits acts) g).
Proof.
  intros oc acts g h [E1 E2 E3 E4 E5 E6 E8] E7 HF HU. unfold up_to_backup in E7.
  apply header_of_iff in E3. apply layout_ok_iff in E6. rewrite addressable_iff in E4. rewrite backup_at_eq in *.
  rewrite array_blocks_eq in E7.
  set (cfg := g_config g) in *. set (l := data (g_device g)) in *.
  assert (B : beside cfg h l g g).
  { constructor; auto.
    - exists h, h. assert (like (c_lb cfg) (lenN l) h h) by (split; [exact E6|auto]). auto 8.
    - split; [exact E5|]. split; reflexivity. }
  pose proof (beside_run oc cfg h l acts E2 E4 HU HF g g B) as X.
  destruct (act_run oc acts g) as [g1|], (run oc (edits acts) g) as [g2|]; cbn [both same_end] in *; auto.
  split; [apply X|]. split; [apply X|]. intros L. rewrite used_in_order_eq in L. eapply beside_write; eauto.
Qed.
Print Assumptions C86_saves_leave_no_trace.

(** A session on 94 blocks: two partitions are added, one is removed, the GUID changes, the table is replaced and added
    to; every second call is an attempt to save, most of them interrupted. *)
Definition idle_on (d : dev) (h : header) : gdisk :=
  mkGdisk mini_config d sample_guid (Ok h) (Err HInvalidGptSignature) [] false.
Notation idle_disk := (idle_on wide_dev).
Definition add_blocks (n : N) (rnd : uuid) : op := OpAdd [65] (n * 512) (mkType linux_fs OsLinux) 0 None rnd.
Definition idle_session : list act :=
  [Edit (add_blocks 3 sample_guid); Save []; Edit (add_blocks 1 other_guid); Save [None; None; None; None; Some 7%nat];
   Edit (OpRemove 1); Save [None; None; None; None; None; None; None; None; None; Some 100%nat];
   Edit (OpUpdateGuid None other_guid); Save [Some 0%nat];
   Edit (OpUpdatePartitions [(5, part_at 40 44)]); Save []; Edit (add_blocks 7 sample_guid)].
Lemma idle_settled h : header_of (idle_disk h) h -> layout_ok Lb512 (lenN (data wide_dev)) h -> settled (idle_disk h) h.
Proof.
  intros H L. constructor; [reflexivity|reflexivity|exact H| |reflexivity|exact L|reflexivity].
  unfold addressable. cbn [idle_on g_device]. rewrite wide_len. reflexivity.
Qed.
Example C86_example_hyps : settled (idle_disk wide_header) wide_header /\ up_to_backup Lb512 wide_header /\
  Forall act_ok idle_session /\
  num_parts wide_header <= 128 /\ backup_at wide_header = last_whole_block Lb512 (g_device (idle_disk wide_header)).
Proof.
  split; [apply idle_settled; [left; reflexivity|exact wide_layout]|]. split; [reflexivity|].
  split; [repeat constructor|]. split; [discriminate|]. unfold last_whole_block. cbn [idle_on g_device]. rewrite wide_len. reflexivity.
Qed.
Definition idle_table (o : option gdisk) : option (list (N * N * N)) :=
  option_map (fun g => map (fun x => (fst x, first_lba (snd x), last_lba (snd x))) (g_partitions g)) o.
Example C86_example : idle_table (run true (edits idle_session) (idle_disk wide_header)) = Some [(1, 45, 51); (5, 40, 44)].
Proof. vm_compute. reflexivity. Qed.

(** A header that stops one block short of the backup array: a write moves its last usable block up to the array, and a
    partition that needs that block can only be added after it. *)
Definition short_header : header := mkHeader EFI_PART 1 0 92 0 0 1 93 34 59 sample_guid 2 128 128 0.
Lemma short_layout : layout_ok Lb512 (lenN (data wide_dev)) short_header.
Proof. rewrite wide_len. constructor; try reflexivity; vm_compute; discriminate. Qed.
Lemma short_saved oc : exists g1, act_step oc (Save []) (idle_disk short_header) = Some g1 /\ look (wide_disk []) g1.
Proof.
  destruct (write_any oc (idle_disk short_header) short_header) as (w & E & _ & P & (M1 & M2 & M3 & M4) & _).
  - reflexivity.
  - reflexivity.
  - split; [reflexivity|]. unfold dev_len. cbn [idle_on g_device]. rewrite wide_len. reflexivity.
  - apply layout_ok_iff, short_layout.
  - discriminate.
  - cbn zeta in P. revert P. generalize (crc32 (table_image short_header (used_list (g_partitions (idle_disk short_header))))).
    intros c P. cbn [act_step].
    change (set_device (with_faults [] (g_device (idle_disk short_header))) (idle_disk short_header)) with (idle_disk short_header).
    rewrite E. eexists. split; [reflexivity|]. split; [symmetry; exact M1|]. split; [reflexivity|].
    split; [symmetry; exact M3|]. eexists wide_header, _. split; [reflexivity|].
    split; [unfold try_header; cbn [set_device g_primary]; rewrite P; reflexivity|]. repeat split.
Qed.
Lemma short_add d : step true (add_blocks 27 other_guid) (idle_on d short_header) = Some (idle_on d short_header).
Proof. reflexivity. Qed.
Lemma wide_add r t : step true (add_blocks 27 other_guid) (wide_disk []) = kept (r : outcome gpt_err N, set_partitions t (wide_disk [])) ->
  r <> Panic /\ map fst t = [1].
Proof.
  assert (E : step true (add_blocks 27 other_guid) (wide_disk []) =
              Some (set_partitions [(1, mkPart (mkType linux_fs OsLinux) other_guid 34 60 0 [65])] (wide_disk []))) by reflexivity.
  rewrite E. destruct r; cbn [kept]; intros H; [| |discriminate]; injection H as <-; (split; [discriminate|reflexivity]).
Qed.
Lemma save_then oc h fs o g g1 g2 g3 : act_step oc (Save fs) g = Some g1 -> step oc o g1 = Some g2 -> step oc o g = Some g3 ->
  same_end oc h (act_run oc [Save fs; Edit o] g) (run oc (edits [Save fs; Edit o]) g) -> g_partitions g2 = g_partitions g3.
Proof. intros E1 E2 E3. cbn [act_run edits run]. rewrite E1. cbn [act_step]. rewrite E2, E3. intros X. apply X. Qed.
Theorem C86_saves_leave_no_trace_refuted : ~ (forall oc acts g h, settled g h -> Forall act_ok acts ->
  Forall (fun a => ~ replaces_table a) acts -> same_end oc h (act_run oc acts g) (run oc (edits acts) g)).
Proof.
  intros H. specialize (H true [Save []; Edit (add_blocks 27 other_guid)] (idle_disk short_header) short_header).
  assert (X := H (idle_settled _ (or_introl eq_refl) short_layout)). clear H.
  destruct (short_saved true) as (g1 & E1 & L).
  destruct (par_add true [65] (27 * 512) (mkType linux_fs OsLinux) 0 None other_guid _ _ L) as (r & t & A1 & A2).
  destruct (wide_add r t) as (NP & R); [cbn [step add_blocks]; rewrite A1; reflexivity|].
  assert (K : step true (add_blocks 27 other_guid) g1 = Some (set_partitions t g1)).
  { cbn [step add_blocks]. rewrite A2. clear - NP. destruct r; [reflexivity|reflexivity|destruct (NP eq_refl)]. }
  assert (F1 : Forall act_ok [Save []; Edit (add_blocks 27 other_guid)]) by repeat constructor.
  assert (F2 : Forall (fun a => ~ replaces_table a) [Save []; Edit (add_blocks 27 other_guid)]).
  { repeat constructor; intros (pp & Q); discriminate. }
  pose proof (save_then _ _ _ _ _ _ _ _ E1 K (short_add wide_dev) (X F1 F2)) as Y. cbn [set_partitions g_partitions] in Y. rewrite Y in R. discriminate R.
Qed.
Print Assumptions C86_saves_leave_no_trace_refuted.
