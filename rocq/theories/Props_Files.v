(** Props_Files.v - functions that take the path of a file (C93). *)
From Verif Require Import FilesFacts HistoryFacts SessionFacts ReopenFacts WriteFacts Samples Props_Write Props_Build Props_Clone.
Open Scope list_scope.
Open Scope N_scope.
Open Scope string_scope.

(** C93.  To open a disk one must be allowed to read its file, and to write it if the configuration asks for writing; the
    functions that read a header or a table need only the former, those that write one need both.  If this is not granted, the
    call is refused and nothing happens to any file; if it is, the call is not refused for that reason. *)
Theorem C93_permission : forall oc cfg rnd lb h x i start u k p fs,
  needs (c_writable cfg) p fs (config_open oc cfg k p fs) /\ needs (c_writable cfg) p fs (config_create oc cfg rnd k p fs) /\
  needs false p fs (read_disk oc k p fs) /\ needs false p fs (header_read lb k p fs) /\
  needs false p fs (partitions_read oc h lb k p fs) /\ needs true p fs (header_write oc u rnd lb k p fs) /\
  needs true p fs (partition_write_path oc x i start lb k p fs).
Proof. intros. repeat split; try apply on_file_needs. Qed.
Print Assumptions C93_permission.

(** Opening, creating and reading leave every file as it was, whatever the file does and however the call ends. *)
Theorem C93_reading : forall oc cfg rnd lb h k p fs,
  same_files fs (snd (config_open oc cfg k p fs)) /\ same_files fs (snd (config_create oc cfg rnd k p fs)) /\
  same_files fs (snd (read_disk oc k p fs)) /\ same_files fs (snd (header_read lb k p fs)) /\
  same_files fs (snd (partitions_read oc h lb k p fs)).
Proof.
  intros. split; [|split; [|split; [|split]]]; apply on_file_same.
  - apply untouched_with_sync, untouched_open.
  - apply untouched_with_sync, untouched_create.
  - apply untouched_with_sync, untouched_open.
  - apply untouched_read_primary_header.
  - apply untouched_file_read_partitions.
Qed.
Print Assumptions C93_reading.

(** Writing a header or an entry to a path changes nothing but the contents of that file, and does not wait for them to reach
    the medium: a power cut may undo it. *)
Theorem C93_writing : forall oc rnd lb x i start u k p fs,
  let f1 := snd (header_write oc u rnd lb k p fs) in let f2 := snd (partition_write_path oc x i start lb k p fs) in
  only_contents_of p fs f1 /\ nothing_synced fs f1 /\ same_files (power_cut fs) (power_cut f1) /\
  only_contents_of p fs f2 /\ nothing_synced fs f2 /\ same_files (power_cut fs) (power_cut f2).
Proof.
  intros.
  assert (PC : forall f', only_contents_of p fs f' -> nothing_synced fs f' -> same_files (power_cut fs) (power_cut f')).
  { intros f' O S q. unfold power_cut. specialize (O q). specialize (S q). destruct (fs q) as [f|]; [|rewrite O; reflexivity].
    destruct O as (g & E & A & B & C & _). rewrite E. cbn. rewrite A, B, C, (S f g eq_refl E). reflexivity. }
  assert (A1 : only_contents_of p fs f1) by apply on_file_only. assert (A2 : only_contents_of p fs f2) by apply on_file_only.
  assert (S1 : nothing_synced fs f1) by (apply on_file_unsynced, us_write_header).
  assert (S2 : nothing_synced fs f2) by (apply on_file_unsynced, us_partition_write).
  auto 10.
Qed.
Print Assumptions C93_writing.

Lemma during_same p g fs f : fs p = Some f -> data (g_device g) = f_data f -> durable (g_device g) = f_durable f ->
  same_files fs (during p g fs).
Proof. apply put_back_same. Qed.

(** In use, a disk got from a path changes the contents of that file at most.  It changes nothing if its configuration does not
    allow writing, and nothing as long as it is not asked to write. *)
Theorem C93_in_use : forall oc oc' cfg rnd k p fs g fs' cs,
  got oc cfg rnd k p fs g fs' -> Forall keeps_device cs ->
  let fs'' := during p (snd (talk oc' cs g)) fs' in
  same_files fs fs' /\ only_contents_of p fs' fs'' /\ (c_writable cfg = false \/ Forall no_write cs -> same_files fs' fs'').
Proof.
  intros oc oc' cfg rnd k p fs g fs' cs G K fs''. destruct (got_ok _ _ _ _ _ _ _ _ G) as (f & F & A & B & C & D & S).
  split; [exact S|]. split; [apply put_back_only|]. intros Q.
  assert (M : same_media (g_device g) (g_device (snd (talk oc' cs g)))).
  { destruct Q as [Q|Q]; [|apply talk_unwritten, Q].
    apply (talk_always (fun g' => same_media (g_device g) (g_device g') /\ c_writable (g_config g') = false) keeps_device oc').
    - intros c g1 N (S1 & W1). destruct (ask_read_only oc' c g1 N W1) as (X & Y). split; [|exact Y]. eapply same_media_trans; eassumption.
    - exact K.
    - split; [apply same_media_refl|]. rewrite C. exact Q. }
  destruct M as (M1 & M2 & _). apply (during_same p _ fs' f); [rewrite (S p); exact F|congruence|congruence].
Qed.
Print Assumptions C93_in_use.

Lemma ask_sync oc c g : keeps_device c -> g_sync (snd (ask oc c g)) = g_sync g.
Proof.
  intros K. destruct c as [o| | | | | | | | |]; try reflexivity. destruct o; try contradiction; cbn [ask]; unfold replied, told; cbn [snd].
  - apply (mo_add oc nm size ty fl al rnd g).
  - apply (mo_add_at oc nm id first len ty fl rnd g).
  - apply (mo_remove id g).
  - apply (mo_remove_guid u g).
  - reflexivity.
  - reflexivity.
  - apply (mo_update_partitions oc pp g).
  - apply (wo_write oc g).
Qed.
(** A write that succeeds, at any point of a conversation with a disk got from a path, has reached the medium: a power cut takes
    nothing of it. *)
Theorem C93_synced : forall oc oc' cfg rnd k p fs g fs' cs g2,
  got oc cfg rnd k p fs g fs' -> Forall keeps_device cs -> write_inplace oc' (snd (talk oc' cs g)) = (Ok tt, g2) ->
  exists f, during p g2 fs' p = Some f /\ f_durable f = f_data f /\ power_cut (during p g2 fs') p = Some f.
Proof.
  intros oc oc' cfg rnd k p fs g fs' cs g2 G K W. destruct (got_ok _ _ _ _ _ _ _ _ G) as (f & F & A & B & C & D & S).
  assert (Y : g_sync (snd (talk oc' cs g)) = true).
  { apply (talk_always (fun g' => g_sync g' = true) keeps_device oc'); [|exact K|exact D]. intros c g1 N <-. apply ask_sync, N. }
  pose proof (write_inplace_durable _ _ _ Y W) as Z. unfold power_cut, during, put_back. rewrite String.eqb_refl, (S p), F. eexists.
  split; [reflexivity|]. cbn. rewrite Z. split; reflexivity.
Qed.
Print Assumptions C93_synced.

(** The table written is the table found: opening the path afterwards, by any configuration with the same block size, and also
    after a power cut, gives the used partitions and the identifier that were written. *)
Theorem C93_saved : forall oc oc' oc'' cfg rnd k p fs g fs' cs h cfg' k',
  let g1 := snd (talk oc' cs g) in
  got oc cfg rnd k p fs g fs' -> Forall keeps_device cs ->
  ready g1 h -> fault_free (g_device g1) -> c_readonly_backup (g_config g1) = false ->
  backup_at h = last_whole_block (c_lb (g_config g1)) (g_device g1) ->
  c_lb cfg' = c_lb (g_config g1) -> permitted (c_writable cfg') p fs -> k_faults k' = [] ->
  exists g2, write_inplace oc' g1 = (Ok tt, g2) /\
    (forall fs'', fs'' = during p g2 fs' \/ fs'' = power_cut (during p g2 fs') ->
     exists g3, fst (config_open oc'' cfg' k' p fs'') = Ok g3 /\ g_guid g3 = disk_guid h /\ read_back (g_partitions g1) (g_partitions g3)).
Proof.
  intros oc oc' oc'' cfg rnd k p fs g fs' cs h cfg' k' g1 G K R FF RO BA LB PM KF.
  pose proof (got_ok _ _ _ _ _ _ _ _ G) as (f & F & _ & _ & _ & _ & S).
  assert (HW := rd_writable _ _ R). apply ready_sane in R. destruct R as (HT & HA & HS & HU & HP).
  destruct (write_inplace_sane oc' g1 h HW RO HT (conj FF HA) HS HU) as (g2 & E & DA & _ & _ & _ & _ & Q & _).
  exists g2. split; [exact E|].
  destruct (C93_synced oc oc' cfg rnd k p fs g fs' cs g2 G K E) as (f2 & E1 & E2 & E3).
  intros fs'' FS. assert (X : fs'' p = Some f2) by (destruct FS as [-> | ->]; assumption). clear FS.
  assert (Y : f_data f2 = data (g_device g2) /\ f_readable f2 = f_readable f /\ f_writable f2 = f_writable f).
  { unfold during, put_back in E1. rewrite String.eqb_refl, (S p), F in E1. injection E1 as <-. repeat split. }
  destruct Y as (Y1 & Y2 & Y3). destruct PM as (f' & F' & P1 & P2). rewrite F in F'. injection F' as <-.
  set (d := mkDev (f_data f2) 0 (f_grows f2) (k_eof_moves k') [] (f_durable f2)).
  assert (O : open_file (c_writable cfg') k' p fs'' = Ok d).
  { unfold open_file. rewrite X, Y2, P1, Y3, KF. destruct (c_writable cfg'); [rewrite (P2 eq_refl)|]; reflexivity. }
  destruct (reopen_image oc'' cfg' (c_lb (g_config g1)) h (used_list (g_partitions g1)) (data (g_device g1)) d) as (q & Z); auto.
  - reflexivity.
  - unfold d. cbn [data]. congruence.
  - rewrite <- backup_at_eq, BA. unfold last_whole_block, last_block, dev_len, d. cbn [data]. rewrite Y1, DA, image_len; auto.
  - eexists. unfold config_open, on_file. rewrite O. unfold open_path, with_sync, bind, ret. rewrite Z. cbn [fst omap_err].
    split; [reflexivity|]. cbn. split; [reflexivity|]. apply read_back_normal; auto.
Qed.
Print Assumptions C93_saved.

(** A file with a table of one partition, a read-only one with the same contents, and nothing else. *)
Definition sample_image : list byte := data (g_device (snd (write_inplace true (mini_disk [(1, sample_part)])))).
Definition sample_files : files := fun q =>
  if String.eqb q "/disk" then Some (mkFile sample_image [] false true true)
  else if String.eqb q "/cdrom" then Some (mkFile sample_image [] false true false) else None.
Definition calm : conduct := mkConduct false [].
Definition sample_talk : list call := [AskTable; Do (OpUpdateGuid (Some other_guid) sample_guid)].
Definition value_or {E A} (a : A) (r : outcome E A) : A := match r with Ok x => x | _ => a end.
Definition is_ok {E A} (r : outcome E A) : bool := match r with Ok _ => true | _ => false end.
Lemma is_ok_value {E A} (a : A) (r : outcome E A) : is_ok r = true -> r = Ok (value_or a r).
Proof. destruct r; try discriminate. reflexivity. Qed.
Definition sample_opened : gdisk := value_or (mini_disk []) (fst (config_open true mini_config calm "/disk" sample_files)).
Lemma sample_got : exists fs', got true mini_config sample_guid calm "/disk" sample_files sample_opened fs'.
Proof.
  exists (snd (config_open true mini_config calm "/disk" sample_files)). left. unfold sample_opened.
  rewrite <- is_ok_value; [|vm_compute; reflexivity]. destruct (config_open _ _ _ _ _); reflexivity.
Qed.
Definition sample_now : gdisk := snd (talk true sample_talk sample_opened).
Lemma sample_len : lenN (data (g_device sample_now)) = 3072.
Proof. vm_compute. reflexivity. Qed.
Example C93_case : exists h fs',
  got true mini_config sample_guid calm "/disk" sample_files sample_opened fs' /\ Forall keeps_device sample_talk /\
  ready sample_now h /\ fault_free (g_device sample_now) /\ c_readonly_backup (g_config sample_now) = false /\
  backup_at h = last_whole_block (c_lb (g_config sample_now)) (g_device sample_now) /\
  g_partitions sample_now = [(1, sample_part)]%list /\
  permitted true "/disk" sample_files /\ permitted false "/cdrom" sample_files /\ ~ permitted true "/cdrom" sample_files /\
  ~ permitted false "/home" sample_files.
Proof.
  exists (value_or mini_header (g_primary sample_now)). destruct sample_got as (fs' & G). exists fs'. split; [exact G|].
  split; [repeat constructor|]. split.
  { constructor.
    - vm_compute. reflexivity.
    - left. apply is_ok_value. vm_compute. reflexivity.
    - unfold addressable. rewrite sample_len. reflexivity.
    - rewrite sample_len. constructor; vm_compute; try reflexivity; discriminate.
    - vm_compute. discriminate.
    - replace (used_in_order (g_partitions sample_now)) with [sample_part]%list by (vm_compute; reflexivity).
      constructor; [apply sample_part_ok|constructor]. }
  split; [vm_compute; reflexivity|]. split; [vm_compute; reflexivity|]. split; [vm_compute; reflexivity|]. split; [vm_compute; reflexivity|].
  split; [eexists; split; [reflexivity|]; split; [reflexivity|intros _; reflexivity]|].
  split; [eexists; split; [reflexivity|]; split; [reflexivity|intros X; discriminate X]|].
  split; intros (f & E & R & W); unfold sample_files in E; cbn in E.
  - injection E as <-. discriminate (W eq_refl).
  - discriminate E.
Qed.
