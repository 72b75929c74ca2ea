(** Props_Report.v - what an open disk says about its two headers (C91). *)
From Verif Require Import ReportFacts OpenFacts AcceptFacts Props_Open Props_Count Props_Fault Samples.
Open Scope list_scope.
Open Scope N_scope.

(** C91.  [header()] is the primary header if [primary_header()] gives one, otherwise the backup header, and panics if neither
    gives one. *)
Theorem C91_header : forall g,
  (forall h, @the_header gpt_err g = Ok h <->
     primary_header g = Ok h \/ (forall h', primary_header g <> Ok h') /\ backup_header g = Ok h) /\
  (@the_header gpt_err g = Panic <-> ~ valid (primary_header g) /\ ~ valid (backup_header g)).
Proof.
  intros g. unfold the_header, try_header, primary_header, backup_header, valid.
  assert (I : forall (a b : header), @Ok gpt_err header a = Ok b <-> @Ok hdr_err header a = Ok b).
  { intros a b. split; intros E; injection E as ->; reflexivity. }
  destruct (g_primary g) as [p|e|]; cbn [or_else omap_err].
  - split.
    + intros h. rewrite I. split; [auto|]. intros [E|(E & _)]; [exact E|]. destruct (E p eq_refl).
    + split; [intros E; discriminate E|]. intros (E & _). destruct E. exists p. reflexivity.
  - destruct (g_backup g) as [b|e'|]; cbn [omap_err]; (split; [intros h|]).
    + rewrite I. split; [intros E; right; split; [intros h'; discriminate|exact E]|]. intros [E|(_ & E)]; [discriminate E|exact E].
    + split; [intros E; discriminate E|]. intros (_ & N). destruct N. exists b. reflexivity.
    + split; [intros E; discriminate E|]. intros [E|(_ & E)]; discriminate E.
    + split; [|reflexivity]. intros _. split; intros (h & H); discriminate H.
    + split; [intros E; discriminate E|]. intros [E|(_ & E)]; discriminate E.
    + split; [|reflexivity]. intros _. split; intros (h & H); discriminate H.
  - destruct (g_backup g) as [b|e'|]; cbn [omap_err]; (split; [intros h|]).
    + rewrite I. split; [intros E; right; split; [intros h'; discriminate|exact E]|]. intros [E|(_ & E)]; [discriminate E|exact E].
    + split; [intros E; discriminate E|]. intros (_ & N). destruct N. exists b. reflexivity.
    + split; [intros E; discriminate E|]. intros [E|(_ & E)]; discriminate E.
    + split; [|reflexivity]. intros _. split; intros (h & H); discriminate H.
    + split; [intros E; discriminate E|]. intros [E|(_ & E)]; discriminate E.
    + split; [|reflexivity]. intros _. split; intros (h & H); discriminate H.
Qed.
Print Assumptions C91_header.

Lemma header_at_lossless l off r : header_at l off r -> omap_err lossy_clone r = r.
Proof. intros []; reflexivity. Qed.
Lemma backup_at_lossless lb d r : backup_header_at lb d r -> omap_err lossy_clone r = r.
Proof.
  intros (A & B). destruct (N.lt_ge_cases (lenN (data d)) (3 * lb_u64 lb)) as [L|L].
  - rewrite (B L). reflexivity.
  - apply (header_at_lossless _ _ _ (A L)).
Qed.
(** What is said after opening is what is on the disk: a valid header or the reason why it is none. *)
Theorem C91_opened : forall oc cfg d g d' r1 r2,
  fault_free d -> addressable d ->
  header_at (data d) (lb_u64 (c_lb cfg)) r1 -> backup_header_at (c_lb cfg) d r2 ->
  open_from_device oc cfg d = (Ok g, d') -> primary_header g = r1 /\ backup_header g = r2.
Proof.
  intros oc cfg d g d' r1 r2 F A H1 H2 O. rewrite addressable_iff in A.
  pose proof (header_at_lossless _ _ _ H1) as L1. pose proof (backup_at_lossless _ _ _ H2) as L2.
  pose proof (header_at_fun _ _ _ _ H1 (read_header_at_spec (lb_u64 (c_lb cfg)) (data d))) as E1.
  pose proof (backup_header_fun _ _ _ _ H2 (backup_header_spec (c_lb cfg) d)) as E2.
  rewrite (open_ok oc cfg d F A) in O. cbn zeta in O. rewrite <- E1, <- E2 in O.
  destruct (select cfg r1 r2) as [h|e|]; [|discriminate O|discriminate O].
  destruct (map_err GIo _ d) as [[t|e|] d1]; [|discriminate O|discriminate O].
  injection O as <- _. split; [exact L1|exact L2].
Qed.
Print Assumptions C91_opened.
(** Whatever fails: it is what reading the header gave, with the same cause. *)
Theorem C91_cause : forall oc cfg d g d',
  open_from_device oc cfg d = (Ok g, d') ->
  let '(r1, d1) := read_primary_header (c_lb cfg) d in
  let '(r2, d2) := read_backup_header (c_lb cfg) d1 in
  reports (primary_header g) r1 /\ reports (backup_header g) r2.
Proof.
  intros oc cfg d g d' O. unfold open_from_device, bind, attempt in O.
  destruct (read_primary_header (c_lb cfg) d) as [r1 d1].
  destruct r1 as [h1|e1|]; [| |discriminate O]; (destruct (read_backup_header (c_lb cfg) d1) as [r2 d2]; destruct r2 as [h2|e2|]; [| |discriminate O]);
    destruct (c_only_valid_headers cfg); unfold lift, ret, throw in O; cbn [omap_err or_else] in O; try discriminate O;
    match type of O with context [map_err GIo ?m d2] => destruct (map_err GIo m d2) as [[t|e|] d3] end; try discriminate O;
    injection O as <- _; unfold primary_header, backup_header; cbn [g_primary g_backup]; split; apply lossy_reports.
Qed.
Print Assumptions C91_cause.
(** A new disk has a primary header, and a backup header unless that is to be left alone: then it says there is none. *)
Theorem C91_created : forall oc cfg u rnd d g d',
  create_from_device oc cfg u rnd d = (Ok g, d') ->
  valid (primary_header g) /\
  (if c_readonly_backup cfg then backup_header g = Err HInvalidGptSignature else valid (backup_header g)).
Proof.
  intros oc cfg u rnd d g d' O. unfold create_from_device in O.
  match type of O with context [init_headers oc ?x] => pose proof (init_renewed oc x) as X; destruct (init_headers oc x) as [[[]|e|] g1] end;
    [|discriminate O|discriminate O].
  injection O as <- _. destruct X as ([_ _ _ K] & V). destruct (V eq_refl) as ((h & V1) & V2). cbn [g_config g_backup] in *.
  unfold primary_header, backup_header. split; [exists h; rewrite V1; reflexivity|].
  destruct (c_readonly_backup cfg).
  - rewrite K by reflexivity. reflexivity.
  - destruct (V2 eq_refl) as (b & ->). exists b. reflexivity.
Qed.
Print Assumptions C91_created.
(** In the course of any conversation each of the two answers changes only to a valid header; the one about the backup never
    changes if the backup is to be left alone.  Once [write_inplace] or [update_partitions] has succeeded both headers are
    valid, the backup unless it is to be left alone. *)
Theorem C91_conversation : forall oc cs g,
  let '(rs, g') := talk oc cs g in
  (primary_header g' = primary_header g \/ valid (primary_header g')) /\
  (backup_header g' = backup_header g \/ c_readonly_backup (g_config g) = false /\ valid (backup_header g')) /\
  (forall i c v, nth_error cs i = Some c -> renews c -> nth_error rs i = Some (Returned v) ->
     valid (primary_header g') /\ (c_readonly_backup (g_config g) = false -> valid (backup_header g'))).
Proof.
  intros oc cs g. pose proof (talk_renewed oc cs g) as X. destruct (talk oc cs g) as [rs g']. destruct X as ([_ P B K] & R).
  unfold primary_header, backup_header.
  assert (V : forall r, valid r -> valid (omap_err lossy_clone r)) by (intros r (h & ->); exists h; reflexivity).
  split; [destruct P as [->|P]; auto|]. split.
  - destruct (c_readonly_backup (g_config g)); [left; rewrite K by reflexivity; reflexivity|].
    destruct B as [->|B]; auto.
  - intros i c v H1 H2 H3. destruct (R i c v H1 H2 H3) as (A1 & A2). split; [auto|]. intros O. auto.
Qed.
Print Assumptions C91_conversation.
(** Other calls change neither answer. *)
Theorem C91_kept : forall oc cs g, Forall (leaves_headers g) cs ->
  let '(_, g') := talk oc cs g in primary_header g' = primary_header g /\ backup_header g' = backup_header g.
Proof.
  intros oc cs g L. pose proof (talk_still oc cs g L) as X. destruct (talk oc cs g) as [rs g']. cbn [snd] in X. destruct X as (X & Y).
  unfold primary_header, backup_header. rewrite X, Y. auto.
Qed.
Print Assumptions C91_kept.

(** A disk whose primary header cannot be read because the device fails, one whose primary header is damaged, and what
    writing makes of the latter. *)
Definition unreadable_dev : dev := with_faults [None; None; Some 0%nat] mini_one_dev.
Definition damaged_dev : dev := mkDev (firstn 520 (data mini_one_dev) ++ [x01] ++ skipn 521 (data mini_one_dev)) 0 false false [] [].
Example C91_case :
  (exists g, fst (open_from_device true mini_config unreadable_dev) = Ok g /\ primary_header g = Err (HIo IoFault) /\ valid (backup_header g)) /\
  (exists g, fst (open_from_device true mini_config damaged_dev) = Ok g /\ primary_header g = Err HInvalidCRC32Checksum /\
     Forall (leaves_headers g) [Do (OpRemove 1); AskFree] /\
     let '(rs, g') := talk true [Do (OpRemove 1); Do OpWrite] g in
     nth_error rs 1 = Some (Returned VUnit) /\ valid (primary_header g')).
Proof.
  split.
  - eexists. split; [vm_compute; reflexivity|]. split; [vm_compute; reflexivity|]. eexists. vm_compute. reflexivity.
  - eexists. split; [vm_compute; reflexivity|]. split; [vm_compute; reflexivity|]. split; [repeat constructor|].
    vm_compute. split; [reflexivity|]. eexists. reflexivity.
Qed.
