(** Props_Moody.v - devices that choose which calls to refuse (C110). *)
From Verif Require Import SpecMoody StdProgFacts Samples Props_Pieces Props_Fault Props_Write SessionFacts OpenFacts TableFacts MapFacts SpecFacts.
Open Scope list_scope.
Open Scope N_scope.

Lemma moody_call {S R} (P : mood S) (o : io R) d s r d' s' : do_moody P o d s = (r, d', s') ->
  exists es, forall rest, do_io o (with_faults (es ++ rest) d) = (r, with_faults rest d').
Proof.
  unfold do_moody. destruct (P R o d s) as [a s1].
  destruct (do_io o match a with Some m => with_faults [Some m] d | None => repaired d end) as [r1 d1] eqn:E.
  intros X. injection X as <- <- <-.
  assert (T : exists es, forall rest, do_io o (with_faults (es ++ rest) d) = (r1, with_faults rest d1)); [|exact T].
  destruct a as [m|], o as [n| | |n|bs| |]; cbn [do_io] in *.
  all: unfold seek_start, seek_end, stream_position, read_exact, write_all, flush, sync_all in *.
  all: try (destruct (n =? 0); [injection E as <- <-; exists []; reflexivity|]).
  all: try (destruct bs as [|b bs]; [injection E as <- <-; exists []; reflexivity|]).
  all: unfold tick in *; cbn [faults with_faults repaired data pos growable eof_moves durable set_pos set_data dev_len] in *.
  all: first [injection E as <- <-; exists [Some m]; reflexivity|injection E as <- <-; exists [None]; reflexivity|idtac].
  all: exists [None]; intros rest; destruct d as [l q gr em f du];
    cbn [app with_faults faults data pos growable eof_moves durable set_pos set_data dev_len] in *.
  all: unfold dev_len in *; cbn [app data pos growable eof_moves with_faults repaired] in *.
  all: repeat match goal with |- context [if ?c then _ else _] => destruct c end; injection E as <- <-; reflexivity.
Qed.
Lemma moody_run {S A} (P : mood S) (p : prog A) : forall d s x d' s', run_moody P p d s = (x, d', s') ->
  exists es, forall rest, run_steps p (with_faults (es ++ rest) d) = (x, with_faults rest d').
Proof.
  induction p as [a|R o k IH]; intros d s x d' s' H; cbn [run_moody run_steps] in *.
  - injection H as <- <- <-. exists []. reflexivity.
  - destruct (do_moody P o d s) as [[r d1] s1] eqn:E. destruct (moody_call P o d s r d1 s1 E) as (e1 & X1).
    destruct (IH r d1 s1 x d' s' H) as (e2 & X2). exists (e1 ++ e2). intros rest. rewrite <- app_assoc, X1. apply X2.
Qed.

(** * C110 *)
(** Whatever calls the device chooses to refuse, and however it chooses them, the program does what it does on a
    device with some schedule of faults fixed in advance; so what is proved for all schedules holds on it. *)
Theorem C110_programs : forall S A (P : mood S) (p : prog A) d s x d' s', run_moody P p d s = (x, d', s') ->
  exists fs, run_steps p (with_faults fs d) = (x, repaired d').
Proof.
  intros S A P p d s x d' s' H. destruct (moody_run P p d s x d' s' H) as (es & X). exists es.
  rewrite <- (app_nil_r es) at 1. apply X.
Qed.
Print Assumptions C110_programs.
Theorem C110_device_functions : forall S A (f : dev -> A * dev) (P : mood S) p d s x d' s', device_function A f ->
  program_of p f -> run_moody P p d s = (x, d', s') -> exists fs, f (with_faults fs d) = (x, repaired d').
Proof. intros S A f P p d s x d' s' _ O H. destruct (C110_programs _ _ _ _ _ _ _ _ _ H) as (fs & X). exists fs. rewrite <- O. exact X. Qed.
Print Assumptions C110_device_functions.
(** Opening: the headers reported are valid ones stored on the device, GUID and partitions are those of the header in
    use, and the contents are as before. *)
Theorem C110_open : forall S oc cfg (P : mood S) p d s g d' s', addressable d ->
  program_of_opening p (open_from_device oc cfg) -> run_moody P p d s = (Ok g, d', s') ->
  data d' = data d /\
  (exists h, header_of g h /\ g_guid g = disk_guid h /\ part_size h = 128 /\
     array_intact (c_lb cfg) h (data d) /\ table_read (c_lb cfg) h (data d) (g_partitions g)) /\
  (forall h, g_primary g = Ok h \/ g_backup g = Ok h -> stored_header (data d) h).
Proof.
  intros S oc cfg P p d s g d' s' A O H. destruct (C110_programs _ _ _ _ _ _ _ _ _ H) as (fs & X).
  assert (E : open_from_device oc cfg (with_faults fs d) = (Ok (set_device (repaired d') g), repaired d')).
  { rewrite O, X. reflexivity. }
  destruct (C62_opened_under_faults_partial oc cfg (with_faults fs d) _ _ A E) as (B1 & B2 & (B3 & _)).
  split; [exact B3|]. split; [exact B1|exact B2].
Qed.
Print Assumptions C110_open.
(** Writing: success means that the table is written as on a device that never fails ... *)
Theorem C110_write_success : forall S oc g (P : mood S) p d s g' d' s',
  program_of_call p (write_inplace oc) g -> run_moody P p d s = ((Ok tt, g'), d', s') ->
  write_inplace oc (set_device (repaired d) g) = (Ok tt, set_device (repaired d') g').
Proof.
  intros S oc g P p d s g' d' s' O H. destruct (C110_programs _ _ _ _ _ _ _ _ _ H) as (fs & X).
  assert (E : write_inplace oc (set_device (with_faults fs d) g) = (Ok tt, set_device (repaired d') g')).
  { rewrite O, X. reflexivity. }
  destruct (C61_write oc _ _ _ E) as (_ & Y). exact Y.
Qed.
Print Assumptions C110_write_success.
(** ... and whether it succeeds or not, the user data stay. *)
Theorem C110_write_keeps : forall S oc g h (P : mood S) p d s r g' d' s',
  program_of_call p (write_inplace oc) g -> run_moody P p d s = ((r, g'), d', s') ->
  header_of g h -> addressable d -> layout_ok (c_lb (g_config g)) (lenN (data d)) h ->
  forall i, user_byte (c_lb (g_config g)) h i -> byte_no (data d') i = byte_no (data d) i.
Proof.
  intros S oc g h P p d s r g' d' s' O H HH A L i U. destruct (C110_programs _ _ _ _ _ _ _ _ _ H) as (fs & X).
  assert (E : write_inplace oc (set_device (with_faults fs d) g) = (r, set_device (repaired d') g')).
  { rewrite O, X. reflexivity. }
  destruct (C16_usable_area_preserved oc (set_device (with_faults fs d) g) h i HH A L) as (Y & _).
  - destruct U as [U|U]; [left; exact U|right; left; exact U].
  - rewrite E in Y. exact Y.
Qed.
Print Assumptions C110_write_keeps.
(** Any history of calls. *)
Theorem C110_history : forall S oc ops g (P : mood S) p d s x d' s', Forall on_this_device ops ->
  program_of_history p oc ops g -> run_moody P p d s = (x, d', s') ->
  exists fs, run oc ops (set_device (with_faults fs d) g) = option_map (set_device (repaired d')) x.
Proof.
  intros S oc ops g P p d s x d' s' _ O H. destruct (C110_programs _ _ _ _ _ _ _ _ _ H) as (fs & X).
  exists fs. rewrite O, X. reflexivity.
Qed.
Print Assumptions C110_history.
Lemma unreadable_primary lb m d : @attempt dev hdr_err gpt_err _ (read_primary_header lb) (with_faults [None; None; Some m] d) =
  (Ok (Err (HIo IoFault)), repaired d).
Proof. destruct d as [l q gr em fs du]. reflexivity. Qed.
(** A primary header that cannot be read, say because its block is bad, is like one that is not valid (of the calls made
    on the device in opening it, the third reads the primary header).  Unless both headers must be valid, the disk opens by
    way of the backup copy, with what is there. *)
Theorem C110_unreadable_primary : forall oc cfg m d hb, addressable d -> c_only_valid_headers cfg = false ->
  backup_header_at (c_lb cfg) d (Ok hb) -> part_size hb = 128 -> countable oc hb (data d) ->
  opened_with cfg d (Err (HIo IoFault)) (Ok hb) hb (fst (open_from_device oc cfg (with_faults [None; None; Some m] d))).
Proof.
  intros oc cfg m d hb A HV H2 P Hn. rewrite addressable_iff in A. rewrite countable_iff in Hn.
  pose proof (backup_header_fun _ _ _ _ H2 (backup_header_spec (c_lb cfg) d)) as EB.
  unfold open_from_device. rewrite (bind_ok (unreadable_primary (c_lb cfg) m d)).
  assert (E2 : @attempt dev hdr_err gpt_err _ (read_backup_header (c_lb cfg)) (repaired d) = (Ok (Ok hb), repaired d)).
  { unfold attempt. rewrite read_backup_header_ok by (auto; reflexivity).
    change (read_backup_at (c_lb cfg) (repaired d)) with (read_backup_at (c_lb cfg) d). rewrite <- EB. reflexivity. }
  rewrite (bind_ok E2), HV. unfold bind at 1, ret at 1. unfold bind at 1. cbn [or_else]. unfold ret at 1.
  destruct (file_read_partitions_ok oc hb (c_lb cfg) (repaired d)) as (q & E); auto; [reflexivity|].
  unfold bind, map_err. rewrite E. change (data (repaired d)) with (data d).
  pose proof (read_parts_spec hb (c_lb cfg) (data d) P A) as R.
  destruct (read_parts_at hb (c_lb cfg) (data d)) as [t|e|]; [|exact R|exact R].
  destruct R as (R1 & R2). unfold opened_with. cbn [fst g_config g_guid g_primary g_backup g_device g_sync g_partitions].
  split; [exact R1|]. split; [exact R2|]. repeat split; auto.
Qed.
Print Assumptions C110_unreadable_primary.
(** And if both must be valid, it is an error that says so, and nothing is changed. *)
Theorem C110_unreadable_refused : forall oc cfg m d, addressable d -> c_only_valid_headers cfg = true ->
  open_from_device oc cfg (with_faults [None; None; Some m] d) = (Err (GHeader (HIo IoFault)), repaired d).
Proof.
  intros oc cfg m d A HV. rewrite addressable_iff in A.
  unfold open_from_device. rewrite (bind_ok (unreadable_primary (c_lb cfg) m d)).
  assert (E2 : @attempt dev hdr_err gpt_err _ (read_backup_header (c_lb cfg)) (repaired d) =
    (Ok (read_backup_at (c_lb cfg) d), repaired d)).
  { unfold attempt. rewrite read_backup_header_ok by (auto; reflexivity).
    change (read_backup_at (c_lb cfg) (repaired d)) with (read_backup_at (c_lb cfg) d).
    pose proof (read_backup_at_no_panic (c_lb cfg) d). destruct (read_backup_at (c_lb cfg) d); congruence. }
  rewrite (bind_ok E2), HV. reflexivity.
Qed.
Print Assumptions C110_unreadable_refused.
(** Such programs exist: C83_device_functions, C83_opening, C83_calls and C83_write have them.  The boot code cannot be
    read from a disk whose bytes from 100 on are bad, a bad byte behind it does not matter; a file refuses to seek to 2^63; a
    disk that takes two more writes. *)
Definition three_writes : prog (outcome io_err unit) :=
  ask (OWrite (zeros 4)) (fun _ => ask (OWrite (zeros 4)) (fun _ => ask (OWrite (zeros 4)) (fun _ => Done (Ok tt)))).
Example C110_cases :
  fst (fst (run_moody (bad_bytes 100 101) bootcode_calls counting_dev tt)) = Err IoFault /\
  fst (fst (run_moody (bad_bytes 440 512) bootcode_calls counting_dev tt)) = fst (read_bootcode counting_dev) /\
  fst (fst (run_moody (offsets_below (2 ^ 63)) (Call (OSeek (2 ^ 63)) Done) counting_dev tt)) = Err IoFault /\
  fst (fst (run_moody (offsets_below (2 ^ 63)) (Call (OSeek (2 ^ 63 - 1)) Done) counting_dev tt)) = Ok (2 ^ 63 - 1) /\
  run_moody worn_out three_writes counting_dev 2%nat =
    (Err IoFault, set_data counting_dev (store 7 (zeros 8) (data counting_dev)) 15, O).
Proof. repeat split; vm_compute; reflexivity. Qed.
(** Six blocks with one partition, the primary header of which can no longer be read. *)
Definition mini_saved : dev := g_device (snd (write_inplace true (mini_disk [(1, part_at 3 3)]))).
Example C110_unreadable_case :
  match fst (open_from_device true mini_config (with_faults [None; None; Some 7%nat] mini_saved)) with
  | Ok g => Some (g_primary g, g_guid g, g_partitions g)
  | _ => None
  end = Some (Err (HIo IoFault), sample_guid, [(1, part_at 3 3)]) /\
  fst (open_from_device true mini_config mini_saved) <> fst (open_from_device true mini_config (with_faults [None; None; Some 7%nat] mini_saved)).
Proof.
  split; [vm_compute; reflexivity|]. intros H.
  apply (f_equal (fun r => match r with Ok g => match g_primary g with Ok _ => true | _ => false end | _ => false end)) in H.
  vm_compute in H. discriminate.
Qed.
