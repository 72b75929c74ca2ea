(** Props_Pieces.v - how a device splits transfers, and whether it interrupts calls, does not matter (C83). *)
From Verif Require Import SpecPieces StdProgFacts Samples.
Open Scope list_scope.
Open Scope N_scope.

(** C83.  Any program of device calls: with the loops of std, over a device that answers each [read] and [write] with
    a piece of any size or with an interruption, it has the outcome and the effect it has when each call is done at
    once. *)
Theorem C83_programs A (p : prog A) d s x d' s' : splits d s -> run_loops p (d, s) = (x, (d', s')) -> run_steps p d = (x, d').
Proof. intros (NF & F & EM) H. exact (prog_calm p d s x d' s' EM NF F H). Qed.
(** Where a call fails after some pieces, it is a fault of the single-step device after as many bytes. *)
Theorem C83_failures A (p : prog A) d s x d' s' : eof_moves d = true -> run_loops p (d, s) = (x, (d', s')) ->
  exists fs, run_steps p (with_faults fs d) = (x, repaired d').
Proof.
  intros EM H. destruct (prog_steps p d s x d' s' EM H) as (f & F & _). exists f. rewrite <- (app_nil_r f). apply F.
Qed.
(** The functions that work on a device, opening and creating, and any history of calls on an open disk are such
    programs. *)
Theorem C83_device_functions A (f : dev -> A * dev) : device_function A f ->
  (exists p, program_of p f) /\
  forall p d s x d' s', program_of p f -> splits d s -> run_loops p (d, s) = (x, (d', s')) -> f d = (x, d').
Proof.
  intros H. split.
  - assert (K : forall f : dev -> A * dev, made f -> exists p, program_of p f) by (intros g (p & P); exists p; exact P).
    destruct H; apply K.
    + apply mk_primary.
    + apply mk_backup.
    + apply mk_read_partitions.
    + apply mk_write_header.
    + apply mk_write_to_device.
    + apply mk_mbr_from_disk.
    + apply mk_overwrite.
    + apply mk_conservative.
    + apply mk_read_at.
    + apply mk_write_at.
    + apply mk_read_at.
    + apply mk_write_at.
  - intros p d s x d' s' P S R. rewrite <- P. exact (C83_programs _ _ _ _ _ _ _ S R).
Qed.
Theorem C83_opening f : opening f ->
  (exists p, program_of_opening p f) /\
  (forall p d s r d' s', program_of_opening p f -> splits d s -> run_loops p (d, s) = (r, (d', s')) ->
     f d = (holding d' r, d')) /\
  (forall p d s r d' s', program_of_opening p f -> eof_moves d = true -> run_loops p (d, s) = (r, (d', s')) ->
     exists fs, f (with_faults fs d) = (holding (repaired d') r, repaired d')).
Proof.
  intros H. split; [|split].
  - assert (K : forall f, dmade f -> exists p, program_of_opening p f).
    { intros g (p & P). exists p. intros d. rewrite P. destruct (run_steps p d) as [[a|e|] d']; reflexivity. }
    destruct H; apply K.
    + apply dm_open.
    + apply dm_create.
    + apply dm_path, dm_open.
    + apply dm_path, dm_create.
  - intros p d s r d' s' P S R. rewrite P, (C83_programs _ _ _ _ _ _ _ S R). reflexivity.
  - intros p d s r d' s' P EM R. destruct (C83_failures _ _ _ _ _ _ _ EM R) as (fs & X). exists fs. rewrite P, X. reflexivity.
Qed.
Theorem C83_calls oc ops g : Forall on_this_device ops ->
  (exists p, program_of_history p oc ops g) /\
  (forall p d s x d' s', program_of_history p oc ops g -> splits d s -> run_loops p (d, s) = (x, (d', s')) ->
     run oc ops (set_device d g) = option_map (set_device d') x) /\
  (forall p d s x d' s', program_of_history p oc ops g -> eof_moves d = true -> run_loops p (d, s) = (x, (d', s')) ->
     exists fs, run oc ops (set_device (with_faults fs d) g) = option_map (set_device (repaired d')) x).
Proof.
  intros S. split; [|split].
  - destruct (om_run oc ops S g) as (p & P). exists p. exact P.
  - intros p d s x d' s' P SP R. rewrite P, (C83_programs _ _ _ _ _ _ _ SP R). reflexivity.
  - intros p d s x d' s' P EM R. destruct (C83_failures _ _ _ _ _ _ _ EM R) as (fs & X). exists fs. rewrite P, X. reflexivity.
Qed.
(** Writing the table: result and the disk in memory too. *)
Theorem C83_write oc g :
  (exists p, program_of_call p (write_inplace oc) g) /\
  (forall p d s r g' d' s', program_of_call p (write_inplace oc) g -> splits d s -> run_loops p (d, s) = (r, g', (d', s')) ->
     write_inplace oc (set_device d g) = (r, set_device d' g')) /\
  (forall p d s r g' d' s', program_of_call p (write_inplace oc) g -> eof_moves d = true ->
     run_loops p (d, s) = (r, g', (d', s')) ->
     exists fs, write_inplace oc (set_device (with_faults fs d) g) = (r, set_device (repaired d') g')).
Proof.
  split; [|split].
  - destruct (gm_write_inplace oc g) as (p & P). exists p. exact P.
  - intros p d s r g' d' s' P SP R. rewrite P, (C83_programs _ _ _ _ _ _ _ SP R). reflexivity.
  - intros p d s r g' d' s' P EM R. destruct (C83_failures _ _ _ _ _ _ _ EM R) as (fs & X). exists fs. rewrite P, X. reflexivity.
Qed.

(** The devices meant by this: a call for [n] bytes may transfer any number of them from 1 up to [n] (and no more than
    the device has). *)
Theorem C83_any_piece d s n k : 1 <= k <= n -> pos d + k <= lenN (data d) ->
  (exists a, raw_read n (d, a :: s) = (Did (range (pos d) k (data d)), (set_pos d (pos d + k), s))) /\
  (forall bs, lenN bs = n -> exists a,
     raw_write bs (d, a :: s) =
       (Did k, (set_data d (store (pos d) (firstn (N.to_nat k) bs) (data d)) (pos d + k), s))).
Proof.
  intros K F. assert (P : N.of_nat (N.to_nat (k - 1)) + 1 = k) by lia.
  split; [|intros bs L]; exists (Piece (N.to_nat (k - 1))); unfold raw_read, raw_write; cbn [next piece_of]; rewrite P.
  - replace (N.min (N.min n k) (dev_len d - pos d)) with k by (unfold dev_len; lia). reflexivity.
  - rewrite L. replace (N.min n k) with k by lia.
    replace (N.min k (dev_len d - pos d)) with k by (unfold dev_len; lia). destruct (growable d); reflexivity.
Qed.
Theorem C83_no_more_than_asked d s n b r : raw_read n (d, s) = (Did b, r) -> lenN b <= n.
Proof.
  unfold raw_read. destruct (next s) as [[[m| |]|] s']; intros H; inversion H; subst; clear H; cbn [piece_of];
    unfold lenN, slice; rewrite firstn_length; lia.
Qed.

(** The calls of [read_bootcode], written out. *)
Definition ask {R A} (o : io R) (k : R -> prog (outcome io_err A)) : prog (outcome io_err A) :=
  Call o (fun r => match r with Ok a => k a | Err e => Done (Err e) | Panic => Done Panic end).
Definition bootcode_calls : prog (outcome io_err (list byte)) :=
  ask OPosition (fun cur => ask (OSeek 0) (fun _ => ask (ORead 440) (fun b => ask (OSeek cur) (fun _ => Done (Ok b))))).
Example C83_bootcode_calls : program_of bootcode_calls read_bootcode.
Proof.
  intros d. unfold bootcode_calls, read_bootcode, read_at_mbr, bind, ret, ask. cbn [run_steps do_io].
  destruct (stream_position d) as [[a|e|] d1]; [|reflexivity|reflexivity]. cbn [run_steps do_io].
  destruct (seek_start 0 d1) as [[b|e|] d2]; [|reflexivity|reflexivity]. cbn [run_steps do_io].
  destruct (read_exact 440 d2) as [[c|e|] d3]; [|reflexivity|reflexivity]. cbn [run_steps do_io].
  destruct (seek_start a d3) as [[x|e|] d4]; reflexivity.
Qed.
(** A device of 3072 bytes, each with the value of its number; the read is interrupted, gets 1 byte, then 300, is
    interrupted again and gets the rest.  A single [read] call would have returned 1 byte. *)
Definition counting_dev : dev := mkDev (map (fun i => byte_of_N (N.of_nat i)) (seq 0 3072)) 7 false true [] [].
Definition some_answers : list answer := [Piece 5; Piece 5; Interrupted; Piece 0; Piece 299; Interrupted].
Example C83_case : splits counting_dev some_answers /\
  run_loops bootcode_calls (counting_dev, some_answers) =
    (Ok (map (fun i => byte_of_N (N.of_nat i)) (seq 0 440)), (counting_dev, [])) /\
  match raw_read 440 (counting_dev, [Piece 0]) with (Did b, _) => lenN b = 1 | _ => False end.
Proof. split; [|vm_compute; repeat split]. split; [intros [H|[H|[H|[H|[H|[H|[]]]]]]]; discriminate|]. split; reflexivity. Qed.
(** A write of 440 bytes that fails after two pieces of 100 bytes. *)
Definition torn_answers : list answer := [Piece 9; Piece 99; Piece 99; Fails].
Example C83_torn_case :
  match run_loops (ask (OSeek 0) (fun _ => ask (OWrite (zeros 440)) (fun _ => Done (Ok tt)))) (counting_dev, torn_answers) with
  | (r, (d', s')) => r = Err IoFault /\ s' = [] /\ pos d' = 200 /\
      slice 0 202 (data d') = zeros 200 ++ [byte_of_N 200; byte_of_N 201]
  end.
Proof. vm_compute. repeat split. Qed.
(** Opening a disk and a history of calls. *)
Example C83_open_case : opening (open_from_device true mini_config).
Proof. constructor. Qed.
Example C83_calls_case : Forall on_this_device [OpRemove 1; OpWrite; OpUpdateGuid None sample_guid].
Proof. repeat constructor. Qed.

Example C83_any_piece_case : 1 <= 7 <= 440 /\ pos counting_dev + 7 <= lenN (data counting_dev) /\
  match raw_read 440 (counting_dev, [Piece 6]) with (Did b, _) => lenN b = 7 | _ => False end.
Proof. vm_compute. repeat split; discriminate. Qed.

Print Assumptions C83_any_piece.
Print Assumptions C83_no_more_than_asked.
Print Assumptions C83_programs.
Print Assumptions C83_failures.
Print Assumptions C83_device_functions.
Print Assumptions C83_opening.
Print Assumptions C83_calls.
Print Assumptions C83_write.
