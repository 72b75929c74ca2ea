(** StdIo.v - the loops of std behind [Read::read_exact] and [Write::write_all], and devices that transfer less
    than asked or interrupt a call.  The rest of the model takes [read_exact] and [write_all] as single steps
    (Device.v); here they are built from single [read] and [write] calls, as in std::io (default_read_exact,
    Write::write_all), and programs are the sequences of device calls that the library makes. *)
From Verif Require Export Device.
Open Scope list_scope.
Open Scope N_scope.

(** How the device answers one call: [Piece n] transfers at most n + 1 bytes, [Interrupted] is
    ErrorKind::Interrupted, [Fails] any other error.  When the list is used up, all calls transfer everything. *)
Inductive answer : Type := Piece (n : nat) | Interrupted | Fails.
(** A device and its answers to come; the fault schedule of [dev] is not used. *)
Definition rdev : Type := dev * list answer.
Definition next (s : list answer) : option answer * list answer :=
  match s with [] => (None, []) | a :: s => (Some a, s) end.
(** At most this many of [n] bytes. *)
Definition piece_of (a : option answer) (n : N) : N :=
  match a with Some (Piece m) => N.min n (N.of_nat m + 1) | _ => n end.

(** One call: bytes, interrupted, or an error. *)
Inductive called (A : Type) : Type := Did (a : A) | Again | Failed.
Arguments Did {A}. Arguments Again {A}. Arguments Failed {A}.
(** [Read::read] of a file into a buffer of [n] bytes: fewer at the end of the file, none after it. *)
Definition raw_read (n : N) : rdev -> called (list byte) * rdev := fun '(d, s) =>
  let (a, s) := next s in
  match a with
  | Some Interrupted => (Again, (d, s))
  | Some Fails => (Failed, (d, s))
  | _ =>
      let k := N.min (piece_of a n) (dev_len d - pos d) in
      (Did (slice (pos d) k (data d)), (set_pos d (pos d + k), s))
  end.
(** [Write::write]: a device that cannot grow takes what fits. *)
Definition raw_write (bs : list byte) : rdev -> called N * rdev := fun '(d, s) =>
  let (a, s) := next s in
  match a with
  | Some Interrupted => (Again, (d, s))
  | Some Fails => (Failed, (d, s))
  | _ =>
      let k := if growable d then piece_of a (lenN bs) else N.min (piece_of a (lenN bs)) (dev_len d - pos d) in
      let part := firstn (N.to_nat k) bs in
      (Did k, (set_data d (store (pos d) part (data d)) (pos d + k), s))
  end.
(** default_read_exact: [while !buf.is_empty() { match this.read(buf) { Ok(0) => break, Ok(n) => ..,
    Err(e) if e.is_interrupted() => {}, Err(e) => return Err(e) } }], then UnexpectedEof if bytes are missing.
    [fuel] bounds the number of rounds; running out of it is a panic (it does not happen, StdIoFacts). *)
Fixpoint read_loop (fuel : nat) (n : N) (got : list byte) (r : rdev) : outcome io_err (list byte) * rdev :=
  if n =? 0 then (Ok got, r) else
  match fuel with
  | O => (Panic, r)
  | S fuel =>
      match raw_read n r with
      | (Did [], r) => (Err IoUnexpectedEof, r)
      | (Did b, r) => read_loop fuel (n - lenN b) (got ++ b) r
      | (Again, r) => read_loop fuel n got r
      | (Failed, r) => (Err IoFault, r)
      end
  end.
(** Write::write_all: [while !buf.is_empty() { match self.write(buf) { Ok(0) => return Err(WriteZero),
    Ok(n) => buf = &buf[n..], Err(ref e) if e.is_interrupted() => {}, Err(e) => return Err(e) } }]. *)
Fixpoint write_loop (fuel : nat) (bs : list byte) (r : rdev) : outcome io_err unit * rdev :=
  match bs with
  | [] => (Ok tt, r)
  | _ =>
      match fuel with
      | O => (Panic, r)
      | S fuel =>
          match raw_write bs r with
          | (Did 0, r) => (Err IoWriteZero, r)
          | (Did k, r) => write_loop fuel (skipn (N.to_nat k) bs) r
          | (Again, r) => write_loop fuel bs r
          | (Failed, r) => (Err IoFault, r)
          end
      end
  end.
(** Calls that transfer nothing: an answer is used up, only [Fails] matters (seeking is not interrupted). *)
Definition raw_call {A} (f : dev -> A * dev) : rdev -> outcome io_err A * rdev := fun '(d, s) =>
  match next s with
  | (Some Fails, s) => (Err IoFault, (d, s))
  | (_, s) => let (a, d) := f d in (Ok a, (d, s))
  end.

(** The calls the library makes on a device. *)
Inductive io : Type -> Type :=
| OSeek (n : N) : io N
| OSeekEnd : io N
| OPosition : io N
| ORead (n : N) : io (list byte)
| OWrite (bs : list byte) : io unit
| OFlush : io unit
| OSync : io unit.
(** As single steps (Device.v) ... *)
Definition do_io {R} (o : io R) : M dev io_err R :=
  match o in io R return M dev io_err R with
  | OSeek n => seek_start n
  | OSeekEnd => seek_end
  | OPosition => stream_position
  | ORead n => read_exact n
  | OWrite bs => write_all bs
  | OFlush => flush
  | OSync => sync_all
  end.
(** ... and by the loops. *)
Definition do_raw {R} (o : io R) : rdev -> outcome io_err R * rdev :=
  match o in io R return rdev -> outcome io_err R * rdev with
  | OSeek n => raw_call (fun d => (n, set_pos d n))
  | OSeekEnd => raw_call (fun d => (dev_len d, set_pos d (dev_len d)))
  | OPosition => raw_call (fun d => (pos d, d))
  | ORead n => fun r => read_loop (length (snd r) + 2) n [] r
  | OWrite bs => fun r => write_loop (length (snd r) + 2) bs r
  | OFlush => raw_call (fun d => (tt, d))
  | OSync => raw_call (fun d => (tt, mkDev (data d) (pos d) (growable d) (eof_moves d) (faults d) (data d)))
  end.
(** A program: calls on the device, each chosen from the results of the earlier ones. *)
Inductive prog (A : Type) : Type :=
| Done (a : A)
| Call {R : Type} (o : io R) (k : outcome io_err R -> prog A).
Arguments Done {A}. Arguments Call {A R}.
Fixpoint run_steps {A} (p : prog A) (d : dev) : A * dev :=
  match p with
  | Done a => (a, d)
  | Call o k => let (r, d) := do_io o d in run_steps (k r) d
  end.
Fixpoint run_loops {A} (p : prog A) (r : rdev) : A * rdev :=
  match p with
  | Done a => (a, r)
  | Call o k => let (x, r) := do_raw o r in run_loops (k x) r
  end.
