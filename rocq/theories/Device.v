(** Device.v - the [DiskDevice] contract (src/lib.rs:90-95: [Read + Write + Seek]) as a byte
    array with a cursor, together with an arbitrary schedule of I/O faults.

    One element of [faults] is consumed by each device operation: [None] lets it proceed,
    [Some m] makes it fail after at most [m] bytes were transferred.  An exhausted schedule
    means no further faults.  A crash (or torn write) at any byte of any write is the state
    left by the schedule that faults there, because the code propagates write errors. *)
From Verif Require Export Base.

(** [std::io::Error], reduced to what the code or the device can produce. *)
From Coq.Strings Require Export String.
Export List.
Inductive io_err : Type :=
| IoUnexpectedEof          (* read_exact hit the end *)
| IoWriteZero              (* write past the end of a fixed-size device *)
| IoFault                  (* injected device fault *)
| IoOther (msg : string).  (* ErrorKind::Other built by the crate *)

Record dev := mkDev {
  data : list byte;             (* contents as later reads see them *)
  pos : N;                      (* stream position *)
  growable : bool;              (* Cursor<Vec<u8>>, regular files: writes extend; false: block device, slice *)
  eof_moves : bool;             (* whether a failed read_exact moves the position to the end *)
  faults : list (option nat);   (* see above *)
  durable : list byte           (* contents that survive power loss: updated by sync_all only *)
}.

Definition set_pos (d : dev) (p : N) : dev :=
  mkDev (data d) p (growable d) (eof_moves d) (faults d) (durable d).
Definition set_data (d : dev) (l : list byte) (p : N) : dev :=
  mkDev l p (growable d) (eof_moves d) (faults d) (durable d).

Definition dev_len (d : dev) : N := lenN (data d).

Definition tick (d : dev) : option nat * dev :=
  match faults d with
  | [] => (None, d)
  | f :: r => (f, mkDev (data d) (pos d) (growable d) (eof_moves d) r (durable d))
  end.

(** [device.seek(SeekFrom::Start(n))] *)
Definition seek_start (n : N) : M dev io_err N := fun d =>
  match tick d with
  | (Some _, d') => (Err IoFault, d')
  | (None, d') => (Ok n, set_pos d' n)
  end.

(** [device.seek(SeekFrom::End(0))] *)
Definition seek_end : M dev io_err N := fun d =>
  match tick d with
  | (Some _, d') => (Err IoFault, d')
  | (None, d') => (Ok (dev_len d'), set_pos d' (dev_len d'))
  end.

(** [device.stream_position()] *)
Definition stream_position : M dev io_err N := fun d =>
  match tick d with
  | (Some _, d') => (Err IoFault, d')
  | (None, d') => (Ok (pos d'), d')
  end.

Definition slice (off n : N) (l : list byte) : list byte :=
  firstn (N.to_nat n) (skipn (N.to_nat off) l).

(** [device.read_exact(&mut [u8; n])].  Reading zero bytes does nothing.  After a fault the
    position may have advanced by any amount ([m]); at the end of the device it either stays
    or moves to the end, depending on the device ([eof_moves]). *)
Definition read_exact (n : N) : M dev io_err (list byte) := fun d =>
  if n =? 0 then (Ok [], d) else
  match tick d with
  | (Some m, d') => (Err IoFault, set_pos d' (pos d' + N.of_nat m))
  | (None, d') =>
      if pos d' + n <=? dev_len d'
      then (Ok (slice (pos d') n (data d')), set_pos d' (pos d' + n))
      else (Err IoUnexpectedEof,
            if eof_moves d' && (pos d' <=? dev_len d') then set_pos d' (dev_len d') else d')
  end.

(** Contents after storing [bs] at [off]; a gap between the end and [off] is zero-filled. *)
Definition store (off : N) (bs l : list byte) : list byte :=
  match bs with
  | [] => l
  | _ =>
      let l' := (l ++ zeros (N.to_nat off - length l))%list in
      (firstn (N.to_nat off) l' ++ bs ++ skipn (N.to_nat off + length bs) l')%list
  end.

(** [device.write_all(bs)].  Writing zero bytes does nothing.  A fixed-size device stores the
    part that fits and then fails with WriteZero (a block device: ENOSPC). *)
Definition write_all (bs : list byte) : M dev io_err unit := fun d =>
  match bs with
  | [] => (Ok tt, d)
  | _ =>
      match tick d with
      | (Some m, d') =>
          let fits := if growable d' then bs
                      else firstn (N.to_nat (dev_len d' - pos d')) bs in
          let part := firstn m fits in
          (Err IoFault, set_data d' (store (pos d') part (data d')) (pos d' + lenN part))
      | (None, d') =>
          if growable d' || (pos d' + lenN bs <=? dev_len d')
          then (Ok tt, set_data d' (store (pos d') bs (data d')) (pos d' + lenN bs))
          else let part := firstn (N.to_nat (dev_len d' - pos d')) bs in
               (Err IoWriteZero, set_data d' (store (pos d') part (data d')) (pos d' + lenN part))
      end
  end.

(** [device.flush()]: pushes user-space buffers; it makes nothing durable by itself. *)
Definition flush : M dev io_err unit := fun d =>
  match tick d with
  | (Some _, d') => (Err IoFault, d')
  | (None, d') => (Ok tt, d')
  end.

(** [File::sync_all] (src/lib.rs:979-981). *)
Definition sync_all : M dev io_err unit := fun d =>
  match tick d with
  | (Some _, d') => (Err IoFault, d')
  | (None, d') =>
      (Ok tt, mkDev (data d') (pos d') (growable d') (eof_moves d') (faults d') (data d'))
  end.
