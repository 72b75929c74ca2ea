(** SpecMoody.v - devices that choose which calls to refuse: bad blocks, full file systems, limited offsets. *)
From Verif Require Export SpecPieces SpecFault SpecSession.
Open Scope list_scope.
Open Scope N_scope.

(** How a device chooses: seeing the call, its own contents and position, and whatever else it remembers ([S]), it
    carries the call out ([None]) or lets it fail, a read or write after at most so many bytes ([Some m]). *)
Definition mood (S : Type) : Type := forall R, io R -> dev -> S -> option nat * S.
(** One call on such a device.  The call itself is that of Device.v, once without faults and once with one. *)
Definition do_moody {S R} (P : mood S) (o : io R) (d : dev) (s : S) : outcome io_err R * dev * S :=
  let (a, s') := P R o d s in
  let (r, d') := do_io o (match a with None => repaired d | Some m => with_faults [Some m] d end) in
  (r, repaired d', s').
(** A program of calls on it. *)
Fixpoint run_moody {S A} (P : mood S) (p : prog A) (d : dev) (s : S) : A * dev * S :=
  match p with
  | Done a => (a, repaired d, s)
  | Call o k => let '(r, d', s') := do_moody P o d s in run_moody P (k r) d' s'
  end.

(** A file with offsets below [lim]: File::seek refuses any other (2^63 where offsets are signed numbers of 64 bits), and
    a write stops there. *)
Definition offsets_below (lim : N) : mood unit := fun R o d s =>
  (match o with
   | OSeek n => if n <? lim then None else Some O
   | OWrite bs => if pos d + lenN bs <=? lim then None else Some (N.to_nat (lim - pos d))
   | _ => None
   end, s).
(** A disk on which the bytes from [a] up to [b] cannot be read or written. *)
Definition bad_bytes (a b : N) : mood unit := fun R o d s =>
  (match o with
   | ORead n => if (pos d <? b) && (a <? pos d + n) then Some (N.to_nat (a - pos d)) else None
   | OWrite bs => if (pos d <? b) && (a <? pos d + lenN bs) then Some (N.to_nat (a - pos d)) else None
   | _ => None
   end, s).
(** A disk that takes only so many writes. *)
Definition worn_out : mood nat := fun R o d s =>
  match o with
  | OWrite _ => match s with O => (Some O, O) | Datatypes.S s => (None, s) end
  | _ => (None, s)
  end.
