(** SpecCalls.v - opening, as the sequence of calls it makes on the device. *)
From Verif Require Export SpecMoody StdProgFacts.
Open Scope list_scope.
Open Scope N_scope.

(** One call; going on after success; changing the error; going on after failure too. *)
Definition call_p {R} (o : io R) : prog (outcome io_err R) := Call o Done.
Definition next_p {E A B} (p : prog (outcome E A)) (k : A -> prog (outcome E B)) : prog (outcome E B) :=
  pbind p (fun r => match r with Ok a => k a | Err e => Done (Err e) | Panic => Done Panic end).
Definition err_p {E F A} (f : E -> F) (p : prog (outcome E A)) : prog (outcome F A) := pbind p (fun r => Done (omap_err f r)).
Definition try_p {E F A} (p : prog (outcome E A)) : prog (outcome F (outcome E A)) :=
  pbind p (fun r => Done (match r with Panic => Panic | _ => Ok r end)).
Notation "'do' x <- p ; q" := (next_p p (fun x => q)) (at level 61, x name, p at next level, right associativity).

(** The calls of [file_read_header], [read_primary_header], [read_backup_header] (src/header/mod.rs:296-401). *)
Definition header_calls (off : N) : prog (outcome hdr_err header) :=
  do _ <- try_p (call_p (OSeek off)); do bytes <- err_p HIo (call_p (ORead 92)); Done (parse_header bytes).
Definition position_calls : prog (outcome hdr_err N) :=
  do r <- try_p (call_p OPosition); Done (Ok (match r with Ok p => p | _ => 0 end)).
Definition primary_calls (lb : lbsize) : prog (outcome hdr_err header) :=
  do cur <- position_calls; do res <- try_p (header_calls (lb_u64 lb)); do _ <- try_p (call_p (OSeek cur)); Done res.
Definition find_backup_calls (lb : lbsize) : prog (outcome hdr_err N) :=
  do old <- err_p HIo (call_p OPosition); do len <- err_p HIo (call_p OSeekEnd); do _ <- err_p HIo (call_p (OSeek old));
  if len <? lb_u64 lb * 3 then Done (Err HToSmallForBackup) else Done (Ok ((len - lb_u64 lb) / lb_u64 lb)).
Definition backup_calls (lb : lbsize) : prog (outcome hdr_err header) :=
  do cur <- position_calls; do sect <- find_backup_calls lb;
  do off <- Done (ok_or (checked_mul64 sect (lb_u64 lb)) (HOverflow "backup header overflow - offset"));
  do res <- try_p (header_calls off); do _ <- try_p (call_p (OSeek cur)); Done res.
(** [file_read_partitions] (src/partition.rs:246-319). *)
Fixpoint entries_calls (oc : bool) (left : nat) (i empty : N) (parts : pmap) : prog (outcome io_err pmap) :=
  match left with
  | O => Done (Ok parts)
  | S left' =>
      do bytes <- call_p (ORead 128);
      if bytes_eqb bytes (zeros 128) then do e <- Done (addw oc 31 empty 1); entries_calls oc left' (i + 1) e parts
      else do p <- Done (fst (parse_entry bytes)); entries_calls oc left' (i + 1) empty (pm_insert (i + 1) p parts)
  end.
Definition table_calls (oc : bool) (h : header) (lb : lbsize) : prog (outcome io_err pmap) :=
  do start <- Done (ok_or (checked_mul64 (part_start h) (lb_u64 lb)) (IoOther "partition overflow - start offset"));
  do _ <- call_p (OSeek start);
  if negb (part_size h =? 128) then Done Panic else
  do parts <- entries_calls oc (N.to_nat (num_parts h)) 0 0 [];
  do _ <- call_p (OSeek start);
  do len <- Done (ok_or (checked_mul64 (num_parts h) (part_size h)) (IoOther "partitions - size"));
  do table <- call_p (ORead len);
  if crc32 table =? crc32_parts h then Done (Ok parts) else Done (Err (IoOther "partition table CRC mismatch")).
(** [open_from_device] (src/lib.rs:267-299); the device is put into the disk at the end ([holding]). *)
Definition open_calls (oc : bool) (cfg : config) : prog (outcome gpt_err gdisk) :=
  do h1 <- try_p (primary_calls (c_lb cfg)); do h2 <- try_p (backup_calls (c_lb cfg));
  do hh <- (if c_only_valid_headers cfg then
              do a <- Done (omap_err GHeader h1); do b <- Done (omap_err GHeader h2); Done (Ok (Ok a, Ok b))
            else match h1, h2 with Err e, Err _ => Done (Err (GHeader e)) | _, _ => Done (Ok (h1, h2)) end);
  let (h1, h2) := hh : outcome hdr_err header * outcome hdr_err header in
  do h <- (match or_else h1 h2 with Ok h => Done (Ok h) | _ => Done Panic end);
  do table <- err_p GIo (table_calls oc h (c_lb cfg));
  Done (Ok (mkGdisk cfg (mkDev [] 0 false false [] []) (disk_guid h) h1 h2 table false)).
