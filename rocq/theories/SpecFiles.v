(** SpecFiles.v - vocabulary of C93: files. *)
From Verif Require Export Files.
Open Scope list_scope.
Open Scope N_scope.

(** The process may read the file at [p], and write it if [w]. *)
Definition permitted (w : bool) (p : path) (fs : files) : Prop :=
  exists f, fs p = Some f /\ f_readable f = true /\ (w = true -> f_writable f = true).
Definition refused {E A} (r : outcome (path_err E) A * files) : Prop := exists why, fst r = Err (CannotOpen why).
(** [r] is an attempt to open the file at [p], for writing if [w]: it is refused exactly if it is not permitted, and then
    nothing happens to the files. *)
Definition needs {E A} (w : bool) (p : path) (fs : files) (r : outcome (path_err E) A * files) : Prop :=
  (refused r <-> ~ permitted w p fs) /\ (refused r -> snd r = fs).
Definition same_files (fs fs' : files) : Prop := forall q, fs' q = fs q.
(** No file comes or goes, none changes its kind or permissions, and only the one at [p] changes its contents. *)
Definition only_contents_of (p : path) (fs fs' : files) : Prop :=
  forall q, match fs q with
            | None => fs' q = None
            | Some f => exists f', fs' q = Some f' /\ f_grows f' = f_grows f /\ f_readable f' = f_readable f /\
                f_writable f' = f_writable f /\ (q <> p -> f' = f)
            end.
(** What is known to be on the medium is what it was. *)
Definition nothing_synced (fs fs' : files) : Prop :=
  forall q f f', fs q = Some f -> fs' q = Some f' -> f_durable f' = f_durable f.
Definition no_write (c : call) : Prop := match c with Do OpWrite | Do (OpUpdateDevice _ _) => False | _ => True end.
(** A disk got from a path, and the files then. *)
Definition got (oc : bool) (cfg : config) (rnd : uuid) (k : conduct) (p : path) (fs : files) (g : gdisk) (fs' : files) : Prop :=
  config_open oc cfg k p fs = (Ok g, fs') \/ config_create oc cfg rnd k p fs = (Ok g, fs').
(** After a power cut a file holds what was known to be on the medium. *)
Definition power_cut (fs : files) : files := fun q =>
  option_map (fun f => mkFile (f_durable f) (f_durable f) (f_grows f) (f_readable f) (f_writable f)) (fs q).
