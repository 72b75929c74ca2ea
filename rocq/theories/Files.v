(** Files.v - the functions that take a path.  The rest of the model starts from the opened file. *)
From Verif Require Export SpecClone.
From Coq Require Export String.
Open Scope list_scope.
Open Scope N_scope.

(** A file as far as this crate is concerned: contents, what of them is known to be on the medium, whether writing
    beyond the end makes it longer (a regular file) or fails (a block device), and what the process may do with it.
    Links are left out: different paths are different files. *)
Record file := mkFile { f_data : list byte; f_durable : list byte; f_grows : bool; f_readable : bool; f_writable : bool }.
Definition path := string.
Definition files := path -> option file.
(** Why [OpenOptions::open] fails; the library passes the [io::Error] on as it is. *)
Inductive open_err : Type := NotFound | PermissionDenied.
(** Errors of the functions below: in the code both are values of one type, with the first as its variant [Io]. *)
Inductive path_err (E : Type) : Type := CannotOpen (why : open_err) | Failed (e : E).
Arguments CannotOpen {E} why. Arguments Failed {E} e.

(** How the opened file behaves: whether a read that fails moves the position, and which operations fail. *)
Record conduct := mkConduct { k_eof_moves : bool; k_faults : list (option nat) }.
(** [OpenOptions::new().write(w).read(true).open(p)] and [File::open(p)] (w = false).  Neither creates or truncates. *)
Definition open_file (w : bool) (k : conduct) (p : path) (fs : files) : outcome open_err dev :=
  match fs p with
  | None => Err NotFound
  | Some f => if f_readable f && (negb w || f_writable f)
              then Ok (mkDev (f_data f) 0 (f_grows f) (k_eof_moves k) (k_faults k) (f_durable f))
              else Err PermissionDenied
  end.
(** The files when the device opened on [p] has become [d]. *)
Definition put_back (p : path) (d : dev) (fs : files) : files := fun q =>
  if String.eqb q p
  then match fs p with
       | Some f => Some (mkFile (data d) (durable d) (f_grows f) (f_readable f) (f_writable f))
       | None => None
       end
  else fs q.
Definition on_file {E A} (w : bool) (k : conduct) (p : path) (m : M dev E A) (fs : files) : outcome (path_err E) A * files :=
  match open_file w k p fs with
  | Ok d => let (r, d') := m d in (omap_err Failed r, put_back p d' fs)
  | Err e => (Err (CannotOpen e), fs)
  | Panic => (Panic, fs)
  end.

(** [GptConfig::open] (src/lib.rs:239-250), [GptConfig::create] (252-265), [disk::read_disk] (src/disk.rs:79-82). *)
Definition config_open (oc : bool) (cfg : config) (k : conduct) (p : path) : files -> outcome (path_err gpt_err) gdisk * files :=
  on_file (c_writable cfg) k p (open_path oc cfg).
Definition config_create (oc : bool) (cfg : config) (rnd : uuid) (k : conduct) (p : path) : files -> outcome (path_err gpt_err) gdisk * files :=
  on_file (c_writable cfg) k p (create_path oc cfg rnd).
Definition read_disk (oc : bool) (k : conduct) (p : path) : files -> outcome (path_err gpt_err) gdisk * files :=
  config_open oc config_default k p.
(** [header::read_header] (src/header/mod.rs:280-286), [header::write_header] (447-468). *)
Definition header_read (lb : lbsize) (k : conduct) (p : path) : files -> outcome (path_err hdr_err) header * files :=
  on_file false k p (read_primary_header lb).
Definition header_write (oc : bool) (u : option uuid) (rnd : uuid) (lb : lbsize) (k : conduct) (p : path)
  : files -> outcome (path_err hdr_err) uuid * files := on_file true k p (write_header oc u rnd lb).
(** [Partition::write] (src/partition.rs:98-109), [partition::read_partitions] (234-242). *)
Definition partition_write_path (oc : bool) (x : partition) (i start : N) (lb : lbsize) (k : conduct) (p : path)
  : files -> outcome (path_err io_err) unit * files := on_file true k p (partition_write oc x i start lb).
Definition partitions_read (oc : bool) (h : header) (lb : lbsize) (k : conduct) (p : path)
  : files -> outcome (path_err io_err) pmap * files := on_file false k p (file_read_partitions oc h lb).
(** The files while a disk opened on [p] is in use, and after it has been dropped: what its device shows is in the file. *)
Definition during (p : path) (g : gdisk) (fs : files) : files := put_back p (g_device g) fs.
