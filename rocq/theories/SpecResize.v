(** SpecResize.v - words for the statements about a device that changed its size. *)
From Verif Require Export SpecSession.
Open Scope list_scope.
Open Scope N_scope.

(** The device with more bytes at the end. *)
Definition grown (ext : list byte) (d : dev) : dev :=
  mkDev (data d ++ ext) (pos d) (growable d) (eof_moves d) (faults d) (durable d).
