(** Lb.v - [LogicalBlockSize] (src/disk.rs:9-60). *)
From Verif Require Export Device.

Inductive lbsize : Type := Lb512 | Lb4096.

(** [DEFAULT_SECTOR_SIZE] (src/disk.rs:7). *)
Definition default_sector_size : lbsize := Lb512.

(** [as_u64], [as_usize], [From<LogicalBlockSize> for u64/usize] (src/disk.rs:18-46). *)
Definition lb_u64 (l : lbsize) : N := match l with Lb512 => 512 | Lb4096 => 4096 end.

(** [TryFrom<u64>] (src/disk.rs:48-60). *)
Definition lb_try_from (v : N) : outcome io_err lbsize :=
  if v =? 512 then Ok Lb512
  else if v =? 4096 then Ok Lb4096
  else Err (IoOther "unsupported logical block size (must be 512 or 4096)").
