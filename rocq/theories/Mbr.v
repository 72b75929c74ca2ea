(** Mbr.v - src/mbr.rs. *)
From Verif Require Export Lb.
Open Scope N_scope.

(** [MBRError] (src/mbr.rs:12-27). *)
Inductive mbr_err : Type :=
| MIo (e : io_err)
| MInvalidMBRLength
| MInvalidMBRSignature
| MInvalidPartitionLength
| MOverflow (m : string).

(** [MBR_SIGNATURE] (src/mbr.rs:51). *)
Definition MBR_SIGNATURE : list byte := [x55; xaa].

(** [PartRecord] (src/mbr.rs:265-288). *)
Record part_record := mkRec {
  boot_indicator : byte;
  start_head : byte;
  start_sector : byte;
  start_track : byte;
  os_type : byte;
  end_head : byte;
  end_sector : byte;
  end_track : byte;
  lb_start : N;  (* u32 *)
  lb_size : N    (* u32 *)
}.

(** [PartRecord::new_protective] (src/mbr.rs:291-306). *)
Definition new_protective (size : option N) : part_record :=
  mkRec x00 x00 x02 x00 xee xff xff xff 1 (match size with Some s => s | None => 0xFFFFFFFF end).
(** [PartRecord::zero] (src/mbr.rs:308-322). *)
Definition rec_zero : part_record := mkRec x00 x00 x00 x00 x00 x00 x00 x00 0 0.

(** [ProtectiveMBR] (src/mbr.rs:53-60).  The array [partitions: [PartRecord; 4]] is a list. *)
Record mbr := mkMbr {
  bootcode : list byte;        (* [u8; 440] *)
  disk_signature : list byte;  (* [u8; 4] *)
  unknown : N;                 (* u16 *)
  partitions_mbr : list part_record;
  mbr_sig : list byte          (* [u8; 2] *)
}.

(** [ProtectiveMBR::default]/[new] (src/mbr.rs:68-89) and [with_lb_size] (94-107). *)
Definition mbr_new : mbr :=
  mkMbr (zeros 440) (zeros 4) 0 [new_protective None; rec_zero; rec_zero; rec_zero] MBR_SIGNATURE.
Definition mbr_with_lb_size (n : N) : mbr :=
  mkMbr (zeros 440) (zeros 4) 0 [new_protective (Some n); rec_zero; rec_zero; rec_zero] MBR_SIGNATURE.

(** [PartRecord::from_bytes] (src/mbr.rs:324-346). *)
Definition rd_u8 {E} : M (list byte) E byte := fun r =>
  match r with b :: r' => (Ok b, r') | [] => (Panic, r) end.
Definition rec_from_bytes (buf : list byte) : outcome mbr_err part_record :=
  if negb (length buf =? 16)%nat then Err MInvalidPartitionLength else
  fst ((let* bi := rd_u8 in
        let* sh := rd_u8 in
        let* ss := rd_u8 in
        let* st := rd_u8 in
        let* ty := rd_u8 in
        let* eh := rd_u8 in
        let* es := rd_u8 in
        let* et := rd_u8 in
        let* s := rd_le 4 in
        let* n := rd_le 4 in
        ret (mkRec bi sh ss st ty eh es et s n)) buf).

(** [PartRecord::to_bytes] (src/mbr.rs:348-368). *)
Definition rec_to_bytes (r : part_record) : list byte :=
  [boot_indicator r; start_head r; start_sector r; start_track r;
   os_type r; end_head r; end_sector r; end_track r]
  ++ le_bytes 4 (lb_start r) ++ le_bytes 4 (lb_size r).

(** [ProtectiveMBR::from_bytes] (src/mbr.rs:109-136).  The assertion that the cursor is at 510
    after the records is checked. *)
Fixpoint rd_records (n : nat) : M (list byte) mbr_err (list part_record) :=
  match n with
  | O => ret []
  | S n' =>
      let* b := rd_bytes 16 in
      let* r := lift (rec_from_bytes b) in
      let* rs := rd_records n' in
      ret (r :: rs)
  end.
Definition mbr_from_bytes (buf : list byte) (lb : lbsize) : outcome mbr_err mbr :=
  if negb (lenN buf =? lb_u64 lb) then Err MInvalidMBRLength else
  fst ((let* bc := rd_bytes 440 in
        let* ds := rd_bytes 4 in
        let* un := rd_le 2 in
        let* ps := rd_records 4 in
        fun rest =>
          (if negb (lenN buf - lenN rest =? 510) then panic else
           let* sg := rd_bytes 2 in
           if bytes_eqb sg MBR_SIGNATURE then ret (mkMbr bc ds un ps sg)
           else throw MInvalidMBRSignature) rest) buf).

(** [ProtectiveMBR::to_bytes] (src/mbr.rs:154-171): sequential writes into a 512-byte array. *)
Fixpoint wr_records {E} (l : list part_record) : M warr E unit :=
  match l with
  | [] => ret tt
  | r :: l' => wr_bytes (rec_to_bytes r) ;; wr_records l'
  end.
Definition mbr_writer {E} (m : mbr) : M warr E unit :=
  wr_bytes (bootcode m) ;;
  wr_bytes (disk_signature m) ;;
  wr_le 2 (unknown m) ;;
  wr_records (partitions_mbr m) ;;
  wr_bytes (mbr_sig m).
Definition mbr_to_bytes {E} (m : mbr) : outcome E (list byte) :=
  match mbr_writer m (mkWarr (zeros 512) 0) with
  | (Ok _, w) => Ok (arr w)
  | (Err e, _) => Err e
  | (Panic, _) => Panic
  end.

(** [ProtectiveMBR::from_disk] (src/mbr.rs:138-152).  A failed read returns before the position
    is restored. *)
Definition mbr_from_disk (lb : lbsize) : M dev mbr_err mbr :=
  let* cur := map_err MIo stream_position in
  map_err MIo (seek_start 0) ;;
  let* buf := map_err MIo (read_exact (lb_u64 lb)) in
  match mbr_from_bytes buf lb with
  | Panic => panic
  | r => map_err MIo (seek_start cur) ;; lift r
  end.

(** Accessors (src/mbr.rs:173-228). *)
Definition set_bootcode (m : mbr) (b : list byte) : mbr :=
  mkMbr b (disk_signature m) (unknown m) (partitions_mbr m) (mbr_sig m).
Definition set_disk_signature (m : mbr) (s : list byte) : mbr :=
  mkMbr (bootcode m) s (unknown m) (partitions_mbr m) (mbr_sig m).
Definition mbr_partition (m : mbr) (i : N) : option part_record :=
  if lenN (partitions_mbr m) <=? i then None else nth_error (partitions_mbr m) (N.to_nat i).
Fixpoint list_set {A} (i : nat) (x : A) (l : list A) : list A :=
  match l, i with
  | [], _ => []
  | _ :: r, O => x :: r
  | y :: r, S i' => y :: list_set i' x r
  end.
Definition mbr_set_partition (m : mbr) (i : N) (r : part_record) : option part_record * mbr :=
  if lenN (partitions_mbr m) <=? i then (None, m)
  else (nth_error (partitions_mbr m) (N.to_nat i),
        mkMbr (bootcode m) (disk_signature m) (unknown m)
          (list_set (N.to_nat i) r (partitions_mbr m)) (mbr_sig m)).

(** [overwrite_lba0] (src/mbr.rs:230-242). *)
Definition overwrite_lba0 (m : mbr) : M dev mbr_err N :=
  let* cur := map_err MIo stream_position in
  map_err MIo (seek_start 0) ;;
  let* bytes := lift (mbr_to_bytes m) in
  map_err MIo (write_all bytes) ;;
  map_err MIo flush ;;
  map_err MIo (seek_start cur) ;;
  ret (lenN bytes).

(** [update_conservative] (src/mbr.rs:244-262). *)
Fixpoint dev_write_records (l : list part_record) : M dev io_err unit :=
  match l with
  | [] => ret tt
  | r :: l' => write_all (rec_to_bytes r) ;; dev_write_records l'
  end.
Definition update_conservative (m : mbr) : M dev mbr_err N :=
  let* cur := map_err MIo stream_position in
  map_err MIo (seek_start 446) ;;
  map_err MIo (dev_write_records (partitions_mbr m)) ;;
  map_err MIo (write_all (mbr_sig m)) ;;
  map_err MIo flush ;;
  map_err MIo (seek_start cur) ;;
  ret (16 * 4 + 2).

(** [read_bootcode], [write_bootcode], [read_disk_signature], [write_disk_signature]
    (src/mbr.rs:371-417). *)
Definition read_at_mbr (off n : N) : M dev io_err (list byte) :=
  let* cur := stream_position in
  seek_start off ;;
  let* b := read_exact n in
  seek_start cur ;;
  ret b.
Definition write_at_mbr (off : N) (bs : list byte) : M dev io_err unit :=
  let* cur := stream_position in
  seek_start off ;;
  write_all bs ;;
  flush ;;
  seek_start cur ;;
  ret tt.
Definition read_bootcode : M dev io_err (list byte) := read_at_mbr 0 440.
Definition write_bootcode (b : list byte) : M dev io_err unit := write_at_mbr 0 b.
Definition read_disk_signature : M dev io_err (list byte) := read_at_mbr 440 4.
Definition write_disk_signature (s : list byte) : M dev io_err unit := write_at_mbr 440 s.
