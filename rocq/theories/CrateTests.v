(** CrateTests.v - the crate's own tests, run through the model (both builds): each test is a function giving
    true if all its assertions hold.  A check of the model, not of the code: a model that strayed from the code
    far enough to fail one of the 26 tests or the examples in the documentation would not compile.  The long runs are stated as
    [Check (eq_refl <: test = true)], a conversion done by coqc alone that leaves nothing in the compiled
    file; the last line of the file makes sure such a check can fail. *)
From Verif Require Import Base Device Uuid PartTypes Lb Header Partition Mbr Disk Fixture.
From Coq Require Import String.
Import ListNotations.
Open Scope string_scope.
Open Scope list_scope.
Open Scope N_scope.

Definition os_label_eq_dec (a b : os_label) : {a = b} + {a <> b}.
Proof. repeat decide equality. Defined.
Definition text (s : string) : list N := map Ascii.N_of_ascii (list_ascii_of_string s).
Definition is_ok {E A} (r : outcome E A) : bool := match r with Ok _ => true | _ => false end.
Definition is_err {E A} (r : outcome E A) : bool := match r with Err _ => true | _ => false end.
Definition ok_is {E A} (f : A -> bool) (r : outcome E A) : bool := match r with Ok a => f a | _ => false end.
Definition header_eqb (a b : header) : bool :=
  bytes_eqb (signature a) (signature b) && (rev_major a =? rev_major b) && (rev_minor a =? rev_minor b) &&
  (header_size_le a =? header_size_le b) && (crc32_hdr a =? crc32_hdr b) && (reserved a =? reserved b) &&
  (current_lba a =? current_lba b) && (backup_lba a =? backup_lba b) && (first_usable a =? first_usable b) &&
  (last_usable a =? last_usable b) && bytes_eqb (disk_guid a) (disk_guid b) && (part_start a =? part_start b) &&
  (num_parts a =? num_parts b) && (part_size a =? part_size b) && (crc32_parts a =? crc32_parts b).
Fixpoint names_eqb (a b : list N) : bool :=
  match a, b with [], [] => true | x :: a, y :: b => (x =? y) && names_eqb a b | _, _ => false end.
Definition os_same (a b : os_label) : bool := if os_label_eq_dec a b then true else false.
Definition type_eqb (a b : ptype) : bool := bytes_eqb (guid a) (guid b) && os_same (os a) (os b).
Definition part_eqb (p q : partition) : bool :=
  type_eqb (part_type p) (part_type q) && bytes_eqb (part_guid p) (part_guid q) && (first_lba p =? first_lba q) &&
  (last_lba p =? last_lba q) && (flags p =? flags q) && names_eqb (name p) (name q).
Fixpoint parts_eqb (a b : pmap) : bool :=
  match a, b with
  | [], [] => true
  | (i, p) :: a, (j, q) :: b => (i =? j) && part_eqb p q && parts_eqb a b
  | _, _ => false
  end.
(** [Cursor<Vec<u8>>]: writing past the end lets it grow. *)
Definition fill (b : byte) (n : N) : list byte := repeat b (N.to_nat n).
Definition cursor (l : list byte) : dev := mkDev l 0 true true [] [].
Definition rnd : uuid := lit_uuid "01234567-89AB-4CDE-8F01-23456789ABCD".
Definition at_bytes (off n : N) (d : dev) : list byte := slice off n (data d).

(** * src/partition.rs *)
Definition test_zero_part : bool :=
  bytes_eqb (as_bytes partition_zero 128) (fill x00 128) && bytes_eqb (as_bytes partition_zero 256) (fill x00 256).
Definition with_lbas (a b : N) : partition := mkPart UNUSED uuid_nil a b 0 [].
Definition u64_max : N := 2 ^ 64 - 1.
Definition test_part_len : bool :=
  ok_is (N.eqb 1) (sectors_len partition_zero) && ok_is (N.eqb 512) (bytes_len partition_zero Lb512) &&
  ok_is (N.eqb 4096) (bytes_len partition_zero Lb4096) &&
  is_err (sectors_len (with_lbas 1 0)) && is_err (bytes_len (with_lbas 1 0) Lb512) && is_err (bytes_len (with_lbas 1 0) Lb4096) &&
  is_err (sectors_len (with_lbas 0 u64_max)) && is_err (bytes_len (with_lbas 0 u64_max) Lb512) &&
  is_err (bytes_len (with_lbas 0 u64_max) Lb4096) &&
  ok_is (N.eqb 2) (sectors_len (with_lbas 2 3)) && ok_is (N.eqb 1024) (bytes_len (with_lbas 2 3) Lb512) &&
  ok_is (N.eqb 8192) (bytes_len (with_lbas 2 3) Lb4096).
Definition test_part_bytes_start : bool :=
  ok_is (N.eqb 0) (bytes_start partition_zero Lb512) && ok_is (N.eqb 0) (bytes_start partition_zero Lb4096) &&
  is_err (bytes_len (with_lbas u64_max 0) Lb512) && is_err (bytes_len (with_lbas u64_max 0) Lb4096) &&
  ok_is (N.eqb 1024) (bytes_start (with_lbas 2 0) Lb512) && ok_is (N.eqb 8192) (bytes_start (with_lbas 2 0) Lb4096).
Example partition_tests : test_zero_part && test_part_len && test_part_bytes_start = true.
Proof. vm_compute. reflexivity. Qed.

(** * src/partition_types.rs *)
Definition named (s : string) : ptype :=
  match find (fun e => String.eqb (fst (fst e)) s) type_table with Some e => entry_type e | None => UNUSED end.
Definition test_partition_type_fromstr : bool :=
  ok_is (type_eqb (named "LINUX_HOME")) (type_from_str "933AC7E1-2EB4-4F13-B844-0E14E2AEF915") &&
  ok_is (type_eqb (named "ANDROID_BOOTLOADER2")) (type_from_str "114EAFFE-1552-4022-B26E-9B053604CF84") &&
  ok_is (type_eqb UNUSED) (type_from_str "00000000-0000-0000-0000-000000000000") &&
  ok_is (type_eqb BASIC) (type_from_str "ebd0a0a2-b9e5-4433-87c0-68b6b72699c7").
Definition test_partition_fromstr_guid : bool :=
  ok_is (type_eqb LINUX_FS) (type_from_str "0FC63DAF-8483-4772-8E79-3D69D8477DE4").

Definition test_partition_from_name : bool := ok_is (type_eqb LINUX_FS) (type_from_str "Linux_FS").
Example type_tests : test_partition_type_fromstr && test_partition_fromstr_guid && test_partition_from_name = true.
Proof. vm_compute. reflexivity. Qed.

(** * src/header/mod.rs *)
Definition fix_guid : uuid := lit_uuid "1B6A2BFA-E92B-184C-A8A7-ED0610D54821".
Definition expected_primary : header :=
  mkHeader EFI_PART 1 0 92 0x55f06699 0 1 71 34 38 fix_guid 2 128 128 0x5fad601b.
Definition expected_backup : header :=
  mkHeader EFI_PART 1 0 92 0x7ddfa41b 0 71 1 34 38 fix_guid 39 128 128 0x5fad601b.
Definition test_read_gpt_disk : bool :=
  let (p, d) := read_primary_header Lb512 fixture in
  let (b, d) := read_backup_header Lb512 d in
  ok_is (header_eqb expected_primary) p && ok_is (header_eqb expected_backup) b.
Definition built_primary (oc : bool) : outcome hdr_err header :=
  build oc (bset_backup_lba 71 (bset_disk_guid fix_guid (builder_new rnd))) Lb512.
Definition built_backup (oc : bool) : outcome hdr_err header :=
  build oc (bset_primary false (bset_backup_lba 71 (bset_disk_guid fix_guid (builder_new rnd)))) Lb512.
Definition no_crcs (h : header) : header := set_crc32 (set_crc32_parts h 0) 0.
Definition test_create_gpt_disk (oc : bool) : bool :=
  ok_is (fun h1 => ok_is (header_eqb h1) (build oc (builder_from_header expected_primary) Lb512)) (built_primary oc) &&
  ok_is (header_eqb (no_crcs expected_primary)) (built_primary oc) &&
  ok_is (header_eqb (no_crcs expected_backup)) (built_backup oc).
Definition test_write_gpt_disk (d0 : dev) (oc : bool) : bool :=
  match built_primary oc, built_backup oc, fst (find_backup_lba Lb512 d0) with
  | Ok p, Ok b, Ok l =>
      match (seek_start 512 ;; write_all (fill x00 92) ;; seek_start (l * 512) ;; write_all (fill x00 92)) d0 with
      | (Ok _, d) =>
          negb (bytes_eqb (data d) (data d0)) &&
          let '(r1, (_, d)) := write_primary p Lb512 d in
          let '(r2, (_, d)) := write_backup b Lb512 d in
          is_ok r1 && is_ok r2 && bytes_eqb (data d) (data d0)
      | _ => false
      end
  | _, _, _ => false
  end.
(* header_tests *)
Check (@eq_refl bool true <: (test_read_gpt_disk && test_create_gpt_disk true && test_create_gpt_disk false &&
  test_write_gpt_disk fixture true && test_write_gpt_disk fixture false) = true).

(** * tests/mbr.rs *)
(** An empty temporary file. *)
Definition tempfile : dev := mkDev [] 0 true false [] [].
Definition bytes_are (l : list byte) {E} (r : outcome E (list byte)) : bool := ok_is (bytes_eqb l) r.
Definition the_bytes (m : mbr) : list byte := match mbr_to_bytes (E := unit) m with Ok l => l | _ => [] end.
Definition test_mbr_partrecord : bool :=
  bytes_eqb (rec_to_bytes rec_zero) (fill x00 16) &&
  (lenN (rec_to_bytes (new_protective None)) =? 16) &&
  negb (bytes_eqb (rec_to_bytes rec_zero) (rec_to_bytes (new_protective None))).
Definition test_mbr_protective : bool :=
  let data0 := the_bytes mbr_new in
  let data1 := the_bytes (mbr_with_lb_size 1) in
  (lenN data0 =? 512) && bytes_eqb (slice 510 2 data0) [x55; xaa] &&
  (lenN data1 =? 512) && bytes_eqb (slice 510 2 data1) [x55; xaa] && negb (bytes_eqb data0 data1).
Definition test_mbr_write : bool :=
  match (overwrite_lba0 mbr_new ;; update_conservative mbr_new) tempfile with
  | (Ok _, d) => bytes_eqb (slice (pos d) (dev_len d - pos d) (data d)) (the_bytes mbr_new)
  | _ => false
  end.
Definition test_mbr_read : bool :=
  ok_is (fun m => bytes_eqb (bootcode m) (fill x00 440) && bytes_eqb (disk_signature m) (fill x00 4))
    (fst (mbr_from_disk Lb512 fixture)).
Definition test_mbr_rw_roundtrip : bool :=
  let newsig := [x11; x22; x33; x44] in
  let m0 := set_disk_signature mbr_new newsig in
  match (overwrite_lba0 m0 ;; mbr_from_disk Lb512) tempfile with
  | (Ok m1, _) => bytes_eqb (bootcode m0) (bootcode m1) && bytes_eqb (disk_signature m0) (disk_signature m1) &&
                  bytes_eqb (disk_signature m0) newsig && bytes_eqb (the_bytes m0) (the_bytes m1)
  | _ => false
  end.
Definition test_mbr_bootcode : bool :=
  match overwrite_lba0 mbr_new tempfile with
  | (Ok _, d) =>
      bytes_are (fill x00 440) (fst (read_bootcode d)) &&
      bytes_are (fill xaa 440) (fst ((write_bootcode (fill xaa 440) ;; read_bootcode) (snd (read_bootcode d))))
  | _ => false
  end.
Definition test_mbr_disksig : bool :=
  let s1 := [x00; x11; x22; x33] in
  match overwrite_lba0 mbr_new tempfile with
  | (Ok _, d) =>
      bytes_are (fill x00 4) (fst (read_disk_signature d)) &&
      bytes_are s1 (fst ((write_disk_signature s1 ;; read_disk_signature) (snd (read_disk_signature d))))
  | _ => false
  end.
Example mbr_tests : test_mbr_partrecord && test_mbr_protective && test_mbr_write && test_mbr_read &&
  test_mbr_rw_roundtrip && test_mbr_bootcode && test_mbr_disksig = true.
Proof. vm_compute. reflexivity. Qed.

(** * tests/gpt-real-disk.rs *)
Definition part_is (ty : ptype) (u : string) (first last : N) (lb : lbsize) (start len : N) (o : option partition) : bool :=
  match o with
  | Some p => type_eqb (part_type p) ty && bytes_eqb (part_guid p) (lit_uuid u) && (first_lba p =? first) &&
              (last_lba p =? last) && names_eqb (name p) [] && ok_is (N.eqb start) (bytes_start p lb) &&
              ok_is (N.eqb len) (bytes_len p lb)
  | None => false
  end.
Definition test_gpt_disk_read (d : dev) (oc : bool) : bool :=
  match open_path oc config_default d with
  | (Ok g, _) =>
      ok_is (fun h => (current_lba h =? 1) && (backup_lba h =? 71)) (primary_header g) &&
      ok_is (fun h => (current_lba h =? 71) && (backup_lba h =? 1)) (backup_header g) &&
      Nat.eqb (List.length (g_partitions g)) 2 &&
      part_is LINUX_FS "F38EAB50-076F-CB45-97F8-B1B7E5AF078F" 34 34 (c_lb (g_config g)) (512 * 34) 512
        (pm_get 1 (g_partitions g)) &&
      part_is LINUX_FS "8EEE35AF-4A93-2C4F-AA7A-5FB193AC6FF7" 35 38 (c_lb (g_config g)) (512 * 35) (4 * 512)
        (pm_get 2 (g_partitions g)) &&
      (calculate_alignment g =? 1)
  | _ => false
  end.
(** Two disks whose headers and partitions are the same. *)
Definition same_table (a b : gdisk) : bool :=
  match primary_header a, primary_header b, backup_header a, backup_header b with
  | Ok p, Ok q, Ok r, Ok s => header_eqb p q && header_eqb r s && parts_eqb (g_partitions a) (g_partitions b)
  | _, _, _, _ => false
  end.
Definition test_write_fidelity (d : dev) (oc : bool) : bool :=
  match open_path oc config_default d with
  | (Ok g, _) =>
      match write oc (with_disk_device (cursor (fill x00 (dev_len d))) true g) with
      | (Ok m, _) =>
          match (seek_start 0 ;; read_exact (dev_len d)) m with
          | (Ok l, m) =>
              ok_is (same_table g) (fst (open_path oc config_default (mkDev l 0 true false [] l))) &&
              ok_is (same_table g) (fst (open_from_device oc config_default m))
          | _ => false
          end
      | _ => false
      end
  | _ => false
  end.
(* real_disk_tests *)
Check (@eq_refl bool true <: (test_gpt_disk_read fixture true && test_gpt_disk_read fixture false &&
  test_write_fidelity fixture true && test_write_fidelity fixture false) = true).

(** * tests/gpt.rs *)
Definition writable_cfg : config := cset_writable true config_default.
Definition test_gptconfig_empty (oc : bool) : bool :=
  ok_is (fun g => (match c_lb (g_config g) with Lb4096 => true | _ => false end) && is_ok (primary_header g) &&
                  is_ok (backup_header g) && Nat.eqb (List.length (g_partitions g)) 0)
    (fst (create_path oc (cset_lb Lb4096 config_default) rnd (mkDev (fill x00 65536) 0 true false [] []))).

(** test1, test2 and a third one, at block 94. *)
Definition three (oc : bool) (third : string) : M gdisk gpt_err N :=
  add_partition oc (text "test1") (1024 * 12) BASIC 0 None rnd ;;
  add_partition oc (text "test2") (1024 * 18) LINUX_FS 0 None rnd ;;
  let* id := (fun g => (find_next_partition_id g, g)) in
  match id with
  | Some id => add_partition_at oc (text third) id 94 2 BASIC 0 rnd
  | None => fun g => (Panic, g)
  end.
Definition test_create_simple (oc : bool) : bool :=
  match overwrite_lba0 (mbr_with_lb_size (1024 * 66 / 512 - 1)) (cursor (fill x00 (1024 * 66))) with
  | (Ok _, d) =>
      match create_from_device oc (cset_lb Lb512 writable_cfg) None rnd d with
      | (Ok g, _) =>
          match (three oc "test3" ;; write oc) g with
          | (Ok d, _) => is_ok (fst ((seek_start 0 ;; read_exact (1024 * 66)) d))
          | _ => false
          end
      | _ => false
      end
  | _ => false
  end.
(** The example in the documentation of the crate (src/lib.rs:35-68), and that of the default settings (src/lib.rs:172-180). *)
Definition doc_create_partition_in_ram (oc : bool) : bool :=
  let total := 1024 * 64 in
  match overwrite_lba0 (mbr_with_lb_size (total / 512 - 1)) (cursor (fill x00 total)) with
  | (Ok _, d) =>
      match create_from_device oc (cset_lb Lb512 writable_cfg) None rnd d with
      | (Ok g, _) =>
          match (add_partition oc (text "test1") (1024 * 12) BASIC 0 None rnd ;;
                 add_partition oc (text "test2") (1024 * 18) LINUX_FS 0 None rnd ;; write oc) g with
          | (Ok d, _) => is_ok (fst ((seek_start 0 ;; read_exact total) d))
          | _ => false
          end
      | _ => false
      end
  | _ => false
  end.
Example doc_default_config : cset_change_partition_count false (cset_readonly_backup false
  (cset_only_valid_headers false (cset_lb Lb512 (cset_writable false config_default)))) = config_default.
Proof. reflexivity. Qed.
(* simple_tests *)
Check (@eq_refl bool true <: (test_gptconfig_empty true && test_gptconfig_empty false &&
  test_create_simple true && test_create_simple false &&
  doc_create_partition_in_ram true && doc_create_partition_in_ram false) = true).

(** Equality of cursors is that of the bytes and of the positions. *)
Definition cursor_eqb (a b : dev) : bool := bytes_eqb (data a) (data b) && (pos a =? pos b).
Definition part_named (s : string) (o : option partition) : bool :=
  match o with Some p => names_eqb (name p) (text s) | None => false end.
Definition with_disk (oc : bool) (cfg : config) (d : dev) (f : gdisk -> bool) : bool :=
  ok_is f (fst (create_from_device oc cfg None rnd d)).
Definition test_only_valid_headers (oc : bool) : bool :=
  with_disk oc writable_cfg (cursor (fill x00 (1024 * 70))) (fun g =>
    match (three oc "test3" ;; write oc) g with
    | (Ok valid, _) =>
        let corrupt := mkDev (store 0 (fill x00 (1024 * 32)) (data valid)) (pos valid) true true [] [] in
        let (first_try, corrupt) := open_from_device oc (cset_only_valid_headers true config_default) corrupt in
        is_err first_try &&
        match open_from_device oc writable_cfg corrupt with
        | (Ok second, _) =>
            match write_inplace oc second with
            | (Ok _, second) => cursor_eqb valid (g_device second) &&
                                part_named "test1" (pm_get 1 (g_partitions second))
            | _ => false
            end
        | _ => false
        end
    | _ => false
    end).
Definition test_readonly_backup (oc : bool) : bool :=
  with_disk oc writable_cfg (cursor (fill x00 (1024 * 70))) (fun g =>
    match (three oc "test4" ;; write_inplace oc) g with
    | (Ok _, g) =>
        let valid := g_device g in
        match open_from_device oc (cset_readonly_backup true writable_cfg) valid with
        | (Ok t, _) =>
            match (add_partition oc (text "test3") (1024 * 4) LINUX_FS 0 None rnd ;; write_inplace oc) t with
            | (Ok _, t) =>
                let primary_end := 512 * (1 + 1 + 32) in
                let backup_len := 512 * (1 + 32) in
                let backup_start := dev_len (g_device t) - backup_len in
                negb (bytes_eqb (at_bytes 0 primary_end (g_device t)) (at_bytes 0 primary_end valid)) &&
                bytes_eqb (at_bytes backup_start backup_len (g_device t)) (at_bytes backup_start backup_len valid)
            | _ => false
            end
        | _ => false
        end
    | _ => false
    end).
(* option_tests *)
Check (@eq_refl bool true <: (test_only_valid_headers true && test_only_valid_headers false &&
  test_readonly_backup true && test_readonly_backup false) = true).

(** [format!("test{i}")]: the digits do not matter here, the name is the letters and [i]. *)
Fixpoint add_many (oc : bool) (n : nat) (i : N) : M gdisk gpt_err unit :=
  match n with
  | O => ret tt
  | S n => add_partition oc (text "test" ++ [48 + i]) 512 BASIC 0 None rnd ;; add_many oc n (i + 1)
  end.
Definition test_change_partition_count (oc : bool) : bool :=
  let size := 67 + 128 + 1 in
  with_disk oc writable_cfg (cursor (fill x00 (512 * size))) (fun g =>
    match add_many oc 128 0 g with
    | (Ok _, g) =>
        let (failed, g) := add_partition oc (text "test129") 512 BASIC 0 None rnd g in
        match failed with Err GPartitionCountWouldChange => true | _ => false end &&
        match write_inplace oc g with
        | (Ok _, valid) =>
            with_disk oc (cset_change_partition_count true writable_cfg) (cursor (fill x00 (512 * size))) (fun big =>
              match (add_many oc 129 0 ;; write oc) big with
              | (Ok d, _) =>
                  match open_from_device oc writable_cfg d with
                  | (Ok n, _) =>
                      match write_inplace oc n with
                      | (Ok _, n) =>
                          cursor_eqb d (g_device n) &&
                          let n := snd (remove_partition 128 (snd (remove_partition 129 n))) in
                          match (add_partition oc (text "test128") 512 BASIC 0 None rnd ;; write_inplace oc) n with
                          | (Ok _, n) =>
                              ok_is (fun h => (num_parts h =? 129) &&
                                ok_is (fun v => negb (num_parts v =? num_parts h)) (the_header (E := unit) valid))
                                (the_header (E := unit) n) &&
                              Nat.eqb (List.length (g_partitions n)) 128
                          | _ => false
                          end
                      | _ => false
                      end
                  | _ => false
                  end
              | _ => false
              end)
        | _ => false
        end
    | _ => false
    end).
(* count_tests *)
Check (@eq_refl bool true <: (test_change_partition_count true) = true).

Definition test_unused_entries (oc : bool) (lb : lbsize) : bool :=
  let b := lb_u64 lb in
  let header_lbs := 1 + 1 + 128 * 128 / b in
  let data_lbs := 10 in
  let footer_lbs := 128 * 128 / b + 1 in
  let total := (header_lbs + data_lbs + footer_lbs) * b in
  let read o n d := at_bytes o n d in
  let ones n := fill xff n in
  let nils n := fill x00 n in
  with_disk oc (cset_lb lb writable_cfg) (cursor (ones total)) (fun g =>
    match (add_partition oc (text "test1") (3 * b) BASIC 0 None rnd ;;
           add_partition oc (text "test2") (data_lbs * b - 3 * b) LINUX_FS 0 None rnd ;; write oc) g with
    | (Ok d, _) =>
        bytes_eqb (read 0 b d) (ones b) &&
        negb (bytes_eqb (read b 92 d) (ones 92)) &&
        bytes_eqb (read (b + 92) (b - 92) d) (nils (b - 92)) &&
        negb (bytes_eqb (read (2 * b) 256 d) (ones 256)) && negb (bytes_eqb (read (2 * b) 256 d) (nils 256)) &&
        bytes_eqb (read (2 * b + 256) (126 * 128) d) (nils (126 * 128)) &&
        bytes_eqb (read (header_lbs * b) (data_lbs * b) d) (ones (data_lbs * b)) &&
        negb (bytes_eqb (read ((header_lbs + data_lbs) * b) 256 d) (ones 256)) &&
        negb (bytes_eqb (read ((header_lbs + data_lbs) * b) 256 d) (nils 256)) &&
        negb (bytes_eqb (read (total - b) 92 d) (ones 92)) &&
        bytes_eqb (read (total - b + 92) (b - 92) d) (nils (b - 92))
    | _ => false
    end).
(* unused_tests *)
Check (@eq_refl bool true <: (test_unused_entries true Lb512 && test_unused_entries false Lb512 &&
  test_unused_entries true Lb4096 && test_unused_entries false Lb4096) = true).

Definition test_non_overlapping (oc : bool) : bool :=
  with_disk oc (cset_lb Lb512 writable_cfg) (cursor (fill x00 (1024 * 64))) (fun g =>
    match (add_partition oc (text "edge1") 512 BASIC 0 None rnd ;;
           add_partition oc (text "edge2") 512 BASIC 0 None rnd) g with
    | (Ok _, g) =>
        match pm_get 1 (g_partitions g), pm_get 2 (g_partitions g) with
        | Some p, Some q => last_lba p + 1 =? first_lba q
        | _, _ => false
        end
    | _ => false
    end).
Example overlap_test : test_non_overlapping true && test_non_overlapping false = true.
Proof. vm_compute. reflexivity. Qed.
Fail Check (@eq_refl bool true <: test_non_overlapping true = false).
