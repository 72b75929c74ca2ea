(** Spec.v - the vocabulary in which the property theorems (Props_*.v) are stated.

    Nothing here computes with the functions of the model: only its data types (records and their
    fields), the block size [lb_u64] (512 or 4096), the CRC-32 definition and the constant table of
    partition types are used. *)
From Coq Require Export Sorting.Sorted.
From Verif Require Export Mbr Disk.
Open Scope list_scope.
Open Scope N_scope.

(** * Bytes *)
(** Byte number [i] of an array, and the [n] bytes from [off] on. *)
Definition byte_no (l : list byte) (i : N) : option byte := nth_error l (N.to_nat i).
Definition range (off n : N) (l : list byte) : list byte :=
  firstn (N.to_nat n) (skipn (N.to_nat off) l).
(** The number stored in little-endian order. *)
Fixpoint number_le (l : list byte) : N :=
  match l with [] => 0 | b :: r => Byte.to_N b + 256 * number_le r end.
Definition num_at (off n : N) (l : list byte) : N := number_le (range off n l).
Definition between (a b i : N) : Prop := a <= i < b.
(** Same length, and the same bytes wherever [R] does not hold. *)
Definition changed_only_in (R : N -> Prop) (l l' : list byte) : Prop :=
  lenN l' = lenN l /\ forall i, ~ R i -> byte_no l' i = byte_no l i.
Definition all_zero (l : list byte) : Prop := Forall (eq x00) l.

(** * Devices *)
(** No I/O fault will occur. *)
Definition fault_free (d : dev) : Prop := faults d = [].
(** The size is representable in 64 bits (no seek could reach further). *)
Definition addressable (d : dev) : Prop := lenN (data d) < 2 ^ 64.
(** The last whole block of the device. *)
Definition last_whole_block (lb : lbsize) (d : dev) : N := lenN (data d) / lb_u64 lb - 1.

(** The same device with another fault schedule; with no more faults. *)
Definition with_faults (fs : list (option nat)) (d : dev) : dev :=
  mkDev (data d) (pos d) (growable d) (eof_moves d) fs (durable d).
Definition repaired (d : dev) : dev := with_faults [] d.

(** * GUIDs *)
Definition guid_ok (u : uuid) : Prop := length u = 16%nat.
(** Order of a GUID's bytes on disk (UEFI): the first three fields are byte-reversed. *)
Definition guid_on_disk (u : uuid) : list byte :=
  match u with
  | b0 :: b1 :: b2 :: b3 :: b4 :: b5 :: b6 :: b7 :: r => b3 :: b2 :: b1 :: b0 :: b5 :: b4 :: b7 :: b6 :: r
  | _ => u
  end.
(** Canonical text of a GUID: upper-case hexadecimal, hyphenated 8-4-4-4-12. *)
Definition hex_char (n : N) : Ascii.ascii :=
  Ascii.ascii_of_N (if n <? 10 then 48 + n else 55 + n).
Definition hex_byte (b : byte) : string :=
  String (hex_char (Byte.to_N b / 16)) (String (hex_char (Byte.to_N b mod 16)) "").
Definition hex_bytes (l : list byte) : string := String.concat "" (map hex_byte l).
Definition guid_text (u : uuid) : string :=
  (hex_bytes (firstn 4 u) ++ "-" ++ hex_bytes (firstn 2 (skipn 4 u)) ++ "-"
   ++ hex_bytes (firstn 2 (skipn 6 u)) ++ "-" ++ hex_bytes (firstn 2 (skipn 8 u)) ++ "-"
   ++ hex_bytes (skipn 10 u))%string.
(** The operating system the table of well-known types gives for a GUID; none if it is not there. *)
Definition canonical_os (u : uuid) (o : os_label) : Prop :=
  (exists nm, In (nm, guid_text u, o) type_table) \/
  (o = OsNone /\ forall nm o', ~ In (nm, guid_text u, o') type_table).

(** * Names *)
(** Unicode scalar values, the elements of a Rust String. *)
Definition char_ok (c : N) : Prop := c < 0xD800 \/ 0xE000 <= c < 0x110000.
(** UTF-16 code units needed for a character, for a name. *)
Definition units (c : N) : N := if c <? 0x10000 then 1 else 2.
Fixpoint name_units (s : list N) : N := match s with [] => 0 | c :: r => units c + name_units r end.
(** What remains of a name in a field of [n] code units: it ends at a NUL and at the limit; a
    character cut in two by the limit becomes U+FFFD. *)
Fixpoint kept_name (n : N) (s : list N) : list N :=
  match s with
  | [] => []
  | c :: r =>
      if c =? 0 then []
      else if units c <=? n then c :: kept_name (n - units c) r
      else if n =? 0 then [] else [0xFFFD]
  end.
(** The UTF-16 code units of a name. *)
Definition utf16_units (s : list N) : list N :=
  flat_map (fun c => if c <? 0x10000 then [c]
                     else [0xD800 + (c - 0x10000) / 0x400; 0xDC00 + (c - 0x10000) mod 0x400]) s.
(** Decoding of UTF-16 code units, every unpaired surrogate giving U+FFFD. *)
Definition high (u : N) : Prop := 0xD800 <= u < 0xDC00.
Definition low (u : N) : Prop := 0xDC00 <= u < 0xE000.
Inductive utf16 : list N -> list N -> Prop :=
| u16_end : utf16 [] []
| u16_plain u r s : ~ high u -> ~ low u -> utf16 r s -> utf16 (u :: r) (u :: s)
| u16_pair h l r s : high h -> low l -> utf16 r s ->
    utf16 (h :: l :: r) (0x10000 + (h - 0xD800) * 0x400 + (l - 0xDC00) :: s)
| u16_lone_high h r s : high h -> (forall l r', r = l :: r' -> ~ low l) -> utf16 r s ->
    utf16 (h :: r) (0xFFFD :: s)
| u16_lone_low l r s : low l -> utf16 r s -> utf16 (l :: r) (0xFFFD :: s).
(** The units of a list before the first zero. *)
Inductive before_nul : list N -> list N -> Prop :=
| bn_end : before_nul [] []
| bn_nul r : before_nul (0 :: r) []
| bn_unit u r s : u <> 0 -> before_nul r s -> before_nul (u :: r) (u :: s).

(** * Partitions *)
Definition used (p : partition) : Prop := guid (part_type p) <> repeat x00 16.
(** Field values that the Rust types allow. *)
Record partition_ok (p : partition) : Prop := mkPartitionOk {
  ok_type : guid_ok (guid (part_type p));
  ok_guid : guid_ok (part_guid p);
  ok_first : first_lba p < 2 ^ 64;
  ok_last : last_lba p < 2 ^ 64;
  ok_flags : flags p < 2 ^ 64;
  ok_name : Forall char_ok (name p)
}.
(** [q] is [p] as it comes back from the disk: everything equal, except that the OS label is the
    canonical one and the name is what fits in 36 code units. *)
Record same_entry (p q : partition) : Prop := mkSameEntry {
  se_type : guid (part_type q) = guid (part_type p);
  se_os : canonical_os (guid (part_type p)) (os (part_type q));
  se_guid : part_guid q = part_guid p;
  se_first : first_lba q = first_lba p;
  se_last : last_lba q = last_lba p;
  se_flags : flags q = flags p;
  se_name : name q = kept_name 36 (name p)
}.
(** The UEFI layout of a 128-byte partition entry. *)
Record entry_bytes (b : list byte) (p : partition) : Prop := mkEntryBytes {
  eb_len : lenN b = 128;
  eb_type : range 0 16 b = guid_on_disk (guid (part_type p));
  eb_guid : range 16 16 b = guid_on_disk (part_guid p);
  eb_first : num_at 32 8 b = first_lba p;
  eb_last : num_at 40 8 b = last_lba p;
  eb_flags : num_at 48 8 b = flags p
}.
Definition unit_at (b : list byte) (i : nat) : N := num_at (56 + 2 * N.of_nat i) 2 b.
Definition name_field (b : list byte) : list N := map (unit_at b) (seq 0 36).
(** What an entry on disk says. *)
Record entry_decodes (b : list byte) (p : partition) : Prop := mkEntryDecodes {
  ed_bytes : entry_bytes b p;
  ed_os : canonical_os (guid (part_type p)) (os (part_type p));
  ed_name : exists us, before_nul (name_field b) us /\ utf16 us (name p)
}.
(** Entry number [k] (counting from 1) of an array of 128-byte entries. *)
Definition slot (k : N) (tbl : list byte) : list byte := range (128 * (k - 1)) 128 tbl.

(** A partition table: partition [p] has id [k]. *)
Definition has (m : pmap) (k : N) (p : partition) : Prop := In (k, p) m.
Definition is_in_use (k : N) (m : pmap) : Prop := exists p, has m k p /\ used p.
(** A table is a map listed in the order of its ids. *)
Definition map_ok (m : pmap) : Prop := StronglySorted N.lt (map fst m).

(** * Headers *)
Definition efi_part : list byte := [x45; x46; x49; x20; x50; x41; x52; x54].
(** Field values that the Rust types allow, with the signature every GPT header has. *)
Record header_ok (h : header) : Prop := mkHeaderOk {
  ho_sig : signature h = efi_part;
  ho_rev : rev_major h < 2 ^ 16 /\ rev_minor h < 2 ^ 16;
  ho_size : header_size_le h < 2 ^ 32;
  ho_lbas : current_lba h < 2 ^ 64 /\ backup_lba h < 2 ^ 64 /\ first_usable h < 2 ^ 64 /\
            last_usable h < 2 ^ 64 /\ part_start h < 2 ^ 64;
  ho_guid : guid_ok (disk_guid h);
  ho_num : num_parts h < 2 ^ 32;
  ho_psize : part_size h < 2 ^ 32
}.
(** The UEFI layout of the 92-byte header. *)
Record header_bytes (b : list byte) (h : header) : Prop := mkHeaderBytes {
  hb_sig : range 0 8 b = signature h;
  hb_minor : num_at 8 2 b = rev_minor h;
  hb_major : num_at 10 2 b = rev_major h;
  hb_size : num_at 12 4 b = header_size_le h;
  hb_crc : num_at 16 4 b = crc32_hdr h;
  hb_reserved : num_at 20 4 b = reserved h;
  hb_current : num_at 24 8 b = current_lba h;
  hb_backup : num_at 32 8 b = backup_lba h;
  hb_first : num_at 40 8 b = first_usable h;
  hb_last : num_at 48 8 b = last_usable h;
  hb_guid : range 56 16 b = guid_on_disk (disk_guid h);
  hb_start : num_at 72 8 b = part_start h;
  hb_num : num_at 80 4 b = num_parts h;
  hb_psize : num_at 84 4 b = part_size h;
  hb_pcrc : num_at 88 4 b = crc32_parts h
}.
(** The checksum a header must carry: CRC-32 of its 92 bytes with the CRC field zero. *)
Definition header_checksum (b : list byte) : N := crc32 (range 0 16 b ++ repeat x00 4 ++ range 20 72 b).
(** What reading a header at byte [off] of a device with contents [l] must give. *)
Inductive header_at (l : list byte) (off : N) : outcome hdr_err header -> Prop :=
| ha_short : lenN l < off + 92 -> header_at l off (Err (HIo IoUnexpectedEof))
| ha_signature : off + 92 <= lenN l -> range off 8 l <> efi_part ->
    header_at l off (Err HInvalidGptSignature)
| ha_checksum : off + 92 <= lenN l -> range off 8 l = efi_part ->
    num_at (off + 16) 4 l <> header_checksum (range off 92 l) ->
    header_at l off (Err HInvalidCRC32Checksum)
| ha_valid h : off + 92 <= lenN l -> range off 8 l = efi_part ->
    num_at (off + 16) 4 l = header_checksum (range off 92 l) ->
    header_bytes (range off 92 l) h -> header_at l off (Ok h).
(** The fields other than the two checksums and [reserved] agree. *)
Record same_header (h h' : header) : Prop := mkSameHeader {
  sh_sig : signature h' = signature h;
  sh_major : rev_major h' = rev_major h;
  sh_minor : rev_minor h' = rev_minor h;
  sh_size : header_size_le h' = header_size_le h;
  sh_current : current_lba h' = current_lba h;
  sh_backup : backup_lba h' = backup_lba h;
  sh_first : first_usable h' = first_usable h;
  sh_last : last_usable h' = last_usable h;
  sh_guid : disk_guid h' = disk_guid h;
  sh_start : part_start h' = part_start h;
  sh_num : num_parts h' = num_parts h;
  sh_psize : part_size h' = part_size h
}.
(** Where the array of entries a header describes starts and how long it is, in bytes. *)
Definition array_at (lb : lbsize) (h : header) : N := part_start h * lb_u64 lb.
Definition array_len (h : header) : N := num_parts h * part_size h.

(** The array is on the device and has the checksum the header asks for. *)
Definition array_intact (lb : lbsize) (h : header) (l : list byte) : Prop :=
  array_at lb h < 2 ^ 64 /\
  (num_parts h = 0 \/ array_at lb h + array_len h <= lenN l) /\
  crc32 (range (array_at lb h) (array_len h) l) = crc32_parts h.
(** [m] lists, by ids counted from 1, the partitions in the non-empty entries of the array. *)
Definition table_read (lb : lbsize) (h : header) (l : list byte) (m : pmap) : Prop :=
  map_ok m /\
  forall k p, has m k p <->
    1 <= k <= num_parts h /\
    let entry := slot k (range (array_at lb h) (array_len h) l) in
    ~ all_zero entry /\ entry_decodes entry p.

(** What is true after header [h] was written to block [lba] of a device: [l] and [l'] are the
    contents before and after, [h'] the header left in memory, [r] the one that can be read back. *)
Record header_written (lb : lbsize) (h h' r : header) (lba : N) (l l' : list byte) : Prop := mkWritten {
  hw_only : changed_only_in (between (lba * lb_u64 lb) ((lba + 1) * lb_u64 lb)) l l';
  hw_pad : all_zero (range (lba * lb_u64 lb + 92) (lb_u64 lb - 92) l');
  hw_read : header_at l' (lba * lb_u64 lb) (Ok r);
  hw_same : same_header h r;
  hw_reserved : reserved r = 0;
  hw_pcrc : crc32_parts r = crc32 (range (array_at lb h) (array_len h) l');
  hw_crc : crc32_hdr r = header_checksum (range (lba * lb_u64 lb) 92 l');
  hw_mem : same_header r h';
  hw_mem_pcrc : crc32_parts h' = crc32_parts r;
  hw_mem_crc : crc32_hdr h' = crc32_hdr r
}.

(** * Disk layouts *)
(** Blocks needed for [n] bytes. *)
Definition blocks_for (n : N) (lb : lbsize) : N := (n + lb_u64 lb - 1) / lb_u64 lb.
Definition array_blocks (lb : lbsize) (h : header) : N := blocks_for (num_parts h * 128) lb.
(** The LBAs of the primary and of the backup header, from either header. *)
Definition primary_at (h : header) : N := N.min (current_lba h) (backup_lba h).
Definition backup_at (h : header) : N := N.max (current_lba h) (backup_lba h).
(** A header describing a disk of [len] bytes on which LBA 0, primary header, primary array, usable
    area, backup array and backup header follow one another without overlap. *)
Record layout_ok (lb : lbsize) (len : N) (h : header) : Prop := mkLayoutOk {
  lo_guid : guid_ok (disk_guid h);
  lo_psize : part_size h = 128;
  lo_num : num_parts h * 128 < 2 ^ 32;
  lo_primary : primary_at h = 1;
  lo_first : 2 + array_blocks lb h <= first_usable h;
  lo_last : last_usable h + array_blocks lb h + 1 <= backup_at h;
  lo_room : first_usable h + array_blocks lb h + 1 <= backup_at h;
  lo_fit : (backup_at h + 1) * lb_u64 lb <= len
}.
(** The bytes of the two copies of the metadata. *)
Definition primary_copy (lb : lbsize) (h : header) (i : N) : Prop :=
  between (lb_u64 lb) (2 * lb_u64 lb) i \/
  between (2 * lb_u64 lb) (2 * lb_u64 lb + num_parts h * 128) i.
Definition backup_copy (lb : lbsize) (h : header) (i : N) : Prop :=
  between (backup_at h * lb_u64 lb) ((backup_at h + 1) * lb_u64 lb) i \/
  between ((backup_at h - array_blocks lb h) * lb_u64 lb)
          ((backup_at h - array_blocks lb h) * lb_u64 lb + num_parts h * 128) i.
(** The two headers a disk gets when it is written with the layout of [h]. *)
Record headers_for (lb : lbsize) (h hp hb : header) : Prop := mkHeadersFor {
  hf_primary : current_lba hp = 1 /\ backup_lba hp = backup_at h /\ part_start hp = 2;
  hf_backup : current_lba hb = backup_at h /\ backup_lba hb = 1 /\
              part_start hb = backup_at h - array_blocks lb h;
  hf_guid : disk_guid hp = disk_guid h /\ disk_guid hb = disk_guid h;
  hf_num : num_parts hp = num_parts h /\ num_parts hb = num_parts h;
  hf_psize : part_size hp = 128 /\ part_size hb = 128;
  hf_first : first_usable hp = first_usable h /\ first_usable hb = first_usable h;
  hf_last : last_usable hp = backup_at h - array_blocks lb h - 1 /\
            last_usable hb = backup_at h - array_blocks lb h - 1;
  hf_crc : crc32_parts hp = crc32_parts hb;
  hf_const : signature hp = efi_part /\ signature hb = efi_part /\ rev_major hp = 1 /\ rev_major hb = 1 /\
             rev_minor hp = 0 /\ rev_minor hb = 0 /\ header_size_le hp = 92 /\ header_size_le hb = 92 /\
             reserved hp = 0 /\ reserved hb = 0
}.
(** What reading the backup header of a device must give. *)
Definition backup_header_at (lb : lbsize) (d : dev) (r : outcome hdr_err header) : Prop :=
  (3 * lb_u64 lb <= lenN (data d) -> header_at (data d) (last_whole_block lb d * lb_u64 lb) r) /\
  (lenN (data d) < 3 * lb_u64 lb -> r = Err HToSmallForBackup).
(** The library counts the empty entries of an array in a 32-bit signed integer.  The count cannot overflow
    if there are fewer than 2^31 entries or the device is below 2^38 bytes, and overflowing does no harm
    in a release build. *)
Definition countable (oc : bool) (h : header) (l : list byte) : Prop :=
  oc = false \/ num_parts h < 2 ^ 31 \/ lenN l < 2 ^ 38.
(** The header a disk works with: the primary one if it is valid, else the backup. *)
Definition header_of (g : gdisk) (h : header) : Prop :=
  g_primary g = Ok h \/ ((forall h', g_primary g <> Ok h') /\ g_backup g = Ok h).
(** The used partitions of a table, in the order of their ids. *)
Definition used_dec (p : partition) : bool :=
  negb (if list_eq_dec Byte.byte_eq_dec (guid (part_type p)) (repeat x00 16) then true else false).
Definition used_in_order (m : pmap) : list partition := filter used_dec (map snd m).
(** Partitions numbered 1, 2, 3, ... *)
Definition numbered (ps : list partition) : pmap :=
  combine (map N.of_nat (seq 1 (length ps))) ps.
(** Everything but the position and the fault schedule of the device is as before. *)
Definition same_medium (d d' : dev) : Prop :=
  data d' = data d /\ durable d' = durable d /\ growable d' = growable d /\ eof_moves d' = eof_moves d.
(** The result of opening device [d] with header [h] in use, [r1] and [r2] being what the places of
    the two headers hold. *)
Definition opened_with (cfg : config) (d : dev) (r1 r2 : outcome hdr_err header) (h : header)
    (res : outcome gpt_err gdisk) : Prop :=
  match res with
  | Ok g => array_intact (c_lb cfg) h (data d) /\ table_read (c_lb cfg) h (data d) (g_partitions g) /\
      g_config g = cfg /\ g_guid g = disk_guid h /\ g_primary g = r1 /\ g_backup g = r2 /\
      same_medium d (g_device g) /\ g_sync g = false
  | Err (GIo e) => ~ array_intact (c_lb cfg) h (data d)
  | _ => False
  end.
(** A disk that can be written: writable, with a header describing a sane layout of its device, and
    no more used partitions than the array has entries. *)
Record ready (g : gdisk) (h : header) : Prop := mkReady {
  rd_writable : c_writable (g_config g) = true;
  rd_header : header_of g h;
  rd_size : addressable (g_device g);
  rd_layout : layout_ok (c_lb (g_config g)) (lenN (data (g_device g))) h;
  rd_count : lenN (used_in_order (g_partitions g)) <= num_parts h;
  rd_parts : Forall partition_ok (used_in_order (g_partitions g))
}.
(** The table [m'] read back after writing table [m]. *)
Definition read_back (m m' : pmap) : Prop :=
  exists qs, m' = numbered qs /\ Forall2 same_entry (used_in_order m) qs.
(** A name that a write does not change. *)
Definition name_survives (p : partition) : Prop := kept_name 36 (name p) = name p.

(** * Free space *)
(** A usable range that is not turned around and does not touch the ends of the 64-bit range. *)
Definition usable_ok (h : header) : Prop :=
  1 <= first_usable h /\ first_usable h <= last_usable h + 1 /\ last_usable h + 1 < 2 ^ 64.
Definition covers (p : partition) (x : N) : Prop := first_lba p <= x <= last_lba p.
(** A block that is usable and in no used partition; a run of [n] such blocks. *)
Definition free_lba (h : header) (m : pmap) (x : N) : Prop :=
  first_usable h <= x <= last_usable h /\ forall k p, has m k p -> used p -> ~ covers p x.
Definition free_run (h : header) (m : pmap) (start n : N) : Prop :=
  forall x, start <= x < start + n -> free_lba h m x.
(** The used partitions lie in the usable range and do not overlap. *)
Record arranged (h : header) (m : pmap) : Prop := mkArranged {
  ar_map : map_ok m;
  ar_range : forall k p, has m k p -> used p ->
    first_usable h <= first_lba p /\ first_lba p <= last_lba p /\ last_lba p <= last_usable h;
  ar_apart : forall j p k q, has m j p -> has m k q -> used p -> used q -> j <> k ->
    forall x, ~ (covers p x /\ covers q x)
}.
(** A list of (start, length) describes exactly the blocks with property [F]: in ascending order, no
    section empty, and sections not touching. *)
Record sections_of (F : N -> Prop) (secs : list (N * N)) : Prop := mkSections {
  sc_nonempty : Forall (fun s => 1 <= snd s) secs;
  sc_apart : StronglySorted (fun s t => fst s + snd s < fst t) secs;
  sc_exact : forall x, (exists s, In s secs /\ fst s <= x < fst s + snd s) <-> F x
}.
(** The spans of the used partitions. *)
Definition spans (m : pmap) : list (N * N) := map (fun p => (first_lba p, last_lba p)) (used_in_order m).
(** [m'] is [m] with [p] under id [k], replacing what was there. *)
Definition placed (m : pmap) (k : N) (p : partition) (m' : pmap) : Prop :=
  map_ok m' /\ forall j q, has m' j q <-> (j = k /\ q = p) \/ (j <> k /\ has m j q).
(** [m'] is [m] without id [k]. *)
Definition dropped (m : pmap) (k : N) (m' : pmap) : Prop :=
  map_ok m' /\ forall j q, has m' j q <-> j <> k /\ has m j q.
(** The smallest number with a property. *)
Definition smallest (F : N -> Prop) (x : N) : Prop := F x /\ forall y, F y -> x <= y.
(** Blocks for [size] bytes; the alignment meant by an optional argument. *)
Definition alignment (al : option N) : N := match al with Some a => a | None => 1 end.
(** Where [n] blocks could be put: a multiple of the alignment, all blocks free. *)
Definition fits_at (h : header) (m : pmap) (n a start : N) : Prop :=
  start mod a = 0 /\ free_run h m start n.
(** Calls covered by C29, for a disk with blocks [lb] in the build [oc]: additions with a sensible
    alignment, removals, a change of GUID, and writing. *)
Definition sensible (oc : bool) (al : option N) (n : N) : Prop :=
  1 <= alignment al /\ (oc = true \/ alignment al + n < 2 ^ 64).
Definition tidy_op (oc : bool) (lb : lbsize) (o : op) : Prop :=
  match o with
  | OpAdd _ size _ _ al _ => sensible oc al (blocks_for size lb)
  | OpRemove _ | OpRemoveGuid _ | OpTake | OpUpdateGuid _ _ | OpWrite => True
  | _ => False
  end.
(** A disk in good order: its header describes a sane layout of the device and a usable range, and
    the used partitions lie in that range without overlap. *)
Record tidy (g : gdisk) (h : header) : Prop := mkTidy {
  ti_size : addressable (g_device g);
  ti_header : header_of g h;
  ti_layout : layout_ok (c_lb (g_config g)) (lenN (data (g_device g))) h;
  ti_usable : usable_ok h;
  ti_arranged : arranged h (g_partitions g)
}.

(** * Building headers *)
(** The calls a program can make on a header builder, and a sequence of them. *)
Inductive setting : Type :=
| SetPrimary (v : bool)
| SetGuid (u : uuid)
| SetBackup (n : N)
| SetFirst (n : N)
| SetLast (n : N)
| SetNum (n : N)
| SetSize (n : N).
Definition apply_setting (b : builder) (s : setting) : builder :=
  match s with
  | SetPrimary v => bset_primary v b
  | SetGuid u => bset_disk_guid u b
  | SetBackup n => bset_backup_lba n b
  | SetFirst n => bset_first_usable n b
  | SetLast n => bset_last_usable n b
  | SetNum n => bset_num_parts n b
  | SetSize n => bset_part_size n b
  end.
Definition apply_settings (ss : list setting) (b : builder) : builder := fold_left apply_setting ss b.
(** Two headers describing the same table from the front and from the back. *)
Record mirrored (hp hb : header) : Prop := mkMirrored {
  mi_lba : current_lba hb = backup_lba hp /\ backup_lba hb = current_lba hp;
  mi_usable : first_usable hb = first_usable hp /\ last_usable hb = last_usable hp;
  mi_guid : disk_guid hb = disk_guid hp;
  mi_num : num_parts hb = num_parts hp;
  mi_size : part_size hb = part_size hp
}.
(** LBA 0, primary header, primary array, usable blocks, backup array, backup header: in this order
    and without overlap, in bytes. *)
Record in_order (lb : lbsize) (hp hb : header) : Prop := mkInOrder {
  io_header : current_lba hp = 1;
  io_array : (current_lba hp + 1) * lb_u64 lb <= array_at lb hp;
  io_usable : array_at lb hp + array_len hp <= first_usable hp * lb_u64 lb;
  io_some : first_usable hp <= last_usable hp;
  io_back_array : (last_usable hb + 1) * lb_u64 lb <= array_at lb hb;
  io_back_header : array_at lb hb + array_len hb <= current_lba hb * lb_u64 lb
}.
