(** HeaderFacts.v - the 92-byte header: encoding, decoding, acceptance, reading and writing. *)
From Verif Require Export CrcFacts EntryFacts.
Open Scope list_scope.
Open Scope N_scope.

(** * Encoding *)
Definition wf_header (h : header) : Prop :=
  signature h = EFI_PART /\ rev_major h < 256 ^ 2 /\ rev_minor h < 256 ^ 2 /\
  header_size_le h < 256 ^ 4 /\ current_lba h < modulus 64 /\ backup_lba h < modulus 64 /\
  first_usable h < modulus 64 /\ last_usable h < modulus 64 /\ wf_uuid (disk_guid h) /\
  part_start h < modulus 64 /\ num_parts h < modulus 32 /\ part_size h < modulus 32.

(** The parts of the on-disk header before, in, and after the CRC field. *)
Definition hdr_pre (h : header) : list byte :=
  signature h ++ le_bytes 2 (rev_minor h) ++ le_bytes 2 (rev_major h) ++ le_bytes 4 (header_size_le h).
Definition hdr_post (h : header) (parts_crc : N) : list byte :=
  zeros 4 ++ le_bytes 8 (current_lba h) ++ le_bytes 8 (backup_lba h) ++
  le_bytes 8 (first_usable h) ++ le_bytes 8 (last_usable h) ++ uuid_le_bytes (disk_guid h) ++
  le_bytes 8 (part_start h) ++ le_bytes 4 (num_parts h) ++ le_bytes 4 (part_size h) ++
  le_bytes 4 parts_crc.
(** The header with CRC field [c]. *)
Definition hdr_image (h : header) (parts_crc c : N) : list byte :=
  hdr_pre h ++ le_bytes 4 c ++ hdr_post h parts_crc.
(** Its checksum: CRC-32 with the CRC field zero. *)
Definition hdr_crc (h : header) (parts_crc : N) : N := crc32 (hdr_image h parts_crc 0).

Lemma wr_step {E} bs pre k p :
  p = length pre -> (length bs <= k)%nat ->
  @wr_bytes E bs (mkWarr (pre ++ zeros k) p) =
  (Ok tt, mkWarr ((pre ++ bs) ++ zeros (k - length bs)) (length (pre ++ bs))).
Proof.
  intros -> H. replace k with (length bs + (k - length bs))%nat at 1 by lia.
  rewrite zeros_app. rewrite wr_bytes_app; [|rewrite zeros_length; auto|auto].
  rewrite app_length, <- app_assoc. auto.
Qed.

Lemma length_pre h : length (signature h) = 8%nat -> length (hdr_pre h) = 16%nat.
Proof. intros H; unfold hdr_pre. rewrite !app_length, !le_bytes_length, H. auto. Qed.
Lemma length_post h c : wf_uuid (disk_guid h) -> length (hdr_post h c) = 72%nat.
Proof.
  intros H. unfold hdr_post.
  rewrite !app_length, !le_bytes_length, uuid_le_bytes_length, zeros_length; auto.
Qed.
Lemma length_image h pc c : length (signature h) = 8%nat -> wf_uuid (disk_guid h) ->
  length (hdr_image h pc c) = 92%nat.
Proof.
  intros H1 H2. unfold hdr_image. rewrite !app_length, length_pre, length_post, le_bytes_length; auto.
Qed.

Lemma hdr_to_bytes_eq {E} h pc : length (signature h) = 8%nat -> wf_uuid (disk_guid h) ->
  @hdr_to_bytes E h pc = Ok (16%nat, mkWarr (hdr_image h pc 0) 92).
Proof.
  intros Hs Hg. unfold hdr_to_bytes, hdr_writer.
  assert (H4 : length (uuid_d4 (disk_guid h)) = 8%nat) by (apply (uuid_fields_wf _ Hg)).
  change (mkWarr (zeros 92) 0) with (mkWarr ([] ++ zeros 92) 0).
  assert (X : forall (A B : Type) (bs pre : list byte) (k p : nat) (f : unit -> M warr E A)
                (F : outcome E A * warr -> B),
            p = length pre -> (length bs <= k)%nat ->
            F (bind (wr_bytes bs) f (mkWarr (pre ++ zeros k) p)) =
            F (f tt (mkWarr ((pre ++ bs) ++ zeros (k - length bs)) (length (pre ++ bs))))).
  { intros. unfold bind. rewrite wr_step by auto. auto. }
  unfold wr_le, wr_position.
  set (F := fun x : outcome E nat * warr => match x with
      | (Ok p, w) => Ok (p, w) | (Err e, _) => Err e | (Panic, _) => @Panic E (nat * warr) end).
  change (F ((wr_bytes (signature h) ;; wr_bytes (le_bytes 2 (rev_minor h)) ;;
     wr_bytes (le_bytes 2 (rev_major h)) ;; wr_bytes (le_bytes 4 (header_size_le h)) ;;
     (let* checksum_position := fun w => (Ok (wpos w), w) in
      wr_bytes (le_bytes 4 0) ;; wr_bytes (le_bytes 4 0) ;;
      wr_bytes (le_bytes 8 (current_lba h)) ;; wr_bytes (le_bytes 8 (backup_lba h)) ;;
      wr_bytes (le_bytes 8 (first_usable h)) ;; wr_bytes (le_bytes 8 (last_usable h)) ;;
      wr_bytes (le_bytes 4 (uuid_d1 (disk_guid h))) ;;
      wr_bytes (le_bytes 2 (uuid_d2 (disk_guid h))) ;;
      wr_bytes (le_bytes 2 (uuid_d3 (disk_guid h))) ;; wr_bytes (uuid_d4 (disk_guid h)) ;;
      wr_bytes (le_bytes 8 (part_start h)) ;; wr_bytes (le_bytes 4 (num_parts h)) ;;
      wr_bytes (le_bytes 4 (part_size h)) ;; wr_bytes (le_bytes 4 pc) ;;
      ret checksum_position)) (mkWarr ([] ++ zeros 92) 0)) = Ok (16%nat, mkWarr (hdr_image h pc 0) 92)).
  rewrite X by (simpl; auto; lia).
  do 3 rewrite X by (rewrite ?app_length, ?le_bytes_length, ?Hs; simpl; lia).
  unfold bind at 1. cbn [wpos].
  do 14 rewrite X by (rewrite ?app_length, ?le_bytes_length, ?Hs, ?H4; simpl; lia).
  unfold ret, F. rewrite !app_length, !le_bytes_length, Hs, H4. cbn [Nat.sub plus length].
  rewrite app_nil_r. unfold hdr_image, hdr_pre, hdr_post, uuid_le_bytes.
  rewrite <- !app_assoc. reflexivity.
Qed.

Lemma image_splice h pc c : length (signature h) = 8%nat ->
  splice 16 (le_bytes 4 c) (hdr_image h pc 0) = hdr_image h pc c.
Proof.
  intros H. unfold hdr_image. rewrite <- (length_pre h) by auto. apply splice_app.
  rewrite !le_bytes_length; auto.
Qed.
Lemma image_splice0 h pc c : length (signature h) = 8%nat ->
  splice 16 (zeros 4) (hdr_image h pc c) = hdr_image h pc 0.
Proof.
  intros H. unfold hdr_image. rewrite <- (length_pre h) by auto.
  change (zeros 4) with (le_bytes 4 0). apply splice_app. rewrite !le_bytes_length; auto.
Qed.

(** * Decoding *)
(** The header as read back: checksums filled in, reserved zero. *)
Definition hdr_read (h : header) (pc c : N) : header :=
  mkHeader (signature h) (rev_major h) (rev_minor h) (header_size_le h) c 0
    (current_lba h) (backup_lba h) (first_usable h) (last_usable h) (disk_guid h)
    (part_start h) (num_parts h) (part_size h) pc.

Ltac rd_step lem := unfold bind at 1; rewrite lem; [|try assumption ..].

Lemma read_fields_image h pc c : wf_header h -> pc < 256 ^ 4 -> c < 256 ^ 4 ->
  fst (read_fields (signature h) (skipn 8 (hdr_image h pc c))) = Ok (hdr_read h pc c).
Proof.
  intros (Hs & H) Hpc Hc. unfold hdr_image, hdr_pre.
  rewrite <- !app_assoc, skipn_app_l by (rewrite Hs; auto).
  destruct H as (? & ? & ? & ? & ? & ? & ? & ? & ? & ? & ?).
  unfold read_fields, hdr_post. rewrite <- ?app_assoc.
  change (modulus 64) with (256 ^ 8) in *. change (modulus 32) with (256 ^ 4) in *.
  change (zeros 4) with (le_bytes 4 0).
  do 4 rd_step (@rd_le_app hdr_err).
  rd_step (@rd_le_app hdr_err); [|reflexivity].
  do 4 rd_step (@rd_le_app hdr_err).
  unfold bind at 1. unfold map_err at 1. rewrite parse_uuid_app by auto.
  do 3 rd_step (@rd_le_app hdr_err).
  unfold bind at 1. rewrite <- (app_nil_r (le_bytes 4 pc)). rewrite rd_le_app by auto.
  reflexivity.
Qed.

Lemma parse_header_image h pc : wf_header h -> pc < 256 ^ 4 ->
  parse_header (hdr_image h pc (hdr_crc h pc)) = Ok (hdr_read h pc (hdr_crc h pc)).
Proof.
  intros H Hpc. pose proof H as (Hs & _). unfold parse_header.
  assert (E : hdr_image h pc (hdr_crc h pc) = signature h ++ skipn 8 (hdr_image h pc (hdr_crc h pc))).
  { rewrite <- (firstn_skipn 8 (hdr_image _ _ _)) at 1. f_equal.
    unfold hdr_image, hdr_pre. rewrite <- !app_assoc. apply firstn_app_l. rewrite Hs; auto. }
  rewrite E at 1. rewrite rd_bytes_app by (rewrite Hs; auto).
  rewrite Hs at 1. change (negb (bytes_eqb EFI_PART EFI_PART)) with false. cbv iota.
  rewrite read_fields_image by (auto; apply crc32_u32). cbn [obind].
  rewrite image_splice0 by (rewrite Hs; auto). cbn [hdr_read crc32_hdr].
  unfold hdr_crc at 1. rewrite N.eqb_refl. auto.
Qed.

(** Any 92 bytes: what the reader does, in terms of the bytes. *)
Definition field (off n : nat) (b : list byte) : N := le_val (firstn n (skipn off b)).
Definition raw_header (b : list byte) : header :=
  mkHeader (firstn 8 b) (field 10 2 b) (field 8 2 b) (field 12 4 b) (field 16 4 b) (field 20 4 b)
    (field 24 8 b) (field 32 8 b) (field 40 8 b) (field 48 8 b)
    (uuid_of_disk (firstn 16 (skipn 56 b)))
    (field 72 8 b) (field 80 4 b) (field 84 4 b) (field 88 4 b).

Lemma rd_le_firstn {E} n r : (n <= length r)%nat ->
  @rd_le E n r = (Ok (le_val (firstn n r)), skipn n r).
Proof.
  intros H. rewrite <- (firstn_skipn n r) at 1. rewrite rd_le_app_raw; auto.
  rewrite firstn_length. lia.
Qed.
Lemma skipn_add {A} a b (l : list A) : skipn a (skipn b l) = skipn (b + a) l.
Proof. revert l; induction b; intros [|x l]; simpl; auto. destruct a; auto. Qed.

Lemma read_fields_raw b : length b = 92%nat ->
  fst (read_fields (firstn 8 b) (skipn 8 b)) = Ok (raw_header b).
Proof.
  intros H. unfold read_fields, raw_header, field.
  do 9 (unfold bind at 1; rewrite rd_le_firstn by (rewrite ?skipn_add, skipn_length; lia);
        rewrite ?skipn_add; cbn [Nat.add]).
  unfold bind at 1. unfold map_err at 1.
  rewrite <- (firstn_skipn 16 (skipn 56 b)) at 1.
  rewrite parse_uuid_raw by (rewrite firstn_length, skipn_length; lia).
  rewrite ?skipn_add; cbn [Nat.add].
  do 4 (unfold bind at 1; rewrite rd_le_firstn by (rewrite ?skipn_add, skipn_length; lia);
        rewrite ?skipn_add; cbn [Nat.add]).
  reflexivity.
Qed.

Definition crc_ok (b : list byte) : bool :=
  crc32 (splice 16 (zeros 4) b) =? field 16 4 b.

Lemma parse_header_raw b : length b = 92%nat ->
  parse_header b =
  if bytes_eqb (firstn 8 b) EFI_PART
  then if crc_ok b then Ok (raw_header b) else Err HInvalidCRC32Checksum
  else Err HInvalidGptSignature.
Proof.
  intros H. unfold parse_header. rewrite <- (firstn_skipn 8 b) at 1.
  rewrite rd_bytes_app by (rewrite firstn_length; lia).
  destruct (bytes_eqb (firstn 8 b) EFI_PART); simpl negb; cbv iota; auto.
  rewrite read_fields_raw by auto. cbn [obind]. cbn [raw_header crc32_hdr]. fold (crc_ok b). auto.
Qed.

Lemma field_bound off n b : (off + n <= length b)%nat -> field off n b < 256 ^ N.of_nat n.
Proof.
  intros H. unfold field. pose proof (le_val_bound (firstn n (skipn off b))) as B.
  unfold lenN in B. rewrite firstn_length, skipn_length in B. rewrite Nat.min_l in B by lia. auto.
Qed.

(** What a header that was read satisfies. *)
Lemma parse_header_ok_wf b h : length b = 92%nat -> parse_header b = Ok h ->
  wf_header h /\ crc32_hdr h < 256 ^ 4 /\ reserved h < 256 ^ 4 /\ crc32_parts h < 256 ^ 4.
Proof.
  intros H E. rewrite parse_header_raw in E by auto.
  destruct (bytes_eqb (firstn 8 b) EFI_PART) eqn:ES; [|discriminate].
  destruct (crc_ok b); [|discriminate]. injection E as <-.
  apply bytes_eqb_eq in ES. unfold wf_header, raw_header; cbn [signature rev_major rev_minor
    header_size_le current_lba backup_lba first_usable last_usable disk_guid part_start num_parts part_size
    crc32_parts crc32_hdr reserved].
  change (modulus 64) with (256 ^ 8). change (modulus 32) with (256 ^ 4).
  repeat split; auto;
    try (apply (field_bound _ 2); lia); try (apply (field_bound _ 4); lia);
    try (apply (field_bound _ 8); lia).
  apply uuid_of_disk_wf. rewrite firstn_length, skipn_length. lia.
Qed.

(** A header read back is the one whose image the bytes are, when [reserved] is zero. *)
Lemma raw_header_image b : length b = 92%nat -> firstn 4 (skipn 20 b) = zeros 4 ->
  hdr_image (raw_header b) (crc32_parts (raw_header b)) (crc32_hdr (raw_header b)) = b.
Proof.
  intros H Hz. unfold hdr_image, hdr_pre, hdr_post, raw_header, field; cbn [signature rev_major rev_minor
    header_size_le current_lba backup_lba first_usable last_usable disk_guid part_start num_parts part_size
    crc32_parts crc32_hdr].
  rewrite !le_bytes_le_val_n by (rewrite firstn_length, skipn_length; lia).
  rewrite uuid_of_disk_le by (rewrite firstn_length, skipn_length; lia).
  rewrite <- Hz, <- !app_assoc.
  assert (X : forall o n k, o = (k + n)%nat -> firstn n (skipn k b) ++ skipn o b = skipn k b).
  { intros o n k ->. rewrite <- skipn_add. apply firstn_skipn. }
  assert (L : firstn 4 (skipn 88 b) = skipn 88 b).
  { apply firstn_all2. rewrite skipn_length. lia. }
  rewrite L. rewrite !X by reflexivity. apply firstn_skipn.
Qed.

(** * Reading from a device *)
Lemma attempt_ok {S E F A} (m : M S E A) s a s' : m s = (Ok a, s') -> @attempt S E F A m s = (Ok (Ok a), s').
Proof. intros H; unfold attempt; rewrite H; auto. Qed.
Lemma attempt_err {S E F A} (m : M S E A) s e s' : m s = (Err e, s') -> @attempt S E F A m s = (Ok (Err e), s').
Proof. intros H; unfold attempt; rewrite H; auto. Qed.

Definition read_header_at (off : N) (l : list byte) : outcome hdr_err header :=
  if off + 92 <=? lenN l then parse_header (slice off 92 l) else Err (HIo IoUnexpectedEof).

Lemma file_read_header_ok off d : healthy d ->
  exists p, file_read_header off d = (read_header_at off (data d), set_pos d p).
Proof.
  intros H. unfold file_read_header, read_header_at.
  unfold bind at 1. rewrite (attempt_ok _ _ off (set_pos d off)) by (apply seek_start_ok; auto).
  unfold bind, map_err.
  destruct (N.leb_spec (off + 92) (lenN (data d))).
  - rewrite read_exact_ok; [|apply healthy_set_pos; auto|exact H0].
    eexists. unfold lift. cbn. reflexivity.
  - destruct (read_exact_eof 92 (set_pos d off)) as (p & E); [apply healthy_set_pos; auto|lia|exact H0|].
    rewrite E. eexists. unfold set_pos; cbn. reflexivity.
Qed.

Lemma parse_header_no_panic b : length b = 92%nat -> parse_header b <> Panic.
Proof.
  intros H. rewrite parse_header_raw by auto.
  destruct (bytes_eqb (firstn 8 b) EFI_PART), (crc_ok b); discriminate.
Qed.
Lemma read_header_at_no_panic off l : read_header_at off l <> Panic.
Proof.
  unfold read_header_at. destruct (N.leb_spec (off + 92) (lenN l)); [|discriminate].
  apply parse_header_no_panic. pose proof (slice_length off 92 l H). unfold lenN in *; lia.
Qed.

Lemma stream_position_or_0_ok d : healthy d -> stream_position_or_0 d = (Ok (pos d), d).
Proof.
  intros H. unfold stream_position_or_0, bind.
  rewrite (attempt_ok _ _ (pos d) d) by (apply stream_position_ok; auto). reflexivity.
Qed.

Lemma set_pos_same d : set_pos d (pos d) = d.
Proof. destruct d; auto. Qed.
Lemma set_pos_set_pos d a b : set_pos (set_pos d a) b = set_pos d b.
Proof. auto. Qed.

Lemma read_primary_header_ok lb d : healthy d ->
  read_primary_header lb d = (read_header_at (lb_u64 lb) (data d), d).
Proof.
  intros H. unfold read_primary_header.
  unfold bind at 1. rewrite stream_position_or_0_ok by auto.
  destruct (file_read_header_ok (lb_u64 lb) d H) as (p & E).
  pose proof (read_header_at_no_panic (lb_u64 lb) (data d)).
  unfold bind at 1. unfold attempt at 1. rewrite E.
  destruct (read_header_at (lb_u64 lb) (data d)) eqn:ER; [| |contradiction];
    unfold bind; rewrite (attempt_ok _ _ (pos d) d);
    auto; rewrite seek_start_ok by (apply healthy_set_pos; auto);
    rewrite set_pos_set_pos, set_pos_same; auto.
Qed.

Lemma find_backup_lba_ok lb d : healthy d ->
  find_backup_lba lb d =
  (if dev_len d <? lb_u64 lb * 3 then Err HToSmallForBackup
   else Ok ((dev_len d - lb_u64 lb) / lb_u64 lb), d).
Proof.
  intros H. unfold find_backup_lba.
  unfold bind at 1. unfold map_err at 1. rewrite stream_position_ok by auto.
  unfold bind at 1. unfold map_err at 1. rewrite seek_end_ok by auto.
  unfold bind at 1. unfold map_err at 1. rewrite seek_start_ok by (apply healthy_set_pos; auto).
  rewrite set_pos_set_pos, set_pos_same.
  destruct (dev_len d <? lb_u64 lb * 3); auto.
Qed.

(** The block holding the backup header: the last whole block. *)
Definition last_block (lb : lbsize) (d : dev) : N := dev_len d / lb_u64 lb - 1.
Lemma last_block_eq lb d : lb_u64 lb * 3 <= dev_len d ->
  (dev_len d - lb_u64 lb) / lb_u64 lb = last_block lb d.
Proof.
  intros H. unfold last_block. pose proof (lb_pos lb).
  replace (dev_len d) with ((dev_len d - lb_u64 lb) + 1 * lb_u64 lb) at 2 by lia.
  rewrite N.div_add by lia. lia.
Qed.
Lemma last_block_bound lb d : lb_u64 lb * 3 <= dev_len d ->
  (last_block lb d + 1) * lb_u64 lb <= dev_len d < (last_block lb d + 2) * lb_u64 lb
  /\ 2 <= last_block lb d.
Proof.
  intros H. pose proof (lb_pos lb). unfold last_block.
  pose proof (N.div_mod (dev_len d) (lb_u64 lb)).
  pose proof (N.mod_lt (dev_len d) (lb_u64 lb)).
  assert (3 <= dev_len d / lb_u64 lb) by (apply N.div_le_lower_bound; lia).
  set (q := dev_len d / lb_u64 lb) in *. replace (q - 1 + 1) with q by lia.
  replace (q - 1 + 2) with (q + 1) by lia. nia.
Qed.

Definition read_backup_at (lb : lbsize) (d : dev) : outcome hdr_err header :=
  if dev_len d <? lb_u64 lb * 3 then Err HToSmallForBackup
  else read_header_at (last_block lb d * lb_u64 lb) (data d).

Lemma read_backup_header_ok lb d : healthy d -> dev_len d < modulus 64 ->
  read_backup_header lb d = (read_backup_at lb d, d).
Proof.
  intros H HL. unfold read_backup_header, read_backup_at.
  unfold bind at 1. rewrite stream_position_or_0_ok by auto.
  unfold bind at 1. rewrite find_backup_lba_ok by auto.
  destruct (N.ltb_spec (dev_len d) (lb_u64 lb * 3)); auto.
  rewrite last_block_eq by auto. pose proof (last_block_bound lb d H0) as [[B1 B2] B3].
  unfold bind at 1. rewrite checked_mul64_ok by lia. cbn [lift ok_or].
  destruct (file_read_header_ok (last_block lb d * lb_u64 lb) d H) as (p & E).
  pose proof (read_header_at_no_panic (last_block lb d * lb_u64 lb) (data d)).
  unfold bind at 1. unfold attempt at 1. rewrite E.
  destruct (read_header_at (last_block lb d * lb_u64 lb) (data d)) eqn:ER; [| |contradiction];
    unfold bind; rewrite (attempt_ok _ _ (pos d) d);
    auto; rewrite seek_start_ok by (apply healthy_set_pos; auto);
    rewrite set_pos_set_pos, set_pos_same; auto.
Qed.

(** * Writing to a device *)
Definition hdr_block (h : header) (pc : N) (lb : lbsize) : list byte :=
  hdr_image h pc (hdr_crc h pc) ++ zeros (N.to_nat (lb_u64 lb) - 92).
Lemma hdr_block_lenN h pc lb : length (signature h) = 8%nat -> wf_uuid (disk_guid h) ->
  lenN (hdr_block h pc lb) = lb_u64 lb.
Proof.
  intros H1 H2. unfold hdr_block, lenN. rewrite app_length, length_image, zeros_length by auto.
  pose proof (lb_pos lb). lia.
Qed.

Definition table_crc (h : header) (lb : lbsize) (l : list byte) : N :=
  crc32 (slice (part_start h * lb_u64 lb) (num_parts h * part_size h) l).

Lemma table_crc_u32 h lb l : table_crc h lb l < 256 ^ 4.
Proof. apply crc32_u32. Qed.

Lemma partentry_checksum_ok h lb d : healthy d ->
  part_start h * lb_u64 lb + num_parts h * part_size h <= dev_len d -> dev_len d < modulus 64 ->
  exists p, partentry_checksum h lb d = (Ok (table_crc h lb (data d)), set_pos d p).
Proof.
  intros H H1 H2. unfold partentry_checksum.
  unfold bind at 1. rewrite checked_mul64_ok by lia. cbn [lift ok_or].
  unfold bind at 1. unfold map_err at 1. rewrite seek_start_ok by auto.
  unfold bind at 1. rewrite checked_mul64_ok by lia. cbn [lift ok_or].
  unfold bind at 1. unfold map_err at 1.
  rewrite read_exact_ok; [|apply healthy_set_pos; auto|exact H1].
  eexists. reflexivity.
Qed.

(** The header as it is left in memory after writing. *)
Definition hdr_written (h : header) (pc : N) : header := set_crc32 (set_crc32_parts h pc) (hdr_crc h pc).

Lemma seek_patch {E} h pc c : length (signature h) = 8%nat -> wf_uuid (disk_guid h) ->
  @bind _ E _ _ (wr_seek 16) (fun _ => wr_le 4 c) (mkWarr (hdr_image h pc 0) 92)
  = (Ok tt, mkWarr (hdr_image h pc c) 20).
Proof.
  intros Hs Hg. unfold bind, wr_seek. cbn [arr]. rewrite length_image by auto. cbn [Nat.leb].
  unfold wr_le, wr_bytes. rewrite le_bytes_length. cbn [wpos arr]. rewrite length_image by auto.
  cbn [Nat.leb Nat.add]. rewrite image_splice by auto. reflexivity.
Qed.

Lemma file_write_header_ok h lba lb d : healthy d ->
  length (signature h) = 8%nat -> wf_uuid (disk_guid h) ->
  part_start h * lb_u64 lb + num_parts h * part_size h <= dev_len d -> dev_len d < modulus 64 ->
  lba * lb_u64 lb + lb_u64 lb <= dev_len d ->
  let pc := table_crc h lb (data d) in
  exists p, file_write_header h lba lb d =
    (Ok (lb_u64 lb), (hdr_written h pc,
       set_data d (store (lba * lb_u64 lb) (hdr_block h pc lb) (data d)) p)).
Proof.
  intros H Hs Hg H1 H2 H3 pc. unfold file_write_header.
  destruct (partentry_checksum_ok h lb d H H1 H2) as (p & ->). fold pc.
  rewrite hdr_to_bytes_eq by auto.
  set (h1 := set_crc32_parts h pc).
  assert (EI : forall c, hdr_image h1 pc c = hdr_image h pc c) by reflexivity.
  rewrite EI. cbn [arr].
  change (crc32 (hdr_image h pc 0)) with (hdr_crc h pc).
  rewrite seek_patch by auto. unfold bind. rewrite checked_mul64_ok by lia. cbn [lift ok_or arr].
  unfold map_err. rewrite seek_start_ok by (apply healthy_set_pos; auto).
  assert (EB : firstn (N.to_nat (lb_u64 lb))
            (hdr_image h pc (hdr_crc h pc) ++ zeros (N.to_nat (lb_u64 lb) - 92)) = hdr_block h pc lb).
  { apply firstn_all2. pose proof (hdr_block_lenN h pc lb Hs Hg). unfold lenN, hdr_block in *. lia. }
  rewrite EB. rewrite write_all_ok.
  2: { do 2 apply healthy_set_pos; auto. }
  2: { cbn [pos set_pos]. rewrite hdr_block_lenN by auto. unfold dev_len in *; cbn. lia. }
  cbn [ret]. rewrite hdr_block_lenN by auto. eexists. reflexivity.
Qed.

(** What is read from where a header was written. *)
Lemma slice_hdr_block h pc lb : length (signature h) = 8%nat -> wf_uuid (disk_guid h) ->
  slice 0 92 (hdr_block h pc lb) = hdr_image h pc (hdr_crc h pc).
Proof.
  intros H1 H2. unfold slice, hdr_block. cbn [N.to_nat skipn].
  apply firstn_app_l. rewrite length_image by auto. reflexivity.
Qed.
Lemma read_header_at_store h pc lb off l : wf_header h -> pc < 256 ^ 4 ->
  read_header_at off (store off (hdr_block h pc lb) l) = Ok (hdr_read h pc (hdr_crc h pc)).
Proof.
  intros H Hpc. pose proof H as (Hs & H'). assert (Hg : wf_uuid (disk_guid h)) by apply H'.
  assert (L8 : length (signature h) = 8%nat) by (rewrite Hs; auto).
  unfold read_header_at. pose proof (hdr_block_lenN h pc lb L8 Hg) as HB. pose proof (lb_pos lb).
  rewrite store_lenN by (intros E; rewrite E in HB; unfold lenN in HB; simpl in HB; lia).
  destruct (N.leb_spec (off + 92) (N.max (lenN l) (off + lenN (hdr_block h pc lb)))); [|lia].
  rewrite slice_store_inner by lia. replace (off - off) with 0 by lia.
  rewrite slice_hdr_block by auto. apply parse_header_image; auto.
Qed.
