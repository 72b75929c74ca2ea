(** AcceptFacts.v - which headers and arrays are accepted, and that damage is detected. *)
From Verif Require Export Samples.
Open Scope list_scope.
Open Scope N_scope.

Lemma slice_0_8 off l : off + 92 <= lenN l -> firstn 8 (slice off 92 l) = slice off 8 l.
Proof. intros H. apply (firstn_slice 8 off 92 l). lia. Qed.
Lemma header_checksum_eq b : length b = 92%nat -> header_checksum b = crc32 (splice 16 (zeros 4) b).
Proof.
  intros H. unfold header_checksum, splice, range, zeros. change (N.to_nat 0) with 0%nat. cbn [skipn].
  change (N.to_nat 16) with 16%nat. change (N.to_nat 20) with 20%nat.
  rewrite repeat_length. change (16 + 4)%nat with 20%nat.
  rewrite (firstn_all2 (skipn 20 b)); [reflexivity|]. rewrite skipn_length. change (N.to_nat 72) with 72%nat. lia.
Qed.
Lemma num_at_slice off n a m l : off + n <= m -> num_at off n (slice a m l) = num_at (a + off) n l.
Proof. intros H. unfold num_at. rewrite !range_slice, slice_slice by exact H. reflexivity. Qed.
Lemma raw_header_bytes b : length b = 92%nat -> header_bytes b (raw_header b).
Proof.
  intros H. constructor; cbn [raw_header signature rev_minor rev_major header_size_le crc32_hdr reserved
    current_lba backup_lba first_usable last_usable disk_guid part_start num_parts part_size crc32_parts].
  - reflexivity.
  - apply (num_at_field 8 2). - apply (num_at_field 10 2). - apply (num_at_field 12 4).
  - apply (num_at_field 16 4). - apply (num_at_field 20 4). - apply (num_at_field 24 8).
  - apply (num_at_field 32 8). - apply (num_at_field 40 8). - apply (num_at_field 48 8).
  - symmetry. apply (guid_on_disk_invol (firstn 16 (skipn 56 b))).
  - apply (num_at_field 72 8). - apply (num_at_field 80 4). - apply (num_at_field 84 4).
  - apply (num_at_field 88 4).
Qed.
Lemma header_bytes_fun b h h' : header_bytes b h -> header_bytes b h' -> h = h'.
Proof.
  intros [A1 A2 A3 A4 A5 A6 A7 A8 A9 B1 B2 B3 B4 B5 B6] [C1 C2 C3 C4 C5 C6 C7 C8 C9 D1 D2 D3 D4 D5 D6].
  rewrite B2 in D2. apply guid_on_disk_inj in D2. destruct h as [a1 a2 a3 a4 a5 a6 a7 a8 a9 b1 b2 b3 b4 b5 b6], h' as [c1 c2 c3 c4 c5 c6 c7 c8 c9 d1 d2 d3 d4 d5 d6].
  cbn [signature rev_minor rev_major header_size_le crc32_hdr reserved current_lba backup_lba first_usable
    last_usable disk_guid part_start num_parts part_size crc32_parts] in *.
  subst. reflexivity.
Qed.
Lemma read_header_at_spec off l : header_at l off (read_header_at off l).
Proof.
  unfold read_header_at. destruct (N.leb_spec (off + 92) (lenN l)) as [H|H]; [|apply ha_short; exact H].
  assert (HL : length (slice off 92 l) = 92%nat) by (apply slice_length_nat; exact H).
  rewrite parse_header_raw by exact HL. rewrite slice_0_8 by exact H.
  destruct (bytes_eqb (slice off 8 l) EFI_PART) eqn:E.
  - apply bytes_eqb_eq in E. unfold crc_ok.
    assert (F : field 16 4 (slice off 92 l) = num_at (off + 16) 4 l).
    { rewrite <- (num_at_field 16 4). apply (num_at_slice 16 4 off 92 l). lia. }
    rewrite F, <- header_checksum_eq by exact HL.
    destruct (N.eqb_spec (header_checksum (slice off 92 l)) (num_at (off + 16) 4 l)) as [C|C].
    + apply ha_valid; [exact H|exact E|symmetry; exact C|]. apply raw_header_bytes. exact HL.
    + apply ha_checksum; [exact H|exact E|]. intros X. apply C. symmetry. exact X.
  - apply bytes_eqb_neq in E. apply ha_signature; [exact H|exact E].
Qed.
Lemma header_at_fun l off r r' : header_at l off r -> header_at l off r' -> r = r'.
Proof.
  intros A B. destruct A, B; try reflexivity; try contradiction; try congruence;
    try (exfalso; lia).
  f_equal. eapply header_bytes_fun; eauto.
Qed.

(** * Short changes *)
Lemma changed_split k n (l l' : list byte) :
  changed_only_in (between k (k + n)) l l' -> k + n <= lenN l ->
  exists pre w w' post, l = pre ++ w ++ post /\ l' = pre ++ w' ++ post /\
    lenN pre = k /\ lenN w = n /\ lenN w' = n.
Proof.
  intros [HL HB] H.
  assert (S : forall x, lenN x = lenN l -> x = slice 0 k x ++ slice k n x ++ slice (k + n) (lenN l - (k + n)) x).
  { intros x Hx. rewrite <- slice_app_split.
    replace (n + (lenN l - (k + n))) with (lenN l - k) by lia.
    change (slice k (lenN l - k) x) with (slice (0 + k) (lenN l - k) x).
    rewrite <- slice_app_split. replace (k + (lenN l - k)) with (lenN x) by lia.
    symmetry. apply slice_all. }
  exists (slice 0 k l), (slice k n l), (slice k n l'), (slice (k + n) (lenN l - (k + n)) l).
  split; [apply S; reflexivity|]. split.
  - rewrite (S l' HL) at 1. f_equal; [|f_equal].
    + apply slice_eq_byte_at. intros i Hi. apply HB. unfold between. lia.
    + apply slice_eq_byte_at. intros i Hi. apply HB. unfold between. lia.
  - rewrite !slice_length by lia. auto.
Qed.
Lemma app_lens {A} (a a' b b' : list A) : length a = length a' -> a ++ b = a' ++ b' -> a = a' /\ b = b'.
Proof. intros H E. eapply app_split_len; eauto. Qed.
(** A run of at most four bytes never leaves the CRC unchanged. *)
Lemma crc32_changed k n l l' : changed_only_in (between k (k + n)) l l' -> k + n <= lenN l -> n <= 4 ->
  l <> l' -> crc32 l <> crc32 l'.
Proof.
  intros C H Hn D. destruct (changed_split k n l l' C H) as (pre & w & w' & post & -> & -> & _ & W & W').
  apply crc32_burst; unfold lenN in *; try lia. congruence.
Qed.

Lemma header_checksum_split pre c post : lenN pre = 16 -> lenN c = 4 -> lenN post = 72 ->
  header_checksum (pre ++ c ++ post) = crc32 (pre ++ zeros 4 ++ post).
Proof.
  intros A B C. unfold header_checksum, range. change (N.to_nat 0) with 0%nat. cbn [skipn].
  unfold lenN in *. rewrite firstn_app_l by lia.
  replace (skipn (N.to_nat 20) (pre ++ c ++ post)) with post
    by (rewrite app_assoc, skipn_app_l; [reflexivity|rewrite app_length; lia]).
  rewrite firstn_all2 by lia. reflexivity.
Qed.
Lemma num_at_split pre c post : lenN pre = 16 -> lenN c = 4 ->
  num_at 16 4 (pre ++ c ++ post) = le_val c.
Proof.
  intros A B. unfold num_at, range. rewrite number_le_val. unfold lenN in *.
  rewrite skipn_app_l, firstn_app_l by lia. reflexivity.
Qed.
Lemma split_header (b : list byte) : lenN b = 92 ->
  exists pre c post, b = pre ++ c ++ post /\ lenN pre = 16 /\ lenN c = 4 /\ lenN post = 72.
Proof.
  intros H. unfold lenN in H. destruct (split_at 16 b) as (p & r & -> & Hp & Hr); [lia|].
  destruct (split_at 4 r) as (c & q & -> & Hc & Hq); [lia|].
  exists p, c, q. unfold lenN. rewrite !app_length in *. repeat split; lia.
Qed.
Lemma byte_no_app l1 l2 i : byte_no (l1 ++ l2) i = if i <? lenN l1 then byte_no l1 i else byte_no l2 (i - lenN l1).
Proof. apply byte_at_app. Qed.

(** Bytes of a changed header that would still pass must be unchanged. *)
Lemma header_damage b b' k n :
  lenN b = 92 -> changed_only_in (between k (k + n)) b b' -> k + n <= 92 -> n <= 4 ->
  (k + n <= 16 \/ 20 <= k \/ (16 <= k /\ k + n <= 20)) ->
  num_at 16 4 b = header_checksum b -> num_at 16 4 b' = header_checksum b' -> b = b'.
Proof.
  intros HL C Hk Hn HW V V'. destruct C as [HL' HB].
  destruct (split_header b HL) as (pre & c & post & -> & A1 & A2 & A3).
  destruct (split_header b') as (pre' & c' & post' & -> & B1 & B2 & B3); [lia|].
  rewrite header_checksum_split, num_at_split in V, V' by assumption.
  assert (BP : forall i, i < 16 -> ~ between k (k + n) i -> byte_no pre' i = byte_no pre i).
  { intros i Hi Hb. specialize (HB i Hb). rewrite !byte_no_app in HB.
    rewrite A1, B1 in HB. replace (i <? 16) with true in HB by (symmetry; apply N.ltb_lt; lia). exact HB. }
  assert (BC : forall i, i < 4 -> ~ between k (k + n) (16 + i) -> byte_no c' i = byte_no c i).
  { intros i Hi Hb. specialize (HB _ Hb). rewrite !byte_no_app in HB.
    rewrite A1, B1, A2, B2 in HB.
    replace (16 + i <? 16) with false in HB by (symmetry; apply N.ltb_ge; lia).
    replace (16 + i - 16) with i in HB by lia.
    replace (i <? 4) with true in HB by (symmetry; apply N.ltb_lt; lia). exact HB. }
  assert (BQ : forall i, ~ between k (k + n) (20 + i) -> byte_no post' i = byte_no post i).
  { intros i Hb. specialize (HB _ Hb). rewrite !byte_no_app in HB.
    rewrite A1, B1, A2, B2 in HB.
    replace (20 + i <? 16) with false in HB by (symmetry; apply N.ltb_ge; lia).
    replace (20 + i - 16) with (4 + i) in HB by lia.
    replace (4 + i <? 4) with false in HB by (symmetry; apply N.ltb_ge; lia).
    replace (4 + i - 4) with i in HB by lia. exact HB. }
  assert (EP : (forall i, i < 16 -> ~ between k (k + n) i) -> pre' = pre).
  { intros X. apply byte_at_ext. intros i. destruct (N.lt_ge_cases i 16) as [Hi|Hi].
    - apply BP; auto.
    - rewrite !byte_at_ge by lia. reflexivity. }
  assert (EC : (forall i, i < 4 -> ~ between k (k + n) (16 + i)) -> c' = c).
  { intros X. apply byte_at_ext. intros i. destruct (N.lt_ge_cases i 4) as [Hi|Hi].
    - apply BC; auto.
    - rewrite !byte_at_ge by lia. reflexivity. }
  assert (EQ : (forall i, ~ between k (k + n) (20 + i)) -> post' = post).
  { intros X. apply byte_at_ext. intros i. apply BQ; auto. }
  destruct HW as [HW|[HW|HW]].
  - assert (c' = c) by (apply EC; intros i Hi; unfold between; lia).
    assert (post' = post) by (apply EQ; intros i; unfold between; lia). subst c' post'.
    destruct (list_eq_dec Byte.byte_eq_dec pre pre') as [->|D]; [reflexivity|exfalso].
    assert (X : crc32 (pre ++ zeros 4 ++ post) <> crc32 (pre' ++ zeros 4 ++ post)).
    { apply (crc32_changed k n).
      - split; [rewrite !lenN_app; lia|]. intros i Hi. rewrite !byte_no_app, A1, B1.
        destruct (N.ltb_spec i 16); [apply BP; auto|reflexivity].
      - rewrite !lenN_app. lia.
      - exact Hn.
      - intros E. apply app_inv_tail in E. contradiction. }
    congruence.
  - assert (pre' = pre) by (apply EP; intros i Hi; unfold between; lia).
    assert (c' = c) by (apply EC; intros i Hi; unfold between; lia). subst c' pre'.
    destruct (list_eq_dec Byte.byte_eq_dec post post') as [->|D]; [reflexivity|exfalso].
    assert (X : crc32 (pre ++ zeros 4 ++ post) <> crc32 (pre ++ zeros 4 ++ post')).
    { apply (crc32_changed k n).
      - split; [rewrite !lenN_app; lia|]. intros i Hi. rewrite !byte_no_app, A1, lenN_zeros.
        destruct (N.ltb_spec i 16); [reflexivity|].
        destruct (N.ltb_spec (i - 16) (N.of_nat 4)); [reflexivity|].
        apply BQ. replace (20 + (i - 16 - N.of_nat 4)) with i by lia. exact Hi.
      - rewrite !lenN_app, lenN_zeros. lia.
      - exact Hn.
      - intros E. apply app_inv_head in E. apply app_inv_head in E. contradiction. }
    congruence.
  - assert (pre' = pre) by (apply EP; intros i Hi; unfold between; lia).
    assert (post' = post) by (apply EQ; intros i; unfold between; lia). subst pre' post'.
    assert (c = c') by (apply le_val_inj; unfold lenN in *; [lia|congruence]). congruence.
Qed.
(** The same on a device. *)
Lemma changed_slice R l l' off n : changed_only_in R l l' -> off + n <= lenN l ->
  changed_only_in (fun i => R (off + i)) (slice off n l) (slice off n l').
Proof.
  intros [HL HB] H. split; [rewrite !slice_length by lia; reflexivity|].
  intros i Hi. rewrite !byte_no_at, !byte_at_slice. destruct (i <? n); [apply HB; exact Hi|reflexivity].
Qed.
Lemma changed_weaken2 (R R' : N -> Prop) l l' : (forall i, R i -> R' i) ->
  changed_only_in R l l' -> changed_only_in R' l l'.
Proof. apply changed_only_in_weaken. Qed.
Lemma changed_in_slice k n l l' off m :
  changed_only_in (between (off + k) (off + k + n)) l l' -> k + n <= m -> off + m <= lenN l ->
  slice off m l = slice off m l' -> l = l'.
Proof.
  intros [HL HB] Hk Hm E. apply byte_at_ext. intros i.
  destruct (N.lt_ge_cases i off) as [H|H]; [symmetry; apply HB; unfold between; lia|].
  destruct (N.lt_ge_cases i (off + m)) as [H2|H2]; [|symmetry; apply HB; unfold between; lia].
  eapply byte_at_eq_slice; [exact E|lia].
Qed.
Lemma read_header_damage off l l' h k n :
  read_header_at off l = Ok h -> changed_only_in (between (off + k) (off + k + n)) l l' -> l <> l' ->
  k + n <= 92 -> n <= 4 -> (k + n <= 16 \/ 20 <= k \/ (16 <= k /\ k + n <= 20)) ->
  exists e, read_header_at off l' = Err e.
Proof.
  intros R C D Hk Hn HW.
  pose proof (read_header_at_spec off l) as S. rewrite R in S.
  pose proof (read_header_at_spec off l') as S'.
  destruct (read_header_at off l') as [h'|e|] eqn:E; [|exists e; reflexivity|exfalso; eapply read_header_at_no_panic; eauto].
  exfalso. inversion S as [| | |x HL _ V _]; subst x. inversion S' as [| | |x HL' _ V' _]; subst x.
  apply D. eapply (changed_in_slice k n l l' off 92); eauto.
  apply (header_damage _ _ k n); auto.
  - apply slice_length. exact HL.
  - eapply changed_weaken2; [|apply changed_slice; [exact C|exact HL]].
    unfold between. intros i. cbn beta. lia.
  - rewrite num_at_slice by lia. exact V.
  - rewrite num_at_slice by lia. exact V'.
Qed.

(** * Writing a header *)
Lemma all_zero_zeros n : all_zero (zeros n).
Proof. apply all_zero_iff. rewrite zeros_length. reflexivity. Qed.
Lemma file_write_header_written h lb lba d :
  fault_free d -> addressable d -> header_ok h ->
  array_at lb h + array_len h <= lenN (data d) -> (lba + 1) * lb_u64 lb <= lenN (data d) ->
  (array_at lb h + array_len h <= lba * lb_u64 lb \/ (lba + 1) * lb_u64 lb <= array_at lb h) ->
  exists h' r d', file_write_header h lba lb d = (Ok (lb_u64 lb), (h', d')) /\
    header_written lb h h' r lba (data d) (data d') /\ read_header_at (lba * lb_u64 lb) (data d') = Ok r /\
    fault_free d'.
Proof.
  intros HF HA HO HT HB HD. rewrite addressable_iff in HA. rewrite header_ok_iff in HO.
  assert (HO' := HO). destruct HO' as (W1 & _ & _ & _ & _ & _ & _ & _ & W2 & _).
  assert (L8 : length (signature h) = 8%nat) by (rewrite W1; reflexivity).
  unfold array_at, array_len in *.
  destruct (file_write_header_ok h lba lb d) as (p & E);
    [exact HF|exact L8|exact W2|unfold dev_len; lia|exact HA|unfold dev_len; lia|].
  set (pc := table_crc h lb (data d)) in *.
  rewrite E. exists (hdr_written h pc), (hdr_read h pc (hdr_crc h pc)). eexists. split; [reflexivity|].
  cbn [data set_data].
  pose proof (hdr_block_lenN h pc lb L8 W2) as HBL. pose proof (lb_pos lb) as LP.
  assert (RD : read_header_at (lba * lb_u64 lb) (store (lba * lb_u64 lb) (hdr_block h pc lb) (data d))
               = Ok (hdr_read h pc (hdr_crc h pc))).
  { apply read_header_at_store; [exact HO|]. apply table_crc_u32. }
  assert (EQ : slice (lba * lb_u64 lb) (lb_u64 lb) (store (lba * lb_u64 lb) (hdr_block h pc lb) (data d))
               = hdr_block h pc lb) by (apply slice_store_same; lia).
  split; [|split; [exact RD|exact HF]]. constructor.
  - apply changed_only_in_iff.
    replace (hdr_block h pc lb) with (firstn (length (hdr_block h pc lb)) (hdr_block h pc lb)) by apply firstn_all.
    apply only_in_store; [|lia|apply only_in_refl]. unfold between. intros i. lia.
  - rewrite range_slice.
    rewrite <- (slice_slice (lba * lb_u64 lb) (lb_u64 lb) 92 (lb_u64 lb - 92)) by lia.
    rewrite EQ. unfold hdr_block.
    assert (S : slice 92 (lb_u64 lb - 92)
      (hdr_image h pc (hdr_crc h pc) ++ zeros (N.to_nat (lb_u64 lb) - 92)) = zeros (N.to_nat (lb_u64 lb) - 92)).
    { unfold slice. rewrite skipn_app_l by (rewrite length_image; auto; lia).
      apply firstn_all2. rewrite zeros_length. lia. }
    rewrite S. apply all_zero_zeros.
  - rewrite <- RD. apply read_header_at_spec.
  - constructor; reflexivity.
  - reflexivity.
  - cbn [crc32_parts hdr_read]. unfold pc, table_crc. f_equal.
    symmetry. apply slice_store_other; [|lia].
    destruct HD as [HD|HD]; [left; exact HD|right]. eapply N.le_trans; [|exact HD].
    rewrite hdr_block_lenN by assumption. lia.
  - pose proof (read_header_at_spec (lba * lb_u64 lb) (store (lba * lb_u64 lb) (hdr_block h pc lb) (data d))) as S.
    rewrite RD in S. inversion S as [| | |x _ _ V B]; subst x. rewrite <- V.
    destruct B as [_ _ _ _ B _ _ _ _ _ _ _ _ _ _]. rewrite <- B.
    apply (num_at_slice 16 4 (lba * lb_u64 lb) 92). lia.
  - constructor; reflexivity.
  - reflexivity.
  - reflexivity.
Qed.
