(** ReopenFacts.v - reading back what write_inplace wrote: reopening, idempotence, recovery. *)
From Verif Require Export OpenFacts.
Open Scope list_scope.
Open Scope N_scope.

Lemma hdr_written_primary_read lb h c :
  hdr_read (new_primary lb h) c (hdr_crc (new_primary lb h) c) = hdr_written (new_primary lb h) c.
Proof. reflexivity. Qed.
Lemma hdr_written_backup_read lb h c :
  hdr_read (new_backup lb h) c (hdr_crc (new_backup lb h) c) = hdr_written (new_backup lb h) c.
Proof. reflexivity. Qed.

Lemma read_header_at_other off off' bs l :
  off + 92 <= off' \/ off' + lenN bs <= off -> off + 92 <= lenN l -> off' + lenN bs <= lenN l ->
  read_header_at off (store off' bs l) = read_header_at off l.
Proof.
  intros H H1 H2. unfold read_header_at. rewrite store_lenN_in by auto.
  destruct (_ <=? _); auto. rewrite slice_store_other; auto.
Qed.

Section Image.
  Variables (lb : lbsize) (h : header) (ps : list partition) (l0 : list byte).
  Hypothesis S : sane lb (lenN l0) h.
  Hypothesis HU : lenN ps <= num_parts h.
  Let L := final_image lb h ps l0.
  Let T := table_image h ps.
  Let P := hdr_written (new_primary lb h) (crc32 T).
  Let B := hdr_written (new_backup lb h) (crc32 T).

  Lemma image_lens : lenN T = 128 * num_parts h /\
    lenN (hdr_block (new_primary lb h) (crc32 T) lb) = lb_u64 lb /\
    lenN (hdr_block (new_backup lb h) (crc32 T) lb) = lb_u64 lb.
  Proof.
    assert (wf_uuid (disk_guid h)) by apply S.
    repeat split; try (apply hdr_block_lenN; auto). apply table_bytes_lenN; auto.
  Qed.

  Lemma image_facts :
    lenN L = lenN l0 /\
    slice (lb_u64 lb) (lb_u64 lb) L = hdr_block (new_primary lb h) (crc32 T) lb /\
    slice (blba h * lb_u64 lb) (lb_u64 lb) L = hdr_block (new_backup lb h) (crc32 T) lb /\
    slice (2 * lb_u64 lb) (128 * num_parts h) L = T /\
    slice ((blba h - ablocks (num_parts h) 128 lb) * lb_u64 lb) (128 * num_parts h) L = T.
  Proof.
    destruct image_lens as (LT & LP & LB).
    pose proof (sane_areas _ _ _ S) as (A1 & A2 & A3 & A4 & A5 & A6).
    unfold L, final_image. fold T. set (t := ablocks (num_parts h) 128 lb) in *.
    set (hp := hdr_block (new_primary lb h) (crc32 T) lb) in *.
    set (hb := hdr_block (new_backup lb h) (crc32 T) lb) in *.
    set (l1 := store ((blba h - t) * lb_u64 lb) T l0).
    assert (L1 : lenN l1 = lenN l0) by (apply store_lenN_in; lia).
    set (l2 := store (2 * lb_u64 lb) T l1).
    assert (L2 : lenN l2 = lenN l0) by (unfold l2; rewrite store_lenN_in; lia).
    set (l3 := store (blba h * lb_u64 lb) hb l2).
    assert (L3 : lenN l3 = lenN l0) by (unfold l3; rewrite store_lenN_in; lia).
    split; [rewrite store_lenN_in; lia|].
    split; [apply slice_store_same; auto|].
    split; [rewrite slice_store_other by lia; apply slice_store_same; auto|].
    split.
    - rewrite slice_store_other by lia. unfold l3. rewrite slice_store_other by lia.
      apply slice_store_same; auto.
    - rewrite slice_store_other by lia. unfold l3. rewrite slice_store_other by lia.
      unfold l2. rewrite slice_store_other by lia. apply slice_store_same; auto.
  Qed.

  Lemma image_len : lenN L = lenN l0.
  Proof. apply image_facts. Qed.

  Hypothesis H64 : lenN l0 < modulus 64.
  Lemma read_from_block off hd : wf_header hd -> off + lb_u64 lb <= lenN L ->
    slice off (lb_u64 lb) L = hdr_block hd (crc32 T) lb ->
    read_header_at off L = Ok (hdr_read hd (crc32 T) (hdr_crc hd (crc32 T))).
  Proof.
    intros W HL E. rewrite <- (store_same off (hdr_block hd (crc32 T) lb) L).
    - apply read_header_at_store; auto. apply crc32_u32.
    - destruct W as (W1 & W2). rewrite hdr_block_lenN; auto. rewrite W1; auto. apply W2.
    - destruct W as (W1 & W2). rewrite hdr_block_lenN; auto. rewrite W1; auto. apply W2.
  Qed.
  Lemma image_primary : read_header_at (lb_u64 lb) L = Ok P.
  Proof.
    pose proof image_facts as (F1 & F2 & _).
    pose proof (sane_areas _ _ _ S) as (A1 & A2 & A3 & A4 & A5 & A6).
    rewrite (read_from_block _ (new_primary lb h));
      [reflexivity|eapply new_primary_wf; eauto|rewrite F1; lia|auto].
  Qed.
  Lemma image_backup : read_header_at (blba h * lb_u64 lb) L = Ok B.
  Proof.
    pose proof image_facts as (F1 & _ & F3 & _).
    pose proof (sane_areas _ _ _ S) as (A1 & A2 & A3 & A4 & A5 & A6).
    rewrite (read_from_block _ (new_backup lb h));
      [reflexivity|eapply new_backup_wf; eauto|rewrite F1; lia|auto].
  Qed.

  Hypothesis HW : Forall (fun p => wf_part p /\ is_used p = true) ps.
  Lemma read_parts_image hd l : lenN l = lenN l0 ->
    num_parts hd = num_parts h -> part_size hd = 128 -> crc32_parts hd = crc32 T ->
    part_start hd * lb_u64 lb + 128 * num_parts h <= lenN l ->
    slice (part_start hd * lb_u64 lb) (128 * num_parts h) l = T ->
    read_parts_at hd lb l = Ok (number 1 (map normal ps)).
  Proof.
    intros F1 E1 E2 E3 E4 E5. unfold read_parts_at, parts_of, table_of. rewrite E1, E2, E3.
    replace (num_parts h * 128) with (128 * num_parts h) by lia.
    destruct (N.leb_spec (modulus 64) (part_start hd * lb_u64 lb)); [lia|].
    destruct (N.leb_spec (part_start hd * lb_u64 lb + 128 * num_parts h) (lenN l)); [|lia].
    rewrite E5. rewrite N.eqb_refl. f_equal. apply table_parts_table; auto.
  Qed.
  Lemma image_parts : read_parts_at P lb L = Ok (number 1 (map normal ps)) /\
    read_parts_at B lb L = Ok (number 1 (map normal ps)).
  Proof.
    pose proof image_facts as (F1 & _ & _ & F4 & F5).
    pose proof (sane_areas _ _ _ S) as (A1 & A2 & A3 & A4 & A5 & A6).
    split; apply read_parts_image; auto;
      cbn [P B hdr_written new_primary new_backup set_crc32 set_crc32_parts part_start].
    - lia.
    - lia.
  Qed.
End Image.

Lemma sane_written_primary lb len h c : sane lb len h -> sane lb len (hdr_written (new_primary lb h) c).
Proof.
  intros S. pose proof (sane_new_primary _ _ _ S) as [Q1 Q2 Q3 Q4 Q5 Q6 Q7 Q8].
  constructor; auto.
Qed.
Lemma sane_written_backup lb len h c : sane lb len h -> sane lb len (hdr_written (new_backup lb h) c).
Proof.
  intros S. pose proof (sane_new_backup _ _ _ S) as [Q1 Q2 Q3 Q4 Q5 Q6 Q7 Q8].
  constructor; auto.
Qed.
Lemma blba_written_primary lb len h c : sane lb len h -> blba (hdr_written (new_primary lb h) c) = blba h.
Proof. apply blba_new_primary. Qed.
Lemma blba_written_backup lb len h c : sane lb len h -> blba (hdr_written (new_backup lb h) c) = blba h.
Proof. apply blba_new_backup. Qed.

(** The image written from either header read back is the image written before. *)
Lemma final_image_primary lb len h c ps l : sane lb len h ->
  final_image lb (hdr_written (new_primary lb h) c) ps l = final_image lb h ps l.
Proof.
  intros S. set (h' := hdr_written (new_primary lb h) c).
  assert (EB : blba h' = blba h) by (eapply blba_written_primary; eauto).
  assert (E1 : new_primary lb h' = new_primary lb h) by (apply new_primary_ext; auto).
  assert (E2 : new_backup lb h' = new_backup lb h) by (apply new_backup_ext; auto).
  unfold final_image. rewrite E1, E2, EB. reflexivity.
Qed.
Lemma final_image_backup lb len h c ps l : sane lb len h ->
  final_image lb (hdr_written (new_backup lb h) c) ps l = final_image lb h ps l.
Proof.
  intros S. set (h' := hdr_written (new_backup lb h) c).
  assert (EB : blba h' = blba h) by (eapply blba_written_backup; eauto).
  assert (E1 : new_primary lb h' = new_primary lb h) by (apply new_primary_ext; auto).
  assert (E2 : new_backup lb h' = new_backup lb h) by (apply new_backup_ext; auto).
  unfold final_image. rewrite E1, E2, EB. reflexivity.
Qed.

(** Two contents that differ at most in the metadata areas have the same final image. *)
Definition agree_off (R : N -> Prop) (a b : list byte) : Prop :=
  lenN a = lenN b /\ forall i, ~ R i -> byte_at a i = byte_at b i.
Lemma agree_store R off bs a b : off + lenN bs <= lenN a -> agree_off R a b ->
  agree_off (fun i => R i /\ ~ in_area off (lenN bs) i) (store off bs a) (store off bs b).
Proof.
  intros HL [E H]. split; [rewrite !store_lenN_in by lia; auto|].
  intros i Hi. rewrite !byte_at_store_in by lia.
  destruct ((off <=? i) && (i <? off + lenN bs)) eqn:EB; auto.
  apply H. intros HR. apply Hi. split; auto. unfold in_area. intros [X Y].
  apply andb_false_iff in EB as [G|G]; [apply N.leb_gt in G|apply N.ltb_ge in G]; lia.
Qed.
Lemma agree_none R a b : (forall i, ~ R i) -> agree_off R a b -> a = b.
Proof. intros H [_ E]. apply byte_at_ext. intros i; auto. Qed.
Lemma final_image_agree lb h ps a b : sane lb (lenN a) h -> lenN ps <= num_parts h ->
  agree_off (fun i => primary_area lb h i \/ backup_area lb h i) a b ->
  final_image lb h ps a = final_image lb h ps b.
Proof.
  intros S HU HA. pose proof (image_lens lb h ps a S HU) as (LT & LP & LB).
  pose proof (sane_areas _ _ _ S) as (A1 & A2 & A3 & A4 & A5 & A6).
  unfold final_image. set (T := table_image h ps) in *. set (t := ablocks (num_parts h) 128 lb) in *.
  pose proof HA as [HL _].
  apply (agree_store _ ((blba h - t) * lb_u64 lb) T) in HA; [|lia].
  apply (agree_store _ (2 * lb_u64 lb) T) in HA; [|rewrite store_lenN_in; lia].
  apply (agree_store _ (blba h * lb_u64 lb) (hdr_block (new_backup lb h) (crc32 T) lb)) in HA;
    [|rewrite !store_lenN_in; rewrite ?store_lenN_in; lia].
  apply (agree_store _ (lb_u64 lb) (hdr_block (new_primary lb h) (crc32 T) lb)) in HA;
    [|rewrite !store_lenN_in; rewrite ?store_lenN_in; rewrite ?store_lenN_in; lia].
  refine (agree_none _ _ _ _ HA). intros i.
  rewrite LT, LP, LB. unfold primary_area, backup_area, in_area. fold t. lia.
Qed.

(** What writing leaves outside, and that rewriting changes nothing. *)
Lemma final_image_agree_off lb h ps l : sane lb (lenN l) h -> lenN ps <= num_parts h ->
  agree_off (fun i => primary_area lb h i \/ backup_area lb h i) (final_image lb h ps l) l.
Proof.
  intros S HU. pose proof (image_lens lb h ps l S HU) as (LT & LP & LB).
  pose proof (sane_areas _ _ _ S) as (A1 & A2 & A3 & A4 & A5 & A6).
  split; [apply image_len; auto|].
  intros i Hi. unfold final_image. set (T := table_image h ps) in *. set (t := ablocks (num_parts h) 128 lb) in *.
  unfold primary_area, backup_area, in_area in Hi. fold t in Hi.
  assert (L1 : lenN (store ((blba h - t) * lb_u64 lb) T l) = lenN l) by (apply store_lenN_in; lia).
  assert (L2 : lenN (store (2 * lb_u64 lb) T (store ((blba h - t) * lb_u64 lb) T l)) = lenN l)
    by (rewrite store_lenN_in; lia).
  assert (X : forall off bs a, off + lenN bs <= lenN a -> ~ (off <= i < off + lenN bs) ->
    byte_at (store off bs a) i = byte_at a i).
  { intros off bs a H1 H2. rewrite byte_at_store_in by auto.
    destruct (N.leb_spec off i), (N.ltb_spec i (off + lenN bs)); cbn; auto; lia. }
  rewrite X; [|rewrite store_lenN_in; lia|lia]. rewrite X; [|lia|lia].
  rewrite X; [|lia|lia]. apply X; lia.
Qed.
Lemma agree_off_sym R a b : agree_off R a b -> agree_off R b a.
Proof. intros [H1 H2]; split; auto. intros; symmetry; auto. Qed.
Lemma final_image_idem lb h ps l : sane lb (lenN l) h -> lenN ps <= num_parts h ->
  final_image lb h ps (final_image lb h ps l) = final_image lb h ps l.
Proof.
  intros S HU. pose proof (image_len lb h ps l S HU) as HL.
  apply final_image_agree; auto; [rewrite HL; auto|]. apply final_image_agree_off; auto.
Qed.

(** * Opening the written image *)
Lemma reopen_image oc cfg lb h ps l0 d :
  c_lb cfg = lb -> sane lb (lenN l0) h -> lenN l0 < modulus 64 -> lenN ps <= num_parts h ->
  Forall (fun p => wf_part p /\ is_used p = true) ps ->
  healthy d -> data d = final_image lb h ps l0 -> blba h = last_block lb d ->
  let c := crc32 (table_image h ps) in
  exists p, open_from_device oc cfg d =
    (Ok (mkGdisk cfg (set_pos d p) (disk_guid h)
           (Ok (hdr_written (new_primary lb h) c)) (Ok (hdr_written (new_backup lb h) c))
           (number 1 (map normal ps)) false), set_pos d p).
Proof.
  intros HC S H64 HU HW Hd HD HB c.
  pose proof (image_len lb h ps l0 S HU) as HL.
  assert (HDL : dev_len d = lenN l0) by (unfold dev_len; rewrite HD; auto).
  pose proof (sane_areas _ _ _ S) as (A1 & A2 & A3 & A4 & A5 & A6).
  assert (R1 : read_header_at (lb_u64 (c_lb cfg)) (data d) = Ok (hdr_written (new_primary lb h) c)).
  { rewrite HC, HD. apply image_primary; auto. }
  assert (R2 : read_backup_at (c_lb cfg) d = Ok (hdr_written (new_backup lb h) c)).
  { rewrite HC. unfold read_backup_at. destruct (N.ltb_spec (dev_len d) (lb_u64 lb * 3)); [nia|].
    rewrite <- HB, HD. apply image_backup; auto. }
  destruct (open_ok_128 oc cfg d (hdr_written (new_primary lb h) c)) as (p & E); auto.
  - lia.
  - rewrite R1, R2. reflexivity.
  - right. left. cbn. pose proof (s_np _ _ _ S). rewrite modulus_31, modulus_32 in *. lia.
  - exists p. rewrite E. rewrite R1, R2. rewrite HC, HD. unfold c.
    destruct (image_parts lb h ps l0 S HU H64 HW) as [-> _].
    reflexivity.
Qed.

(** A damaged primary: the backup is used. *)
Lemma reopen_backup oc cfg lb h ps l0 d :
  c_lb cfg = lb -> c_only_valid_headers cfg = false ->
  sane lb (lenN l0) h -> lenN l0 < modulus 64 -> lenN ps <= num_parts h ->
  Forall (fun p => wf_part p /\ is_used p = true) ps ->
  healthy d -> agree_off (primary_area lb h) (data d) (final_image lb h ps l0) ->
  (exists e, read_header_at (lb_u64 lb) (data d) = Err e) ->
  blba h = last_block lb d ->
  let c := crc32 (table_image h ps) in
  exists p, open_from_device oc cfg d =
    (Ok (mkGdisk cfg (set_pos d p) (disk_guid h)
           (read_header_at (lb_u64 lb) (data d)) (Ok (hdr_written (new_backup lb h) c))
           (number 1 (map normal ps)) false), set_pos d p).
Proof.
  intros HC HO S H64 HU HW Hd [HL HA] (e & HE) HB c.
  pose proof (image_facts lb h ps l0 S HU) as (F1 & F2 & F3 & F4 & F5).
  pose proof (sane_areas _ _ _ S) as (A1 & A2 & A3 & A4 & A5 & A6).
  set (t := ablocks (num_parts h) 128 lb) in *.
  assert (HDL : dev_len d = lenN l0) by (unfold dev_len; lia).
  assert (ES : forall off n, 2 * lb_u64 lb + 128 * num_parts h <= off ->
     slice off n (data d) = slice off n (final_image lb h ps l0)).
  { intros off n Ho. apply slice_eq_byte_at. intros i Hi. apply HA.
    unfold primary_area, in_area. lia. }
  assert (R2 : read_backup_at (c_lb cfg) d = Ok (hdr_written (new_backup lb h) c)).
  { rewrite HC. unfold read_backup_at. destruct (N.ltb_spec (dev_len d) (lb_u64 lb * 3)); [nia|].
    rewrite <- HB. pose proof (image_backup lb h ps l0 S HU H64) as IB.
    unfold read_header_at in *. rewrite HL, ES by lia. exact IB. }
  destruct (open_ok_128 oc cfg d (hdr_written (new_backup lb h) c)) as (p & E); auto.
  - lia.
  - rewrite R2. rewrite HC, HE. cbn. rewrite HO. reflexivity.
  - right. left. cbn. pose proof (s_np _ _ _ S). rewrite modulus_31, modulus_32 in *. lia.
  - exists p. rewrite E. rewrite R2. rewrite HC.
    rewrite (read_parts_image lb h ps l0 HU H64 HW).
    + reflexivity.
    + lia.
    + auto.
    + auto.
    + auto.
    + cbn. fold t. lia.
    + cbn. fold t. rewrite ES by lia. auto.
Qed.
