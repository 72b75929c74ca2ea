(** RetryFacts.v - the state a write leaves, complete or interrupted, in the terms of Spec.v. *)
From Verif Require Export HistoryFacts.
Open Scope list_scope.
Open Scope N_scope.

Lemma sane_of lb len h : layout_ok lb len h -> sane lb len h.
Proof. apply layout_ok_iff. Qed.
Lemma headers_for_new lb h c :
  headers_for lb h (hdr_written (new_primary lb h) c) (hdr_written (new_backup lb h) c).
Proof.
  constructor; repeat split; cbn; rewrite ?backup_at_eq, ?array_blocks_eq; reflexivity.
Qed.
Lemma array_intact_slice lb hd l n c : part_size hd = 128 -> num_parts hd = n -> crc32_parts hd = c ->
  part_start hd * lb_u64 lb + 128 * n <= lenN l -> lenN l < modulus 64 ->
  crc32 (slice (part_start hd * lb_u64 lb) (128 * n) l) = c -> array_intact lb hd l.
Proof.
  intros E1 E2 E3 H1 H2 H3. unfold array_intact, array_at, array_len. rewrite E1, E2, E3.
  rewrite <- two64. split; [lia|]. split; [right; lia|]. rewrite range_slice.
  replace (n * 128) with (128 * n) by lia. exact H3.
Qed.

(** * The image with the primary copy only *)
Section Ro.
  Variables (lb : lbsize) (h : header) (ps : list partition) (l0 : list byte).
  Hypothesis S : sane lb (lenN l0) h.
  Hypothesis HU : lenN ps <= num_parts h.
  Let L := final_image_ro lb h ps l0.
  Let T := table_image h ps.
  Let P := hdr_written (new_primary lb h) (crc32 T).
  Lemma ro_facts :
    lenN L = lenN l0 /\
    slice (lb_u64 lb) (lb_u64 lb) L = hdr_block (new_primary lb h) (crc32 T) lb /\
    slice (2 * lb_u64 lb) (128 * num_parts h) L = T.
  Proof.
    destruct (image_lens lb h ps l0 S HU) as (LT & LP & LB).
    pose proof (sane_areas _ _ _ S) as (A1 & A2 & A3 & A4 & A5 & A6).
    unfold L, final_image_ro. fold T. fold T in LT, LP.
    set (hp := hdr_block (new_primary lb h) (crc32 T) lb) in *.
    set (l2 := store (2 * lb_u64 lb) T l0).
    assert (L2 : lenN l2 = lenN l0) by (unfold l2; rewrite store_lenN_in; lia).
    split; [rewrite store_lenN_in; lia|].
    split; [apply slice_store_same; auto|].
    rewrite slice_store_other by lia. apply slice_store_same; auto.
  Qed.
  Lemma ro_agree l1 : agree_off (primary_area lb h) l0 l1 -> final_image_ro lb h ps l0 = final_image_ro lb h ps l1.
  Proof.
    intros HA. pose proof (image_lens lb h ps l0 S HU) as (LT & LP & LB).
    pose proof (sane_areas _ _ _ S) as (A1 & A2 & A3 & A4 & A5 & A6).
    unfold final_image_ro. set (T' := table_image h ps) in *.
    pose proof HA as [HL _].
    apply (agree_store _ (2 * lb_u64 lb) T') in HA; [|lia].
    apply (agree_store _ (lb_u64 lb) (hdr_block (new_primary lb h) (crc32 T') lb)) in HA;
      [|rewrite store_lenN_in; lia].
    refine (agree_none _ _ _ _ HA). intros i.
    rewrite LT, LP. unfold primary_area, in_area. lia.
  Qed.
  Hypothesis H64 : lenN l0 < modulus 64.
  Lemma ro_primary : read_header_at (lb_u64 lb) L = Ok P.
  Proof.
    pose proof ro_facts as (F1 & F2 & _).
    pose proof (sane_areas _ _ _ S) as (A1 & A2 & A3 & A4 & A5 & A6).
    assert (W : wf_header (new_primary lb h)) by (eapply new_primary_wf; eauto).
    rewrite <- (store_same (lb_u64 lb) (hdr_block (new_primary lb h) (crc32 T) lb) L).
    - rewrite read_header_at_store; auto. apply crc32_u32.
    - destruct W as (W1 & W2). rewrite hdr_block_lenN; [lia|rewrite W1; auto|apply W2].
    - destruct W as (W1 & W2). rewrite hdr_block_lenN; [exact F2|rewrite W1; auto|apply W2].
  Qed.
End Ro.

(** * Reopening when only the primary copy is known to be right *)
Lemma reopen_primary oc cfg lb h ps (l0 : list byte) d :
  c_lb cfg = lb -> c_only_valid_headers cfg = false ->
  sane lb (lenN l0) h -> lenN l0 < modulus 64 -> lenN ps <= num_parts h ->
  Forall (fun p => wf_part p /\ is_used p = true) ps ->
  healthy d -> lenN (data d) = lenN l0 ->
  let P := hdr_written (new_primary lb h) (crc32 (table_image h ps)) in
  read_header_at (lb_u64 lb) (data d) = Ok P ->
  slice (2 * lb_u64 lb) (128 * num_parts h) (data d) = table_image h ps ->
  exists p, open_from_device oc cfg d =
    (Ok (mkGdisk cfg (set_pos d p) (disk_guid h) (Ok P) (read_backup_at lb d)
           (number 1 (map normal ps)) false), set_pos d p).
Proof.
  intros HC HV S H64 HU HW Hd HL P R1 R2.
  pose proof (sane_areas _ _ _ S) as (A1 & A2 & A3 & A4 & A5 & A6).
  destruct (open_ok_128 oc cfg d P) as (p & E); auto.
  - unfold dev_len. lia.
  - rewrite HC, R1. unfold select. rewrite HV. pose proof (read_backup_at_no_panic lb d).
    destruct (read_backup_at lb d); congruence.
  - right. left. cbn. pose proof (s_np _ _ _ S). rewrite modulus_31, modulus_32 in *. lia.
  - exists p. rewrite E. rewrite HC, R1.
    rewrite (read_parts_image lb h ps l0) with (hd := P); auto.
    unfold P. cbn [hdr_written set_crc32 set_crc32_parts new_primary part_start]. lia.
Qed.

(** * The header left by a write, whatever happened *)
Lemma same_header_refl h : same_header h h.
Proof. constructor; reflexivity. Qed.
Lemma file_write_header_keeps h lba lb d : same_header h (fst (snd (file_write_header h lba lb d))).
Proof.
  unfold file_write_header. destruct (partentry_checksum h lb d) as [[pc|e|] d1]; [|apply same_header_refl ..].
  cbn zeta. destruct (hdr_to_bytes _ _) as [[cp hb]|e|]; [|constructor; reflexivity ..].
  destruct ((wr_seek cp ;; wr_le 4 (crc32 (arr hb))) hb) as [[[]|e|] hb']; [|constructor; reflexivity ..].
  match goal with |- context [let (r, d) := ?m in _] => destruct m as [r d2] end. constructor; reflexivity.
Qed.
Lemma write_primary_keeps h lb d : same_header h (fst (snd (write_primary h lb d))).
Proof. unfold write_primary. destruct (_ <=? _); [apply same_header_refl|apply file_write_header_keeps]. Qed.

(** Headers that lead to the same image. *)
Definition equiv (lb : lbsize) (len : N) (h x : header) : Prop :=
  sane lb len x /\ blba x = blba h /\ first_usable x = first_usable h /\ disk_guid x = disk_guid h /\
  num_parts x = num_parts h /\ last_usable h <= last_usable x.
Lemma equiv_refl lb len h : sane lb len h -> equiv lb len h h.
Proof. intros S. split; [exact S|]. repeat split. apply N.le_refl. Qed.
Lemma equiv_trans lb len a b c : equiv lb len a b -> equiv lb len b c -> equiv lb len a c.
Proof.
  intros (A1 & A2 & A3 & A4 & A5 & A6) (B1 & B2 & B3 & B4 & B5 & B6). split; [exact B1|].
  repeat split; try congruence. lia.
Qed.
Lemma equiv_same lb len h x : sane lb len h -> same_header h x -> equiv lb len h x.
Proof.
  intros [S1 S2 S3 S4 S5 S6 S7 S8] [A1 A2 A3 A4 A5 A6 A7 A8 A9 B1 B2 B3].
  assert (EB : blba x = blba h) by (unfold blba; rewrite A5, A6; reflexivity).
  assert (EP : plba x = plba h) by (unfold plba; rewrite A5, A6; reflexivity).
  split; [|repeat split; try assumption; lia].
  constructor; rewrite ?EB, ?EP, ?A7, ?A8, ?A9, ?B1, ?B2, ?B3; assumption.
Qed.
Lemma equiv_new lb len h : sane lb len h -> equiv lb len h (new_primary lb h).
Proof. intros S. split; [apply sane_new_primary; auto|]. split; [eapply blba_new_primary; eauto|].
  repeat split. destruct S as [S1 S2 S3 S4 S5 S6 S7 S8]. cbn [new_primary last_usable]. lia. Qed.
Lemma image_equiv lb len h x ps l : equiv lb len h x ->
  final_image lb x ps l = final_image lb h ps l /\ final_image_ro lb x ps l = final_image_ro lb h ps l /\
  table_image x ps = table_image h ps.
Proof.
  intros (S & E1 & E2 & E3 & E4 & _).
  assert (X1 : new_primary lb x = new_primary lb h) by (apply new_primary_ext; auto).
  assert (X2 : new_backup lb x = new_backup lb h) by (apply new_backup_ext; auto).
  unfold final_image, final_image_ro, table_image. rewrite X1, X2, E1, E4. auto.
Qed.

Lemma write_inplace_header oc g h :
  try_header g = Ok h -> dev_len (g_device g) < modulus 64 ->
  sane (c_lb (g_config g)) (dev_len (g_device g)) h ->
  exists x, try_header (snd (write_inplace oc g)) = Ok x /\
    equiv (c_lb (g_config g)) (dev_len (g_device g)) h x.
Proof.
  intros HT H64 S. set (lb := c_lb (g_config g)) in *. set (len := dev_len (g_device g)) in *.
  destruct (c_writable (g_config g)) eqn:HW.
  2: { unfold write_inplace. rewrite HW. exists h. split; [exact HT|apply equiv_refl, S]. }
  set (bh := if c_readonly_backup (g_config g) then None else Some (new_backup lb h)).
  rewrite (write_inplace_eq oc g h (new_primary lb h) bh); auto.
  2: { eapply build_primary_sane; eauto. }
  2: { unfold bh. destruct (c_readonly_backup (g_config g)); auto.
       eexists. split; eauto. eapply build_backup_sane; eauto. }
  fold lb.
  set (J := fun g1 : gdisk => exists x, g_primary g1 = Ok x /\ same_header (new_primary lb h) x).
  assert (JT : forall g1, J g1 -> exists x, try_header g1 = Ok x /\ equiv lb len h x).
  { intros g1 (x & E & SH). exists x. unfold try_header. rewrite E. cbn. split; [reflexivity|].
    eapply equiv_trans; [apply equiv_new, S|]. apply equiv_same; [apply sane_new_primary, S|exact SH]. }
  assert (JR : forall g1, J g1 ->
    J (snd (write_rest oc lb (new_primary lb h) bh (g_partitions g) (g_sync g) g1))).
  { assert (X : always (fun a b => J a -> J b) (write_rest oc lb (new_primary lb h) bh (g_partitions g) (g_sync g))).
    { assert (T : forall a b c : gdisk, (J a -> J b) -> (J b -> J c) -> J a -> J c) by auto.
      assert (OD : forall A (m : M dev gpt_err A), always (fun a b => J a -> J b) (on_device m)).
      { intros A m g1 HJ. unfold on_device. destruct (m (g_device g1)). exact HJ. }
      unfold write_rest. apply always_bind; [exact T|apply OD|]. intros _.
      apply always_bind; [exact T| |].
      { destruct bh as [b|]; [|intros g1 HJ; exact HJ]. intros g1 HJ. unfold write_backup_of.
        destruct (write_backup b _ _) as [r [b' d']]. exact HJ. }
      intros _. apply always_bind; [exact T| |].
      { intros g1 HJ. unfold write_primary_of.
        pose proof (write_primary_keeps (new_primary lb h) (c_lb (g_config g1)) (g_device g1)) as K.
        destruct (write_primary _ _ _) as [r [b' d']]. cbn in K |- *. exists b'. split; [reflexivity|exact K]. }
      intros _. apply always_bind; [exact T|apply OD|]. intros _.
      destruct (g_sync g); [apply OD|]. intros g1 HJ. exact HJ. }
    exact X. }
  destruct (on_device (map_err GHeader (find_backup_lba lb)) g) as [[v|e|] g1] eqn:E.
  - rewrite (bind_ok E). rewrite (bind_ok (m := put_primary (new_primary lb h)) eq_refl).
    rewrite (bind_ok (m := put_backup bh) eq_refl). apply JT, JR.
    exists (new_primary lb h). split; [destruct bh; reflexivity|apply same_header_refl].
  - rewrite (bind_err E). exists h. split; [|apply equiv_refl, S].
    unfold on_device in E. destruct (map_err _ _ _). injection E as _ <-. exact HT.
  - rewrite (bind_panic E). exists h. split; [|apply equiv_refl, S].
    unfold on_device in E. destruct (map_err _ _ _). injection E as _ <-. exact HT.
Qed.

(** * What a successful write does, for both settings of readonly_backup *)
Definition image_for (cfg : config) (h : header) (ps : list partition) (l : list byte) : list byte :=
  if c_readonly_backup cfg then final_image_ro (c_lb cfg) h ps l else final_image (c_lb cfg) h ps l.
Lemma write_any oc g h : c_writable (g_config g) = true ->
  try_header g = Ok h -> good_dev (g_device g) ->
  sane (c_lb (g_config g)) (dev_len (g_device g)) h ->
  lenN (used_list (g_partitions g)) <= num_parts h ->
  exists g', write_inplace oc g = (Ok tt, g') /\
    let lb := c_lb (g_config g) in
    let ps := used_list (g_partitions g) in
    data (g_device g') = image_for (g_config g) h ps (data (g_device g)) /\
    g_primary g' = Ok (hdr_written (new_primary lb h) (crc32 (table_image h ps))) /\
    metadata_only g g' /\ faults (g_device g') = [].
Proof.
  intros HW HT HG S HU. assert (HG' := HG). destruct HG' as (HH & _). unfold image_for.
  destruct (c_readonly_backup (g_config g)) eqn:ER.
  - destruct (write_inplace_sane_ro oc g h HW ER HT HG S HU) as (g' & E & D & P & B & C & G & Q & Y & SS & _).
    exists g'. split; [exact E|]. split; [exact D|]. split; [exact P|]. split; [repeat split; assumption|].
    destruct SS as (_ & _ & F). rewrite F. exact HH.
  - destruct (write_inplace_sane oc g h HW ER HT HG S HU) as (g' & E & D & P & B & C & G & Q & Y & SS & _).
    exists g'. split; [exact E|]. split; [exact D|]. split; [exact P|]. split; [repeat split; assumption|].
    destruct SS as (_ & _ & F). rewrite F. exact HH.
Qed.
Lemma image_for_agree cfg h ps a b : sane (c_lb cfg) (lenN a) h -> lenN ps <= num_parts h ->
  agree_off (fun i => primary_area (c_lb cfg) h i \/
                      (c_readonly_backup cfg = false /\ backup_area (c_lb cfg) h i)) a b ->
  image_for cfg h ps a = image_for cfg h ps b.
Proof.
  intros S HU [HL HA]. unfold image_for. destruct (c_readonly_backup cfg).
  - apply ro_agree; auto. split; [exact HL|]. intros i Hi. apply HA. intros [X|(X & _)]; [auto|discriminate].
  - apply final_image_agree; auto. split; [exact HL|]. intros i Hi. apply HA. tauto.
Qed.

(** Trying again after an interrupted write gives what the write would have given. *)
Lemma retry oc oc' g h : c_writable (g_config g) = true ->
  try_header g = Ok h -> dev_len (g_device g) < modulus 64 ->
  sane (c_lb (g_config g)) (dev_len (g_device g)) h ->
  lenN (used_list (g_partitions g)) <= num_parts h ->
  let g1 := snd (write_inplace oc g) in
  exists g2, write_inplace oc' (set_device (repaired (g_device g1)) g1) = (Ok tt, g2) /\
    data (g_device g2) = image_for (g_config g) h (used_list (g_partitions g)) (data (g_device g)).
Proof.
  intros HW HT H64 S HU g1.
  destruct (write_inplace_header oc g h HT H64 S) as (x & HX & EQ).
  pose proof (write_inplace_frame oc g h HT H64 S) as (HL & FR). fold g1 in HX, HL, FR.
  destruct (wo_write oc g) as (C & _ & Q & _). fold g1 in C, Q.
  assert (EQ' := EQ). destruct EQ' as (SX & EB & _ & _ & EN & _).
  set (g1' := set_device (repaired (g_device g1)) g1).
  assert (DL : dev_len (g_device g1') = dev_len (g_device g)) by exact HL.
  destruct (write_any oc' g1' x) as (g2 & E & D & _).
  - cbn. rewrite C. exact HW.
  - exact HX.
  - split; [reflexivity|]. rewrite DL. exact H64.
  - rewrite DL. cbn [g1' set_device g_config]. rewrite C. exact SX.
  - cbn [g1' set_device g_partitions]. rewrite Q, EN. exact HU.
  - exists g2. split; [exact E|]. rewrite D. cbn [g1' set_device g_partitions g_config g_device].
    rewrite C, Q. change (data (repaired (g_device g1))) with (data (g_device g1)).
    transitivity (image_for (g_config g) h (used_list (g_partitions g)) (data (g_device g1))).
    + destruct (image_equiv _ _ _ _ (used_list (g_partitions g)) (data (g_device g1)) EQ) as (I1 & I2 & _).
      unfold image_for. destruct (c_readonly_backup (g_config g)); assumption.
    + apply image_for_agree; [unfold dev_len in *; rewrite HL; exact S|exact HU|].
      split; [exact HL|]. exact FR.
Qed.
