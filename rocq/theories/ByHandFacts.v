(** ByHandFacts.v - writing an entry, then the header (C88). *)
From Verif Require Export SpecByHand RivalFacts.
Open Scope list_scope.
Open Scope N_scope.

Lemma read_header_wf off l h : read_header_at off l = Ok h -> header_ok h.
Proof.
  unfold read_header_at. destruct (N.leb_spec (off + 92) (lenN l)); [|discriminate]. intros E.
  apply header_ok_iff. apply parse_header_ok_wf in E; [apply E|].
  pose proof (slice_length off 92 l H). unfold lenN in *. lia.
Qed.
Lemma same_entry_is p q : guid_ok (guid (part_type p)) -> same_entry p q -> q = normal p.
Proof.
  intros G [A B C D E F H]. pose proof (same_entry_normal p G) as [A' B' C' D' E' F' H'].
  destruct q as [[qg qo] q1 q2 q3 q4 q5], (normal p) as [[ng no] n1 n2 n3 n4 n5].
  cbn [part_type part_guid first_lba last_lba flags name guid os] in *.
  rewrite (canonical_os_fun _ _ _ B B'). congruence.
Qed.
(** What opening shows, in terms of one header. *)
Lemma open_lax oc cfg d h : fault_free d -> addressable d -> c_only_valid_headers cfg = false ->
  header_at (data d) (lb_u64 (c_lb cfg)) (Ok h) -> part_size h = 128 -> countable oc h (data d) ->
  exists r2, opened_with cfg d (Ok h) r2 h (fst (open_from_device oc cfg d)).
Proof.
  intros F A V H P C. exists (read_backup_at (c_lb cfg) d).
  apply open_with_header; auto; [apply backup_header_spec|].
  unfold select. rewrite V. pose proof (read_backup_at_no_panic (c_lb cfg) d). destruct (read_backup_at (c_lb cfg) d); congruence.
Qed.
(** The array after one of its entries was overwritten. *)
Lemma slot_kept lb h i bs l k : lenN bs = 128 -> i < num_parts h -> part_size h = 128 ->
  array_at lb h + array_len h <= lenN l -> 1 <= k <= num_parts h ->
  slot k (range (array_at lb h) (array_len h) (store (array_at lb h + i * 128) bs l)) =
  if k =? i + 1 then bs else slot k (range (array_at lb h) (array_len h) l).
Proof.
  intros LB LI PS FIT LK. unfold array_len in *. rewrite PS in *. unfold slot. rewrite !range_slice, !slice_slice by lia.
  destruct (N.eqb_spec k (i + 1)) as [->|NE].
  - replace (array_at lb h + 128 * (i + 1 - 1)) with (array_at lb h + i * 128) by lia. apply slice_store_same. symmetry. exact LB.
  - apply slice_eq_byte_at. intros j Hj. rewrite byte_at_store_in by (rewrite LB; lia). rewrite LB.
    destruct (N.leb_spec (array_at lb h + i * 128) j), (N.ltb_spec j (array_at lb h + i * 128 + 128)); cbn [andb]; try reflexivity.
    exfalso. assert (k - 1 < i \/ i + 1 <= k - 1) as [X|X] by lia; lia.
Qed.
Section ByHand.
  Context (oc oc' : bool) (cfg : config) (d : dev) (h : header) (g : gdisk) (p : partition) (i : N).
  Let lb := c_lb cfg.
  Context (F : fault_free d) (A : addressable d) (PO : primary_on lb (data d) h) (LI : i < num_parts h)
    (C : countable oc' h (data d)) (V : c_only_valid_headers cfg = false).
  Definition overwritten : list byte := store (array_at lb h + i * 128) (as_bytes p 128) (data d).
  Lemma over_fits : array_at lb h + i * 128 + 128 <= lenN (data d).
  Proof. pose proof (po_fits _ _ _ PO) as X. unfold array_len in X. rewrite (po_psize _ _ _ PO) in X. lia. Qed.
  Lemma over_len : lenN overwritten = lenN (data d).
  Proof. unfold overwritten. apply store_lenN_in. rewrite as_bytes_lenN. apply over_fits. Qed.
  Lemma entry_written : exists q, write_to_device oc p i (part_start h) lb 128 d = (Ok tt, set_data d overwritten q).
  Proof.
    pose proof over_fits. destruct (write_to_device_ok oc p i (part_start h) lb 128 d F) as (q & E).
    - exact over_fits.
    - apply addressable_iff, A.
    - exists q. exact E.
  Qed.
  (** The header over an array that says [T], written again. *)
  Lemma header_again d1 : fault_free d1 -> lenN (data d1) = lenN (data d) ->
    exists h' d2 r, write_primary h lb d1 = (Ok (lb_u64 lb), (h', d2)) /\ fault_free d2 /\
      header_at (data d2) (lb_u64 lb) (Ok r) /\ same_header h r /\ array_intact lb r (data d2) /\
      changed_only_in (between (lb_u64 lb) (2 * lb_u64 lb)) (data d1) (data d2) /\
      range (array_at lb h) (array_len h) (data d2) = range (array_at lb h) (array_len h) (data d1).
  Proof.
    intros F1 L1. destruct PO as [P1 P2 (P3 & P4) P5 P6]. pose proof (lb_pos lb) as LP.
    pose proof (read_header_at_spec (lb_u64 lb) (data d)) as R. rewrite <- (header_at_fun _ _ _ _ P1 R) in R.
    assert (HO : header_ok h).
    { apply (read_header_wf (lb_u64 lb) (data d)). symmetry. apply (header_at_fun _ _ _ _ P1 (read_header_at_spec _ _)). }
    assert (A1 : addressable d1) by (unfold addressable in *; rewrite L1; exact A).
    assert (TW : 2 * lb_u64 lb <= array_at lb h) by (unfold array_at; apply N.mul_le_mono_r; exact P5).
    assert (FIT : (current_lba h + 1) * lb_u64 lb <= lenN (data d1)) by (rewrite P3, L1; lia).
    destruct (file_write_header_written h lb (current_lba h) d1 F1 A1 HO) as (h' & r & d2 & E & W & RR & F2).
    - rewrite L1. exact P6.
    - exact FIT.
    - right. rewrite P3. exact TW.
    - exists h', d2, r. unfold write_primary. replace (backup_lba h <=? current_lba h) with false by (symmetry; apply N.leb_gt; lia).
      split; [exact E|]. split; [exact F2|]. rewrite P3, N.mul_1_l in RR.
      split; [rewrite <- RR; apply read_header_at_spec|]. split; [apply W|].
      destruct W as [W1 W2 W3 W4 W5 W6 W7 W8 W9 W10]. rewrite P3, N.mul_1_l in W1. change (1 + 1) with 2 in W1.
      assert (TR : range (array_at lb h) (array_len h) (data d2) = range (array_at lb h) (array_len h) (data d1)).
      { rewrite !range_slice. apply slice_eq_byte_at. intros j Hj. apply W1. unfold between. lia. }
      assert (ST : array_at lb r = array_at lb h) by (unfold array_at; rewrite (sh_start _ _ W4); reflexivity).
      assert (AL : array_len r = array_len h) by (unfold array_len; rewrite (sh_num _ _ W4), (sh_psize _ _ W4); reflexivity).
      assert (L2 : lenN (data d2) = lenN (data d)) by (rewrite (proj1 W1); exact L1).
      split; [|split; [exact W1|exact TR]]. split; [|split].
      + rewrite ST. unfold addressable in A. lia.
      + right. rewrite ST, AL, L2. exact P6.
      + rewrite ST, AL, W6. reflexivity.
  Qed.
  Lemma by_hand : fst (open_from_device oc' cfg d) = Ok g ->
    exists d1 h' d2 g2, write_to_device oc p i (part_start h) lb 128 d = (Ok tt, d1) /\
      write_primary h lb d1 = (Ok (lb_u64 lb), (h', d2)) /\ fst (open_from_device oc' cfg d2) = Ok g2 /\ g_guid g2 = g_guid g /\
      changed_only_in (fun j => between (lb_u64 lb) (2 * lb_u64 lb) j \/ entry_no lb h i j) (data d) (data d2) /\
      map_ok (g_partitions g2) /\
      forall j q, has (g_partitions g2) j q <->
        (j <> i + 1 /\ has (g_partitions g) j q) \/
        (j = i + 1 /\ ~ all_zero (as_bytes p 128) /\ entry_decodes (as_bytes p 128) q).
  Proof.
    intros E. destruct entry_written as (q & W1).
    destruct (header_again (set_data d overwritten q)) as (h' & d2 & r & W2 & F2 & R & SH & IN & CH & TR).
    { exact F. } { apply over_len. }
    cbn [set_data data] in CH, TR.
    assert (L2 : lenN (data d2) = lenN (data d)) by (rewrite (proj1 CH); apply over_len).
    assert (A2 : addressable d2) by (unfold addressable in *; rewrite L2; exact A).
    assert (PS : part_size r = 128) by (rewrite (sh_psize _ _ SH); apply PO).
    assert (C2 : countable oc' r (data d2)) by (unfold countable in *; rewrite L2, (sh_num _ _ SH); exact C).
    destruct (open_lax oc' cfg d2 r F2 A2 V R PS C2) as (r2 & O2).
    destruct (open_lax oc' cfg d h F A V (po_header _ _ _ PO) (po_psize _ _ _ PO) C) as (r1 & O1).
    rewrite E in O1. unfold opened_with in O1, O2. fold lb in O1, O2.
    destruct O1 as (_ & (M1 & T1) & _ & G1 & _).
    destruct (fst (open_from_device oc' cfg d2)) as [g2|[]|] eqn:EO; try contradiction.
    destruct O2 as (_ & (M2 & T2) & _ & G2 & _).
    exists (set_data d overwritten q), h', d2, g2. split; [exact W1|]. split; [exact W2|]. split; [exact EO|].
    split; [rewrite G1, G2; apply SH|]. split; [|split; [exact M2|]].
    - split; [exact L2|]. intros j Hj. rewrite (proj2 CH) by tauto. unfold overwritten. change byte_no with byte_at.
      pose proof over_fits. rewrite byte_at_store_in by (rewrite as_bytes_lenN; lia). rewrite as_bytes_lenN.
      destruct (N.leb_spec (array_at lb h + i * 128) j), (N.ltb_spec j (array_at lb h + i * 128 + 128)); cbn [andb]; try reflexivity.
      exfalso. apply Hj. right. unfold entry_no, between. lia.
    - intros j x. rewrite T2, T1.
      assert (ST : array_at lb r = array_at lb h) by (unfold array_at; rewrite (sh_start _ _ SH); reflexivity).
      assert (AL : array_len r = array_len h) by (unfold array_len; rewrite (sh_num _ _ SH), (sh_psize _ _ SH); reflexivity).
      rewrite ST, AL, TR, (sh_num _ _ SH). cbn zeta. unfold overwritten.
      pose proof (slot_kept lb h i (as_bytes p 128) (data d) j (as_bytes_lenN p 128) LI (po_psize _ _ _ PO) (po_fits _ _ _ PO)) as SK.
      split.
      + intros (K & Z & D). rewrite (SK K) in Z, D. destruct (N.eqb_spec j (i + 1)); [right|left]; auto.
      + intros [(NE & K & Z & D)|(-> & Z & D)].
        * rewrite (SK K). destruct (N.eqb_spec j (i + 1)); [contradiction|]. auto.
        * assert (K : 1 <= i + 1 <= num_parts h) by lia. rewrite (SK K), N.eqb_refl. auto.
  Qed.
End ByHand.
(** Without the header written after it, an entry that changes the array's checksum makes the disk unreadable. *)
Lemma entry_only oc oc' cfg d d1 h p i : fault_free d -> addressable d -> let lb := c_lb cfg in
  primary_on lb (data d) h -> i < num_parts h -> countable oc' h (data d) -> c_only_valid_headers cfg = false ->
  array_intact lb h (data d) -> write_to_device oc p i (part_start h) lb 128 d = (Ok tt, d1) ->
  crc32 (range (array_at lb h) (array_len h) (data d1)) <> crc32 (range (array_at lb h) (array_len h) (data d)) ->
  exists e, fst (open_from_device oc' cfg d1) = Err (GIo e).
Proof.
  intros F A lb PO LI C V IN W NE. pose proof (lb_pos lb) as LP.
  destruct (entry_written oc cfg d h p i F A PO LI V) as (q & W'). fold lb in W'. rewrite W in W'. injection W' as ->.
  cbn [set_data data] in NE. set (o := overwritten cfg d h p i) in *.
  assert (L : lenN o = lenN (data d)) by (apply over_len; assumption).
  assert (TW : 2 * lb_u64 lb <= array_at lb h) by (unfold array_at; apply N.mul_le_mono_r, (po_start _ _ _ PO)).
  assert (HD : header_at o (lb_u64 lb) (Ok h)).
  { pose proof (po_header _ _ _ PO) as R. rewrite (header_at_fun _ _ _ _ R (read_header_at_spec _ _)).
    rewrite (read_header_local (lb_u64 lb) (data d) o); [apply read_header_at_spec|exact (eq_sym L)|].
    intros j Hj. unfold o, overwritten. rewrite byte_at_store_in by (rewrite as_bytes_lenN; apply (over_fits cfg d h i PO LI V)).
    fold lb. assert (92 <= lb_u64 lb) by (destruct lb; vm_compute; discriminate).
    destruct (N.leb_spec (array_at lb h + i * 128) j); [lia|reflexivity]. }
  destruct (open_lax oc' cfg (set_data d o q) h) as (r2 & O).
  - exact F.
  - unfold addressable in *. cbn [set_data data]. rewrite L. exact A.
  - exact V.
  - exact HD.
  - apply PO.
  - unfold countable in *. cbn [set_data data]. rewrite L. exact C.
  - unfold opened_with in O. destruct (fst (open_from_device oc' cfg (set_data d o q))) as [g2|[]|]; try contradiction.
    + exfalso. apply NE. cbn [set_data data] in O. destruct O as ((_ & _ & X) & _). destruct IN as (_ & _ & Y).
      fold lb in X. rewrite X, Y. reflexivity.
    + eexists. reflexivity.
Qed.
Lemma header_first oc oc' cfg d d1 d2 h h' w p i : fault_free d -> addressable d -> let lb := c_lb cfg in
  primary_on lb (data d) h -> i < num_parts h -> countable oc' h (data d) -> c_only_valid_headers cfg = false ->
  write_primary h lb d = (Ok w, (h', d1)) -> write_to_device oc p i (part_start h) lb 128 d1 = (Ok tt, d2) ->
  crc32 (range (array_at lb h) (array_len h) (data d2)) <> crc32 (range (array_at lb h) (array_len h) (data d)) ->
  exists e, fst (open_from_device oc' cfg d2) = Err (GIo e).
Proof.
  intros F A lb PO LI C V W1 W2 NE.
  destruct (header_again cfg d h i A PO LI V d F eq_refl) as (h2 & d1' & r & E & F1 & R & SH & IN & CH & TR).
  fold lb in E, R, IN, CH, TR. rewrite W1 in E. injection E as _ <- <-.
  assert (ST : array_at lb r = array_at lb h) by (unfold array_at; rewrite (sh_start _ _ SH); reflexivity).
  assert (AL : array_len r = array_len h) by (unfold array_len; rewrite (sh_num _ _ SH), (sh_psize _ _ SH); reflexivity).
  assert (L : lenN (data d1) = lenN (data d)) by apply CH.
  apply (entry_only oc oc' cfg d1 d2 r p i).
  - exact F1.
  - unfold addressable in *. rewrite L. exact A.
  - fold lb. destruct PO as [P1 P2 P3 P4 P5]. constructor.
    + exact R.
    + rewrite (sh_psize _ _ SH). exact P2.
    + rewrite (sh_current _ _ SH), (sh_backup _ _ SH). exact P3.
    + rewrite (sh_start _ _ SH). exact P4.
    + rewrite ST, AL, L. exact P5.
  - rewrite (sh_num _ _ SH). exact LI.
  - unfold countable in *. rewrite L, (sh_num _ _ SH). exact C.
  - exact V.
  - exact IN.
  - rewrite (sh_start _ _ SH). exact W2.
  - fold lb. rewrite ST, AL, TR. exact NE.
Qed.

(** * The backup copy *)
Lemma open_backup oc cfg d h e : fault_free d -> addressable d -> c_only_valid_headers cfg = false ->
  header_at (data d) (lb_u64 (c_lb cfg)) (Err e) -> backup_header_at (c_lb cfg) d (Ok h) -> part_size h = 128 -> countable oc h (data d) ->
  opened_with cfg d (Err e) (Ok h) h (fst (open_from_device oc cfg d)).
Proof. intros F A V H1 H2 P C. apply open_with_header; auto. unfold select. rewrite V. reflexivity. Qed.
Section ByHandBackup.
  Context (oc oc' : bool) (cfg : config) (d : dev) (h : header) (e : hdr_err) (g : gdisk) (p : partition) (i : N).
  Let lb := c_lb cfg.
  Context (F : fault_free d) (A : addressable d) (BO : backup_on lb d h e) (LI : i < num_parts h)
    (C : countable oc' h (data d)) (V : c_only_valid_headers cfg = false).
  Let over : list byte := store (array_at lb h + i * 128) (as_bytes p 128) (data d).
  Lemma bo_three : 3 * lb_u64 lb <= lenN (data d).
  Proof.
    destruct (N.le_gt_cases (3 * lb_u64 lb) (lenN (data d))) as [L|L]; [exact L|].
    pose proof (proj2 (bo_header _ _ _ _ BO) L). discriminate.
  Qed.
  Lemma bo_end : (current_lba h + 1) * lb_u64 lb <= lenN (data d) /\ 2 <= current_lba h.
  Proof.
    pose proof bo_three as B3. pose proof (lb_pos lb) as [LP _]. rewrite (proj1 (bo_last _ _ _ _ BO)).
    unfold last_whole_block. assert (Q : 3 <= lenN (data d) / lb_u64 lb) by (apply N.div_le_lower_bound; lia).
    pose proof (N.mul_div_le (lenN (data d)) (lb_u64 lb)). split; [|lia].
    replace (lenN (data d) / lb_u64 lb - 1 + 1) with (lenN (data d) / lb_u64 lb) by lia. lia.
  Qed.
  Lemma bo_over_fits : array_at lb h + i * 128 + 128 <= current_lba h * lb_u64 lb.
  Proof. pose proof (bo_fits _ _ _ _ BO) as X. unfold array_len in X. rewrite (bo_psize _ _ _ _ BO) in X. lia. Qed.
  Lemma by_hand_backup : fst (open_from_device oc' cfg d) = Ok g ->
    exists d1 h' d2 g2, write_to_device oc p i (part_start h) lb 128 d = (Ok tt, d1) /\
      write_backup h lb d1 = (Ok (lb_u64 lb), (h', d2)) /\ fst (open_from_device oc' cfg d2) = Ok g2 /\ g_guid g2 = g_guid g /\
      g_primary g2 = Err e /\
      changed_only_in (fun j => between (current_lba h * lb_u64 lb) ((current_lba h + 1) * lb_u64 lb) j \/ entry_no lb h i j) (data d) (data d2) /\
      map_ok (g_partitions g2) /\
      forall j q, has (g_partitions g2) j q <->
        (j <> i + 1 /\ has (g_partitions g) j q) \/
        (j = i + 1 /\ ~ all_zero (as_bytes p 128) /\ entry_decodes (as_bytes p 128) q).
  Proof.
    intros E. pose proof bo_end as (BE & B2). pose proof bo_over_fits as OF. pose proof bo_three as B3. pose proof (lb_pos lb) as LP.
    assert (OF' : array_at lb h + i * 128 + 128 <= lenN (data d)) by lia.
    destruct BO as [P0 P1 P2 (P3 & P4) P5 P6].
    assert (LO : lenN over = lenN (data d)) by (unfold over; apply store_lenN_in; rewrite as_bytes_lenN; exact OF').
    destruct (write_to_device_ok oc p i (part_start h) lb 128 d F) as (q & W1); [exact OF'|apply addressable_iff, A|].
    change (store _ (as_bytes p 128) (data d)) with over in W1.
    set (d1 := set_data d over q) in *.
    assert (R : read_header_at (last_whole_block lb d * lb_u64 lb) (data d) = Ok h).
    { symmetry. apply (header_at_fun _ _ _ _ (proj1 P1 B3) (read_header_at_spec _ _)). }
    assert (HO : header_ok h) by (apply (read_header_wf _ _ _ R)).
    assert (A1 : addressable d1) by (unfold addressable in *; cbn [d1 set_data data]; rewrite LO; exact A).
    destruct (file_write_header_written h lb (current_lba h) d1) as (h' & r & d2 & W2 & W & RR & F2);
      [exact F|exact A1|exact HO|cbn [d1 set_data data]; rewrite LO; lia|cbn [d1 set_data data]; rewrite LO; exact BE|left; exact P6|].
    destruct W as [CH _ _ SH _ CR _ _ _ _]. cbn [d1 set_data data] in CH, CR.
    assert (L2 : lenN (data d2) = lenN (data d)) by (rewrite (proj1 CH); exact LO).
    assert (TR : range (array_at lb h) (array_len h) (data d2) = range (array_at lb h) (array_len h) over).
    { rewrite !range_slice. apply slice_eq_byte_at. intros j Hj. apply CH. unfold between. lia. }
    assert (ST : array_at lb r = array_at lb h) by (unfold array_at; rewrite (sh_start _ _ SH); reflexivity).
    assert (AL : array_len r = array_len h) by (unfold array_len; rewrite (sh_num _ _ SH), (sh_psize _ _ SH); reflexivity).
    assert (LW : last_whole_block lb d2 = last_whole_block lb d) by (unfold last_whole_block; rewrite L2; reflexivity).
    assert (TW : 2 * lb_u64 lb <= array_at lb h) by (unfold array_at; apply N.mul_le_mono_r; exact P5).
    assert (HD : header_at (data d2) (lb_u64 lb) (Err e)).
    { rewrite (header_at_fun _ _ _ _ P0 (read_header_at_spec _ _)).
      rewrite (read_header_local (lb_u64 lb) (data d) (data d2)); [apply read_header_at_spec|exact (eq_sym L2)|].
      assert (92 <= lb_u64 lb) by (destruct lb; vm_compute; discriminate).
      intros j Hj. symmetry. etransitivity; [apply CH; unfold between; nia|]. change byte_no with byte_at. unfold over.
      rewrite byte_at_store_in by (rewrite as_bytes_lenN; exact OF').
      destruct (N.leb_spec (array_at lb h + i * 128) j); [lia|reflexivity]. }
    assert (HB : backup_header_at lb d2 (Ok r)).
    { split; [|intros X; rewrite L2 in X; lia]. intros _. rewrite LW, <- P3, <- RR. apply read_header_at_spec. }
    assert (A2 : addressable d2) by (unfold addressable in *; rewrite L2; exact A).
    assert (PS : part_size r = 128) by (rewrite (sh_psize _ _ SH); exact P2).
    assert (C2 : countable oc' r (data d2)) by (unfold countable in *; rewrite L2, (sh_num _ _ SH); exact C).
    assert (IN : array_intact lb r (data d2)).
    { split; [|split].
      - rewrite ST. unfold addressable in A. lia.
      - right. rewrite ST, AL, L2. lia.
      - rewrite ST, AL. symmetry. exact CR. }
    pose proof (open_backup oc' cfg d2 r e F2 A2 V HD HB PS C2) as O2.
    pose proof (open_backup oc' cfg d h e F A V P0 P1 P2 C) as O1.
    rewrite E in O1. unfold opened_with in O1, O2. fold lb in O1, O2.
    destruct O1 as (_ & (M1 & T1) & _ & G1 & _).
    destruct (fst (open_from_device oc' cfg d2)) as [g2|[]|] eqn:EO; try contradiction.
    destruct O2 as (_ & (M2 & T2) & _ & G2 & GP & _).
    exists d1, h', d2, g2. split; [exact W1|]. split.
    { unfold write_backup. replace (current_lba h <=? backup_lba h) with false by (symmetry; apply N.leb_gt; lia). exact W2. }
    split; [exact EO|]. split; [rewrite G1, G2; apply SH|]. split; [exact GP|]. split; [|split; [exact M2|]].
    - split; [exact L2|]. intros j Hj. rewrite (proj2 CH) by tauto. unfold over. change byte_no with byte_at.
      rewrite byte_at_store_in by (rewrite as_bytes_lenN; lia). rewrite as_bytes_lenN.
      destruct (N.leb_spec (array_at lb h + i * 128) j), (N.ltb_spec j (array_at lb h + i * 128 + 128)); cbn [andb]; try reflexivity.
      exfalso. apply Hj. right. unfold entry_no, between. lia.
    - intros j x. rewrite T2, T1. rewrite ST, AL, TR, (sh_num _ _ SH). cbn zeta. unfold over.
      assert (FT : array_at lb h + array_len h <= lenN (data d)) by lia.
      pose proof (slot_kept lb h i (as_bytes p 128) (data d) j (as_bytes_lenN p 128) LI P2 FT) as SK.
      split.
      + intros (K & Z & D). rewrite (SK K) in Z, D. destruct (N.eqb_spec j (i + 1)); [right|left]; auto.
      + intros [(NE & K & Z & D)|(-> & Z & D)].
        * rewrite (SK K). destruct (N.eqb_spec j (i + 1)); [contradiction|]. auto.
        * assert (K : 1 <= i + 1 <= num_parts h) by lia. rewrite (SK K), N.eqb_refl. auto.
  Qed.
End ByHandBackup.
