(** Props_Mbr.v - properties C44-C48: the protective MBR. *)
From Verif Require Import SpecMbr MbrFacts Samples.
Open Scope list_scope.
Open Scope N_scope.

(** ** The vocabulary in terms of the lemmas' own *)
Lemma mbr_ok_iff m : mbr_ok m <-> wf_mbr m.
Proof. split; intros [H1 H2 H3 H4 H5 H6]; constructor; auto. Qed.
Lemma within_iff lo hi l l' : within lo hi l l' -> wrote_within lo hi l l'.
Proof.
  intros (H1 & H2). split; [exact H1|]. intros i Hi HR. rewrite !byte_no_at. apply H2; auto. unfold between in HR. lia.
Qed.
Lemma slice_mid (a x c : list byte) off n : lenN a = off -> lenN x = n -> slice off n (a ++ x ++ c) = x.
Proof.
  intros Ha Hx. unfold slice, lenN in *. subst. rewrite !Nnat.Nat2N.id.
  rewrite skipn_app, skipn_all, Nat.sub_diag. cbn [app skipn]. rewrite firstn_app, firstn_all, Nat.sub_diag.
  cbn [firstn]. apply app_nil_r.
Qed.
Lemma record_bytes_of r : wf_rec r -> record_bytes (rec_to_bytes r) r.
Proof.
  intros (H1 & H2).
  constructor; try (repeat split; reflexivity); unfold rec_to_bytes.
  - unfold num_at. rewrite number_le_val, range_slice.
    rewrite (slice_mid _ (le_bytes 4 (lb_start r)) _ 8 4); [apply le_val_le_bytes_small; exact H1|reflexivity|].
    unfold lenN. rewrite le_bytes_length. reflexivity.
  - unfold num_at. rewrite number_le_val, range_slice.
    rewrite <- (app_nil_r (le_bytes 4 (lb_size r))), app_assoc.
    rewrite (slice_mid _ (le_bytes 4 (lb_size r)) _ 12 4); [apply le_val_le_bytes_small; exact H2| |].
    + rewrite lenN_app. unfold lenN. rewrite le_bytes_length. reflexivity.
    + unfold lenN. rewrite le_bytes_length. reflexivity.
Qed.
Lemma records_bytes_of pre l post : length l = 4%nat -> Forall wf_rec l -> lenN pre = 446 ->
  records_bytes (pre ++ flat_recs l ++ post) l.
Proof.
  intros HL HF HP. split; [exact HL|]. intros i r Hi.
  destruct (nth_error_split l i Hi) as (l1 & l2 & -> & Li).
  rewrite Forall_forall in HF. assert (W : wf_rec r) by (apply HF, in_elt).
  unfold flat_recs. rewrite flat_map_app. cbn [flat_map]. fold (flat_recs l1) (flat_recs l2).
  rewrite range_slice. rewrite <- !app_assoc. rewrite (app_assoc pre).
  rewrite slice_mid; [apply record_bytes_of, W| |unfold lenN; rewrite rec_to_bytes_length; reflexivity].
  rewrite lenN_app, HP. unfold lenN. rewrite flat_recs_length, Li. lia.
Qed.
Lemma mbr_bytes_flat m : wf_mbr m -> mbr_bytes (flat_mbr m) m.
Proof.
  intros W. pose proof (flat_mbr_length m W) as L. destruct W as [H1 H2 H3 H4 H5 H6]. unfold flat_mbr in *. constructor.
  - unfold lenN. rewrite L. reflexivity.
  - rewrite range_slice. apply (slice_mid [] (bootcode m)); [reflexivity|]. unfold lenN. rewrite H1. reflexivity.
  - rewrite range_slice. apply slice_mid; unfold lenN; rewrite ?H1, ?H2; reflexivity.
  - unfold num_at. rewrite number_le_val, range_slice. rewrite app_assoc.
    rewrite slice_mid; [apply le_val_le_bytes_small; exact H3| |unfold lenN; rewrite le_bytes_length; reflexivity].
    rewrite lenN_app. unfold lenN. rewrite H1, H2. reflexivity.
  - replace (bootcode m ++ disk_signature m ++ le_bytes 2 (unknown m) ++ flat_recs (partitions_mbr m) ++ mbr_sig m)
      with ((bootcode m ++ disk_signature m ++ le_bytes 2 (unknown m)) ++ flat_recs (partitions_mbr m) ++ mbr_sig m)
      by (rewrite <- !app_assoc; reflexivity).
    apply records_bytes_of; auto. rewrite !lenN_app. unfold lenN. rewrite le_bytes_length, H1, H2. reflexivity.
  - rewrite range_slice.
    replace (bootcode m ++ disk_signature m ++ le_bytes 2 (unknown m) ++ flat_recs (partitions_mbr m) ++ mbr_sig m)
      with ((bootcode m ++ disk_signature m ++ le_bytes 2 (unknown m) ++ flat_recs (partitions_mbr m)) ++ mbr_sig m ++ [])
      by (rewrite app_nil_r, <- !app_assoc; reflexivity).
    rewrite slice_mid; [exact H6| |rewrite H6; reflexivity].
    rewrite !lenN_app. unfold lenN. rewrite le_bytes_length, flat_recs_length, H1, H2, H4. reflexivity.
Qed.
Lemma same_medium_of d d' : same_media d d' -> same_medium d d'.
Proof. exact (fun H => H). Qed.
Lemma from_disk_untouched lb : untouched (mbr_from_disk lb).
Proof.
  unfold mbr_from_disk. apply untouched_bind; [auto with untouched|]. intros cur.
  apply untouched_bind; [auto with untouched|]. intros _. apply untouched_bind; [auto with untouched|]. intros b.
  destruct (mbr_from_bytes b lb); auto with untouched.
Qed.

(** A sample MBR with boot code, a disk signature and two records. *)
Definition sample_mbr : mbr :=
  mkMbr (repeat xeb 440) [x01; x02; x03; x04] 0x5a5a
    [mkRec x80 x01 x02 x03 x83 x04 x05 x06 2048 4096; rec_zero; new_protective (Some 77); rec_zero] [x55; xaa].
Lemma sample_mbr_ok : mbr_ok sample_mbr.
Proof. constructor; try reflexivity. repeat constructor. Qed.

(** C44.  Every MBR value serialises to 512 bytes with the standard layout, which parse back to it
    (alone, or as the start of a 4096-byte block). *)
Theorem C44_round_trip : forall m, mbr_ok m ->
  exists b, @mbr_to_bytes mbr_err m = Ok b /\ mbr_bytes b m /\
    forall lb rest, lenN (b ++ rest) = lb_u64 lb -> mbr_from_bytes (b ++ rest) lb = Ok m.
Proof.
  intros m W. rewrite mbr_ok_iff in W. exists (flat_mbr m). split; [apply mbr_to_bytes_flat, W|].
  split; [apply mbr_bytes_flat, W|]. intros lb rest H. apply mbr_round_trip; auto.
  rewrite lenN_app in H. unfold lenN in H at 1. rewrite (flat_mbr_length m W) in H. exact H.
Qed.
Print Assumptions C44_round_trip.
(** Whatever the bytes: parsing fails exactly on a wrong length or a wrong signature, and what it
    accepts serialises back to the first 512 bytes. *)
Theorem C44_parse : forall b lb,
  match mbr_from_bytes b lb with
  | Ok m => lenN b = lb_u64 lb /\ mbr_ok m /\ mbr_bytes (range 0 512 b) m /\
      @mbr_to_bytes mbr_err m = Ok (range 0 512 b)
  | Err MInvalidMBRLength => lenN b <> lb_u64 lb
  | Err MInvalidMBRSignature => lenN b = lb_u64 lb /\ range 510 2 b <> [x55; xaa]
  | _ => False
  end.
Proof.
  intros b lb. destruct (from_bytes_cases b lb) as [(H & ->)|(H & m & W & HB & ->)]; [exact H|].
  destruct (bytes_eqb (slice 510 2 b) MBR_SIGNATURE) eqn:E.
  - apply bytes_eqb_eq in E. split; [exact H|]. split; [apply mbr_ok_iff, W|].
    assert (F : range 0 512 b = flat_mbr m).
    { rewrite range_slice. change 512 with (510 + 2). rewrite slice_app_split, HB. change (0 + 510) with 510. rewrite E.
      unfold flat_mbr. rewrite (wm_sig m W), <- !app_assoc. reflexivity. }
    rewrite F. split; [apply mbr_bytes_flat, W|apply mbr_to_bytes_flat, W].
  - split; [exact H|]. intros X. rewrite range_slice in X. rewrite X in E. discriminate.
Qed.
Print Assumptions C44_parse.
Example C44_applies : exists b, @mbr_to_bytes mbr_err sample_mbr = Ok b /\ mbr_from_bytes b Lb512 = Ok sample_mbr /\
  mbr_from_bytes (b ++ zeros 3584) Lb4096 = Ok sample_mbr /\
  mbr_from_bytes b Lb4096 = Err MInvalidMBRLength /\ mbr_from_bytes (zeros 512) Lb512 = Err MInvalidMBRSignature.
Proof.
  destruct (C44_round_trip sample_mbr sample_mbr_ok) as (b & E & MB & R). pose proof (mb_len _ _ MB) as L.
  exists b. split; [exact E|]. split; [rewrite <- (app_nil_r b); apply R; rewrite app_nil_r, L; reflexivity|].
  split; [apply R; rewrite lenN_app, L; reflexivity|]. split; [|reflexivity].
  unfold mbr_from_bytes. rewrite L. reflexivity.
Qed.

(** The same for one record of 16 bytes: it is laid out as usual, and reading fails exactly on a wrong length. *)
Theorem C44_record :
  (forall r, record_ok r -> record_bytes (rec_to_bytes r) r /\ rec_from_bytes (rec_to_bytes r) = Ok r) /\
  (forall b, lenN b = 16 -> exists r, rec_from_bytes b = Ok r /\ record_ok r /\ record_bytes b r /\ rec_to_bytes r = b) /\
  (forall b, lenN b <> 16 -> rec_from_bytes b = Err MInvalidPartitionLength).
Proof.
  split; [intros r W; split; [apply record_bytes_of, W|apply rec_round_trip, W]|]. split.
  - intros b L. destruct (rec_parse b) as (r & E & W & B); [unfold lenN in L; lia|]. exists r. split; [exact E|]. split; [exact W|].
    split; [rewrite <- B; apply record_bytes_of, W|exact B].
  - intros b L. unfold rec_from_bytes. destruct (Nat.eqb_spec (length b) 16) as [H|H]; [|reflexivity]. destruct L. unfold lenN. rewrite H. reflexivity.
Qed.
Print Assumptions C44_record.

(** C45.  However the device fails, a write touches only its own bytes. *)
Theorem C45_only_its_bytes : forall m boot sg d,
  mbr_ok m -> length boot = 440%nat -> length sg = 4%nat ->
  wrote_within 0 512 (data d) (data (snd (overwrite_lba0 m d))) /\
  wrote_within 446 512 (data d) (data (snd (update_conservative m d))) /\
  wrote_within 0 440 (data d) (data (snd (write_bootcode boot d))) /\
  wrote_within 440 444 (data d) (data (snd (write_disk_signature sg d))).
Proof.
  intros m boot sg d W HB HS. rewrite mbr_ok_iff in W.
  assert (K : forall lo hi bs, lenN bs = hi - lo -> lo <= hi -> keeps (within lo hi (data d)) (write_at_mbr lo bs)).
  { intros lo hi bs L LE. apply write_at_keeps. intros l k I. apply within_store; auto; lia. }
  split; [|split; [|split]]; apply within_iff.
  - rewrite (overwrite_eq m d W). apply (keeps_bind (within 0 512 (data d))).
    + apply keeps_map_err, K; [unfold lenN; rewrite (flat_mbr_length m W); reflexivity|lia].
    + intros _. apply keeps_ret.
    + apply within_refl.
  - apply update_frame, W.
  - apply K; [unfold lenN; rewrite HB; reflexivity|lia|apply within_refl].
  - apply K; [unfold lenN; rewrite HS; reflexivity|lia|apply within_refl].
Qed.
Print Assumptions C45_only_its_bytes.
(** When a call reports success - whatever faults the device still has in store - the bytes are what
    was asked for and the stream position is the old one. *)
Theorem C45_success : forall m boot sg d,
  mbr_ok m -> length boot = 440%nat -> length sg = 4%nat ->
  (forall n d', overwrite_lba0 m d = (Ok n, d') ->
     n = 512 /\ pos d' = pos d /\ mbr_bytes (range 0 512 (data d')) m) /\
  (forall n d', update_conservative m d = (Ok n, d') ->
     n = 66 /\ pos d' = pos d /\ records_bytes (data d') (partitions_mbr m) /\ range 510 2 (data d') = [x55; xaa]) /\
  (forall u d', write_bootcode boot d = (Ok u, d') -> pos d' = pos d /\ range 0 440 (data d') = boot) /\
  (forall u d', write_disk_signature sg d = (Ok u, d') -> pos d' = pos d /\ range 440 4 (data d') = sg).
Proof.
  intros m boot sg d W HB HS. rewrite mbr_ok_iff in W.
  split; [|split; [|split]].
  - intros n d' E. rewrite (overwrite_eq m d W) in E. apply bind_inv_ok in E. destruct E as (u & d1 & E & R).
    inversion R; subst. apply map_err_inv_ok in E. apply write_at_inv in E. destruct E as (D & P). split; [reflexivity|]. split; [exact P|].
    rewrite D, range_slice, slice_store_same by (unfold lenN; rewrite (flat_mbr_length m W); reflexivity). apply mbr_bytes_flat, W.
  - intros n d' E. apply update_inv in E; [|exact W]. destruct E as (-> & D & P). split; [reflexivity|]. split; [exact P|].
    pose proof (tail_length m W) as TL.
    assert (X : slice 446 66 (data d') = tail_bytes m) by (rewrite D; apply slice_store_same; auto).
    assert (LD : 512 <= lenN (data d')).
    { rewrite D, store_lenN; [rewrite TL; lia|]. intros Y. rewrite Y in TL. discriminate. }
    assert (S : data d' = slice 0 446 (data d') ++ flat_recs (partitions_mbr m) ++ (mbr_sig m ++ slice 512 (lenN (data d') - 512) (data d'))).
    { rewrite <- (slice_all (data d')) at 1. replace (lenN (data d')) with (446 + (66 + (lenN (data d') - 512))) at 1 by lia.
      rewrite slice_app_split, slice_app_split. change (0 + 446) with 446. rewrite X. change (446 + 66) with 512.
      unfold tail_bytes. rewrite <- app_assoc. reflexivity. }
    split.
    + rewrite S. apply records_bytes_of; [apply (wm_parts m W)|apply (wm_recs m W)|apply slice_length; lia].
    + rewrite range_slice. replace 510 with (446 + 64) by reflexivity. rewrite <- (slice_slice 446 66 64 2) by lia.
      rewrite X. unfold tail_bytes. rewrite <- (app_nil_r (mbr_sig m)).
      rewrite slice_mid; [apply (wm_sig m W)| |rewrite (wm_sig m W); reflexivity].
      unfold lenN. rewrite flat_recs_length, (wm_parts m W). reflexivity.
  - intros u d' E. apply write_at_inv in E. destruct E as (D & P). split; [exact P|].
    rewrite D, range_slice. apply slice_store_same. unfold lenN. rewrite HB. reflexivity.
  - intros u d' E. apply write_at_inv in E. destruct E as (D & P). split; [exact P|].
    rewrite D, range_slice. apply slice_store_same. unfold lenN. rewrite HS. reflexivity.
Qed.
Print Assumptions C45_success.
(** Without faults, on a device that holds the sector, the calls do succeed. *)
Theorem C45_succeeds : forall m boot sg d,
  mbr_ok m -> length boot = 440%nat -> length sg = 4%nat -> fault_free d -> 512 <= lenN (data d) ->
  fst (overwrite_lba0 m d) = Ok 512 /\ fst (update_conservative m d) = Ok 66 /\
  fst (write_bootcode boot d) = Ok tt /\ fst (write_disk_signature sg d) = Ok tt.
Proof.
  intros m boot sg d W HB HS HF HL. rewrite mbr_ok_iff in W. rewrite fault_free_iff in HF.
  assert (LF : lenN (flat_mbr m) = 512) by (unfold lenN; rewrite (flat_mbr_length m W); reflexivity).
  split; [|split; [|split]].
  - rewrite (overwrite_eq m d W). unfold bind, map_err. rewrite write_at_ok by (auto; unfold dev_len; lia). reflexivity.
  - destruct (update_ok m d W HF HL) as (d' & -> & _). reflexivity.
  - unfold write_bootcode. rewrite write_at_ok; auto. unfold lenN at 1. rewrite HB. unfold dev_len. lia.
  - unfold write_disk_signature. rewrite write_at_ok; auto. unfold lenN at 1. rewrite HS. unfold dev_len. lia.
Qed.
Print Assumptions C45_succeeds.
(** The hypotheses hold of a sample, on a fixed device and on an empty file that grows; a write error
    in the middle of the records leaves the first 446 bytes alone. *)
Example C45_applies :
  mbr_ok sample_mbr /\ fault_free mini_dev /\ 512 <= lenN (data mini_dev) /\
  fst (overwrite_lba0 sample_mbr (mkDev [] 9 true false [] [])) = Ok 512 /\
  (let d := mkDev (repeat x11 512) 0 false false [None; None; None; Some 5%nat] [] in
   fst (update_conservative sample_mbr d) = Err (MIo IoFault) /\
   range 0 446 (data (snd (update_conservative sample_mbr d))) = repeat x11 446 /\
   data (snd (update_conservative sample_mbr d)) <> data d).
Proof.
  split; [exact sample_mbr_ok|]. split; [exact mini_fault_free|]. split; [rewrite mini_len; lia|].
  split; [reflexivity|]. split; [vm_compute; reflexivity|]. split; [vm_compute; reflexivity|].
  intros H. apply (f_equal (fun l => byte_no l 446)) in H. vm_compute in H. discriminate.
Qed.

(** C46.  What was written is read back. *)
Theorem C46_overwrite_read : forall m lb d, mbr_ok m -> fault_free d -> lb_u64 lb <= lenN (data d) ->
  exists d', overwrite_lba0 m d = (Ok 512, d') /\
    fst (mbr_from_disk lb d') = Ok m /\ fst (read_bootcode d') = Ok (bootcode m) /\
    fst (read_disk_signature d') = Ok (disk_signature m).
Proof.
  intros m lb d W HF HL. rewrite mbr_ok_iff in W. rewrite fault_free_iff in HF. pose proof (lb_pos lb) as LP.
  assert (LF : lenN (flat_mbr m) = 512) by (unfold lenN; rewrite (flat_mbr_length m W); reflexivity).
  assert (LD : lenN (store 0 (flat_mbr m) (data d)) = lenN (data d)) by (apply store_lenN_in; lia).
  exists (set_data d (store 0 (flat_mbr m) (data d)) (pos d)). split.
  { rewrite (overwrite_eq m d W). unfold bind, map_err. rewrite write_at_ok by (auto; unfold dev_len; lia). reflexivity. }
  assert (S : slice 0 512 (store 0 (flat_mbr m) (data d)) = flat_mbr m) by (apply slice_store_same; auto).
  pose proof (mbr_bytes_flat m W) as MB.
  split; [|split].
  - rewrite from_disk_ok; [|exact HF|unfold dev_len; cbn [set_data data]; lia|intros b; apply from_bytes_no_panic].
    cbn [fst set_data data]. replace (lb_u64 lb) with (512 + (lb_u64 lb - 512)) by lia. rewrite slice_app_split, S.
    apply mbr_round_trip; auto. change (0 + 512) with 512. rewrite slice_length by lia. lia.
  - unfold read_bootcode. rewrite read_at_ok; [|exact HF|unfold dev_len; cbn [set_data data]; lia]. cbn [fst set_data data]. f_equal.
    change (slice 0 440 (store 0 (flat_mbr m) (data d))) with (slice (0 + 0) 440 (store 0 (flat_mbr m) (data d))).
    rewrite <- (slice_slice 0 512 0 440) by lia. rewrite S. rewrite <- range_slice. apply MB.
  - unfold read_disk_signature. rewrite read_at_ok; [|exact HF|unfold dev_len; cbn [set_data data]; lia]. cbn [fst set_data data]. f_equal.
    change (slice 440 4 (store 0 (flat_mbr m) (data d))) with (slice (0 + 440) 4 (store 0 (flat_mbr m) (data d))).
    rewrite <- (slice_slice 0 512 440 4) by lia. rewrite S. rewrite <- range_slice. apply MB.
Qed.
Print Assumptions C46_overwrite_read.
Theorem C46_write_read : forall boot sg d,
  length boot = 440%nat -> length sg = 4%nat -> fault_free d -> 512 <= lenN (data d) ->
  fst (read_bootcode (snd (write_bootcode boot d))) = Ok boot /\
  fst (read_disk_signature (snd (write_bootcode boot d))) = fst (read_disk_signature d) /\
  fst (read_disk_signature (snd (write_disk_signature sg d))) = Ok sg /\
  fst (read_bootcode (snd (write_disk_signature sg d))) = fst (read_bootcode d).
Proof.
  intros boot sg d HB HS HF HL. rewrite fault_free_iff in HF.
  assert (LB : lenN boot = 440) by (unfold lenN; rewrite HB; reflexivity).
  assert (LS : lenN sg = 4) by (unfold lenN; rewrite HS; reflexivity).
  assert (L1 : lenN (store 0 boot (data d)) = lenN (data d)) by (apply store_lenN_in; lia).
  assert (L2 : lenN (store 440 sg (data d)) = lenN (data d)) by (apply store_lenN_in; lia).
  unfold read_bootcode, read_disk_signature, write_bootcode, write_disk_signature.
  rewrite !write_at_ok by (auto; unfold dev_len; lia). cbn [snd].
  rewrite !read_at_ok by (auto; unfold dev_len; cbn [set_data data]; lia). cbn [fst set_data data].
  rewrite slice_store_same by auto. rewrite (slice_store_same 440) by auto.
  rewrite (slice_store_other 0) by lia. rewrite (slice_store_other 440) by lia. auto.
Qed.
Print Assumptions C46_write_read.
(** All ways of reading agree, and reading changes nothing. *)
Theorem C46_reads_agree : forall lb d m, fault_free d -> lb_u64 lb <= lenN (data d) ->
  fst (mbr_from_disk lb d) = Ok m ->
  fst (read_bootcode d) = Ok (bootcode m) /\ fst (read_disk_signature d) = Ok (disk_signature m).
Proof.
  intros lb d m HF HL E. rewrite fault_free_iff in HF. pose proof (lb_pos lb) as LP.
  rewrite from_disk_ok in E; [|exact HF|exact HL|intros b; apply from_bytes_no_panic]. cbn [fst] in E.
  pose proof (C44_parse (slice 0 (lb_u64 lb) (data d)) lb) as P. rewrite E in P. destruct P as (_ & _ & MB & _).
  rewrite range_slice, slice_slice in MB by lia. change (0 + 0) with 0 in MB.
  unfold read_bootcode, read_disk_signature. rewrite !read_at_ok by (auto; unfold dev_len; lia). cbn [fst].
  pose proof (mb_boot _ _ MB) as B1. pose proof (mb_disk _ _ MB) as B2. rewrite range_slice, slice_slice in B1, B2 by lia.
  split; f_equal; assumption.
Qed.
Print Assumptions C46_reads_agree.
Theorem C46_reads_only_read : forall lb d,
  same_medium d (snd (mbr_from_disk lb d)) /\ same_medium d (snd (read_bootcode d)) /\
  same_medium d (snd (read_disk_signature d)).
Proof.
  intros lb d. split; [apply from_disk_untouched|]. split; apply read_at_untouched.
Qed.
Print Assumptions C46_reads_only_read.
(** Updating the records keeps boot code and disk signature, and makes the sector a valid MBR. *)
Theorem C46_update_keeps : forall m lb d, mbr_ok m -> fault_free d -> lb_u64 lb <= lenN (data d) ->
  exists d' m', update_conservative m d = (Ok 66, d') /\
    fst (read_bootcode d') = fst (read_bootcode d) /\
    fst (read_disk_signature d') = fst (read_disk_signature d) /\
    fst (mbr_from_disk lb d') = Ok m' /\ partitions_mbr m' = partitions_mbr m /\
    bootcode m' = range 0 440 (data d) /\ disk_signature m' = range 440 4 (data d) /\
    unknown m' = num_at 444 2 (data d).
Proof.
  intros m lb d W HF HL. rewrite mbr_ok_iff in W. rewrite fault_free_iff in HF. pose proof (lb_pos lb) as LP.
  destruct (update_ok m d W HF) as (d' & E & HF'); [unfold dev_len; lia|].
  pose proof (update_inv m d 66 d' W E) as (_ & D & _). pose proof (tail_length m W) as TL.
  assert (LD : lenN (data d') = lenN (data d)) by (rewrite D; apply store_lenN_in; lia).
  pose proof (C44_parse (slice 0 (lb_u64 lb) (data d')) lb) as P.
  assert (S : slice 446 66 (data d') = tail_bytes m) by (rewrite D; apply slice_store_same; auto).
  assert (O : forall a n, a + n <= 446 -> slice a n (data d') = slice a n (data d)).
  { intros a n H. rewrite D. apply slice_store_other; lia. }
  assert (S2 : slice 510 2 (data d') = [x55; xaa]).
  { replace 510 with (446 + 64) by reflexivity. rewrite <- (slice_slice 446 66 64 2) by lia. rewrite S. unfold tail_bytes.
    rewrite <- (app_nil_r (mbr_sig m)). rewrite slice_mid; [apply (wm_sig m W)| |rewrite (wm_sig m W); reflexivity].
    unfold lenN. rewrite flat_recs_length, (wm_parts m W). reflexivity. }
  assert (S3 : slice 446 64 (data d') = flat_recs (partitions_mbr m)).
  { change 446 with (446 + 0). rewrite <- (slice_slice 446 66 0 64) by lia. rewrite S. unfold tail_bytes.
    apply (slice_mid []); [reflexivity|]. unfold lenN. rewrite flat_recs_length, (wm_parts m W). reflexivity. }
  destruct (from_bytes_cases (slice 0 (lb_u64 lb) (data d')) lb) as [(H & _)|(H & m' & W' & HB & R)].
  { exfalso. apply H. rewrite slice_length by lia. reflexivity. }
  rewrite slice_slice in R by lia. change (0 + 510) with 510 in R. rewrite S2 in R. change (bytes_eqb [x55; xaa] MBR_SIGNATURE) with true in R.
  rewrite slice_slice in HB by lia. change (0 + 0) with 0 in HB. rewrite R in P. destruct P as (_ & _ & MB & _).
  rewrite range_slice, slice_slice in MB by lia. change (0 + 0) with 0 in MB.
  exists d', m'. split; [exact E|].
  unfold read_bootcode, read_disk_signature. rewrite !read_at_ok by (auto; unfold dev_len; lia). cbn [fst].
  rewrite !O by lia. split; [reflexivity|]. split; [reflexivity|]. split.
  { rewrite from_disk_ok; [|exact HF'|unfold dev_len; lia|intros b; apply from_bytes_no_panic]. exact R. }
  split.
  { assert (X : flat_recs (partitions_mbr m') = flat_recs (partitions_mbr m)).
    { rewrite <- S3. change 446 with (0 + 446). rewrite <- (slice_slice 0 510 446 64) by lia. rewrite HB. symmetry.
      rewrite <- (app_nil_r (flat_recs (partitions_mbr m'))).
      replace (bootcode m' ++ disk_signature m' ++ le_bytes 2 (unknown m') ++ flat_recs (partitions_mbr m') ++ [])
        with ((bootcode m' ++ disk_signature m' ++ le_bytes 2 (unknown m')) ++ flat_recs (partitions_mbr m') ++ [])
        by (rewrite <- !app_assoc; reflexivity).
      rewrite slice_mid; [rewrite app_nil_r; reflexivity| |].
      - rewrite !lenN_app. unfold lenN. rewrite le_bytes_length, (wm_boot m' W'), (wm_disk m' W'). reflexivity.
      - unfold lenN. rewrite flat_recs_length, (wm_parts m' W'). reflexivity. }
    assert (Y : rd_records 4 (flat_recs (partitions_mbr m') ++ []) = rd_records 4 (flat_recs (partitions_mbr m) ++ [])) by (rewrite X; reflexivity).
    rewrite <- (wm_parts m' W') in Y at 1. rewrite (rd_records_flat _ (wm_recs m' W')) in Y.
    rewrite <- (wm_parts m W) in Y. rewrite (rd_records_flat _ (wm_recs m W)) in Y. congruence. }
  pose proof (mb_boot _ _ MB) as B1. pose proof (mb_disk _ _ MB) as B2. pose proof (mb_unknown _ _ MB) as B3.
  unfold num_at in B3 |- *. rewrite !range_slice in *. rewrite slice_slice in B1, B2, B3 by lia.
  rewrite O in B1, B2, B3 by lia. auto.
Qed.
Print Assumptions C46_update_keeps.
Example C46_applies : mbr_ok sample_mbr /\ fault_free mini_dev /\ lb_u64 Lb512 <= lenN (data mini_dev) /\
  (let d := mkDev (repeat x11 512) 7 false false [] [] in
   fst (mbr_from_disk Lb512 d) = Err MInvalidMBRSignature /\
   (exists m, fst (mbr_from_disk Lb512 (snd (update_conservative sample_mbr d))) = Ok m /\
      mbr_partition m 2 = Some (new_protective (Some 77)) /\ disk_signature m = [x11; x11; x11; x11])).
Proof.
  split; [exact sample_mbr_ok|]. split; [exact mini_fault_free|]. split; [rewrite mini_len; cbn; lia|].
  split; [vm_compute; reflexivity|].
  destruct (C46_update_keeps sample_mbr Lb512 (mkDev (repeat x11 512) 7 false false [] [])) as (d' & m' & E & _ & _ & R & P & _ & G & _);
    [exact sample_mbr_ok|reflexivity|vm_compute; discriminate|].
  exists m'. rewrite E. cbn [snd]. split; [exact R|]. split; [|rewrite G; reflexivity]. unfold mbr_partition. rewrite P. reflexivity.
Qed.

(** C47.  [partition] returns the four records in order and nothing else. *)
Theorem C47_partition : forall m, mbr_ok m ->
  exists r0 r1 r2 r3, partitions_mbr m = [r0; r1; r2; r3] /\
    mbr_partition m 0 = Some r0 /\ mbr_partition m 1 = Some r1 /\
    mbr_partition m 2 = Some r2 /\ mbr_partition m 3 = Some r3 /\
    forall i, 4 <= i -> mbr_partition m i = None.
Proof.
  intros m W. pose proof (mo_parts m W) as L. destruct m as [bc ds un ps sg]. cbn [partitions_mbr] in *.
  destruct ps as [|r0 [|r1 [|r2 [|r3 [|r4 ps]]]]]; try discriminate.
  exists r0, r1, r2, r3. repeat (split; [reflexivity|]). intros i Hi. unfold mbr_partition. cbn [partitions_mbr].
  change (lenN [r0; r1; r2; r3]) with 4. replace (4 <=? i) with true by (symmetry; apply N.leb_le; exact Hi). reflexivity.
Qed.
Print Assumptions C47_partition.
Lemma list_set_length {A} i (x : A) l : length (list_set i x l) = length l.
Proof. revert i. induction l as [|y l IH]; intros [|i]; cbn; auto. Qed.
Lemma list_set_nth {A} (x : A) l : forall i j, (i < length l)%nat ->
  nth_error (list_set i x l) j = if Nat.eqb j i then Some x else nth_error l j.
Proof.
  induction l as [|y l IH]; intros i j H; cbn [length] in H; [lia|]. destruct i as [|i], j as [|j]; cbn; auto. apply IH. lia.
Qed.
Lemma list_set_forall {A} (P : A -> Prop) x l i : P x -> Forall P l -> Forall P (list_set i x l).
Proof. intros HP HF. revert i. induction HF as [|y l Hy HF IH]; intros [|i]; cbn; constructor; auto. Qed.
(** [set_partition] replaces one record and returns the old one; other indices do nothing. *)
Theorem C47_set_partition : forall m i r, mbr_ok m ->
  let (old, m') := mbr_set_partition m i r in
  old = mbr_partition m i /\
  bootcode m' = bootcode m /\ disk_signature m' = disk_signature m /\ unknown m' = unknown m /\
  (record_ok r -> mbr_ok m') /\
  (i < 4 -> forall j, mbr_partition m' j = if j =? i then Some r else mbr_partition m j) /\
  (4 <= i -> m' = m /\ old = None).
Proof.
  intros m i r W. pose proof (mo_parts m W) as L. unfold mbr_set_partition.
  assert (LN : lenN (partitions_mbr m) = 4) by (unfold lenN; rewrite L; reflexivity).
  unfold mbr_partition. rewrite LN. destruct (N.leb_spec 4 i) as [Hi|Hi].
  - repeat (split; [reflexivity|]). split; [auto|]. split; [lia|auto].
  - cbn [bootcode disk_signature unknown partitions_mbr mbr_sig]. repeat (split; [reflexivity|]). split; [|split; [|lia]].
    + intros HR. destruct W as [H1 H2 H3 H4 H5 H6]. constructor; cbn [bootcode disk_signature unknown partitions_mbr mbr_sig]; auto.
      * rewrite list_set_length. exact H4.
      * apply list_set_forall; auto.
    + intros _ j. replace (lenN (list_set (N.to_nat i) r (partitions_mbr m))) with 4 by (unfold lenN; rewrite list_set_length, L; reflexivity).
      rewrite list_set_nth by lia. destruct (N.eqb_spec j i) as [->|Hj].
      * rewrite Nat.eqb_refl. replace (4 <=? i) with false by (symmetry; apply N.leb_gt; exact Hi). reflexivity.
      * replace (Nat.eqb (N.to_nat j) (N.to_nat i)) with false by (symmetry; apply Nat.eqb_neq; lia). reflexivity.
Qed.
Print Assumptions C47_set_partition.
(** The other setters change their field only. *)
Theorem C47_setters : forall m b s, mbr_ok m -> length b = 440%nat -> length s = 4%nat ->
  (mbr_ok (set_bootcode m b) /\ bootcode (set_bootcode m b) = b /\
   disk_signature (set_bootcode m b) = disk_signature m /\ unknown (set_bootcode m b) = unknown m /\
   forall i, mbr_partition (set_bootcode m b) i = mbr_partition m i) /\
  (mbr_ok (set_disk_signature m s) /\ disk_signature (set_disk_signature m s) = s /\
   bootcode (set_disk_signature m s) = bootcode m /\ unknown (set_disk_signature m s) = unknown m /\
   forall i, mbr_partition (set_disk_signature m s) i = mbr_partition m i).
Proof.
  intros m b s [H1 H2 H3 H4 H5 H6] HB HS. split.
  - split; [constructor; auto|]. auto.
  - split; [constructor; auto|]. auto.
Qed.
Print Assumptions C47_setters.
Example C47_applies : mbr_ok sample_mbr /\
  fst (mbr_set_partition sample_mbr 0 rec_zero) = Some (mkRec x80 x01 x02 x03 x83 x04 x05 x06 2048 4096) /\
  snd (mbr_set_partition sample_mbr 0 rec_zero) <> sample_mbr.
Proof.
  split; [exact sample_mbr_ok|]. split; [reflexivity|]. intros H.
  apply (f_equal (fun m => mbr_partition m 0)) in H. vm_compute in H. discriminate.
Qed.

(** C48.  A protective MBR for [n] blocks: the one record that is not empty is not bootable, starts at CHS
    0/0/2, has type EE and covers the [n] blocks from LBA 1 on (UEFI 5.2.3, table 5-4). *)
Theorem C48_covers : forall n, n < 2 ^ 32 ->
  mbr_ok (mbr_with_lb_size n) /\
  exists b, @mbr_to_bytes mbr_err (mbr_with_lb_size n) = Ok b /\
    all_zero (range 0 446 b) /\ range 446 8 b = [x00; x00; x02; x00; xee; xff; xff; xff] /\
    num_at (446 + 8) 4 b = 1 /\ num_at (446 + 12) 4 b = n /\ all_zero (range 462 48 b) /\
    range 510 2 b = [x55; xaa].
Proof.
  intros n Hn.
  assert (W : mbr_ok (mbr_with_lb_size n)).
  { constructor; try reflexivity. repeat constructor; auto. }
  split; [exact W|]. destruct (C44_round_trip _ W) as (b & E & MB & _). exists b. split; [exact E|].
  rewrite mbr_ok_iff in W. rewrite (mbr_to_bytes_flat _ W) in E. apply Ok_inj in E. subst b.
  assert (Z : forall k, all_zero (zeros k)) by (intros k; apply all_zero_iff; rewrite zeros_length; reflexivity).
  split; [|split; [|split; [|split; [|split]]]].
  - replace (range 0 446 (flat_mbr (mbr_with_lb_size n))) with (zeros 446) by reflexivity. apply Z.
  - reflexivity.
  - reflexivity.
  - pose proof (mb_recs _ _ MB) as (_ & R). specialize (R 0%nat _ eq_refl). pose proof (rb_size _ _ R) as S.
    unfold num_at in *. rewrite !range_slice in *. rewrite slice_slice in S by lia. exact S.
  - replace (range 462 48 (flat_mbr (mbr_with_lb_size n))) with (zeros 48) by reflexivity. apply Z.
  - reflexivity.
Qed.
Print Assumptions C48_covers.
(** [new] is the same with 0xFFFFFFFF blocks. *)
Theorem C48_default : mbr_new = mbr_with_lb_size 0xFFFFFFFF.
Proof. reflexivity. Qed.
Print Assumptions C48_default.
(** Written to a device and read again it is still that. *)
Theorem C48_on_disk : forall n lb d, n < 2 ^ 32 -> fault_free d -> lb_u64 lb <= lenN (data d) ->
  exists d' m, overwrite_lba0 (mbr_with_lb_size n) d = (Ok 512, d') /\
    fst (mbr_from_disk lb d') = Ok m /\
    (exists r, mbr_partition m 0 = Some r /\ boot_indicator r = x00 /\ os_type r = xee /\ lb_start r = 1 /\ lb_size r = n) /\
    forall i r, 1 <= i -> mbr_partition m i = Some r -> boot_indicator r = x00 /\ os_type r = x00 /\ lb_start r = 0 /\ lb_size r = 0.
Proof.
  intros n lb d Hn HF HL. destruct (C48_covers n Hn) as (W & _).
  destruct (C46_overwrite_read _ lb d W HF HL) as (d' & E & R & _). exists d', (mbr_with_lb_size n).
  split; [exact E|]. split; [exact R|]. split.
  - eexists. split; [reflexivity|]. auto.
  - intros i r Hi. destruct (C47_partition _ W) as (r0 & r1 & r2 & r3 & EP & _ & P1 & P2 & P3 & PN).
    cbn [mbr_with_lb_size partitions_mbr] in EP. injection EP as <- <- <- <-.
    destruct (N.leb_spec 4 i) as [H4|H4]; [rewrite PN by exact H4; discriminate|].
    assert (H : i = 1 \/ i = 2 \/ i = 3) by lia.
    destruct H as [-> |[-> | ->]]; rewrite ?P1, ?P2, ?P3; intros X; injection X as <-; auto.
Qed.
Print Assumptions C48_on_disk.
Example C48_applies : 1234 < 2 ^ 32 /\ fault_free mini_dev /\ lb_u64 Lb512 <= lenN (data mini_dev).
Proof. split; [reflexivity|]. split; [exact mini_fault_free|]. rewrite mini_len. cbn. lia. Qed.
