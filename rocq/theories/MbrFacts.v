(** MbrFacts.v - lemmas about Mbr.v. *)
From Verif Require Export SpecFacts.
Open Scope list_scope.
Open Scope N_scope.

(** * Records *)
Definition wf_rec (r : part_record) : Prop := lb_start r < 256 ^ 4 /\ lb_size r < 256 ^ 4.
Lemma rec_to_bytes_length r : length (rec_to_bytes r) = 16%nat.
Proof. unfold rec_to_bytes. rewrite !app_length, !le_bytes_length. reflexivity. Qed.
Lemma rec_round_trip r : wf_rec r -> rec_from_bytes (rec_to_bytes r) = Ok r.
Proof.
  intros (H1 & H2). unfold rec_from_bytes. rewrite rec_to_bytes_length. cbn [Nat.eqb negb].
  unfold rec_to_bytes. cbn [app]. do 8 (unfold bind at 1; cbn [rd_u8]).
  unfold bind at 1. rewrite (rd_le_app (E := mbr_err) 4 (lb_start r)) by exact H1.
  unfold bind at 1. rewrite <- (app_nil_r (le_bytes 4 (lb_size r))), (rd_le_app (E := mbr_err) 4 (lb_size r)) by exact H2.
  destruct r; reflexivity.
Qed.
Lemma rec_parse b : length b = 16%nat ->
  exists r, rec_from_bytes b = Ok r /\ wf_rec r /\ rec_to_bytes r = b.
Proof.
  intros H. unfold rec_from_bytes. rewrite H. cbn [Nat.eqb negb].
  do 8 (destruct b as [|?b b]; [discriminate|]; cbn [length] in H; apply Nat.succ_inj in H).
  do 8 (unfold bind at 1; cbn [rd_u8]).
  assert (E : b = firstn 4 b ++ skipn 4 b) by (symmetry; apply firstn_skipn).
  assert (L1 : length (firstn 4 b) = 4%nat) by (rewrite firstn_length; lia).
  assert (L2 : length (skipn 4 b) = 4%nat) by (rewrite skipn_length; lia).
  set (u := firstn 4 b) in *. set (v := skipn 4 b) in *. rewrite E. clear H. clearbody u v. subst b.
  unfold bind at 1. rewrite (rd_le_app_raw (E := mbr_err) 4 u v L1).
  pose proof (rd_le_app_raw (E := mbr_err) 4 v [] L2) as RV. rewrite app_nil_r in RV.
  unfold bind at 1. rewrite RV.
  unfold ret. cbn [fst]. eexists. split; [reflexivity|]. split.
  - split; cbn; [pose proof (le_val_bound u) as B|pose proof (le_val_bound v) as B]; unfold lenN in B; rewrite ?L1, ?L2 in B; exact B.
  - unfold rec_to_bytes. cbn [boot_indicator start_head start_sector start_track os_type end_head end_sector end_track lb_start lb_size].
    rewrite (le_bytes_le_val_n 4 u L1), (le_bytes_le_val_n 4 v L2). reflexivity.
Qed.

(** * The whole sector *)
Record wf_mbr (m : mbr) : Prop := mkWfMbr {
  wm_boot : length (bootcode m) = 440%nat;
  wm_disk : length (disk_signature m) = 4%nat;
  wm_unknown : unknown m < 256 ^ 2;
  wm_parts : length (partitions_mbr m) = 4%nat;
  wm_recs : Forall wf_rec (partitions_mbr m);
  wm_sig : mbr_sig m = MBR_SIGNATURE
}.
Definition flat_recs (l : list part_record) : list byte := flat_map rec_to_bytes l.
Definition flat_mbr (m : mbr) : list byte :=
  bootcode m ++ disk_signature m ++ le_bytes 2 (unknown m) ++ flat_recs (partitions_mbr m) ++ mbr_sig m.
Lemma flat_recs_length l : length (flat_recs l) = (16 * length l)%nat.
Proof. induction l as [|r l IH]; [reflexivity|]. cbn [flat_recs flat_map]. rewrite app_length, rec_to_bytes_length. unfold flat_recs in IH. rewrite IH. cbn [length]. lia. Qed.
Lemma flat_mbr_length m : wf_mbr m -> length (flat_mbr m) = 512%nat.
Proof.
  intros [H1 H2 H3 H4 H5 H6]. unfold flat_mbr. rewrite !app_length, le_bytes_length, flat_recs_length, H1, H2, H4, H6. reflexivity.
Qed.
Lemma wr_zero {E} pre bs k : (length bs <= k)%nat ->
  @wr_bytes E bs (mkWarr (pre ++ zeros k) (length pre)) =
  (Ok tt, mkWarr ((pre ++ bs) ++ zeros (k - length bs)) (length (pre ++ bs))).
Proof.
  intros H. replace k with (length bs + (k - length bs))%nat at 1 by lia. rewrite zeros_app.
  rewrite (wr_bytes_app pre bs (zeros (length bs))) by (rewrite ?zeros_length; reflexivity).
  rewrite app_length, app_assoc. reflexivity.
Qed.
Lemma wr_records_zero {E} l : forall pre k, (16 * length l <= k)%nat ->
  @wr_records E l (mkWarr (pre ++ zeros k) (length pre)) =
  (Ok tt, mkWarr ((pre ++ flat_recs l) ++ zeros (k - 16 * length l)) (length (pre ++ flat_recs l))).
Proof.
  induction l as [|r l IH]; intros pre k H; cbn [wr_records flat_recs flat_map length].
  - rewrite app_nil_r. cbn [length] in *. replace (k - 16 * 0)%nat with k by lia. reflexivity.
  - cbn [length] in H. unfold bind. rewrite wr_zero by (rewrite rec_to_bytes_length; lia). rewrite rec_to_bytes_length.
    rewrite IH by lia. unfold flat_recs. rewrite <- !app_assoc.
    replace (k - 16 - 16 * length l)%nat with (k - 16 * S (length l))%nat by lia. reflexivity.
Qed.
Lemma mbr_to_bytes_flat {E} m : wf_mbr m -> @mbr_to_bytes E m = Ok (flat_mbr m).
Proof.
  intros W. pose proof (flat_mbr_length m W) as L. destruct W as [H1 H2 H3 H4 H5 H6].
  unfold mbr_to_bytes, mbr_writer. change (mkWarr (zeros 512) 0) with (mkWarr ([] ++ zeros 512) (length (@nil byte))).
  unfold bind at 1. rewrite wr_zero by (rewrite H1; lia).
  unfold bind at 1. rewrite wr_zero by (rewrite H1, H2; lia).
  unfold bind at 1, wr_le. rewrite wr_zero by (rewrite H1, H2, le_bytes_length; lia).
  unfold bind at 1. rewrite wr_records_zero by (rewrite H1, H2, le_bytes_length, H4; lia).
  rewrite wr_zero by (rewrite H1, H2, le_bytes_length, H4, H6; cbn; lia).
  cbn [arr app]. f_equal. unfold flat_mbr.
  rewrite H1, H2, le_bytes_length, H4, H6. change (512 - 440 - 4 - 2 - 16 * 4 - length MBR_SIGNATURE)%nat with 0%nat.
  change (zeros 0) with (@nil byte). rewrite app_nil_r, <- !app_assoc. reflexivity.
Qed.
Lemma rd_records_flat l : Forall wf_rec l -> forall rest,
  rd_records (length l) (flat_recs l ++ rest) = (Ok l, rest).
Proof.
  induction 1 as [|r l W F IH]; intros rest; [reflexivity|].
  cbn [length rd_records flat_recs flat_map]. rewrite <- app_assoc. unfold bind at 1.
  rewrite (rd_bytes_app 16 (rec_to_bytes r)) by apply rec_to_bytes_length.
  unfold bind at 1, lift. rewrite (rec_round_trip r W). unfold bind at 1. unfold flat_recs in IH. rewrite IH. reflexivity.
Qed.
(** Parsing a sector that starts with these bytes. *)
Lemma mbr_from_flat lb m rest sg : wf_mbr m -> length sg = 2%nat ->
  512 + lenN rest = lb_u64 lb ->
  mbr_from_bytes (bootcode m ++ disk_signature m ++ le_bytes 2 (unknown m) ++ flat_recs (partitions_mbr m) ++ sg ++ rest) lb =
  if bytes_eqb sg MBR_SIGNATURE then Ok m else Err MInvalidMBRSignature.
Proof.
  intros [H1 H2 H3 H4 H5 H6] HS HL. unfold mbr_from_bytes.
  set (buf := bootcode m ++ _).
  assert (LB : lenN buf = lb_u64 lb).
  { unfold buf. rewrite !lenN_app. unfold lenN in *. rewrite le_bytes_length, flat_recs_length, H1, H2, H4, HS. lia. }
  rewrite LB, N.eqb_refl. cbn [negb].
  unfold bind at 1. unfold buf. rewrite (rd_bytes_app 440) by exact H1.
  unfold bind at 1. rewrite (rd_bytes_app 4) by exact H2.
  unfold bind at 1. rewrite (rd_le_app (E := mbr_err) 2 (unknown m)) by exact H3.
  unfold bind at 1. rewrite <- H4 at 1. rewrite (rd_records_flat _ H5).
  replace (lb_u64 lb - lenN (sg ++ rest) =? 510) with true
    by (symmetry; apply N.eqb_eq; rewrite lenN_app; unfold lenN in *; rewrite HS; lia).
  cbn [negb]. unfold bind at 1. rewrite (rd_bytes_app 2) by exact HS.
  destruct (bytes_eqb sg MBR_SIGNATURE) eqn:E; [|reflexivity]. apply bytes_eqb_eq in E. subst sg.
  unfold ret. cbn [fst]. f_equal. destruct m; cbn in *. congruence.
Qed.
Lemma mbr_round_trip lb m rest : wf_mbr m -> 512 + lenN rest = lb_u64 lb ->
  mbr_from_bytes (flat_mbr m ++ rest) lb = Ok m.
Proof.
  intros W HL. unfold flat_mbr. rewrite <- !app_assoc. rewrite (mbr_from_flat lb m rest (mbr_sig m)); auto.
  - rewrite (wm_sig m W), bytes_eqb_refl. reflexivity.
  - rewrite (wm_sig m W). reflexivity.
Qed.
(** Every 512 bytes are the image of records, whatever the signature. *)
Lemma rd_records_any n : forall b : list byte, length b = (16 * n)%nat ->
  exists l, length l = n /\ Forall wf_rec l /\ b = flat_recs l.
Proof.
  induction n as [|n IH]; intros b H.
  - exists []. destruct b; [|discriminate]. repeat constructor.
  - assert (E : b = firstn 16 b ++ skipn 16 b) by (symmetry; apply firstn_skipn).
    destruct (rec_parse (firstn 16 b)) as (r & _ & W & R); [rewrite firstn_length; lia|].
    destruct (IH (skipn 16 b)) as (l & L & F & R'); [rewrite skipn_length; lia|].
    exists (r :: l). split; [cbn; lia|]. split; [constructor; auto|]. cbn [flat_recs flat_map]. rewrite R. unfold flat_recs in R'. congruence.
Qed.
Lemma mbr_parts b : lenN b = 512 -> exists m sg, wf_mbr m /\ length sg = 2%nat /\ sg = slice 510 2 b /\
  b = bootcode m ++ disk_signature m ++ le_bytes 2 (unknown m) ++ flat_recs (partitions_mbr m) ++ sg.
Proof.
  intros H.
  assert (E : b = slice 0 440 b ++ slice 440 4 b ++ slice 444 2 b ++ slice 446 64 b ++ slice 510 2 b).
  { rewrite <- (slice_all b) at 1. rewrite H. change 512 with (440 + (4 + (2 + (64 + 2)))).
    rewrite (slice_app_split 0 440), (slice_app_split 440 4), (slice_app_split 444 2), (slice_app_split 446 64). reflexivity. }
  destruct (rd_records_any 4 (slice 446 64 b)) as (l & L & F & R); [rewrite slice_length_nat by lia; reflexivity|].
  exists (mkMbr (slice 0 440 b) (slice 440 4 b) (le_val (slice 444 2 b)) l MBR_SIGNATURE), (slice 510 2 b).
  assert (L2 : length (slice 444 2 b) = 2%nat) by (rewrite slice_length_nat by lia; reflexivity).
  split.
  { constructor; cbn; auto.
    - rewrite slice_length_nat by lia. reflexivity.
    - rewrite slice_length_nat by lia. reflexivity.
    - pose proof (le_val_bound (slice 444 2 b)) as B. unfold lenN in B. rewrite L2 in B. exact B. }
  split; [rewrite slice_length_nat by lia; reflexivity|]. split; [reflexivity|].
  cbn [bootcode disk_signature unknown partitions_mbr]. rewrite (le_bytes_le_val_n 2 _ L2), <- R. exact E.
Qed.

(** * Device operations that succeed *)
Lemma stream_position_inv d p d' : stream_position d = (Ok p, d') -> p = pos d /\ pos d' = pos d /\ data d' = data d.
Proof. unfold stream_position. destruct d as [l q gr em [|[k|] fs] du]; cbn; intros E; inversion E; subst; auto. Qed.
Lemma seek_start_inv n d p d' : seek_start n d = (Ok p, d') -> p = n /\ pos d' = n /\ data d' = data d.
Proof. unfold seek_start. destruct d as [l q gr em [|[k|] fs] du]; cbn; intros E; inversion E; subst; auto. Qed.
Lemma flush_inv d u d' : flush d = (Ok u, d') -> pos d' = pos d /\ data d' = data d.
Proof. unfold flush. destruct d as [l q gr em [|[k|] fs] du]; cbn; intros E; inversion E; subst; auto. Qed.
Lemma write_all_inv bs d u d' : write_all bs d = (Ok u, d') ->
  data d' = store (pos d) bs (data d) /\ pos d' = pos d + lenN bs.
Proof.
  unfold write_all. destruct bs as [|b bs].
  - intros E. inversion E; subst. rewrite store_nil. split; [reflexivity|]. change (lenN []) with 0. lia.
  - destruct d as [l q gr em [|[k|] fs] du]; unfold tick; cbn [faults data pos growable];
      [destruct (gr || _)|discriminate|destruct (gr || _)]; intros E; inversion E; subst; auto.
Qed.
Lemma read_exact_inv n d b d' : read_exact n d = (Ok b, d') ->
  b = slice (pos d) n (data d) /\ data d' = data d /\ pos d' = pos d + n.
Proof.
  unfold read_exact. destruct (n =? 0) eqn:Z.
  - apply N.eqb_eq in Z. subst. intros E. inversion E; subst. rewrite slice_0. split; [reflexivity|]. split; [reflexivity|lia].
  - destruct d as [l q gr em [|[k|] fs] du]; unfold tick; cbn [faults data pos eof_moves];
      [destruct (_ <=? _)|discriminate|destruct (_ <=? _)]; intros E; inversion E; subst; auto.
Qed.
Lemma bind_inv_ok {S E A B} (m : M S E A) (k : A -> M S E B) s b s' : bind m k s = (Ok b, s') ->
  exists a s1, m s = (Ok a, s1) /\ k a s1 = (Ok b, s').
Proof. unfold bind. destruct (m s) as [[a|e|] s1]; try discriminate. eauto. Qed.
Lemma map_err_inv_ok {S E F A} (f : E -> F) (m : M S E A) s a s' : map_err f m s = (Ok a, s') -> m s = (Ok a, s').
Proof. unfold map_err. destruct (m s) as [[x|e|] s1]; intros H; inversion H; subst; reflexivity. Qed.
(** Writing at a place and returning to the old position. *)
Lemma write_at_inv off bs d u d' : write_at_mbr off bs d = (Ok u, d') ->
  data d' = store off bs (data d) /\ pos d' = pos d.
Proof.
  unfold write_at_mbr. intros H. apply bind_inv_ok in H. destruct H as (p & d1 & E1 & H).
  apply bind_inv_ok in H. destruct H as (p2 & d2 & E2 & H). apply bind_inv_ok in H. destruct H as (u3 & d3 & E3 & H).
  apply bind_inv_ok in H. destruct H as (u4 & d4 & E4 & H). apply bind_inv_ok in H. destruct H as (p5 & d5 & E5 & H).
  inversion H; subst. apply stream_position_inv in E1. apply seek_start_inv in E2, E5. apply write_all_inv in E3. apply flush_inv in E4.
  destruct E1 as (-> & P1 & D1), E2 as (-> & P2 & D2), E3 as (D3 & P3), E4 as (P4 & D4), E5 as (_ & P5 & D5).
  split; [|exact P5]. rewrite D5, D4, D3, D2, D1, P2. reflexivity.
Qed.
Lemma write_at_keeps off bs (I : list byte -> Prop) : (forall l k, I l -> I (store off (firstn k bs) l)) ->
  keeps I (write_at_mbr off bs).
Proof.
  intros H. unfold write_at_mbr. apply keeps_bind; [apply untouched_keeps; auto with untouched|]. intros cur.
  assert (X : keeps I (bind (bind (seek_start off) (fun _ => write_all bs)) (fun _ => bind flush (fun _ => bind (seek_start cur) (fun _ => ret tt))))).
  { apply keeps_bind; [apply keeps_seek_write, H|]. intros _. apply untouched_keeps. auto with untouched. }
  intros d Hd. specialize (X d Hd). unfold bind in X |- *. destruct (seek_start off d) as [[p|e|] d1]; exact X.
Qed.
Lemma write_at_ok off bs d : healthy d -> off + lenN bs <= dev_len d ->
  write_at_mbr off bs d = (Ok tt, set_data d (store off bs (data d)) (pos d)).
Proof.
  intros H L. unfold write_at_mbr. unfold bind at 1. rewrite stream_position_ok by exact H.
  unfold bind at 1. rewrite seek_start_ok by exact H. unfold bind at 1. rewrite write_all_ok by (auto; exact L).
  unfold bind at 1. rewrite flush_ok by exact H. unfold bind at 1. rewrite seek_start_ok by exact H. reflexivity.
Qed.
Lemma read_at_ok off n d : healthy d -> off + n <= dev_len d ->
  read_at_mbr off n d = (Ok (slice off n (data d)), d).
Proof.
  intros H L. unfold read_at_mbr. unfold bind at 1. rewrite stream_position_ok by exact H.
  unfold bind at 1. rewrite seek_start_ok by exact H. unfold bind at 1. rewrite read_exact_ok by (auto; exact L).
  unfold bind at 1. rewrite seek_start_ok by exact H. unfold ret. destruct d. reflexivity.
Qed.
Lemma read_at_untouched off n : untouched (read_at_mbr off n).
Proof. unfold read_at_mbr. auto with untouched. Qed.
Lemma read_at_inv off n d b d' : read_at_mbr off n d = (Ok b, d') ->
  b = slice off n (data d) /\ data d' = data d /\ pos d' = pos d.
Proof.
  unfold read_at_mbr. intros H. apply bind_inv_ok in H. destruct H as (p & d1 & E1 & H).
  apply bind_inv_ok in H. destruct H as (p2 & d2 & E2 & H). apply bind_inv_ok in H. destruct H as (u3 & d3 & E3 & H).
  apply bind_inv_ok in H. destruct H as (p4 & d4 & E4 & H). inversion H; subst.
  apply stream_position_inv in E1. apply seek_start_inv in E2, E4. apply read_exact_inv in E3.
  destruct E1 as (-> & P1 & D1), E2 as (-> & P2 & D2), E3 as (-> & D3 & P3), E4 as (_ & P4 & D4).
  rewrite P2, D2, D1. split; [reflexivity|]. split; congruence.
Qed.

(** * overwrite_lba0 *)
Lemma overwrite_eq m d : wf_mbr m ->
  overwrite_lba0 m d = bind (map_err MIo (write_at_mbr 0 (flat_mbr m))) (fun _ => ret 512) d.
Proof.
  intros W. unfold overwrite_lba0, write_at_mbr. rewrite (mbr_to_bytes_flat m W).

  unfold bind, map_err, lift, ret. destruct (stream_position d) as [[p|e|] d1]; try reflexivity.
  destruct (seek_start 0 d1) as [[p2|e|] d2]; try reflexivity. destruct (write_all (flat_mbr m) d2) as [[u|e|] d3]; try reflexivity.
  destruct (flush d3) as [[u4|e|] d4]; try reflexivity. destruct (seek_start p d4) as [[u5|e|] d5]; try reflexivity.
  unfold lenN. rewrite (flat_mbr_length m W). reflexivity.
Qed.

(** * Frames for devices that may grow *)
(** The bytes that existed outside [lo, hi) are unchanged and the device does not grow beyond [hi]. *)
Definition within (lo hi : N) (l l' : list byte) : Prop :=
  lenN l <= lenN l' <= N.max (lenN l) hi /\
  forall i, i < lenN l -> i < lo \/ hi <= i -> byte_at l' i = byte_at l i.
Lemma within_refl lo hi l : within lo hi l l.
Proof. split; [lia|auto]. Qed.
Lemma within_store lo hi l0 l off (bs : list byte) k : lo <= off -> off + lenN bs <= hi ->
  within lo hi l0 l -> within lo hi l0 (store off (firstn k bs) l).
Proof.
  intros H1 H2 (HL & HB). pose proof (lenN_firstn_le k bs) as HK. split.
  - destruct (firstn k bs) as [|b r] eqn:E; [exact HL|]. rewrite store_lenN by discriminate. lia.
  - intros i Hi HR. rewrite byte_at_store_out by lia. auto.
Qed.
Lemma store_adjacent_any off a b l p : p = off + lenN a -> store p b (store off a l) = store off (a ++ b) l.
Proof.
  intros ->. destruct a as [|x a]; [rewrite lenN_nil, N.add_0_r; reflexivity|].
  destruct b as [|y b]; [rewrite app_nil_r; reflexivity|].
  apply byte_at_ext; intros i. rewrite byte_at_store by discriminate. rewrite store_lenN by discriminate.
  rewrite !byte_at_store by discriminate. rewrite lenN_app, byte_at_app.
  set (A := x :: a) in *. set (B := y :: b) in *.
  assert (LA : 1 <= lenN A) by (unfold A; rewrite lenN_cons; lia).
  assert (LB : 1 <= lenN B) by (unfold B; rewrite lenN_cons; lia).
  destruct (N.leb_spec (off + lenN A) i), (N.ltb_spec i (off + lenN A + lenN B)),
    (N.leb_spec off i), (N.ltb_spec i (off + lenN A)), (N.ltb_spec i (off + (lenN A + lenN B))),
    (N.ltb_spec (i - off) (lenN A)), (N.ltb_spec i (N.max (lenN l) (off + lenN A))), (N.ltb_spec i (lenN l)), (N.ltb_spec i off);
    cbn [andb]; auto; try lia.
  all: f_equal; lia.
Qed.

(** * update_conservative *)
(** [m] writes inside [lo, hi) when it starts at [p], and advances by [n] when it succeeds. *)
Definition wframe {E A} (l0 : list byte) (lo hi p n : N) (m : M dev E A) : Prop :=
  forall d, pos d = p -> within lo hi l0 (data d) ->
    within lo hi l0 (data (snd (m d))) /\ forall a d', m d = (Ok a, d') -> pos d' = p + n.
Lemma wframe_write l0 lo hi p bs : lo <= p -> p + lenN bs <= hi ->
  wframe l0 lo hi p (lenN bs) (write_all bs).
Proof.
  intros HR HL d P O. split.
  - destruct (write_all_prefix bs d) as (k & -> & _). rewrite P. apply within_store; auto.
  - intros a d' E. apply write_all_inv in E. destruct E as (_ & ->). rewrite P. reflexivity.
Qed.
Lemma wframe_bind {E A B} l0 lo hi p n1 n2 (m : M dev E A) (k : A -> M dev E B) :
  wframe l0 lo hi p n1 m -> (forall a, wframe l0 lo hi (p + n1) n2 (k a)) -> wframe l0 lo hi p (n1 + n2) (bind m k).
Proof.
  intros H1 H2 d P O. destruct (H1 d P O) as (O1 & P1). unfold bind. destruct (m d) as [[a|e|] d1] eqn:Em; cbn [snd] in *.
  - destruct (H2 a d1 (P1 a d1 eq_refl) O1) as (O2 & P2). split; [exact O2|]. intros b d' Eb. rewrite (P2 b d' Eb). lia.
  - split; [exact O1|discriminate].
  - split; [exact O1|discriminate].
Qed.
Lemma wframe_map_err {E F A} l0 lo hi p n (f : E -> F) (m : M dev E A) : wframe l0 lo hi p n m -> wframe l0 lo hi p n (map_err f m).
Proof.
  intros H d P O. destruct (H d P O) as (O1 & P1). unfold map_err. destruct (m d) as [[a|e|] d1] eqn:Em; cbn [snd] in *.
  - split; [exact O1|]. intros b d' X. inversion X; subst. eapply P1; reflexivity.
  - split; [exact O1|discriminate].
  - split; [exact O1|discriminate].
Qed.
Lemma wframe_ret {E A} l0 lo hi p (a : A) : wframe l0 lo hi p 0 (@ret dev E A a).
Proof. intros d P O. split; [exact O|]. intros b d' X. inversion X; subst. lia. Qed.
Lemma wframe_records l0 lo hi l : forall p, lo <= p -> p + 16 * lenN l <= hi ->
  wframe l0 lo hi p (16 * lenN l) (dev_write_records l).
Proof.
  induction l as [|r l IH]; intros p HR HL; cbn [dev_write_records]; [apply wframe_ret|].
  rewrite lenN_cons in *. replace (16 * (1 + lenN l)) with (16 + 16 * lenN l) by lia.
  assert (L16 : lenN (rec_to_bytes r) = 16) by (unfold lenN; rewrite rec_to_bytes_length; reflexivity).
  apply wframe_bind.
  - rewrite <- L16. apply wframe_write; rewrite ?L16; lia.
  - intros _. apply IH; lia.
Qed.
Lemma records_inv l : forall d u d', dev_write_records l d = (Ok u, d') ->
  data d' = store (pos d) (flat_recs l) (data d) /\ pos d' = pos d + 16 * lenN l.
Proof.
  induction l as [|r l IH]; intros d u d' E; cbn [dev_write_records] in E.
  - inversion E; subst. cbn [flat_recs flat_map]. rewrite store_nil. split; [reflexivity|]. change (lenN []) with 0. lia.
  - rewrite lenN_cons. assert (L16 : lenN (rec_to_bytes r) = 16) by (unfold lenN; rewrite rec_to_bytes_length; reflexivity).
    apply bind_inv_ok in E. destruct E as (u1 & d1 & E1 & E). apply write_all_inv in E1. destruct E1 as (D1 & P1). rewrite L16 in P1.
    apply IH in E. destruct E as (D2 & P2). split; [|lia].
    rewrite D2, D1, P1. cbn [flat_recs flat_map]. rewrite (store_adjacent_any (pos d) (rec_to_bytes r)); [reflexivity|rewrite L16; reflexivity].
Qed.
Lemma records_ok l : forall d, healthy d -> pos d + 16 * lenN l <= dev_len d ->
  exists d', dev_write_records l d = (Ok tt, d') /\ healthy d' /\ growable d' = growable d.
Proof.
  induction l as [|r l IH]; intros d H L; cbn [dev_write_records]; [exists d; auto|].
  rewrite lenN_cons in L. assert (L16 : lenN (rec_to_bytes r) = 16) by (unfold lenN; rewrite rec_to_bytes_length; reflexivity).
  unfold bind. rewrite write_all_ok by (auto; rewrite L16; lia).
  destruct (IH (set_data d (store (pos d) (rec_to_bytes r) (data d)) (pos d + lenN (rec_to_bytes r)))) as (d' & E & H' & G'); auto.
  - unfold dev_len in *. cbn [set_data pos data]. rewrite store_lenN_in by (rewrite L16; lia). rewrite L16. lia.
  - eauto.
Qed.
Definition tail_bytes (m : mbr) : list byte := flat_recs (partitions_mbr m) ++ mbr_sig m.
Lemma tail_length m : wf_mbr m -> lenN (tail_bytes m) = 66.
Proof. intros W. unfold tail_bytes, lenN. rewrite app_length, flat_recs_length, (wm_parts m W), (wm_sig m W). reflexivity. Qed.
Lemma update_inv m d n d' : wf_mbr m -> update_conservative m d = (Ok n, d') ->
  n = 66 /\ data d' = store 446 (tail_bytes m) (data d) /\ pos d' = pos d.
Proof.
  intros W H. pose proof (tail_length m W) as TL. unfold update_conservative in H.
  apply bind_inv_ok in H. destruct H as (p & d1 & E1 & H). apply bind_inv_ok in H. destruct H as (p2 & d2 & E2 & H).
  apply bind_inv_ok in H. destruct H as (u3 & d3 & E3 & H). apply bind_inv_ok in H. destruct H as (u4 & d4 & E4 & H).
  apply bind_inv_ok in H. destruct H as (u5 & d5 & E5 & H). apply bind_inv_ok in H. destruct H as (u6 & d6 & E6 & H).
  inversion H; subst. apply map_err_inv_ok in E1, E2, E3, E4, E5, E6.
  apply stream_position_inv in E1. apply seek_start_inv in E2, E6. apply write_all_inv in E4. apply flush_inv in E5.
  destruct E1 as (-> & P1 & D1), E2 as (-> & P2 & D2), E4 as (D4 & P4), E5 as (P5 & D5), E6 as (_ & P6 & D6).
  assert (LP : lenN (partitions_mbr m) = 4) by (unfold lenN; rewrite (wm_parts m W); reflexivity).
  apply records_inv in E3. destruct E3 as (D3 & P3).
  split; [reflexivity|]. split; [|congruence]. rewrite D6, D5, D4, D3, D2, D1, P3, P2, LP. unfold tail_bytes.
  assert (LF : lenN (flat_recs (partitions_mbr m)) = 64) by (unfold lenN; rewrite flat_recs_length, (wm_parts m W); reflexivity).
  rewrite (store_adjacent_any 446 (flat_recs (partitions_mbr m))); [reflexivity|rewrite LF; reflexivity].
Qed.
Lemma update_frame m d : wf_mbr m -> within 446 512 (data d) (data (snd (update_conservative m d))).
Proof.
  intros W. unfold update_conservative.
  assert (LP : lenN (partitions_mbr m) = 4) by (unfold lenN; rewrite (wm_parts m W); reflexivity).
  pose proof (untouched_map_err MIo _ untouched_stream_position d) as (U1 & _).
  unfold bind at 1. destruct (map_err MIo stream_position d) as [[cur|e|] d1]; cbn [snd] in *;
    try (rewrite U1; apply within_refl).
  unfold bind at 1. destruct (map_err MIo (seek_start 446) d1) as [r d2] eqn:E2.
  pose proof (untouched_map_err MIo _ (untouched_seek_start 446) d1) as (U2 & _). rewrite E2 in U2. cbn [snd] in U2.
  destruct r as [p|e|]; cbn [snd]; try (rewrite U2, U1; apply within_refl).
  apply map_err_inv_ok in E2. apply seek_start_inv in E2. destruct E2 as (_ & P2 & _).
  set (l0 := data d) in *.
  assert (O2 : within 446 512 l0 (data d2)) by (rewrite U2, U1; apply within_refl).
  assert (F : wframe l0 446 512 446 (64 + 2) (bind (map_err MIo (dev_write_records (partitions_mbr m))) (fun _ => map_err MIo (write_all (mbr_sig m))))).
  { apply wframe_bind.
    - apply wframe_map_err. replace 64 with (16 * lenN (partitions_mbr m)) by (rewrite LP; reflexivity).
      apply wframe_records; rewrite ?LP; lia.
    - intros _. apply wframe_map_err. rewrite (wm_sig m W). change 2 with (lenN MBR_SIGNATURE). apply wframe_write;
        change (lenN MBR_SIGNATURE) with 2; lia. }
  destruct (F d2 P2 O2) as (O4 & _). unfold bind in O4 |- *.
  destruct (map_err MIo (dev_write_records (partitions_mbr m)) d2) as [[u|e|] d3]; cbn [snd] in *; auto.
  destruct (map_err MIo (write_all (mbr_sig m)) d3) as [[u'|e|] d4]; cbn [snd] in *; auto.
  assert (X : untouched (bind (map_err MIo flush) (fun _ => bind (map_err MIo (seek_start cur)) (fun _ => @ret dev mbr_err N (16 * 4 + 2))))).
  { auto 10 with untouched. }
  destruct (X d4) as (X1 & _). unfold bind in X1. rewrite X1. exact O4.
Qed.
Lemma update_ok m d : wf_mbr m -> healthy d -> 512 <= dev_len d ->
  exists d', update_conservative m d = (Ok 66, d') /\ healthy d'.
Proof.
  intros W H L. unfold update_conservative. unfold bind at 1, map_err at 1. rewrite stream_position_ok by exact H.
  unfold bind at 1, map_err at 1. rewrite seek_start_ok by exact H.
  assert (LP : lenN (partitions_mbr m) = 4) by (unfold lenN; rewrite (wm_parts m W); reflexivity).
  destruct (records_ok (partitions_mbr m) (set_pos d 446)) as (d3 & E3 & H3 & _); [exact H|unfold dev_len in *; cbn; rewrite LP; lia|].
  unfold bind at 1, map_err at 1. rewrite E3.
  apply records_inv in E3. destruct E3 as (D3 & P3). cbn [set_pos data pos] in D3, P3.
  assert (L3 : dev_len d3 = dev_len d).
  { unfold dev_len. rewrite D3. apply store_lenN_in. unfold lenN. rewrite flat_recs_length, (wm_parts m W). unfold dev_len, lenN in L. lia. }
  unfold bind at 1, map_err at 1. rewrite write_all_ok by (auto; rewrite (wm_sig m W), P3, LP, L3; change (lenN MBR_SIGNATURE) with 2; lia).
  unfold bind at 1, map_err at 1. rewrite flush_ok by exact H3. unfold bind, map_err. rewrite seek_start_ok by exact H3. eexists. split; [reflexivity|exact H3].
Qed.

(** * from_disk *)
Lemma from_disk_ok lb d : healthy d -> lb_u64 lb <= dev_len d ->
  (forall b, mbr_from_bytes b lb <> Panic) ->
  mbr_from_disk lb d = (mbr_from_bytes (slice 0 (lb_u64 lb) (data d)) lb, d).
Proof.
  intros H L NP. unfold mbr_from_disk. unfold bind at 1, map_err at 1. rewrite stream_position_ok by exact H.
  unfold bind at 1, map_err at 1. rewrite seek_start_ok by exact H.
  unfold bind at 1, map_err at 1. rewrite read_exact_ok by (auto; exact L). cbn [set_pos data pos].
  specialize (NP (slice 0 (lb_u64 lb) (data d))).
  destruct (mbr_from_bytes (slice 0 (lb_u64 lb) (data d)) lb) as [m|e|]; try contradiction;
    unfold bind, map_err; rewrite seek_start_ok by exact H; destruct d; reflexivity.
Qed.
(** Parsing never panics; its result. *)
Lemma from_bytes_cases b lb :
  (lenN b <> lb_u64 lb /\ mbr_from_bytes b lb = Err MInvalidMBRLength) \/
  (lenN b = lb_u64 lb /\ exists m, wf_mbr m /\
     slice 0 510 b = bootcode m ++ disk_signature m ++ le_bytes 2 (unknown m) ++ flat_recs (partitions_mbr m) /\
     mbr_from_bytes b lb = if bytes_eqb (slice 510 2 b) MBR_SIGNATURE then Ok m else Err MInvalidMBRSignature).
Proof.
  destruct (N.eq_dec (lenN b) (lb_u64 lb)) as [E|E].
  - right. split; [exact E|]. pose proof (lb_pos lb) as LP.
    destruct (mbr_parts (slice 0 512 b)) as (m & sg & W & LS & ES & EB); [apply slice_length; lia|].
    rewrite slice_slice in ES by lia. change (0 + 510) with 510 in ES.
    exists m. split; [exact W|].
    assert (X : b = bootcode m ++ disk_signature m ++ le_bytes 2 (unknown m) ++ flat_recs (partitions_mbr m) ++ sg ++ slice 512 (lenN b - 512) b).
    { rewrite <- (slice_all b) at 1. replace (lenN b) with (512 + (lenN b - 512)) at 1 by lia. rewrite slice_app_split, EB.
      change (0 + 512) with 512. rewrite <- !app_assoc. reflexivity. }
    split.
    + rewrite X at 1. rewrite !app_assoc. unfold slice at 1. cbn [N.to_nat skipn]. rewrite <- !app_assoc.
      set (pre := bootcode m ++ disk_signature m ++ le_bytes 2 (unknown m) ++ flat_recs (partitions_mbr m)).
      replace (bootcode m ++ disk_signature m ++ le_bytes 2 (unknown m) ++ flat_recs (partitions_mbr m) ++ sg ++ slice 512 (lenN b - 512) b)
        with (pre ++ (sg ++ slice 512 (lenN b - 512) b)) by (unfold pre; rewrite <- !app_assoc; reflexivity).
      change (skipn (N.to_nat 0) (pre ++ sg ++ slice 512 (lenN b - 512) b)) with (pre ++ sg ++ slice 512 (lenN b - 512) b).
      apply firstn_app_l. unfold pre. rewrite !app_length, le_bytes_length, flat_recs_length. destruct W as [W1 W2 W3 W4 W5 W6].
      rewrite W1, W2, W4. reflexivity.
    + rewrite <- ES. rewrite X at 1. apply mbr_from_flat; auto. rewrite slice_length by lia. lia.
  - left. split; [exact E|]. unfold mbr_from_bytes. replace (lenN b =? lb_u64 lb) with false by (symmetry; apply N.eqb_neq; exact E). reflexivity.
Qed.
Lemma from_bytes_no_panic b lb : mbr_from_bytes b lb <> Panic.
Proof.
  destruct (from_bytes_cases b lb) as [(_ & ->)|(_ & m & _ & _ & ->)]; [discriminate|]. destruct (bytes_eqb _ _); discriminate.
Qed.
