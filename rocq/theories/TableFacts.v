(** TableFacts.v - the partition array: reading, writing, round trip. *)
From Verif Require Export HeaderFacts.
Open Scope list_scope.
Open Scope N_scope.

(** * Reading *)
(** The partitions in the [n] 128-byte entries of [tbl]; ids start at [i + 1]. *)
Fixpoint table_parts (n : nat) (i : N) (tbl : list byte) : pmap :=
  match n with
  | O => []
  | S n' =>
      let rest := table_parts n' (i + 1) (skipn 128 tbl) in
      let e := firstn 128 tbl in
      if bytes_eqb e (zeros 128) then rest
      else match fst (parse_entry e) with Ok p => (i + 1, p) :: rest | _ => rest end
  end.

Lemma pm_insert_last k p m : Forall (fun x => fst x < k) m -> pm_insert k p m = m ++ [(k, p)].
Proof.
  induction 1 as [|[k' p'] m H Hm IH]; auto. simpl in *.
  destruct (N.ltb_spec k k'); [lia|]. destruct (N.eqb_spec k k'); [lia|]. rewrite IH; auto.
Qed.

Lemma slice_firstn off n l : slice off n l = firstn (N.to_nat n) (skipn (N.to_nat off) l).
Proof. auto. Qed.
Lemma skipn_slice k off n l : skipn (N.to_nat k) (slice off n l) = slice (off + k) (n - k) l.
Proof.
  apply nth_error_ext; intros i. rewrite nth_error_skipn. unfold slice.
  rewrite !nth_error_firstn, !nth_error_skipn.
  destruct (Nat.ltb_spec (N.to_nat k + i) (N.to_nat n)), (Nat.ltb_spec i (N.to_nat (n - k)));
    try lia; auto. f_equal; lia.
Qed.
Lemma firstn_slice k off n l : k <= n -> firstn (N.to_nat k) (slice off n l) = slice off k l.
Proof. intros H. unfold slice. rewrite firstn_firstn. f_equal. lia. Qed.

Lemma addw_counts {E} oc w a b : oc = false \/ a + b < modulus w ->
  exists c, @addw E oc w a b = Ok c /\ (a + b < modulus w -> c = a + b).
Proof.
  intros H. unfold addw. destruct (N.ltb_spec (a + b) (modulus w)) as [L|L]; [eauto|].
  destruct H as [->|H]; [|lia]. eexists. split; [reflexivity|lia].
Qed.
Lemma read_entries_ok oc n : forall i empty parts d,
  healthy d -> pos d + 128 * N.of_nat n <= dev_len d ->
  oc = false \/ empty + N.of_nat n < modulus 31 ->
  Forall (fun x => fst x < i + 1) parts ->
  read_entries oc n i empty parts d =
  (Ok (parts ++ table_parts n i (slice (pos d) (128 * N.of_nat n) (data d))),
   set_pos d (pos d + 128 * N.of_nat n)).
Proof.
  induction n as [|n IH]; intros i empty parts d Hd HL He Hp.
  - cbn. rewrite app_nil_r, N.add_0_r, set_pos_same. auto.
  - cbn [read_entries table_parts]. unfold bind at 1.
    rewrite read_exact_ok by (auto; lia).
    assert (E1 : firstn 128 (slice (pos d) (128 * N.of_nat (S n)) (data d)) = slice (pos d) 128 (data d)).
    { apply (firstn_slice 128). lia. }
    assert (E2 : skipn 128 (slice (pos d) (128 * N.of_nat (S n)) (data d))
                 = slice (pos d + 128) (128 * N.of_nat n) (data d)).
    { rewrite (skipn_slice 128). f_equal. lia. }
    rewrite E1, E2.
    destruct (bytes_eqb (slice (pos d) 128 (data d)) (zeros 128)).
    + destruct (@addw_counts io_err oc 31 empty 1) as (c & EC & HC); [lia|].
      unfold bind. rewrite EC. cbn [lift].
      rewrite IH; [|apply healthy_set_pos; auto|unfold dev_len in *; cbn; lia|lia|].
      * cbn [data pos set_pos]. unfold set_pos; cbn. do 2 f_equal. lia.
      * eapply Forall_impl; [|exact Hp]. cbn; lia.
    + destruct (parse_entry_total (slice (pos d) 128 (data d))) as (p & EP & _).
      { pose proof (slice_length (pos d) 128 (data d)). unfold dev_len, lenN in *. lia. }
      unfold bind. rewrite EP. cbn [lift]. rewrite pm_insert_last by auto.
      rewrite IH; [|apply healthy_set_pos; auto|unfold dev_len in *; cbn; lia|lia|].
      * cbn [data pos set_pos]. rewrite <- app_assoc. unfold set_pos; cbn. do 2 f_equal. lia.
      * apply Forall_app; split; [|repeat constructor; cbn; lia].
        eapply Forall_impl; [|exact Hp]. cbn; lia.
Qed.

Lemma read_entries_eof oc n : forall i empty parts d,
  healthy d -> pos d <= dev_len d -> dev_len d < pos d + 128 * N.of_nat n ->
  oc = false \/ empty + N.of_nat n < modulus 31 \/ 128 * empty + (dev_len d - pos d) < 128 * modulus 31 ->
  exists p, read_entries oc n i empty parts d = (Err IoUnexpectedEof, set_pos d p).
Proof.
  induction n as [|n IH]; intros i empty parts d Hd HP HL He; [cbn in *; lia|].
  cbn [read_entries]. unfold bind at 1.
  destruct (N.le_gt_cases (pos d + 128) (dev_len d)) as [G|G].
  - rewrite read_exact_ok by auto.
    assert (IH' : forall i e q, oc = false \/ e + N.of_nat n < modulus 31 \/ 128 * e + (dev_len d - (pos d + 128)) < 128 * modulus 31 ->
       exists p, read_entries oc n i e q (set_pos d (pos d + 128)) = (Err IoUnexpectedEof, set_pos d p)).
    { intros i' e' q He'. destruct (IH i' e' q (set_pos d (pos d + 128))) as (p & E);
        [apply healthy_set_pos; auto|cbn; exact G|unfold dev_len in *; cbn; lia|auto|].
      exists p. rewrite E. auto. }
    destruct (bytes_eqb (slice (pos d) 128 (data d)) (zeros 128)).
    + destruct (@addw_counts io_err oc 31 empty 1) as (c & EC & HC); [lia|].
      unfold bind. rewrite EC. cbn [lift]. apply IH'. lia.
    + destruct (parse_entry_total (slice (pos d) 128 (data d))) as (p & EP & _).
      { pose proof (slice_length (pos d) 128 (data d)). unfold dev_len, lenN in *. lia. }
      unfold bind. rewrite EP. cbn [lift]. apply IH'. lia.
  - destruct (read_exact_eof 128 d Hd) as (p & E); [lia|auto|]. rewrite E. exists p. auto.
Qed.
Lemma read_entries_eof_far oc n : forall i empty parts d,
  healthy d -> dev_len d < pos d -> n <> O ->
  exists p, read_entries oc n i empty parts d = (Err IoUnexpectedEof, set_pos d p).
Proof.
  intros i empty parts d Hd HL Hn. destruct n; [lia|]. cbn [read_entries]. unfold bind at 1.
  destruct (read_exact_eof 128 d Hd) as (p & E); [lia|lia|]. rewrite E. exists p. auto.
Qed.

(** The array a header describes, and the partitions in it. *)
Definition table_of (h : header) (lb : lbsize) (l : list byte) : list byte :=
  slice (part_start h * lb_u64 lb) (num_parts h * part_size h) l.
Definition parts_of (h : header) (lb : lbsize) (l : list byte) : pmap :=
  table_parts (N.to_nat (num_parts h)) 0 (table_of h lb l).

Definition read_parts_at (h : header) (lb : lbsize) (l : list byte) : outcome io_err pmap :=
  if modulus 64 <=? part_start h * lb_u64 lb
  then Err (IoOther "partition overflow - start offset")
  else if part_start h * lb_u64 lb + num_parts h * 128 <=? lenN l then
    if crc32 (table_of h lb l) =? crc32_parts h then Ok (parts_of h lb l)
    else Err (IoOther "partition table CRC mismatch")
  else if num_parts h =? 0 then
    if 0 =? crc32_parts h then Ok [] else Err (IoOther "partition table CRC mismatch")
  else Err IoUnexpectedEof.

(** The count of empty entries does not overflow a 32-bit signed integer, or may. *)
Definition counts (oc : bool) (h : header) (len : N) : Prop :=
  oc = false \/ num_parts h < modulus 31 \/ len < 128 * modulus 31.

Lemma file_read_partitions_ok oc h lb d :
  healthy d -> part_size h = 128 -> counts oc h (dev_len d) -> dev_len d < modulus 64 ->
  exists p, file_read_partitions oc h lb d = (read_parts_at h lb (data d), set_pos d p).
Proof.
  unfold counts. intros Hd HS HN HD. unfold file_read_partitions, read_parts_at.
  destruct (N.leb_spec (modulus 64) (part_start h * lb_u64 lb)) as [G|G].
  - unfold bind at 1. rewrite checked_mul64_none by auto. exists (pos d). rewrite set_pos_same; auto.
  - unfold bind at 1. rewrite checked_mul64_ok by auto. cbn [lift ok_or].
    unfold bind at 1. rewrite seek_start_ok by auto.
    rewrite HS. change (negb (128 =? 128)) with false. cbv iota.
    fold (dev_len d).
    set (P := part_start h * lb_u64 lb) in *.
    destruct (N.leb_spec (P + num_parts h * 128) (dev_len d)) as [L|L].
    + unfold bind at 1. rewrite read_entries_ok; cbn [pos set_pos];
        [|apply healthy_set_pos; auto|unfold dev_len in *; cbn; lia|lia|constructor].
      unfold bind at 1. rewrite seek_start_ok by (do 2 apply healthy_set_pos; auto).
      unfold bind at 1. rewrite checked_mul64_ok by lia.
      cbn [lift ok_or]. unfold bind at 1.
      rewrite read_exact_ok; [|repeat apply healthy_set_pos; auto|exact L].
      unfold parts_of, table_of. rewrite HS. fold P. cbn [pos set_pos data].
      replace (128 * N.of_nat (N.to_nat (num_parts h))) with (num_parts h * 128) by lia.
      destruct (crc32 _ =? _); eexists; unfold set_pos; reflexivity.
    + destruct (N.eqb_spec (num_parts h) 0) as [Z|Z].
      * rewrite Z. unfold bind, ret. cbn [N.to_nat read_entries]. unfold ret.
        change (N.to_nat 0) with O. cbn [read_entries]. unfold ret.
        rewrite seek_start_ok by (apply healthy_set_pos; auto).
        rewrite checked_mul64_ok by (rewrite modulus_64; lia). change (0 * 128) with 0.
        cbn [lift ok_or]. unfold read_exact. change (0 =? 0) with true. cbv iota.
        change (crc32 []) with 0.
        destruct (0 =? crc32_parts h); exists P; auto.
      * assert (Hn : N.to_nat (num_parts h) <> O) by lia.
        destruct (N.le_gt_cases P (dev_len d)) as [Q|Q].
        -- unfold bind at 1. destruct (read_entries_eof oc (N.to_nat (num_parts h)) 0 0 [] (set_pos d P))
             as (p & E); [apply healthy_set_pos; auto|exact Q|unfold dev_len in *; cbn; lia|unfold dev_len in *; cbn [data pos set_pos]; lia|].
           rewrite E. exists p. auto.
        -- unfold bind at 1. destruct (read_entries_eof_far oc (N.to_nat (num_parts h)) 0 0 [] (set_pos d P))
             as (p & E); [apply healthy_set_pos; auto|exact Q|auto|].
           rewrite E. exists p. auto.
Qed.

(** * The array for a list of partitions *)
Definition entries (ps : list partition) : list byte := flat_map (fun p => as_bytes p 128) ps.
Definition table_bytes (ps : list partition) (np : N) : list byte :=
  entries ps ++ zeros (N.to_nat (128 * (np - lenN ps))).

Lemma entries_lenN ps : lenN (entries ps) = 128 * lenN ps.
Proof.
  unfold entries. induction ps as [|p ps IH]; auto. cbn [flat_map].
  rewrite lenN_app, lenN_cons, as_bytes_lenN, IH. lia.
Qed.
Lemma table_bytes_lenN ps np : lenN ps <= np -> lenN (table_bytes ps np) = 128 * np.
Proof. intros H. unfold table_bytes. rewrite lenN_app, entries_lenN, lenN_zeros. lia. Qed.

Fixpoint number (i : N) (ps : list partition) : pmap :=
  match ps with
  | [] => []
  | p :: r => (i, p) :: number (i + 1) r
  end.

Lemma firstn_zeros a b : firstn a (zeros b) = zeros (min a b).
Proof.
  apply nth_error_ext; intros i. unfold zeros.
  rewrite nth_error_firstn, !nth_error_repeat_if.
  destruct (Nat.ltb_spec i a), (Nat.ltb_spec i b), (Nat.ltb_spec i (min a b)); auto; lia.
Qed.
Lemma skipn_zeros a b : skipn a (zeros b) = zeros (b - a).
Proof.
  apply nth_error_ext; intros i. unfold zeros.
  rewrite nth_error_skipn, !nth_error_repeat_if.
  destruct (Nat.ltb_spec (a + i) b), (Nat.ltb_spec i (b - a)); auto; lia.
Qed.

Lemma table_parts_zeros n : forall i, table_parts n i (zeros (128 * n)) = [].
Proof.
  induction n as [|n IH]; intros i; auto. cbn [table_parts].
  rewrite firstn_zeros, skipn_zeros. replace (min 128 (128 * S n))%nat with 128%nat by lia.
  rewrite bytes_eqb_refl. replace (128 * S n - 128)%nat with (128 * n)%nat by lia. apply IH.
Qed.

Lemma table_parts_bytes ps : forall n i,
  Forall (fun p => wf_part p /\ is_used p = true) ps -> (length ps <= n)%nat ->
  table_parts n i (entries ps ++ zeros (128 * (n - length ps))) = number (i + 1) (map normal ps).
Proof.
  induction ps as [|p ps IH]; intros n i HF HL.
  - cbn [entries flat_map length app map number]. replace (n - 0)%nat with n by lia. apply table_parts_zeros.
  - inversion HF as [|? ? [Hw Hu] HF']; subst. destruct n as [|n]; cbn [length] in HL; [lia|].
    cbn [table_parts]. unfold entries; cbn [flat_map]. fold (entries ps). rewrite <- app_assoc.
    assert (L : length (as_bytes p 128) = 128%nat) by (rewrite as_bytes_length; auto).
    rewrite firstn_app_l, skipn_app_l by auto.
    destruct (bytes_eqb (as_bytes p 128) (zeros 128)) eqn:E.
    + apply bytes_eqb_eq in E. exfalso. eapply used_entry_nonzero; eauto.
    + rewrite parse_entry_as_bytes by auto. cbn [map number]. f_equal.
      cbn [length]. replace (S n - S (length ps))%nat with (n - length ps)%nat by lia.
      apply IH; auto. lia.
Qed.

Lemma table_parts_table ps np :
  Forall (fun p => wf_part p /\ is_used p = true) ps -> lenN ps <= np ->
  table_parts (N.to_nat np) 0 (table_bytes ps np) = number 1 (map normal ps).
Proof.
  intros H HL. unfold table_bytes.
  replace (N.to_nat (128 * (np - lenN ps))) with (128 * (N.to_nat np - length ps))%nat
    by (unfold lenN in *; lia).
  apply table_parts_bytes; auto. unfold lenN in HL; lia.
Qed.

(** * Writing entries *)
Lemma write_to_device_ok oc p idx sl lb sz d :
  healthy d -> sl * lb_u64 lb + idx * sz + sz <= dev_len d -> dev_len d < modulus 64 ->
  exists q, write_to_device oc p idx sl lb sz d =
    (Ok tt, set_data d (store (sl * lb_u64 lb + idx * sz) (as_bytes p sz) (data d)) q).
Proof.
  intros Hd H1 H2. unfold write_to_device.
  unfold bind at 1. rewrite checked_mul64_ok by lia. cbn [lift ok_or].
  unfold bind at 1. rewrite checked_mul64_ok by lia. cbn [lift ok_or].
  unfold bind at 1. rewrite addw_ok by lia. cbn [lift].
  unfold bind. rewrite seek_start_ok by auto.
  rewrite write_all_ok; [|apply healthy_set_pos; auto|cbn [pos set_pos]; rewrite as_bytes_lenN; unfold dev_len in *; cbn; lia].
  eexists. reflexivity.
Qed.

Lemma write_zero_entries_ok oc idx n sl lb sz d :
  healthy d -> sl * lb_u64 lb + idx * sz + sz * n <= dev_len d -> dev_len d < modulus 64 ->
  exists q, write_zero_entries oc idx n sl lb sz d =
    (Ok tt, set_data d (store (sl * lb_u64 lb + idx * sz) (zeros (N.to_nat (sz * n))) (data d)) q).
Proof.
  intros Hd H1 H2. unfold write_zero_entries.
  unfold bind at 1. rewrite checked_mul64_ok by lia. cbn [lift ok_or].
  unfold bind at 1. rewrite checked_mul64_ok by lia. cbn [lift ok_or].
  unfold bind at 1. rewrite addw_ok by lia. cbn [lift].
  unfold bind at 1. rewrite seek_start_ok by auto.
  unfold bind at 1. rewrite checked_mul64_ok by lia. cbn [lift ok_or].
  rewrite write_all_ok; [|apply healthy_set_pos; auto|cbn [pos set_pos]; rewrite lenN_zeros; unfold dev_len in *; cbn; lia].
  eexists. reflexivity.
Qed.

(** For every fault schedule the entry writers store some prefix of the entry at its slot, or
    nothing at all. *)
Lemma write_to_device_prefix oc p idx sl lb sz d :
  sl * lb_u64 lb + idx * sz < modulus 64 ->
  exists j, data (snd (write_to_device oc p idx sl lb sz d)) =
            store (sl * lb_u64 lb + idx * sz) (firstn j (as_bytes p sz)) (data d).
Proof.
  intros H. unfold write_to_device.
  unfold bind at 1. rewrite checked_mul64_ok by lia. cbn [lift ok_or].
  unfold bind at 1. rewrite checked_mul64_ok by lia. cbn [lift ok_or].
  unfold bind at 1. rewrite addw_ok by lia. cbn [lift].
  destruct (seek_write_prefix (sl * lb_u64 lb + idx * sz) (as_bytes p sz) d) as (j & E & _).
  exists j. exact E.
Qed.
Lemma write_zero_entries_prefix oc idx n sl lb sz d :
  sl * lb_u64 lb + idx * sz < modulus 64 ->
  exists j, data (snd (write_zero_entries oc idx n sl lb sz d)) =
            store (sl * lb_u64 lb + idx * sz) (firstn j (zeros (N.to_nat (sz * n)))) (data d).
Proof.
  intros H. unfold write_zero_entries.
  unfold bind at 1. rewrite checked_mul64_ok by lia. cbn [lift ok_or].
  unfold bind at 1. rewrite checked_mul64_ok by lia. cbn [lift ok_or].
  unfold bind at 1. rewrite addw_ok by lia. cbn [lift].
  set (o := sl * lb_u64 lb + idx * sz).
  destruct (N.lt_ge_cases (sz * n) (modulus 64)) as [G|G].
  - destruct (seek_write_prefix o (zeros (N.to_nat (sz * n))) d) as (j & E & _). exists j.
    rewrite <- E. unfold bind. destruct (seek_start o d) as [[a|e|] d']; auto.
    rewrite checked_mul64_ok by auto. reflexivity.
  - exists O. cbn [firstn]. rewrite store_nil.
    unfold bind. pose proof (untouched_seek_start o d) as (U & _).
    destruct (seek_start o d) as [[a|e|] d'] eqn:ES; cbn in U |- *; auto.
    rewrite checked_mul64_none by auto. auto.
Qed.
Lemma write_to_device_overflow oc p idx sl lb sz d :
  modulus 64 <= sl * lb_u64 lb \/ modulus 64 <= idx * sz ->
  exists e, write_to_device oc p idx sl lb sz d = (Err e, d).
Proof.
  intros H. unfold write_to_device.
  destruct (N.lt_ge_cases (sl * lb_u64 lb) (modulus 64)).
  - unfold bind at 1. rewrite checked_mul64_ok by auto. cbn [lift ok_or].
    unfold bind at 1. rewrite checked_mul64_none by lia. eexists. reflexivity.
  - unfold bind at 1. rewrite checked_mul64_none by auto. eexists. reflexivity.
Qed.
