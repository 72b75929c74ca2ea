(** BigFacts.v - counting 2^31 empty entries in a build with overflow checks. *)
From Verif Require Import OpenFacts SpecFacts MapFacts Samples.
Open Scope list_scope.
Open Scope N_scope.

Lemma slice_of_zeros p n l : (forall k, k < n -> byte_at l (p + k) = Some x00) ->
  slice p n l = zeros (N.to_nat n).
Proof.
  intros H. apply byte_at_ext; intros i. rewrite byte_at_slice, byte_at_zeros, N2Nat.id.
  destruct (N.ltb_spec i n); auto.
Qed.
Lemma read_entries_too_many n : forall i empty parts d,
  healthy d -> (forall k, k < 128 * N.of_nat (S n) -> byte_at (data d) (pos d + k) = Some x00) ->
  pos d + 128 * N.of_nat (S n) <= dev_len d ->
  empty + N.of_nat (S n) = modulus 31 ->
  fst (read_entries true (S n) i empty parts d) = Panic.
Proof.
  induction n as [|n IH]; intros i empty parts d Hd HZ HL He; cbn [read_entries]; unfold bind at 1; rewrite read_exact_ok by (auto; lia);
    rewrite (slice_of_zeros (pos d) 128) by (intros; apply HZ; lia);
    change (N.to_nat 128) with 128%nat; rewrite bytes_eqb_refl; unfold bind, addw;
    destruct (N.ltb_spec (empty + 1) (modulus 31)); try lia; [reflexivity|].
  cbn [lift]. apply IH; [apply healthy_set_pos; auto| |unfold dev_len in *; cbn [data pos set_pos]; lia|lia].
  intros k Hk. cbn [data pos set_pos]. rewrite <- N.add_assoc. apply HZ. lia.
Qed.

(** A header asking for 2^31 entries, followed by that many empty ones. *)
Definition big_header : header := mkHeader EFI_PART 1 0 92 0 0 1 5 3 3 sample_guid 2 2147483648 128 0.
Definition big_start : list byte := zeros 512 ++ hdr_block big_header 0 Lb512.
Lemma big_start_len : lenN big_start = 1024.
Proof. vm_compute. reflexivity. Qed.
Lemma big_start_parses : parse_header (slice 512 92 big_start) =
  Ok (hdr_written big_header 0).
Proof. vm_compute. reflexivity. Qed.

Lemma big_header_read tail : 3 * 512 <= lenN (big_start ++ tail) -> 
  read_header_at 512 (big_start ++ tail) = Ok (hdr_written big_header 0).
Proof.
  intros H. unfold read_header_at.
  replace (512 + 92 <=? lenN (big_start ++ tail)) with true by (symmetry; apply N.leb_le; lia).
  rewrite <- big_start_parses. apply (f_equal parse_header). unfold slice.
  rewrite skipn_app, firstn_app. rewrite skipn_length.
  assert (E : length big_start = 1024%nat) by (pose proof big_start_len as X; unfold lenN in X; lia).
  rewrite E. change (N.to_nat 512) with 512%nat. change (N.to_nat 92) with 92%nat.
  cbn [Nat.sub firstn]. apply app_nil_r.
Qed.
Lemma big_dev_panics z d : N.of_nat z = 274877906944 -> data d = big_start ++ zeros z -> healthy d ->
  fst (open_from_device true config_default d) = Panic.
Proof.
  intros HZ HD Hd.
  assert (HL : dev_len d = 274877907968).
  { unfold dev_len. rewrite HD, lenN_app, lenN_zeros, big_start_len, HZ. reflexivity. }
  rewrite open_ok by (auto; rewrite HL, modulus_64; reflexivity). unfold select.
  change (lb_u64 (c_lb config_default)) with 512. rewrite HD.
  rewrite big_header_read by (unfold dev_len in HL; rewrite HD in HL; rewrite HL; discriminate).
  pose proof (read_backup_at_no_panic (c_lb config_default) d) as NP.
  assert (X : fst (file_read_partitions true (hdr_written big_header 0) (c_lb config_default) d) = Panic).
  { unfold file_read_partitions. unfold bind at 1.
    rewrite checked_mul64_ok by (rewrite modulus_64; reflexivity).
    cbn [lift ok_or]. unfold bind at 1. rewrite seek_start_ok by auto.
    change (negb (part_size (hdr_written big_header 0) =? 128)) with false. cbv iota.
    change (part_start (hdr_written big_header 0) * lb_u64 (c_lb config_default)) with 1024.
    assert (Y : exists n, N.to_nat (num_parts (hdr_written big_header 0)) = S n /\ N.of_nat (S n) = 2147483648).
    { destruct (N.to_nat (num_parts (hdr_written big_header 0))) as [|n] eqn:E.
      - apply (f_equal N.of_nat) in E. rewrite N2Nat.id in E. discriminate.
      - exists n. split; [reflexivity|]. rewrite <- E, N2Nat.id. reflexivity. }
    destruct Y as (n & Y & Z). rewrite Y. clear Y. unfold bind at 1.
    assert (P : fst (read_entries true (S n) 0 0 [] (set_pos d 1024)) = Panic).
    { apply read_entries_too_many; rewrite ?Z; [apply healthy_set_pos; auto| | |].
      - intros k Hk. cbn [data pos set_pos]. rewrite HD, byte_at_app, big_start_len.
        destruct (N.ltb_spec (1024 + k) 1024); [lia|].
        rewrite byte_at_zeros, HZ. destruct (N.ltb_spec (1024 + k - 1024) 274877906944); auto. lia.
      - unfold dev_len in *. cbn [data pos set_pos]. rewrite HL. lia.
      - rewrite modulus_31. lia. }
    destruct (read_entries _ _ _ _ _ _) as [[t|e|] d']; cbn in P; try discriminate. reflexivity. }
  destruct (file_read_partitions true (hdr_written big_header 0) (c_lb config_default) d) as [[t|e|] d'] eqn:EF;
    cbn in X; try discriminate.
  destruct (read_backup_at _ _) as [h|e|]; [| |congruence];
    change (c_only_valid_headers config_default) with false; cbv beta iota; unfold map_err; rewrite EF; reflexivity.
Qed.
Lemma big_dev_exists : exists z, N.of_nat z = 274877906944.
Proof. exists (N.to_nat 274877906944). apply N2Nat.id. Qed.
