(** IdemFacts.v - rewriting what is already there changes nothing, at any crash point. *)
From Verif Require Export ReopenFacts.
Open Scope list_scope.
Open Scope N_scope.

(** The checksum of the array, whatever the faults: an error, or the CRC of what is there. *)
Lemma partentry_checksum_inv h lb d pc d' : part_start h * lb_u64 lb < modulus 64 ->
  partentry_checksum h lb d = (Ok pc, d') -> pc = table_crc h lb (data d).
Proof.
  intros H E. unfold partentry_checksum in E.
  unfold bind at 1 in E. rewrite checked_mul64_ok in E by auto. cbn [lift ok_or] in E.
  apply bind_inv in E as (? & d1 & E1 & E). apply map_err_ok_inv in E1.
  apply bind_inv in E as (pt & d2 & E2 & E).
  unfold lift, ok_or, checked_mul64 in E2.
  destruct (_ <? _); [|discriminate]. injection E2 as <- <-.
  apply bind_inv in E as (buf & d3 & E3 & E). apply map_err_ok_inv in E3.
  injection E as <- <-. unfold table_crc. f_equal.
  pose proof (untouched_seek_start (part_start h * lb_u64 lb) d) as (U & _). rewrite E1 in U. cbn in U.
  assert (P1 : pos d1 = part_start h * lb_u64 lb).
  { unfold seek_start in E1. destruct (tick d) as [[m|] dd]; [discriminate|].
    injection E1 as _ <-. reflexivity. }
  unfold read_exact in E3. destruct (N.eqb_spec (num_parts h * part_size h) 0) as [Z|Z].
  { injection E3 as <- _. rewrite Z. reflexivity. }
  pose proof (tick_same_media d1) as (U2 & _).
  assert (PP : pos (snd (tick d1)) = pos d1) by (unfold tick; destruct (faults d1); auto).
  destruct (tick d1) as [[m|] dd]; [discriminate|]. cbn in U2, PP.
  destruct (_ <=? _); [|discriminate]. injection E3 as <- _.
  rewrite PP, P1, U2, U. reflexivity.
Qed.

Lemma file_write_header_same h lba lb d :
  length (signature h) = 8%nat -> wf_uuid (disk_guid h) ->
  lba * lb_u64 lb + lb_u64 lb <= dev_len d -> dev_len d < modulus 64 ->
  part_start h * lb_u64 lb < modulus 64 ->
  slice (lba * lb_u64 lb) (lb_u64 lb) (data d) = hdr_block h (table_crc h lb (data d)) lb ->
  data (snd (snd (file_write_header h lba lb d))) = data d.
Proof.
  intros Hs Hg HL H64 HP HE. unfold file_write_header.
  pose proof (untouched_partentry_checksum h lb d) as (U & _).
  destruct (partentry_checksum h lb d) as [[pc|e|] d1] eqn:EC; cbn [snd] in U |- *; auto.
  apply partentry_checksum_inv in EC; auto. subst pc. set (pc := table_crc h lb (data d)) in *.
  rewrite hdr_to_bytes_eq by auto.
  set (h1 := set_crc32_parts h pc).
  assert (EI : forall c, hdr_image h1 pc c = hdr_image h pc c) by reflexivity.
  rewrite EI. cbn [arr]. change (crc32 (hdr_image h pc 0)) with (hdr_crc h pc).
  rewrite seek_patch by auto.
  assert (EB : firstn (N.to_nat (lb_u64 lb))
            (hdr_image h pc (hdr_crc h pc) ++ zeros (N.to_nat (lb_u64 lb) - 92)) = hdr_block h pc lb).
  { apply firstn_all2. pose proof (hdr_block_lenN h pc lb Hs Hg). unfold lenN, hdr_block in *. lia. }
  cbn [arr]. rewrite EB. pose proof (lb_pos lb).
  unfold bind at 1. rewrite checked_mul64_ok by lia. cbn [lift ok_or].
  destruct (seek_write_prefix (lba * lb_u64 lb) (hdr_block h pc lb) d1) as (k & E & _).
  transitivity (data (snd ((seek_start (lba * lb_u64 lb);; write_all (hdr_block h pc lb)) d1))).
  { unfold bind, map_err.
    destruct (seek_start (lba * lb_u64 lb) d1) as [[a|e|] d2]; auto.
    destruct (write_all (hdr_block h pc lb) d2) as [[a'|e|] d3]; auto. }
  rewrite E, U. apply store_prefix_same; rewrite hdr_block_lenN by auto; auto.
Qed.

Lemma write_entries_count oc lb ph bh : forall l idx d n d',
  write_entries oc lb ph bh l idx d = (Ok n, d') -> n = idx + lenN l.
Proof.
  induction l as [|[k p] l IH]; intros idx d n d' E.
  - injection E as <- <-. rewrite lenN_nil. lia.
  - cbn [write_entries] in E. destruct (_ <=? _); [discriminate|].
    apply bind_inv in E as (? & d1 & _ & E). apply bind_inv in E as (? & d2 & _ & E).
    apply IH in E. rewrite lenN_cons. lia.
Qed.

Lemma app_split_len {A} (a b c d : list A) : length a = length c -> a ++ b = c ++ d -> a = c /\ b = d.
Proof.
  revert c; induction a as [|x a IH]; intros [|y c] H E; simpl in *; try discriminate; auto.
  injection E as -> E. destruct (IH c) as [-> ->]; auto.
Qed.
Lemma slice_cons_entries L off p l :
  off + 128 * lenN (p :: l) <= lenN L ->
  slice off (128 * lenN (p :: l)) L = entries (p :: l) ->
  slice off 128 L = as_bytes p 128 /\ slice (off + 128) (128 * lenN l) L = entries l.
Proof.
  intros HL E. rewrite lenN_cons in *. unfold entries in E; cbn [flat_map] in E. fold (entries l) in E.
  replace (128 * (1 + lenN l)) with (128 + 128 * lenN l) in E by lia.
  rewrite slice_app_split in E. apply app_split_len; auto.
  pose proof (slice_length off 128 L). pose proof (as_bytes_lenN p 128). unfold lenN in *. lia.
Qed.

Lemma keeps_write_entries_same oc lb ph bh L : forall l idx,
  lenN L < modulus 64 ->
  part_size ph = 128 -> (forall b, bh = Some b -> part_size b = 128) ->
  part_start ph * lb_u64 lb + 128 * (idx + lenN l) <= lenN L ->
  (forall b, bh = Some b -> part_start b * lb_u64 lb + 128 * (idx + lenN l) <= lenN L) ->
  slice (part_start ph * lb_u64 lb + 128 * idx) (128 * lenN l) L = entries (map snd l) ->
  (forall b, bh = Some b ->
     slice (part_start b * lb_u64 lb + 128 * idx) (128 * lenN l) L = entries (map snd l)) ->
  keeps (eq L) (write_entries oc lb ph bh l idx).
Proof.
  induction l as [|[k p] l IH]; intros idx H64 SP SB LP LB EP EB; [apply keeps_ret|].
  cbn [write_entries map snd] in *.
  assert (LL : lenN ((k, p) :: l) = lenN (p :: map snd l)).
  { rewrite !lenN_cons. unfold lenN. rewrite map_length. auto. }
  assert (LM : lenN (map snd l) = lenN l) by (unfold lenN; rewrite map_length; auto).
  rewrite LL in *.
  assert (W : forall x, part_size x = 128 -> part_start x * lb_u64 lb + 128 * (idx + lenN (p :: map snd l)) <= lenN L ->
    slice (part_start x * lb_u64 lb + 128 * idx) (128 * lenN (p :: map snd l)) L = entries (p :: map snd l) ->
    keeps (eq L) (write_to_device oc p idx (part_start x) lb (part_size x))).
  { intros x SX LX EX d Hd. rewrite SX. rewrite lenN_cons in LX.
    destruct (write_to_device_prefix oc p idx (part_start x) lb 128 d) as (j & ->); [lia|].
    rewrite <- Hd. symmetry. apply store_prefix_same; rewrite as_bytes_lenN; [lia|].
    apply slice_cons_entries in EX as [EX _]; [|rewrite lenN_cons; lia].
    rewrite <- EX. f_equal. lia. }
  destruct (_ <=? _); [apply untouched_keeps, untouched_throw|].
  apply keeps_bind; [apply keeps_map_err, W; auto|intros _].
  apply keeps_bind.
  - destruct bh as [b|]; [|apply keeps_ret].
    destruct (_ <=? _); [apply untouched_keeps, untouched_throw|].
    destruct (_ =? _); [apply keeps_ret|]. apply keeps_map_err, W; auto.
  - intros _. apply slice_cons_entries in EP as [_ EP]; [|lia]. rewrite lenN_cons in *. rewrite LM in *.
    apply IH; auto; try lia.
    + intros b Hb. specialize (LB b Hb). lia.
    + rewrite <- EP. f_equal. lia.
    + intros b Hb. specialize (EB b Hb). specialize (LB b Hb).
      replace (1 + lenN l) with (lenN (p :: map snd l)) in EB by (rewrite lenN_cons, LM; auto).
      apply slice_cons_entries in EB as [_ EB]; [|rewrite lenN_cons, LM; lia].
      rewrite LM in EB. rewrite <- EB. f_equal. lia.
Qed.

Lemma slice_split_eq off n m L a b : off + n + m <= lenN L -> lenN a = n ->
  slice off (n + m) L = a ++ b -> slice off n L = a /\ slice (off + n) m L = b.
Proof.
  intros HL HA E. rewrite slice_app_split in E. apply app_split_len; auto.
  pose proof (slice_length off n L). unfold lenN in *. lia.
Qed.

Lemma keeps_write_tables_same oc lb ph bh m L np :
  lenN L < modulus 64 ->
  part_size ph = 128 -> (forall b, bh = Some b -> part_size b = 128) ->
  num_parts ph = np -> (forall b, bh = Some b -> num_parts b = np) ->
  lenN (used_list m) <= np ->
  part_start ph * lb_u64 lb + 128 * np <= lenN L ->
  (forall b, bh = Some b -> part_start b * lb_u64 lb + 128 * np <= lenN L) ->
  slice (part_start ph * lb_u64 lb) (128 * np) L = table_bytes (used_list m) np ->
  (forall b, bh = Some b ->
     slice (part_start b * lb_u64 lb) (128 * np) L = table_bytes (used_list m) np) ->
  keeps (eq L) (write_tables oc lb ph bh m).
Proof.
  intros H64 SP SB NP NB HU LP LB EP EB. rewrite used_list_lenN in HU.
  set (u := lenN (used_parts m)) in *.
  assert (SL : forall off, off + 128 * np <= lenN L -> slice off (128 * np) L = table_bytes (used_list m) np ->
    slice off (128 * u) L = entries (used_list m) /\
    slice (off + 128 * u) (128 * (np - u)) L = zeros (N.to_nat (128 * (np - u)))).
  { intros off Ho E. unfold table_bytes in E. rewrite used_list_lenN in E. fold u in E.
    replace (128 * np) with (128 * u + 128 * (np - u)) in E by lia.
    apply slice_split_eq in E; auto; [lia|]. rewrite entries_lenN, used_list_lenN. auto. }
  unfold write_tables.
  assert (KE : keeps (eq L) (write_entries oc lb ph bh (used_parts m) 0)).
  { apply keeps_write_entries_same; auto; fold u; rewrite ?N.mul_0_r, ?N.add_0_r, ?N.add_0_l; auto; try lia.
    - intros b Hb. specialize (LB b Hb). lia.
    - apply SL; auto.
    - intros b Hb. rewrite N.add_0_r. apply SL; auto. }
  intros d Hd. unfold bind at 1.
  specialize (KE d Hd).
  destruct (write_entries oc lb ph bh (used_parts m) 0 d) as [[next|e|] d1] eqn:EW; cbn [snd] in *; auto.
  apply write_entries_count in EW. fold u in EW. rewrite N.add_0_l in EW. subst next.
  revert d1 KE.
  assert (ZZ : forall x, part_size x = 128 -> part_start x * lb_u64 lb + 128 * np <= lenN L ->
    slice (part_start x * lb_u64 lb) (128 * np) L = table_bytes (used_list m) np ->
    keeps (eq L) (write_zero_entries oc u (np - u) (part_start x) lb (part_size x))).
  { intros x SX LX EX d1 Hd1. rewrite SX.
    destruct (write_zero_entries_prefix oc u (np - u) (part_start x) lb 128 d1) as (j & ->); [lia|].
    rewrite <- Hd1. symmetry. apply store_prefix_same; rewrite lenN_zeros, ?N2Nat.id; [lia|].
    destruct (SL _ LX EX) as [_ <-]. f_equal. lia. }
  match goal with |- forall d1, L = data d1 -> L = data (snd (?m d1)) => change (keeps (eq L) m) end.
  assert (SU : forall x (k : N -> M dev gpt_err unit), num_parts x = np ->
    keeps (eq L) (k (np - u)) -> keeps (eq L) (let* n := lift (sub_unwrap (num_parts x) u) in k n)).
  { intros x k Hx Hk d1 Hd1. unfold bind, lift, sub_unwrap. rewrite Hx, checked_sub64_ok by auto. apply Hk; auto. }
  apply SU; auto. apply keeps_bind; [apply keeps_map_err, ZZ; auto|intros _].
  destruct bh as [b|]; [|apply keeps_ret].
  apply SU; auto. apply keeps_map_err, ZZ; auto.
Qed.

(** write_inplace on a device that already holds what it would write: nothing changes, whatever
    goes wrong. *)
Theorem write_inplace_redundant oc g h l0 :
  try_header g = Ok h -> dev_len (g_device g) < modulus 64 ->
  sane (c_lb (g_config g)) (dev_len (g_device g)) h ->
  lenN (used_list (g_partitions g)) <= num_parts h ->
  data (g_device g) = final_image (c_lb (g_config g)) h (used_list (g_partitions g)) l0 ->
  lenN l0 = dev_len (g_device g) ->
  data (g_device (snd (write_inplace oc g))) = data (g_device g).
Proof.
  intros HT H64 S HU HD HL0. set (lb := c_lb (g_config g)) in *.
  destruct (c_writable (g_config g)) eqn:HW.
  2: { unfold write_inplace. rewrite HW. auto. }
  assert (S0 : sane lb (lenN l0) h) by (rewrite HL0; auto).
  pose proof (image_facts lb h _ l0 S0 HU) as (F1 & F2 & F3 & F4 & F5). rewrite <- HD in F1, F2, F3, F4, F5.
  pose proof (sane_areas _ _ _ S) as (A1 & A2 & A3 & A4 & A5 & A6). fold lb in A1, A2, A3, A4, A5, A6.
  assert (Gw : wf_uuid (disk_guid h)) by apply S.
  set (t := ablocks (num_parts h) 128 lb) in *.
  set (bh := if c_readonly_backup (g_config g) then None else Some (new_backup lb h)).
  rewrite (write_inplace_eq oc g h (new_primary lb h) bh); auto.
  2: { exact (build_primary_sane oc lb _ h S H64). }
  2: { unfold bh. destruct (c_readonly_backup (g_config g)); auto.
       eexists. split; [exact (build_backup_sane oc lb _ h S H64)|auto]. }
  fold lb. unfold dev_len in *. set (L := data (g_device g)) in *.
  assert (HBH : forall b, bh = Some b -> b = new_backup lb h).
  { unfold bh. destruct (c_readonly_backup (g_config g)); congruence. }
  symmetry.
  match goal with |- L = data (g_device (snd (?m g))) =>
    assert (X : gkeeps_lb lb (eq L) m) end.
  2: { apply X; auto. }
  assert (CP : table_crc (new_primary lb h) lb L = crc32 (table_image h (used_list (g_partitions g)))).
  { unfold table_crc. cbn [new_primary part_start num_parts part_size].
    replace (num_parts h * 128) with (128 * num_parts h) by lia. rewrite F4. auto. }
  assert (CB : table_crc (new_backup lb h) lb L = crc32 (table_image h (used_list (g_partitions g)))).
  { unfold table_crc. cbn [new_backup part_start num_parts part_size].
    replace (num_parts h * 128) with (128 * num_parts h) by lia. fold t. rewrite F5. auto. }
  apply gkeeps_lb_bind; [apply gkeeps_lb_on_device, keeps_map_err, untouched_keeps, untouched_find_backup_lba|].
  intros _. apply gkeeps_lb_bind; [intros g1 Hl Hg; auto|]. intros _.
  apply gkeeps_lb_bind; [intros g1 Hl Hg; destruct bh; auto|]. intros _.
  unfold write_rest. apply gkeeps_lb_bind; [|intros _; apply gkeeps_lb_bind; [|intros _;
    apply gkeeps_lb_bind; [|intros _; apply gkeeps_lb_bind; [|intros _]]]].
  - apply gkeeps_lb_on_device. apply keeps_write_tables_same with (num_parts h); auto.
    + intros b Hb; rewrite (HBH b Hb); auto.
    + intros b Hb; rewrite (HBH b Hb); auto.
    + cbn. lia.
    + intros b Hb. rewrite (HBH b Hb). cbn. fold t. lia.
    + intros b Hb; rewrite (HBH b Hb); auto.
  - destruct bh as [b|]; [|apply gkeeps_lb_ret]. rewrite (HBH b eq_refl).
    intros g1 Hl Hg. unfold write_backup_of. rewrite Hl.
    assert (X : L = data (snd (snd (write_backup (new_backup lb h) lb (g_device g1))))).
    { unfold write_backup. destruct (_ <=? _); auto.
      rewrite file_write_header_same; auto; unfold dev_len; rewrite <- ?Hg; cbn [new_backup current_lba part_start]; fold t;
        auto; try lia.
      rewrite F3. rewrite <- CB. reflexivity. }
    destruct (write_backup (new_backup lb h) lb (g_device g1)) as [r [h' d']]. auto.
  - intros g1 Hl Hg. unfold write_primary_of. rewrite Hl.
    assert (X : L = data (snd (snd (write_primary (new_primary lb h) lb (g_device g1))))).
    { unfold write_primary. destruct (_ <=? _); auto.
      rewrite file_write_header_same; auto; unfold dev_len; rewrite <- ?Hg; cbn [new_primary current_lba part_start];
        auto; try lia.
      rewrite N.mul_1_l, F2. rewrite <- CP. reflexivity. }
    destruct (write_primary (new_primary lb h) lb (g_device g1)) as [r [h' d']]. auto.
  - apply gkeeps_lb_on_device, keeps_map_err, untouched_keeps, untouched_flush.
  - destruct (g_sync g); [|apply gkeeps_lb_ret].
    apply gkeeps_lb_on_device, keeps_map_err. intros d Hd. rewrite untouched_sync; auto.
Qed.

(** * Names that survive: the entry written again is the entry written before *)
Lemma as_bytes_normal p : stored_name 36 (name p) = name p -> as_bytes (normal p) 128 = as_bytes p 128.
Proof.
  intros E. unfold as_bytes, normal; cbn [part_type part_guid first_lba last_lba flags name].
  rewrite type_guid_from_uuid, E. reflexivity.
Qed.
Lemma entries_normal ps : Forall (fun p => stored_name 36 (name p) = name p) ps ->
  entries (map normal ps) = entries ps.
Proof.
  induction 1 as [|p ps H Hps IH]; auto. unfold entries in *; cbn [map flat_map].
  rewrite as_bytes_normal, IH; auto.
Qed.
Lemma table_image_normal h ps : Forall (fun p => stored_name 36 (name p) = name p) ps ->
  table_image h (map normal ps) = table_image h ps.
Proof.
  intros H. unfold table_image, table_bytes. rewrite entries_normal by auto.
  unfold lenN. rewrite map_length. auto.
Qed.
Lemma final_image_table lb h ps ps' l : table_image h ps = table_image h ps' ->
  final_image lb h ps l = final_image lb h ps' l.
Proof. intros E. unfold final_image. rewrite E. auto. Qed.
Lemma normal_name_stable p : wf_part p -> stored_name 36 (name (normal p)) = name (normal p).
Proof. intros H. apply stored_name_idem. apply H. Qed.

Lemma used_list_number i ps : Forall (fun p => is_used p = true) ps -> used_list (number i ps) = ps.
Proof.
  intros H. revert i; induction H as [|p ps Hp H IH]; intros i; auto.
  unfold used_list, used_parts in *. cbn [number filter snd]. rewrite Hp. cbn [map]. rewrite IH. auto.
Qed.
Lemma used_list_all_used m : Forall (fun p => is_used p = true) (used_list m).
Proof.
  unfold used_list, used_parts. induction m as [|[k p] m IH]; cbn; auto.
  destruct (is_used p) eqn:E; cbn; auto.
Qed.
Lemma map_normal_used ps : Forall (fun p => is_used p = true) ps ->
  Forall (fun p => is_used p = true) (map normal ps).
Proof. induction 1; cbn; constructor; auto. rewrite normal_used; auto. Qed.
