(** WriteFacts.v - write_inplace on a sane disk: the final image, and what any fault schedule can
    do. *)
From Verif Require Export BuildFacts.
Open Scope list_scope.
Open Scope N_scope.

(** * Tables, fault-free *)
Lemma set_data_set_data d l p l' p' : set_data (set_data d l p) l' p' = set_data d l' p'.
Proof. auto. Qed.

Lemma write_entries_ok oc lb ph bh : forall l idx X d l0,
  healthy d -> part_size ph = 128 -> part_size bh = 128 ->
  num_parts ph = num_parts bh ->
  part_start ph * lb_u64 lb + 128 * num_parts ph <= part_start bh * lb_u64 lb ->
  part_start bh * lb_u64 lb + 128 * num_parts bh <= lenN l0 -> lenN l0 < modulus 64 ->
  part_start ph <> part_start bh ->
  lenN X = 128 * idx -> idx + lenN l <= num_parts ph ->
  data d = store (part_start ph * lb_u64 lb) X (store (part_start bh * lb_u64 lb) X l0) ->
  exists q, write_entries oc lb ph (Some bh) l idx d =
    (Ok (idx + lenN l),
     set_data d (store (part_start ph * lb_u64 lb) (X ++ entries (map snd l))
                  (store (part_start bh * lb_u64 lb) (X ++ entries (map snd l)) l0)) q).
Proof.
  induction l as [|[k p] l IH]; intros idx X d l0 Hd HP HB HN HPB HBL H64 Hne HX HI HD.
  - exists (pos d). cbn. rewrite app_nil_r, N.add_0_r, <- HD. destruct d; auto.
  - cbn [write_entries]. rewrite lenN_cons in HI.
    set (P := part_start ph * lb_u64 lb) in *. set (B := part_start bh * lb_u64 lb) in *.
    destruct (N.leb_spec (num_parts ph) idx); [lia|].
    destruct (N.leb_spec (num_parts bh) idx); [lia|].
    destruct (N.eqb_spec (part_start ph) (part_start bh)); [contradiction|].
    assert (LB : lenN (store B X l0) = lenN l0) by (apply store_lenN_in; lia).
    assert (LD : lenN (data d) = lenN l0) by (rewrite HD, store_lenN_in; lia).
    rewrite HP, HB.
    destruct (write_to_device_ok oc p idx (part_start ph) lb 128 d Hd) as (q1 & E1);
      [fold P; unfold dev_len; lia|unfold dev_len; lia|]. fold P in E1.
    unfold bind at 1. unfold map_err at 1. rewrite E1.
    set (d1 := set_data d _ q1).
    assert (Hd1 : healthy d1) by (apply healthy_set_data; auto).
    assert (L1 : lenN (data d1) = lenN l0).
    { cbn. rewrite store_lenN_in; rewrite ?as_bytes_lenN; lia. }
    destruct (write_to_device_ok oc p idx (part_start bh) lb 128 d1 Hd1) as (q2 & E2);
      [fold B; unfold dev_len; lia|unfold dev_len; lia|]. fold B in E2.
    unfold bind at 1. unfold map_err at 1. rewrite E2.
    set (d2 := set_data d1 _ q2).
    assert (ED : data d2 = store P (X ++ as_bytes p 128) (store B (X ++ as_bytes p 128) l0)).
    { cbn. rewrite HD. rewrite (store_adjacent P X (as_bytes p 128));
        [|lia|rewrite LB, as_bytes_lenN; lia].
      rewrite store_comm; rewrite ?lenN_app, ?as_bytes_lenN, ?LB; try lia.
      f_equal. apply store_adjacent; rewrite ?as_bytes_lenN; lia. }
    destruct (IH (idx + 1) (X ++ as_bytes p 128) d2 l0) as (q & E); auto.
    + rewrite lenN_app, as_bytes_lenN. lia.
    + lia.
    + exists q. rewrite E. rewrite lenN_cons. replace (idx + 1 + lenN l) with (idx + (1 + lenN l)) by lia.
      unfold entries; cbn [map flat_map]. fold (entries (map snd l)).
      rewrite <- app_assoc. reflexivity.
Qed.

Lemma write_entries_ok_1 oc lb ph : forall l idx X d l0,
  healthy d -> part_size ph = 128 ->
  part_start ph * lb_u64 lb + 128 * num_parts ph <= lenN l0 -> lenN l0 < modulus 64 ->
  lenN X = 128 * idx -> idx + lenN l <= num_parts ph ->
  data d = store (part_start ph * lb_u64 lb) X l0 ->
  exists q, write_entries oc lb ph None l idx d =
    (Ok (idx + lenN l),
     set_data d (store (part_start ph * lb_u64 lb) (X ++ entries (map snd l)) l0) q).
Proof.
  induction l as [|[k p] l IH]; intros idx X d l0 Hd HP HPL H64 HX HI HD.
  - exists (pos d). cbn. rewrite app_nil_r, N.add_0_r, <- HD. destruct d; auto.
  - cbn [write_entries]. rewrite lenN_cons in HI.
    set (P := part_start ph * lb_u64 lb) in *.
    destruct (N.leb_spec (num_parts ph) idx); [lia|].
    assert (LD : lenN (data d) = lenN l0) by (rewrite HD, store_lenN_in; lia).
    rewrite HP.
    destruct (write_to_device_ok oc p idx (part_start ph) lb 128 d Hd) as (q1 & E1);
      [fold P; unfold dev_len; lia|unfold dev_len; lia|]. fold P in E1.
    unfold bind at 1. unfold map_err at 1. rewrite E1.
    set (d1 := set_data d _ q1). unfold bind at 1, ret.
    assert (ED : data d1 = store P (X ++ as_bytes p 128) l0).
    { cbn. rewrite HD. apply store_adjacent; rewrite ?as_bytes_lenN; lia. }
    destruct (IH (idx + 1) (X ++ as_bytes p 128) d1 l0) as (q & E); auto.
    + rewrite lenN_app, as_bytes_lenN. lia.
    + lia.
    + exists q. rewrite E. rewrite lenN_cons. replace (idx + 1 + lenN l) with (idx + (1 + lenN l)) by lia.
      unfold entries; cbn [map flat_map]. fold (entries (map snd l)).
      rewrite <- app_assoc. reflexivity.
Qed.

Definition used_list (m : pmap) : list partition := map snd (used_parts m).
Lemma used_list_lenN m : lenN (used_list m) = lenN (used_parts m).
Proof. unfold lenN, used_list. rewrite map_length. auto. Qed.

Lemma write_tables_ok oc lb ph bh m d :
  healthy d -> part_size ph = 128 -> part_size bh = 128 ->
  num_parts ph = num_parts bh ->
  part_start ph * lb_u64 lb + 128 * num_parts ph <= part_start bh * lb_u64 lb ->
  part_start bh * lb_u64 lb + 128 * num_parts bh <= dev_len d -> dev_len d < modulus 64 ->
  part_start ph <> part_start bh -> lenN (used_list m) <= num_parts ph ->
  let T := table_bytes (used_list m) (num_parts ph) in
  exists q, write_tables oc lb ph (Some bh) m d =
    (Ok tt, set_data d (store (part_start ph * lb_u64 lb) T
                         (store (part_start bh * lb_u64 lb) T (data d))) q).
Proof.
  intros Hd HP HB HN HPB HBL H64 Hne HI T. rewrite used_list_lenN in HI. unfold dev_len in *.
  unfold write_tables.
  destruct (write_entries_ok oc lb ph bh (used_parts m) 0 [] d (data d)) as (q1 & E1); auto.
  unfold bind at 1. rewrite E1. cbn [app]. rewrite N.add_0_l.
  set (P := part_start ph * lb_u64 lb) in *. set (B := part_start bh * lb_u64 lb) in *.
  fold (used_list m). set (X := entries (used_list m)).
  assert (LX : lenN X = 128 * lenN (used_parts m)).
  { unfold X. rewrite entries_lenN, used_list_lenN. auto. }
  set (n := lenN (used_parts m)) in *.
  set (d1 := set_data d _ q1).
  assert (Hd1 : healthy d1) by (apply healthy_set_data; auto).
  assert (LB : lenN (store B X (data d)) = lenN (data d)) by (apply store_lenN_in; lia).
  assert (L1 : lenN (data d1) = lenN (data d)) by (cbn; rewrite store_lenN_in; lia).
  unfold bind at 1. unfold sub_unwrap at 1. rewrite checked_sub64_ok by lia. cbn [lift].
  rewrite HP, HB.
  destruct (write_zero_entries_ok oc n (num_parts ph - n) (part_start ph) lb 128 d1 Hd1) as (q2 & E2);
    [fold P; unfold dev_len; lia|unfold dev_len; lia|]. fold P in E2.
  unfold bind at 1. unfold map_err at 1. rewrite E2. set (d2 := set_data d1 _ q2).
  set (Z := zeros (N.to_nat (128 * (num_parts ph - n)))).
  assert (LZ : lenN Z = 128 * (num_parts ph - n)) by (unfold Z; rewrite lenN_zeros; lia).
  assert (Hd2 : healthy d2) by (apply healthy_set_data; auto).
  assert (L2 : lenN (data d2) = lenN (data d)).
  { unfold d2; cbn [data set_data]. fold Z. rewrite store_lenN_in; rewrite ?LZ; lia. }
  unfold bind at 1. unfold sub_unwrap at 1. rewrite checked_sub64_ok by lia. cbn [lift].
  destruct (write_zero_entries_ok oc n (num_parts bh - n) (part_start bh) lb 128 d2 Hd2) as (q3 & E3);
    [fold B; unfold dev_len; lia|unfold dev_len; lia|]. fold B in E3.
  rewrite <- HN in E3. fold Z in E3. rewrite <- HN.
  unfold map_err. rewrite E3. exists q3.
  unfold d2, d1; cbn [data set_data]. rewrite !set_data_set_data. fold Z.
  assert (ET : T = X ++ Z).
  { unfold T, table_bytes. rewrite used_list_lenN. reflexivity. }
  rewrite ET. do 2 f_equal.
  rewrite (store_adjacent P X Z); [|lia|rewrite LB; lia].
  rewrite store_comm; rewrite ?lenN_app, ?LB; try lia.
  f_equal. apply store_adjacent; lia.
Qed.

Lemma write_tables_ok_1 oc lb ph m d :
  healthy d -> part_size ph = 128 ->
  part_start ph * lb_u64 lb + 128 * num_parts ph <= dev_len d -> dev_len d < modulus 64 ->
  lenN (used_list m) <= num_parts ph ->
  let T := table_bytes (used_list m) (num_parts ph) in
  exists q, write_tables oc lb ph None m d =
    (Ok tt, set_data d (store (part_start ph * lb_u64 lb) T (data d)) q).
Proof.
  intros Hd HP HPL H64 HI T. rewrite used_list_lenN in HI. unfold dev_len in *.
  unfold write_tables.
  destruct (write_entries_ok_1 oc lb ph (used_parts m) 0 [] d (data d)) as (q1 & E1); auto.
  unfold bind at 1. rewrite E1. cbn [app]. rewrite N.add_0_l.
  set (P := part_start ph * lb_u64 lb) in *.
  fold (used_list m). set (X := entries (used_list m)).
  assert (LX : lenN X = 128 * lenN (used_parts m)).
  { unfold X. rewrite entries_lenN, used_list_lenN. auto. }
  set (n := lenN (used_parts m)) in *.
  set (d1 := set_data d _ q1).
  assert (Hd1 : healthy d1) by (apply healthy_set_data; auto).
  assert (L1 : lenN (data d1) = lenN (data d)) by (cbn; rewrite store_lenN_in; lia).
  unfold bind at 1. unfold sub_unwrap at 1. rewrite checked_sub64_ok by lia. cbn [lift].
  rewrite HP.
  destruct (write_zero_entries_ok oc n (num_parts ph - n) (part_start ph) lb 128 d1 Hd1) as (q2 & E2);
    [fold P; unfold dev_len; lia|unfold dev_len; lia|]. fold P in E2.
  unfold bind at 1. unfold map_err at 1. rewrite E2.
  set (Z := zeros (N.to_nat (128 * (num_parts ph - n)))).
  assert (LZ : lenN Z = 128 * (num_parts ph - n)) by (unfold Z; rewrite lenN_zeros; lia).
  exists q2. unfold ret.
  unfold d1; cbn [data set_data]. rewrite !set_data_set_data. fold Z.
  assert (ET : T = X ++ Z).
  { unfold T, table_bytes. rewrite used_list_lenN. reflexivity. }
  rewrite ET. do 2 f_equal. apply store_adjacent; lia.
Qed.

(** * write_inplace, restructured *)
Lemma bind_ok {S E A B} {m : M S E A} {s a s'} (H : m s = (Ok a, s')) (k : A -> M S E B) :
  bind m k s = k a s'.
Proof. unfold bind; rewrite H; auto. Qed.
Lemma bind_err {S E A B} {m : M S E A} {s e s'} (H : m s = (Err e, s')) (k : A -> M S E B) :
  bind m k s = (Err e, s').
Proof. unfold bind; rewrite H; auto. Qed.
Lemma bind_panic {S E A B} {m : M S E A} {s s'} (H : m s = (Panic, s')) (k : A -> M S E B) :
  bind m k s = (Panic, s').
Proof. unfold bind; rewrite H; auto. Qed.
Definition put_primary (ph : header) : M gdisk gpt_err unit := fun g => (Ok tt, set_primary (Ok ph) g).
Definition put_backup (bh : option header) : M gdisk gpt_err unit := fun g =>
  (Ok tt, match bh with Some b => set_backup (Ok b) g | None => g end).
Definition write_rest (oc : bool) (lb : lbsize) (ph : header) (bh : option header) (m : pmap) (sync : bool)
  : M gdisk gpt_err unit :=
  on_device (write_tables oc lb ph bh m) ;;
  (match bh with Some bh => write_backup_of bh | None => ret tt end) ;;
  write_primary_of ph ;;
  on_device (map_err GIo flush) ;;
  (if sync then on_device (map_err GIo sync_all) else ret tt).

Lemma write_inplace_eq oc g h ph bh :
  c_writable (g_config g) = true ->
  try_header g = Ok h ->
  build oc (bset_primary true (builder_from_header h)) (c_lb (g_config g)) = Ok ph ->
  (if c_readonly_backup (g_config g) then bh = None
   else exists b, build oc (bset_primary false (builder_from_header ph)) (c_lb (g_config g)) = Ok b /\ bh = Some b) ->
  write_inplace oc g =
  (on_device (map_err GHeader (find_backup_lba (c_lb (g_config g)))) ;;
   put_primary ph ;; put_backup bh ;;
   write_rest oc (c_lb (g_config g)) ph bh (g_partitions g) (g_sync g)) g.
Proof.
  intros HW HT HP HB. unfold write_inplace. rewrite HW. cbn [negb].
  destruct (on_device (map_err GHeader (find_backup_lba (c_lb (g_config g)))) g) as [[v|e|] g1] eqn:E.
  2: { rewrite (bind_err E), (bind_err E). auto. }
  2: { rewrite (bind_panic E), (bind_panic E). auto. }
  rewrite (bind_ok E), (bind_ok E).
  assert (X : exists d, g1 = set_device d g).
  { unfold on_device in E. destruct (map_err _ _ _) as [r d]. injection E as _ <-. eauto. }
  destruct X as (d & ->).
  unfold bind at 1. unfold the_header.
  change (try_header (set_device d g)) with (try_header g). rewrite HT. cbn [lift].
  unfold bind at 1. rewrite HP. cbn [omap_err lift].
  rewrite (bind_ok (m := fun g0 => (Ok tt, set_primary (Ok ph) g0)) eq_refl).
  rewrite (bind_ok (m := put_primary ph) eq_refl).
  rewrite (bind_ok (m := put_backup bh) eq_refl).
  cbn [set_device g_config].
  destruct (c_readonly_backup (g_config g)) eqn:ER.
  - subst bh. reflexivity.
  - destruct HB as (b & EB & ->). unfold bind at 1. unfold bind at 1. rewrite EB. reflexivity.
Qed.

(** * Fault-free outcome on a sane disk *)
Definition good_dev (d : dev) : Prop := healthy d /\ dev_len d < modulus 64.

(** The header blocks and the contents after writing [ps] with the layout of [h]. *)
Definition table_image (h : header) (ps : list partition) : list byte := table_bytes ps (num_parts h).
Definition final_image (lb : lbsize) (h : header) (ps : list partition) (l : list byte) : list byte :=
  let T := table_image h ps in
  let t := ablocks (num_parts h) 128 lb in
  store (lb_u64 lb) (hdr_block (new_primary lb h) (crc32 T) lb)
    (store (blba h * lb_u64 lb) (hdr_block (new_backup lb h) (crc32 T) lb)
      (store (2 * lb_u64 lb) T
        (store ((blba h - t) * lb_u64 lb) T l))).
Definition final_image_ro (lb : lbsize) (h : header) (ps : list partition) (l : list byte) : list byte :=
  let T := table_image h ps in
  store (lb_u64 lb) (hdr_block (new_primary lb h) (crc32 T) lb) (store (2 * lb_u64 lb) T l).

(** Byte positions of the areas, all in range and in order. *)
Lemma sane_areas lb len h : sane lb len h ->
  let L := lb_u64 lb in let t := ablocks (num_parts h) 128 lb in
  2 * L + 128 * num_parts h <= first_usable h * L /\
  first_usable h * L <= (blba h - t) * L /\
  (blba h - t) * L + 128 * num_parts h <= blba h * L /\
  blba h * L + L <= len /\ 512 <= L /\ 2 < blba h - t.
Proof.
  intros S L t. destruct S as [Q1 Q2 Q3 Q4 Q5 Q6 Q7 Q8]. pose proof (lb_pos lb) as [HL _]. fold L in HL.
  pose proof (ablocks_fit (num_parts h) 128 lb) as HF. fold t in Q5, Q6, Q7, HF. fold L in Q8, HF.
  assert (t <= blba h) by lia.
  repeat split; try nia.
Qed.

Lemma new_primary_lens lb h : wf_uuid (disk_guid h) ->
  length (signature (new_primary lb h)) = 8%nat /\ wf_uuid (disk_guid (new_primary lb h)).
Proof. intros; split; auto. Qed.

Lemma write_header_step h lba lb d : healthy d -> dev_len d < modulus 64 ->
  length (signature h) = 8%nat -> wf_uuid (disk_guid h) -> part_size h = 128 ->
  part_start h * lb_u64 lb + num_parts h * 128 <= dev_len d ->
  lba * lb_u64 lb + lb_u64 lb <= dev_len d ->
  let pc := table_crc h lb (data d) in
  exists p, file_write_header h lba lb d =
    (Ok (lb_u64 lb), (hdr_written h pc,
       set_data d (store (lba * lb_u64 lb) (hdr_block h pc lb) (data d)) p)).
Proof.
  intros. apply file_write_header_ok; auto. rewrite H3; auto.
Qed.

Definition same_shape (d d' : dev) : Prop :=
  growable d' = growable d /\ eof_moves d' = eof_moves d /\ faults d' = faults d.

(** write_inplace succeeds and leaves exactly [final_image]. *)
Theorem write_inplace_sane oc g h :
  c_writable (g_config g) = true -> c_readonly_backup (g_config g) = false ->
  try_header g = Ok h -> good_dev (g_device g) ->
  sane (c_lb (g_config g)) (dev_len (g_device g)) h ->
  lenN (used_list (g_partitions g)) <= num_parts h ->
  exists g', write_inplace oc g = (Ok tt, g') /\
    let lb := c_lb (g_config g) in
    let ps := used_list (g_partitions g) in
    let c := crc32 (table_image h ps) in
    data (g_device g') = final_image lb h ps (data (g_device g)) /\
    g_primary g' = Ok (hdr_written (new_primary lb h) c) /\
    g_backup g' = Ok (hdr_written (new_backup lb h) c) /\
    g_config g' = g_config g /\ g_guid g' = g_guid g /\ g_partitions g' = g_partitions g /\
    g_sync g' = g_sync g /\ same_shape (g_device g) (g_device g') /\
    durable (g_device g') = (if g_sync g then data (g_device g') else durable (g_device g)).
Proof.
  intros HW HR HT [Hd H64] S HU.
  set (lb := c_lb (g_config g)) in *. set (ps := used_list (g_partitions g)) in *.
  pose proof (sane_areas _ _ _ S) as (A1 & A2 & A3 & A4 & A5 & A6). fold lb in A1, A2, A3, A4, A5, A6.
  set (t := ablocks (num_parts h) 128 lb) in *.
  set (ph := new_primary lb h). set (bh := new_backup lb h).
  rewrite (write_inplace_eq oc g h ph (Some bh)); auto.
  2: { eapply build_primary_sane; eauto. }
  2: { rewrite HR. exists bh. split; auto. eapply build_backup_sane; eauto. }
  fold lb. unfold bind at 1. unfold on_device at 1. unfold map_err at 1.
  rewrite find_backup_lba_ok by auto.
  assert (Hlen : dev_len (g_device g) <? lb_u64 lb * 3 = false).
  { apply N.ltb_ge. assert (2 <= blba h) by lia. nia. }
  rewrite Hlen. unfold bind at 1. unfold put_primary at 1. unfold bind at 1. unfold put_backup at 1.
  set (g1 := set_backup _ _). unfold write_rest.
  assert (Gw : wf_uuid (disk_guid h)) by apply S.
  (* tables *)
  set (d := g_device g) in *. set (T := table_image h ps).
  assert (LT : lenN T = 128 * num_parts h) by (apply table_bytes_lenN; auto).
  destruct (write_tables_ok oc lb ph bh (g_partitions g) d) as (q1 & E1); auto.
  { cbn. fold t. lia. }
  { cbn. fold t. lia. }
  { cbn. fold t. lia. }
  cbn [ph bh new_primary new_backup part_start num_parts] in E1. fold t ph bh in E1.
  change (table_bytes (used_list (g_partitions g)) (num_parts h)) with T in E1.
  unfold bind at 1. unfold on_device at 1. change (g_device g1) with d. rewrite E1.
  set (l1 := store (2 * lb_u64 lb) T (store ((blba h - t) * lb_u64 lb) T (data d))).
  set (d1 := set_data d l1 q1).
  assert (L0 : lenN (store ((blba h - t) * lb_u64 lb) T (data d)) = dev_len d).
  { rewrite store_lenN_in; rewrite ?LT; unfold dev_len in *; lia. }
  assert (L1 : dev_len d1 = dev_len d).
  { unfold dev_len, d1; cbn [data set_data]. unfold l1. rewrite store_lenN_in; rewrite ?L0, ?LT; unfold dev_len; auto.
    unfold dev_len in *. lia. }
  (* backup header *)
  unfold bind at 1. unfold write_backup_of. cbn [g_config set_device g1 set_backup set_primary g_device].
  fold lb. unfold write_backup. cbn [bh new_backup current_lba backup_lba].
  destruct (N.leb_spec (blba h) 1); [lia|].
  assert (CT1 : table_crc bh lb l1 = crc32 T).
  { unfold table_crc. cbn [bh new_backup part_start num_parts part_size]. fold t.
    replace (num_parts h * 128) with (lenN T) by lia. f_equal. unfold l1.
    rewrite slice_store_other; [apply slice_store_same; auto|lia|rewrite L0; lia]. }
  fold bh.
  destruct (write_header_step bh (blba h) lb d1) as (q2 & E2); auto.
  { rewrite L1; auto. }
  { cbn. fold t. rewrite L1. lia. }
  { rewrite L1. lia. }
  cbn [d1 data set_data] in E2. rewrite CT1 in E2. fold d1 in E2. rewrite E2. cbn [obind omap_err].
  set (l2 := store (blba h * lb_u64 lb) _ l1). set (d2 := set_data d1 l2 q2).
  assert (LHB : lenN (hdr_block bh (crc32 T) lb) = lb_u64 lb) by (apply hdr_block_lenN; auto).
  assert (LHP : lenN (hdr_block ph (crc32 T) lb) = lb_u64 lb) by (apply hdr_block_lenN; auto).
  assert (LL1 : lenN l1 = dev_len d) by exact L1.
  assert (L2 : dev_len d2 = dev_len d).
  { unfold dev_len, d2; cbn [data set_data]. unfold l2. rewrite store_lenN_in; rewrite ?LHB, ?LL1; auto; lia. }
  (* primary header *)
  unfold bind at 1. unfold write_primary_of. cbn [g_config set_device set_backup set_primary g_device].
  fold lb. unfold write_primary. cbn [ph new_primary current_lba backup_lba].
  destruct (N.leb_spec (blba h) 1); [lia|].
  assert (CT2 : table_crc ph lb l2 = crc32 T).
  { unfold table_crc. cbn [ph new_primary part_start num_parts part_size].
    replace (num_parts h * 128) with (lenN T) by lia. f_equal. unfold l2.
    rewrite slice_store_other; [unfold l1; apply slice_store_same; auto|lia|rewrite LL1; lia]. }
  fold ph.
  destruct (write_header_step ph 1 lb d2) as (q3 & E3); auto.
  { rewrite L2; auto. }
  { cbn. rewrite L2. lia. }
  { rewrite L2. lia. }
  cbn [d2 data set_data] in E3. rewrite CT2 in E3. fold d2 in E3. change (c_lb (g_config g1)) with lb. rewrite E3. cbn [obind omap_err].
  rewrite N.mul_1_l.
  set (l3 := store (lb_u64 lb) _ l2). set (d3 := set_data d2 l3 q3).
  assert (Hd3 : healthy d3) by (do 3 apply healthy_set_data; auto).
  unfold bind at 1. unfold on_device at 1. unfold map_err at 1.
  cbn [g_device set_device set_primary]. rewrite flush_ok by auto.
  destruct (g_sync g) eqn:ES.
  - unfold on_device, map_err, sync_all. cbn [g_device set_device set_primary].
    rewrite tick_healthy by auto.
    eexists. split; [reflexivity|]. cbn. repeat split; auto.
  - eexists. split; [reflexivity|]. cbn. repeat split; auto.
Qed.

(** The same with the backup read-only: only the primary copy is written. *)
Theorem write_inplace_sane_ro oc g h :
  c_writable (g_config g) = true -> c_readonly_backup (g_config g) = true ->
  try_header g = Ok h -> good_dev (g_device g) ->
  sane (c_lb (g_config g)) (dev_len (g_device g)) h ->
  lenN (used_list (g_partitions g)) <= num_parts h ->
  exists g', write_inplace oc g = (Ok tt, g') /\
    let lb := c_lb (g_config g) in
    let ps := used_list (g_partitions g) in
    let c := crc32 (table_image h ps) in
    data (g_device g') = final_image_ro lb h ps (data (g_device g)) /\
    g_primary g' = Ok (hdr_written (new_primary lb h) c) /\
    g_backup g' = g_backup g /\
    g_config g' = g_config g /\ g_guid g' = g_guid g /\ g_partitions g' = g_partitions g /\
    g_sync g' = g_sync g /\ same_shape (g_device g) (g_device g') /\
    durable (g_device g') = (if g_sync g then data (g_device g') else durable (g_device g)).
Proof.
  intros HW HR HT [Hd H64] S HU.
  set (lb := c_lb (g_config g)) in *. set (ps := used_list (g_partitions g)) in *.
  pose proof (sane_areas _ _ _ S) as (A1 & A2 & A3 & A4 & A5 & A6). fold lb in A1, A2, A3, A4, A5, A6.
  set (t := ablocks (num_parts h) 128 lb) in *.
  set (ph := new_primary lb h).
  rewrite (write_inplace_eq oc g h ph None); auto.
  2: { eapply build_primary_sane; eauto. }
  2: { rewrite HR. auto. }
  fold lb. unfold bind at 1. unfold on_device at 1. unfold map_err at 1.
  rewrite find_backup_lba_ok by auto.
  assert (Hlen : dev_len (g_device g) <? lb_u64 lb * 3 = false).
  { apply N.ltb_ge. assert (2 <= blba h) by lia. nia. }
  rewrite Hlen. unfold bind at 1. unfold put_primary at 1. unfold bind at 1. unfold put_backup at 1.
  set (g1 := set_primary _ _). unfold write_rest.
  assert (Gw : wf_uuid (disk_guid h)) by apply S.
  set (d := g_device g) in *. set (T := table_image h ps).
  assert (LT : lenN T = 128 * num_parts h) by (apply table_bytes_lenN; auto).
  destruct (write_tables_ok_1 oc lb ph (g_partitions g) d) as (q1 & E1); auto.
  { cbn. lia. }
  cbn [ph new_primary part_start num_parts] in E1. fold t ph in E1.
  change (table_bytes (used_list (g_partitions g)) (num_parts h)) with T in E1.
  unfold bind at 1. unfold on_device at 1. change (g_device g1) with d. rewrite E1.
  set (l1 := store (2 * lb_u64 lb) T (data d)).
  set (d1 := set_data d l1 q1).
  assert (L1 : dev_len d1 = dev_len d).
  { unfold dev_len, d1; cbn [data set_data]. unfold l1. rewrite store_lenN_in; rewrite ?LT; unfold dev_len in *; auto.
    lia. }
  unfold bind at 1. unfold ret at 1.
  assert (LHP : lenN (hdr_block ph (crc32 T) lb) = lb_u64 lb) by (apply hdr_block_lenN; auto).
  assert (LL1 : lenN l1 = dev_len d) by exact L1.
  unfold bind at 1. unfold write_primary_of. cbn [g_config set_device set_backup set_primary g_device].
  change (c_lb (g_config g1)) with lb. unfold write_primary. cbn [ph new_primary current_lba backup_lba].
  destruct (N.leb_spec (blba h) 1); [lia|].
  assert (CT2 : table_crc ph lb l1 = crc32 T).
  { unfold table_crc. cbn [ph new_primary part_start num_parts part_size].
    replace (num_parts h * 128) with (lenN T) by lia. f_equal.
    unfold l1; apply slice_store_same; auto. }
  fold ph.
  destruct (write_header_step ph 1 lb d1) as (q3 & E3); auto.
  { rewrite L1; auto. }
  { cbn. rewrite L1. lia. }
  { rewrite L1. lia. }
  cbn [d1 data set_data] in E3. rewrite CT2 in E3. fold d1 in E3. rewrite E3. cbn [obind omap_err].
  rewrite N.mul_1_l.
  set (l3 := store (lb_u64 lb) _ l1). set (d3 := set_data d1 l3 q3).
  assert (Hd3 : healthy d3) by (do 2 apply healthy_set_data; auto).
  unfold bind at 1. unfold on_device at 1. unfold map_err at 1.
  cbn [g_device set_device set_primary]. rewrite flush_ok by auto.
  destruct (g_sync g) eqn:ES.
  - unfold on_device, map_err, sync_all. cbn [g_device set_device set_primary].
    rewrite tick_healthy by auto.
    eexists. split; [reflexivity|]. cbn. repeat split; auto.
  - eexists. split; [reflexivity|]. cbn. repeat split; auto.
Qed.

(** * Every fault schedule *)
(** [gkeeps I m]: the predicate on the device contents survives the disk operation. *)
Definition gkeeps {E A} (I : list byte -> Prop) (m : M gdisk E A) : Prop :=
  forall g, I (data (g_device g)) -> I (data (g_device (snd (m g)))).
Lemma gkeeps_bind {E A B} I (m : M gdisk E A) (k : A -> M gdisk E B) :
  gkeeps I m -> (forall a, gkeeps I (k a)) -> gkeeps I (bind m k).
Proof.
  intros Hm Hk g Hg. unfold bind. specialize (Hm g Hg).
  destruct (m g) as [[a|e|] g']; cbn in *; auto. apply Hk; auto.
Qed.
Lemma gkeeps_on_device {E A} I (m : M dev E A) : keeps I m -> gkeeps I (on_device m).
Proof.
  intros H g Hg. unfold on_device. specialize (H (g_device g) Hg).
  destruct (m (g_device g)) as [r d]; auto.
Qed.
Lemma gkeeps_ret {E A} I (a : A) : gkeeps I (@ret gdisk E A a).
Proof. intros g Hg; auto. Qed.
Lemma gkeeps_put_primary I ph : gkeeps I (put_primary ph).
Proof. intros g Hg; auto. Qed.
Lemma gkeeps_put_backup I bh : gkeeps I (put_backup bh).
Proof. intros g Hg. destruct bh; auto. Qed.

Lemma untouched_find_backup_lba lb : untouched (find_backup_lba lb).
Proof. unfold find_backup_lba. auto 20 with untouched. Qed.
Lemma untouched_partentry_checksum h lb : untouched (partentry_checksum h lb).
Proof. unfold partentry_checksum. auto 20 with untouched. Qed.
Lemma untouched_sync d : data (snd (sync_all d)) = data d.
Proof.
  unfold sync_all, tick. destruct (faults d) as [|[m|] r]; auto.
Qed.

Lemma file_write_header_prefix h lba lb d :
  length (signature h) = 8%nat -> wf_uuid (disk_guid h) -> lba * lb_u64 lb < modulus 64 ->
  exists k pc, data (snd (snd (file_write_header h lba lb d))) =
    store (lba * lb_u64 lb) (firstn k (hdr_block h pc lb)) (data d).
Proof.
  intros Hs Hg HL. unfold file_write_header.
  pose proof (untouched_partentry_checksum h lb d) as (U & _).
  destruct (partentry_checksum h lb d) as [[pc|e|] d1]; cbn [snd] in U |- *;
    try (exists O, 0; cbn [firstn snd]; rewrite store_nil; auto; fail).
  rewrite hdr_to_bytes_eq by auto.
  set (h1 := set_crc32_parts h pc).
  assert (EI : forall c, hdr_image h1 pc c = hdr_image h pc c) by reflexivity.
  rewrite EI. cbn [arr]. change (crc32 (hdr_image h pc 0)) with (hdr_crc h pc).
  rewrite seek_patch by auto.
  assert (EB : firstn (N.to_nat (lb_u64 lb))
            (hdr_image h pc (hdr_crc h pc) ++ zeros (N.to_nat (lb_u64 lb) - 92)) = hdr_block h pc lb).
  { apply firstn_all2. pose proof (hdr_block_lenN h pc lb Hs Hg). unfold lenN, hdr_block in *. lia. }
  cbn [arr]. rewrite EB.
  unfold bind at 1. rewrite checked_mul64_ok by auto. cbn [lift ok_or].
  destruct (seek_write_prefix (lba * lb_u64 lb) (hdr_block h pc lb) d1) as (k & E & _).
  exists k, pc. rewrite <- U, <- E. unfold bind, map_err.
  destruct (seek_start (lba * lb_u64 lb) d1) as [[a|e|] d2]; auto.
  destruct (write_all (hdr_block h pc lb) d2) as [[a'|e|] d3]; auto.
Qed.

Lemma keeps_write_entries (I : list byte -> Prop) oc lb ph bh : forall l idx,
  (forall p i d, i < num_parts ph -> I (data d) ->
     I (data (snd (write_to_device oc p i (part_start ph) lb (part_size ph) d)))) ->
  (forall b p i d, bh = Some b -> i < num_parts b -> I (data d) ->
     I (data (snd (write_to_device oc p i (part_start b) lb (part_size b) d)))) ->
  keeps I (write_entries oc lb ph bh l idx).
Proof.
  induction l as [|[k p] l IH]; intros idx HP HB; [apply keeps_ret|].
  cbn [write_entries]. destruct (N.leb_spec (num_parts ph) idx).
  { apply untouched_keeps, untouched_throw. }
  apply keeps_bind; [apply keeps_map_err; intros d Hd; auto|intros _].
  apply keeps_bind; [|intros _; apply IH; auto].
  destruct bh as [b|]; [|apply keeps_ret].
  destruct (N.leb_spec (num_parts b) idx).
  { apply untouched_keeps, untouched_throw. }
  destruct (part_start ph =? part_start b); [apply keeps_ret|].
  apply keeps_map_err. intros d Hd. eapply HB; eauto.
Qed.

(** The bytes of one copy: header block and array. *)
Definition in_area (off n i : N) : Prop := off <= i < off + n.
Definition primary_area (lb : lbsize) (h : header) (i : N) : Prop :=
  in_area (lb_u64 lb) (lb_u64 lb) i \/ in_area (2 * lb_u64 lb) (128 * num_parts h) i.
Definition backup_area (lb : lbsize) (h : header) (i : N) : Prop :=
  in_area (blba h * lb_u64 lb) (lb_u64 lb) i \/
  in_area ((blba h - ablocks (num_parts h) 128 lb) * lb_u64 lb) (128 * num_parts h) i.

Lemma keeps_write_tables oc lb ph bh m l0 (R : N -> Prop) :
  part_size ph = 128 -> (forall b, bh = Some b -> part_size b = 128) ->
  lenN l0 < modulus 64 ->
  part_start ph * lb_u64 lb + 128 * num_parts ph <= lenN l0 ->
  (forall b, bh = Some b -> part_start b * lb_u64 lb + 128 * num_parts b <= lenN l0) ->
  (forall i, in_area (part_start ph * lb_u64 lb) (128 * num_parts ph) i -> R i) ->
  (forall b i, bh = Some b -> in_area (part_start b * lb_u64 lb) (128 * num_parts b) i -> R i) ->
  keeps (only_in l0 R) (write_tables oc lb ph bh m).
Proof.
  intros SP SB H64 HP HB RP RB. unfold write_tables, in_area in *.
  assert (W : forall x p i d, part_size x = 128 ->
     part_start x * lb_u64 lb + 128 * num_parts x <= lenN l0 ->
     (forall i, part_start x * lb_u64 lb <= i < part_start x * lb_u64 lb + 128 * num_parts x -> R i) ->
     i < num_parts x -> only_in l0 R (data d) ->
     only_in l0 R (data (snd (write_to_device oc p i (part_start x) lb (part_size x) d)))).
  { intros x p i d S1 F1 R1 Hi Hd. rewrite S1.
    destruct (write_to_device_prefix oc p i (part_start x) lb 128 d) as (j & ->); [lia|].
    apply only_in_store; auto; rewrite as_bytes_lenN; [|lia]. intros k Hk. apply R1. lia. }
  assert (Z : forall x a b d, part_size x = 128 ->
     part_start x * lb_u64 lb + 128 * num_parts x <= lenN l0 ->
     (forall i, part_start x * lb_u64 lb <= i < part_start x * lb_u64 lb + 128 * num_parts x -> R i) ->
     a + b <= num_parts x -> only_in l0 R (data d) ->
     only_in l0 R (data (snd (write_zero_entries oc a b (part_start x) lb (part_size x) d)))).
  { intros x a b d S1 F1 R1 Hi Hd. rewrite S1.
    destruct (write_zero_entries_prefix oc a b (part_start x) lb 128 d) as (j & ->); [lia|].
    apply only_in_store; auto; rewrite lenN_zeros; [|lia]. intros k Hk. apply R1. lia. }
  apply keeps_bind.
  { apply keeps_write_entries; intros; apply W; auto. intros; eapply RB; eauto. }
  intros next.
  assert (SU : forall x (k : N -> M dev gpt_err unit),
    (next <= num_parts x -> keeps (only_in l0 R) (k (num_parts x - next))) ->
    keeps (only_in l0 R) (let* n := lift (sub_unwrap (num_parts x) next) in k n)).
  { intros x k Hk. unfold sub_unwrap. destruct (N.le_gt_cases next (num_parts x)) as [L|L].
    - rewrite checked_sub64_ok by auto. intros d Hd. unfold bind, lift. apply Hk; auto.
    - rewrite checked_sub64_none by auto. intros d Hd. exact Hd. }
  apply SU. intros L. apply keeps_bind.
  { apply keeps_map_err. intros d Hd. apply Z; auto. lia. }
  intros _. destruct bh as [b|]; [|apply keeps_ret].
  apply SU. intros L2. apply keeps_map_err. intros d Hd. apply Z; auto; try lia.
  intros i Hi. eapply RB; eauto.
Qed.

Lemma gkeeps_write_header_of (I : list byte -> Prop) h lb (put : header -> gdisk -> gdisk)
    (f : header -> lbsize -> dev -> outcome hdr_err N * (header * dev)) :
  (forall h' g, g_device (put h' g) = g_device g) ->
  (forall d, I (data d) -> I (data (snd (snd (f h lb d))))) ->
  forall g, c_lb (g_config g) = lb -> I (data (g_device g)) ->
  I (data (g_device (snd (let '(r, (h', d)) := f h (c_lb (g_config g)) (g_device g) in
     (omap_err GHeader (let? _ := r in Ok tt), set_device d (put h' g)))))).
Proof.
  intros Hp Hf g HL Hg. rewrite HL. specialize (Hf _ Hg).
  destruct (f h lb (g_device g)) as [r [h' d]]. auto.
Qed.

Definition gkeeps_lb {E A} (lb : lbsize) (I : list byte -> Prop) (m : M gdisk E A) : Prop :=
  forall g, c_lb (g_config g) = lb -> I (data (g_device g)) ->
    I (data (g_device (snd (m g)))) /\ c_lb (g_config (snd (m g))) = lb.
Lemma gkeeps_lb_bind {E A B} lb I (m : M gdisk E A) (k : A -> M gdisk E B) :
  gkeeps_lb lb I m -> (forall a, gkeeps_lb lb I (k a)) -> gkeeps_lb lb I (bind m k).
Proof.
  intros Hm Hk g Hl Hg. unfold bind. specialize (Hm g Hl Hg) as [Hm1 Hm2].
  destruct (m g) as [[a|e|] g']; cbn in *; auto. apply Hk; auto.
Qed.
Lemma gkeeps_lb_on_device {E A} lb I (m : M dev E A) : keeps I m -> gkeeps_lb lb I (on_device m).
Proof.
  intros H g Hl Hg. unfold on_device. specialize (H (g_device g) Hg).
  destruct (m (g_device g)) as [r d]; auto.
Qed.
Lemma gkeeps_lb_ret {E A} lb I (a : A) : gkeeps_lb lb I (@ret gdisk E A a).
Proof. intros g Hl Hg; auto. Qed.

Lemma keeps_write_backup (I : list byte -> Prop) h lb d :
  length (signature h) = 8%nat -> wf_uuid (disk_guid h) -> current_lba h * lb_u64 lb < modulus 64 ->
  (forall k pc l, I l -> I (store (current_lba h * lb_u64 lb) (firstn k (hdr_block h pc lb)) l)) ->
  I (data d) -> I (data (snd (snd (write_backup h lb d)))).
Proof.
  intros H1 H2 H3 HI Hd. unfold write_backup. destruct (_ <=? _); auto.
  destruct (file_write_header_prefix h (current_lba h) lb d) as (k & pc & ->); auto.
Qed.
Lemma keeps_write_primary (I : list byte -> Prop) h lb d :
  length (signature h) = 8%nat -> wf_uuid (disk_guid h) -> current_lba h * lb_u64 lb < modulus 64 ->
  (forall k pc l, I l -> I (store (current_lba h * lb_u64 lb) (firstn k (hdr_block h pc lb)) l)) ->
  I (data d) -> I (data (snd (snd (write_primary h lb d)))).
Proof.
  intros H1 H2 H3 HI Hd. unfold write_primary. destruct (_ <=? _); auto.
  destruct (file_write_header_prefix h (current_lba h) lb d) as (k & pc & ->); auto.
Qed.

(** [write_rest] with well-placed headers keeps everything outside [R]. *)
Lemma write_rest_frame oc lb ph bh m s l0 (R : N -> Prop) :
  length (signature ph) = 8%nat -> wf_uuid (disk_guid ph) -> part_size ph = 128 ->
  (forall b, bh = Some b -> length (signature b) = 8%nat /\ wf_uuid (disk_guid b) /\ part_size b = 128) ->
  lenN l0 < modulus 64 ->
  part_start ph * lb_u64 lb + 128 * num_parts ph <= lenN l0 ->
  current_lba ph * lb_u64 lb + lb_u64 lb <= lenN l0 ->
  (forall b, bh = Some b -> part_start b * lb_u64 lb + 128 * num_parts b <= lenN l0 /\
                            current_lba b * lb_u64 lb + lb_u64 lb <= lenN l0) ->
  (forall i, in_area (part_start ph * lb_u64 lb) (128 * num_parts ph) i \/
             in_area (current_lba ph * lb_u64 lb) (lb_u64 lb) i -> R i) ->
  (forall b i, bh = Some b -> in_area (part_start b * lb_u64 lb) (128 * num_parts b) i \/
             in_area (current_lba b * lb_u64 lb) (lb_u64 lb) i -> R i) ->
  gkeeps_lb lb (only_in l0 R) (write_rest oc lb ph bh m s).
Proof.
  intros S1 G1 Z1 HB H64 P1 C1 PB RP RB. pose proof (lb_pos lb).
  unfold write_rest. apply gkeeps_lb_bind; [|intros _; apply gkeeps_lb_bind; [|intros _;
    apply gkeeps_lb_bind; [|intros _; apply gkeeps_lb_bind; [|intros _]]]].
  - apply gkeeps_lb_on_device. apply keeps_write_tables; auto.
    + intros b Hb. apply (HB b Hb).
    + intros b Hb. apply (PB b Hb).
    + intros b i Hb Hi. apply (RB b i Hb). auto.
  - destruct bh as [b|]; [|apply gkeeps_lb_ret].
    destruct (HB b eq_refl) as (S2 & G2 & Z2). destruct (PB b eq_refl) as (P2 & C2).
    intros g Hl Hg. unfold write_backup_of. rewrite Hl.
    assert (X : only_in l0 R (data (snd (snd (write_backup b lb (g_device g)))))).
    { apply keeps_write_backup; auto; [lia|]. intros k pc l Hi.
      apply only_in_store; auto; rewrite hdr_block_lenN; auto.
      intros i Hj. apply (RB b i); auto. }
    destruct (write_backup b lb (g_device g)) as [r [h' d']]. auto.
  - intros g Hl Hg. unfold write_primary_of. rewrite Hl.
    assert (X : only_in l0 R (data (snd (snd (write_primary ph lb (g_device g)))))).
    { apply keeps_write_primary; auto; [lia|]. intros k pc l Hi.
      apply only_in_store; auto; rewrite hdr_block_lenN; auto. }
    destruct (write_primary ph lb (g_device g)) as [r [h' d']]. auto.
  - apply gkeeps_lb_on_device, keeps_map_err, untouched_keeps, untouched_flush.
  - destruct s; [|apply gkeeps_lb_ret].
    apply gkeeps_lb_on_device, keeps_map_err. intros d Hd. rewrite untouched_sync; auto.
Qed.

(** Every fault schedule: only header blocks and arrays can change. *)
Theorem write_inplace_frame oc g h :
  try_header g = Ok h -> dev_len (g_device g) < modulus 64 ->
  sane (c_lb (g_config g)) (dev_len (g_device g)) h ->
  only_in (data (g_device g))
    (fun i => primary_area (c_lb (g_config g)) h i \/
              (c_readonly_backup (g_config g) = false /\ backup_area (c_lb (g_config g)) h i))
    (data (g_device (snd (write_inplace oc g)))).
Proof.
  intros HT H64 S. set (lb := c_lb (g_config g)) in *.
  destruct (c_writable (g_config g)) eqn:HW.
  2: { unfold write_inplace. rewrite HW. apply only_in_refl. }
  pose proof (sane_areas _ _ _ S) as (A1 & A2 & A3 & A4 & A5 & A6). fold lb in A1, A2, A3, A4, A5, A6.
  assert (Gw : wf_uuid (disk_guid h)) by apply S.
  set (t := ablocks (num_parts h) 128 lb) in *.
  set (bh := if c_readonly_backup (g_config g) then None else Some (new_backup lb h)).
  rewrite (write_inplace_eq oc g h (new_primary lb h) bh); auto.
  2: { eapply build_primary_sane; eauto. }
  2: { unfold bh. destruct (c_readonly_backup (g_config g)); auto.
       eexists. split; eauto. eapply build_backup_sane; eauto. }
  fold lb. set (R := fun i => _). unfold dev_len in *.
  match goal with |- only_in _ _ (data (g_device (snd (?m g)))) =>
    assert (X : gkeeps_lb lb (only_in (data (g_device g)) R) m) end.
  2: { apply X; auto. apply only_in_refl. }
  apply gkeeps_lb_bind; [apply gkeeps_lb_on_device, keeps_map_err, untouched_keeps, untouched_find_backup_lba|].
  intros _. apply gkeeps_lb_bind; [intros g1 Hl Hg; auto|]. intros _.
  apply gkeeps_lb_bind; [intros g1 Hl Hg; destruct bh; auto|]. intros _.
  apply write_rest_frame; auto; cbn [new_primary part_start num_parts current_lba]; try lia.
  - intros b Hb. unfold bh in Hb. destruct (c_readonly_backup (g_config g)); [discriminate|].
    injection Hb as <-. auto.
  - intros b Hb. unfold bh in Hb. destruct (c_readonly_backup (g_config g)); [discriminate|].
    injection Hb as <-. cbn. fold t. lia.
  - intros i Hi. unfold R. left. unfold primary_area, in_area in *. lia.
  - intros b i Hb Hi. unfold bh in Hb. destruct (c_readonly_backup (g_config g)); [discriminate|].
    injection Hb as <-. cbn in Hi. fold t in Hi. unfold R. right. split; auto.
    unfold backup_area, in_area in *. fold t. lia.
Qed.

(** A successful write on a disk opened or created by path is durable (any header, any faults). *)
Lemma bind_inv {S E A B} (m : M S E A) (k : A -> M S E B) s r s' :
  bind m k s = (Ok r, s') -> exists a s1, m s = (Ok a, s1) /\ k a s1 = (Ok r, s').
Proof. unfold bind. destruct (m s) as [[a|e|] s1]; intros; try discriminate. eauto. Qed.

Theorem write_inplace_durable oc g g' :
  g_sync g = true -> write_inplace oc g = (Ok tt, g') ->
  durable (g_device g') = data (g_device g').
Proof.
  intros HS H. unfold write_inplace in H. destruct (negb _); [discriminate|].
  apply bind_inv in H as (? & g1 & E1 & H).
  assert (S1 : g_sync g1 = true).
  { unfold on_device in E1. destruct (map_err _ _ _). injection E1 as _ <-. auto. }
  apply bind_inv in H as (h & g2 & E2 & H).
  apply bind_inv in H as (ph & g3 & E3 & H).
  apply bind_inv in H as (? & g4 & E4 & H).
  apply bind_inv in H as (bh & g5 & E5 & H).
  apply bind_inv in H as (? & g6 & E6 & H).
  apply bind_inv in H as (? & g7 & E7 & H).
  apply bind_inv in H as (? & g8 & E8 & H).
  apply bind_inv in H as (? & g9 & E9 & H).
  rewrite S1 in H. unfold on_device, map_err, sync_all in H.
  destruct (tick (g_device g9)) as [[m|] d]; [discriminate|].
  injection H as <-. reflexivity.
Qed.
