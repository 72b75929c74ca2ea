(** CopyFacts.v - a write stopped between the arrays and the headers. *)
From Verif Require Export SpecCopies CrashFacts OpenFacts.
Open Scope list_scope.
Open Scope N_scope.

(** * Letting a call make its device operations before anything else happens *)
Definition paced {E A} (m : M dev E A) : Prop := forall d, healthy d -> healthy (snd (m d)) /\
  exists k, forall r, m (with_faults (repeat None k ++ r) d) = (fst (m d), with_faults r (snd (m d))).
Lemma with_faults_nil d : healthy d -> with_faults [] d = d.
Proof. unfold healthy. destruct d. cbn. intros ->. reflexivity. Qed.
Lemma pc_bind {E A B} (m : M dev E A) (f : A -> M dev E B) : paced m -> (forall a, paced (f a)) -> paced (bind m f).
Proof.
  intros Hm Hf d Hd. destruct (Hm d Hd) as (H1 & k1 & E1). unfold bind. destruct (m d) as [[a|e|] d1]; cbn [fst snd] in *.
  - destruct (Hf a d1 H1) as (H2 & k2 & E2). split; [exact H2|]. exists (k1 + k2)%nat. intros r.
    rewrite repeat_app, <- app_assoc, E1. apply E2.
  - split; [exact H1|]. exists k1. intros r. rewrite E1. reflexivity.
  - split; [exact H1|]. exists k1. intros r. rewrite E1. reflexivity.
Qed.
Lemma pc_none {E A} (o : outcome E A) : paced (fun d => (o, d)).
Proof. intros d Hd. split; [exact Hd|]. exists 0%nat. reflexivity. Qed.
Lemma pc_lift {E A} (o : outcome E A) : paced (@lift dev E A o).
Proof. exact (pc_none o). Qed.
Lemma pc_ret {E A} (a : A) : paced (@ret dev E A a).
Proof. exact (pc_none (Ok a)). Qed.
Lemma pc_throw {E A} (e : E) : paced (@throw dev E A e).
Proof. exact (pc_none (Err e)). Qed.
Lemma pc_map_err {E F A} (f : E -> F) (m : M dev E A) : paced m -> paced (map_err f m).
Proof.
  intros Hm d Hd. destruct (Hm d Hd) as (H1 & k & E1). unfold map_err. destruct (m d) as [[a|e|] d1]; cbn [fst snd] in *;
    (split; [exact H1|]); exists k; intros r; rewrite E1; reflexivity.
Qed.
Ltac one_tick := intros [l p gr em fs du] Hd; unfold healthy in Hd; cbn in Hd; subst fs; split; [|exists 1%nat; intros r]; try reflexivity.
Lemma pc_seek n : paced (seek_start n).
Proof. one_tick. Qed.
Lemma pc_seek_end : paced seek_end.
Proof. one_tick. Qed.
Lemma pc_position : paced stream_position.
Proof. one_tick. Qed.
Lemma pc_write bs : paced (write_all bs).
Proof.
  destruct bs as [|b bs]; [exact (pc_none (Ok tt))|].
  one_tick; unfold write_all; cbn [tick faults with_faults repeat app growable pos data]; unfold dev_len; cbn [data];
    destruct (gr || _)%bool; reflexivity.
Qed.
Ltac pc := repeat (first [apply pc_bind; [|intros ?]|apply pc_map_err|apply pc_lift|apply pc_ret|apply pc_throw
  |apply pc_seek|apply pc_seek_end|apply pc_position|apply pc_write]).
Lemma pc_find_backup lb : paced (find_backup_lba lb).
Proof. unfold find_backup_lba. pc. destruct (_ <? _); pc. Qed.
Lemma pc_write_to oc p i s lb n : paced (write_to_device oc p i s lb n).
Proof. unfold write_to_device. pc. Qed.
Lemma pc_write_zero oc i n s lb b : paced (write_zero_entries oc i n s lb b).
Proof. unfold write_zero_entries. pc. Qed.
Lemma pc_entries oc lb ph bh l idx : paced (write_entries oc lb ph bh l idx).
Proof.
  revert idx. induction l as [|(k, p) r IH]; intros idx; cbn [write_entries]; [pc|].
  destruct (_ <=? _); [pc|]. pc; try apply IH; try apply pc_write_to.
  destruct bh; pc. destruct (_ <=? _); pc. destruct (_ =? _); pc.
Qed.
Lemma pc_tables oc lb ph bh m : paced (write_tables oc lb ph bh m).
Proof.
  unfold write_tables. pc; try apply pc_entries; try apply pc_write_zero. destruct bh; pc.
Qed.

(** * The moment before the first header is written *)
Lemma partentry_blocked h lb d n r : faults d = Some n :: r ->
  exists e d1, partentry_checksum h lb d = (Err e, d1) /\ data d1 = data d.
Proof.
  intros F. unfold partentry_checksum, checked_mul64. unfold bind at 1, lift at 1. destruct (_ <? _); cbn [ok_or].
  - unfold bind at 1, map_err at 1, seek_start, tick. rewrite F. eexists _, _. split; reflexivity.
  - eexists _, _. split; reflexivity.
Qed.
Lemma write_backup_blocked h lb d n r : faults d = Some n :: r ->
  data (snd (snd (write_backup h lb d))) = data d /\ forall a, fst (write_backup h lb d) <> Ok a.
Proof.
  intros F. unfold write_backup. destruct (_ <=? _); [split; [reflexivity|discriminate]|]. unfold file_write_header.
  destruct (partentry_blocked h lb d n r F) as (e & d1 & -> & D). split; [exact D|discriminate].
Qed.
Theorem write_gap oc g h : c_writable (g_config g) = true -> c_readonly_backup (g_config g) = false ->
  try_header g = Ok h -> dev_len (g_device g) < modulus 64 ->
  sane (c_lb (g_config g)) (dev_len (g_device g)) h -> lenN (used_list (g_partitions g)) <= num_parts h ->
  exists fs, left_by oc g fs = tables_image (g_config g) h (used_list (g_partitions g)) (data (g_device g)).
Proof.
  intros HW HR HT H64 S HU. set (cfg := g_config g) in *. set (lb := c_lb cfg) in *. set (L0 := data (g_device g)) in *.
  pose proof (sane_areas _ _ _ S) as (A1 & A2 & A3 & A4 & A5 & A6). set (t := ablocks (num_parts h) 128 lb) in *.
  set (d0 := repaired (g_device g)). assert (H0 : healthy d0) by reflexivity.
  destruct (pc_find_backup lb d0 H0) as (_ & k1 & E1). rewrite (find_backup_lba_ok lb d0 H0) in E1. cbn [fst snd] in E1.
  destruct (pc_tables oc lb (new_primary lb h) (Some (new_backup lb h)) (g_partitions g) d0 H0) as (_ & k2 & E2).
  destruct (write_tables_ok oc lb (new_primary lb h) (new_backup lb h) (g_partitions g) d0) as (q & X); auto.
  { cbn. fold t. pose proof (lb_pos lb). lia. }
  { cbn. fold t. fold L0. unfold dev_len in *. fold L0 in A4. cbn. fold L0. lia. }
  { cbn. fold t. lia. }
  rewrite X in E2. cbn [fst snd] in E2.
  exists (repeat None k1 ++ repeat None k2 ++ [Some 0%nat]). unfold left_by.
  set (g1 := set_device (with_faults _ _) g).
  rewrite (write_inplace_eq oc g1 h (new_primary lb h) (Some (new_backup lb h))); auto.
  2: { exact (build_primary_sane oc lb _ h S H64). }
  2: { change (c_readonly_backup (g_config g1)) with (c_readonly_backup cfg). rewrite HR.
       eexists. split; [exact (build_backup_sane oc lb _ h S H64)|reflexivity]. }
  change (c_lb (g_config g1)) with lb.
  unfold bind at 1, on_device at 1, map_err at 1.
  change (g_device g1) with (with_faults (repeat None k1 ++ repeat None k2 ++ [Some 0%nat]) d0). rewrite E1.
  destruct (N.ltb_spec (dev_len d0) (lb_u64 lb * 3)) as [Q|Q].
  { exfalso. unfold d0, dev_len, repaired, with_faults in Q. cbn [data] in Q. unfold dev_len in A4. lia. }
  cbn [omap_err]. unfold bind at 1, put_primary. unfold bind at 1, put_backup. unfold write_rest.
  unfold bind at 1, on_device at 1. cbn [g_device set_device set_primary set_backup g_partitions g1].
  rewrite E2.
  unfold bind at 1, write_backup_of. cbn [g_device set_device set_primary set_backup g_config].
  match goal with |- context[write_backup ?b ?l ?d] => pose proof (write_backup_blocked b l d 0%nat [] eq_refl) as (W & NW);
    destruct (write_backup b l d) as [[v|e|] [b' d3]] end; cbn [fst snd] in W, NW.
  - exfalso. apply (NW v). reflexivity.
  - cbn [obind omap_err snd g_device set_device]. rewrite W. unfold tables_image. rewrite HR. reflexivity.
  - cbn [obind omap_err snd g_device set_device]. rewrite W. unfold tables_image. rewrite HR. reflexivity.
Qed.

(** * Copies *)
Definition whole (lb : lbsize) (l : list byte) (lba : N) : Prop :=
  exists h, read_header_at (lba * lb_u64 lb) l = Ok h /\
    lenN (slice (part_start h * lb_u64 lb) (num_parts h * part_size h) l) = num_parts h * part_size h /\
    table_crc h lb l = crc32_parts h.

Lemma block_read off hd pc lb l : wf_header hd -> pc < 256 ^ 4 -> off + lb_u64 lb <= lenN l ->
  slice off (lb_u64 lb) l = hdr_block hd pc lb -> read_header_at off l = Ok (hdr_read hd pc (hdr_crc hd pc)).
Proof.
  intros W HP HL E. rewrite <- (store_same off (hdr_block hd pc lb) l).
  - apply read_header_at_store; auto.
  - destruct W as (W1 & W2). rewrite hdr_block_lenN; auto. rewrite W1; auto. apply W2.
  - destruct W as (W1 & W2). rewrite hdr_block_lenN; auto. rewrite W1; auto. apply W2.
Qed.

Section Copies.
  Variables (cfg : config) (h : header) (ps : list partition) (l0 : list byte).
  Let lb := c_lb cfg.
  Let t := ablocks (num_parts h) 128 lb.
  Let T := table_image h ps.
  Hypothesis S : sane lb (lenN l0) h.
  Hypothesis H64 : lenN l0 < modulus 64.
  Hypothesis HU : lenN ps <= num_parts h.
  Hypothesis HR : c_readonly_backup cfg = false.

  Lemma stage_array l : stage cfg h ps l0 l -> slice (2 * lb_u64 lb) (128 * num_parts h) l0 = T ->
    lenN l = lenN l0 /\ slice (2 * lb_u64 lb) (128 * num_parts h) l = T.
  Proof.
    intros ST E. pose proof (tables_facts cfg h ps l0 S HU) as (F1 & F2 & _). fold lb T in F2.
    pose proof (mid_facts cfg h ps l0 S HU) as (M1 & M2 & _). fold lb T in M2.
    pose proof (sane_areas _ _ _ S) as (A1 & A2 & A3 & A4 & A5 & A6). fold t in A2, A3, A6.
    assert (LB : lenN (backup_block cfg h ps) = lb_u64 lb) by (apply hdr_block_lenN; auto; apply S).
    assert (LP : lenN (primary_block cfg h ps) = lb_u64 lb) by (apply hdr_block_lenN; auto; apply S).
    destruct ST as [k M _|k _ ->|k ->]; fold lb.
    - split; [apply M|]. rewrite <- E. apply (mix_same l0 (tables_image cfg h ps l0)); [exact F1|congruence|exact M].
    - pose proof (lenN_firstn_le k (backup_block cfg h ps)). split; [rewrite store_lenN_in; lia|].
      rewrite slice_store_other by lia. exact F2.
    - pose proof (lenN_firstn_le k (primary_block cfg h ps)). split; [rewrite store_lenN_in; lia|].
      rewrite slice_store_other by lia. exact M2.
  Qed.
  Lemma stage_backup_first l : stage cfg h ps l0 l ->
    slice (lb_u64 lb) (lb_u64 lb) l = slice (lb_u64 lb) (lb_u64 lb) l0 \/ whole lb l (blba h).
  Proof.
    intros ST. pose proof (tables_facts cfg h ps l0 S HU) as (F1 & F2 & F3 & F4 & F5). fold lb T in F2, F3, F4, F5.
    pose proof (mid_facts cfg h ps l0 S HU) as (M1 & M2 & M3 & M4). fold lb T t in M2, M3, M4. destruct (M4 HR) as [M5 M6].
    pose proof (sane_areas _ _ _ S) as (A1 & A2 & A3 & A4 & A5 & A6). fold t in A2, A3, A6.
    assert (LB : lenN (backup_block cfg h ps) = lb_u64 lb) by (apply hdr_block_lenN; auto; apply S).
    assert (LP : lenN (primary_block cfg h ps) = lb_u64 lb) by (apply hdr_block_lenN; auto; apply S).
    destruct ST as [k M _|k _ ->|k ->]; fold lb.
    - left. apply (mix_same l0 (tables_image cfg h ps l0)); [exact F1|congruence|exact M].
    - left. pose proof (lenN_firstn_le k (backup_block cfg h ps)). rewrite slice_store_other by lia. exact F4.
    - right. pose proof (lenN_firstn_le k (primary_block cfg h ps)).
      set (l := store (lb_u64 lb) (firstn k (primary_block cfg h ps)) (mid_image cfg h ps l0)).
      assert (EL : lenN l = lenN l0) by (unfold l; rewrite store_lenN_in; lia).
      exists (hdr_written (new_backup lb h) (crc32 T)). split; [|split].
      + rewrite (block_read _ (new_backup lb h) (crc32 T) lb); [reflexivity|eapply new_backup_wf; eauto|apply crc32_u32|lia|].
        unfold l. rewrite slice_store_other by lia. exact M6.
      + cbn [hdr_written set_crc32 set_crc32_parts new_backup part_start num_parts part_size]. fold t. apply slice_length. lia.
      + unfold table_crc. cbn [hdr_written set_crc32 set_crc32_parts new_backup part_start num_parts part_size crc32_parts].
        fold t. replace (num_parts h * 128) with (128 * num_parts h) by lia. unfold l. rewrite slice_store_other by lia. rewrite M5. reflexivity.
  Qed.
  Lemma full_array : slice (2 * lb_u64 lb) (128 * num_parts h) (image_for cfg h ps l0) = T.
  Proof.
    rewrite image_mid. fold lb. pose proof (mid_facts cfg h ps l0 S HU) as (M1 & M2 & _). fold lb T in M2.
    pose proof (sane_areas _ _ _ S) as (A1 & A2 & A3 & A4 & A5 & A6). fold t in A2, A3, A6.
    assert (LP : lenN (primary_block cfg h ps) = lb_u64 lb) by (apply hdr_block_lenN; auto; apply S).
    rewrite slice_store_other by lia. exact M2.
  Qed.
End Copies.

(** An array that is read has the checksum of its header. *)
Lemma read_array_whole oc h lb d m : healthy d -> fst (file_read_partitions oc h lb d) = Ok m ->
  lenN (slice (part_start h * lb_u64 lb) (num_parts h * part_size h) (data d)) = num_parts h * part_size h /\
  table_crc h lb (data d) = crc32_parts h.
Proof.
  intros Hd R. destruct (file_read_partitions oc h lb d) as [r d9] eqn:E. cbn [fst] in R. subst r.
  unfold file_read_partitions, checked_mul64 in E. unfold bind at 1, lift at 1 in E.
  destruct (part_start h * lb_u64 lb <? _); cbn [ok_or] in E; [|discriminate].
  apply bind_inv in E as (? & d1 & E1 & E). destruct (negb _); [discriminate|].
  apply bind_inv in E as (parts & d2 & E2 & E). apply bind_inv in E as (? & d3 & E3 & E).
  apply bind_inv in E as (pt & d4 & E4 & E). unfold lift, ok_or in E4. destruct (_ <? _); [|discriminate]. injection E4 as <- <-.
  apply bind_inv in E as (tab & d5 & E5 & E).
  destruct (N.eqb_spec (crc32 tab) (crc32_parts h)) as [C|C]; [|discriminate].
  pose proof (untouched_seek_start (part_start h * lb_u64 lb) d) as (U1 & _). rewrite E1 in U1. cbn [snd] in U1.
  pose proof (untouched_read_entries oc (N.to_nat (num_parts h)) 0 0 [] d1) as (U2 & _). rewrite E2 in U2. cbn [snd] in U2.
  pose proof (untouched_seek_start (part_start h * lb_u64 lb) d2) as (U3 & _). rewrite E3 in U3. cbn [snd] in U3.
  assert (P3 : pos d3 = part_start h * lb_u64 lb).
  { unfold seek_start in E3. destruct (tick d2) as [[m'|] dd]; [discriminate|]. injection E3 as _ <-. reflexivity. }
  assert (D : data d3 = data d) by congruence. unfold table_crc.
  unfold read_exact in E5. destruct (N.eqb_spec (num_parts h * part_size h) 0) as [Z|Z].
  { injection E5 as <- _. rewrite Z. split; [reflexivity|exact C]. }
  pose proof (tick_same_media d3) as (U4 & _).
  assert (PP : pos (snd (tick d3)) = pos d3) by (unfold tick; destruct (faults d3); reflexivity).
  destruct (tick d3) as [[m'|] dd]; [discriminate|]. cbn [snd] in U4, PP.
  destruct (N.leb_spec (pos dd + num_parts h * part_size h) (dev_len dd)) as [L|L]; [|discriminate]. injection E5 as <- _.
  unfold dev_len in L. rewrite PP, P3, U4, D in *. split; [apply slice_length; exact L|exact C].
Qed.
Lemma open_whole oc cfg d g : healthy d -> dev_len d < modulus 64 -> fst (open_from_device oc cfg d) = Ok g ->
  whole (c_lb cfg) (data d) 1 \/ whole (c_lb cfg) (data d) (last_block (c_lb cfg) d).
Proof.
  intros Hd H64 O. rewrite (open_ok oc cfg d Hd H64) in O.
  destruct (select cfg _ _) as [h|e|] eqn:SE; try discriminate. unfold map_err in O.
  assert (W : table_crc h (c_lb cfg) (data d) = crc32_parts h /\
    lenN (slice (part_start h * lb_u64 (c_lb cfg)) (num_parts h * part_size h) (data d)) = num_parts h * part_size h).
  { pose proof (read_array_whole oc h (c_lb cfg) d) as K. destruct (file_read_partitions oc h (c_lb cfg) d) as [[m|e|] d1]; try discriminate.
    edestruct K; [exact Hd|reflexivity|]. auto. }
  assert (HH : read_header_at (lb_u64 (c_lb cfg)) (data d) = Ok h \/ read_backup_at (c_lb cfg) d = Ok h).
  { unfold select in SE. destruct (read_header_at _ _) as [x|e|], (read_backup_at _ _) as [y|e'|]; try discriminate;
      try (destruct (c_only_valid_headers cfg); try discriminate); injection SE as ->; auto. }
  destruct HH as [HH|HH]; [left|right]; exists h.
  - rewrite N.mul_1_l. tauto.
  - unfold read_backup_at in HH. destruct (_ <? _); [discriminate|]. tauto.
Qed.
