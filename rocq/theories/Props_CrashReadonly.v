(** Props_CrashReadonly.v - interrupted writes with readonly_backup (C71). *)
From Verif Require Import CrashFacts SpecCrash Samples Props_Write Props_Open Props_Crash.
Open Scope list_scope.
Open Scope N_scope.

(** C71 with readonly_backup: opening after an interrupted write gives the old table, the new one or an error - or, when the primary
    header was hit, the table of the backup copy, which may be an older one. *)
Theorem C71_readonly_partial : forall oc oc' cfg g h hp hx hb g0 full mb,
  ready g h -> c_readonly_backup (g_config g) = true -> c_lb cfg = c_lb (g_config g) ->
  let lb := c_lb cfg in let l := data (g_device g) in
  headers_for lb h hp hx -> header_at l (lb_u64 lb) (Ok hp) ->
  backup_header_at lb (g_device g) (Ok hb) -> part_size hb = 128 -> countable oc' hb l ->
  (forall i, array_at lb hb <= i < array_at lb hb + array_len hb -> ~ primary_copy lb h i) ->
  table_read lb hb l mb ->
  fst (open_from_device oc' cfg (repaired (g_device g))) = Ok g0 ->
  write_inplace oc (repaired_disk g) = (Ok tt, full) ->
  tear_proof (primary_array lb h (g_device g)) (primary_array lb h (g_device full)) ->
  match fst (open_from_device oc' cfg (repaired (g_device (snd (write_inplace oc g))))) with
  | Ok g' => (g_partitions g' = g_partitions g0 \/ read_back (g_partitions g) (g_partitions g')) /\ g_guid g' = disk_guid h \/
             g_partitions g' = mb /\ g_guid g' = disk_guid hb /\ (exists e, primary_header g' = Err e)
  | Err _ => True
  | Panic => False
  end.
Proof.
  intros oc oc' cfg g h hp hx hb g0 full mb HR HO HC lb l HH HA HB PS CN AP TR H0 HF TP.
  assert (HR0 := HR). assert (HW := rd_writable _ _ HR).
  apply ready_sane in HR. destruct HR as (HT & H64 & HS & HU & HP).
  assert (RH : read_header_at (lb_u64 lb) l = Ok hp).
  { eapply header_at_fun; [apply read_header_at_spec|exact HA]. }
  assert (HS' := HS). rewrite <- HC in HS'. fold lb in HS'.
  assert (EF : primary_array lb h (g_device full) = table_image h (used_list (g_partitions g))).
  { destruct (write_inplace_sane_ro oc (repaired_disk g) h HW HO HT (conj eq_refl H64) HS HU) as (g3 & E3 & D3 & _).
    rewrite HF in E3. injection E3 as <-. unfold primary_array. rewrite range_slice, D3.
    cbn [repaired_disk set_device g_config g_partitions]. rewrite <- HC. fold lb.
    destruct (image_lens lb h (used_list (g_partitions g)) l HS' HU) as (LT & LP & LB).
    pose proof (sane_areas _ _ _ HS') as (A1 & A2 & A3 & A4 & A5 & A6). unfold dev_len in *. fold l in A4.
    change (data (g_device (repaired_disk g))) with l.
    unfold final_image_ro. change (g_partitions (set_device (repaired (g_device g)) g)) with (g_partitions g).
    set (T := table_image h (used_list (g_partitions g))) in *. set (hh := hdr_block (new_primary lb h) (crc32 T) lb) in *.
    assert (L1 : lenN (store (2 * lb_u64 lb) T l) = lenN l) by (apply store_lenN_in; lia).
    rewrite slice_store_other; [apply slice_store_same; auto|right; lia|lia]. }
  rewrite EF in TP. unfold tear_proof, torn, primary_array in TP. rewrite range_slice in TP.
  destruct (crash_cases oc oc' cfg g g0 h hp hx HW HC HT H64 HS' HU HP HH RH H0 TP) as [K|(OV & e & k & RR & E)].
  - destruct (fst (open_from_device oc' cfg (repaired (g_device (snd (write_inplace oc g)))))) as [g'|e|]; auto.
    left. destruct K as [[K|K] KG]; split; auto. right. rewrite K. apply read_back_normal; auto.
  - destruct (C24_readonly_backup oc g h (rd_header _ _ HR0) (rd_size _ _ HR0) (rd_layout _ _ HR0) HO) as (CH & _).
    set (d' := g_device (snd (write_inplace oc g))) in *. rewrite <- HC in CH. fold lb l in CH. fold lb in RR.
    destruct CH as (LL & CH).
    pose proof (sane_areas _ _ _ HS') as (A1 & A2 & A3 & A4 & A5 & A6). unfold dev_len in *. fold l in A4, H64.
    assert (SL : forall off n, (forall i, off <= i < off + n -> ~ primary_copy lb h i) -> slice off n (data d') = slice off n l).
    { intros off n B. apply byte_at_ext. intros i. rewrite !byte_at_slice. destruct (N.ltb_spec i n); [|reflexivity].
      rewrite <- !byte_no_at. apply CH, B. lia. }
    assert (HB' : backup_header_at lb (repaired d') (Ok hb)).
    { destruct HB as (B1 & B2). fold l in B1, B2. unfold backup_header_at, last_whole_block.
      change (data (repaired d')) with (data d'). rewrite LL. split; [|exact B2]. intros L3. specialize (B1 L3).
      unfold last_whole_block in B1. fold l in B1.
      assert (blba h + 1 <= lenN l / lb_u64 lb) by (apply N.div_le_lower_bound; lia).
      set (q := lenN l / lb_u64 lb) in *.
      assert (X := header_at_fun _ _ _ _ B1 (read_header_at_spec _ _)).
      assert (Y : read_header_at ((q - 1) * lb_u64 lb) (data d') = Ok hb).
      { rewrite (read_header_slice _ (data d') l LL); [symmetry; exact X|]. apply SL. intros i Hi P.
        unfold primary_copy, between in P. assert (blba h * lb_u64 lb <= (q - 1) * lb_u64 lb) by (apply N.mul_le_mono_r; lia). lia. }
      rewrite <- Y. apply read_header_at_spec. }
    pose proof (C11_header_used oc' cfg (repaired d') (Err e) (Ok hb) hb) as O.
    assert (ARR : range (array_at lb hb) (array_len hb) (data d') = range (array_at lb hb) (array_len hb) l) by (apply SL, AP).
    assert (OW : opened_with cfg (repaired d') (Err e) (Ok hb) hb (fst (open_from_device oc' cfg (repaired d')))).
    { apply O; auto.
      - reflexivity.
      - apply addressable_iff. unfold dev_len. change (data (repaired d')) with (data d'). rewrite LL. exact H64.
      - rewrite <- RR. apply read_header_at_spec.
      - right. split; [exists e; reflexivity|reflexivity].
      - unfold countable in *. change (data (repaired d')) with (data d'). rewrite LL. exact CN. }
    destruct (fst (open_from_device oc' cfg (repaired d'))) as [g'|x|]; [|exact I|exact OW].
    destruct OW as (_ & T1 & _ & G1 & P1 & _). right. split; [|split; [exact G1|]].
    + fold lb in T1. unfold table_read in T1.
      change (data (repaired d')) with (data d') in T1. rewrite ARR in T1. apply (table_read_fun lb hb l); [exact T1|exact TR].
    + exists (lossy_clone e). unfold primary_header. rewrite P1. reflexivity.
Qed.
Print Assumptions C71_readonly_partial.

(** The hypotheses can be met: the attribute of the partition of the written sample disk is changed with the backup read-only, and the
    write is cut anywhere. *)
Definition head_at (off : N) (l : list byte) : header := match read_header_at off l with Ok h => h | _ => duo_header end.
Definition lone_disk (n j : nat) : gdisk :=
  set_config (cset_readonly_backup true (g_config mini_written))
    (set_partitions flagged (set_device (with_faults (repeat None n ++ [Some j]) (g_device mini_written)) mini_written)).
Definition lone_primary : header := Eval vm_compute in head_at 512 (data (g_device mini_written)).
Definition lone_backup : header := Eval vm_compute in
  head_at (last_whole_block Lb512 (g_device mini_written) * 512) (data (g_device mini_written)).
Example C71_readonly_case : forall n j,
  match fst (open_from_device true config_default (repaired (g_device (snd (write_inplace true (lone_disk n j)))))) with
  | Ok g' => read_back [(1, sample_part)] (g_partitions g') \/ read_back flagged (g_partitions g')
  | Err _ => True
  | Panic => False
  end.
Proof.
  intros n j.
  set (old := match fst (open_from_device true config_default (repaired (g_device mini_written))) with Ok g => g | _ => mini_written end).
  assert (RB : read_back [(1, sample_part)] (g_partitions old)).
  { destruct (C17_write_then_open true true (mini_disk [(1, sample_part)]) mini_header config_default mini_ready eq_refl eq_refl) as
      (g1 & hp & hb & g0 & E1 & O0 & _ & _ & _ & _ & _ & _ & RB); [vm_compute; reflexivity|reflexivity|].
    unfold old. unfold mini_written. rewrite E1. cbn [snd].
    replace (repaired (g_device g1)) with (g_device g1); [rewrite O0; exact RB|].
    assert (F : faults (g_device g1) = []) by (change g1 with (snd (@Ok gpt_err unit tt, g1)); rewrite <- E1; vm_compute; reflexivity).
    destruct (g_device g1) as [? ? ? ? f ?]. cbn in F |- *. subst f. reflexivity. }
  assert (K := C71_readonly_partial true true config_default (lone_disk n j) lone_primary lone_primary lone_backup lone_backup old
    (snd (write_inplace true (set_config (cset_readonly_backup true (g_config mini_written)) (set_partitions flagged mini_written)))) (g_partitions old)).
  cbv zeta in K.
  match type of K with _ -> _ -> _ -> _ -> _ -> _ -> _ -> _ -> _ -> _ -> _ -> _ -> _ -> ?C => assert (K' : C) end.
  { apply K; clear K.
    - constructor.
      + reflexivity.
      + left. vm_compute. reflexivity.
      + unfold addressable. vm_compute. reflexivity.
      + constructor; try reflexivity; vm_compute; (reflexivity || discriminate).
      + vm_compute. discriminate.
      + vm_compute used_in_order. constructor; [|constructor]. destruct sample_part_ok. constructor; auto; reflexivity.
    - reflexivity.
    - reflexivity.
    - constructor; vm_compute; repeat split.
    - replace (@Ok hdr_err header lone_primary) with (read_header_at 512 (data (g_device (lone_disk n j)))) by (vm_compute; reflexivity). apply read_header_at_spec.
    - split; [intros _|intros H; vm_compute in H; discriminate].
      match goal with |- header_at ?l ?o ?r => replace r with (read_header_at o l) by (vm_compute; reflexivity) end. apply read_header_at_spec.
    - reflexivity.
    - right. left. vm_compute. reflexivity.
    - intros i. unfold array_at, array_len, primary_copy, between. cbn. lia.
    - pose proof (read_parts_spec lone_backup (c_lb config_default) (data (g_device (lone_disk n j))) eq_refl) as R.
      assert (RP : read_parts_at lone_backup (c_lb config_default) (data (g_device (lone_disk n j))) = Ok (g_partitions old))
        by (vm_compute; reflexivity).
      rewrite RP in R. apply R. rewrite two64. vm_compute. reflexivity.
    - vm_compute. reflexivity.
    - vm_compute. reflexivity.
    - apply small_torn. set (a := firstn 48 (primary_array Lb512 mini_header (g_device mini_written))).
      set (b := skipn 49 (primary_array Lb512 mini_header (g_device mini_written))).
      exists a, [x04], [x01], b. split; [vm_compute; reflexivity|]. split; [vm_compute; reflexivity|].
      split; [reflexivity|]. cbn. lia. }
  destruct (fst (open_from_device true config_default (repaired (g_device (snd (write_inplace true (lone_disk n j))))))) as [g'|e|]; auto.
  destruct K' as [([->|K'] & _)|(-> & _)]; auto.
Qed.
