(** Props_Again.v - writing again with readonly_backup (C20). *)
From Verif Require Import IdemFacts RetryFacts SpecFacts Samples Props_Write.
Open Scope list_scope.
Open Scope N_scope.

(** With readonly_backup a write onto a primary copy that is already right changes nothing, whatever fails. *)
Lemma redundant_ro oc g h :
  try_header g = Ok h -> dev_len (g_device g) < modulus 64 -> sane (c_lb (g_config g)) (dev_len (g_device g)) h ->
  lenN (used_list (g_partitions g)) <= num_parts h -> c_readonly_backup (g_config g) = true ->
  let lb := c_lb (g_config g) in let T := table_image h (used_list (g_partitions g)) in
  slice (lb_u64 lb) (lb_u64 lb) (data (g_device g)) = hdr_block (new_primary lb h) (crc32 T) lb ->
  slice (2 * lb_u64 lb) (128 * num_parts h) (data (g_device g)) = T ->
  data (g_device (snd (write_inplace oc g))) = data (g_device g).
Proof.
  intros HT H64 S HU RO lb T F2 F4.
  destruct (c_writable (g_config g)) eqn:HW.
  2: { unfold write_inplace. rewrite HW. auto. }
  pose proof (sane_areas _ _ _ S) as (A1 & A2 & A3 & A4 & A5 & A6). fold lb in A1, A2, A3, A4, A5, A6.
  assert (Gw : wf_uuid (disk_guid h)) by apply S.
  set (t := ablocks (num_parts h) 128 lb) in *.
  rewrite (write_inplace_eq oc g h (new_primary lb h) None); auto.
  2: { exact (build_primary_sane oc lb _ h S H64). }
  2: { rewrite RO. reflexivity. }
  fold lb. unfold dev_len in *. set (L := data (g_device g)) in *.
  symmetry.
  match goal with |- L = data (g_device (snd (?m g))) => assert (X : gkeeps_lb lb (eq L) m) end.
  2: { apply X; auto. }
  assert (CP : table_crc (new_primary lb h) lb L = crc32 T).
  { unfold table_crc. cbn [new_primary part_start num_parts part_size].
    replace (num_parts h * 128) with (128 * num_parts h) by lia. rewrite F4. reflexivity. }
  apply gkeeps_lb_bind; [apply gkeeps_lb_on_device, keeps_map_err, untouched_keeps, untouched_find_backup_lba|].
  intros _. apply gkeeps_lb_bind; [intros g1 Hl Hg; auto|]. intros _.
  apply gkeeps_lb_bind; [intros g1 Hl Hg; auto|]. intros _.
  unfold write_rest. apply gkeeps_lb_bind; [|intros _; apply gkeeps_lb_bind; [|intros _;
    apply gkeeps_lb_bind; [|intros _; apply gkeeps_lb_bind; [|intros _]]]].
  - apply gkeeps_lb_on_device. apply keeps_write_tables_same with (num_parts h); auto; try discriminate.
    cbn. lia.
  - apply gkeeps_lb_ret.
  - intros g1 Hl Hg. unfold write_primary_of. rewrite Hl.
    assert (X : L = data (snd (snd (write_primary (new_primary lb h) lb (g_device g1))))).
    { unfold write_primary. destruct (_ <=? _); auto.
      rewrite file_write_header_same; auto; unfold dev_len; rewrite <- ?Hg; cbn [new_primary current_lba part_start];
        auto; try lia.
      rewrite N.mul_1_l, F2. rewrite <- CP. reflexivity. }
    destruct (write_primary (new_primary lb h) lb (g_device g1)) as [r [h' d']]. auto.
  - apply gkeeps_lb_on_device, keeps_map_err, untouched_keeps, untouched_flush.
  - destruct (g_sync g); [|apply gkeeps_lb_ret].
    apply gkeeps_lb_on_device, keeps_map_err. intros d Hd. rewrite untouched_sync; auto.
Qed.
Lemma new_primary_again lb len h c : sane lb len h -> new_primary lb (hdr_written (new_primary lb h) c) = new_primary lb h.
Proof. intros S. apply new_primary_ext; auto. eapply blba_written_primary; eauto. Qed.

(** C20 with readonly_backup: writing again what was just written changes no byte, at whatever point it is cut short ... *)
Theorem C20_write_twice_readonly : forall oc oc' g h g' fs,
  ready g h -> fault_free (g_device g) -> c_readonly_backup (g_config g) = true ->
  write_inplace oc g = (Ok tt, g') ->
  data (g_device (snd (write_inplace oc' (set_device (with_faults fs (g_device g')) g')))) = data (g_device g').
Proof.
  intros oc oc' g h g' fs HR HF HO E. assert (HW := rd_writable _ _ HR).
  apply ready_sane in HR. destruct HR as (HT & HA & HS & HU & HP).
  destruct (write_any oc g h HW HT (conj HF HA) HS HU) as (g1 & E1 & D & P & (M1 & M2 & M3 & _) & F).
  rewrite E in E1. injection E1 as <-. unfold image_for in D. rewrite HO in D.
  pose proof (ro_facts (c_lb (g_config g)) h (used_list (g_partitions g)) _ HS HU) as (F1 & F2 & F3). rewrite <- D in F1, F2, F3.
  set (g1 := set_device (with_faults fs (g_device g')) g').
  change (data (g_device g')) with (data (g_device g1)).
  set (x := hdr_written (new_primary (c_lb (g_config g)) h) (crc32 (table_image h (used_list (g_partitions g))))) in *.
  apply (redundant_ro oc' g1 x).
  - unfold try_header. cbn. rewrite P. reflexivity.
  - unfold dev_len. change (data (g_device g1)) with (data (g_device g')). rewrite F1. exact HA.
  - unfold dev_len. change (data (g_device g1)) with (data (g_device g')). rewrite F1. cbn [g1 set_device g_config]. rewrite M1.
    apply sane_written_primary. exact HS.
  - cbn [g1 set_device g_partitions]. rewrite M3. exact HU.
  - cbn [g1 set_device g_config]. rewrite M1. exact HO.
  - cbn [g1 set_device g_config g_device g_partitions with_faults data]. rewrite M1, M3. unfold x.
    rewrite (new_primary_again _ _ _ _ HS). exact F2.
  - cbn [g1 set_device g_config g_device g_partitions with_faults data]. rewrite M1, M3. exact F3.
Qed.
Print Assumptions C20_write_twice_readonly.
(** ... and so does reopening and writing, if all names are such that a write keeps them. *)
Theorem C20_reopen_and_write_readonly_partial : forall oc oc' oc'' g h g' cfg g2 fs,
  ready g h -> fault_free (g_device g) -> c_readonly_backup (g_config g) = true ->
  Forall name_survives (used_in_order (g_partitions g)) ->
  write_inplace oc g = (Ok tt, g') ->
  c_lb cfg = c_lb (g_config g) -> c_readonly_backup cfg = true -> c_only_valid_headers cfg = false ->
  fst (open_from_device oc' cfg (g_device g')) = Ok g2 ->
  data (g_device (snd (write_inplace oc'' (set_device (with_faults fs (g_device g2)) g2)))) = data (g_device g').
Proof.
  intros oc oc' oc'' g h g' cfg g2 fs HR HF HO HN E HC HO2 HV O. assert (HW := rd_writable _ _ HR).
  apply ready_sane in HR. destruct HR as (HT & HA & HS & HU & HP).
  destruct (write_any oc g h HW HT (conj HF HA) HS HU) as (g1 & E1 & D & P & (M1 & M2 & M3 & _) & F).
  rewrite E in E1. injection E1 as <-. unfold image_for in D. rewrite HO in D.
  set (lb := c_lb (g_config g)) in *. set (ps := used_list (g_partitions g)) in *.
  pose proof (ro_facts lb h ps _ HS HU) as (F1 & F2 & F3). rewrite <- D in F1, F2, F3.
  destruct (reopen_primary oc' cfg lb h ps (data (g_device g)) (g_device g')) as (q & O'); auto.
  { rewrite D. apply ro_primary; auto. }
  rewrite O' in O. cbn [fst] in O. apply Ok_inj in O. subst g2.
  match goal with |- context [write_inplace oc'' ?G] => set (g3 := G) end.
  set (x := hdr_written (new_primary lb h) (crc32 (table_image h ps))) in *.
  assert (US : Forall (fun p => is_used p = true) ps) by apply used_list_all_used.
  assert (U2 : used_list (g_partitions g3) = map normal ps).
  { cbn [g3 g_partitions]. apply used_list_number. apply map_normal_used. exact US. }
  assert (TI : forall y, table_image y (map normal ps) = table_image y ps).
  { intros y. apply table_image_normal. rewrite used_in_order_eq in HN. eapply Forall_impl; [|exact HN].
    intros p Hp. unfold name_survives in Hp. rewrite kept_36 in Hp. exact Hp. }
  change (data (g_device g')) with (data (g_device g3)).
  assert (DL : dev_len (g_device g3) = dev_len (g_device g)) by exact F1.
  assert (C3 : c_lb (g_config g3) = lb) by exact HC.
  apply (redundant_ro oc'' g3 x).
  - reflexivity.
  - rewrite DL. exact HA.
  - rewrite DL, C3. apply sane_written_primary. exact HS.
  - rewrite U2. unfold lenN in *. rewrite map_length. exact HU.
  - exact HO2.
  - rewrite U2, C3, TI. change (data (g_device g3)) with (data (g_device g')). unfold x.
    rewrite (new_primary_again _ _ _ _ HS). exact F2.
  - rewrite U2, C3, TI. change (data (g_device g3)) with (data (g_device g')). exact F3.
Qed.
Print Assumptions C20_reopen_and_write_readonly_partial.
Example C20_readonly_case :
  let g := set_config (mkConfig Lb512 true false true false) (mini_disk [(1, sample_part)]) in
  ready g mini_header /\ c_readonly_backup (g_config g) = true /\ Forall name_survives (used_in_order (g_partitions g)) /\
  exists g', write_inplace true g = (Ok tt, g').
Proof.
  cbn zeta. split.
  { destruct mini_ready as [A B C D E F]. constructor; auto. }
  split; [reflexivity|]. split; [repeat constructor|]. eexists. vm_compute. reflexivity.
Qed.
