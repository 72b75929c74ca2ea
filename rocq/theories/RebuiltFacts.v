(** RebuiltFacts.v - lemmas about headers made anew. *)
From Verif Require Export SpecRebuilt CreateFacts RefuseFacts UndoFacts Props_Build Props_Builder.
Open Scope list_scope.
Open Scope N_scope.

Lemma build_ordered oc lb o : o_num o * o_size o < 2 ^ 32 -> o_front o + 1 < 2 ^ 64 -> o_back o < 2 ^ 64 -> o_last o + 1 < 2 ^ 64 ->
  let t := blocks_for (o_num o * o_size o) lb in
  match build oc (ordered o) lb with
  | Ok h => as_ordered o t h
  | Err e => unmet o t e
  | Panic => False
  end.
Proof.
  intros H1 H2 H3 H4 t. rewrite <- two32 in H1. rewrite <- two64 in H2, H3, H4.
  rewrite build_eq by exact H1. cbn [ordered b_primary b_disk_guid b_primary_lba b_backup_lba b_first_usable b_last_usable b_num_parts b_part_size].
  rewrite ablocks_blocks. fold t. destruct (N.ltb_spec (o_back o) (o_front o)) as [L|L]; [left; auto|].
  destruct (N.ltb_spec (o_back o) (t + 1)) as [L2|L2]; [right; auto|]. cbn zeta.
  replace (o_back o - (t + 1)) with (o_back o - t - 1) by lia. rewrite (N.add_comm 2 t).
  set (fu := N.max (o_first o) (t + 2)). set (lu := N.max (o_last o) (o_back o - t - 1)).
  destruct (N.ltb_spec lu fu) as [L3|L3]; [right; auto|].
  rewrite addw_ok; [|destruct (o_primary o); [exact H2|unfold lu; lia]]. cbn [obind].
  constructor; cbn; try (destruct (o_primary o)); auto 10.
Qed.
Lemma init_builder_ordered g h n : try_header g = Ok h ->
  init_builder g n = ordered (order_for g h (next_count g) n).
Proof.
  intros TH. unfold init_builder, order_for, ordered. rewrite TH. cbn [builder_from_maybe_header].
  unfold builder_from_header, primary_at. destruct (N.ltb_spec (current_lba h) (backup_lba h)) as [L|L]; cbn.
  - rewrite N.min_l by lia. reflexivity.
  - rewrite N.min_r by lia. reflexivity.
Qed.
Lemma back_builder_ordered o t hp : o_primary o = true -> as_ordered o t hp ->
  bset_primary false (builder_from_header hp) = ordered (order_back o hp).
Proof.
  intros P [A1 A2 A3 [A4 A4'] A5 A6 A7 (A8 & _)]. rewrite P in *. destruct A2 as (A2 & A2').
  unfold builder_from_header, ordered, order_back. rewrite A2, A2', A3, A4, A4'.
  destruct (N.ltb_spec (o_front o) (o_back o)) as [L|L]; cbn; [reflexivity|].
  replace (o_front o) with (o_back o) by lia. reflexivity.
Qed.
Lemma init_with_ordered oc g h n : try_header g = Ok h -> n < 2 ^ 64 ->
  let o := order_for g h (next_count g) n in let t := blocks_for (o_num o * o_size o) (c_lb (g_config g)) in
  within_words o ->
  match init_with oc g n with
  | (Ok _, g') => rebuilt o t (g_partitions g) g g'
  | (Err e, g') => g' = g /\ exists e', e = GHeader e' /\ unmet o t e'
  | (Panic, _) => False
  end.
Proof.
  intros TH B o t (W1 & W2 & W3). unfold init_with. rewrite (init_builder_ordered g h n TH). fold o.
  pose proof (build_ordered oc (c_lb (g_config g)) o W1 W2 B W3) as X. fold t in X.
  destruct (build oc (ordered o) (c_lb (g_config g))) as [hp|e|]; [|split; [reflexivity|exists e; auto]|exact X].
  destruct (c_readonly_backup (g_config g)) eqn:RO.
  - constructor; [reflexivity|repeat split|]. exists hp. split; [reflexivity|]. split; [exact X|]. rewrite RO.
    split; [reflexivity|discriminate].
  - rewrite (back_builder_ordered o t hp eq_refl X).
    assert (LU : last_usable hp + 1 < 2 ^ 64) by (rewrite (ao_last _ _ _ X); change (o_back o) with n; clear - B W3; lia).
    pose proof (build_ordered oc (c_lb (g_config g)) (order_back o hp) W1 W2 B LU) as Y.
    change (blocks_for (o_num (order_back o hp) * o_size (order_back o hp)) (c_lb (g_config g))) with t in Y.
    destruct (build oc (ordered (order_back o hp)) (c_lb (g_config g))) as [hb|e|]; [| |exact Y].
    + constructor; [reflexivity|repeat split|]. exists hp. split; [reflexivity|]. split; [exact X|]. rewrite RO.
      split; [discriminate|]. intros _. exists hb. split; [reflexivity|exact Y].
    + exfalso. destruct X as [A1 A2 A3 A4 A5 A6 A7 (A8 & A9 & A10)].
      destruct Y as [(_ & Y)|(_ & _ & [Y|Y])]; cbn [order_back o_back o_front o_last o_first] in Y; try lia.
Qed.
Lemma init_ordered oc g h : header_of g h -> addressable (g_device g) -> forall n,
  n = last_whole_block (c_lb (g_config g)) (g_device g) ->
  let o := order_for g h (next_count g) n in let t := blocks_for (o_num o * o_size o) (c_lb (g_config g)) in
  within_words o ->
  (forall g', init_headers oc g = (Ok tt, g') -> rebuilt o t (g_partitions g) g g') /\
  (fault_free (g_device g) -> 3 * lb_u64 (c_lb (g_config g)) <= lenN (data (g_device g)) ->
   match init_headers oc g with
   | (Ok _, g') => True
   | (Err e, g') => g' = g /\ exists e', e = GHeader e' /\ unmet o t e'
   | (Panic, _) => False
   end).
Proof.
  intros HH AD n EN o t WW. assert (LP := lb_pos (c_lb (g_config g))).
  assert (TH : try_header g = Ok h) by (apply header_of_iff, HH).
  assert (B : n < 2 ^ 64).
  { unfold addressable in AD. subst n. unfold last_whole_block.
    assert (lenN (data (g_device g)) / lb_u64 (c_lb (g_config g)) <= lenN (data (g_device g))) by (apply N.div_le_upper_bound; nia). lia. }
  split.
  - intros g'. unfold init_headers. unfold bind at 1, on_device, map_err.
    pose proof (untouched_find_backup_lba (c_lb (g_config g)) (g_device g)) as U.
    destruct (find_backup_lba (c_lb (g_config g)) (g_device g)) as [[k|x|] d] eqn:F; cbn [omap_err snd] in *; try discriminate.
    apply find_backup_value in F. change (last_block (c_lb (g_config g)) (g_device g)) with (last_whole_block (c_lb (g_config g)) (g_device g)) in F.
    rewrite <- EN in F. subst k. cbn zeta. set (g1 := set_device d g).
    match goal with |- ?x = _ -> _ => change x with (init_with oc g1 n) end. intros E.
    pose proof (init_with_ordered oc g1 h n TH B WW) as X. rewrite E in X.
    change (order_for g1 h (next_count g1) n) with o in X. change (c_lb (g_config g1)) with (c_lb (g_config g)) in X. fold t in X.
    destruct X as [R1 (R2 & R3 & R4 & R5) R6]. constructor; [exact R1| |exact R6].
    split; [exact R2|]. split; [exact R3|]. split; [exact R4|]. eapply same_media_trans; [exact U|exact R5].
  - intros HF L. assert (HT : healthy (g_device g)) by exact HF. rewrite (init_headers_eq oc g HT).
    unfold dev_len. replace (_ <? _) with false by (symmetry; apply N.ltb_ge; lia).
    change (last_block (c_lb (g_config g)) (g_device g)) with (last_whole_block (c_lb (g_config g)) (g_device g)).
    rewrite <- EN. pose proof (init_with_ordered oc g h n TH B WW) as X.
    destruct (init_with oc g n) as [[[]|e|] g']; auto.
Qed.

(** * Additions that change the number of entries *)
Definition grew (oc : bool) (g : gdisk) (id : N) (g' : gdisk) : Prop :=
  exists p, forall h, header_of g h -> num_parts h < N.max id 128 ->
    init_headers oc (set_partitions (pm_insert id p (g_partitions g)) g) = (Ok tt, g').
Lemma tail_grew oc p id g k g' : (let* changes := check_count id in insert_partition oc id p changes) g = (Ok k, g') ->
  k = id /\ grew oc g id g'.
Proof.
  unfold bind at 1, check_count. destruct (@the_header gpt_err g) as [h|e|] eqn:EH; try discriminate. cbn [obind].
  destruct (num_parts_would_change h id && negb (c_change_partition_count (g_config g))) eqn:W; [discriminate|].
  intros H. assert (H0 := H). apply insert_partition_ok in H0. destruct H0 as (-> & _). split; [reflexivity|].
  exists p. intros h' HH L. rewrite (@the_header_of gpt_err g h' HH) in EH. injection EH as <-.
  apply would_change_iff in L. rewrite L in H. revert H. unfold insert_partition. unfold bind at 1. unfold bind at 1.
  destruct (init_headers oc _) as [[[]|e|] g2]; try discriminate. cbn [ret]. intros H. injection H as <-. reflexivity.
Qed.
Lemma sections_grew oc nm n ty fl al rnd secs : forall g k g',
  add_in_sections oc nm n ty fl al rnd secs g = (Ok k, g') -> grew oc g k g'.
Proof.
  induction secs as [|(s, len) secs IH]; intros g k g'; cbn [add_in_sections]; [discriminate|].
  unfold bind at 1, lift. destruct (match al with Some _ => _ | None => _ end) as [off|e|]; try discriminate.
  unfold bind at 1. destruct (addw oc 64 off n) as [need|e|]; try discriminate.
  destruct (need <=? len); [|apply IH].
  unfold bind at 1. destruct (addw oc 64 s off) as [start|e|]; try discriminate.
  unfold bind at 1. destruct (find_next_partition_id g) as [next|e|]; try discriminate.
  unfold bind at 1.
  set (pick := match next with Some i => ret i | None => _ end).
  assert (X : snd (pick g) = g) by (unfold pick; destruct next; reflexivity).
  destruct (pick g) as [[id|e|] g0]; cbn in X; subst g0; try discriminate.
  unfold bind at 1. destruct (addw oc 64 start n) as [e|e|]; try discriminate.
  unfold bind at 1. destruct (subw oc 64 e 1) as [last|e1|]; try discriminate.
  intros H. apply tail_grew in H. destruct H as (-> & H). exact H.
Qed.
Lemma add_grew oc nm size ty fl al rnd g k g' :
  add_partition oc nm size ty fl al rnd g = (Ok k, g') -> grew oc g k g'.
Proof.
  unfold add_partition. destruct (size =? 0); [discriminate|]. cbn zeta. unfold bind at 1.
  destruct (find_free_sectors oc g) as [secs|e|]; try discriminate. apply sections_grew.
Qed.
Lemma at_sections_grew oc nm id first n ty fl rnd secs : forall g k g',
  add_at_in_sections oc nm id first n ty fl rnd secs g = (Ok k, g') -> k = id /\ grew oc g id g'.
Proof.
  induction secs as [|(s, len) secs IH]; intros g k g'; cbn [add_at_in_sections]; [discriminate|].
  destruct (negb _); [apply IH|].
  unfold bind at 1, lift. destruct (addw oc 64 first n) as [e|e|]; try discriminate.
  unfold bind at 1. destruct (subw oc 64 e 1) as [last|e1|]; try discriminate. apply tail_grew.
Qed.
Lemma add_at_grew oc nm id first n ty fl rnd g k g' :
  add_partition_at oc nm id first n ty fl rnd g = (Ok k, g') -> k = id /\ grew oc g id g'.
Proof.
  unfold add_partition_at. destruct (n =? 0); [discriminate|]. destruct (id =? 0); [discriminate|].
  destruct (match pm_get id (g_partitions g) with Some _ => _ | None => _ end); [discriminate|]. unfold bind at 1.
  destruct (find_free_sectors oc g) as [secs|e|]; try discriminate. apply at_sections_grew.
Qed.
