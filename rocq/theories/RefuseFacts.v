(** RefuseFacts.v - calls that fail: what they leave behind. *)
From Verif Require Export CountFacts.
Open Scope list_scope.
Open Scope N_scope.

(** Errors other than those of a header leave the disk alone. *)
Definition header_error (e : gpt_err) : Prop := exists x, e = GHeader x.
Definition shy {A} (m : M gdisk gpt_err A) : Prop :=
  forall g e g', m g = (Err e, g') -> header_error e \/ g' = g.
Lemma shy_query {A B} (f : gdisk -> outcome gpt_err A) (k : A -> M gdisk gpt_err B) :
  (forall a, shy (k a)) -> shy (bind (fun g => (f g, g)) k).
Proof.
  intros H g e g'. unfold bind. destruct (f g) as [a|x|]; try discriminate.
  - apply H.
  - intros E. injection E as _ <-. auto.
Qed.
Lemma shy_lift {A B} (o : outcome gpt_err A) (k : A -> M gdisk gpt_err B) :
  (forall a, shy (k a)) -> shy (bind (lift o) k).
Proof. apply (shy_query (fun _ => o)). Qed.
Lemma shy_ret {A} (a : A) : shy (ret a).
Proof. intros g e g'. discriminate. Qed.
Lemma shy_throw {A} (e : gpt_err) : shy (@throw gdisk gpt_err A e).
Proof. intros g x g' E. injection E as _ <-. auto. Qed.
Lemma init_error oc g e g' : init_headers oc g = (Err e, g') -> header_error e.
Proof.
  unfold init_headers. unfold bind at 1, on_device, map_err.
  destruct (find_backup_lba (c_lb (g_config g)) (g_device g)) as [[n|x|] d]; cbn [omap_err]; try discriminate.
  - cbn zeta. destruct (build oc _ _) as [h1|x|]; [|intros E; injection E as <- _; eexists; reflexivity|discriminate].
    destruct (c_readonly_backup _); [discriminate|].
    destruct (build oc _ _) as [h2|x|]; [discriminate|intros E; injection E as <- _; eexists; reflexivity|discriminate].
  - intros E. injection E as <- _. eexists. reflexivity.
Qed.
Lemma shy_insert oc id p c : shy (insert_partition oc id p c).
Proof.
  intros g e g'. unfold insert_partition. unfold bind at 1. unfold bind at 1.
  set (g1 := set_partitions (pm_insert id p (g_partitions g)) g).
  destruct c; cbn [ret]; [|discriminate].
  destruct (init_headers oc g1) as [[[]|x|] g2] eqn:E; try discriminate.
  intros H. injection H as <- _. left. eapply init_error. exact E.
Qed.
Lemma shy_sections oc nm n ty fl al rnd secs : shy (add_in_sections oc nm n ty fl al rnd secs).
Proof.
  induction secs as [|[s len] rest IH]; cbn [add_in_sections]; [apply shy_throw|].
  apply shy_lift. intros off. apply shy_lift. intros need. destruct (need <=? len); [|exact IH].
  apply shy_lift. intros start. apply shy_query. intros next.
  assert (K : forall id : N, shy (let* e := lift (addw oc 64 start n) in let* last := lift (subw oc 64 e 1) in
    let* changes := check_count id in insert_partition oc id (mkPart ty rnd start last fl nm) changes)).
  { intros id. apply shy_lift. intros e. apply shy_lift. intros last. apply shy_query. intros c. apply shy_insert. }
  destruct next as [i|].
  - intros g e g'. unfold bind at 1, ret. apply K.
  - apply shy_query. exact K.
Qed.
Lemma shy_add oc nm size ty fl al rnd : shy (add_partition oc nm size ty fl al rnd).
Proof.
  intros g e g'. unfold add_partition. destruct (size =? 0); [discriminate|].
  apply (shy_query _ _ (shy_sections oc nm _ ty fl al rnd)).
Qed.
Lemma shy_at_sections oc nm id first n ty fl rnd secs : shy (add_at_in_sections oc nm id first n ty fl rnd secs).
Proof.
  induction secs as [|[s len] rest IH]; cbn [add_at_in_sections]; [apply shy_throw|].
  destruct (negb _); [exact IH|]. apply shy_lift. intros e. apply shy_lift. intros last. apply shy_query. intros c. apply shy_insert.
Qed.
Lemma shy_add_at oc nm id first n ty fl rnd : shy (add_partition_at oc nm id first n ty fl rnd).
Proof.
  intros g e g'. unfold add_partition_at. destruct (n =? 0); [discriminate|]. destruct (id =? 0); [discriminate|].
  destruct (match pm_get id (g_partitions g) with Some p => is_used p | None => false end).
  - intros E. injection E as _ <-. auto.
  - apply (shy_query _ _ (shy_at_sections oc nm id first n ty fl rnd)).
Qed.
Lemma shy_update oc pp : shy (update_partitions oc pp).
Proof.
  intros g e g'. unfold update_partitions. unfold bind at 1.
  destruct (match pm_get 0 pp with Some _ => true | None => false end); [discriminate|]. cbn [ret].
  revert e g'. apply (shy_query _ (fun _ => (fun g => (Ok tt, set_partitions pp g)) ;; init_headers oc)).
  intros _ g1 e g2 E. unfold bind in E. left. eapply init_error. exact E.
Qed.

(** The place found for the backup header is right whenever one is found, also under faults. *)
Lemma find_backup_value lb d n d1 : find_backup_lba lb d = (Ok n, d1) -> n = last_block lb d.
Proof.
  intros E. pose proof (find_backup_len lb d n d1 E) as L. revert E.
  unfold find_backup_lba, bind, map_err. unfold stream_position at 1.
  destruct (tick d) as [[m|] d'] eqn:T; [discriminate|].
  assert (L1 : dev_len d' = dev_len d).
  { unfold tick in T. destruct (faults d); injection T; intros; subst; reflexivity. }
  unfold seek_end. destruct (tick d') as [[m|] d2] eqn:T2; [discriminate|].
  assert (L2 : dev_len d2 = dev_len d').
  { unfold tick in T2. destruct (faults d'); injection T2; intros; subst; reflexivity. }
  cbn [omap_err]. destruct (seek_start (pos d') (set_pos d2 (dev_len d2))) as [[x|e|] d3]; cbn [omap_err]; try discriminate.
  destruct (N.ltb_spec (dev_len d2) (lb_u64 lb * 3)) as [H|H]; [discriminate|].
  intros E. apply (f_equal fst) in E. cbn in E. injection E as <-. rewrite L2, L1. apply last_block_eq. lia.
Qed.

Lemma build_usable oc b lb h : build oc b lb = Ok h ->
  exists sz, @mulw hdr_err oc 32 (b_num_parts b) (b_part_size b) = Ok sz /\ b_primary_lba b <= b_backup_lba b /\
    first_usable h = N.max (b_first_usable b) (2 + div_ceil sz (lb_u64 lb)) /\
    last_usable h = N.max (b_last_usable b) (b_backup_lba b - (div_ceil sz (lb_u64 lb) + 1)) /\
    first_usable h <= last_usable h.
Proof.
  unfold build. destruct (N.ltb_spec (b_backup_lba b) (b_primary_lba b)) as [Z|Z]; [discriminate|].
  destruct (mulw oc 32 (b_num_parts b) (b_part_size b)) as [sz|e|]; cbn [obind]; try discriminate.
  unfold checked_sub64. destruct (N.leb_spec (div_ceil sz (lb_u64 lb) + 1) (b_backup_lba b)) as [B|B];
    cbn [ok_or obind]; [|discriminate].
  match goal with |- context [if ?c then Err _ else _] => destruct c eqn:FL end; [discriminate|]. apply N.ltb_ge in FL.
  match goal with |- context [obind ?m _] => destruct m as [y|y|] end; cbn [obind]; try discriminate.
  intros E. apply Ok_inj in E. subst h. exists sz. cbn [first_usable last_usable].
  split; [reflexivity|]. split; [exact Z|]. split; [reflexivity|]. split; [reflexivity|exact FL].
Qed.

(** [update_partitions] that succeeds. *)
Lemma init_success oc g h g' : header_of g h -> init_headers oc g = (Ok tt, g') ->
  same_media (g_device g) (g_device g') /\ g_guid g' = g_guid g /\ g_partitions g' = g_partitions g /\
  g_config g' = g_config g /\ g_sync g' = g_sync g /\
  exists hp, g_primary g' = Ok hp /\ num_parts hp = next_count g /\ disk_guid hp = g_guid g /\
    part_size hp = part_size h /\ backup_lba hp = last_block (c_lb (g_config g)) (g_device g) /\
    current_lba hp = plba h /\ first_usable h <= first_usable hp /\ last_usable h <= last_usable hp /\
    first_usable hp <= last_usable hp /\
    (c_readonly_backup (g_config g) = true -> g_backup g' = g_backup g) /\
    (c_readonly_backup (g_config g) = false ->
exists hb, g_backup g' = Ok hb /\ mirrored hp hb).
Proof.
  intros HH. unfold init_headers. unfold bind at 1, on_device, map_err.
  pose proof (untouched_find_backup_lba (c_lb (g_config g)) (g_device g)) as U.
  destruct (find_backup_lba (c_lb (g_config g)) (g_device g)) as [[n|x|] d] eqn:F; cbn [omap_err snd] in *; try discriminate.
  apply find_backup_value in F. cbn zeta.
  set (g1 := set_device d g). assert (TH : try_header g1 = Ok h).
  { pose proof (@the_header_of gpt_err g h HH) as X. unfold the_header in X.
    change (try_header g1) with (try_header g). destruct (try_header g); congruence. }
  rewrite TH. cbn [builder_from_maybe_header].
  destruct (build oc _ _) as [h1|x|] eqn:B; try discriminate.
  pose proof (build_fields _ _ _ _ B) as (_ & B1 & B2 & B3 & B4 & B5).

  pose proof (build_usable _ _ _ _ B) as (sz & B0 & BL & B7 & BU & B8).
  assert (X : forall g2, (same_media (g_device g1) (g_device g2) /\ g_guid g2 = g_guid g /\ g_partitions g2 = g_partitions g /\
     g_config g2 = g_config g /\ g_sync g2 = g_sync g) -> g_primary g2 = Ok h1 ->
     (c_readonly_backup (g_config g) = true -> g_backup g2 = g_backup g) /\
     (c_readonly_backup (g_config g) = false ->
exists hb, g_backup g2 = Ok hb /\ mirrored h1 hb) ->
     same_media (g_device g) (g_device g2) /\ g_guid g2 = g_guid g /\ g_partitions g2 = g_partitions g /\
  g_config g2 = g_config g /\ g_sync g2 = g_sync g /\
  exists hp, g_primary g2 = Ok hp /\ num_parts hp = next_count g /\ disk_guid hp = g_guid g /\
    part_size hp = part_size h /\ backup_lba hp = last_block (c_lb (g_config g)) (g_device g) /\
    current_lba hp = plba h /\ first_usable h <= first_usable hp /\ last_usable h <= last_usable hp /\
    first_usable hp <= last_usable hp /\
    (c_readonly_backup (g_config g) = true -> g_backup g2 = g_backup g) /\
    (c_readonly_backup (g_config g) = false ->
exists hb, g_backup g2 = Ok hb /\ mirrored hp hb)).
  { intros g2 (Y1 & Y2) P Q. split; [eapply same_media_trans; [exact U|exact Y1]|].
    destruct Y2 as (Y2 & Y3 & Y4 & Y5). do 4 (split; [assumption|]). exists h1. split; [exact P|].
    split; [exact B2|]. split; [exact B1|]. split; [rewrite B3; reflexivity|]. split; [rewrite B5; exact F|].
    split; [rewrite B4; reflexivity|]. split; [rewrite B7; apply N.le_max_l|]. split; [rewrite BU; apply N.le_max_l|]. split; [exact B8|exact Q]. }
  cbn [set_primary g_config]. change (g_config g1) with (g_config g).
  destruct (c_readonly_backup (g_config g)) eqn:RO.
  - intros E. injection E as <-. apply X; [|reflexivity|split; [reflexivity|congruence]].
    split; [apply same_media_refl|repeat split].
  - destruct (build oc (bset_primary false (builder_from_header h1)) (c_lb (g_config g))) as [h2|x|] eqn:BB; try discriminate.
    intros E. injection E as <-. pose proof (build_fields _ _ _ _ BB) as (_ & C1 & C2 & C3 & _).
    apply X; [|reflexivity|split; [congruence|]].
    + split; [apply same_media_refl|repeat split].
    + intros _. exists h2. split; [reflexivity|].
      pose proof (build_fields _ _ _ _ BB) as (_ & _ & _ & _ & C4 & C5).
      pose proof (build_usable _ _ _ _ BB) as (sz2 & D0 & _ & D1 & D2 & _).
      cbn [b_primary b_primary_lba b_backup_lba b_num_parts b_part_size b_first_usable b_last_usable bset_primary
           bset_disk_guid bset_backup_lba bset_num_parts] in *.
      assert (EP : b_primary_lba (builder_from_header h1) = current_lba h1 /\ b_backup_lba (builder_from_header h1) = backup_lba h1).
      { unfold builder_from_header. cbn [b_primary_lba b_backup_lba]. rewrite B4, B5.
        destruct (N.ltb_spec (b_primary_lba (builder_from_header h)) n) as [Z|Z]; split; cbn in *; lia. }
      destruct EP as (EP1 & EP2). rewrite EP1, EP2 in *.
      cbn [b_num_parts b_part_size b_first_usable b_last_usable builder_from_header] in D0, D1, D2.
      rewrite B2, B3 in D0. cbn [b_num_parts b_part_size builder_from_header] in B0, D0.
      rewrite B0 in D0. apply Ok_inj in D0. subst sz2. rewrite B5 in D2.
      constructor; auto.
      * split; [rewrite D1, B7; lia|rewrite D2, BU; lia].
Qed.
