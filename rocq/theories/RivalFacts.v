(** RivalFacts.v - opening looks at one header and its array only (C87). *)
From Verif Require Export SpecRival IdleFacts.
Open Scope list_scope.
Open Scope N_scope.

Lemma read_header_local off a b : lenN a = lenN b -> (forall i, off <= i < off + 92 -> byte_at a i = byte_at b i) ->
  read_header_at off a = read_header_at off b.
Proof. intros L H. unfold read_header_at. rewrite L, (slice_eq_byte_at off 92 a b H). reflexivity. Qed.
Lemma read_parts_local h lb a b : lenN a = lenN b -> (forall i, array_bytes_of lb h i -> byte_at a i = byte_at b i) ->
  read_parts_at h lb a = read_parts_at h lb b.
Proof.
  intros L H. assert (T : table_of h lb a = table_of h lb b) by (apply slice_eq_byte_at, H).
  unfold read_parts_at, parts_of. rewrite L, T. reflexivity.
Qed.
Lemma read_backup_local lb d d' : lenN (data d) = lenN (data d') ->
  (forall i, header_bytes_of lb (last_whole_block lb d) i -> byte_at (data d) i = byte_at (data d') i) ->
  read_backup_at lb d = read_backup_at lb d'.
Proof.
  intros L H. unfold read_backup_at, last_block, dev_len. rewrite L.
  destruct (_ <? _); [reflexivity|]. apply read_header_local; [exact L|]. intros i Hi. apply H.
  unfold header_bytes_of, last_whole_block. rewrite L. exact Hi.
Qed.
(** A successful opening in these terms. *)
Lemma opened_is oc cfg d g h : healthy d -> dev_len d < modulus 64 ->
  read_header_at (lb_u64 (c_lb cfg)) (data d) = Ok h -> part_size h = 128 -> counts oc h (dev_len d) ->
  fst (open_from_device oc cfg d) = Ok g ->
  read_parts_at h (c_lb cfg) (data d) = Ok (g_partitions g) /\ g_primary g = Ok h /\ g_guid g = disk_guid h.
Proof.
  intros HD HL R P C E.
  assert (S : select cfg (read_header_at (lb_u64 (c_lb cfg)) (data d)) (read_backup_at (c_lb cfg) d) = Ok h).
  { rewrite (open_ok oc cfg d HD HL) in E. rewrite R in *.
    destruct (select cfg (Ok h) (read_backup_at (c_lb cfg) d)) as [x|e|] eqn:S; try discriminate.
    unfold select in S. destruct (read_backup_at (c_lb cfg) d); [congruence| |discriminate].
    destruct (c_only_valid_headers cfg); [discriminate|congruence]. }
  destruct (open_ok_128 oc cfg d h HD HL S P C) as (q & X). rewrite X in E. cbn [fst] in E.
  destruct (read_parts_at h (c_lb cfg) (data d)) as [t|e|]; try discriminate. injection E as <-. auto.
Qed.

(** A session that keeps off the backup. *)
Lemma readonly_session oc g h acts g1 : settled g h -> up_to_backup (c_lb (g_config g)) h -> Forall act_ok acts ->
  (num_parts h <= 128 /\ backup_at h = last_whole_block (c_lb (g_config g)) (g_device g)) \/
    Forall (fun a => ~ replaces_table a) acts ->
  c_readonly_backup (g_config g) = true -> act_run oc acts g = Some g1 ->
  changed_only_in (primary_copy (c_lb (g_config g)) h) (data (g_device g)) (data (g_device g1)).
Proof.
  intros [E1 E2 E3 E4 E5 E6 E8] E7 HF HU RO E. unfold up_to_backup in E7.
  apply header_of_iff in E3. apply layout_ok_iff in E6. rewrite addressable_iff in E4. rewrite backup_at_eq in *.
  rewrite array_blocks_eq in E7.
  set (cfg := g_config g) in *. set (l := data (g_device g)) in *.
  assert (B : beside cfg h l g g).
  { constructor; auto.
    - exists h, h. assert (like (c_lb cfg) (lenN l) h h) by (split; [exact E6|auto]). auto 8.
    - split; [exact E5|]. split; reflexivity. }
  pose proof (beside_run oc cfg h l acts E2 E4 HU HF g g B) as X. rewrite E in X.
  destruct (run oc (edits acts) g) as [g2|]; [|destruct X].
  destruct (bs_first _ _ _ _ _ X) as (_ & L & H). split; [exact L|]. intros i Hi. apply H. intros [Y|(Y & _)].
  - apply Hi, primary_copy_iff, Y.
  - congruence.
Qed.
