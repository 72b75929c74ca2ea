(** FlipFacts.v - opening a valid disk some bits of which were flipped. *)
From Verif Require Export BitFacts UefiFacts.
Open Scope list_scope.
Open Scope N_scope.

Lemma any_within off n ps : (exists p, In p ps /\ 8 * off <= p < 8 * (off + n)) \/ part_of off n ps = [].
Proof.
  destruct (part_of off n ps) as [|i r] eqn:E; [right; reflexivity|left].
  assert (I : In i (part_of off n ps)) by (rewrite E; left; reflexivity).
  apply part_of_in in I. exists (8 * off + i). split; [tauto|lia].
Qed.
(** A header is read as before, or not at all. *)
Lemma read_header_flipped ps off l l' h : read_header_at off l = Ok h -> flipped ps l l' -> (length ps <= 4)%nat ->
  (part_of off 92 ps = [] /\ read_header_at off l' = Ok h) \/
  (part_of off 92 ps <> [] /\ exists e, read_header_at off l' = Err e).
Proof.
  intros R F L4. destruct (any_within off 92 ps) as [(p & I & W)|E].
  - right. split; [eapply part_of_some; eauto|]. eapply read_header_bits; eauto.
  - left. split; [exact E|]. unfold read_header_at in *. destruct (N.leb_spec (off + 92) (lenN l)) as [H|H]; [|discriminate R].
    replace (lenN l') with (lenN l) by (destruct F; auto).
    rewrite (proj2 (N.leb_le (off + 92) (lenN l)) H). rewrite <- (part_of_none off 92 ps l l' F H E). exact R.
Qed.
Lemma read_parts_ok h lb l : part_size h = 128 -> lenN l < modulus 64 -> array_at lb h + array_len h <= lenN l ->
  crc32_parts h = crc32 (table_of h lb l) -> read_parts_at h lb l = Ok (parts_of h lb l).
Proof.
  intros HP HA HL HC. unfold array_at, array_len in HL. rewrite HP in HL. unfold read_parts_at.
  rewrite (proj2 (N.leb_gt (modulus 64) (part_start h * lb_u64 lb))) by lia.
  rewrite (proj2 (N.leb_le _ (lenN l)) HL). rewrite HC, N.eqb_refl. reflexivity.
Qed.
(** An array is read as before, or not at all. *)
Lemma read_parts_flipped ps h lb l l' m : part_size h = 128 -> lenN l < modulus 64 -> num_parts h < 2 ^ 22 ->
  array_at lb h + array_len h <= lenN l -> read_parts_at h lb l = Ok m -> flipped ps l l' -> (length ps <= 2)%nat ->
  (part_of (array_at lb h) (array_len h) ps = [] /\ read_parts_at h lb l' = Ok m) \/
  (part_of (array_at lb h) (array_len h) ps <> [] /\ exists e, read_parts_at h lb l' = Err e).
Proof.
  intros HP HA HN HL R F L2. unfold array_at, array_len in *. rewrite HP in *.
  destruct (any_within (part_start h * lb_u64 lb) (num_parts h * 128) ps) as [(p & I & W)|E].
  - right. split; [eapply part_of_some; eauto|]. eexists. apply (read_parts_bits ps h lb l l' m); auto. exists p. auto.
  - left. split; [exact E|]. rewrite <- R. apply read_parts_same; auto; [destruct F; auto|].
    apply (part_of_none _ _ ps); auto.
Qed.

Section Disk.
Variables (oc : bool) (cfg : config) (d d' : dev) (last : N) (ps : list N).
Let lb := c_lb cfg.
Let l := data d.
Let l' := data d'.
Hypothesis HF : fault_free d.
Hypothesis HF' : fault_free d'.
Hypothesis HA : addressable d.
Hypothesis HU : uefi_disk lb l last.
Hypothesis S1 : num_at (1 * lb_u64 lb + 12) 4 l = 92.
Hypothesis S2 : num_at (last * lb_u64 lb + 12) 4 l = 92.
Hypothesis HN : entry_count lb l 1 < 2 ^ 22.
Hypothesis HP : flipped ps l l'.

Lemma flip_setup : exists hp hb m,
  read_header_at (lb_u64 lb) l = Ok hp /\ read_backup_at lb d = Ok hb /\
  last_block lb d = last /\ lb_u64 lb * 3 <= dev_len d /\
  disk_guid hb = disk_guid hp /\
  (part_size hp = 128 /\ num_parts hp < 2 ^ 22 /\ array_at lb hp + array_len hp <= lenN l /\ read_parts_at hp lb l = Ok m) /\
  (part_size hb = 128 /\ num_parts hb < 2 ^ 22 /\ array_at lb hb + array_len hb <= lenN l /\ read_parts_at hb lb l = Ok m).
Proof.
  destruct HU as [U1 U2 U3 U4 U5 U6 U7 (O1 & O2 & O3 & O4 & O5) U9 U10].
  destruct (copy_header _ _ _ _ U2 S1) as (hp & P0 & P1 & P2 & P3 & P4 & P5 & P6 & P7 & P8 & P9).
  destruct (copy_header _ _ _ _ U3 S2) as (hb & B0 & B1 & B2 & B3 & B4 & B5 & B6 & B7 & B8 & B9).
  rewrite N.mul_1_l in P0. pose proof (lb_pos lb) as LP.
  assert (LS : last >= 3).
  { assert (last * lb_u64 lb >= array_start lb l last * lb_u64 lb) by lia.
    assert (array_start lb l last <= last) by (apply N.mul_le_mono_pos_r with (p := lb_u64 lb); lia).
    assert (2 * lb_u64 lb <= usable_from lb l 1 * lb_u64 lb) by nia.
    assert (2 <= usable_from lb l 1) by (apply N.mul_le_mono_pos_r with (p := lb_u64 lb); lia). lia. }
  assert (LEN : (last + 1) * lb_u64 lb <= lenN l).
  { rewrite U1 at 1. pose proof (N.mul_div_le (lenN l) (lb_u64 lb)). nia. }
  assert (L3 : lb_u64 lb * 3 <= dev_len d) by (unfold dev_len; fold l; nia).
  assert (LB : last_block lb d = last).
  { symmetry. exact U1. }
  exists hp, hb, (parts_of hp lb l).
  assert (R1 : read_header_at (lb_u64 lb) l = Ok hp) by (eapply header_at_fun; [apply read_header_at_spec|exact P0]).
  assert (R2 : read_backup_at lb d = Ok hb).
  { unfold read_backup_at. rewrite (proj2 (N.ltb_ge (dev_len d) (lb_u64 lb * 3)) L3), LB.
    eapply header_at_fun; [apply read_header_at_spec|exact B0]. }
  assert (T : table_of hb lb l = table_of hp lb l).
  { unfold table_of. rewrite P3, P4, P5, B3, B4, B5. rewrite <- !range_slice. symmetry. exact U7. }
  assert (TC : table_of hp lb l = array_bytes lb l 1).
  { unfold table_of. rewrite P3, P4, P5. rewrite <- range_slice. reflexivity. }
  apply addressable_iff in HA. unfold dev_len in HA. fold l in HA.
  assert (F1 : array_at lb hp + array_len hp <= lenN l).
  { unfold array_at, array_len. rewrite P3, P4, P5. apply (uc_fit _ _ _ _ U2). }
  assert (F2 : array_at lb hb + array_len hb <= lenN l).
  { unfold array_at, array_len. rewrite B3, B4, B5. apply (uc_fit _ _ _ _ U3). }
  split; [exact R1|]. split; [exact R2|]. split; [exact LB|]. split; [exact L3|]. split.
  { apply guid_on_disk_inj. rewrite B8, P8. symmetry. exact U5. }
  split; (split; [assumption|]).
  - split; [rewrite P5; exact HN|]. split; [exact F1|]. apply read_parts_ok; auto. rewrite P9, TC. reflexivity.
  - split; [rewrite B5, <- U6; exact HN|]. split; [exact F2|].
    replace (parts_of hp lb l) with (parts_of hb lb l); [apply read_parts_ok; auto; rewrite B9, T, TC, U7; reflexivity|].
    unfold parts_of. rewrite T, P5, B5, U6. reflexivity.
Qed.

Lemma open_flipped : (length ps <= 2)%nat -> exists g, fst (open_from_device oc cfg d) = Ok g /\
  ((exists e, fst (open_from_device oc cfg d') = Err e) \/
   exists g', fst (open_from_device oc cfg d') = Ok g' /\ g_partitions g' = g_partitions g /\ g_guid g' = g_guid g).
Proof.
  intros L2. destruct flip_setup as (hp & hb & m & R1 & R2 & LB & L3 & G & (P1 & P2 & P3 & P4) & (B1 & B2 & B3 & B4)).
  pose proof HA as HA0. apply addressable_iff in HA0.
  assert (HL : dev_len d' = dev_len d) by (destruct HP as (X & _); exact X).
  assert (C1 : forall x, counts oc hp x) by (intros x; right; left; eapply N.lt_trans; [exact P2|reflexivity]).
  assert (C2 : forall x, counts oc hb x) by (intros x; right; left; eapply N.lt_trans; [exact B2|reflexivity]).
  assert (O : exists p, open_from_device oc cfg d = (Ok (mkGdisk cfg (set_pos d p) (disk_guid hp) (Ok hp) (Ok hb) m false), set_pos d p)).
  { pose proof (open_ok_128 oc cfg d hp HF HA0) as O. cbv zeta in O. fold lb l in O. rewrite R1, R2 in O. cbn [select] in O.
    destruct (O eq_refl P1 (C1 _)) as (p & E). exists p. rewrite E, P4. reflexivity. }
  destruct O as (p & O). rewrite O. cbn [fst]. eexists. split; [reflexivity|]. cbn [g_partitions g_guid].
  assert (X1 : read_header_at (lb_u64 lb) l' = Ok hp \/ exists e, read_header_at (lb_u64 lb) l' = Err e).
  { destruct (read_header_flipped ps _ l l' hp R1 HP ltac:(lia)) as [[_ X]|[_ X]]; auto. }
  assert (X2 : read_backup_at lb d' = Ok hb \/ exists e, read_backup_at lb d' = Err e).
  { unfold read_backup_at in *. replace (last_block lb d') with (last_block lb d) by (unfold last_block; congruence).
    rewrite HL. destruct (dev_len d <? lb_u64 lb * 3); [discriminate R2|].
    destruct (read_header_flipped ps _ l l' hb R2 HP ltac:(lia)) as [[_ X]|[_ X]]; auto. }
  assert (Y1 : read_parts_at hp lb l' = Ok m \/ exists e, read_parts_at hp lb l' = Err e).
  { destruct (read_parts_flipped ps hp lb l l' m P1 HA0 P2 P3 P4 HP L2) as [[_ X]|[_ X]]; auto. }
  assert (Y2 : read_parts_at hb lb l' = Ok m \/ exists e, read_parts_at hb lb l' = Err e).
  { destruct (read_parts_flipped ps hb lb l l' m B1 HA0 B2 B3 B4 HP L2) as [[_ X]|[_ X]]; auto. }
  assert (HA1 : dev_len d' < modulus 64) by (clear - HL HA0; rewrite HL; exact HA0).
  pose proof (fun h => open_ok_128 oc cfg d' h HF' HA1) as O'. pose proof (open_ok oc cfg d' HF' HA1) as O2.
  cbv zeta in O', O2. fold lb l' in O', O2.
  destruct (select cfg (read_header_at (lb_u64 lb) l') (read_backup_at lb d')) as [h|e|] eqn:SE.
  - assert (HH : h = hp \/ h = hb).
    { destruct X1 as [X1|(e1 & X1)], X2 as [X2|(e2 & X2)]; rewrite X1, X2 in SE; cbn [select] in SE;
        try destruct (c_only_valid_headers cfg); inversion SE; auto. }
    destruct HH as [-> | ->].
    + destruct (O' hp eq_refl P1 (C1 _)) as (q & E). rewrite E. cbn [fst].
      destruct Y1 as [Y1|(e & Y1)]; rewrite Y1; [right; eexists; split; [reflexivity|]; auto|left; eexists; reflexivity].
    + destruct (O' hb eq_refl B1 (C2 _)) as (q & E). rewrite E. cbn [fst].
      destruct Y2 as [Y2|(e & Y2)]; rewrite Y2; [right; eexists; split; [reflexivity|]; auto|left; eexists; reflexivity].
  - left. exists e. rewrite O2. reflexivity.
  - exfalso. destruct X1 as [X1|(e1 & X1)], X2 as [X2|(e2 & X2)]; rewrite X1, X2 in SE; cbn [select] in SE;
      try destruct (c_only_valid_headers cfg); discriminate SE.
Qed.
End Disk.
