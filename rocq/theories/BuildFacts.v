(** BuildFacts.v - HeaderBuilder::build. *)
From Verif Require Export TableFacts Disk.
Open Scope list_scope.
Open Scope N_scope.

(** Blocks taken by an array of [bytes] bytes: the least number of blocks that hold it. *)
Lemma div_ceil_spec bytes lb : lb <> 0 ->
  bytes <= div_ceil bytes lb * lb /\ (forall k, bytes <= k * lb -> div_ceil bytes lb <= k).
Proof.
  intros H. unfold div_ceil.
  pose proof (N.div_mod (bytes + (lb - 1)) lb H).
  pose proof (N.mod_lt (bytes + (lb - 1)) lb H).
  set (q := (bytes + (lb - 1)) / lb) in *. split; [nia|].
  intros k Hk. nia.
Qed.
Lemma div_ceil_bound bytes lb : lb <> 0 -> div_ceil bytes lb * lb < bytes + lb.
Proof.
  intros H. unfold div_ceil.
  pose proof (N.div_mod (bytes + (lb - 1)) lb H).
  pose proof (N.mod_lt (bytes + (lb - 1)) lb H). nia.
Qed.
Lemma div_ceil_0 lb : lb <> 0 -> div_ceil 0 lb = 0.
Proof. intros H. unfold div_ceil. apply N.div_small. lia. Qed.

(** Array blocks of a builder. *)
Definition ablocks (np psz : N) (lb : lbsize) : N := div_ceil (np * psz) (lb_u64 lb).

Lemma ablocks_fit np psz lb : np * psz <= ablocks np psz lb * lb_u64 lb.
Proof. apply div_ceil_spec. pose proof (lb_pos lb). lia. Qed.
Lemma ablocks_small np psz lb : np * psz < modulus 32 -> ablocks np psz lb < modulus 32.
Proof.
  intros H. unfold ablocks. pose proof (lb_pos lb).
  pose proof (div_ceil_bound (np * psz) (lb_u64 lb)). rewrite modulus_32 in *. nia.
Qed.

(** Exact behaviour of [build] when the array size fits in 32 bits. *)
Lemma build_eq oc b lb :
  b_num_parts b * b_part_size b < modulus 32 ->
  let t := ablocks (b_num_parts b) (b_part_size b) lb in
  build oc b lb =
  if b_backup_lba b <? b_primary_lba b then Err HMissingBackupLba
  else if b_backup_lba b <? t + 1 then Err HBackupLbaToEarly
  else
    let fu := N.max (b_first_usable b) (2 + t) in
    let lu := N.max (b_last_usable b) (b_backup_lba b - (t + 1)) in
    if lu <? fu then Err HBackupLbaToEarly
    else
      let? ps := addw oc 64 (if b_primary b then b_primary_lba b else lu) 1 in
      Ok (mkHeader EFI_PART 1 0 92 0 0
            (if b_primary b then b_primary_lba b else b_backup_lba b)
            (if b_primary b then b_backup_lba b else b_primary_lba b)
            fu lu (b_disk_guid b) ps (b_num_parts b) (b_part_size b) 0).
Proof.
  intros H t. unfold build. rewrite mulw_ok by auto. cbn [obind].
  change (div_ceil (b_num_parts b * b_part_size b) (lb_u64 lb)) with t.
  destruct (b_backup_lba b <? b_primary_lba b); auto.
  unfold checked_sub64.
  destruct (N.ltb_spec (b_backup_lba b) (t + 1)), (N.leb_spec (t + 1) (b_backup_lba b)); try lia; auto.
  cbn [ok_or obind].
  destruct (_ <? _); auto.
  destruct (b_primary b); auto.
Qed.

(** * Sane layouts *)
Definition plba (h : header) : N := if current_lba h <? backup_lba h then current_lba h else backup_lba h.
Definition blba (h : header) : N := if current_lba h <? backup_lba h then backup_lba h else current_lba h.

(** A header whose metadata areas fit on a device of [len] bytes without overlap. *)
Record sane (lb : lbsize) (len : N) (h : header) : Prop := mkSane {
  s_guid : wf_uuid (disk_guid h);
  s_psize : part_size h = 128;
  s_np : num_parts h * 128 < modulus 32;
  s_plba : plba h = 1;
  s_fu : 2 + ablocks (num_parts h) 128 lb <= first_usable h;
  s_lu : last_usable h + ablocks (num_parts h) 128 lb + 1 <= blba h;
  s_room : first_usable h + ablocks (num_parts h) 128 lb + 1 <= blba h;
  s_fit : (blba h + 1) * lb_u64 lb <= len
}.

(** The two headers written for it. *)
Definition new_primary (lb : lbsize) (h : header) : header :=
  let t := ablocks (num_parts h) 128 lb in
  mkHeader EFI_PART 1 0 92 0 0 1 (blba h) (first_usable h) (blba h - t - 1) (disk_guid h)
    2 (num_parts h) 128 0.
Definition new_backup (lb : lbsize) (h : header) : header :=
  let t := ablocks (num_parts h) 128 lb in
  mkHeader EFI_PART 1 0 92 0 0 (blba h) 1 (first_usable h) (blba h - t - 1) (disk_guid h)
    (blba h - t) (num_parts h) 128 0.

Lemma sane_blba64 lb len h : sane lb len h -> len < modulus 64 -> blba h < modulus 64.
Proof. intros [] H. pose proof (lb_pos lb). nia. Qed.

Lemma build_primary_sane oc lb len h : sane lb len h -> len < modulus 64 ->
  build oc (bset_primary true (builder_from_header h)) lb = Ok (new_primary lb h).
Proof.
  intros S HL. pose proof (sane_blba64 _ _ _ S HL). destruct S.
  unfold builder_from_header, bset_primary. cbn [b_primary b_disk_guid b_primary_lba b_backup_lba
    b_first_usable b_last_usable b_num_parts b_part_size].
  fold (plba h) (blba h). rewrite s_plba0.
  rewrite build_eq; cbn [b_primary b_disk_guid b_primary_lba b_backup_lba
    b_first_usable b_last_usable b_num_parts b_part_size]; rewrite ?s_psize0; auto.
  set (t := ablocks (num_parts h) 128 lb) in *.
  destruct (N.ltb_spec (blba h) 1); [lia|].
  destruct (N.ltb_spec (blba h) (t + 1)); [lia|].
  rewrite (N.max_l (first_usable h)) by lia. rewrite (N.max_r (last_usable h)) by lia.
  destruct (N.ltb_spec (blba h - (t + 1)) (first_usable h)); [lia|].
  rewrite addw_ok by (rewrite modulus_64 in *; lia). cbn [obind].
  unfold new_primary. fold t. replace (blba h - (t + 1)) with (blba h - t - 1) by lia. reflexivity.
Qed.

Lemma sane_new_primary lb len h : sane lb len h -> sane lb len (new_primary lb h).
Proof.
  intros []. assert (E : blba (new_primary lb h) = blba h).
  { unfold blba at 1. cbn. destruct (N.ltb_spec 1 (blba h)); auto. lia. }
  constructor; cbn [new_primary disk_guid part_size num_parts first_usable last_usable]; auto; try lia.
  - unfold plba. cbn. destruct (N.ltb_spec 1 (blba h)); auto. lia.
Qed.
Lemma blba_new_primary lb len h : sane lb len h -> blba (new_primary lb h) = blba h.
Proof. intros []. unfold blba at 1. cbn. destruct (N.ltb_spec 1 (blba h)); auto. lia. Qed.
Lemma blba_new_backup lb len h : sane lb len h -> blba (new_backup lb h) = blba h.
Proof. intros []. unfold blba at 1. cbn. destruct (N.ltb_spec (blba h) 1); auto. lia. Qed.
Lemma plba_new_backup lb len h : sane lb len h -> plba (new_backup lb h) = 1.
Proof. intros []. unfold plba at 1. cbn. destruct (N.ltb_spec (blba h) 1); auto. lia. Qed.
Lemma sane_new_backup lb len h : sane lb len h -> sane lb len (new_backup lb h).
Proof.
  intros S. pose proof (blba_new_backup _ _ _ S) as E. pose proof (plba_new_backup _ _ _ S).
  destruct S. constructor; rewrite ?E; cbn [new_backup disk_guid part_size num_parts first_usable last_usable];
    auto; lia.
Qed.

Lemma build_backup_sane oc lb len h : sane lb len h -> len < modulus 64 ->
  build oc (bset_primary false (builder_from_header (new_primary lb h))) lb = Ok (new_backup lb h).
Proof.
  intros S HL. pose proof (sane_blba64 _ _ _ S HL). destruct S.
  unfold builder_from_header, bset_primary.
  cbn [new_primary current_lba backup_lba first_usable last_usable disk_guid num_parts part_size
    b_primary b_disk_guid b_primary_lba b_backup_lba
    b_first_usable b_last_usable b_num_parts b_part_size].
  destruct (N.ltb_spec 1 (blba h)); [|lia].
  rewrite build_eq; cbn [b_primary b_disk_guid b_primary_lba b_backup_lba
    b_first_usable b_last_usable b_num_parts b_part_size]; auto.
  set (t := ablocks (num_parts h) 128 lb) in *.
  destruct (N.ltb_spec (blba h) 1); [lia|].
  destruct (N.ltb_spec (blba h) (t + 1)); [lia|].
  rewrite (N.max_l (first_usable h)) by lia. rewrite (N.max_r (blba h - t - 1)) by lia.
  destruct (N.ltb_spec (blba h - (t + 1)) (first_usable h)); [lia|].
  rewrite addw_ok by lia. cbn [obind].
  unfold new_backup. fold t. replace (blba h - (t + 1) + 1) with (blba h - t) by lia.
  replace (blba h - (t + 1)) with (blba h - t - 1) by lia. reflexivity.
Qed.

(** Rebuilding from a header already in canonical form gives the same headers. *)
Lemma new_primary_idem lb len h : sane lb len h -> new_primary lb (new_primary lb h) = new_primary lb h.
Proof.
  intros S. pose proof (blba_new_primary _ _ _ S) as E. unfold new_primary at 1.
  cbn [new_primary first_usable disk_guid num_parts]. fold (new_primary lb h). rewrite E. reflexivity.
Qed.
Lemma new_backup_new_primary lb len h : sane lb len h -> new_backup lb (new_primary lb h) = new_backup lb h.
Proof.
  intros S. pose proof (blba_new_primary _ _ _ S) as E. unfold new_backup at 1.
  rewrite E. reflexivity.
Qed.
Lemma new_primary_new_backup lb len h : sane lb len h -> new_primary lb (new_backup lb h) = new_primary lb h.
Proof.
  intros S. pose proof (blba_new_backup _ _ _ S) as E. unfold new_primary at 1.
  rewrite E. reflexivity.
Qed.

(** [new_primary] and [new_backup] only look at some fields. *)
Lemma new_primary_ext lb h h' : blba h = blba h' -> first_usable h = first_usable h' ->
  disk_guid h = disk_guid h' -> num_parts h = num_parts h' -> new_primary lb h = new_primary lb h'.
Proof. intros E1 E2 E3 E4. unfold new_primary. rewrite E1, E2, E3, E4. auto. Qed.
Lemma new_backup_ext lb h h' : blba h = blba h' -> first_usable h = first_usable h' ->
  disk_guid h = disk_guid h' -> num_parts h = num_parts h' -> new_backup lb h = new_backup lb h'.
Proof. intros E1 E2 E3 E4. unfold new_backup. rewrite E1, E2, E3, E4. auto. Qed.
Lemma new_primary_wf lb len h : sane lb len h -> len < modulus 64 -> wf_header (new_primary lb h).
Proof.
  intros S HL. pose proof (sane_blba64 _ _ _ S HL). destruct S.
  unfold wf_header, new_primary; cbn. rewrite modulus_64, modulus_32 in *.
  repeat split; auto; lia.
Qed.
Lemma new_backup_wf lb len h : sane lb len h -> len < modulus 64 -> wf_header (new_backup lb h).
Proof.
  intros S HL. pose proof (sane_blba64 _ _ _ S HL). destruct S.
  unfold wf_header, new_backup; cbn. rewrite modulus_64, modulus_32 in *.
  repeat split; auto; lia.
Qed.
