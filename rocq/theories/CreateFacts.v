(** CreateFacts.v - HeaderBuilder::build in general, init_headers and create_from_device. *)
From Verif Require Export AllocFacts.
Open Scope list_scope.
Open Scope N_scope.

Lemma set_device_same g : set_device (g_device g) g = g.
Proof. destruct g. reflexivity. Qed.

(** * init_headers on a device without faults *)
Definition init_builder (g : gdisk) (bak : N) : builder :=
  bset_primary true (bset_disk_guid (g_guid g) (bset_backup_lba bak
    (bset_num_parts (lenN (g_partitions g) mod modulus 32) (builder_from_maybe_header (try_header g) uuid_nil)))).
Definition init_with (oc : bool) (g : gdisk) (bak : N) : outcome gpt_err unit * gdisk :=
  match build oc (init_builder g bak) (c_lb (g_config g)) with
  | Err e => (Err (GHeader e), g)
  | Panic => (Panic, g)
  | Ok h1 =>
      if c_readonly_backup (g_config g) then (Ok tt, set_primary (Ok h1) g)
      else match build oc (bset_primary false (builder_from_header h1)) (c_lb (g_config g)) with
           | Err e => (Err (GHeader e), set_primary (Ok h1) g)
           | Panic => (Panic, set_primary (Ok h1) g)
           | Ok h2 => (Ok tt, set_backup (Ok h2) (set_primary (Ok h1) g))
           end
  end.
Lemma init_headers_eq oc g : healthy (g_device g) ->
  init_headers oc g =
  if dev_len (g_device g) <? lb_u64 (c_lb (g_config g)) * 3 then (Err (GHeader HToSmallForBackup), g)
  else init_with oc g (last_block (c_lb (g_config g)) (g_device g)).
Proof.
  intros H. unfold init_headers, bind, on_device, map_err. rewrite find_backup_lba_ok by exact H.
  destruct (N.ltb_spec (dev_len (g_device g)) (lb_u64 (c_lb (g_config g)) * 3)) as [L|L];
    cbn [omap_err]; rewrite set_device_same; [reflexivity|].
  rewrite last_block_eq by exact L. reflexivity.
Qed.
(** On any device: the number of blocks may be anything or an error, the rest is the same. *)
Lemma init_headers_any oc g : exists d, same_media (g_device g) d /\
  ((exists e, init_headers oc g = (Err e, set_device d g)) \/ init_headers oc g = (Panic, set_device d g) \/
   exists bak, init_headers oc g = init_with oc (set_device d g) bak).
Proof.
  unfold init_headers, bind, on_device, map_err.
  pose proof (untouched_find_backup_lba (c_lb (g_config g)) (g_device g)) as U.
  destruct (find_backup_lba (c_lb (g_config g)) (g_device g)) as [[n|e|] d]; cbn [snd] in U; exists d; (split; [exact U|]).
  - right. right. exists n. reflexivity.
  - left. eexists. reflexivity.
  - right. left. reflexivity.
Qed.

(** The header built for [n] entries of 128 bytes on a disk whose backup header is at [bak]. *)
Definition built (u : uuid) (n bak fu lu : N) (primary : bool) : header :=
  mkHeader EFI_PART 1 0 92 0 0 (if primary then 1 else bak) (if primary then bak else 1) fu lu u
    (if primary then 2 else lu + 1) n 128 0.
Lemma build_built oc b lb :
  b_primary_lba b = 1 -> b_part_size b = 128 -> b_num_parts b * 128 < modulus 32 ->
  b_last_usable b + 1 < modulus 64 -> b_backup_lba b < modulus 64 ->
  let t := ablocks (b_num_parts b) 128 lb in
  let fu := N.max (b_first_usable b) (2 + t) in
  let lu := N.max (b_last_usable b) (b_backup_lba b - (t + 1)) in
  1 <= b_backup_lba b -> t + 1 <= b_backup_lba b -> fu <= lu ->
  build oc b lb = Ok (built (b_disk_guid b) (b_num_parts b) (b_backup_lba b) fu lu (b_primary b)).
Proof.
  intros P S NP L64 B64 t fu lu B1 BT FL. rewrite build_eq by (rewrite S; exact NP). rewrite S, P. fold t.
  replace (b_backup_lba b <? 1) with false by (symmetry; apply N.ltb_ge; lia).
  replace (b_backup_lba b <? t + 1) with false by (symmetry; apply N.ltb_ge; lia). cbn zeta. fold fu. fold lu.
  replace (lu <? fu) with false by (symmetry; apply N.ltb_ge; lia).
  unfold built. destruct (b_primary b).
  - unfold addw. replace (1 + 1 <? modulus 64) with true by (symmetry; apply N.ltb_lt; rewrite two64; lia). reflexivity.
  - unfold addw. replace (lu + 1 <? modulus 64) with true by (symmetry; apply N.ltb_lt; unfold lu; lia). reflexivity.
Qed.

(** * init_headers for a disk with a sane header, or none *)
Definition next_count (g : gdisk) : N := N.max (lenN (g_partitions g) mod modulus 32) MIN_NUM_PARTS.
Definition starts_from (g : gdisk) (fu0 lu0 : N) : Prop :=
  match try_header g with
  | Ok h => plba h = 1 /\ part_size h = 128 /\ first_usable h = fu0 /\ last_usable h = lu0
  | _ => fu0 = 0 /\ lu0 = 0
  end.
Lemma init_ok oc g bak fu0 lu0 : starts_from g fu0 lu0 ->
  let lb := c_lb (g_config g) in let n := next_count g in let t := ablocks n 128 lb in
  let fu := N.max fu0 (2 + t) in let lu := N.max lu0 (bak - (t + 1)) in
  n * 128 < modulus 32 -> lu0 + 1 < modulus 64 -> bak < modulus 64 -> 2 <= bak -> t + 1 <= bak -> fu <= lu ->
  init_with oc g bak =
  (Ok tt, (if c_readonly_backup (g_config g) then id else set_backup (Ok (built (g_guid g) n bak fu lu false)))
            (set_primary (Ok (built (g_guid g) n bak fu lu true)) g)).
Proof.
  intros H lb n t fu lu N32 LU B64 B1 BT FL. unfold init_with. fold lb.
  assert (E : build oc (init_builder g bak) lb = Ok (built (g_guid g) n bak fu lu true)).
  { assert (X : b_primary_lba (init_builder g bak) = 1 /\ b_part_size (init_builder g bak) = 128 /\
      b_first_usable (init_builder g bak) = fu0 /\ b_last_usable (init_builder g bak) = lu0).
    { unfold init_builder, starts_from in *. destruct (try_header g) as [h|e|]; [exact H| |];
        destruct H as (-> & ->); repeat split. }
    destruct X as (X1 & X2 & X3 & X4).
    assert (Y : b_num_parts (init_builder g bak) = n /\ b_backup_lba (init_builder g bak) = bak /\
      b_disk_guid (init_builder g bak) = g_guid g /\ b_primary (init_builder g bak) = true) by (repeat split).
    destruct Y as (Y1 & Y2 & Y3 & Y4).
    rewrite build_built by (rewrite ?X1, ?X2, ?X3, ?X4, ?Y1, ?Y2, ?Y3, ?Y4; solve [auto; lia]).
    rewrite X3, X4, Y1, Y2, Y3, Y4. reflexivity. }
  rewrite E. destruct (c_readonly_backup (g_config g)); [reflexivity|].
  set (b := bset_primary false (builder_from_header (built (g_guid g) n bak fu lu true))).
  assert (Z : b = mkBuilder false (g_guid g) 1 bak fu lu n 128).
  { unfold b, builder_from_header, bset_primary, built.
    cbn [current_lba backup_lba disk_guid first_usable last_usable num_parts part_size b_disk_guid b_primary_lba b_backup_lba b_first_usable b_last_usable b_num_parts b_part_size].
    replace (1 <? bak) with true by (symmetry; apply N.ltb_lt; lia). reflexivity. }
  rewrite Z. rewrite build_built; cbn [b_primary_lba b_part_size b_num_parts b_backup_lba b_first_usable b_last_usable b_disk_guid b_primary];
    fold t; try (unfold lu in *; lia).
  - replace (N.max fu (2 + t)) with fu by (unfold fu; lia). replace (N.max lu (bak - (t + 1))) with lu by (unfold lu; lia).
    reflexivity.
Qed.

(** * Sizes under faults *)
Lemma find_backup_len lb d n d1 : find_backup_lba lb d = (Ok n, d1) -> lb_u64 lb * 3 <= dev_len d.
Proof.
  unfold find_backup_lba, bind, map_err. unfold stream_position at 1.
  destruct (tick d) as [[m|] d'] eqn:T; [discriminate|].
  assert (L : dev_len d' = dev_len d).
  { unfold tick in T. destruct (faults d); injection T; intros; subst; reflexivity. }
  unfold seek_end. destruct (tick d') as [[m|] d2] eqn:T2; [discriminate|].
  assert (L2 : dev_len d2 = dev_len d').
  { unfold tick in T2. destruct (faults d'); injection T2; intros; subst; reflexivity. }
  cbn [omap_err]. destruct (seek_start (pos d') (set_pos d2 (dev_len d2))) as [[x|e|] d3]; cbn [omap_err]; try discriminate.
  destruct (N.ltb_spec (dev_len d2) (lb_u64 lb * 3)) as [H|H]; [discriminate|]. lia.
Qed.
Lemma build_fields oc b lb h : build oc b lb = Ok h ->
  signature h = EFI_PART /\ disk_guid h = b_disk_guid b /\ num_parts h = b_num_parts b /\ part_size h = b_part_size b /\
  current_lba h = (if b_primary b then b_primary_lba b else b_backup_lba b) /\
  backup_lba h = (if b_primary b then b_backup_lba b else b_primary_lba b).
Proof.
  unfold build. destruct (b_backup_lba b <? b_primary_lba b); [discriminate|].
  destruct (mulw oc 32 (b_num_parts b) (b_part_size b)) as [s|s|]; cbn [obind]; try discriminate.
  destruct (ok_or _ _) as [x|x|]; cbn [obind]; try discriminate.
  match goal with |- context [if ?c then Err _ else _] => destruct c end; [discriminate|].
  match goal with |- context [obind ?m _] => destruct m as [y|y|] end; cbn [obind]; try discriminate.
  intros E. apply Ok_inj in E. subst h. repeat split.
Qed.
