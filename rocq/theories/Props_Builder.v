(** Props_Builder.v - what a [HeaderBuilder] builds, whatever it was asked for and in which order (C89). *)
From Verif Require Import SpecBuilder BuildFacts Samples Props_Build.
Open Scope list_scope.
Open Scope N_scope.

Lemma asked_is {A} (f : builder -> A) (pick : setting -> option A) :
  (forall b s, f (apply_setting b s) = match pick s with Some v => v | None => f b end) ->
  forall ss b v, asked pick ss (f b) v -> f (apply_settings ss b) = v.
Proof.
  intros H.
  assert (N : forall ss b, Forall (fun x => pick x = None) ss -> f (apply_settings ss b) = f b).
  { induction ss as [|s ss IH]; intros b FF; [reflexivity|]. inversion FF; subst. cbn. unfold apply_settings in IH.
    rewrite IH by assumption. rewrite H. rewrite H2. reflexivity. }
  intros ss b v [(a & s & c & -> & P & FF)|(FF & ->)].
  - unfold apply_settings. rewrite fold_left_app. cbn [fold_left]. fold (apply_settings c (apply_setting (fold_left apply_setting a b) s)).
    rewrite N by exact FF. rewrite H, P. reflexivity.
  - apply N, FF.
Qed.
Lemma asked_fun {A} (pick : setting -> option A) ss v0 : exists v, asked pick ss v0 v.
Proof.
  induction ss as [|s ss (v & IH)]; [exists v0; right; auto|].
  destruct IH as [(a & x & c & -> & P & FF)|(FF & ->)].
  - exists v. left. exists (s :: a), x, c. auto.
  - destruct (pick s) as [w|] eqn:P.
    + exists w. left. exists [], s, ss. auto.
    + exists v0. right. auto.
Qed.
Lemma where0_is s p f b : where0 s p f b ->
  b_primary (started s) = p /\ b_primary_lba (started s) = f /\ b_backup_lba (started s) = b.
Proof.
  intros [rnd|h F|h F]; cbn; [auto| |]; unfold front in F.
  - replace (current_lba h <? backup_lba h) with true by (symmetry; apply N.ltb_lt, F). auto.
  - replace (current_lba h <? backup_lba h) with false by (symmetry; apply N.ltb_ge; lia). auto.
Qed.
Definition ordered (o : order) : builder :=
  mkBuilder (o_primary o) (o_guid o) (o_front o) (o_back o) (o_first o) (o_last o) (o_num o) (o_size o).
Lemma asked_for_is s ss o : asked_for s ss o -> apply_settings ss (started s) = ordered o.
Proof.
  intros [(p0 & b0 & W & P & B) G F L N S]. destruct (where0_is _ _ _ _ W) as (W1 & W2 & W3). subst p0 b0.
  assert (K : forall b, b = mkBuilder (b_primary b) (b_disk_guid b) (b_primary_lba b) (b_backup_lba b) (b_first_usable b)
                              (b_last_usable b) (b_num_parts b) (b_part_size b)) by (intros []; reflexivity).
  rewrite (K (apply_settings ss (started s))). unfold ordered. f_equal.
  - apply (asked_is b_primary asks_primary); [intros b []; reflexivity|exact P].
  - apply (asked_is b_disk_guid asks_guid); [intros b []; reflexivity|]. destruct s; exact G.
  - rewrite <- W2. apply (asked_is b_primary_lba (fun _ => None)); [intros b []; reflexivity|]. right. split; [|reflexivity].
    apply Forall_forall. reflexivity.
  - apply (asked_is b_backup_lba asks_backup); [intros b []; reflexivity|exact B].
  - apply (asked_is b_first_usable asks_first); [intros b []; reflexivity|]. destruct s; exact F.
  - apply (asked_is b_last_usable asks_last); [intros b []; reflexivity|]. destruct s; exact L.
  - apply (asked_is b_num_parts asks_num); [intros b []; reflexivity|]. destruct s; exact N.
  - apply (asked_is b_part_size asks_size); [intros b []; reflexivity|]. destruct s; exact S.
Qed.

(** C89.  Every sequence of calls on a builder amounts to one order, ... *)
Theorem C89_one_order : forall s ss, exists o, asked_for s ss o.
Proof.
  intros s ss.
  assert (W : exists p f b, where0 s p f b).
  { destruct s as [rnd|h]; [do 3 eexists; constructor|]. destruct (N.lt_ge_cases (current_lba h) (backup_lba h)) as [X|X].
    - do 3 eexists. apply w_front, X.
    - do 3 eexists. apply w_back. unfold front. lia. }
  destruct W as (p0 & f & b0 & W).
  destruct (asked_fun asks_primary ss p0) as (p & P), (asked_fun asks_backup ss b0) as (b & B).
  destruct (asked_fun asks_guid ss (guid0 s)) as (u & U), (asked_fun asks_first ss (first0 s)) as (fi & FI).
  destruct (asked_fun asks_last ss (last0 s)) as (la & LA), (asked_fun asks_num ss (num0 s)) as (n & NN).
  destruct (asked_fun asks_size ss (size0 s)) as (z & ZZ).
  exists (mkOrder p u f b fi la n z). constructor; try assumption. exists p0, b0. auto.
Qed.
Print Assumptions C89_one_order.
(** ... sequences that amount to the same order build the same, in either build mode, ... *)
Theorem C89_same_order : forall oc lb s s' ss ss' o, asked_for s ss o -> asked_for s' ss' o ->
  build oc (apply_settings ss (started s)) lb = build oc (apply_settings ss' (started s')) lb.
Proof. intros. rewrite (asked_for_is s ss o), (asked_for_is s' ss' o) by assumption. reflexivity. Qed.
Print Assumptions C89_same_order.
(** ... and as long as the size of the array is below 2^32 bytes, the order alone says what is built or why not. *)
Theorem C89_built : forall oc lb s ss o, asked_for s ss o ->
  o_num o * o_size o < 2 ^ 32 -> o_front o + 1 < 2 ^ 64 -> o_back o < 2 ^ 64 -> o_last o + 1 < 2 ^ 64 ->
  let t := blocks_for (o_num o * o_size o) lb in
  match build oc (apply_settings ss (started s)) lb with
  | Ok h => as_ordered o t h
  | Err HMissingBackupLba => o_back o < o_front o
  | Err HBackupLbaToEarly => o_front o <= o_back o /\
      (o_back o < t + 1 \/ N.max (o_last o) (o_back o - t - 1) < N.max (o_first o) (t + 2))
  | _ => False
  end.
Proof.
  intros oc lb s ss o AF H1 H2 H3 H4 t. rewrite (asked_for_is s ss o AF). rewrite <- two32 in H1. rewrite <- two64 in H2, H3, H4.
  rewrite build_eq by exact H1. cbn [ordered b_primary b_disk_guid b_primary_lba b_backup_lba b_first_usable b_last_usable b_num_parts b_part_size].
  rewrite ablocks_blocks. fold t. destruct (N.ltb_spec (o_back o) (o_front o)) as [L|L]; [exact L|].
  destruct (N.ltb_spec (o_back o) (t + 1)) as [L2|L2]; [split; [exact L|left; exact L2]|]. cbn zeta.
  replace (o_back o - (t + 1)) with (o_back o - t - 1) by lia. rewrite (N.add_comm 2 t).
  set (fu := N.max (o_first o) (t + 2)). set (lu := N.max (o_last o) (o_back o - t - 1)).
  destruct (N.ltb_spec lu fu) as [L3|L3]; [split; [exact L|right; exact L3]|].
  rewrite addw_ok; [|destruct (o_primary o); [exact H2|unfold lu; lia]]. cbn [obind].
  constructor; cbn; try (destruct (o_primary o)); auto 10.
Qed.
Print Assumptions C89_built.
(** Beyond that size a debug build panics, ... *)
Theorem C89_too_large : forall lb s ss o, asked_for s ss o -> 2 ^ 32 <= o_num o * o_size o ->
  build true (apply_settings ss (started s)) lb = if o_back o <? o_front o then Err HMissingBackupLba else Panic.
Proof.
  intros lb s ss o AF H. rewrite (asked_for_is s ss o AF). unfold build.
  cbn [ordered b_primary b_disk_guid b_primary_lba b_backup_lba b_first_usable b_last_usable b_num_parts b_part_size].
  destruct (o_back o <? o_front o); [reflexivity|]. unfold mulw.
  replace (o_num o * o_size o <? modulus 32) with false by (symmetry; apply N.ltb_ge; rewrite two32; exact H). reflexivity.
Qed.
Print Assumptions C89_too_large.
(** ... and a release build can make a header whose usable blocks lie in its own array. *)
Theorem C89_wrapped_refuted : exists ss h,
  build false (apply_settings ss (started (Scratch sample_guid))) Lb512 = Ok h /\
  first_usable h * 512 < array_at Lb512 h + array_len h.
Proof.
  exists [SetBackup 99; SetNum (2 ^ 25)]. eexists. split; [vm_compute; reflexivity|vm_compute; reflexivity].
Qed.
Print Assumptions C89_wrapped_refuted.
(** A last usable block that is asked for is never cut: the usable range can run into the backup array, past the backup
    header and past the end of the disk, and the backup array is put behind it. *)
Theorem C89_last_refuted : exists ss hp hb,
  build true (apply_settings ss (started (Scratch sample_guid))) Lb512 = Ok hp /\
  build true (apply_settings (ss ++ [SetPrimary false]) (started (Scratch sample_guid))) Lb512 = Ok hb /\
  backup_lba hp = 99 /\ last_usable hp = 200 /\ current_lba hb = 99 /\ part_start hb = 201.
Proof.
  exists [SetLast 200; SetBackup 99]. do 2 eexists. do 2 (split; [vm_compute; reflexivity|]). repeat split.
Qed.
Print Assumptions C89_last_refuted.
(** It stays clear of the backup array exactly if the block asked for does. *)
Theorem C89_last_iff : forall oc lb s ss o h, asked_for s ss o ->
  o_num o * o_size o < 2 ^ 32 -> o_front o = 1 -> o_back o < 2 ^ 64 -> o_last o + 1 < 2 ^ 64 ->
  build oc (apply_settings ss (started s)) lb = Ok h ->
  (last_usable h < o_back o - blocks_for (o_num o * o_size o) lb <->
   o_last o + blocks_for (o_num o * o_size o) lb < o_back o).
Proof.
  intros oc lb s ss o h AF H1 H2 H3 H4 E. pose proof (C89_built oc lb s ss o AF H1) as X. rewrite E in X.
  destruct X as [_ _ _ _ _ X _ Y]; try lia.
Qed.
Print Assumptions C89_last_iff.

(** Orders given from nothing and from a header, in two ways each. *)
Example C89_case :
  asked_for (Scratch sample_guid) [SetBackup 50; SetNum 3; SetLast 7; SetBackup 199; SetNum 200; SetLast 0]
    (mkOrder true sample_guid 1 199 0 0 200 128) /\
  asked_for (Copy mini_header) [SetSize 256; SetGuid other_guid; SetPrimary false; SetFirst 9; SetBackup 30]
    (mkOrder false other_guid 1 30 9 3 4 256) /\
  match build true (apply_settings [SetSize 256; SetGuid other_guid; SetPrimary false; SetFirst 9; SetBackup 30] (started (Copy mini_header))) Lb512 with
  | Ok h => as_ordered (mkOrder false other_guid 1 30 9 3 4 256) 2 h /\ last_usable h = 27 /\ part_start h = 28
  | _ => False
  end.
Proof.
  assert (A2 : asked_for (Copy mini_header) [SetSize 256; SetGuid other_guid; SetPrimary false; SetFirst 9; SetBackup 30]
    (mkOrder false other_guid 1 30 9 3 4 256)).
  { constructor; cbn [o_primary o_guid o_front o_back o_first o_last o_num o_size].
    - exists true, 5. split; [apply w_front; reflexivity|]. split; left.
      + exists [SetSize 256; SetGuid other_guid], (SetPrimary false), [SetFirst 9; SetBackup 30]. repeat constructor.
      + exists [SetSize 256; SetGuid other_guid; SetPrimary false; SetFirst 9], (SetBackup 30), []. repeat constructor.
    - left. exists [SetSize 256], (SetGuid other_guid), [SetPrimary false; SetFirst 9; SetBackup 30]. repeat constructor.
    - left. exists [SetSize 256; SetGuid other_guid; SetPrimary false], (SetFirst 9), [SetBackup 30]. repeat constructor.
    - right. repeat constructor.
    - right. repeat constructor.
    - left. exists [], (SetSize 256), [SetGuid other_guid; SetPrimary false; SetFirst 9; SetBackup 30]. repeat constructor. }
  split; [|split; [exact A2|]].
  - constructor; cbn [o_primary o_guid o_front o_back o_first o_last o_num o_size].
    + exists true, 0. split; [constructor|]. split; [right; repeat constructor|].
      left. exists [SetBackup 50; SetNum 3; SetLast 7], (SetBackup 199), [SetNum 200; SetLast 0]. repeat constructor.
    + right. repeat constructor.
    + right. repeat constructor.
    + left. exists [SetBackup 50; SetNum 3; SetLast 7; SetBackup 199; SetNum 200], (SetLast 0), []. repeat constructor.
    + left. exists [SetBackup 50; SetNum 3; SetLast 7; SetBackup 199], (SetNum 200), [SetLast 0]. repeat constructor.
    + right. repeat constructor.
  - split; [|split; reflexivity].
    pose proof (C89_built true Lb512 _ _ _ A2 eq_refl eq_refl eq_refl eq_refl) as X. exact X.
Qed.

(** * Every order, without and with overflow checks *)
Definition with_start (v : N) (h : header) : header :=
  mkHeader (signature h) (rev_major h) (rev_minor h) (header_size_le h) (crc32_hdr h) (reserved h) (current_lba h) (backup_lba h)
    (first_usable h) (last_usable h) (disk_guid h) v (num_parts h) (part_size h) (crc32_parts h).
(** Without overflow checks: the size of the array is taken modulo 2^32, its place modulo 2^64, the rest is as in C89_built. *)
Theorem C89_release : forall lb s ss o, asked_for s ss o ->
  let t := blocks_for ((o_num o * o_size o) mod 2 ^ 32) lb in
  match build false (apply_settings ss (started s)) lb with
  | Ok h => exists h', as_ordered o t h' /\ h = with_start (part_start h' mod 2 ^ 64) h'
  | Err HMissingBackupLba => o_back o < o_front o
  | Err HBackupLbaToEarly => o_front o <= o_back o /\
      (o_back o < t + 1 \/ N.max (o_last o) (o_back o - t - 1) < N.max (o_first o) (t + 2))
  | _ => False
  end.
Proof.
  intros lb s ss o AF t. rewrite (asked_for_is s ss o AF). unfold build.
  cbn [ordered b_primary b_disk_guid b_primary_lba b_backup_lba b_first_usable b_last_usable b_num_parts b_part_size].
  destruct (N.ltb_spec (o_back o) (o_front o)) as [L|L]; [exact L|].
  assert (EM : @mulw hdr_err false 32 (o_num o) (o_size o) = Ok ((o_num o * o_size o) mod 2 ^ 32)).
  { unfold mulw. rewrite <- two32. destruct (N.ltb_spec (o_num o * o_size o) (modulus 32)) as [H|H]; [|reflexivity].
    rewrite N.mod_small by exact H. reflexivity. }
  assert (EA : forall x, @addw hdr_err false 64 x 1 = Ok ((x + 1) mod 2 ^ 64)).
  { intros x. unfold addw. rewrite <- two64. destruct (N.ltb_spec (x + 1) (modulus 64)) as [H|H]; [|reflexivity].
    rewrite N.mod_small by exact H. reflexivity. }
  rewrite EM. cbn [obind].
  assert (ET : div_ceil ((o_num o * o_size o) mod 2 ^ 32) (lb_u64 lb) = t).
  { unfold t, div_ceil, blocks_for. f_equal. destruct lb; cbn; lia. }
  rewrite ET. replace (1 + 1 + t) with (t + 2) by lia. unfold checked_sub64.
  destruct (N.leb_spec (t + 1) (o_back o)) as [L2|L2]; cbn [ok_or obind]; [|split; [exact L|left; exact L2]].
  replace (o_back o - (t + 1)) with (o_back o - t - 1) by lia.
  set (fu := N.max (o_first o) (t + 2)). set (lu := N.max (o_last o) (o_back o - t - 1)).
  destruct (N.ltb_spec lu fu) as [L3|L3]; [split; [exact L|right; exact L3]|].
  destruct (o_primary o) eqn:EP; rewrite EA; cbn [obind].
  - exists (mkHeader EFI_PART 1 0 92 0 0 (o_front o) (o_back o) fu lu (o_guid o) (o_front o + 1) (o_num o) (o_size o) 0).
    split; [|reflexivity]. constructor; cbn; try rewrite EP; auto 10.
  - exists (mkHeader EFI_PART 1 0 92 0 0 (o_back o) (o_front o) fu lu (o_guid o) (lu + 1) (o_num o) (o_size o) 0).
    split; [|reflexivity]. constructor; cbn; try rewrite EP; auto 10.
Qed.
Print Assumptions C89_release.
(** With overflow checks a builder panics exactly if the array takes 2^32 bytes or more, or if there is room for everything but
    the array would start at block 2^64. *)
Theorem C89_panics_iff : forall lb s ss o, asked_for s ss o ->
  let t := blocks_for (o_num o * o_size o) lb in
  (build true (apply_settings ss (started s)) lb = Panic <->
   o_front o <= o_back o /\
   (2 ^ 32 <= o_num o * o_size o \/
    t + 1 <= o_back o /\ N.max (o_first o) (t + 2) <= N.max (o_last o) (o_back o - t - 1) /\
    2 ^ 64 <= (if o_primary o then o_front o else N.max (o_last o) (o_back o - t - 1)) + 1)).
Proof.
  intros lb s ss o AF t. destruct (N.le_gt_cases (2 ^ 32) (o_num o * o_size o)) as [BIG|SMALL].
  - rewrite (C89_too_large lb s ss o AF BIG). destruct (N.ltb_spec (o_back o) (o_front o)) as [L|L].
    + split; [discriminate|]. intros (X & _). lia.
    + split; [auto|reflexivity].
  - rewrite (asked_for_is s ss o AF). rewrite <- two32 in SMALL.
    rewrite build_eq by exact SMALL. cbn [ordered b_primary b_disk_guid b_primary_lba b_backup_lba b_first_usable b_last_usable b_num_parts b_part_size].
    rewrite ablocks_blocks. fold t. rewrite <- two32.
    destruct (N.ltb_spec (o_back o) (o_front o)) as [L|L]; [split; [discriminate|intros (X & _); lia]|].
    destruct (N.ltb_spec (o_back o) (t + 1)) as [L2|L2]; [split; [discriminate|intros (_ & [X|(X & _)]); lia]|]. cbn zeta.
    replace (o_back o - (t + 1)) with (o_back o - t - 1) by lia. rewrite (N.add_comm 2 t).
    set (fu := N.max (o_first o) (t + 2)). set (lu := N.max (o_last o) (o_back o - t - 1)).
    destruct (N.ltb_spec lu fu) as [L3|L3]; [split; [discriminate|intros (_ & [X|(_ & X & _)]); lia]|].
    rewrite <- two64. unfold addw.
    set (x := if o_primary o then o_front o else lu).
    replace (if o_primary o then _ else _) with (if x + 1 <? modulus 64 then @Ok hdr_err N (x + 1) else Panic)
      by (unfold x; destruct (o_primary o); reflexivity).
    destruct (N.ltb_spec (x + 1) (modulus 64)) as [K|K]; cbn [obind].
    + split; [discriminate|]. intros (_ & X). exfalso. destruct X as [X|X]; [lia|]. destruct X as (_ & _ & X). lia.
    + split; [intros _; split; [exact L|right; auto]|reflexivity].
Qed.
Print Assumptions C89_panics_iff.
Example C89_release_case : let ss := [SetNum (2 ^ 25); SetBackup 1000] in let ss' := [SetLast (2 ^ 64 - 1); SetBackup 1000; SetPrimary false] in
  build true (apply_settings ss (started (Scratch sample_guid))) Lb512 = Panic /\
  build true (apply_settings ss' (started (Scratch sample_guid))) Lb512 = Panic /\
  match build false (apply_settings ss (started (Scratch sample_guid))) Lb512,
        build false (apply_settings ss' (started (Scratch sample_guid))) Lb512 with
  | Ok h, Ok h' => first_usable h = 2 /\ last_usable h = 999 /\ num_parts h = 2 ^ 25 /\ part_start h' = 0 /\ last_usable h' = 2 ^ 64 - 1
  | _, _ => False
  end.
Proof. vm_compute. auto 10. Qed.
