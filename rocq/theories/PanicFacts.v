(** PanicFacts.v - when writing can panic, for every fault schedule. *)
From Verif Require Export CreateFacts SpecPanic.
Open Scope list_scope.
Open Scope N_scope.

(** * What every device operation keeps *)
Definition held (d d' : dev) : Prop :=
  growable d' = growable d /\ (growable d = false -> dev_len d' = dev_len d).
Lemma held_refl d : held d d.
Proof. split; auto. Qed.
Lemma held_trans a b c : held a b -> held b c -> held a c.
Proof. intros (A & B) (C & D). split; [congruence|]. intros H. rewrite D by congruence. auto. Qed.
Definition holds {E A} (m : M dev E A) : Prop := forall d, held d (snd (m d)).
Lemma holds_bind {E A B} (m : M dev E A) (k : A -> M dev E B) :
  holds m -> (forall a, holds (k a)) -> holds (bind m k).
Proof.
  intros Hm Hk d. unfold bind. specialize (Hm d). destruct (m d) as [[a|e|] d']; cbn in *; auto.
  eapply held_trans; [exact Hm|apply Hk].
Qed.
Lemma holds_pure {E A} (o : outcome E A) : holds (lift o).
Proof. intros d. apply held_refl. Qed.
Lemma holds_map_err {E F A} (f : E -> F) (m : M dev E A) : holds m -> holds (map_err f m).
Proof. intros H d. specialize (H d). unfold map_err. destruct (m d) as [[a|e|] d']; auto. Qed.
Lemma tick_held d : held d (snd (tick d)).
Proof. unfold tick. destruct (faults d); split; auto. Qed.
Lemma holds_seek n : holds (seek_start n).
Proof.
  intros d. unfold seek_start. pose proof (tick_held d) as H. destruct (tick d) as [[m|] d']; cbn in *; auto.
Qed.
Lemma store_fits p k l d : growable d = false -> l = firstn k (firstn (N.to_nat (dev_len d - pos d)) p) ->
  lenN (store (pos d) l (data d)) = dev_len d.
Proof.
  intros G ->. set (w := firstn k _).
  assert (W : lenN w <= dev_len d - pos d).
  { unfold w, lenN. rewrite !firstn_length. lia. }
  destruct (N.leb_spec (pos d + lenN w) (lenN (data d))) as [L|L].
  - rewrite store_lenN_in by exact L. reflexivity.
  - unfold dev_len in *. assert (lenN w = 0) by lia.
    destruct w; [cbn [store]; reflexivity|unfold lenN in *; cbn in *; lia].
Qed.
Lemma holds_write bs : holds (write_all bs).
Proof.
  intros d. unfold write_all. destruct bs as [|b bs]; [apply held_refl|]. set (w := b :: bs).
  pose proof (tick_held d) as H. destruct (tick d) as [[m|] d']; cbn [snd] in *.
  - destruct (growable d') eqn:G.
    + eapply held_trans; [exact H|]. split; [reflexivity|]. rewrite G. discriminate.
    + eapply held_trans; [exact H|]. split; [reflexivity|]. intros _. unfold dev_len at 1. cbn [data set_data].
      eapply store_fits; eauto.
  - destruct (growable d') eqn:G; cbn [orb].
    + eapply held_trans; [exact H|]. split; [reflexivity|]. rewrite G. discriminate.
    + destruct (N.leb_spec (pos d' + lenN w) (dev_len d')); cbn [snd].
      * eapply held_trans; [exact H|]. split; [reflexivity|]. intros _. unfold dev_len. cbn [data set_data].
        apply store_lenN_in. assumption.
      * eapply held_trans; [exact H|]. split; [reflexivity|]. intros _. unfold dev_len at 1. cbn [data set_data].
        eapply (store_fits w (length w)); [exact G|]. symmetry. apply firstn_all2. rewrite firstn_length. lia.
Qed.
Lemma holds_write_to oc p i s lb ps : holds (write_to_device oc p i s lb ps).
Proof.
  unfold write_to_device. repeat (apply holds_bind; [apply holds_pure|intros]).
  apply holds_bind; [apply holds_seek|intros; apply holds_write].
Qed.
Lemma holds_zero oc i n s lb ps : holds (write_zero_entries oc i n s lb ps).
Proof.
  unfold write_zero_entries. repeat (apply holds_bind; [apply holds_pure|intros]).
  apply holds_bind; [apply holds_seek|intros]. apply holds_bind; [apply holds_pure|intros; apply holds_write].
Qed.

(** * Entries *)
Lemma as_bytes_lenN p n : lenN (as_bytes p n) = n.
Proof.
  unfold as_bytes, resize, lenN. rewrite app_length, zeros_length, firstn_length. lia.
Qed.
(** The sum of start and offset of entry [idx] does not overflow. *)
Definition near (oc : bool) (lb : lbsize) (start ps idx : N) : Prop :=
  oc = false \/ idx = 0 \/ start * lb_u64 lb + idx * ps < modulus 64.
(** Nor can it for any of [n] entries: either the bytes are there, or the writes stop before. *)
Definition clear (oc : bool) (lb : lbsize) (start ps n : N) (d : dev) : Prop :=
  oc = false \/ (growable d = false /\ dev_len d < modulus 64) \/ start * lb_u64 lb + n * ps < modulus 64.
Lemma clear_held oc lb start ps n d d' : held d d' -> clear oc lb start ps n d -> clear oc lb start ps n d'.
Proof.
  intros (G & L) [H|[(A & B)|H]]; [left; exact H| |right; right; exact H].
  right; left. rewrite L, G by exact A. auto.
Qed.
Lemma write_to_calm oc p idx start lb ps d : near oc lb start ps idx ->
  fst (write_to_device oc p idx start lb ps d) <> Panic.
Proof.
  intros H. unfold write_to_device.
  destruct (N.ltb_spec (start * lb_u64 lb) (modulus 64)) as [A|A].
  2: { unfold bind at 1. unfold checked_mul64. destruct (N.ltb_spec (start * lb_u64 lb) (modulus 64)); [lia|]. discriminate. }
  unfold bind at 1. rewrite checked_mul64_ok by exact A. cbn [lift ok_or].
  destruct (N.ltb_spec (idx * ps) (modulus 64)) as [B|B].
  2: { unfold bind at 1. unfold checked_mul64. destruct (N.ltb_spec (idx * ps) (modulus 64)); [lia|]. discriminate. }
  unfold bind at 1. rewrite checked_mul64_ok by exact B. cbn [lift ok_or].
  apply calm_bind; [|intros; apply calm_bind; [apply calm_seek_start|intros; apply calm_write_all]].
  apply calm_lift. unfold addw. destruct (N.ltb_spec (start * lb_u64 lb + idx * ps) (modulus 64)) as [C|C]; [discriminate|].
  destruct H as [->|[->|H]]; [discriminate|lia|lia].
Qed.
Lemma write_to_next oc p idx start lb ps n d a d' : clear oc lb start ps n d -> idx + 1 <= n ->
  near oc lb start ps idx ->
  write_to_device oc p idx start lb ps d = (Ok a, d') -> near oc lb start ps (idx + 1).
Proof.
  intros HC HI HN. destruct HC as [->|[(G & L)|H]]; [left; reflexivity| |].
  2: { intros _. right; right. nia. }
  destruct oc; [|intros _; left; reflexivity]. intros E. right; right.
  unfold write_to_device in E.
  unfold bind at 1 in E. unfold checked_mul64 in E at 1.
  destruct (N.ltb_spec (start * lb_u64 lb) (modulus 64)) as [A|A]; cbn [lift ok_or] in E; [|discriminate].
  unfold bind at 1 in E. unfold checked_mul64 in E at 1.
  destruct (N.ltb_spec (idx * ps) (modulus 64)) as [B|B]; cbn [lift ok_or] in E; [|discriminate].
  assert (C : start * lb_u64 lb + idx * ps < modulus 64) by (destruct HN as [X|[->|X]]; [discriminate|lia|exact X]).
  unfold bind at 1 in E. rewrite addw_ok in E by exact C. cbn [lift] in E.
  set (at_ := start * lb_u64 lb + idx * ps) in *.
  assert (P : forall d, growable d = false -> forall x d', seek_start at_ d = (Ok x, d') ->
             pos d' = at_ /\ growable d' = false /\ dev_len d' = dev_len d).
  { intros d0 G0 x d0' E0. unfold seek_start in E0. pose proof (tick_held d0) as (T1 & T2).
    destruct (tick d0) as [[m|] d1]; [discriminate|]. cbn [snd] in *.
    injection E0 as E0 E1. subst x d0'. split; [reflexivity|]. split; [cbn; congruence|]. apply T2. exact G0. }
  unfold bind at 1 in E. destruct (seek_start at_ d) as [[x|e|] d1] eqn:ES; try discriminate.
  destruct (P d G x d1 ES) as (P1 & P2 & P3).
  unfold write_all in E. destruct (as_bytes p ps) as [|b w] eqn:EB.
  - assert (ps = 0) by (rewrite <- (as_bytes_lenN p ps), EB; reflexivity). subst ps. unfold at_ in *. lia.
  - rewrite <- EB in E.
    pose proof (tick_held d1) as (T1 & T2).
    assert (T3 : pos (snd (tick d1)) = pos d1) by (unfold tick; destruct (faults d1); reflexivity).
    destruct (tick d1) as [[m|] d2]; [discriminate|]. cbn [snd] in *.
    rewrite T1, P2 in E. cbn [orb] in E.
    destruct (N.leb_spec (pos d2 + lenN (as_bytes p ps)) (dev_len d2)) as [X|X]; [|discriminate].
    rewrite as_bytes_lenN, T3, P1, T2, P3 in X by exact P2. unfold at_ in X. nia.
Qed.
Lemma write_entries_calm oc lb ph bh :
  (forall b, bh = Some b -> num_parts b = num_parts ph /\ part_size b = part_size ph) ->
  forall l idx d, idx <= num_parts ph ->
  clear oc lb (part_start ph) (part_size ph) (num_parts ph) d ->
  (forall b, bh = Some b -> clear oc lb (part_start b) (part_size ph) (num_parts ph) d) ->
  near oc lb (part_start ph) (part_size ph) idx ->
  (forall b, bh = Some b -> near oc lb (part_start b) (part_size ph) idx) ->
  match write_entries oc lb ph bh l idx d with
  | (Ok next, d') => next <= num_parts ph /\ near oc lb (part_start ph) (part_size ph) next /\
      forall b, bh = Some b -> near oc lb (part_start b) (part_size ph) next
  | (Err _, _) => True
  | (Panic, _) => False
  end.
Proof.
  intros HB. induction l as [|[k p] l IH]; intros idx d HI C1 C2 N1 N2; cbn [write_entries ret]; [auto|].
  destruct (N.leb_spec (num_parts ph) idx) as [X|X]; [exact I|].
  unfold bind at 1, map_err at 1.
  pose proof (write_to_calm oc p idx (part_start ph) lb (part_size ph) d N1) as Q1.
  pose proof (holds_write_to oc p idx (part_start ph) lb (part_size ph) d) as HH.
  pose proof (write_to_next oc p idx (part_start ph) lb (part_size ph) (num_parts ph) d) as Q2.
  destruct (write_to_device oc p idx (part_start ph) lb (part_size ph) d) as [[[]|e|] d1]; cbn [fst snd] in *; [|exact I|auto].
  specialize (Q2 tt d1 C1 ltac:(lia) N1 eq_refl).
  destruct bh as [b|].
  2: { cbn [ret]. unfold bind at 1. apply IH; auto; [lia|eapply clear_held; eauto|discriminate|discriminate]. }
  destruct (HB b eq_refl) as (HB1 & HB2). rewrite HB1, HB2.
  destruct (N.leb_spec (num_parts ph) idx) as [Y|Y]; [lia|].
  destruct (N.eqb_spec (part_start ph) (part_start b)) as [Z|Z].
  - unfold bind at 1. cbn [ret]. apply IH; auto; [lia|eapply clear_held; eauto| |].
    + intros b' Eb. eapply clear_held; eauto.
    + intros b' Eb. injection Eb as <-. rewrite <- Z. exact Q2.
  - unfold bind at 1, map_err at 1.
    assert (C3 := clear_held _ _ _ _ _ _ _ HH (C2 b eq_refl)).
    pose proof (write_to_calm oc p idx (part_start b) lb (part_size ph) d1 (N2 b eq_refl)) as R1.
    pose proof (holds_write_to oc p idx (part_start b) lb (part_size ph) d1) as HH2.
    pose proof (write_to_next oc p idx (part_start b) lb (part_size ph) (num_parts ph) d1) as R2.
    destruct (write_to_device oc p idx (part_start b) lb (part_size ph) d1) as [[[]|e|] d2]; cbn [fst snd] in *; [|exact I|auto].
    specialize (R2 tt d2 C3 ltac:(lia) (N2 b eq_refl) eq_refl).
    apply IH; auto; [lia|eapply clear_held; [exact HH2|eapply clear_held; eauto]| |].
    + intros b' Eb. injection Eb as <-. eapply clear_held; eauto.
    + intros b' Eb. injection Eb as <-. exact R2.
Qed.
Lemma zero_calm oc i n start lb ps : near oc lb start ps i -> calm (write_zero_entries oc i n start lb ps).
Proof.
  intros H d. unfold write_zero_entries.
  destruct (N.ltb_spec (start * lb_u64 lb) (modulus 64)) as [A|A].
  2: { unfold bind at 1. unfold checked_mul64. destruct (N.ltb_spec (start * lb_u64 lb) (modulus 64)); [lia|]. discriminate. }
  unfold bind at 1. rewrite checked_mul64_ok by exact A. cbn [lift ok_or].
  destruct (N.ltb_spec (i * ps) (modulus 64)) as [B|B].
  2: { unfold bind at 1. unfold checked_mul64. destruct (N.ltb_spec (i * ps) (modulus 64)); [lia|]. discriminate. }
  unfold bind at 1. rewrite checked_mul64_ok by exact B. cbn [lift ok_or].
  apply calm_bind; [|intros; apply calm_bind; [apply calm_seek_start|intros; apply calm_bind; [apply calm_ok_or|intros; apply calm_write_all]]].
  apply calm_lift. unfold addw. destruct (N.ltb_spec (start * lb_u64 lb + i * ps) (modulus 64)) as [C|C]; [discriminate|].
  destruct H as [->|[->|H]]; [discriminate|lia|lia].
Qed.
Lemma write_tables_calm oc lb ph bh m d :
  (forall b, bh = Some b -> num_parts b = num_parts ph /\ part_size b = part_size ph) ->
  clear oc lb (part_start ph) (part_size ph) (num_parts ph) d ->
  (forall b, bh = Some b -> clear oc lb (part_start b) (part_size ph) (num_parts ph) d) ->
  fst (write_tables oc lb ph bh m d) <> Panic.
Proof.
  intros HB C1 C2. unfold write_tables, bind at 1.
  pose proof (write_entries_calm oc lb ph bh HB (used_parts m) 0 d (N.le_0_l _) C1 C2
                (or_intror (or_introl eq_refl)) (fun b _ => or_intror (or_introl eq_refl))) as H.
  destruct (write_entries oc lb ph bh (used_parts m) 0 d) as [[next|e|] d1]; [|discriminate|contradiction].
  destruct H as (H1 & H2 & H3). unfold sub_unwrap, checked_sub64.
  apply calm_bind.
  { apply calm_lift. destruct (N.leb_spec next (num_parts ph)); [discriminate|lia]. }
  intros n. apply calm_bind; [apply calm_map_err, zero_calm; exact H2|intros _].
  destruct bh as [b|]; [|apply calm_ret]. destruct (HB b eq_refl) as (HB1 & HB2).
  apply calm_bind.
  { apply calm_lift. rewrite HB1. destruct (N.leb_spec next (num_parts ph)); [discriminate|lia]. }
  intros n'. apply calm_map_err, zero_calm. rewrite HB2. auto.
Qed.

(** * Headers *)
Lemma calm_partentry_checksum h lb : calm (partentry_checksum h lb).
Proof. unfold partentry_checksum. auto 20 with calm. Qed.
Lemma file_write_header_calm h lba lb d : length (signature h) = 8%nat -> wf_uuid (disk_guid h) ->
  fst (file_write_header h lba lb d) <> Panic.
Proof.
  intros Hs Hg. unfold file_write_header. pose proof (calm_partentry_checksum h lb d) as Q.
  destruct (partentry_checksum h lb d) as [[pc|e|] d1]; cbn [fst] in *; [|discriminate|auto].
  rewrite hdr_to_bytes_eq by auto.
  set (h1 := set_crc32_parts h pc).
  assert (EI : forall c, hdr_image h1 pc c = hdr_image h pc c) by reflexivity.
  rewrite EI. cbn [arr]. change (crc32 (hdr_image h pc 0)) with (hdr_crc h pc).
  rewrite seek_patch by auto. set (bs := firstn _ _).
  assert (K : calm (let* start := lift (ok_or (checked_mul64 lba (lb_u64 lb)) (HOverflow "writing header: lba * lbs")) in
          map_err HIo (seek_start start) ;; map_err HIo (write_all bs) ;; ret (lenN bs))) by auto 20 with calm.
  specialize (K d1). destruct ((let* start := _ in _) d1) as [r d2]. exact K.
Qed.
Lemma write_primary_of_calm h : length (signature h) = 8%nat -> wf_uuid (disk_guid h) -> calm (write_primary_of h).
Proof.
  intros Hs Hg g. unfold write_primary_of, write_primary. destruct (_ <=? _); [discriminate|].
  pose proof (file_write_header_calm h (current_lba h) (c_lb (g_config g)) (g_device g) Hs Hg) as K.
  destruct (file_write_header h _ _ _) as [[n|e|] [h' d]]; cbn in *; congruence.
Qed.
Lemma write_backup_of_calm h : length (signature h) = 8%nat -> wf_uuid (disk_guid h) -> calm (write_backup_of h).
Proof.
  intros Hs Hg g. unfold write_backup_of, write_backup. destruct (_ <=? _); [discriminate|].
  pose proof (file_write_header_calm h (current_lba h) (c_lb (g_config g)) (g_device g) Hs Hg) as K.
  destruct (file_write_header h _ _ _) as [[n|e|] [h' d]]; cbn in *; congruence.
Qed.
Lemma calm_on_device {E A} (m : M dev E A) : calm m -> calm (on_device m).
Proof. intros H g. unfold on_device. specialize (H (g_device g)). destruct (m (g_device g)) as [r d]. exact H. Qed.

(** What building needs in order not to overflow. *)
Lemma build_calm oc b lb :
  (oc = false \/ (b_num_parts b * b_part_size b < modulus 32 /\
                  b_primary_lba b + 1 < modulus 64 /\ (b_primary b = false -> b_last_usable b + 1 < modulus 64 /\ b_backup_lba b < modulus 64))) ->
  build oc b lb <> Panic.
Proof.
  intros H. unfold build. destruct (_ <? _); [discriminate|].
  unfold obind at 1, mulw.
  destruct (N.ltb_spec (b_num_parts b * b_part_size b) (modulus 32)) as [A|A].
  2: { destruct H as [->|(H & _)]; [|lia]. cbn [obind].
       unfold obind at 1. destruct (checked_sub64 _ _); cbn [ok_or]; [|discriminate].
       destruct (_ <? _); [discriminate|]. destruct (b_primary b); unfold addw; destruct (_ <? _); discriminate. }
  unfold obind at 1. unfold checked_sub64. destruct (N.leb_spec (div_ceil (b_num_parts b * b_part_size b) (lb_u64 lb) + 1) (b_backup_lba b)) as [B|B];
    cbn [ok_or]; [|discriminate].
  destruct (_ <? _); [discriminate|].
  destruct H as [->|(_ & H1 & H2)].
  { destruct (b_primary b); unfold addw; destruct (_ <? _); discriminate. }
  destruct (b_primary b).
  - rewrite addw_ok by lia. discriminate.
  - destruct (H2 eq_refl) as (H3 & H4). rewrite addw_ok by lia. discriminate.
Qed.
Lemma build_inv oc b lb h : build oc b lb = Ok h ->
  disk_guid h = b_disk_guid b /\ num_parts h = b_num_parts b /\ part_size h = b_part_size b /\
  signature h = EFI_PART /\ last_usable h <= N.max (b_last_usable b) (b_backup_lba b) /\
  b_last_usable b <= last_usable h /\ (last_usable h <> b_last_usable b -> last_usable h < b_backup_lba b) /\
  current_lba h = (if b_primary b then b_primary_lba b else b_backup_lba b) /\
  backup_lba h = (if b_primary b then b_backup_lba b else b_primary_lba b) /\
  b_primary_lba b <= b_backup_lba b /\
  @addw hdr_err oc 64 (if b_primary b then b_primary_lba b else last_usable h) 1 = Ok (part_start h).
Proof.
  unfold build. destruct (N.ltb_spec (b_backup_lba b) (b_primary_lba b)) as [Z|Z]; [discriminate|].
  destruct (mulw oc 32 (b_num_parts b) (b_part_size b)) as [sz|e|]; cbn [obind]; try discriminate.
  unfold checked_sub64. destruct (N.leb_spec (div_ceil sz (lb_u64 lb) + 1) (b_backup_lba b)) as [B|B];
    cbn [ok_or obind]; [|discriminate].
  destruct (_ <? _); [discriminate|].
  destruct (if b_primary b then _ else _) as [s|e|] eqn:ES; cbn [obind]; try discriminate.
  intros E. injection E as <-. cbn. repeat split; try lia. destruct (b_primary b); exact ES.
Qed.
Lemma build_last oc b lb h : build oc b lb = Ok h -> b_num_parts b * b_part_size b < modulus 32 ->
  last_usable h = N.max (b_last_usable b) (b_backup_lba b - (div_ceil (b_num_parts b * b_part_size b) (lb_u64 lb) + 1)).
Proof.
  unfold build. destruct (_ <? _); [discriminate|]. intros E H. rewrite mulw_ok in E by exact H. cbn [obind] in E.
  unfold checked_sub64 in E. destruct (_ <=? _); cbn [ok_or obind] in E; [|discriminate].
  destruct (_ <? _); [discriminate|].
  destruct (if b_primary b then _ else _) as [s|e|]; cbn [obind] in E; try discriminate.
  injection E as <-. reflexivity.
Qed.

(** * Writing *)
Lemma from_header_lbas h : b_primary_lba (builder_from_header h) = primary_at h /\
  b_backup_lba (builder_from_header h) = backup_at h.
Proof.
  unfold builder_from_header, primary_at, backup_at.
  destruct (N.ltb_spec (current_lba h) (backup_lba h)); cbn; lia.
Qed.
(** The numbers write_inplace computes from header [h] stay below 2^64. *)
Definition no_overflow (lb : lbsize) (ro : bool) (h : header) (d : dev) : Prop :=
  num_parts h * part_size h < modulus 32 /\ primary_at h + 1 < modulus 64 /\
  (ro = false -> last_usable h + 1 < modulus 64 /\ backup_at h < modulus 64) /\
  ((growable d = false /\ dev_len d < modulus 64) \/
   ((primary_at h + 1) * lb_u64 lb + num_parts h * part_size h < modulus 64 /\
    (N.max (last_usable h) (backup_at h - (div_ceil (num_parts h * part_size h) (lb_u64 lb) + 1)) + 1) * lb_u64 lb
      + num_parts h * part_size h < modulus 64)).
Lemma write_inplace_calm oc g h : try_header g = Ok h -> wf_uuid (disk_guid h) ->
  (oc = false \/ no_overflow (c_lb (g_config g)) (c_readonly_backup (g_config g)) h (g_device g)) ->
  fst (write_inplace oc g) <> Panic.
Proof.
  intros HT HG HC. unfold write_inplace. destruct (c_writable (g_config g)); cbn [negb]; [|discriminate].
  set (lb := c_lb (g_config g)) in *.
  unfold bind at 1, on_device at 1.
  assert (CF : calm (map_err GHeader (find_backup_lba lb))) by auto with calm.
  specialize (CF (g_device g)).
  assert (HF : held (g_device g) (snd (map_err GHeader (find_backup_lba lb) (g_device g)))).
  { assert (K : holds (@map_err dev hdr_err gpt_err N GHeader (find_backup_lba lb))).
    2: apply K. apply holds_map_err. unfold find_backup_lba.
    apply holds_bind; [apply holds_map_err|intros].
    { intros d. unfold stream_position. pose proof (tick_held d). destruct (tick d) as [[]]; auto. }
    apply holds_bind; [apply holds_map_err|intros].
    { intros d. unfold seek_end. pose proof (tick_held d) as X. destruct (tick d) as [[]]; auto. }
    apply holds_bind; [apply holds_map_err, holds_seek|intros]. destruct (_ <? _); apply held_refl || (intros d; apply held_refl). }
  destruct (map_err GHeader (find_backup_lba lb) (g_device g)) as [[bk|e|] d1]; cbn [fst snd] in *; [|discriminate|auto].
  set (g1 := set_device d1 g).
  assert (HT1 : @the_header gpt_err g1 = Ok h).
  { unfold the_header. change (try_header g1) with (try_header g). rewrite HT. reflexivity. }
  rewrite HT1. unfold bind at 1. cbn [lift].
  pose proof (from_header_lbas h) as (FP & FB).
  set (b1 := bset_primary true (builder_from_header h)).
  assert (K1 : build oc b1 lb <> Panic).
  { apply build_calm. destruct HC as [HC|(H1 & H2 & H3 & H4)]; [left; exact HC|right].
    unfold b1. cbn [bset_primary b_num_parts b_part_size b_primary_lba b_primary]. rewrite FP.
    cbn. split; [exact H1|]. split; [exact H2|]. discriminate. }
  unfold bind at 1. destruct (build oc b1 lb) as [ph|e|] eqn:B1; cbn [omap_err lift]; [|discriminate|congruence].
  pose proof (build_inv oc b1 lb ph B1) as (P1 & P2 & P3 & P4 & P5 & P6 & P6' & P7 & P8 & P9 & P10).
  unfold b1 in P1, P2, P3, P5, P6, P6', P7, P8, P9, P10.
  cbn [bset_primary b_disk_guid b_num_parts b_part_size b_last_usable b_backup_lba b_primary_lba b_primary] in P1, P2, P3, P5, P6, P6', P7, P8, P9, P10.
  rewrite ?FP, ?FB in *. cbn [builder_from_header b_disk_guid b_num_parts b_part_size b_last_usable] in P1, P2, P3, P5, P6, P6'.
  assert (SG : length (signature ph) = 8%nat) by (rewrite P4; reflexivity).
  assert (GU : wf_uuid (disk_guid ph)) by (rewrite P1; exact HG).
  unfold bind at 1.
  set (g2 := set_primary (Ok ph) g1).
  assert (CLP : clear oc lb (part_start ph) (part_size ph) (num_parts ph) d1).
  { apply (clear_held _ _ _ _ _ _ _ HF). destruct HC as [->|(H1 & H2 & H3 & [H4|(H4 & H5)])]; [left; reflexivity|right; left; exact H4|right; right].
    rewrite addw_ok in P10 by exact H2. injection P10 as P10. rewrite <- P10, P2, P3. exact H4. }
  set (tail := fun bh : option header => _).
  enough (K : forall bh g3, g_device g3 = d1 ->
     (forall b, bh = Some b -> length (signature b) = 8%nat /\ wf_uuid (disk_guid b) /\
        num_parts b = num_parts ph /\ part_size b = part_size ph /\
        clear oc lb (part_start b) (part_size ph) (num_parts ph) d1) -> fst (tail bh g3) <> Panic).
  { change (c_readonly_backup (g_config g1)) with (c_readonly_backup (g_config g)).
    destruct (c_readonly_backup (g_config g)) eqn:RO.
    { unfold bind at 1. cbn [ret]. apply K; [reflexivity|discriminate]. }
    set (b2 := bset_primary false (builder_from_header ph)).
    pose proof (from_header_lbas ph) as (FP2 & FB2).
    assert (PA : primary_at ph = primary_at h /\ backup_at ph = backup_at h).
    { unfold primary_at at 1, backup_at at 1. rewrite P7, P8. lia. }
    destruct PA as (PA & BA). rewrite PA in FP2. rewrite BA in FB2.
    assert (K2 : build oc b2 lb <> Panic).
    { apply build_calm. destruct HC as [HC|(H1 & H2 & H3 & H4)]; [left; exact HC|right].
      unfold b2. cbn [bset_primary b_num_parts b_part_size b_primary_lba b_primary b_last_usable b_backup_lba]. rewrite FP2, FB2.
      cbn [builder_from_header b_num_parts b_part_size b_last_usable]. rewrite P2, P3.
      destruct (H3 eq_refl) as (H5 & H6).
      split; [exact H1|]. split; [exact H2|]. intros _. split; [lia|exact H6]. }
    unfold bind at 1. unfold bind at 1.
    destruct (build oc b2 lb) as [bh|e|] eqn:B2; cbn [omap_err lift]; [|discriminate|congruence].
    pose proof (build_inv oc b2 lb bh B2) as (Q1 & Q2 & Q3 & Q4 & Q5 & Q6 & Q6' & Q7 & Q8 & Q9 & Q10).
    unfold b2 in Q1, Q2, Q3, Q5, Q6, Q6', Q10.
    cbn [bset_primary b_disk_guid b_num_parts b_part_size b_last_usable b_backup_lba b_primary_lba b_primary builder_from_header] in Q1, Q2, Q3, Q6, Q10.
    cbn [bset_primary b_last_usable b_backup_lba] in Q5, Q6'. rewrite FB2 in Q5, Q6'.
    cbn [builder_from_header b_last_usable] in Q5, Q6'.
    apply K; [reflexivity|]. intros b Eb. injection Eb as <-.
    split; [rewrite Q4; reflexivity|]. split; [rewrite Q1, P1; exact HG|]. split; [exact Q2|]. split; [exact Q3|].
    apply (clear_held _ _ _ _ _ _ _ HF). destruct HC as [->|(H1 & H2 & H3 & H4)]; [left; reflexivity|].
    destruct (H3 eq_refl) as (H5 & H6).
    destruct H4 as [H4|(H4 & H7)]; [right; left; exact H4|right; right].
    pose proof (build_last oc b1 lb ph B1 H1) as L1.
    assert (L2 : b_num_parts b2 * b_part_size b2 < modulus 32) by (unfold b2; cbn [bset_primary b_num_parts b_part_size builder_from_header]; rewrite P2, P3; exact H1).
    apply (build_last oc b2 lb bh B2) in L2. unfold b1 in L1. unfold b2 in L2.
    cbn [bset_primary b_num_parts b_part_size b_last_usable b_backup_lba] in L1, L2. rewrite FB2 in L2. rewrite FB in L1.
    cbn [builder_from_header b_num_parts b_part_size b_last_usable] in L1, L2. rewrite P2, P3 in L2.
    set (x := backup_at h - _) in *. assert (LE : last_usable bh = N.max (last_usable h) x) by lia. clearbody x.
    rewrite addw_ok in Q10 by lia. injection Q10 as Q10. rewrite <- Q10, LE, P2, P3. exact H7. }
  intros bh g3 E3 HB. unfold tail.
  unfold bind at 1, on_device at 1. rewrite E3.
  pose proof (write_tables_calm oc lb ph bh (g_partitions g1) d1) as WT.
  destruct (write_tables oc lb ph bh (g_partitions g1) d1) as [[[]|e|] d2]; cbn [fst] in WT; [|discriminate|].
  2: { exfalso. apply WT; auto; intros b Eb; destruct (HB b Eb) as (_ & _ & X & Y & Z); auto. }
  apply calm_bind.
  { destruct bh as [b|]; [|apply calm_ret]. destruct (HB b eq_refl) as (X & Y & _). apply write_backup_of_calm; auto. }
  intros _. apply calm_bind; [apply write_primary_of_calm; auto|intros _].
  apply calm_bind; [apply calm_on_device; auto with calm|intros _].
  destruct (g_sync g1); [apply calm_on_device; auto with calm|apply calm_ret].
Qed.

(** * Histories, without overflow checks *)
(** A disk with a header and with GUIDs of 16 bytes (which the types of the crate guarantee). *)
Record sound (g : gdisk) : Prop := mkSound {
  so_header : exists h, try_header g = Ok h;
  so_primary : forall h, g_primary g = Ok h -> wf_uuid (disk_guid h);
  so_backup : forall h, g_backup g = Ok h -> wf_uuid (disk_guid h);
  so_guid : wf_uuid (g_guid g)
}.
Definition safe {E A} (Q : A -> Prop) (m : M gdisk E A) : Prop := forall g, sound g ->
  match m g with
  | (Ok a, g') => sound g' /\ Q a
  | (Err _, g') => sound g'
  | (Panic, _) => False
  end.
Lemma safe_bind {E A B} (P : A -> Prop) (Q : B -> Prop) (m : M gdisk E A) (k : A -> M gdisk E B) :
  safe P m -> (forall a, P a -> safe Q (k a)) -> safe Q (bind m k).
Proof.
  intros Hm Hk g S. unfold bind. specialize (Hm g S). destruct (m g) as [[a|e|] g']; auto.
  destruct Hm as (S' & Pa). exact (Hk a Pa g' S').
Qed.
Lemma safe_ret {E A} (Q : A -> Prop) a : Q a -> safe Q (@ret gdisk E A a).
Proof. intros H g S. cbn. auto. Qed.
Lemma safe_throw {E A} (Q : A -> Prop) e : safe Q (@throw gdisk E A e).
Proof. intros g S. cbn. auto. Qed.
Lemma safe_lift {E A} (Q : A -> Prop) (o : outcome E A) : o <> Panic -> (forall a, o = Ok a -> Q a) -> safe Q (@lift gdisk E A o).
Proof. intros H1 H2 g S. unfold lift. destruct o; auto. Qed.
Lemma safe_query {E A} (Q : A -> Prop) (f : gdisk -> outcome E A) :
  (forall g, sound g -> f g <> Panic /\ forall a, f g = Ok a -> Q a) -> safe Q (fun g => (f g, g)).
Proof. intros H g S. destruct (H g S) as (H1 & H2). destruct (f g); auto. Qed.
Lemma sound_device d g : sound g -> sound (set_device d g).
Proof. intros [A B C D]. constructor; auto. Qed.
Lemma sound_partitions m g : sound g -> sound (set_partitions m g).
Proof. intros [A B C D]. constructor; auto. Qed.
Lemma sound_primary h g : wf_uuid (disk_guid h) -> sound g -> sound (set_primary (Ok h) g).
Proof.
  intros W [A B C D]. constructor; auto.
  - exists h. reflexivity.
  - cbn. intros h' E. injection E as <-. exact W.
Qed.
Lemma sound_backup h g : wf_uuid (disk_guid h) -> sound g -> sound (set_backup (Ok h) g).
Proof.
  intros W [A B C D]. constructor; auto.
  - unfold try_header in *. cbn [g_primary g_backup set_backup] in *. destruct (g_primary g); cbn; eauto.
  - cbn. intros h' E. injection E as <-. exact W.
Qed.
Lemma sound_the_header {E} g : sound g -> exists h, @the_header E g = Ok h /\ wf_uuid (disk_guid h).
Proof.
  intros [(h & A) B C D]. exists h. unfold the_header. rewrite A. split; [reflexivity|].
  unfold try_header, or_else in A. destruct (g_primary g) as [x| |] eqn:EP.
  - cbn in A. injection A as <-. apply B. reflexivity.
  - destruct (g_backup g); cbn in A; try discriminate. injection A as <-. apply C. reflexivity.
  - destruct (g_backup g); cbn in A; try discriminate. injection A as <-. apply C. reflexivity.
Qed.
Lemma safe_on_device {E A} (Q : A -> Prop) (m : M dev E A) : calm m -> (forall a, Q a) -> safe Q (on_device m).
Proof.
  intros H HQ g S. unfold on_device. specialize (H (g_device g)). destruct (m (g_device g)) as [[a|e|] d]; cbn in *; auto using sound_device.
Qed.
Definition anything {A} (a : A) : Prop := True.
Lemma release_add {E} w a b : @addw E false w a b <> Panic.
Proof. unfold addw. destruct (_ <? _); discriminate. Qed.
Lemma release_sub {E} w a b : @subw E false w a b <> Panic.
Proof. unfold subw. destruct (_ <=? _); discriminate. Qed.
Lemma safe_check id : safe (@anything bool) (check_count id).
Proof.
  apply safe_query. intros g S. destruct (@sound_the_header gpt_err g S) as (h & -> & _). cbn [obind].
  destruct (_ && _); split; try discriminate; intros; exact I.
Qed.
Lemma safe_init : safe (@anything unit) (init_headers false).
Proof.
  intros g S. unfold init_headers.
  refine (safe_bind (@anything N) (@anything unit) _ _ _ _ g S).
  { apply safe_on_device; [auto with calm|intros; exact I]. }
  intros bak _ g1 S1. cbn zeta.
  set (b := bset_primary true _). set (lb := c_lb (g_config g)).
  assert (K : build false b lb <> Panic) by (apply build_calm; auto).
  destruct (build false b lb) as [h1|e|] eqn:B1; [|exact S1|congruence].
  apply build_inv in B1. destruct B1 as (G1 & _). unfold b in G1. cbn [bset_primary bset_disk_guid b_disk_guid] in G1.
  assert (W1 : wf_uuid (disk_guid h1)) by (rewrite G1; apply so_guid, S1).
  assert (S2 := sound_primary h1 g1 W1 S1).
  destruct (c_readonly_backup _); [split; [exact S2|exact I]|].
  set (b' := bset_primary false _).
  assert (K' : build false b' lb <> Panic) by (apply build_calm; auto).
  destruct (build false b' lb) as [h2|e|] eqn:B2; [|exact S2|congruence].
  apply build_inv in B2. destruct B2 as (G2 & _).
  split; [apply sound_backup; [rewrite G2; exact W1|exact S2]|exact I].
Qed.
Lemma safe_insert id p c : safe (@anything N) (insert_partition false id p c).
Proof.
  unfold insert_partition. apply safe_bind with (@anything unit).
  { intros g S. split; [apply sound_partitions, S|exact I]. }
  intros _ _. apply safe_bind with (@anything unit).
  { destruct c; [apply safe_init|apply safe_ret; exact I]. }
  intros _ _. apply safe_ret. exact I.
Qed.
Lemma obind_calm {E A B} (o : outcome E A) (k : A -> outcome E B) :
  o <> Panic -> (forall a, k a <> Panic) -> obind o k <> Panic.
Proof. intros H K. destruct o; cbn [obind]; [apply K|discriminate|congruence]. Qed.
Lemma free_chunks_release {E} l : @free_chunks E false l <> Panic.
Proof.
  enough (forall n l, (length l <= n)%nat -> @free_chunks E false l <> Panic) by eauto.
  clear l. induction n as [|n IH]; intros l L.
  { destruct l; [discriminate|cbn in L; lia]. }
  destruct l as [|a [|b r]]; [discriminate|discriminate|]. cbn [free_chunks].
  assert (K : @free_chunks E false r <> Panic) by (apply IH; cbn in L; lia).
  apply obind_calm; [apply release_add|intros start]. apply obind_calm; [apply release_sub|intros stop].
  destruct (start <=? stop); [|exact K].
  apply obind_calm; [apply release_sub|intros d]. apply obind_calm; [apply release_add|intros len].
  apply obind_calm; [exact K|discriminate].
Qed.
Lemma find_free_release {E} g : sound g -> @find_free_sectors E false g <> Panic.
Proof.
  intros S. unfold find_free_sectors. destruct (@sound_the_header E g S) as (h & -> & _). cbn [obind].
  apply obind_calm; [apply release_sub|intros before]. apply obind_calm; [apply release_add|intros after].
  apply free_chunks_release.
Qed.
Lemma safe_add_in_sections nm n ty fl al rnd : al <> Some 0 -> forall secs,
  safe (@anything N) (add_in_sections false nm n ty fl al rnd secs).
Proof.
  intros HA. induction secs as [|[s len] secs IH]; cbn [add_in_sections]; [apply safe_throw|].
  assert (RW : forall x a, al = Some a -> @remw gpt_err x a <> Panic).
  { intros x a ->. unfold remw. destruct (N.eqb_spec a 0); [congruence|discriminate]. }
  apply safe_bind with (@anything N).
  { apply safe_lift; [|intros; exact I]. destruct al as [a|]; [|discriminate].
    pose proof (RW s a eq_refl) as X. destruct (@remw gpt_err s a) as [r|e|]; cbn [obind]; try congruence.
    pose proof (@release_sub gpt_err 64 a r) as Y. destruct (@subw gpt_err false 64 a r); cbn [obind]; try congruence. apply RW. reflexivity. }
  intros off _. apply safe_bind with (@anything N); [apply safe_lift; [apply release_add|intros; exact I]|intros need _].
  destruct (need <=? len); [|exact IH].
  apply safe_bind with (@anything N); [apply safe_lift; [apply release_add|intros; exact I]|intros start _].
  apply safe_bind with (@anything (option N)).
  { apply safe_query. intros g S. split; [|intros; exact I]. unfold find_next_partition_id.
    destruct (g_partitions g); [discriminate|]. destruct (@sound_the_header gpt_err g S) as (h & -> & _). discriminate. }
  intros next _. apply safe_bind with (@anything N).
  { destruct next; [apply safe_ret; exact I|]. apply safe_query. intros g S. split; [|intros; exact I].
    destruct (@sound_the_header gpt_err g S) as (h & -> & _). cbn [obind]. apply release_add. }
  intros id _. apply safe_bind with (@anything N); [apply safe_lift; [apply release_add|intros; exact I]|intros e _].
  apply safe_bind with (@anything N); [apply safe_lift; [apply release_sub|intros; exact I]|intros last _].
  apply safe_bind with (@anything bool); [apply safe_check|intros c _]. apply safe_insert.
Qed.
Lemma safe_add nm size ty fl al rnd : size <> 0 -> al <> Some 0 ->
  safe (@anything N) (add_partition false nm size ty fl al rnd).
Proof.
  intros HS HA g S. unfold add_partition. destruct (N.eqb_spec size 0); [congruence|].
  refine (safe_bind (@anything _) _ _ _ _ _ g S).
  - apply safe_query. intros g' S'. split; [apply find_free_release, S'|intros; exact I].
  - intros secs _. apply safe_add_in_sections, HA.
Qed.
Lemma safe_add_at nm id first n ty fl rnd : n <> 0 -> id <> 0 ->
  safe (@anything N) (add_partition_at false nm id first n ty fl rnd).
Proof.
  intros HS HA g S. unfold add_partition_at. destruct (N.eqb_spec n 0); [congruence|].
  destruct (N.eqb_spec id 0); [congruence|]. destruct (match pm_get _ _ with Some _ => _ | None => _ end); [exact S|].
  refine (safe_bind (@anything _) _ _ _ _ _ g S).
  - apply safe_query. intros g' S'. split; [apply find_free_release, S'|intros; exact I].
  - intros secs _. induction secs as [|[s len] secs IH]; cbn [add_at_in_sections]; [apply safe_throw|].
    destruct (negb _); [exact IH|].
    apply safe_bind with (@anything N); [apply safe_lift; [apply release_add|intros; exact I]|intros e _].
    apply safe_bind with (@anything N); [apply safe_lift; [apply release_sub|intros; exact I]|intros last _].
    apply safe_bind with (@anything bool); [apply safe_check|intros c _]. apply safe_insert.
Qed.
Lemma safe_update pp : pm_get 0 pp = None -> safe (@anything unit) (update_partitions false pp).
Proof.
  intros H0. unfold update_partitions. rewrite H0. apply safe_bind with (@anything unit); [apply safe_ret; exact I|intros _ _].
  apply safe_bind with (@anything bool); [apply safe_check|intros _ _].
  apply safe_bind with (@anything unit); [|intros _ _; apply safe_init].
  intros g S. split; [apply sound_partitions, S|exact I].
Qed.
(** Writing keeps the disk sound in every build. *)
Lemma sound_write oc g : sound g -> sound (snd (write_inplace oc g)).
Proof.
  intros S. unfold write_inplace. destruct (negb _); [exact S|].
  set (R := fun g g' : gdisk => sound g -> sound g').
  assert (RT : forall a b c, R a b -> R b c -> R a c) by (unfold R; auto).
  assert (RD : forall E A (m : M dev E A), always R (on_device m)).
  { intros E A m g0 S0. unfold on_device. destruct (m (g_device g0)). apply sound_device, S0. }
  revert S. change (R g (snd ((on_device (map_err GHeader (find_backup_lba (c_lb (g_config g)))) ;;
    (fun g1 : gdisk => (let* h := lift (the_header g1) in
     let* ph := lift (omap_err GHeader (build oc (bset_primary true (builder_from_header h)) (c_lb (g_config g)))) in
     (fun g => (Ok tt, set_primary (Ok ph) g)) ;;
     (let* bh :=
        (if c_readonly_backup (g_config g1) then ret None
         else
           let* bh := lift (omap_err GHeader
                              (build oc (bset_primary false (builder_from_header ph)) (c_lb (g_config g)))) in
           (fun g => (Ok (Some bh), set_backup (Ok bh) g))) in
      write_rest oc (c_lb (g_config g)) ph bh (g_partitions g1) (g_sync g1))) g1)) g))).
  apply always_bind; [exact RT|apply RD|intros _ g1 S1].
  unfold bind at 1. cbn [lift]. destruct (@sound_the_header gpt_err g1 S1) as (h & -> & W).
  unfold bind at 1. cbn [lift]. destruct (build oc (bset_primary true _) _) as [ph|e|] eqn:B1; cbn [omap_err]; [|exact S1|exact S1].
  apply build_inv in B1. destruct B1 as (G1 & _). cbn [bset_primary builder_from_header b_disk_guid] in G1. rewrite <- G1 in W.
  assert (RW : forall bh, (forall b, bh = Some b -> wf_uuid (disk_guid b)) -> always R (write_rest oc (c_lb (g_config g)) ph bh (g_partitions g1) (g_sync g1))).
  { intros bh HB. unfold write_rest. apply always_bind; [exact RT|apply RD|intros _].
    apply always_bind; [exact RT| |intros _].
    { destruct bh as [b|]; [|intros g0 S0; exact S0]. intros g0 S0. unfold write_backup_of, write_backup.
      specialize (HB b eq_refl). destruct (_ <=? _); [apply sound_device, sound_backup; auto|].
      pose proof (file_write_header_keeps b (current_lba b) (c_lb (g_config g0)) (g_device g0)) as K.
      destruct (file_write_header b _ _ _) as [r [b' d]]. cbn [fst snd] in *. apply sound_device, sound_backup; [|exact S0].
      rewrite (sh_guid _ _ K). exact HB. }
    apply always_bind; [exact RT| |intros _].
    { intros g0 S0. unfold write_primary_of.
      pose proof (write_primary_keeps ph (c_lb (g_config g0)) (g_device g0)) as K.
      destruct (write_primary ph _ _) as [r [b' d]]. cbn [fst snd] in *. apply sound_device, sound_primary; [|exact S0].
      rewrite (sh_guid _ _ K). exact W. }
    apply always_bind; [exact RT|apply RD|intros _]. destruct (g_sync g1); [apply RD|intros g0 S0; exact S0]. }
  unfold bind at 1. assert (S2 := sound_primary ph g1 W S1).
  destruct (c_readonly_backup (g_config g1)).
  { unfold bind at 1. cbn [ret]. apply RW; [discriminate|exact S2]. }
  unfold bind at 1. unfold bind at 1. cbn [lift].
  destruct (build oc (bset_primary false _) _) as [bh|e|] eqn:B2; cbn [omap_err]; [|exact S2|exact S2].
  apply build_inv in B2. destruct B2 as (G2 & _). cbn [bset_primary builder_from_header b_disk_guid] in G2. rewrite <- G2 in W.
  apply RW; [intros b Eb; injection Eb as <-; exact W|]. apply sound_backup; auto.
Qed.
Lemma sound_wf g h : sound g -> try_header g = Ok h -> wf_uuid (disk_guid h).
Proof.
  intros S H. destruct (@sound_the_header gpt_err g S) as (h' & A & W). unfold the_header in A. rewrite H in A.
  injection A as <-. exact W.
Qed.
(** One call and a history of calls in a release build. *)
Lemma safe_kept {A} (m : M gdisk gpt_err A) g : safe anything m -> sound g -> exists g', kept (m g) = Some g' /\ sound g'.
Proof.
  intros H S. specialize (H g S). destruct (m g) as [[a|e|] g']; cbn in *; [|eauto|contradiction].
  exists g'. split; [reflexivity|apply H].
Qed.
Lemma release_step o g : args_ok o -> sound g -> exists g', step false o g = Some g' /\ sound g'.
Proof.
  intros HA S. destruct o; cbn [args_ok step] in *.
  - apply safe_kept; [apply safe_add; apply HA|exact S].
  - apply safe_kept; [apply safe_add_at; apply HA|exact S].
  - eexists. split; [reflexivity|]. unfold remove_partition. destruct (pm_get id _); [apply sound_partitions, S|exact S].
  - eexists. split; [reflexivity|]. unfold remove_partition_by_guid. destruct (find _ _) as [[]|]; [apply sound_partitions, S|exact S].
  - eexists. split; [reflexivity|]. apply sound_partitions, S.
  - eexists. split; [reflexivity|]. destruct S as [A B C D]. constructor; auto.
  - apply safe_kept; [apply safe_update, HA|exact S].
  - destruct (so_header g S) as (h & Hh).
    pose proof (write_inplace_calm false g h Hh (sound_wf g h S Hh) (or_introl eq_refl)) as K.
    pose proof (sound_write false g S) as SW.
    destruct (write_inplace false g) as [[a|e|] g']; cbn in *; eauto. congruence.
  - eexists. split; [reflexivity|]. destruct S as [A B C D]. constructor; auto.
Qed.
Lemma release_run ops : forall g, Forall args_ok ops -> sound g -> exists g', run false ops g = Some g' /\ sound g'.
Proof.
  induction ops as [|o ops IH]; intros g F S; cbn [run]; [eauto|]. inversion F as [|a l F1 F2]; subst.
  destruct (release_step o g F1 S) as (g1 & -> & S1). auto.
Qed.
