(** Props_Room.v - the permission to change the number of entries makes no difference while the array has room (C33), so what is
    known of disks with a fixed number of entries holds of others (C29, C54, C63, C76). *)
From Verif Require Import SessionFacts RoomFacts SpecSession SpecUefi Samples Props_Settings Props_Panic Props_Session Props_Uefi Props_Alloc Props_Build Props_Count.
Open Scope list_scope.
Open Scope N_scope.

Lemma strict_looser g : looser (g_config (strict g)) (g_config g).
Proof. repeat split; try discriminate; auto. Qed.
Lemma strict_back g : set_config (g_config g) (strict g) = g.
Proof. destruct g; reflexivity. Qed.
Lemma strict_roomy ops g h : roomy ops g h -> roomy ops (strict g) h.
Proof. exact (fun x => x). Qed.
Lemma strict_tidy g h : tidy g h -> tidy (strict g) h.
Proof. intros [T1 T2 T3 T4 T5]. constructor; assumption. Qed.
Lemma room_same oc ops g h : roomy ops g h ->
  exists c2, talk oc (map Do ops) g = (fst (talk oc (map Do ops) (strict g)), set_config c2 (snd (talk oc (map Do ops) (strict g)))) /\
    looser (g_config (snd (talk oc (map Do ops) (strict g)))) c2 /\ (Forall keeps_device (map Do ops) -> c2 = g_config g).
Proof.
  intros R. pose proof (ez_talk oc (map Do ops) (strict g) (g_config g) (strict_looser g)) as X. rewrite strict_back in X. apply X.
  pose proof (room_talk oc ops (strict g) h eq_refl (strict_roomy ops g h R)) as N.
  apply Forall_forall. intros r I [(-> & A & B)|(-> & _)]; [cbn in A; congruence|contradiction].
Qed.

(** C33.  While there are entries enough for all partitions in use and those that are going to be added, a disk that may change the
    number of its entries gives the same replies and does the same as one that may not; in particular the number stays. *)
Theorem C33_room : forall oc ops g h, roomy ops g h ->
  let '(rs, g1) := talk oc (map Do ops) g in let '(rs', g2) := talk oc (map Do ops) (strict g) in
  rs = rs' /\ ~ In (Refused GPartitionCountWouldChange) rs /\ g_device g1 = g_device g2 /\ g_partitions g1 = g_partitions g2 /\
  g_primary g1 = g_primary g2 /\ g_backup g1 = g_backup g2 /\ g_guid g1 = g_guid g2 /\
  (~ In Panicked rs -> exists h', header_of g1 h' /\ num_parts h' = num_parts h).
Proof.
  intros oc ops g h R. destruct (room_same oc ops g h R) as (c2 & E & _).
  pose proof (room_talk oc ops (strict g) h eq_refl (strict_roomy ops g h R)) as N.
  pose proof (talk_run oc ops (strict g)) as T.
  pose proof (fun g' => room_run oc ops (strict g) h g' eq_refl (strict_roomy ops g h R)) as RR.
  rewrite E. destruct (talk oc (map Do ops) (strict g)) as [rs g2]. cbn [fst snd] in *.
  split; [reflexivity|]. split; [exact N|]. do 5 (split; [reflexivity|]). intros P. apply (RR g2 (T P)).
Qed.
Print Assumptions C33_room.

Lemma room_strict oc ops g h : roomy ops g h -> Forall keeps_device (map Do ops) ->
  run oc ops g = option_map (set_config (g_config g)) (run oc ops (strict g)).
Proof.
  intros R K. destruct (room_same oc ops g h R) as (c2 & E & _ & C). rewrite (C K) in E. clear c2 C.
  pose proof (talk_run oc ops g) as X. pose proof (talk_run oc ops (strict g)) as Y. rewrite E in X. cbn [fst snd] in X.
  destruct (run oc ops (strict g)) as [s|] eqn:RS.
  - destruct (run_talk oc ops _ _ RS) as (A & B). rewrite (X B), A. reflexivity.
  - destruct (run oc ops g) as [g'|] eqn:RG; [|reflexivity]. destruct (run_talk oc ops _ _ RG) as (A & B). rewrite E in B. cbn [fst] in B.
    discriminate (Y B).
Qed.
Lemma write_config oc c g : looser (g_config g) c -> c_writable c = c_writable (g_config g) ->
  write_inplace oc (set_config c g) = (fst (write_inplace oc g), set_config c (snd (write_inplace oc g))).
Proof.
  intros L W. destruct (ez_write oc g c L) as (_ & [X|X]); [|exact X]. exfalso. destruct X as [(_ & A & B)|(A & _)]; [congruence|].
  destruct (write_forbids oc g) as (Y & _); [right; exact A|]. congruence.
Qed.
Lemma tidy_keeps oc lb ops : Forall (tidy_op oc lb) ops -> Forall keeps_device (map Do ops) /\ forall n, Forall (asks_within n) ops.
Proof.
  intros F. split; [apply Forall_map|intros n]; (eapply Forall_impl; [|exact F]); intros []; cbn; auto; contradiction.
Qed.

Lemma run_writable oc ops : forall g s, Forall keeps_device (map Do ops) -> run oc ops g = Some s -> c_writable (g_config s) = c_writable (g_config g).
Proof.
  induction ops as [|o ops IH]; intros g s K; cbn [run].
  - intros E. injection E as <-. reflexivity.
  - inversion K as [|a l K1 K2]; subst. destruct (step oc o g) as [g1|] eqn:E; [|discriminate]. intros R.
    rewrite (IH g1 s K2 R). assert (L : looser (g_config g) (g_config g)) by (repeat split; auto).
    destruct o; cbn [step keeps_device] in *; try contradiction; try (injection E as <-).
    + apply kept_some in E. rewrite <- E. f_equal. apply ez_add with (c' := g_config g), L.
    + apply kept_some in E. rewrite <- E. f_equal. apply ez_add_at with (c' := g_config g), L.
    + unfold remove_partition. destruct (pm_get _ _); reflexivity.
    + unfold remove_partition_by_guid. destruct (find _ _) as [[? ?]|]; reflexivity.
    + reflexivity.
    + reflexivity.
    + apply kept_some in E. rewrite <- E. f_equal. apply ez_update_partitions with (c' := g_config g), L.
    + apply kept_some in E. rewrite <- E. f_equal. apply wo_write.
Qed.
(** C29, C54 and C63 for such a disk. *)
Theorem C29_room : forall oc ops g h g',
  tidy g h -> 128 <= num_parts h -> lenN (used_in_order (g_partitions g)) + additions ops <= num_parts h ->
  Forall (tidy_op oc (c_lb (g_config g))) ops -> run oc ops g = Some g' ->
  exists h', tidy g' h' /\ first_usable h' = first_usable h /\ last_usable h <= last_usable h' /\ num_parts h' = num_parts h.
Proof.
  intros oc ops g h g' T N1 L F R. eapply (C29_count_may_change_partial oc ops g h g' T F); [|exact R]. cbn zeta.
  apply (room_talk oc ops (strict g) h eq_refl). split; [apply T|]. split; [apply T|]. split; [exact N1|]. split; [exact L|].
  apply (tidy_keeps oc (c_lb (g_config g)) ops F).
Qed.
Print Assumptions C29_room.

Theorem C54_room : forall ops g h,
  tidy g h -> 128 <= num_parts h -> lenN (used_in_order (g_partitions g)) + additions ops <= num_parts h ->
  Forall (SpecPanic.fitting_op (c_lb (g_config g))) ops ->
  exists g', run true ops g = Some g' /\ run false ops g = Some g' /\
    write_inplace false g' = write_inplace true g' /\ fst (write_inplace true g') <> Panic /\
    @find_free_sectors gpt_err false g' = find_free_sectors true g'.
Proof.
  intros ops g h T N1 L F. destruct (C54_agree ops (strict g) h (strict_tidy g h T) eq_refl F) as (s & R1 & R2 & W & WP & FF & _).
  assert (Q : Forall keeps_device (map Do ops) /\ forall n, Forall (asks_within n) ops).
  { apply (tidy_keeps true (c_lb (g_config g))). eapply Forall_impl; [|exact F]. intros o. apply fitting_tidy. }
  assert (R : roomy ops g h) by (split; [apply T|]; split; [apply T|]; split; [exact N1|]; split; [exact L|apply Q]).
  exists (set_config (g_config g) s).
  rewrite !(room_strict _ ops g h R (proj1 Q)), R1, R2. split; [reflexivity|]. split; [reflexivity|].
  destruct (room_same true ops g h R) as (c2 & _ & LO & C2). rewrite (C2 (proj1 Q)) in LO.
  destruct (run_talk true ops _ _ R1) as (A & _). rewrite A in LO. clear A c2 C2.
  rewrite !(write_config _ _ s LO) by (rewrite (run_writable true ops _ _ (proj1 Q) R1); reflexivity). rewrite W. cbn [fst]. split; [reflexivity|]. split; [exact WP|].
  exact FF.
Qed.
Print Assumptions C54_room.

Lemma strict_write oc ops g h g1 gw : roomy ops g h -> Forall keeps_device (map Do ops) ->
  run oc ops g = Some g1 -> write_inplace oc g1 = (Ok tt, gw) ->
  exists s sw, run oc ops (strict g) = Some s /\ write_inplace oc s = (Ok tt, sw) /\ g_device sw = g_device gw /\
    g_partitions s = g_partitions g1.
Proof.
  intros R K E W. rewrite (room_strict oc ops g h R K) in E. destruct (run oc ops (strict g)) as [s|] eqn:RS; [|discriminate].
  cbn [option_map] in E. injection E as <-.
  destruct (room_same oc ops g h R) as (c2 & _ & LO & C2). rewrite (C2 K) in LO. clear c2 C2.
  destruct (run_talk oc ops _ _ RS) as (A & _). rewrite A in LO. clear A.
  rewrite (write_config oc _ s LO) in W by (rewrite (run_writable oc ops _ _ K RS); reflexivity). injection W as X1 X2.
  exists s, (snd (write_inplace oc s)). split; [reflexivity|]. split; [destruct (write_inplace oc s); cbn in *; congruence|].
  rewrite <- X2. split; reflexivity.
Qed.
Lemma room_session oc cfg ops fs g h m g2 : roomy ops g h -> Forall keeps_device (map Do ops) ->
  session oc cfg ops fs g m g2 -> session oc cfg ops fs (strict g) m g2.
Proof.
  intros R K (g1 & gw & E & M & W & O). set (gf := set_device (with_faults fs (g_device g)) g) in *.
  destruct (strict_write oc ops gf h g1 gw R K E W) as (s & sw & A & B & C & D).
  exists s, sw. split; [exact A|]. split; [congruence|]. split; [exact B|]. rewrite C. exact O.
Qed.
Theorem C63_room : forall oc cfg ops fs g h m g2,
  tidy g h -> typed_table (g_partitions g) ->
  128 <= num_parts h -> lenN (used_in_order (g_partitions g)) + additions ops <= num_parts h ->
  c_lb cfg = c_lb (g_config g) -> Forall (fun o => tidy_op oc (c_lb cfg) o /\ typed_op o) ops ->
  session oc cfg ops fs g m g2 ->
  read_back m (g_partitions g2) /\ lenN (data (g_device g2)) = lenN (data (g_device g)) /\
  (forall i, user_byte (c_lb cfg) h i -> byte_no (data (g_device g2)) i = byte_no (data (g_device g)) i) /\
  g_config g2 = cfg /\ typed_table (g_partitions g2) /\
  exists h2, tidy g2 h2 /\ first_usable h2 = first_usable h /\ last_usable h <= last_usable h2 /\ num_parts h2 = num_parts h.
Proof.
  intros oc cfg ops fs g h m g2 T TT N1 L GC F S.
  destruct (tidy_keeps oc (c_lb cfg) ops) as (K & A); [eapply Forall_impl; [|exact F]; intros o; apply proj1|].
  apply (C63_session oc cfg ops fs (strict g) h m g2 (strict_tidy g h T) TT eq_refl GC F).
  apply (room_session oc cfg ops fs g h m g2); auto.
  split; [apply T|]. split; [apply T|]. split; [exact N1|]. split; [exact L|apply A].
Qed.
Print Assumptions C63_room.

(** C63 for any number of sessions, if there are entries enough for all of them together. *)
Lemma filter_le {A} (f : A -> bool) l : lenN (filter f l) <= lenN l.
Proof. induction l as [|a l IH]; cbn [filter]; [apply N.le_refl|]. destruct (f a); rewrite ?lenN_cons; lia. Qed.
Lemma read_back_len m m' : read_back m m' -> lenN (used_in_order m') <= lenN (used_in_order m).
Proof.
  intros (qs & -> & F). assert (FL : length (used_in_order m) = length qs) by (clear -F; induction F; cbn; congruence). unfold used_in_order at 1. eapply N.le_trans; [apply filter_le|].
  unfold lenN, numbered. rewrite map_length, combine_length, map_length, seq_length, FL. lia.
Qed.
Theorem C63_room_sessions : forall oc lb ops g g2, sessions_of oc lb ops g g2 -> forall h,
  tidy g h -> typed_table (g_partitions g) -> c_lb (g_config g) = lb ->
  128 <= num_parts h -> lenN (used_in_order (g_partitions g)) + additions ops <= num_parts h ->
  Forall (fun o => tidy_op oc lb o /\ typed_op o) ops ->
  lenN (data (g_device g2)) = lenN (data (g_device g)) /\
  (forall i, user_byte lb h i -> byte_no (data (g_device g2)) i = byte_no (data (g_device g)) i) /\
  exists h2, tidy g2 h2 /\ first_usable h2 = first_usable h /\ last_usable h <= last_usable h2 /\ num_parts h2 = num_parts h.
Proof.
  intros oc lb ops g g2 S. induction S as [g|cfg ops rest fs m g ga gb C1 S SS IH]; intros h T TT HL N1 L F.
  - split; [reflexivity|]. split; [reflexivity|]. exists h. split; [exact T|]. split; [reflexivity|]. split; [apply N.le_refl|reflexivity].
  - pose proof L as LT. rewrite additions_app in L. apply Forall_app in F. destruct F as (F & FR). rewrite <- C1 in F.
    destruct (C63_room oc cfg ops fs g h m ga T TT N1 ltac:(lia) (eq_trans C1 (eq_sym HL)) F S) as
      (A1 & A2 & A3 & A4 & A5 & h2 & A6 & A7 & A8 & A9). rewrite C1 in A3.
    assert (LM : lenN (used_in_order m) + additions rest <= num_parts h).
    { destruct (tidy_keeps oc (c_lb cfg) ops) as (K & AW); [eapply Forall_impl; [|exact F]; intros o; apply proj1|].
      destruct (tidy_keeps oc lb rest) as (_ & AR); [eapply Forall_impl; [|exact FR]; intros o; apply proj1|].
      assert (R0 : roomy ops g h) by (split; [apply T|]; split; [apply T|]; split; [exact N1|]; split; [lia|apply AW]).
      destruct (room_session oc cfg ops fs g h m ga R0 K S) as (s & sw & E & -> & _).
      destruct (room_run_more oc ops rest (set_device (with_faults fs (g_device (strict g))) (strict g)) h s eq_refl) as (h' & R' & NE).
      - split; [apply T|]. split; [apply T|]. split; [exact N1|]. split; [exact LT|]. apply Forall_app. split; [apply AW|apply AR].
      - exact E.
      - destruct R' as (_ & _ & _ & R' & _). rewrite <- NE. exact R'. }
    pose proof (read_back_len _ _ A1) as LB.
    destruct (IH h2 A6 A5) as (B1 & B2 & h3 & B3 & B4 & B5 & B6); [congruence|lia|lia|exact FR|].
    split; [congruence|]. split.
    + intros i U. rewrite B2, A3; auto. eapply user_byte_mono; eauto.
    + exists h3. split; [exact B3|]. split; [congruence|]. split; [lia|congruence].
Qed.
Print Assumptions C63_room_sessions.

(** C76 for a disk that was created and then worked with, with at most 128 additions. *)
Theorem C76_room : forall oc cfg u rnd d g d' fs ops g1 g2,
  fault_free d -> addressable d -> guid_ok (match u with Some u => u | None => rnd end) -> c_readonly_backup cfg = false ->
  create_from_device oc cfg u rnd d = (Ok g, d') -> additions ops <= 128 ->
  Forall (fun o => tidy_op oc (c_lb cfg) o /\ typed_op o) ops ->
  run oc ops (set_device (with_faults fs (g_device g)) g) = Some g1 -> write_inplace oc g1 = (Ok tt, g2) ->
  uefi_disk (c_lb cfg) (data (g_device g2)) (last_whole_block (c_lb cfg) d).
Proof.
  intros oc cfg u rnd d g d' fs ops g1 g2 HF HA GO RB E L F R W.
  destruct (C43_create oc cfg u rnd d HF HA GO) as (A & B).
  destruct (N.le_gt_cases (2 * min_array (c_lb cfg) + 4) (lenN (data d) / lb_u64 (c_lb cfg))) as [LL|LL].
  2: { destruct (B LL) as (e & E1 & _). congruence. }
  destruct (A LL) as (ga & h & E1 & H1 & H2 & H3 & H4 & H5 & H6 & H7 & H8 & H9 & Ha & Hb & Hc & Hd & He & _).
  rewrite E in E1. injection E1 as EG ED. subst ga d'. clear A B.
  set (c0 := cset_change_partition_count false cfg).
  assert (E0 : create_from_device oc c0 u rnd d = (Ok (strict g), d)).
  { rewrite (C98_create oc cfg c0 u rnd d eq_refl eq_refl), E. cbn [fst snd]. unfold strict. rewrite H5. reflexivity. }
  destruct (tidy_keeps oc (c_lb cfg) ops) as (K & AW); [eapply Forall_impl; [|exact F]; intros o; apply proj1|].
  set (gf := set_device (with_faults fs (g_device g)) g) in *.
  assert (RF : roomy ops gf h).
  { split; [exact H1|]. split; [cbn [gf set_device g_partitions]; rewrite H3; apply map_ok_nil|].
    cbn [gf set_device g_partitions]. rewrite H3, H9. change (lenN (used_in_order [])) with 0. split; [apply N.le_refl|]. split; [exact L|apply AW]. }
  destruct (strict_write oc ops gf h g1 g2 RF K R W) as (s1 & s2 & R' & W' & D & _).
  rewrite <- D.
  eapply (C76_created oc c0 u rnd d (strict g) d fs ops s1 s2 HF HA GO eq_refl RB E0 F); [exact R'|exact W'].
Qed.
Print Assumptions C76_room.
Example C76_room_case :
  let ops := [OpAdd [120] 1025 (mkType linux_fs OsLinux) 0 (Some 8) sample_guid; OpWrite; OpRemove 1] in
  additions ops = 1 /\ Forall (fun o => tidy_op true Lb512 o /\ typed_op o) ops /\
  exists g, create_from_device true (big_config true) (Some sample_guid) sample_guid big_dev = (Ok g, big_dev) /\
    c_change_partition_count (g_config g) = true /\ roomy ops g (big_header 128 34 266).
Proof.
  cbn zeta. split; [reflexivity|]. split.
  { repeat constructor; try (vm_compute; reflexivity); try (vm_compute; discriminate); cbn; auto. }
  eexists. split; [apply big_created, big_dev_ok|]. split; [reflexivity|].
  split; [left; reflexivity|]. split; [apply map_ok_nil|]. split; [vm_compute; discriminate|]. split; [vm_compute; discriminate|].
  repeat constructor.
Qed.
