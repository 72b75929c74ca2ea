(** MovedFacts.v - lemmas about histories with exchanged devices. *)
From Verif Require Export SpecMoved CarefulFacts ReportFacts.
Open Scope list_scope.
Open Scope N_scope.

Lemma same_user_trans lb h a b c : same_user_data lb h a b -> same_user_data lb h b c -> same_user_data lb h a c.
Proof. intros (A1 & A2) (B1 & B2). split; [congruence|]. intros i U. rewrite B2, A2; auto. Qed.
Lemma layout_fit lb n m h : layout_ok lb n h -> (backup_at h + 1) * lb_u64 lb <= m -> layout_ok lb m h.
Proof. intros [A1 A2 A3 A4 A5 A6 A7 A8] F. constructor; auto. Qed.
Lemma tidy_on g h d g' : tidy g h -> room_on g d -> (forall x, header_of g x -> header_of g' x) -> g_device g' = d ->
  c_lb (g_config g') = c_lb (g_config g) -> g_partitions g' = g_partitions g -> tidy g' h.
Proof.
  intros [T1 T2 T3 T4 T5] (R1 & R2) HH D L P. constructor.
  - rewrite D. exact R1.
  - apply HH, T2.
  - rewrite D, L. eapply layout_fit; [exact T3|]. apply R2, T2.
  - exact T4.
  - rewrite P. exact T5.
Qed.
Lemma header_of_with d w g h : header_of g h -> header_of (with_disk_device d w g) h.
Proof.
  unfold header_of. cbn [with_disk_device g_primary g_backup]. rewrite !lossy_valid.
  intros [H|(H1 & H2)]; [left; exact H|right; split; [|exact H2]].
  intros h' H'. apply (H1 h'), lossy_valid, H'.
Qed.
Lemma moved_keeps oc d0 g l d1 g' : moved_run oc d0 g l d1 g' -> forall lb h h0,
  c_lb (g_config g) = lb -> c_change_partition_count (g_config g) = false -> tidy g h -> guid_ok (g_guid g) ->
  typed_table (g_partitions g) -> first_usable h = first_usable h0 -> last_usable h0 <= last_usable h ->
  same_user_data lb h0 d0 (g_device g) ->
  Forall (fun s => same_user_data lb h0 (fst s) (snd s)) l /\ same_user_data lb h0 d1 (g_device g') /\
  c_lb (g_config g') = lb /\ c_change_partition_count (g_config g') = false /\ guid_ok (g_guid g') /\
  typed_table (g_partitions g') /\ exists h', tidy g' h' /\ first_usable h' = first_usable h /\
    last_usable h <= last_usable h' /\ N.min 128 (num_parts h) <= num_parts h' <= num_parts h.
Proof.
  induction 1 as [d0 g|o d0 g g1 l d1 g' CO TY E R IH|d w d0 g old g1 l d1 g' RO E R IH|d w d0 g l d1 g' RO R IH];
    intros lb h h0 LB HC T G TT F0 L0 SU.
  - split; [constructor|]. split; [exact SU|]. do 4 (split; [auto|]). exists h. split; [exact T|]. split; [reflexivity|]. lia.
  - destruct (careful_step oc o g h g1 HC T G TT CO TY E) as (A1 & A2 & A3 & A4 & A5 & h1 & A6 & A7 & A8 & A9).
    destruct (IH lb h1 h0) as (B1 & B2 & B3 & B4 & B5 & B6 & h2 & B7 & B8 & B9 & Ba); auto; try congruence; try lia.
    + eapply same_user_trans; [exact SU|]. split; [exact A2|]. intros i U. apply A5. rewrite LB.
      eapply user_byte_mono; eauto.
    + do 6 (split; [assumption|]). exists h2. split; [exact B7|]. split; [congruence|]. split; lia.
  - unfold update_disk_device in E. injection E as <- <-.
    set (g1 := set_device d (set_config (cset_writable w (g_config g)) g)) in *.
    assert (T' : tidy g1 h) by (apply (tidy_on g h d); auto).
    assert (S' : same_user_data lb h0 d (g_device g1)) by (split; reflexivity).
    destruct (IH lb h h0 LB HC T' G TT F0 L0 S') as (B1 & B2 & B3).
    split; [constructor; [exact SU|exact B1]|]. split; [exact B2|exact B3].
  - set (g1 := with_disk_device d w g) in *.
    assert (T' : tidy g1 h) by (apply (tidy_on g h d); auto; intros x; apply header_of_with).
    assert (S' : same_user_data lb h0 d (g_device g1)) by (split; reflexivity).
    destruct (IH lb h h0 LB HC T' G TT F0 L0 S') as (B1 & B2 & B3).
    split; [constructor; [exact SU|exact B1]|]. split; [exact B2|exact B3].
Qed.
