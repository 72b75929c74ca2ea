(** TraceFacts.v - opening a disk while device operations may fail. *)
From Verif Require Export FaultFacts RefineFacts MapFacts.
Open Scope list_scope.
Open Scope N_scope.

Definition oval {E A B} (f : A -> B) (o : outcome E A) : outcome E B :=
  match o with Ok a => Ok (f a) | Err e => Err e | Panic => Panic end.
(** If the operations performed did not fail, the outcome (value up to [f]) is that on the repaired device. *)
Definition traced {E A} (f : A -> A) (m : M dev E A) : Prop := forall d r d', m d = (r, d') ->
  exists fs, faults d = fs ++ faults d' /\
    (Forall (eq None) fs -> m (repaired d) = (oval f r, repaired d')).
Definition same_value {A} (a : A) : A := a.
Lemma oval_id {E A} (o : outcome E A) : oval same_value o = o.
Proof. destruct o; reflexivity. Qed.

Lemma tr_bind {E A B} f (m : M dev E A) (k : A -> M dev E B) :
  traced same_value m -> (forall a, traced f (k a)) -> traced f (bind m k).
Proof.
  intros Hm Hk d r d' E0. unfold bind in *. destruct (m d) as [[a|e|] d1] eqn:E1;
    destruct (Hm _ _ _ E1) as (fs & F & R).
  - destruct (Hk a _ _ _ E0) as (fs' & F' & R'). exists (fs ++ fs'). split; [rewrite F, F', app_assoc; reflexivity|].
    intros N. apply Forall_app in N. destruct N as (N & N'). rewrite (R N). cbn. apply R', N'.
  - injection E0 as <- <-. exists fs. split; [exact F|]. intros N. rewrite (R N). reflexivity.
  - injection E0 as <- <-. exists fs. split; [exact F|]. intros N. rewrite (R N). reflexivity.
Qed.
Lemma tr_lift {E A} (o : outcome E A) : traced same_value (@lift dev E A o).
Proof. intros d r d' H. injection H as <- <-. exists []. split; [reflexivity|]. rewrite oval_id. reflexivity. Qed.
Lemma tr_ret {E A} (a : A) : traced same_value (@ret dev E A a).
Proof. apply (tr_lift (Ok a)). Qed.
Lemma tr_throw {E A} (e : E) : traced same_value (@throw dev E A e).
Proof. apply (tr_lift (Err e)). Qed.
Lemma tr_panic {E A} : traced same_value (@panic dev E A).
Proof. apply (tr_lift Panic). Qed.
Lemma tr_map_err {E F A} (f : E -> F) (m : M dev E A) : traced same_value m -> traced same_value (map_err f m).
Proof.
  intros Hm d r d' H. unfold map_err in *. destruct (m d) as [[b|e|] d1] eqn:E1;
    injection H as <- <-; destruct (Hm _ _ _ E1) as (fs & F0 & R); exists fs; (split; [exact F0|]);
    intros N; rewrite (R N); reflexivity.
Qed.
Lemma tr_attempt {E F A} (m : M dev E A) : traced same_value m -> traced same_value (@attempt dev E F A m).
Proof.
  intros Hm d r d' H. unfold attempt in *. destruct (m d) as [[b|e|] d1] eqn:E1;
    injection H as <- <-; destruct (Hm _ _ _ E1) as (fs & F0 & R); exists fs; (split; [exact F0|]);
    intros N; rewrite (R N); reflexivity.
Qed.
Lemma tick_trace d o d' : tick d = (o, d') -> exists fs, faults d = fs ++ faults d' /\
  repaired d' = repaired d /\ (Forall (eq None) fs -> o = None).
Proof.
  unfold tick. destruct (faults d) as [|f r] eqn:F; intros H; injection H as <- <-.
  - exists []. rewrite F. auto.
  - exists [f]. split; [reflexivity|]. split; [reflexivity|]. intros N. inversion N; congruence.
Qed.
Lemma repaired_eq d d' : repaired d' = repaired d ->
  data d' = data d /\ pos d' = pos d /\ growable d' = growable d /\ eof_moves d' = eof_moves d /\ durable d' = durable d.
Proof. unfold repaired, with_faults. intros H. injection H as ? ? ? ? ?. auto. Qed.
Lemma tr_seek n : traced same_value (seek_start n).
Proof.
  intros d r d' H. unfold seek_start in *. destruct (tick d) as [o d1] eqn:T.
  destruct (tick_trace _ _ _ T) as (fs & F & R & N). pose proof (repaired_eq _ _ R) as (A & B & C & D & G).
  exists fs. destruct o; injection H as <- <-; (split; [exact F|]); intros X; specialize (N X); try discriminate.
  destruct d1. cbn in *. subst. reflexivity.
Qed.
Lemma tr_seek_end : traced same_value seek_end.
Proof.
  intros d r d' H. unfold seek_end in *. destruct (tick d) as [o d1] eqn:T.
  destruct (tick_trace _ _ _ T) as (fs & F & R & N). pose proof (repaired_eq _ _ R) as (A & B & C & D & G).
  exists fs. destruct o; injection H as <- <-; (split; [exact F|]); intros X; specialize (N X); try discriminate.
  destruct d1 as [dl dp dg de df dd]. unfold dev_len. cbn in *. subst. reflexivity.
Qed.
Lemma tr_position : traced same_value stream_position.
Proof.
  intros d r d' H. unfold stream_position in *. destruct (tick d) as [o d1] eqn:T.
  destruct (tick_trace _ _ _ T) as (fs & F & R & N). pose proof (repaired_eq _ _ R) as (A & B & C & D & G).
  exists fs. destruct o; injection H as <- <-; (split; [exact F|]); intros X; specialize (N X); try discriminate.
  destruct d1 as [dl dp dg de df dd]. cbn in *. subst. reflexivity.
Qed.
Lemma tr_read n : traced same_value (read_exact n).
Proof.
  intros d r d' H. unfold read_exact in *. destruct (n =? 0).
  { injection H as <- <-. exists []. split; reflexivity. }
  destruct (tick d) as [o d1] eqn:T.
  destruct (tick_trace _ _ _ T) as (fs & F & R & N). pose proof (repaired_eq _ _ R) as (A & B & C & D & G).
  exists fs. destruct o as [k|].
  - injection H as <- <-. split; [exact F|]. intros X. specialize (N X). discriminate.
  - destruct d1 as [dl dp dg de df dd]. unfold dev_len in *. cbn in A, B, C, D, G. subst. cbn [tick faults repaired with_faults pos data growable eof_moves durable] in *.
    destruct (pos d + n <=? lenN (data d)); [injection H as <- <-; split; [exact F|reflexivity]|].
    destruct (eof_moves d && (pos d <=? lenN (data d))); injection H as <- <-; (split; [exact F|reflexivity]).
Qed.
Ltac tr := repeat (first [apply tr_bind; [|intros ?]|apply tr_map_err|apply tr_attempt|apply tr_lift|apply tr_ret|apply tr_throw
  |apply tr_panic|apply tr_seek|apply tr_seek_end|apply tr_position|apply tr_read]).
Lemma tr_read_entries oc n : forall i e m, traced same_value (read_entries oc n i e m).
Proof.
  induction n as [|n IH]; intros i e m; cbn [read_entries]; [tr|]. tr. destruct (bytes_eqb _ _); tr; apply IH.
Qed.
Lemma tr_read_partitions oc h lb : traced same_value (file_read_partitions oc h lb).
Proof.
  unfold file_read_partitions. tr. destruct (negb _); tr; [apply tr_read_entries|]. destruct (_ =? _); tr.
Qed.
Lemma tr_header off : traced same_value (file_read_header off).
Proof. unfold file_read_header. tr. Qed.
Lemma tr_find_backup lb : traced same_value (find_backup_lba lb).
Proof. unfold find_backup_lba. tr. destruct (_ <? _); tr. Qed.
Lemma tr_primary lb : traced same_value (read_primary_header lb).
Proof. unfold read_primary_header, stream_position_or_0. tr. Qed.
Lemma tr_backup lb : traced same_value (read_backup_header lb).
Proof. unfold read_backup_header, stream_position_or_0. tr. destruct (_ <? _); tr. Qed.
Lemma tr_open oc cfg : traced repaired_disk (open_from_device oc cfg).
Proof.
  unfold open_from_device. apply tr_bind; [apply tr_attempt, tr_primary|intros h1].
  apply tr_bind; [apply tr_attempt, tr_backup|intros h2].
  apply tr_bind; [destruct (c_only_valid_headers cfg); [tr|]; destruct h1, h2; tr|intros (a, b)].
  apply tr_bind; [destruct (or_else a b); tr|intros h].
  apply tr_bind; [apply tr_map_err, tr_read_partitions|intros t].
  intros d r d' H. injection H as <- <-. exists []. split; reflexivity.
Qed.
(** The schedule used up is determined, so no fault in it is no fault at all. *)
Lemma traced_calm {E A} f (m : M dev E A) d r d' : traced f m -> m d = (r, d') -> no_fault_between d d' ->
  m (repaired d) = (oval f r, repaired d').
Proof.
  intros T H (fs & F & N). destruct (T _ _ _ H) as (fs' & F' & R). apply R.
  rewrite F in F'. apply app_inv_tail in F'. subst. exact N.
Qed.

(** * What succeeds is read from the device *)
Lemma read_exact_inv n d b d' : read_exact n d = (Ok b, d') -> n <> 0 ->
  pos d + n <= dev_len d /\ b = slice (pos d) n (data d).
Proof.
  intros H Hn. unfold read_exact in H. destruct (N.eqb_spec n 0); [lia|].
  destruct (tick d) as [o d1] eqn:T. destruct (tick_trace _ _ _ T) as (fs & F & R & N).
  pose proof (repaired_eq _ _ R) as (A & B & _). destruct o; [discriminate|].
  unfold dev_len in *. rewrite A, B in H. destruct (N.leb_spec (pos d + n) (lenN (data d))); [|discriminate].
  injection H as <- _. auto.
Qed.
Lemma header_stored off d h d' : file_read_header off d = (Ok h, d') -> stored_header (data d) h.
Proof.
  intros H. unfold file_read_header in H. apply bind_inv in H. destruct H as (r & d1 & H1 & H).
  apply bind_inv in H. destruct H as (b & d2 & H2 & H). unfold lift in H. injection H as HP _.
  assert (D : data d1 = data d).
  { pose proof (untouched_attempt (F := hdr_err) _ (untouched_seek_start off) d) as U. rewrite H1 in U. apply U. }
  unfold map_err in H2. destruct (read_exact 92 d1) as [[b'|e|] d3] eqn:E; try discriminate.
  injection H2 as -> <-. apply read_exact_inv in E; [|discriminate]. destruct E as (L & ->).
  exists (pos d1). rewrite <- HP. rewrite D in *. unfold dev_len in L. rewrite D in L.
  pose proof (read_header_at_spec (pos d1) (data d)) as S. unfold read_header_at in S.
  destruct (N.leb_spec (pos d1 + 92) (lenN (data d))); [exact S|lia].
Qed.
Lemma primary_stored lb d h d' : read_primary_header lb d = (Ok h, d') -> stored_header (data d) h.
Proof.
  intros H. unfold read_primary_header in H. apply bind_inv in H. destruct H as (c & d1 & H1 & H).
  apply bind_inv in H. destruct H as (r & d2 & H2 & H). apply bind_inv in H. destruct H as (x & d3 & _ & H).
  injection H as -> _. unfold attempt in H2.
  destruct (file_read_header (lb_u64 lb) d1) as [[h'|e|] d4] eqn:E; try discriminate. injection H2 as -> _.
  assert (U : untouched stream_position_or_0) by (unfold stream_position_or_0; auto 10 with untouched).
  specialize (U d). rewrite H1 in U. destruct U as (U & _). cbn in U. rewrite <- U. eapply header_stored; eauto.
Qed.
Lemma backup_stored lb d h d' : read_backup_header lb d = (Ok h, d') -> stored_header (data d) h.
Proof.
  intros H. unfold read_backup_header in H. apply bind_inv in H. destruct H as (c & d1 & H1 & H).
  apply bind_inv in H. destruct H as (l & d2 & H2 & H). apply bind_inv in H. destruct H as (o & d3 & H3 & H).
  apply bind_inv in H. destruct H as (r & d4 & H4 & H). apply bind_inv in H. destruct H as (x & d5 & _ & H).
  injection H as -> _. unfold attempt in H4.
  destruct (file_read_header o d3) as [[h'|e|] d6] eqn:E; try discriminate. injection H4 as -> _.
  assert (U : untouched stream_position_or_0) by (unfold stream_position_or_0; auto 10 with untouched).
  specialize (U d). rewrite H1 in U. destruct U as (U & _). cbn in U.
  pose proof (untouched_find_backup_lba lb d1) as U'. rewrite H2 in U'. destruct U' as (U' & _). cbn in U'.
  unfold lift in H3. injection H3 as _ <-. rewrite <- U, <- U'. eapply header_stored; eauto.
Qed.
Lemma table_stored oc h lb d t d' : file_read_partitions oc h lb d = (Ok t, d') -> addressable d ->
  part_size h = 128 /\ array_intact lb h (data d) /\ table_read lb h (data d) t.
Proof.
  intros H A. assert (A' := A). rewrite addressable_iff in A.
  assert (P : part_size h = 128).
  { unfold file_read_partitions in H. apply bind_inv in H. destruct H as (p & d1 & _ & H).
    apply bind_inv in H. destruct H as (q & d2 & _ & H).
    destruct (N.eqb_spec (part_size h) 128); [auto|]. discriminate. }
  split; [exact P|].
  assert (H' : file_read_partitions false h lb d = (Ok t, d')).
  { destruct oc; [|exact H]. rewrite <- H. apply al_read_partitions. rewrite H. discriminate. }
  destruct (rf_read_partitions false h lb _ _ _ H') as (_ & R).
  destruct (file_read_partitions_ok false h lb (repaired d)) as (p & E); [reflexivity|exact P|left; reflexivity|exact A|].
  rewrite E in R. injection R as R _. cbn [repaired with_faults data] in R.
  pose proof (read_parts_spec h lb (data d) P A) as S. rewrite R in S. exact S.
Qed.
Lemma open_stored oc cfg d g d' : open_from_device oc cfg d = (Ok g, d') -> addressable d ->
  exists h, header_of g h /\ g_guid g = disk_guid h /\ part_size h = 128 /\
    array_intact (c_lb cfg) h (data d) /\ table_read (c_lb cfg) h (data d) (g_partitions g) /\
    (forall h', g_primary g = Ok h' \/ g_backup g = Ok h' -> stored_header (data d) h').
Proof.
  intros H A. unfold open_from_device in H.
  apply bind_inv in H. destruct H as (r1 & d1 & H1 & H).
  apply bind_inv in H. destruct H as (r2 & d2 & H2 & H).
  apply bind_inv in H. destruct H as ((a, b) & d3 & H3 & H).
  apply bind_inv in H. destruct H as (h & d4 & H4 & H).
  apply bind_inv in H. destruct H as (t & d5 & H5 & H). injection H as <- <-.
  pose proof (untouched_attempt (F := gpt_err) _ (untouched_read_primary_header (c_lb cfg)) d) as U1. rewrite H1 in U1.
  pose proof (untouched_attempt (F := gpt_err) _ (untouched_read_backup_header (c_lb cfg)) d1) as U2. rewrite H2 in U2.
  destruct U1 as (U1 & _), U2 as (U2 & _). cbn in U1, U2.
  assert (X : a = r1 /\ b = r2 /\ d3 = d2).
  { destruct (c_only_valid_headers cfg).
    - apply bind_inv in H3. destruct H3 as (x & s & X1 & H3). apply bind_inv in H3. destruct H3 as (y & s' & X2 & H3).
      injection H3 as <- <- <-. injection X1 as X1 <-. injection X2 as X2 <-.
      destruct r1, r2; try discriminate. cbn in *. split; [|split]; congruence.
    - destruct r1, r2; try discriminate; injection H3 as E1 E2 E3; subst; auto. }
  destruct X as (-> & -> & ->).
  assert (D4 : d4 = d2 /\ or_else r1 r2 = Ok h).
  { destruct (or_else r1 r2) as [x|x|]; try discriminate. injection H4 as <- <-. auto. }
  destruct D4 as (-> & OE).
  unfold map_err in H5. destruct (file_read_partitions oc h (c_lb cfg) d2) as [[t'|e|] d6] eqn:E; try discriminate.
  injection H5 as -> ->.
  assert (DD : data d2 = data d) by congruence.
  apply table_stored in E; [|unfold addressable; rewrite DD; exact A]. rewrite DD in E. destruct E as (E1 & E2 & E3).
  exists h. cbn [g_guid g_partitions g_primary g_backup]. unfold header_of. cbn [g_primary g_backup].
  split. { unfold or_else in OE. destruct r1 as [x|x|]; [left; congruence|right|right]; (split; [intros ?; discriminate|exact OE]). }
  repeat (split; [assumption || reflexivity|]).
  intros h' [->| ->].
  - unfold attempt in H1. destruct (read_primary_header (c_lb cfg) d) as [[x|x|] s] eqn:Q; try discriminate.
    injection H1 as <- _. eapply primary_stored; eauto.
  - unfold attempt in H2. destruct (read_backup_header (c_lb cfg) d1) as [[x|x|] s] eqn:Q; try discriminate.
    injection H2 as <- _. rewrite <- U1. eapply backup_stored; eauto.
Qed.
