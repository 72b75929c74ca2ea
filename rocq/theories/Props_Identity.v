(** Props_Identity.v - property C102: partitions told apart by their GUIDs. *)
From Verif Require Import SpecIdentity SessionFacts Props_Session Props_Resize Samples.
Open Scope list_scope.
Open Scope N_scope.

(** What an addition does to the table: nothing, or it puts in one entry with the GUID drawn. *)
Definition one_more (rnd : uuid) (m m' : pmap) : Prop :=
  m' = m \/ exists id p, part_guid p = rnd /\ m' = pm_insert id p m.
Definition quiet {A} (m : M gdisk gpt_err A) : Prop := forall g, g_partitions (snd (m g)) = g_partitions g.
Definition adds {A} (rnd : uuid) (m : M gdisk gpt_err A) : Prop :=
  forall g, one_more rnd (g_partitions g) (g_partitions (snd (m g))).
Lemma quiet_adds {A} rnd (m : M gdisk gpt_err A) : quiet m -> adds rnd m.
Proof. intros Q g. left. apply Q. Qed.
Lemma adds_bind {A B} rnd (m : M gdisk gpt_err A) (k : A -> M gdisk gpt_err B) : quiet m -> (forall a, adds rnd (k a)) -> adds rnd (bind m k).
Proof.
  intros Q K g. unfold bind. specialize (Q g). destruct (m g) as [[a|e|] g1]; cbn [snd] in *; [|left; exact Q|left; exact Q].
  rewrite <- Q. apply K.
Qed.
Lemma quiet_lift {A} (x : outcome gpt_err A) : quiet (lift x).
Proof. intros g. reflexivity. Qed.
Lemma quiet_query {A} (f : gdisk -> outcome gpt_err A) : quiet (fun g => (f g, g)).
Proof. intros g. reflexivity. Qed.
Lemma adds_insert oc id p c : adds (part_guid p) (insert_partition oc id p c).
Proof.
  intros g. right. exists id, p. split; [reflexivity|]. unfold insert_partition, bind. destruct c; cbn [ret].
  - set (g1 := set_partitions (pm_insert id p (g_partitions g)) g).
    pose proof (init_headers_partitions oc g1) as X. destruct (init_headers oc g1) as [[[]|e|] x]; exact X.
  - reflexivity.
Qed.
Lemma add_adds oc nm size ty fl al rnd : adds rnd (add_partition oc nm size ty fl al rnd).
Proof.
  intros g. unfold add_partition. destruct (size =? 0); [left; reflexivity|]. cbn zeta.
  generalize ((size - 1) / lb_u64 (c_lb (g_config g)) + 1). intros n. revert g.
  apply (adds_bind rnd (fun g => (find_free_sectors oc g, g))); [apply quiet_query|]. intros secs.
  induction secs as [|(s, len) secs IH]; cbn [add_in_sections]; [intros g; left; reflexivity|].
  apply adds_bind; [apply quiet_lift|]. intros off. apply adds_bind; [apply quiet_lift|]. intros need.
  destruct (need <=? len); [|exact IH]. apply adds_bind; [apply quiet_lift|]. intros start.
  apply adds_bind; [apply quiet_query|]. intros next. apply adds_bind; [destruct next; [intros g; reflexivity|apply quiet_query]|]. intros id.
  apply adds_bind; [apply quiet_lift|]. intros e. apply adds_bind; [apply quiet_lift|]. intros last.
  apply adds_bind; [intros g; reflexivity|]. intros c. apply (adds_insert oc id (mkPart ty rnd start last fl nm) c).
Qed.
Lemma add_at_adds oc nm id first len ty fl rnd : adds rnd (add_partition_at oc nm id first len ty fl rnd).
Proof.
  intros g. unfold add_partition_at. destruct (len =? 0); [left; reflexivity|]. destruct (id =? 0); [left; reflexivity|].
  match goal with |- context [if ?b then _ else _] => destruct b end; [left; reflexivity|]. revert g.
  apply (adds_bind rnd (fun g => (find_free_sectors oc g, g))); [apply quiet_query|]. intros secs.
  induction secs as [|(s, l) secs IH]; cbn [add_at_in_sections]; [intros g; left; reflexivity|].
  destruct (negb _); [exact IH|]. apply adds_bind; [apply quiet_lift|]. intros e. apply adds_bind; [apply quiet_lift|]. intros last.
  apply adds_bind; [intros g; reflexivity|]. intros c. apply (adds_insert oc id (mkPart ty rnd first last fl nm) c).
Qed.

(** One call: the entries after it were there before, or there is one new one with the GUID drawn. *)
Lemma told_insert m id p : map_ok m -> told_apart m -> ~ names_one m (part_guid p) -> told_apart (pm_insert id p m).
Proof.
  intros M T N j a k b A B E. apply (placed_insert m id p M) in A, B.
  destruct A as [(-> & ->)|(NA & A)], B as [(-> & ->)|(NB & B)]; auto.
  - destruct N. exists k, b. auto.
  - destruct N. exists j, a. auto.
  - apply (T j a k b A B E).
Qed.
Lemma names_insert m id p u : map_ok m -> names_one (pm_insert id p m) u -> names_one m u \/ u = part_guid p.
Proof.
  intros M (k & q & H & <-). apply (placed_insert m id p M) in H. destruct H as [(_ & ->)|(_ & H)]; [auto|left; exists k, q; auto].
Qed.
Lemma told_smaller m m' : (forall k p, has m' k p -> has m k p) -> told_apart m -> told_apart m'.
Proof. intros S T j p k q A B. apply T; apply S; assumption. Qed.
Lemma step_told oc o g g' : map_ok (g_partitions g) -> told_apart (g_partitions g) -> no_table o ->
  (forall u, In u (drawn [o]) -> ~ names_one (g_partitions g) u) -> step oc o g = Some g' ->
  map_ok (g_partitions g') /\ told_apart (g_partitions g') /\
  forall u, names_one (g_partitions g') u -> names_one (g_partitions g) u \/ In u (drawn [o]).
Proof.
  intros M T NT D E.
  assert (ADD : forall rnd m', one_more rnd (g_partitions g) m' -> drawn [o] = [rnd] -> map_ok m' /\ told_apart m' /\
    forall u, names_one m' u -> names_one (g_partitions g) u \/ In u (drawn [o])).
  { intros rnd m' [->|(id & p & <- & ->)] DR; [auto|]. split; [apply map_ok_insert, M|]. split.
    - apply told_insert; auto. apply D. rewrite DR. left. reflexivity.
    - intros u H. apply (names_insert _ _ _ _ M) in H. rewrite DR. destruct H as [H| ->]; [auto|right; left; reflexivity]. }
  assert (LESS : forall k, let m' := pm_remove k (g_partitions g) in map_ok m' /\ told_apart m' /\
    forall u, names_one m' u -> names_one (g_partitions g) u \/ In u (drawn [o])).
  { intros k m'. assert (S : forall j p, has m' j p -> has (g_partitions g) j p) by (intros j p H; apply (has_remove _ M) in H; apply H).
    split; [apply map_ok_remove, M|]. split; [apply (told_smaller _ _ S T)|].
    intros u (j & p & H & Hu). left. exists j, p. split; [apply S, H|exact Hu]. }
  assert (SAME : g_partitions g' = g_partitions g -> map_ok (g_partitions g') /\ told_apart (g_partitions g') /\
    forall u, names_one (g_partitions g') u -> names_one (g_partitions g) u \/ In u (drawn [o])) by (intros ->; auto).
  destruct o; cbn [step no_table] in *; try contradiction.
  - apply kept_some in E. rewrite <- E. apply (ADD rnd); [apply add_adds|reflexivity].
  - apply kept_some in E. rewrite <- E. apply (ADD rnd); [apply add_at_adds|reflexivity].
  - injection E as <-. unfold remove_partition in *. destruct (pm_get _ _); [apply LESS|apply SAME; reflexivity].
  - injection E as <-. unfold remove_partition_by_guid in *. destruct (find _ _) as [(k, p)|]; [apply LESS|apply SAME; reflexivity].
  - injection E as <-. split; [constructor|]. split; [intros j p k q []|]. intros u (k & p & [] & _).
  - injection E as <-. apply SAME. reflexivity.
  - apply kept_some in E. destruct (wo_write oc g) as (_ & _ & C3 & _). rewrite E in C3. apply SAME, C3.
  - injection E as <-. apply SAME. reflexivity.
Qed.
Lemma drawn_cons o ops : drawn (o :: ops) = drawn [o] ++ drawn ops.
Proof. destruct o; reflexivity. Qed.
Lemma drawn_app a b : drawn (a ++ b) = drawn a ++ drawn b.
Proof. induction a as [|o a IH]; [reflexivity|]. cbn [app]. rewrite drawn_cons, (drawn_cons o a), IH, app_assoc. reflexivity. Qed.
Lemma NoDup_app_parts {A} (a b : list A) : NoDup (a ++ b) -> NoDup a /\ NoDup b /\ forall x, In x a -> ~ In x b.
Proof.
  induction a as [|x a IH]; cbn [app]; intros N; [split; [constructor|]; split; [exact N|intros y []]|].
  inversion N as [|y l NI N']; subst. destruct (IH N') as (A1 & A2 & A3). split; [|split; [exact A2|]].
  - constructor; [|exact A1]. intros H. apply NI, in_or_app. auto.
  - intros y [<-|H]; [intros H; apply NI, in_or_app; auto|apply A3, H].
Qed.

(** In any history, whatever fails and whatever the arguments: if the GUIDs drawn are new and differ from each other,
    no two entries have the same GUID. *)
Theorem C102_history : forall oc ops g g', map_ok (g_partitions g) -> told_apart (g_partitions g) ->
  Forall no_table ops -> NoDup (drawn ops) -> (forall u, In u (drawn ops) -> ~ names_one (g_partitions g) u) ->
  run oc ops g = Some g' ->
  map_ok (g_partitions g') /\ told_apart (g_partitions g') /\
  forall u, names_one (g_partitions g') u -> names_one (g_partitions g) u \/ In u (drawn ops).
Proof.
  intros oc ops. induction ops as [|o ops IH]; intros g g' M T F N D R; cbn [run] in R.
  - injection R as <-. auto.
  - destruct (step oc o g) as [g1|] eqn:E; [|discriminate]. inversion F as [|x l F1 F2]; subst.
    rewrite drawn_cons in N, D. apply NoDup_app_parts in N. destruct N as (N1 & N2 & N3).
    destruct (step_told oc o g g1 M T F1) as (M1 & T1 & D1); [intros u Hu; apply D, in_or_app; auto|exact E|].
    destruct (IH g1 g') as (M2 & T2 & D2); auto.
    { intros u Hu NO. destruct (D1 u NO) as [X|X]; [apply (D u); [apply in_or_app; auto|exact X]|apply (N3 u X Hu)]. }
    split; [exact M2|]. split; [exact T2|]. intros u Hu. rewrite drawn_cons.
    destruct (D2 u Hu) as [X|X]; [|right; apply in_or_app; auto]. destruct (D1 u X) as [Y|Y]; [auto|right; apply in_or_app; auto].
Qed.
Print Assumptions C102_history.
(** Then a GUID says which partition is meant: removing by GUID removes the one that has it, and leaves all others. *)
Theorem C102_remove_the_one : forall g k p, map_ok (g_partitions g) -> told_apart (g_partitions g) -> has (g_partitions g) k p ->
  exists m', remove_partition_by_guid (part_guid p) g = (Some k, set_partitions m' g) /\ dropped (g_partitions g) k m' /\
    ~ names_one m' (part_guid p).
Proof.
  intros g k p M T H. destruct (C38_remove_by_guid (part_guid p) g M) as (A & _).
  destruct (A k) as (m' & E & D).
  { split; [exists p; auto|]. intros y (q & Hq & Eq). rewrite (T y q k p Hq H Eq). apply N.le_refl. }
  exists m'. split; [exact E|]. split; [exact D|]. intros (j & q & Hj & Eq). apply D in Hj. destruct Hj as (NE & Hj).
  apply NE, (T j q k p Hj H Eq).
Qed.
Print Assumptions C102_remove_the_one.

(** * Across sessions *)
Lemma read_back_told m m' : map_ok m -> told_apart m -> read_back m m' ->
  map_ok m' /\ told_apart m' /\ forall u, names_one m' u -> names_one m u.
Proof.
  intros M T (qs & -> & F). rewrite numbered_eq. split; [apply map_ok_number|].
  assert (X : forall k q, has (number 1 qs) k q -> exists n p, k = 1 + N.of_nat n /\ nth_error (used_in_order m) n = Some p /\
     same_entry p q /\ exists j, has m j p).
  { intros k q H. destruct (has_number _ _ _ _ H) as (n & N & E). destruct (Forall2_nth _ _ _ F _ _ N) as (p & P & S).
    exists n, p. split; [exact E|]. split; [exact P|]. split; [exact S|]. apply nth_error_In, used_in_order_in in P. apply P. }
  split.
  - intros j p k q A B E. destruct (X _ _ A) as (n & p' & -> & N1 & S1 & _). destruct (X _ _ B) as (n' & q' & -> & N2 & S2 & _).
    destruct (Nat.eq_dec n n') as [->|NE]; [reflexivity|]. destruct (used_order_ids m M n n' p' q' N1 N2 NE) as (a & b & NE' & P1 & P2).
    destruct NE'. apply (T a p' b q' P1 P2). rewrite <- (se_guid _ _ S1), <- (se_guid _ _ S2). exact E.
  - intros u (k & q & H & <-). destruct (X _ _ H) as (_ & p & _ & _ & S & j & J). exists j, p. split; [exact J|symmetry; apply S].
Qed.
Lemma tidy_no_table oc lb o : tidy_op oc lb o -> no_table o.
Proof. destruct o; cbn; auto. Qed.
Theorem C102_sessions : forall oc lb ops g g2, visits oc lb ops g g2 -> forall h,
  tidy g h -> typed_table (g_partitions g) -> c_change_partition_count (g_config g) = false -> c_lb (g_config g) = lb ->
  Forall (fun o => tidy_op oc lb o /\ typed_op o) ops ->
  told_apart (g_partitions g) -> NoDup (drawn ops) -> (forall u, In u (drawn ops) -> ~ names_one (g_partitions g) u) ->
  told_apart (g_partitions g2) /\
  forall u, names_one (g_partitions g2) u -> names_one (g_partitions g) u \/ In u (drawn ops).
Proof.
  intros oc lb ops g g2 V. induction V as [g|cfg ops rest fs m g ga gb C1 C2 S V IH]; intros h TI TT HC L F T N D; [auto|].
  apply Forall_app in F. destruct F as (F & FR). rewrite <- C1 in F.
  destruct (C63_session oc cfg ops fs g h m ga TI TT HC (eq_trans C1 (eq_sym L)) F S) as (A1 & _ & _ & A4 & A5 & h2 & A6 & _).
  destruct S as (g1 & gw & R & -> & _ & _).
  rewrite drawn_app in N, D. apply NoDup_app_parts in N. destruct N as (N1 & N2 & N3).
  destruct (C102_history oc ops (set_device (with_faults fs (g_device g)) g) g1) as (M1 & T1 & D1); auto.
  { apply (ar_map _ _ (ti_arranged _ _ TI)). }
  { eapply Forall_impl; [|exact F]. intros o (X & _). eapply tidy_no_table, X. }
  { intros u Hu. apply D, in_or_app. auto. }
  destruct (read_back_told _ _ M1 T1 A1) as (M2 & T2 & D2).
  destruct (IH h2) as (T3 & D3); auto; try (rewrite A4; assumption).
  { intros u Hu NO. destruct (D1 u (D2 u NO)) as [X|X]; [apply (D u); [apply in_or_app; auto|exact X]|apply (N3 u X Hu)]. }
  split; [exact T3|]. intros u Hu. rewrite drawn_app. destruct (D3 u Hu) as [X|X]; [|right; apply in_or_app; auto].
  destruct (D1 u (D2 u X)) as [Y|Y]; [auto|right; apply in_or_app; auto].
Qed.
Print Assumptions C102_sessions.

(** A GUID is a lasting name: ids may change from one session to the next, but as long as nobody removes the partition,
    by its GUID or by number, it is there, at the same blocks, with the same type, flags and (kept) name. *)
Lemma spared_step oc o g h g' k p : c_change_partition_count (g_config g) = false ->
  tidy_op oc (c_lb (g_config g)) o -> spares (part_guid p) o -> tidy g h ->
  has (g_partitions g) k p -> used p -> step oc o g = Some g' -> has (g_partitions g') k p.
Proof.
  intros HC TO SP [T1 T2 T3 T4 T5] H U E. assert (M := ar_map _ _ T5).
  destruct o; cbn [tidy_op spares] in TO, SP; try contradiction; cbn [step] in E.
  - destruct (add_partition oc nm size ty fl al rnd g) as [[id|e|] x] eqn:EA; cbn in E; [| |discriminate]; injection E as ->.
    + assert (N32 : num_parts h + 1 < 2 ^ 32) by (pose proof (lo_num _ _ _ T3); lia).
      destruct (C32_no_overwrite_partial oc nm size ty fl al rnd g h id g' T2 T4 T5 TO HC N32 EA) as ((_ & NU) & _).
      destruct (C27_lowest_position_partial oc nm size ty fl al rnd g h id g' T2 T4 T5 TO EA) as (st & _ & PL).
      apply PL. right. split; [|exact H]. intros ->. apply NU. exists p. auto.
    + assert (S1 : 1 <= size).
      { destruct (N.eq_dec size 0) as [->|NE]; [|lia]. unfold add_partition in EA. cbn in EA. discriminate. }
      destruct (add_partition_choose oc nm size ty fl al rnd g h T2 T4 T5 S1 TO) as [(start & _ & EQ)|[(_ & EQ)|(_ & EQ)]];
        rewrite EA in EQ; [|injection EQ as _ ->; exact H|discriminate].
      destruct (finish_add_cases oc nm (blocks_for size (c_lb (g_config g))) ty fl rnd start g h T2 HC) as [X|(id & X)];
        rewrite <- EQ in X; [cbn [snd] in X; subst g'; exact H|discriminate].
  - injection E as <-. unfold remove_partition_by_guid. destruct (find _ _) as [(j, q)|] eqn:FI; [|exact H].
    apply find_some in FI. destruct FI as (FI & EQ). cbn [snd set_partitions g_partitions] in *. apply (has_remove _ M). split; [|exact H].
    intros ->. assert (q = p) by (apply (pm_get_some _ M) in H; apply (pm_get_some _ M) in FI; congruence). subst q.
    apply SP. unfold uuid_eqb in EQ. apply bytes_eqb_eq in EQ. congruence.
  - injection E as <-. exact H.
  - apply kept_some in E. destruct (wo_write oc g) as (_ & _ & C3 & _). rewrite E in C3. rewrite C3. exact H.
Qed.
Lemma spared_run oc ops : forall g h g' k p, tidy g h -> c_change_partition_count (g_config g) = false ->
  typed_table (g_partitions g) ->
  Forall (fun o => tidy_op oc (c_lb (g_config g)) o /\ typed_op o) ops -> Forall (spares (part_guid p)) ops ->
  has (g_partitions g) k p -> used p -> run oc ops g = Some g' -> has (g_partitions g') k p.
Proof.
  induction ops as [|o ops IH]; intros g h g' k p T HC TT F SP H U; cbn [run].
  - intros E. injection E as <-. exact H.
  - destruct (step oc o g) as [g1|] eqn:E; [|discriminate]. intros R. inversion F as [|a l (F1 & F1') F2]; subst.
    inversion SP as [|a l SP1 SP2]; subst.
    assert (TT1 := typed_step oc o g h g1 HC F1 F1' T TT E).
    assert (H1 := spared_step oc o g h g1 k p HC F1 SP1 T H U E).
    destruct T as [T1 T2 T3 T4 T5].
    destruct (tidy_step oc o g h g1 HC F1 T1 T2 T3 T4 T5 E) as (C & L & h1 & A1 & A2 & A3 & A4 & A5 & A6 & A7).
    apply (IH g1 h1 g' k p); auto.
    + constructor; auto; [unfold addressable; rewrite L; exact T1|rewrite C, L; exact A2].
    + rewrite C. exact HC.
    + rewrite C. exact F2.
Qed.
Lemma read_back_has m m' k p : read_back m m' -> has m k p -> used p -> exists j q, has m' j q /\ same_entry p q.
Proof.
  intros (qs & -> & F) H U. rewrite numbered_eq.
  assert (I : In p (used_in_order m)).
  { unfold used_in_order. apply filter_In. split; [apply in_map_iff; exists (k, p); auto|].
    unfold used_dec. destruct (list_eq_dec _ _ _) as [E|E]; [destruct (U E)|reflexivity]. }
  apply In_nth_error in I. destruct I as (n & I).
  assert (Q : exists q, nth_error qs n = Some q /\ same_entry p q).
  { revert n I. induction F as [|x y l l' S F IH]; intros n I; destruct n; cbn in *; try discriminate.
    - injection I as <-. eauto.
    - apply IH, I. }
  destruct Q as (q & Q & S). exists (1 + N.of_nat n), q. split; [|exact S]. clear - Q.
  assert (G : forall i, has (number i qs) (i + N.of_nat n) q).
  { revert n Q. induction qs as [|x qs IH]; intros n Q i; destruct n; cbn in *; try discriminate.
    - injection Q as ->. left. f_equal. lia.
    - right. specialize (IH n Q (i + 1)). replace (i + N.of_nat (S n)) with (i + 1 + N.of_nat n) by lia. exact IH. }
  apply G.
Qed.
Theorem C102_lasting_name : forall oc lb ops g g2, visits oc lb ops g g2 -> forall h k p,
  tidy g h -> typed_table (g_partitions g) -> c_change_partition_count (g_config g) = false -> c_lb (g_config g) = lb ->
  Forall (fun o => tidy_op oc lb o /\ typed_op o) ops -> Forall (spares (part_guid p)) ops ->
  has (g_partitions g) k p -> used p -> still_there (g_partitions g2) p.
Proof.
  intros oc lb ops g g2 V. induction V as [g|cfg ops rest fs m g ga gb C1 C2 S V IH]; intros h k p TI TT HC L F SP H U.
  - exists k, p. auto.
  - apply Forall_app in F. destruct F as (F & FR). apply Forall_app in SP. destruct SP as (SP & SPR). rewrite <- C1 in F.
    destruct (C63_session oc cfg ops fs g h m ga TI TT HC (eq_trans C1 (eq_sym L)) F S) as (A1 & _ & _ & A4 & A5 & h2 & A6 & _).
    destruct S as (g1 & gw & R & -> & _ & _).
    assert (H1 : has (g_partitions g1) k p).
    { apply (spared_run oc ops (set_device (with_faults fs (g_device g)) g) h g1 k p); auto.
      - destruct TI as [T1 T2 T3 T4 T5]. constructor; auto.
      - cbn [set_device g_config]. rewrite L, <- C1. exact F. }
    destruct (read_back_has _ _ k p A1 H1 U) as (j & q & HQ & SE).
    destruct (IH h2 j q) as (j2 & q2 & H2 & S2); auto; try (rewrite A4; assumption).
    { rewrite (se_guid _ _ SE). exact SPR. }
    { eapply same_entry_used; eauto. }
    exists j2, q2. split; [exact H2|]. right. destruct S2 as [->|S2]; [exact SE|].
    eapply same_entry_trans; eauto. apply (TT k p H).
Qed.
Print Assumptions C102_lasting_name.
(** A concrete case: two sessions on the sample disk; the first adds two partitions and removes the one that was there,
    the second adds one more.  The second partition of the first session ends up with another id, under the same GUID. *)
Definition drawn_a : uuid := repeat xaa 16.
Definition drawn_b : uuid := repeat xbb 16.
Definition drawn_c : uuid := repeat xcc 16.
Definition ty_linux : ptype := mkType linux_fs OsLinux.
Definition first_visit : list op := [OpAdd [97] 512 ty_linux 0 None drawn_a; OpAdd [98] 1024 ty_linux 0 None drawn_b; OpRemoveGuid other_guid].
Definition second_visit : list op := [OpAdd [99] 512 ty_linux 0 None drawn_c; OpRemoveGuid drawn_a].
Definition start_disk : gdisk :=
  mkGdisk mini_config wide_dev sample_guid (Ok wide_header) (Err HInvalidGptSignature) [(1, part_at 40 44)] false.
Definition after_visit (ops : list op) (g : gdisk) : option gdisk :=
  match run true ops g with
  | Some g1 => match write_inplace true g1 with
               | (Ok _, gw) => match open_from_device true mini_config (g_device gw) with (Ok g2, _) => Some g2 | _ => None end
               | _ => None
               end
  | None => None
  end.
(** The GUIDs drawn must differ: nothing compares the GUID drawn with those in use. *)
Example C102_draws_must_differ : told_apart (g_partitions start_disk) /\
  ~ told_apart (g_partitions (snd (add_partition true [120] 512 ty_linux 0 None other_guid start_disk))).
Proof.
  split. { intros j p k q [E|[]] [E'|[]] _; injection E as <- <-; injection E' as <- <-; reflexivity. }
  intros T. discriminate (T 1 (part_at 40 44) 2 (mkPart ty_linux other_guid 34 34 0 [120])); vm_compute; auto.
Qed.
Lemma start_tidy : tidy start_disk wide_header.
Proof.
  constructor; [unfold addressable; cbn [start_disk g_device]; rewrite wide_len; reflexivity|left; reflexivity|apply wide_layout|apply wide_usable|].
  constructor; [repeat constructor| |].
  - intros k p [E|[]] _; injection E as <- <-; cbn; lia.
  - intros j p k q [E|[]] [E'|[]] _ _ NE x; injection E as <- <-; injection E' as <- <-; destruct NE; reflexivity.
Qed.
Example C102_case : tidy start_disk wide_header /\
  match after_visit first_visit start_disk with
  | Some g1 => map (fun e => (fst e, part_guid (snd e), first_lba (snd e))) (g_partitions g1) = [(1, drawn_a, 34); (2, drawn_b, 35)] /\
      match after_visit second_visit g1 with
      | Some g2 => map (fun e => (fst e, part_guid (snd e), first_lba (snd e))) (g_partitions g2) = [(1, drawn_b, 35); (2, drawn_c, 37)]
      | None => False
      end
  | None => False
  end /\
  NoDup (drawn (first_visit ++ second_visit)) /\ Forall (spares drawn_b) (first_visit ++ second_visit) /\
  Forall (fun o => tidy_op true Lb512 o /\ typed_op o) (first_visit ++ second_visit) /\
  (forall u, In u (drawn (first_visit ++ second_visit)) -> ~ names_one (g_partitions start_disk) u).
Proof.
  split; [exact start_tidy|]. split; [vm_compute; repeat split|]. split.
  { cbn [first_visit second_visit app drawn]. repeat constructor; cbn; intros H; repeat destruct H as [H|H]; try discriminate; contradiction. }
  split. { repeat constructor; discriminate. }
  split. { repeat (constructor; [split; [cbn; unfold sensible, alignment; try (split; [lia|left; reflexivity]); auto|cbn; repeat split; repeat constructor; unfold char_ok; try lia]|]). constructor. }
  intros u H (k & p & [E|[]] & G). injection E as <- <-. subst u. cbn in H. repeat destruct H as [H|H]; try discriminate; contradiction.
Qed.
