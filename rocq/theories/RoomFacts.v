(** RoomFacts.v - histories that never need a longer array. *)
From Verif Require Export SettingsFacts.
From Verif Require Import CountFacts AllocFacts.
Open Scope list_scope.
Open Scope N_scope.

Lemma all_used m n : map_ok m -> (forall k, 1 <= k <= n -> is_in_use k m) -> n <= lenN (used_in_order m).
Proof.
  intros MO H. rewrite used_in_order_eq, used_list_lenN.
  set (ks := map fst (used_parts m)).
  assert (I : incl (map N.of_nat (seq 1 (N.to_nat n))) ks).
  { intros k K. apply in_map_iff in K. destruct K as (j & <- & K). apply in_seq in K.
    destruct (H (N.of_nat j)) as (p & A & B); [lia|]. unfold ks. apply in_map_iff. exists (N.of_nat j, p). split; [reflexivity|].
    unfold used_parts. apply filter_In. split; [exact A|]. apply used_iff, B. }
  apply NoDup_incl_length in I.
  - rewrite map_length, seq_length in I. unfold ks in I. rewrite map_length in I. unfold lenN. lia.
  - apply FinFun.Injective_map_NoDup; [intros a b; apply Nat2N.inj|apply seq_NoDup].
Qed.
Lemma used_insert_le m k p : lenN (used_in_order (pm_insert k p m)) <= lenN (used_in_order m) + 1.
Proof.
  unfold used_in_order. induction m as [|[j q] m IH]; cbn [pm_insert map filter].
  - cbn [map snd filter]. destruct (used_dec p); [change (lenN [p]) with 1|change (lenN (@nil partition)) with 0]; lia.
  - destruct (k <? j); [|destruct (k =? j)]; cbn [map snd filter]; destruct (used_dec p), (used_dec q); rewrite ?lenN_cons; lia.
Qed.
Lemma used_remove_le m k : lenN (used_in_order (pm_remove k m)) <= lenN (used_in_order m).
Proof.
  unfold used_in_order. induction m as [|[j q] m IH]; cbn [pm_remove map filter]; [apply N.le_refl|].
  destruct (k =? j); cbn [filter map snd]; destruct (used_dec q); rewrite ?lenN_cons; lia.
Qed.

(** * One call *)
Definition uncounted {A} (o : outcome gpt_err A) : Prop := o <> Err GPartitionCountWouldChange.
Lemma op_uncounted {A} (o : outcome gpt_err A) : ok_or_panic o -> uncounted o.
Proof. destruct o; cbn; intros X; [discriminate|contradiction|discriminate]. Qed.
Lemma check_within id g h : header_of g h -> 128 <= num_parts h -> id <= num_parts h -> check_count id g = (Ok false, g).
Proof.
  intros HH N1 N2. unfold check_count. rewrite (the_header_of g h HH). cbn [obind].
  destruct (num_parts_would_change h id) eqn:W; [apply would_change_iff in W; lia|]. reflexivity.
Qed.
Lemma next_within g h : header_of g h -> map_ok (g_partitions g) -> 128 <= num_parts h ->
  lenN (used_in_order (g_partitions g)) < num_parts h ->
  exists i, @find_next_partition_id gpt_err g = Ok (Some i) /\ i <= num_parts h.
Proof.
  intros HH MO N1 L. destruct (@next_id_spec gpt_err g h HH MO ltac:(lia)) as ([i|] & E & R).
  - exists i. split; [exact E|]. destruct R as ((R & _) & _). lia.
  - pose proof (all_used _ _ MO R). lia.
Qed.
Lemma add_uncounted oc nm size ty fl al rnd g h : header_of g h -> map_ok (g_partitions g) -> 128 <= num_parts h ->
  lenN (used_in_order (g_partitions g)) < num_parts h -> uncounted (fst (add_partition oc nm size ty fl al rnd g)).
Proof.
  intros HH MO N1 L. destruct (next_within g h HH MO N1 L) as (i & EI & LI).
  unfold add_partition. destruct (size =? 0); [discriminate|]. set (n := (size - 1) / _ + 1). unfold bind at 1.
  pose proof (op_free oc g) as X. destruct (find_free_sectors oc g) as [secs|e|]; [|destruct X|discriminate]. clear X.
  induction secs as [|[s len] rest IH]; [discriminate|]. cbn [add_in_sections].
  unfold bind at 1, lift at 1.
  match goal with |- context [match ?o with Ok _ => _ | Err _ => _ | Panic => _ end] =>
    assert (X : ok_or_panic o) by (destruct al; [apply op_bind; [apply op_remw|intros]; apply op_bind; [apply op_subw|intros; apply op_remw]|exact I]);
    destruct o as [off|e|]; [|destruct X|discriminate]; clear X end.
  unfold bind at 1, lift at 1. pose proof (op_addw oc 64 off n) as X. destruct (addw oc 64 off n) as [nd|e|]; [|destruct X|discriminate]. clear X.
  destruct (nd <=? len); [|exact IH].
  unfold bind at 1, lift at 1. pose proof (op_addw oc 64 s off) as X. destruct (addw oc 64 s off) as [st|e|]; [|destruct X|discriminate]. clear X.
  unfold bind at 1. rewrite EI. unfold bind at 1. cbn [ret].
  unfold bind at 1, lift at 1. pose proof (op_addw oc 64 st n) as X. destruct (addw oc 64 st n) as [e1|e|]; [|destruct X|discriminate]. clear X.
  unfold bind at 1, lift at 1. pose proof (op_subw oc 64 e1 1) as X. destruct (subw oc 64 e1 1) as [la|e|]; [|destruct X|discriminate]. clear X.
  unfold bind at 1. rewrite (check_within i g h HH N1 LI). discriminate.
Qed.
Lemma add_at_uncounted oc nm id first len ty fl rnd g h : header_of g h -> 128 <= num_parts h -> id <= num_parts h ->
  uncounted (fst (add_partition_at oc nm id first len ty fl rnd g)).
Proof.
  intros HH N1 L. unfold add_partition_at. destruct (len =? 0); [discriminate|]. destruct (id =? 0); [discriminate|].
  destruct (match pm_get id (g_partitions g) with Some _ => _ | None => _ end); [discriminate|]. unfold bind at 1.
  pose proof (op_free oc g) as X. destruct (find_free_sectors oc g) as [secs|e|]; [|destruct X|discriminate]. clear X.
  induction secs as [|[s n] rest IH]; [discriminate|]. cbn [add_at_in_sections]. destruct (negb _); [exact IH|].
  unfold bind at 1, lift at 1. pose proof (op_addw oc 64 first len) as X. destruct (addw oc 64 first len) as [e1|e|]; [|destruct X|discriminate]. clear X.
  unfold bind at 1, lift at 1. pose proof (op_subw oc 64 e1 1) as X. destruct (subw oc 64 e1 1) as [la|e|]; [|destruct X|discriminate]. clear X.
  unfold bind at 1. rewrite (check_within id g h HH N1 L). discriminate.
Qed.

Lemma added_room (good : header -> N -> Prop) g r g' : add_result good g r -> kept r = Some g' -> map_ok (g_partitions g) ->
  map_ok (g_partitions g') /\ lenN (used_in_order (g_partitions g')) <= lenN (used_in_order (g_partitions g)) + 1.
Proof.
  intros [R|(id & p & h & _ & _ & _ & R)] K MO.
  - apply kept_some in K. rewrite <- K, R. split; [exact MO|lia].
  - subst r. cbn in K. injection K as <-. cbn [set_partitions g_partitions]. split; [apply map_ok_insert, MO|apply used_insert_le].
Qed.
Lemma room_step oc o ops g h g' : c_change_partition_count (g_config g) = false -> roomy (o :: ops) g h ->
  fst (ask oc (Do o) g) <> Refused GPartitionCountWouldChange /\
  (step oc o g = Some g' -> c_change_partition_count (g_config g') = false /\
     exists h', roomy ops g' h' /\ num_parts h' = num_parts h).
Proof.
  intros HC (HH & MO & N1 & L & F). inversion F as [|a l F1 F2]; subst. split.
  - assert (K : forall A (v : A -> value) r, uncounted (fst r) -> fst (replied v r) <> Refused GPartitionCountWouldChange).
    { intros A v r X. unfold replied. cbn [fst]. destruct (fst r); try discriminate. intros E. injection E as ->. apply X. reflexivity. }
    destruct o; cbn [ask additions asks_within] in *; try discriminate; try contradiction.
    + apply K. apply (add_uncounted oc _ _ _ _ _ _ g h HH MO N1). lia.
    + apply K. apply (add_at_uncounted oc _ _ _ _ _ _ _ g h HH N1 F1).
    + apply K. intros E. destruct (write_forbids oc g) as (X & _); [right; exact E|]. rewrite E in X. discriminate.
  - intros E. destruct (step_count oc o g h g' HH HC E) as (C & h' & H' & _ & _ & NP & _).
    assert (NE : num_parts h' = num_parts h) by (apply NP; intros pp ->; destruct F1).
    split; [exact C|]. exists h'. split; [|exact NE]. unfold roomy. rewrite NE. split; [exact H'|].
    assert (Y : map_ok (g_partitions g') /\ lenN (used_in_order (g_partitions g')) + additions ops <= num_parts h); [|tauto].
    destruct o; cbn [step additions] in E, L; try contradiction.
    + destruct (added_room _ _ _ _ (add_fixed oc nm size ty fl al rnd g HC) E MO). split; [assumption|lia].
    + destruct (added_room _ _ _ _ (add_at_fixed oc nm id first len ty fl rnd g HC) E MO). split; [assumption|lia].
    + injection E as <-. unfold remove_partition. destruct (pm_get id (g_partitions g)); cbn [snd set_partitions g_partitions].
      * split; [apply map_ok_remove, MO|]. pose proof (used_remove_le (g_partitions g) id). lia.
      * split; [exact MO|exact L].
    + injection E as <-. unfold remove_partition_by_guid. destruct (find _ _) as [[id p]|]; cbn [snd set_partitions g_partitions].
      * split; [apply map_ok_remove, MO|]. pose proof (used_remove_le (g_partitions g) id). lia.
      * split; [exact MO|exact L].
    + injection E as <-. cbn [take_partitions snd set_partitions g_partitions]. split; [apply map_ok_nil|].
      change (lenN (used_in_order [])) with 0. lia.
    + injection E as <-. split; [exact MO|exact L].
    + apply kept_some in E. subst g'. pose proof (wo_write oc g) as (_ & _ & W3 & _). rewrite W3. split; [exact MO|exact L].
    + injection E as <-. split; [exact MO|exact L].
Qed.
Lemma room_talk oc ops : forall g h, c_change_partition_count (g_config g) = false -> roomy ops g h ->
  ~ In (Refused GPartitionCountWouldChange) (fst (talk oc (map Do ops) g)).
Proof.
  induction ops as [|o ops IH]; intros g h HC R; cbn [map talk]; [intros []|].
  pose proof (fun g' => room_step oc o ops g h g' HC R) as K. pose proof (step_ask oc o g) as S.
  destruct (ask oc (Do o) g) as [[v|e|] g1]; cbn [fst snd] in *.
  - destruct (K g1) as (_ & K2). destruct (K2 S) as (C & h' & R' & _). specialize (IH g1 h' C R').
    destruct (talk oc (map Do ops) g1) as [l g2]. cbn [fst] in *. intros [H|H]; [discriminate|contradiction].
  - destruct (K g1) as (K1 & K2). destruct (K2 S) as (C & h' & R' & _). specialize (IH g1 h' C R').
    destruct (talk oc (map Do ops) g1) as [l g2]. cbn [fst] in *. intros [H|H]; [congruence|contradiction].
  - cbn [fst]. intros [H|[]]. discriminate.
Qed.
Lemma room_run_more oc ops rest : forall g h g', c_change_partition_count (g_config g) = false -> roomy (ops ++ rest) g h ->
  run oc ops g = Some g' -> exists h', roomy rest g' h' /\ num_parts h' = num_parts h.
Proof.
  induction ops as [|o ops IH]; intros g h g' HC R; cbn [run app] in *.
  - intros E. injection E as <-. exists h. split; [exact R|reflexivity].
  - destruct (step oc o g) as [g1|] eqn:E; [|discriminate]. destruct (room_step oc o (ops ++ rest) g h g1 HC R) as (_ & K).
    destruct (K E) as (C & h1 & R1 & N1). intros X. destruct (IH g1 h1 g' C R1 X) as (h' & A & B). exists h'. split; [exact A|congruence].
Qed.
Lemma room_run oc ops g h g' : c_change_partition_count (g_config g) = false -> roomy ops g h -> run oc ops g = Some g' ->
  exists h', header_of g' h' /\ num_parts h' = num_parts h.
Proof.
  intros HC R E. rewrite <- (app_nil_r ops) in R. destruct (room_run_more oc ops [] g h g' HC R E) as (h' & (A & _) & B). eauto.
Qed.
Lemma additions_app a b : additions (a ++ b) = additions a + additions b.
Proof. induction a as [|o a IH]; [reflexivity|]. destruct o; cbn [app additions]; lia. Qed.
