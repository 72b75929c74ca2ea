(** UndoFacts.v - adding and removing again (C85). *)
From Verif Require Export AllocFacts HistoryFacts.
Open Scope list_scope.
Open Scope N_scope.

(** What a successful addition leaves behind. *)
Definition added (rnd : uuid) (g : gdisk) (id : N) (g' : gdisk) : Prop :=
  (exists p, part_guid p = rnd /\ g_partitions g' = pm_insert id p (g_partitions g) /\
     forall h, header_of g h -> N.max id 128 <= num_parts h -> g' = set_partitions (pm_insert id p (g_partitions g)) g) /\
  (forall h, header_of g h -> c_change_partition_count (g_config g) = false -> N.max id 128 <= num_parts h) /\
  exists h, header_of g h.
Lemma tail_added oc ty rnd a b fl nm id g k g' :
  (let* changes := check_count id in insert_partition oc id (mkPart ty rnd a b fl nm) changes) g = (Ok k, g') ->
  k = id /\ added rnd g id g'.
Proof.
  unfold bind at 1, check_count. destruct (@the_header gpt_err g) as [h|e|] eqn:EH; try discriminate. cbn [obind].
  destruct (num_parts_would_change h id && negb (c_change_partition_count (g_config g))) eqn:W; [discriminate|].
  intros H. apply insert_partition_ok in H. destruct H as (-> & H1 & H2). split; [reflexivity|]. split.
  - exists (mkPart ty rnd a b fl nm). split; [reflexivity|]. split; [exact H1|]. intros h' HH L. apply H2.
    rewrite (@the_header_of gpt_err g h' HH) in EH. injection EH as <-.
    destruct (num_parts_would_change h' id) eqn:Y; [|reflexivity]. apply would_change_iff in Y. lia.
  - split; [|exists h; apply header_of_iff; unfold the_header in EH; destruct (try_header g); try discriminate; congruence].
    intros h' HH C. rewrite (@the_header_of gpt_err g h' HH) in EH. injection EH as <-. rewrite C in W.
    destruct (num_parts_would_change h' id) eqn:Y; [discriminate|].
    destruct (N.le_gt_cases (N.max id 128) (num_parts h')) as [L|L]; [exact L|]. apply would_change_iff in L. congruence.
Qed.
Lemma sections_added oc nm n ty fl al rnd secs : forall g k g',
  add_in_sections oc nm n ty fl al rnd secs g = (Ok k, g') -> added rnd g k g'.
Proof.
  induction secs as [|(s, len) secs IH]; intros g k g'; cbn [add_in_sections]; [discriminate|].
  unfold bind at 1, lift. destruct (match al with Some _ => _ | None => _ end) as [off|e|]; try discriminate.
  unfold bind at 1. destruct (addw oc 64 off n) as [need|e|]; try discriminate.
  destruct (need <=? len); [|apply IH].
  unfold bind at 1. destruct (addw oc 64 s off) as [start|e|]; try discriminate.
  unfold bind at 1. destruct (find_next_partition_id g) as [next|e|]; try discriminate.
  unfold bind at 1.
  set (pick := match next with Some i => ret i | None => _ end).
  assert (X : snd (pick g) = g) by (unfold pick; destruct next; reflexivity).
  destruct (pick g) as [[id|e|] g0]; cbn in X; subst g0; try discriminate.
  unfold bind at 1. destruct (addw oc 64 start n) as [e|e|]; try discriminate.
  unfold bind at 1. destruct (subw oc 64 e 1) as [last|e1|]; try discriminate.
  intros H. apply tail_added in H. destruct H as (-> & H). exact H.
Qed.
Lemma add_added oc nm size ty fl al rnd g k g' :
  add_partition oc nm size ty fl al rnd g = (Ok k, g') -> added rnd g k g'.
Proof.
  unfold add_partition. destruct (size =? 0); [discriminate|]. cbn zeta. unfold bind at 1.
  destruct (find_free_sectors oc g) as [secs|e|]; try discriminate. apply sections_added.
Qed.
Lemma at_sections_added oc nm id first n ty fl rnd secs : forall g k g',
  add_at_in_sections oc nm id first n ty fl rnd secs g = (Ok k, g') -> k = id /\ added rnd g id g'.
Proof.
  induction secs as [|(s, len) secs IH]; intros g k g'; cbn [add_at_in_sections]; [discriminate|].
  destruct (negb _); [apply IH|].
  unfold bind at 1, lift. destruct (addw oc 64 first n) as [e|e|]; try discriminate.
  unfold bind at 1. destruct (subw oc 64 e 1) as [last|e1|]; try discriminate. apply tail_added.
Qed.
Lemma add_at_added oc nm id first n ty fl rnd g k g' :
  add_partition_at oc nm id first n ty fl rnd g = (Ok k, g') ->
  k = id /\ added rnd g id g' /\ match pm_get id (g_partitions g) with Some p => is_used p = false | None => True end.
Proof.
  unfold add_partition_at. destruct (n =? 0); [discriminate|]. destruct (id =? 0); [discriminate|].
  destruct (pm_get id (g_partitions g)) as [p|]; [destruct (is_used p) eqn:U; [discriminate|]|]; unfold bind at 1;
    destruct (find_free_sectors oc g) as [secs|e|]; try discriminate; intros H; apply at_sections_added in H;
    destruct H as (-> & H); auto.
Qed.

(** * Tables *)
Lemma remove_insert m k p : map_ok m -> pm_remove k (pm_insert k p m) = pm_remove k m.
Proof.
  intros MO. apply pmap_ext; [apply map_ok_remove, map_ok_insert, MO|apply map_ok_remove, MO|].
  intros j q. rewrite !has_remove, has_insert by (auto using map_ok_insert). intuition congruence.
Qed.
Lemma remove_absent m k : map_ok m -> (forall p, ~ has m k p) -> pm_remove k m = m.
Proof.
  intros MO H. apply pmap_ext; [apply map_ok_remove, MO|exact MO|].
  intros j q. rewrite has_remove by auto. split; [tauto|]. intros X. split; [|exact X]. intros ->. exact (H q X).
Qed.
Lemma insert_remove m k p : map_ok m -> has m k p -> pm_insert k p (pm_remove k m) = m.
Proof.
  intros MO H. apply pmap_ext; [apply map_ok_insert, map_ok_remove, MO|exact MO|].
  intros j q. rewrite has_insert, has_remove by (auto using map_ok_remove). split.
  - intros [(-> & ->)|(_ & _ & X)]; auto.
  - intros X. destruct (N.eq_dec j k) as [->|NE]; [left|right; auto].
    split; [reflexivity|]. pose proof (proj2 (pm_get_some m MO k p) H) as A. pose proof (proj2 (pm_get_some m MO k q) X) as B. congruence.
Qed.
Lemma has_unique m k p q : map_ok m -> has m k p -> has m k q -> p = q.
Proof.
  intros MO A B. apply pm_get_some in A; auto. apply pm_get_some in B; auto. congruence.
Qed.
Lemma used_remove m k : map_ok m -> ~ is_in_use k m -> used_parts (pm_remove k m) = used_parts m.
Proof.
  intros MO H. unfold used_parts.
  assert (X : forall l : pmap, StronglySorted N.lt (map fst l) -> StronglySorted N.lt (map fst (filter (fun p => is_used (snd p)) l))).
  { induction l as [|(j, q) l IH]; cbn; auto. intros S. inversion S as [|a b S1 S2 E1]; subst.
    destruct (is_used q); auto. cbn. constructor; auto. rewrite Forall_forall in *. intros x Hx. apply S2.
    apply in_map_iff in Hx. destruct Hx as (y & <- & Hy). apply filter_In in Hy. apply in_map, Hy. }
  apply pmap_ext.
  - apply X, map_ok_remove, MO.
  - apply X, MO.
  - intros j q. unfold has. rewrite !filter_In. cbn [snd]. change (In (j, q) (pm_remove k m)) with (has (pm_remove k m) j q).
    rewrite has_remove by auto. change (In (j, q) m) with (has m j q). split; [tauto|]. intros (A & B). split; [|exact B].
    split; [|exact A]. intros ->. apply H. exists q. split; [exact A|]. apply used_is, B.
Qed.
