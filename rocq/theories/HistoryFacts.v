(** HistoryFacts.v - what every call leaves alone, for all faults. *)
From Verif Require Export MapFacts.
Open Scope list_scope.
Open Scope N_scope.

(** [always R m]: the disk after [m] is related to the disk before, however [m] ends. *)
Definition always {E A} (R : gdisk -> gdisk -> Prop) (m : M gdisk E A) : Prop := forall g, R g (snd (m g)).
Lemma always_bind {E A B} (R : gdisk -> gdisk -> Prop) (m : M gdisk E A) (k : A -> M gdisk E B) :
  (forall a b c, R a b -> R b c -> R a c) -> always R m -> (forall a, always R (k a)) -> always R (bind m k).
Proof.
  intros T HM HK g. unfold bind. pose proof (HM g) as X. destruct (m g) as [[a|e|] g1]; cbn [snd] in X |- *.
  - eapply T; [exact X|apply HK].
  - exact X.
  - exact X.
Qed.

(** Calls that only work on the disk in memory. *)
Definition in_memory (g g' : gdisk) : Prop :=
  same_media (g_device g) (g_device g') /\ g_config g' = g_config g /\ g_sync g' = g_sync g /\
  g_guid g' = g_guid g.
Lemma in_memory_refl g : in_memory g g.
Proof. repeat split. Qed.
Lemma in_memory_trans a b c : in_memory a b -> in_memory b c -> in_memory a c.
Proof.
  intros (A1 & A2 & A3 & A4) (B1 & B2 & B3 & B4). split; [eapply same_media_trans; eauto|].
  repeat split; congruence.
Qed.
Definition memory_only {E A} (m : M gdisk E A) : Prop := always in_memory m.
Lemma mo_bind {E A B} (m : M gdisk E A) (k : A -> M gdisk E B) :
  memory_only m -> (forall a, memory_only (k a)) -> memory_only (bind m k).
Proof. apply always_bind. apply in_memory_trans. Qed.
Lemma mo_ret {E A} (a : A) : memory_only (@ret gdisk E A a).
Proof. intros g. apply in_memory_refl. Qed.
Lemma mo_throw {E A} (e : E) : memory_only (@throw gdisk E A e).
Proof. intros g. apply in_memory_refl. Qed.
Lemma mo_panic {E A} : memory_only (@panic gdisk E A).
Proof. intros g. apply in_memory_refl. Qed.
Lemma mo_lift {E A} (o : outcome E A) : memory_only (@lift gdisk E A o).
Proof. intros g. apply in_memory_refl. Qed.
Lemma mo_query {E A} (f : gdisk -> outcome E A) : memory_only (fun g => (f g, g)).
Proof. intros g. apply in_memory_refl. Qed.
Lemma mo_check id : memory_only (check_count id).
Proof. intros g. apply in_memory_refl. Qed.
Lemma mo_init oc : memory_only (init_headers oc).
Proof.
  intros g. unfold init_headers. unfold bind at 1.
  pose proof (untouched_find_backup_lba (c_lb (g_config g)) (g_device g)) as U.
  unfold on_device, map_err. destruct (find_backup_lba (c_lb (g_config g)) (g_device g)) as [[n|e|] d];
    cbn [snd] in U; try (repeat split; cbn; apply U).
  cbn zeta. destruct (build oc _ _) as [h1|e|]; try (repeat split; cbn; apply U).
  cbn [g_config set_primary set_device]. destruct (c_readonly_backup (g_config g)); [repeat split; cbn; apply U|].
  destruct (build oc _ _) as [h2|e|]; repeat split; cbn; apply U.
Qed.
Create HintDb mo.
Global Hint Resolve mo_bind mo_ret mo_throw mo_panic mo_lift mo_query mo_check mo_init : mo.
Lemma mo_insert oc id p c : memory_only (insert_partition oc id p c).
Proof.
  unfold insert_partition. apply mo_bind; [intros g; repeat split|]. intros _.
  apply mo_bind; [destruct c; auto with mo|]. intros _. apply mo_ret.
Qed.
Global Hint Resolve mo_insert : mo.
Lemma mo_add_in_sections oc nm sz ty fl al rnd s : memory_only (add_in_sections oc nm sz ty fl al rnd s).
Proof.
  induction s as [|[a l] s IH]; cbn [add_in_sections]; [apply mo_throw|].
  apply mo_bind; [apply mo_lift|]. intros off. apply mo_bind; [apply mo_lift|]. intros need.
  destruct (need <=? l); [|exact IH]. apply mo_bind; [apply mo_lift|]. intros start.
  apply mo_bind; [apply mo_query|]. intros next.
  apply mo_bind; [destruct next; [apply mo_ret|apply mo_query]|]. intros id.
  apply mo_bind; [apply mo_lift|]. intros e. apply mo_bind; [apply mo_lift|]. intros last.
  apply mo_bind; [apply mo_check|]. intros c. apply mo_insert.
Qed.
Lemma mo_add oc nm size ty fl al rnd : memory_only (add_partition oc nm size ty fl al rnd).
Proof.
  intros g. unfold add_partition. destruct (size =? 0); [apply in_memory_refl|]. cbn zeta.
  apply (mo_bind (fun g => (find_free_sectors oc g, g))); [apply mo_query|]. intros s. apply mo_add_in_sections.
Qed.
Lemma mo_add_at_in_sections oc nm id first len ty fl rnd s :
  memory_only (add_at_in_sections oc nm id first len ty fl rnd s).
Proof.
  induction s as [|[a l] s IH]; cbn [add_at_in_sections]; [apply mo_throw|].
  destruct (negb _); [exact IH|]. apply mo_bind; [apply mo_lift|]. intros e.
  apply mo_bind; [apply mo_lift|]. intros last. apply mo_bind; [apply mo_check|]. intros c. apply mo_insert.
Qed.
Lemma mo_add_at oc nm id first len ty fl rnd : memory_only (add_partition_at oc nm id first len ty fl rnd).
Proof.
  intros g. unfold add_partition_at. destruct (len =? 0); [apply in_memory_refl|].
  destruct (id =? 0); [apply in_memory_refl|]. match goal with |- context [if ?b then _ else _] => destruct b end; [apply in_memory_refl|].
  apply (mo_bind (fun g => (find_free_sectors oc g, g))); [apply mo_query|]. intros s. apply mo_add_at_in_sections.
Qed.
Lemma mo_update_partitions oc pp : memory_only (update_partitions oc pp).
Proof.
  unfold update_partitions. apply mo_bind; [match goal with |- context [if ?b then _ else _] => destruct b end; auto with mo|]. intros _.
  apply mo_bind; [apply mo_check|]. intros _. apply mo_bind; [intros g; repeat split|]. intros _. apply mo_init.
Qed.
Lemma mo_remove id g : in_memory g (snd (remove_partition id g)).
Proof. unfold remove_partition. destruct (pm_get _ _); repeat split. Qed.
Lemma mo_remove_guid u g : in_memory g (snd (remove_partition_by_guid u g)).
Proof. unfold remove_partition_by_guid. destruct (find _ _) as [[k p]|]; repeat split. Qed.

(** [write_inplace] leaves everything but the device and the two headers alone. *)
Definition metadata_only (g g' : gdisk) : Prop :=
  g_config g' = g_config g /\ g_guid g' = g_guid g /\ g_partitions g' = g_partitions g /\ g_sync g' = g_sync g.
Lemma meta_refl g : metadata_only g g.
Proof. repeat split. Qed.
Lemma meta_trans a b c : metadata_only a b -> metadata_only b c -> metadata_only a c.
Proof. unfold metadata_only. intuition congruence. Qed.
Definition writes_only {E A} (m : M gdisk E A) : Prop := always metadata_only m.
Lemma wo_bind {E A B} (m : M gdisk E A) (k : A -> M gdisk E B) :
  writes_only m -> (forall a, writes_only (k a)) -> writes_only (bind m k).
Proof. apply always_bind. apply meta_trans. Qed.
Lemma wo_on_device {E A} (m : M dev E A) : writes_only (on_device m).
Proof. intros g. unfold on_device. destruct (m (g_device g)). repeat split. Qed.
Lemma wo_query {E A} (f : gdisk -> outcome E A) : writes_only (fun g => (f g, g)).
Proof. intros g. apply meta_refl. Qed.
Lemma wo_write_backup_of bh : writes_only (write_backup_of bh).
Proof. intros g. unfold write_backup_of. destruct (write_backup _ _ _) as [r [b d]]. repeat split. Qed.
Lemma wo_write_primary_of bh : writes_only (write_primary_of bh).
Proof. intros g. unfold write_primary_of. destruct (write_primary _ _ _) as [r [b d]]. repeat split. Qed.
Lemma wo_lift {E A} (o : outcome E A) : writes_only (@lift gdisk E A o).
Proof. intros g. apply meta_refl. Qed.
Lemma wo_ret {E A} (a : A) : writes_only (@ret gdisk E A a).
Proof. intros g. apply meta_refl. Qed.
Lemma wo_write_rest oc lb ph bh m s : writes_only (write_rest oc lb ph bh m s).
Proof.
  unfold write_rest. apply wo_bind; [apply wo_on_device|]. intros _.
  apply wo_bind; [destruct bh; [apply wo_write_backup_of|apply wo_ret]|]. intros _.
  apply wo_bind; [apply wo_write_primary_of|]. intros _. apply wo_bind; [apply wo_on_device|]. intros _.
  destruct s; [apply wo_on_device|apply wo_ret].
Qed.
Lemma wo_write oc : writes_only (write_inplace oc).
Proof.
  intros g. unfold write_inplace. destruct (negb _); [apply meta_refl|]. cbn zeta.
  refine (wo_bind _ _ _ _ g); [apply wo_on_device|]. intros _ g1.
  refine (wo_bind _ _ _ _ g1); [apply wo_lift|]. intros h.
  apply wo_bind; [apply wo_lift|]. intros ph. apply wo_bind; [intros g2; repeat split|]. intros _.
  apply wo_bind.
  - destruct (c_readonly_backup (g_config g1)); [apply wo_ret|].
    apply wo_bind; [apply wo_lift|]. intros bh g2. repeat split.
  - intros bh. apply wo_write_rest.
Qed.

(** * Histories *)
Definition writes (o : op) : Prop := o = OpWrite.
Definition swaps (o : op) : Prop := exists d w, o = OpUpdateDevice d w.
Lemma kept_some {A} (r : outcome gpt_err A * gdisk) g : kept r = Some g -> snd r = g.
Proof. destruct r as [[a|e|] g0]; cbn; congruence. Qed.
Lemma step_in_memory oc o g g' : ~ writes o -> ~ swaps o -> step oc o g = Some g' ->
  same_media (g_device g) (g_device g') /\ g_config g' = g_config g /\ g_sync g' = g_sync g.
Proof.
  intros W S H. assert (X : forall g1, in_memory g g1 -> g1 = g' ->
    same_media (g_device g) (g_device g') /\ g_config g' = g_config g /\ g_sync g' = g_sync g).
  { intros g1 (A & B & C & _) <-. auto. }
  destruct o; cbn [step] in H; try apply kept_some in H; try (apply (X _ (mo_add oc nm size ty fl al rnd g) H));
    try (apply (X _ (mo_add_at oc nm id first len ty fl rnd g) H)).
  - injection H as H. exact (X _ (mo_remove id g) H).
  - injection H as H. exact (X _ (mo_remove_guid u g) H).
  - injection H as <-. repeat split.
  - injection H as <-. repeat split.
  - exact (X _ (mo_update_partitions oc pp g) H).
  - destruct W. reflexivity.
  - destruct S. eexists _, _. reflexivity.
Qed.
Lemma step_config oc o g g' : ~ swaps o -> step oc o g = Some g' ->
  g_config g' = g_config g /\ g_sync g' = g_sync g.
Proof.
  intros S H. destruct o; try (eapply step_in_memory in H; [destruct H as (_ & A); exact A| |exact S]; discriminate).
  cbn [step] in H. apply kept_some in H. destruct (wo_write oc g) as (A & _ & _ & B). subst g'. auto.
Qed.
Lemma run_ind (P : gdisk -> gdisk -> Prop) oc :
  (forall g, P g g) -> (forall a b c, P a b -> P b c -> P a c) ->
  forall ops g g', (forall o a b, In o ops -> step oc o a = Some b -> P a b) -> run oc ops g = Some g' -> P g g'.
Proof.
  intros R T. induction ops as [|o ops IH]; intros g g' H; cbn [run].
  - intros E. injection E as <-. apply R.
  - destruct (step oc o g) as [g1|] eqn:E; [|discriminate]. intros E'.
    eapply T; [apply (H o); [left; reflexivity|exact E]|]. apply IH; [|exact E']. intros o' a b I. apply H. right. exact I.
Qed.
