(** SettingsFacts.v - the same calls under two configurations (C98). *)
From Verif Require Export SpecSettings CloneFacts.
Open Scope list_scope.
Open Scope N_scope.

Definition forbidden {A} (r : outcome gpt_err A) : Prop := r = Err GReadOnly \/ r = Err GPartitionCountWouldChange.
Definition lifts {A} (c c' : config) (r : outcome gpt_err A) : Prop :=
  r = Err GReadOnly /\ c_writable c = false /\ c_writable c' = true \/
  r = Err GPartitionCountWouldChange /\ c_change_partition_count c = false /\ c_change_partition_count c' = true.
(** [m] does the same under a looser configuration, or is refused what that one permits; it keeps the
    configuration. *)
Definition eased {A} (m : M gdisk gpt_err A) : Prop := forall g c', looser (g_config g) c' ->
  g_config (snd (m g)) = g_config g /\
  (lifts (g_config g) c' (fst (m g)) \/ m (set_config c' g) = (fst (m g), set_config c' (snd (m g)))).
Lemma ez_bind {A B} (m : M gdisk gpt_err A) (k : A -> M gdisk gpt_err B) : eased m -> (forall a, eased (k a)) -> eased (bind m k).
Proof.
  intros X Y g c' L. unfold bind. destruct (X g c' L) as (X1 & X2). destruct (m g) as [r g1]. cbn [fst snd] in *.
  assert (L1 : looser (g_config g1) c') by (rewrite X1; exact L).
  destruct r as [a|e|]; cbn [fst snd].
  - destruct (Y a g1 c' L1) as (Y1 & Y2). split; [congruence|]. rewrite X1 in Y2. destruct Y2 as [Y2|Y2]; [left; exact Y2|].
    destruct X2 as [[(X2 & _)|(X2 & _)]|X2]; try discriminate. right. rewrite X2. exact Y2.
  - split; [exact X1|]. destruct X2 as [[(X2 & X3)|(X2 & X3)]|X2].
    + left. injection X2 as ->. left. auto.
    + left. injection X2 as ->. right. auto.
    + right. rewrite X2. reflexivity.
  - split; [exact X1|]. destruct X2 as [[(X2 & _)|(X2 & _)]|X2]; try discriminate. right. rewrite X2. reflexivity.
Qed.
Lemma ez_pure {A} (o : outcome gpt_err A) (F : gdisk -> gdisk) : (forall c g, F (set_config c g) = set_config c (F g)) ->
  (forall g, g_config (F g) = g_config g) -> eased (fun g => (o, F g)).
Proof. intros X Y g c' L. cbn [fst snd]. split; [apply Y|right; rewrite X; reflexivity]. Qed.
Lemma ez_lift {A} (o : outcome gpt_err A) : eased (lift o).
Proof. apply (ez_pure o (fun g => g)); reflexivity. Qed.
Lemma ez_ret {A} (a : A) : eased (ret a).
Proof. apply (ez_pure (Ok a) (fun g => g)); reflexivity. Qed.
Lemma ez_throw {A} e : eased (@throw gdisk gpt_err A e).
Proof. apply (ez_pure (Err e) (fun g => g)); reflexivity. Qed.
Lemma ez_panic {A} : eased (@panic gdisk gpt_err A).
Proof. apply (ez_pure Panic (fun g => g)); reflexivity. Qed.
Lemma ez_read {A} (F : gdisk -> outcome gpt_err A) : (forall c g, looser (g_config g) c -> F (set_config c g) = F g) -> eased (fun g => (F g, g)).
Proof. intros X g c' L. cbn [fst snd]. split; [reflexivity|right; rewrite (X c' g L); reflexivity]. Qed.
Lemma ez_on_device {A} (m : M dev gpt_err A) : eased (on_device m).
Proof.
  intros g c' L. unfold on_device. cbn [set_config g_device]. destruct (m (g_device g)) as [r d]. cbn [fst snd].
  split; [reflexivity|right; reflexivity].
Qed.
Lemma ez_self {A} (B : gdisk -> M gdisk gpt_err A) : (forall g, eased (B g)) ->
  (forall g c, looser (g_config g) c -> B (set_config c g) = B g) -> eased (fun g => B g g).
Proof. intros X Y g c L. rewrite (Y g c L). apply X, L. Qed.
Lemma ez_ext {A} (m m' : M gdisk gpt_err A) : (forall g, m g = m' g) -> eased m -> eased m'.
Proof. intros X Y g c L. rewrite <- !X. apply Y, L. Qed.
Lemma ez_check_count id : eased (check_count id).
Proof.
  intros g c' L. unfold check_count. cbn [fst snd]. split; [reflexivity|].
  change (the_header (set_config c' g)) with (@the_header gpt_err g). cbn [g_config set_config].
  destruct (the_header g) as [h|e|]; cbn [obind]; [|right; reflexivity|right; reflexivity].
  destruct (num_parts_would_change h id); cbn [andb]; [|right; reflexivity].
  destruct (c_change_partition_count (g_config g)) eqn:E; cbn [negb].
  - destruct L as (_ & _ & _ & L). rewrite (L E). right. reflexivity.
  - destruct (c_change_partition_count c') eqn:E'; cbn [negb]; [left; right; auto|right; reflexivity].
Qed.
Lemma ez_init_tail oc lb bak : eased (init_tail oc lb bak).
Proof.
  intros g c' L. unfold init_tail. cbn [g_partitions g_guid g_config set_config set_primary].
  change (try_header (set_config c' g)) with (try_header g). destruct L as (_ & L & _). rewrite L.
  destruct (build oc _ lb) as [h1|e|]; [|split; [reflexivity|right; reflexivity]|split; [reflexivity|right; reflexivity]].
  destruct (c_readonly_backup (g_config g)); [split; [reflexivity|right; reflexivity]|].
  destruct (build oc _ lb) as [h2|e|]; (split; [reflexivity|right; reflexivity]).
Qed.
Lemma ez_init oc : eased (init_headers oc).
Proof.
  set (B := fun g0 => bind (on_device (map_err GHeader (find_backup_lba (c_lb (g_config g0))))) (init_tail oc (c_lb (g_config g0)))).
  change (eased (fun g => B g g)). apply ez_self; unfold B.
  - intros g. apply ez_bind; [apply ez_on_device|intros; apply ez_init_tail].
  - intros g c (L & _). cbn [g_config set_config]. rewrite L. reflexivity.
Qed.
Lemma ez_insert oc id p c : eased (insert_partition oc id p c).
Proof.
  unfold insert_partition. apply ez_bind; [apply ez_pure; reflexivity|intros _].
  apply ez_bind; [destruct c; [apply ez_init|apply ez_ret]|intros _]. apply ez_ret.
Qed.
Lemma ez_add_in oc nm size ty fl al rnd l : eased (add_in_sections oc nm size ty fl al rnd l).
Proof.
  induction l as [|(a, n) l IH]; [apply ez_throw|]. cbn [add_in_sections].
  apply ez_bind; [apply ez_lift|intros off]. apply ez_bind; [apply ez_lift|intros need].
  destruct (need <=? n); [|exact IH]. apply ez_bind; [apply ez_lift|intros st].
  apply ez_bind; [apply ez_read; reflexivity|intros nx].
  apply ez_bind; [destruct nx; [apply ez_ret|apply ez_read; reflexivity]|intros id].
  apply ez_bind; [apply ez_lift|intros e]. apply ez_bind; [apply ez_lift|intros last].
  apply ez_bind; [apply ez_check_count|intros c]. apply ez_insert.
Qed.
Lemma ez_add oc nm size ty fl al rnd : eased (add_partition oc nm size ty fl al rnd).
Proof.
  unfold add_partition. destruct (size =? 0); [apply ez_panic|].
  set (B := fun g0 => bind (fun g => (find_free_sectors oc g, g))
    (add_in_sections oc nm ((size - 1) / lb_u64 (c_lb (g_config g0)) + 1) ty fl al rnd)).
  change (eased (fun g => B g g)). apply ez_self; unfold B.
  - intros g. apply ez_bind; [apply ez_read; reflexivity|intros; apply ez_add_in].
  - intros g c (L & _). cbn [g_config set_config]. rewrite L. reflexivity.
Qed.
Lemma ez_add_at_in oc nm id first len ty fl rnd l : eased (add_at_in_sections oc nm id first len ty fl rnd l).
Proof.
  induction l as [|(a, n) l IH]; [apply ez_throw|]. cbn [add_at_in_sections]. destruct (negb _); [exact IH|].
  apply ez_bind; [apply ez_lift|intros e]. apply ez_bind; [apply ez_lift|intros last].
  apply ez_bind; [apply ez_check_count|intros c]. apply ez_insert.
Qed.
Lemma ez_add_at oc nm id first len ty fl rnd : eased (add_partition_at oc nm id first len ty fl rnd).
Proof.
  unfold add_partition_at. destruct (len =? 0); [apply ez_panic|]. destruct (id =? 0); [apply ez_panic|].
  set (B := fun g0 => if match pm_get id (g_partitions g0) with Some p => is_used p | None => false end
    then throw GPartitionIdAlreadyUsed else bind (fun g => (find_free_sectors oc g, g)) (add_at_in_sections oc nm id first len ty fl rnd)).
  apply (ez_ext (fun g => B g g)).
  - intros g. unfold B. destruct (match pm_get id _ with Some p => is_used p | None => false end); reflexivity.
  - apply ez_self; unfold B; [|reflexivity]. intros g.
    destruct (match pm_get id _ with Some p => is_used p | None => false end); [apply ez_throw|].
    apply ez_bind; [apply ez_read; reflexivity|intros; apply ez_add_at_in].
Qed.
Lemma ez_update_partitions oc pp : eased (update_partitions oc pp).
Proof.
  unfold update_partitions. apply ez_bind; [destruct (pm_get 0 pp); [apply ez_panic|apply ez_ret]|intros _].
  apply ez_bind; [apply ez_check_count|intros _]. apply ez_bind; [apply ez_pure; reflexivity|intros _]. apply ez_init.
Qed.
Lemma ez_write_primary h : eased (write_primary_of h).
Proof.
  intros g c' (L & _). unfold write_primary_of. cbn [g_config set_config g_device]. rewrite L.
  destruct (write_primary h (c_lb (g_config g)) (g_device g)) as [r [h' d]]. split; [reflexivity|right; reflexivity].
Qed.
Lemma ez_write_backup h : eased (write_backup_of h).
Proof.
  intros g c' (L & _). unfold write_backup_of. cbn [g_config set_config g_device]. rewrite L.
  destruct (write_backup h (c_lb (g_config g)) (g_device g)) as [r [h' d]]. split; [reflexivity|right; reflexivity].
Qed.
Lemma ez_wip_inner oc lb g : eased (wip_inner oc lb g).
Proof.
  unfold wip_inner. apply ez_bind; [apply ez_lift|intros h]. apply ez_bind; [apply ez_lift|intros ph].
  apply ez_bind; [apply ez_pure; reflexivity|intros _]. apply ez_bind.
  { destruct (c_readonly_backup _); [apply ez_ret|]. apply ez_bind; [apply ez_lift|intros bh]. apply ez_pure; reflexivity. }
  intros bh. apply ez_bind; [apply ez_on_device|intros _].
  apply ez_bind; [destruct bh; [apply ez_write_backup|apply ez_ret]|intros _].
  apply ez_bind; [apply ez_write_primary|intros _]. apply ez_bind; [apply ez_on_device|intros _].
  destruct (g_sync g); [apply ez_on_device|apply ez_ret].
Qed.
Lemma ez_write oc : eased (write_inplace oc).
Proof.
  set (B := fun g0 : gdisk => bind (on_device (map_err GHeader (find_backup_lba (c_lb (g_config g0)))))
    (fun _ g' => wip_inner oc (c_lb (g_config g0)) g' g')).
  assert (X : eased (fun g => B g g)).
  { apply ez_self; unfold B.
    - intros g. apply ez_bind; [apply ez_on_device|intros _]. apply ez_self; [intros; apply ez_wip_inner|].
      intros g1 c (_ & L & _). unfold wip_inner. cbn [g_config set_config]. rewrite L. reflexivity.
    - intros g c (L & _). cbn [g_config set_config]. rewrite L. reflexivity. }
  intros g c' L. rewrite <- !wip_eq. unfold wip. cbn [g_config set_config].
  destruct (c_writable (g_config g)) eqn:W.
  - destruct L as (L1 & L2 & L3 & L4). rewrite (L3 W). cbn [negb]. apply X. repeat split; auto.
  - cbn [negb]. split; [reflexivity|]. destruct (c_writable c') eqn:W'; cbn [negb]; [left; left; auto|right; reflexivity].
Qed.

(** One call and conversations. *)
Definition narrows (c c' c1 c2 : config) : Prop := looser c1 c2 /\ forall r, lifted c1 c2 r -> lifted c c' r.
Lemma narrows_refl c c' : looser c c' -> narrows c c' c c'.
Proof. intros L. split; [exact L|auto]. Qed.
Lemma ez_ask oc c g c' : looser (g_config g) c' ->
  lifted (g_config g) c' (fst (ask oc c g)) \/
  exists c2, ask oc c (set_config c' g) = (fst (ask oc c g), set_config c2 (snd (ask oc c g))) /\
    narrows (g_config g) c' (g_config (snd (ask oc c g))) c2 /\ (keeps_device c -> c2 = c').
Proof.
  intros L. assert (N := narrows_refl _ _ L).
  assert (R : forall A (v : A -> value) (m : M gdisk gpt_err A), eased m ->
    lifted (g_config g) c' (fst (replied v (m g))) \/
    exists c2, replied v (m (set_config c' g)) = (fst (replied v (m g)), set_config c2 (snd (replied v (m g)))) /\
      narrows (g_config g) c' (g_config (snd (replied v (m g)))) c2 /\ (True -> c2 = c')).
  { intros A v m X. destruct (X g c' L) as (X1 & X2). unfold replied. destruct (m g) as [r g1]. cbn [fst snd] in *.
    destruct X2 as [[(X2 & X3)|(X2 & X3)]|X2]; [left; left; rewrite X2; auto|left; right; rewrite X2; auto|].
    right. exists c'. rewrite X2. cbn [fst snd]. rewrite X1. auto. }
  assert (Q : forall A (v : A -> value) (F : gdisk -> outcome gpt_err A), (forall c g, F (set_config c g) = F g) ->
    lifted (g_config g) c' (fst (replied v (F g, g))) \/
    exists c2, replied v (F (set_config c' g), set_config c' g) = (fst (replied v (F g, g)), set_config c2 (snd (replied v (F g, g)))) /\
      narrows (g_config g) c' (g_config (snd (replied v (F g, g)))) c2 /\ (True -> c2 = c')).
  { intros A v F X. right. exists c'. rewrite X. unfold replied. cbn [fst snd]. auto. }
  destruct c as [o| | | | | | | | |]; [destruct o|..]; cbn [keeps_device].
  - apply (R _ VId (add_partition oc nm size ty fl al rnd)), ez_add.
  - apply (R _ VId (add_partition_at oc nm id first len ty fl rnd)), ez_add_at.
  - right. exists c'. cbn [ask]. unfold told, remove_partition. cbn [g_partitions set_config].
    destruct (pm_get id (g_partitions g)); (split; [reflexivity|]; split; [exact N|auto]).
  - right. exists c'. cbn [ask]. unfold told, remove_partition_by_guid. cbn [g_partitions set_config].
    destruct (find _ (g_partitions g)) as [[]|]; (split; [reflexivity|]; split; [exact N|auto]).
  - right. exists c'. split; [reflexivity|]. split; [exact N|auto].
  - right. exists c'. split; [reflexivity|]. split; [exact N|auto].
  - apply (R _ (fun _ => VUnit) (update_partitions oc pp)), ez_update_partitions.
  - apply (R _ (fun _ => VUnit) (write_inplace oc)), ez_write.
  - right. exists (cset_writable w c'). destruct L as (L1 & L2 & L3 & L4). split; [reflexivity|]. split; [|intros []].
    split; [repeat split; cbn; auto|]. cbn. intros r [(A & B & C)|(A & B & C)]; [cbn in B, C; congruence|right; auto].
  - right. exists c'. split; [reflexivity|]. split; [exact N|auto].
  - right. exists c'. split; [reflexivity|]. split; [exact N|auto].
  - apply (Q _ (fun h => VHeader (Ok h)) the_header). reflexivity.
  - right. exists c'. split; [reflexivity|]. split; [exact N|auto].
  - right. exists c'. split; [reflexivity|]. split; [exact N|auto].
  - right. exists c'. cbn [ask fst snd]. destruct L as (L1 & L2). cbn [g_config set_config]. rewrite L1.
    split; [reflexivity|]. split; [exact N|auto].
  - apply (Q _ VFree (find_free_sectors oc)). reflexivity.
  - apply (Q _ VMaybe find_next_partition_id). reflexivity.
  - right. exists c'. split; [reflexivity|]. split; [exact N|auto].
Qed.
Lemma ez_talk oc cs : forall g c', looser (g_config g) c' -> Forall (fun r => ~ lifted (g_config g) c' r) (fst (talk oc cs g)) ->
  exists c2, talk oc cs (set_config c' g) = (fst (talk oc cs g), set_config c2 (snd (talk oc cs g))) /\
    looser (g_config (snd (talk oc cs g))) c2 /\ (Forall keeps_device cs -> c2 = c').
Proof.
  induction cs as [|c cs IH]; intros g c' L F; cbn [talk].
  - exists c'. auto.
  - cbn [talk] in F. destruct (ez_ask oc c g c' L) as [B|(c2 & E & (L2 & NW) & K)].
    + exfalso. destruct (ask oc c g) as [r g1]. cbn [fst] in B. destruct r as [v|e|].
      * destruct (talk oc cs g1). destruct B as [(B & _)|(B & _)]; discriminate.
      * destruct (talk oc cs g1). inversion F; subst. contradiction.
      * destruct B as [(B & _)|(B & _)]; discriminate.
    + rewrite E. destruct (ask oc c g) as [r g1]. cbn [fst snd] in *.
      assert (G : r <> Panicked -> Forall (fun r => ~ lifted (g_config g1) c2 r) (fst (talk oc cs g1))).
      { intros NP. apply (Forall_impl (P := fun r => ~ lifted (g_config g) c' r)); [intros x X Y; apply X, NW, Y|].
        destruct r; try congruence; destruct (talk oc cs g1); inversion F; assumption. }
      assert (W : forall r, r <> Panicked -> Forall (fun r => ~ lifted (g_config g1) c2 r) (fst (talk oc cs g1)) ->
        exists c3, (let (l, g) := talk oc cs (set_config c2 g1) in (r :: l, g)) =
          (fst (let (l, g) := talk oc cs g1 in (r :: l, g)), set_config c3 (snd (let (l, g) := talk oc cs g1 in (r :: l, g)))) /\
          looser (g_config (snd (let (l, g) := talk oc cs g1 in (r :: l, g)))) c3 /\ (Forall keeps_device (c :: cs) -> c3 = c')).
      { intros r' _ FF. destruct (IH g1 c2 L2 FF) as (c3 & E3 & L3 & K3). rewrite E3. destruct (talk oc cs g1) as [l g2]. cbn [fst snd] in *.
        exists c3. split; [reflexivity|]. split; [exact L3|]. intros KK. inversion KK; subst. rewrite (K3 H2). apply K, H1. }
      destruct r as [v|e|]; [apply W; [discriminate|apply G; discriminate]|apply W; [discriminate|apply G; discriminate]|].
      cbn [fst snd]. exists c2. split; [reflexivity|]. split; [exact L2|]. intros KK. inversion KK; subst. apply K, H1.
Qed.

(** A call that is forbidden has done nothing. *)
Definition allowed {S A} (m : M S gpt_err A) : Prop := forall g, ~ forbidden (fst (m g)).
Definition idle_if {A} (m : M gdisk gpt_err A) : Prop := forall g, forbidden (fst (m g)) -> snd (m g) = g.
Definition looks {A} (m : M gdisk gpt_err A) : Prop := forall g, snd (m g) = g.
Lemma al_idle {A} (m : M gdisk gpt_err A) : allowed m -> idle_if m.
Proof. intros X g H. destruct (X g H). Qed.
Lemma lo_idle {A} (m : M gdisk gpt_err A) : looks m -> idle_if m.
Proof. intros X g _. apply X. Qed.
Lemma al_bind {S A B} (m : M S gpt_err A) (k : A -> M S gpt_err B) : allowed m -> (forall a, allowed (k a)) -> allowed (bind m k).
Proof.
  intros X Y g. unfold bind. pose proof (X g) as Z. destruct (m g) as [[a|e|] g1]; cbn [fst] in *; [apply Y| |].
  - intros [H|H]; apply Z; [left|right]; congruence.
  - intros [H|H]; discriminate.
Qed.
Lemma ii_bind {A B} (m : M gdisk gpt_err A) (k : A -> M gdisk gpt_err B) : looks m -> (forall a, idle_if (k a)) -> idle_if (bind m k).
Proof.
  intros X Y g. unfold bind. pose proof (X g) as Z. destruct (m g) as [[a|e|] g1]; cbn [fst snd] in *; subst g1; [apply Y|reflexivity|reflexivity].
Qed.
Lemma ii_then {A B} (m : M gdisk gpt_err A) (k : A -> M gdisk gpt_err B) : idle_if m -> (forall a, allowed (k a)) -> idle_if (bind m k).
Proof.
  intros X Y g. unfold bind. pose proof (X g) as Z. destruct (m g) as [[a|e|] g1]; cbn [fst snd] in *.
  - intros H. destruct (Y a g1 H).
  - intros [H|H]; apply Z; [left|right]; congruence.
  - intros [H|H]; discriminate.
Qed.
Lemma al_ok {S A} (F : S -> S) (a : A) : allowed (fun g => (Ok a, F g)).
Proof. intros g [H|H]; discriminate. Qed.
Lemma al_on {A} (m : M dev gpt_err A) : allowed m -> allowed (on_device m).
Proof. intros X g. unfold on_device. pose proof (X (g_device g)) as Y. destruct (m (g_device g)) as [r d]. exact Y. Qed.
Lemma al_err {S E A} (f : E -> gpt_err) (m : M S E A) : (forall e, f e <> GReadOnly /\ f e <> GPartitionCountWouldChange) -> allowed (map_err f m).
Proof.
  intros X g. unfold map_err. destruct (m g) as [[a|e|] d]; cbn [fst]; try (intros [H|H]; discriminate).
  destruct (X e) as (X1 & X2). intros [H|H]; injection H as H; [apply X1, H|apply X2, H].
Qed.
Lemma al_hdr {A} (m : M dev hdr_err A) : allowed (map_err GHeader m).
Proof. apply al_err. split; discriminate. Qed.
Lemma al_io {A} (m : M dev io_err A) : allowed (map_err GIo m).
Proof. apply al_err. split; discriminate. Qed.
Lemma al_init oc : allowed (init_headers oc).
Proof.
  set (B := fun g0 => bind (on_device (map_err GHeader (find_backup_lba (c_lb (g_config g0))))) (init_tail oc (c_lb (g_config g0)))).
  intros g. change (init_headers oc g) with (B g g). unfold B. revert g.
  assert (X : forall lb, allowed (bind (on_device (map_err GHeader (find_backup_lba lb))) (init_tail oc lb))); [|intros g; apply X].
  intros lb. apply al_bind; [apply al_on, al_hdr|]. intros bak g. unfold init_tail. cbn zeta.
  destruct (build oc _ lb) as [h1|e|]; cbn [fst]; [|intros [H|H]; discriminate|intros [H|H]; discriminate].
  destruct (c_readonly_backup _); cbn [fst]; [intros [H|H]; discriminate|].
  destruct (build oc _ lb) as [h2|e|]; cbn [fst]; intros [H|H]; discriminate.
Qed.
Lemma al_insert oc id p c : allowed (insert_partition oc id p c).
Proof.
  unfold insert_partition. apply al_bind; [apply al_ok|intros _].
  apply al_bind; [destruct c; [apply al_init|apply (al_ok (fun g => g))]|intros _; apply (al_ok (fun g => g))].
Qed.
Lemma lo_read {A} (F : gdisk -> outcome gpt_err A) : looks (fun g => (F g, g)).
Proof. intros g. reflexivity. Qed.
Lemma ii_add_in oc nm size ty fl al rnd l : idle_if (add_in_sections oc nm size ty fl al rnd l).
Proof.
  induction l as [|(a, n) l IH]; [apply lo_idle, lo_read|]. cbn [add_in_sections].
  apply ii_bind; [apply lo_read|intros off]. apply ii_bind; [apply lo_read|intros need].
  destruct (need <=? n); [|exact IH]. apply ii_bind; [apply lo_read|intros st].
  apply ii_bind; [apply lo_read|intros nx].
  apply ii_bind; [destruct nx; apply lo_read|intros id].
  apply ii_bind; [apply lo_read|intros e]. apply ii_bind; [apply lo_read|intros last].
  apply ii_bind; [apply lo_read|intros c]. apply al_idle, al_insert.
Qed.
Lemma ii_add_at_in oc nm id first len ty fl rnd l : idle_if (add_at_in_sections oc nm id first len ty fl rnd l).
Proof.
  induction l as [|(a, n) l IH]; [apply lo_idle, lo_read|]. cbn [add_at_in_sections]. destruct (negb _); [exact IH|].
  apply ii_bind; [apply lo_read|intros e]. apply ii_bind; [apply lo_read|intros last].
  apply ii_bind; [apply lo_read|intros c]. apply al_idle, al_insert.
Qed.
Lemma ii_add oc nm size ty fl al rnd : idle_if (add_partition oc nm size ty fl al rnd).
Proof.
  unfold add_partition. destruct (size =? 0); [apply lo_idle, lo_read|].
  intros g. refine (ii_bind _ _ (lo_read _) _ g). intros. apply ii_add_in.
Qed.
Lemma ii_add_at oc nm id first len ty fl rnd : idle_if (add_partition_at oc nm id first len ty fl rnd).
Proof.
  unfold add_partition_at. destruct (len =? 0); [apply lo_idle, lo_read|]. destruct (id =? 0); [apply lo_idle, lo_read|].
  intros g. destruct (match pm_get id _ with Some p => is_used p | None => false end); [intros _; reflexivity|].
  refine (ii_bind _ _ (lo_read _) _ g). intros. apply ii_add_at_in.
Qed.
Lemma ii_update oc pp : idle_if (update_partitions oc pp).
Proof.
  unfold update_partitions. apply ii_bind; [destruct (pm_get 0 pp); apply lo_read|intros _].
  apply ii_bind; [apply lo_read|intros _]. apply al_idle. apply al_bind; [apply al_ok|intros _]. apply al_init.
Qed.
Lemma al_lift_hdr {A} (o : outcome hdr_err A) : allowed (@lift gdisk gpt_err A (omap_err GHeader o)).
Proof. intros g. destruct o; intros [H|H]; discriminate. Qed.
Lemma al_entries oc lb ph bh l : forall idx, allowed (write_entries oc lb ph bh l idx).
Proof.
  induction l as [|(k, p) l IH]; intros idx; cbn [write_entries]; [apply (al_ok (fun d => d))|].
  destruct (num_parts ph <=? idx); [intros d [H|H]; discriminate|]. apply al_bind; [apply al_io|intros _].
  apply al_bind; [|intros _; apply IH]. destruct bh as [bh|]; [|apply (al_ok (fun d => d))].
  destruct (num_parts bh <=? idx); [intros d [H|H]; discriminate|].
  destruct (_ =? _); [apply (al_ok (fun d => d))|apply al_io].
Qed.
Lemma al_sub {S} a b : allowed (@lift S gpt_err N (sub_unwrap a b)).
Proof. intros g. unfold sub_unwrap. destruct (checked_sub64 a b); intros [H|H]; discriminate. Qed.
Lemma al_tables oc lb ph bh m : allowed (write_tables oc lb ph bh m).
Proof.
  unfold write_tables. apply al_bind; [apply al_entries|intros n]. apply al_bind; [apply al_sub|intros k].
  apply al_bind; [apply al_io|intros _]. destruct bh as [bh|]; [|apply (al_ok (fun d => d))].
  apply al_bind; [apply al_sub|intros j]. apply al_io.
Qed.
Lemma al_the_header g : allowed (@lift gdisk gpt_err header (the_header g)).
Proof. intros g'. unfold the_header. destruct (try_header g); intros [H|H]; discriminate. Qed.
Lemma al_wip_inner oc lb g : allowed (wip_inner oc lb g).
Proof.
  unfold wip_inner. apply al_bind; [apply al_the_header|intros h]. apply al_bind; [apply al_lift_hdr|intros ph].
  apply al_bind; [apply al_ok|intros _]. apply al_bind.
  { destruct (c_readonly_backup _); [apply (al_ok (fun d => d))|]. apply al_bind; [apply al_lift_hdr|intros bh]. apply al_ok. }
  intros bh. apply al_bind; [apply al_on, al_tables|intros _].
  apply al_bind; [destruct bh; [|apply (al_ok (fun d => d))]|intros _].
  { intros g1. unfold write_backup_of. destruct (write_backup _ _ _) as [[a|e|] [h' d]]; intros [H|H]; discriminate. }
  apply al_bind; [|intros _].
  { intros g1. unfold write_primary_of. destruct (write_primary _ _ _) as [[a|e|] [h' d]]; intros [H|H]; discriminate. }
  apply al_bind; [apply al_on, al_io|intros _]. destruct (g_sync g); [apply al_on, al_io|apply (al_ok (fun d => d))].
Qed.
Lemma ii_write oc : idle_if (write_inplace oc).
Proof.
  intros g. rewrite <- wip_eq. unfold wip. destruct (negb _); [intros _; reflexivity|].
  intros H. exfalso. revert H. set (lb := c_lb (g_config g)). clearbody lb. revert g.
  change (allowed (bind (on_device (map_err GHeader (find_backup_lba lb))) (fun _ g' => wip_inner oc lb g' g'))).
  apply al_bind; [apply al_on, al_hdr|intros _ g]. apply al_wip_inner.
Qed.
Lemma ask_forbidden oc c g : forbids (fst (ask oc c g)) -> snd (ask oc c g) = g.
Proof.
  assert (R : forall A (v : A -> value) (m : M gdisk gpt_err A), idle_if m -> forbids (fst (replied v (m g))) -> snd (replied v (m g)) = g).
  { intros A v m X. unfold replied. cbn [fst snd]. intros H. apply X. destruct (fst (m g)) as [a|e|]; destruct H as [H|H]; try discriminate; injection H as ->;
      [left|right]; reflexivity. }
  destruct c as [o| | | | | | | | |]; [destruct o|..]; try (intros _; reflexivity); try (intros [H|H]; discriminate H).
  - apply (R _ VId (add_partition oc nm size ty fl al rnd)), ii_add.
  - apply (R _ VId (add_partition_at oc nm id first len ty fl rnd)), ii_add_at.
  - apply (R _ (fun _ => VUnit) (update_partitions oc pp)), ii_update.
  - apply (R _ (fun _ => VUnit) (write_inplace oc)), ii_write.
Qed.
(** Why a call is forbidden. *)
Definition only_if {A} (e : gpt_err) (P : gdisk -> Prop) (m : M gdisk gpt_err A) : Prop := forall g, fst (m g) = Err e -> P g.
Lemma oi_allowed {A} e P (m : M gdisk gpt_err A) : e = GReadOnly \/ e = GPartitionCountWouldChange -> allowed m -> only_if e P m.
Proof. intros [->| ->] X g H; destruct (X g); [left|right]; exact H. Qed.
Lemma oi_bind {A B} e P (m : M gdisk gpt_err A) (k : A -> M gdisk gpt_err B) : looks m -> only_if e P m -> (forall a, only_if e P (k a)) ->
  only_if e P (bind m k).
Proof.
  intros Y X Z g. unfold bind. pose proof (Y g) as Y1. pose proof (X g) as X1. destruct (m g) as [[a|x|] g1]; cbn [fst snd] in *; subst g1.
  - apply Z.
  - intros H. apply X1. congruence.
  - discriminate.
Qed.
Definition ok_or_panic {A} (o : outcome gpt_err A) : Prop := match o with Err _ => False | _ => True end.
Lemma op_bind {A B} (o : outcome gpt_err A) (k : A -> outcome gpt_err B) : ok_or_panic o -> (forall a, ok_or_panic (k a)) -> ok_or_panic (obind o k).
Proof. destruct o; cbn; auto. Qed.
Lemma op_addw oc w a b : ok_or_panic (addw oc w a b).
Proof. unfold addw. destruct (_ <? _); [exact I|]. destruct oc; exact I. Qed.
Lemma op_subw oc w a b : ok_or_panic (subw oc w a b).
Proof. unfold subw. destruct (_ <=? _); [exact I|]. destruct oc; exact I. Qed.
Lemma op_remw a b : ok_or_panic (remw a b).
Proof. unfold remw. destruct (_ =? _); exact I. Qed.
Lemma op_the_header g : ok_or_panic (the_header g).
Proof. unfold the_header. destruct (try_header g); exact I. Qed.
Lemma op_chunks oc n : forall l, (length l <= n)%nat -> ok_or_panic (free_chunks oc l).
Proof.
  induction n as [|n IH]; intros l HL; (destruct l as [|a [|b r]]; [exact I|exact I|]); [cbn in HL; lia|].
  cbn [free_chunks]. apply op_bind; [apply op_addw|intros st]. apply op_bind; [apply op_subw|intros en].
  cbn in HL. destruct (st <=? en); [|apply IH; lia].
  apply op_bind; [apply op_subw|intros x]. apply op_bind; [apply op_addw|intros y]. apply op_bind; [apply IH; lia|intros z]. exact I.
Qed.
Lemma op_free oc g : ok_or_panic (find_free_sectors oc g).
Proof.
  unfold find_free_sectors. apply op_bind; [apply op_the_header|intros h]. apply op_bind; [apply op_subw|intros a].
  apply op_bind; [apply op_addw|intros b]. apply (op_chunks oc _ _ (le_n _)).
Qed.
Lemma op_next g : ok_or_panic (find_next_partition_id g).
Proof. unfold find_next_partition_id. destruct (g_partitions g); [exact I|]. apply op_bind; [apply op_the_header|intros h; exact I]. Qed.
Section Why.
  Variables (e : gpt_err) (P : gdisk -> Prop).
  Hypothesis E : e = GReadOnly \/ e = GPartitionCountWouldChange.
  Lemma oi_read {A} (F : gdisk -> outcome gpt_err A) : (forall g, ok_or_panic (F g)) -> only_if e P (fun g => (F g, g)).
  Proof. intros X g H. cbn [fst] in H. specialize (X g). rewrite H in X. destruct X. Qed.
  Lemma oi_throw {A} x : x <> e -> only_if e P (@throw gdisk gpt_err A x).
  Proof. intros X g H. cbn in H. congruence. Qed.
  Hypothesis CC : forall id, only_if e P (check_count id).
  Lemma oi_add_in oc nm size ty fl al rnd l : only_if e P (add_in_sections oc nm size ty fl al rnd l).
  Proof.
    induction l as [|(a, n) l IH]; [apply oi_throw; clear - E; destruct E as [->| ->]; discriminate|]. cbn [add_in_sections].
    apply oi_bind; [apply lo_read| |intros off].
    { apply oi_read. intros _. destruct al as [al|]; [|exact I]. apply op_bind; [apply op_remw|intros r].
      apply op_bind; [apply op_subw|intros s; apply op_remw]. }
    apply oi_bind; [apply lo_read|apply oi_read; intros; apply op_addw|intros need].
    destruct (need <=? n); [|exact IH]. apply oi_bind; [apply lo_read|apply oi_read; intros; apply op_addw|intros st].
    apply oi_bind; [apply lo_read|apply oi_read; intros; apply op_next|intros nx].
    apply oi_bind; [destruct nx; apply lo_read| |intros id].
    { destruct nx; apply oi_read; intros g; [exact I|]. apply op_bind; [apply op_the_header|intros h; apply op_addw]. }
    apply oi_bind; [apply lo_read|apply oi_read; intros; apply op_addw|intros en].
    apply oi_bind; [apply lo_read|apply oi_read; intros; apply op_subw|intros last].
    apply oi_bind; [apply lo_read|apply CC|intros c]. apply oi_allowed; [exact E|apply al_insert].
  Qed.
  Lemma oi_add_at_in oc nm id first len ty fl rnd l : only_if e P (add_at_in_sections oc nm id first len ty fl rnd l).
  Proof.
    induction l as [|(a, n) l IH]; [apply oi_throw; clear - E; destruct E as [->| ->]; discriminate|]. cbn [add_at_in_sections].
    destruct (negb _); [exact IH|].
    apply oi_bind; [apply lo_read|apply oi_read; intros; apply op_addw|intros en].
    apply oi_bind; [apply lo_read|apply oi_read; intros; apply op_subw|intros last].
    apply oi_bind; [apply lo_read|apply CC|intros c]. apply oi_allowed; [exact E|apply al_insert].
  Qed.
  Lemma oi_add oc nm size ty fl al rnd : only_if e P (add_partition oc nm size ty fl al rnd).
  Proof.
    intros g. unfold add_partition. destruct (size =? 0); [discriminate|].
    refine (oi_bind e P _ _ (lo_read _) (oi_read _ _) _ g); [intros; apply op_free|]. intros. apply oi_add_in.
  Qed.
  Lemma oi_add_at oc nm id first len ty fl rnd : only_if e P (add_partition_at oc nm id first len ty fl rnd).
  Proof.
    intros g. unfold add_partition_at. destruct (len =? 0); [discriminate|]. destruct (id =? 0); [discriminate|].
    destruct (match pm_get id _ with Some p => is_used p | None => false end).
    { cbn [fst]. intros H. exfalso. clear - E H. destruct E; subst e; discriminate. }
    refine (oi_bind e P _ _ (lo_read _) (oi_read _ _) _ g); [intros; apply op_free|]. intros. apply oi_add_at_in.
  Qed.
  Lemma oi_update oc pp : only_if e P (update_partitions oc pp).
  Proof.
    unfold update_partitions. apply oi_bind; [destruct (pm_get 0 pp); apply lo_read|destruct (pm_get 0 pp); apply oi_read; intros; exact I|intros _].
    apply oi_bind; [apply lo_read|apply CC|intros _]. apply oi_allowed; [exact E|]. apply al_bind; [apply al_ok|intros _]. apply al_init.
  Qed.
  Hypothesis WR : forall oc, only_if e P (write_inplace oc).
  Lemma ask_why oc c g : fst (ask oc c g) = Refused e -> P g.
  Proof.
    assert (R : forall A (v : A -> value) (m : M gdisk gpt_err A), only_if e P m -> fst (replied v (m g)) = Refused e -> P g).
    { intros A v m X. unfold replied. cbn [fst]. intros H. apply X. destruct (fst (m g)) as [a|x|]; congruence. }
    destruct c as [o| | | | | | | | |]; [destruct o|..]; try (intros H; discriminate H).
    - apply (R _ VId (add_partition oc nm size ty fl al rnd)), oi_add.
    - apply (R _ VId (add_partition_at oc nm id first len ty fl rnd)), oi_add_at.
    - apply (R _ (fun _ => VUnit) (update_partitions oc pp)), oi_update.
    - apply (R _ (fun _ => VUnit) (write_inplace oc)), WR.
    - apply (R _ (fun h => VHeader (Ok h)) (fun g => (the_header g, g))), oi_read, op_the_header.
    - apply (R _ VFree (fun g => (find_free_sectors oc g, g))), oi_read. apply op_free.
    - apply (R _ VMaybe (fun g => (find_next_partition_id g, g))), oi_read. apply op_next.
  Qed.
End Why.
Lemma write_forbids oc g : forbidden (fst (write_inplace oc g)) -> fst (write_inplace oc g) = Err GReadOnly /\ c_writable (g_config g) = false.
Proof.
  rewrite <- wip_eq. unfold wip. destruct (c_writable (g_config g)); [|intros _; split; reflexivity]. cbn [negb].
  intros H. exfalso. revert H. set (lb := c_lb (g_config g)). clearbody lb. revert g.
  change (allowed (bind (on_device (map_err GHeader (find_backup_lba lb))) (fun _ g' => wip_inner oc lb g' g'))).
  apply al_bind; [apply al_on, al_hdr|intros _ g]. apply al_wip_inner.
Qed.
Lemma ask_read_only_why oc c g : fst (ask oc c g) = Refused GReadOnly -> c_writable (g_config g) = false.
Proof.
  apply (ask_why GReadOnly (fun g => c_writable (g_config g) = false) (or_introl eq_refl)).
  - intros id g0. unfold check_count. cbn [fst]. pose proof (op_the_header g0) as X. destruct (the_header g0) as [h|e|]; cbn [obind]; [|destruct X|discriminate].
    destruct (_ && _); discriminate.
  - intros oc0 g0 H. apply (write_forbids oc0 g0). left. exact H.
Qed.
Lemma ask_count_why oc c g : fst (ask oc c g) = Refused GPartitionCountWouldChange -> c_change_partition_count (g_config g) = false.
Proof.
  apply (ask_why GPartitionCountWouldChange (fun g => c_change_partition_count (g_config g) = false) (or_intror eq_refl)).
  - intros id g0. unfold check_count. cbn [fst]. pose proof (op_the_header g0) as X. destruct (the_header g0) as [h|e|]; cbn [obind]; [|destruct X|discriminate].
    destruct (c_change_partition_count (g_config g0)); [|reflexivity]. rewrite Bool.andb_false_r. discriminate.
  - intros oc0 g0 H. destruct (write_forbids oc0 g0) as (X & _); [right; exact H|]. congruence.
Qed.
(** Histories are conversations. *)
Lemma step_ask oc o g : step oc o g = match ask oc (Do o) g with (Panicked, _) => None | (_, g) => Some g end.
Proof.
  destruct o; cbn [step ask told fst snd]; try reflexivity; unfold kept, replied;
    match goal with |- context [match fst ?x with _ => _ end] => destruct x as [[a|e|] g1] end; reflexivity.
Qed.
Lemma run_talk oc ops : forall g g', run oc ops g = Some g' -> snd (talk oc (map Do ops) g) = g' /\ ~ In Panicked (fst (talk oc (map Do ops) g)).
Proof.
  induction ops as [|o ops IH]; intros g g'; cbn [run map talk].
  - intros E. injection E as <-. split; [reflexivity|intros []].
  - rewrite step_ask. destruct (ask oc (Do o) g) as [[v|e|] g1]; [| |discriminate]; intros R; destruct (IH g1 g' R) as (X & Y);
      destruct (talk oc (map Do ops) g1) as [l g2]; cbn [fst snd] in *; (split; [exact X|]); intros [H|H]; (discriminate || contradiction).
Qed.
Lemma talk_run oc ops : forall g, ~ In Panicked (fst (talk oc (map Do ops) g)) -> run oc ops g = Some (snd (talk oc (map Do ops) g)).
Proof.
  induction ops as [|o ops IH]; intros g; cbn [run map talk]; [reflexivity|].
  rewrite step_ask. destruct (ask oc (Do o) g) as [[v|e|] g1]; specialize (IH g1); intros N.
  - destruct (talk oc (map Do ops) g1) as [l g2]. apply IH. intros H. apply N. right. exact H.
  - destruct (talk oc (map Do ops) g1) as [l g2]. apply IH. intros H. apply N. right. exact H.
  - destruct N. left. reflexivity.
Qed.
