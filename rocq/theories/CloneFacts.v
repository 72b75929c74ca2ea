(** CloneFacts.v - two open disks that differ in what no call looks at (C90). *)
From Verif Require Export SpecClone StdProgFacts.
Open Scope list_scope.
Open Scope N_scope.

Lemma io_lossy_idem e : io_lossy (io_lossy e) = io_lossy e.
Proof. destruct e; reflexivity. Qed.
Lemma lossy_idem (o : outcome hdr_err header) : omap_err lossy_clone (omap_err lossy_clone o) = omap_err lossy_clone o.
Proof. destruct o as [h|[]|]; cbn; try reflexivity. rewrite io_lossy_idem. reflexivity. Qed.

Definition synced (b : bool) : M gdisk gpt_err unit := if b then on_device (map_err GIo sync_all) else ret tt.

Section Twin.
  (** [twin g g']: no call tells [g] from [g'].  [like] relates their devices, [sync] says how the flags for
      [sync_all] may differ. *)
  Context (like : dev -> dev -> Prop) (sync : bool -> bool -> Prop).
  Record twin (g g' : gdisk) : Prop := mkTwin {
    tw_config : g_config g' = g_config g;
    tw_guid : g_guid g' = g_guid g;
    tw_parts : g_partitions g' = g_partitions g;
    tw_primary : primary_header g' = primary_header g;
    tw_backup : backup_header g' = backup_header g;
    tw_device : like (g_device g) (g_device g');
    tw_sync : sync (g_sync g) (g_sync g')
  }.
  Context (DV : forall A (F : dev -> A * dev), made F -> forall d d', like d d' ->
       fst (F d') = fst (F d) /\ like (snd (F d)) (snd (F d')))
    (PD : forall d d', like d d' -> data d' = data d /\ pos d' = pos d).
  Definition cm {A} (F F' : gdisk -> A * gdisk) : Prop :=
    forall g g', twin g g' -> fst (F' g') = fst (F g) /\ twin (snd (F g)) (snd (F' g')).
  Context (SY : forall b b', sync b b' -> cm (synced b) (synced b')).

  Lemma tw_try g g' : twin g g' -> try_header g' = try_header g.
  Proof.
    intros [_ _ _ P B _ _]. unfold primary_header, backup_header, try_header in *.
    destruct (g_primary g) as [h|e|], (g_primary g') as [h'|e'|]; cbn [omap_err or_else] in *; try discriminate P; try exact B; exact P.
  Qed.
  Lemma tw_the {E} g g' : twin g g' -> @the_header E g' = the_header g.
  Proof. intros T. unfold the_header. rewrite (tw_try g g' T). reflexivity. Qed.
  Lemma cm_read {A} (F F' : gdisk -> A) : (forall g g', twin g g' -> F' g' = F g) -> cm (fun g => (F g, g)) (fun g => (F' g, g)).
  Proof. intros X g g' T. cbn [fst snd]. auto. Qed.
  Lemma cm_set {A} (a : A) (F : gdisk -> gdisk) : (forall g g', twin g g' -> twin (F g) (F g')) -> cm (fun g => (a, F g)) (fun g => (a, F g)).
  Proof. intros X g g' T. cbn [fst snd]. auto. Qed.
  Lemma cm_bind {E A B} (m m' : M gdisk E A) (k k' : A -> M gdisk E B) :
    cm m m' -> (forall a, cm (k a) (k' a)) -> cm (bind m k) (bind m' k').
  Proof.
    intros X Y g g' T. unfold bind. destruct (X g g' T) as (X1 & X2).
    destruct (m g) as [r g1], (m' g') as [r' g1']. cbn [fst snd] in *. subst r'. destruct r as [a|e|]; [apply Y, X2|auto|auto].
  Qed.
  Lemma cm_lift {E A} (o : outcome E A) : cm (@lift gdisk E A o) (lift o).
  Proof. intros g g' T. auto. Qed.
  Lemma cm_ret {E A} (a : A) : cm (@ret gdisk E A a) (ret a).
  Proof. intros g g' T. auto. Qed.
  Lemma cm_throw {E A} (e : E) : cm (@throw gdisk E A e) (throw e).
  Proof. intros g g' T. auto. Qed.
  Lemma cm_panic {E A} : cm (@panic gdisk E A) panic.
  Proof. intros g g' T. auto. Qed.
  Lemma tw_set_device g g' d d' : twin g g' -> like d d' -> twin (set_device d g) (set_device d' g').
  Proof. intros [] L. constructor; assumption. Qed.
  Lemma tw_set_primary g g' h : twin g g' -> twin (set_primary (Ok h) g) (set_primary (Ok h) g').
  Proof. intros []. constructor; assumption || reflexivity. Qed.
  Lemma tw_set_backup g g' h : twin g g' -> twin (set_backup (Ok h) g) (set_backup (Ok h) g').
  Proof. intros []. constructor; assumption || reflexivity. Qed.
  Lemma tw_set_partitions g g' m : twin g g' -> twin (set_partitions m g) (set_partitions m g').
  Proof. intros []. constructor; assumption || reflexivity. Qed.
  Lemma tw_set_guid g g' u : twin g g' -> twin (set_guid u g) (set_guid u g').
  Proof. intros []. constructor; assumption || reflexivity. Qed.
  Lemma tw_set_config g g' c : twin g g' -> twin (set_config c g) (set_config c g').
  Proof. intros []. constructor; assumption || reflexivity. Qed.
  Lemma cm_on_device {E A} (m : M dev E A) : made m -> cm (on_device m) (on_device m).
  Proof.
    intros MK g g' T. unfold on_device. destruct (DV _ m MK _ _ (tw_device _ _ T)) as (X & Y).
    destruct (m (g_device g)) as (r, d), (m (g_device g')) as (r', d'). cbn [fst snd] in *.
    split; [exact X|apply tw_set_device; assumption].
  Qed.
  (** Bodies that look at the disk they start with. *)
  Lemma cm_self {A} (B B' : gdisk -> gdisk -> A * gdisk) : (forall g g', twin g g' -> cm (B g) (B' g')) -> cm (fun g => B g g) (fun g => B' g g).
  Proof. intros X g g' T. apply X; exact T. Qed.
  Lemma cm_write_primary h : cm (write_primary_of h) (write_primary_of h).
  Proof.
    intros g g' T. unfold write_primary_of. rewrite (tw_config _ _ T).
    destruct (DV _ _ (mk_write_primary h (c_lb (g_config g))) _ _ (tw_device _ _ T)) as (X & Y). unfold with_header in X, Y.
    destruct (write_primary h (c_lb (g_config g)) (g_device g')) as (r', (h', d')).
    destruct (write_primary h (c_lb (g_config g)) (g_device g)) as (r, (h1, d)). cbn [fst snd] in *. injection X as -> ->.
    split; [reflexivity|]. apply tw_set_device; [apply tw_set_primary, T|exact Y].
  Qed.
  Lemma cm_write_backup h : cm (write_backup_of h) (write_backup_of h).
  Proof.
    intros g g' T. unfold write_backup_of. rewrite (tw_config _ _ T).
    destruct (DV _ _ (mk_write_backup h (c_lb (g_config g))) _ _ (tw_device _ _ T)) as (X & Y). unfold with_header in X, Y.
    destruct (write_backup h (c_lb (g_config g)) (g_device g')) as (r', (h', d')).
    destruct (write_backup h (c_lb (g_config g)) (g_device g)) as (r, (h1, d)). cbn [fst snd] in *. injection X as -> ->.
    split; [reflexivity|]. apply tw_set_device; [apply tw_set_backup, T|exact Y].
  Qed.
  Lemma cm_ext {A} (F F' G G' : gdisk -> A * gdisk) : (forall g, F g = G g) -> (forall g, F' g = G' g) -> cm F F' -> cm G G'.
  Proof. intros X Y C g g' H. rewrite <- X, <- Y. apply C, H. Qed.
  Lemma cm_write_inplace oc : cm (write_inplace oc) (write_inplace oc).
  Proof.
    apply (cm_ext (fun g => wip oc g g) (fun g => wip oc g g)); [apply wip_eq|apply wip_eq|].
    apply (cm_self (wip oc) (wip oc)). intros g0 g0' T0. unfold wip. rewrite (tw_config _ _ T0). destruct (negb _); [apply cm_throw|].
    apply cm_bind; [apply cm_on_device, mk_map_err, mk_find_backup|intros _].
    apply (cm_self (wip_inner oc (c_lb (g_config g0))) (wip_inner oc (c_lb (g_config g0)))). intros g1 g1' T1.
    unfold wip_inner. rewrite (tw_the _ _ T1), (tw_config _ _ T1), (tw_parts _ _ T1).
    apply cm_bind; [apply cm_lift|intros h]. apply cm_bind; [apply cm_lift|intros ph].
    apply cm_bind; [apply cm_set; intros; apply tw_set_primary; assumption|intros _].
    apply cm_bind.
    { destruct (c_readonly_backup _); [apply cm_ret|]. apply cm_bind; [apply cm_lift|intros bh].
      apply cm_set; intros; apply tw_set_backup; assumption. }
    intros bh. apply cm_bind; [apply cm_on_device, mk_write_tables|intros _].
    apply cm_bind; [destruct bh; [apply cm_write_backup|apply cm_ret]|intros _].
    apply cm_bind; [apply cm_write_primary|intros _].
    apply cm_bind; [apply cm_on_device; mk|intros _]. apply SY, T1.
  Qed.
  Lemma cm_init_tail oc lb bak : cm (init_tail oc lb bak) (init_tail oc lb bak).
  Proof.
    intros g g' T. unfold init_tail. rewrite (tw_parts _ _ T), (tw_try _ _ T), (tw_guid _ _ T).
    destruct (build oc _ lb) as [h1|e|]; [|auto|auto]. cbn zeta. cbn [set_primary g_config]. rewrite (tw_config _ _ T).
    pose proof (tw_set_primary _ _ h1 T) as T1.
    destruct (c_readonly_backup _); [auto|]. destruct (build oc _ lb) as [h2|e|]; [|auto|auto].
    split; [reflexivity|]. apply tw_set_backup, T1.
  Qed.
  Lemma cm_init_headers oc : cm (init_headers oc) (init_headers oc).
  Proof.
    set (B := fun g0 => bind (on_device (map_err GHeader (find_backup_lba (c_lb (g_config g0))))) (init_tail oc (c_lb (g_config g0)))).
    change (cm (fun g => B g g) (fun g => B g g)). apply cm_self. unfold B.
    intros g0 g0' T. rewrite (tw_config _ _ T). apply cm_bind; [apply cm_on_device, mk_map_err, mk_find_backup|intros bak]. apply cm_init_tail.
  Qed.
  Lemma cm_check_count id : cm (check_count id) (check_count id).
  Proof. apply cm_read. intros g g' T. rewrite (tw_the _ _ T), (tw_config _ _ T). reflexivity. Qed.
  Lemma cm_insert oc id p c : cm (insert_partition oc id p c) (insert_partition oc id p c).
  Proof.
    unfold insert_partition. apply cm_bind.
    { intros g g' T. cbn [fst snd]. rewrite (tw_parts _ _ T). split; [reflexivity|apply tw_set_partitions, T]. }
    intros _. apply cm_bind; [destruct c; [apply cm_init_headers|apply cm_ret]|intros _]. apply cm_ret.
  Qed.
  Lemma free_twin {E} oc g g' : twin g g' -> @find_free_sectors E oc g' = find_free_sectors oc g.
  Proof. intros T. unfold find_free_sectors. rewrite (tw_the _ _ T), (tw_parts _ _ T). reflexivity. Qed.
  Lemma next_twin {E} g g' : twin g g' -> @find_next_partition_id E g' = find_next_partition_id g.
  Proof. intros T. unfold find_next_partition_id. rewrite (tw_the _ _ T), (tw_parts _ _ T). reflexivity. Qed.
  Lemma cm_add_in oc nm size ty fl al rnd l : cm (add_in_sections oc nm size ty fl al rnd l) (add_in_sections oc nm size ty fl al rnd l).
  Proof.
    induction l as [|(a, n) l IH]; [apply cm_throw|]. cbn [add_in_sections].
    apply cm_bind; [apply cm_lift|intros off]. apply cm_bind; [apply cm_lift|intros need].
    destruct (need <=? n); [|exact IH]. apply cm_bind; [apply cm_lift|intros st].
    apply cm_bind; [apply cm_read; intros g g' T; apply next_twin, T|intros nx].
    apply cm_bind; [destruct nx; [apply cm_ret|apply cm_read; intros g g' T; rewrite (tw_the _ _ T); reflexivity]|intros id].
    apply cm_bind; [apply cm_lift|intros e]. apply cm_bind; [apply cm_lift|intros last].
    apply cm_bind; [apply cm_check_count|intros c]. apply cm_insert.
  Qed.
  Lemma cm_add oc nm size ty fl al rnd : cm (add_partition oc nm size ty fl al rnd) (add_partition oc nm size ty fl al rnd).
  Proof.
    unfold add_partition. destruct (size =? 0); [apply cm_panic|].
    set (B := fun g0 => bind (fun g => (find_free_sectors oc g, g))
      (add_in_sections oc nm ((size - 1) / lb_u64 (c_lb (g_config g0)) + 1) ty fl al rnd)).
    change (cm (fun g => B g g) (fun g => B g g)). apply cm_self. unfold B.
    intros g0 g0' T. rewrite (tw_config _ _ T). apply cm_bind; [apply cm_read; intros g g' T'; apply free_twin, T'|intros l]. apply cm_add_in.
  Qed.
  Lemma cm_add_at_in oc nm id first len ty fl rnd l :
    cm (add_at_in_sections oc nm id first len ty fl rnd l) (add_at_in_sections oc nm id first len ty fl rnd l).
  Proof.
    induction l as [|(a, n) l IH]; [apply cm_throw|]. cbn [add_at_in_sections]. destruct (negb _); [exact IH|].
    apply cm_bind; [apply cm_lift|intros e]. apply cm_bind; [apply cm_lift|intros last].
    apply cm_bind; [apply cm_check_count|intros c]. apply cm_insert.
  Qed.
  Lemma cm_add_at oc nm id first len ty fl rnd :
    cm (add_partition_at oc nm id first len ty fl rnd) (add_partition_at oc nm id first len ty fl rnd).
  Proof.
    unfold add_partition_at. destruct (len =? 0); [apply cm_panic|]. destruct (id =? 0); [apply cm_panic|].
    set (B := fun g0 => if match pm_get id (g_partitions g0) with Some p => is_used p | None => false end
      then throw GPartitionIdAlreadyUsed else bind (fun g => (find_free_sectors oc g, g)) (add_at_in_sections oc nm id first len ty fl rnd)).
    assert (X : forall g, B g g = if match pm_get id (g_partitions g) with Some p => is_used p | None => false end
      then (Err GPartitionIdAlreadyUsed, g) else bind (fun g => (find_free_sectors oc g, g)) (add_at_in_sections oc nm id first len ty fl rnd) g).
    { intros g. unfold B. destruct (match pm_get id _ with Some p => is_used p | None => false end); reflexivity. }
    apply (cm_ext _ _ _ _ X X). apply (cm_self B B). unfold B.
    intros g0 g0' T. rewrite (tw_parts _ _ T). destruct (match pm_get id _ with Some p => is_used p | None => false end); [apply cm_throw|].
    apply cm_bind; [apply cm_read; intros g g' T'; apply free_twin, T'|intros l]. apply cm_add_at_in.
  Qed.
  Lemma cm_update_partitions oc pp : cm (update_partitions oc pp) (update_partitions oc pp).
  Proof.
    unfold update_partitions. apply cm_bind; [destruct (pm_get 0 pp); [apply cm_panic|apply cm_ret]|intros _].
    apply cm_bind; [apply cm_check_count|intros _].
    apply cm_bind; [apply cm_set; intros; apply tw_set_partitions; assumption|intros _]. apply cm_init_headers.
  Qed.
  Lemma cm_replied {A} (v : A -> value) F F' : cm F F' -> cm (fun g => replied v (F g)) (fun g => replied v (F' g)).
  Proof. intros X g g' T. destruct (X g g' T) as (X1 & X2). unfold replied. rewrite X1. split; [reflexivity|exact X2]. Qed.
  Lemma cm_told {A} (v : A -> value) F F' : cm F F' -> cm (fun g => told v (F g)) (fun g => told v (F' g)).
  Proof. intros X g g' T. destruct (X g g' T) as (X1 & X2). unfold told. rewrite X1. split; [reflexivity|exact X2]. Qed.
  (** The devices put in are like themselves. *)
  Definition fits (c : call) : Prop := match c with Do (OpUpdateDevice d _) => like d d | _ => True end.
  Lemma cm_ask oc c : fits c -> cm (ask oc c) (ask oc c).
  Proof.
    intros FT. unfold ask. destruct c as [o| | | | | | | | |].
    - destruct o.
      + apply cm_replied, cm_add.
      + apply cm_replied, cm_add_at.
      + apply cm_told. intros g g' T. unfold remove_partition. rewrite (tw_parts _ _ T).
        destruct (pm_get id _); cbn [fst snd]; split; try reflexivity; [apply tw_set_partitions, T|exact T].
      + apply cm_told. intros g g' T. unfold remove_partition_by_guid. rewrite (tw_parts _ _ T).
        destruct (find _ _) as [(i, p)|]; cbn [fst snd]; split; try reflexivity; [apply tw_set_partitions, T|exact T].
      + apply cm_told. intros g g' T. unfold take_partitions. cbn [fst snd]. split; [apply T|apply tw_set_partitions, T].
      + apply cm_set. intros. apply tw_set_guid. assumption.
      + apply cm_replied, cm_update_partitions.
      + apply cm_replied, cm_write_inplace.
      + intros g g' T. unfold told, update_disk_device. cbn [fst snd]. rewrite (tw_config _ _ T).
        destruct (PD _ _ (tw_device _ _ T)) as (-> & ->). split; [reflexivity|]. apply tw_set_device; [apply tw_set_config, T|exact FT].
    - apply cm_read. intros g g' T. rewrite (tw_primary _ _ T). reflexivity.
    - apply cm_read. intros g g' T. rewrite (tw_backup _ _ T). reflexivity.
    - apply cm_replied. apply cm_read. intros g g' T. apply tw_the, T.
    - apply cm_read. intros g g' T. rewrite (tw_parts _ _ T). reflexivity.
    - apply cm_read. intros g g' T. rewrite (tw_guid _ _ T). reflexivity.
    - apply cm_read. intros g g' T. rewrite (tw_config _ _ T). reflexivity.
    - apply cm_replied. apply cm_read. intros g g' T. apply free_twin, T.
    - apply cm_replied. apply cm_read. intros g g' T. apply next_twin, T.
    - apply cm_read. intros g g' T. unfold calculate_alignment. rewrite (tw_parts _ _ T). reflexivity.
  Qed.
  Lemma cm_talk oc cs : Forall fits cs -> cm (talk oc cs) (talk oc cs).
  Proof.
    induction cs as [|c cs IH]; intros FF g g' T; [split; [reflexivity|exact T]|].
    assert (F1 : fits c) by (inversion FF; assumption). assert (F2 : Forall fits cs) by (inversion FF; assumption). cbn [talk].
    destruct (cm_ask oc c F1 g g' T) as (X & Y). destruct (ask oc c g) as (r, g1), (ask oc c g') as (r', g1'). cbn [fst snd] in *. subst r'.
    destruct (IH F2 g1 g1' Y) as (Z & W). destruct (talk oc cs g1) as (l, g2), (talk oc cs g1') as (l', g2'). cbn [fst snd] in *. subst l'.
    destruct r; cbn [fst snd]; auto.
  Qed.
End Twin.

Lemma clone_twin g : twin eq eq g (gdisk_clone g).
Proof. constructor; try reflexivity; apply lossy_idem. Qed.
Lemma clone_talk oc cs g g' : twin eq eq g g' ->
  fst (talk oc cs g') = fst (talk oc cs g) /\ twin eq eq (snd (talk oc cs g)) (snd (talk oc cs g')).
Proof.
  apply (cm_talk eq eq).
  - intros A F _ d d' <-. auto.
  - intros d d' <-. auto.
  - intros b b' <- x x' T. unfold synced. destruct b; [|auto]. unfold on_device. rewrite <- (tw_device _ _ _ _ T).
    destruct (map_err GIo sync_all (g_device x)) as (r, d). cbn [fst snd]. split; [reflexivity|apply tw_set_device; auto].
  - apply Forall_forall. intros [[]| | | | | | | | |] _; exact I || reflexivity.
Qed.

(** Devices that do not fail and differ at most in what reached the medium. *)
Definition unsynced (d d' : dev) : Prop := same_dev d d' /\ faults d = [].
Lemma unsynced_io {R} (o : io R) d d' : unsynced d d' ->
  fst (do_io o d') = fst (do_io o d) /\ unsynced (snd (do_io o d)) (snd (do_io o d')).
Proof.
  intros ((E1 & E2 & E3 & E4 & E5) & F). destruct d as [l p gr em fs du], d' as [l' p' gr' em' fs' du'].
  cbn [data pos growable eof_moves faults] in *. subst. unfold unsynced, same_dev.
  destruct o as [n| | |n|bs| |]; cbn [do_io]; try (repeat split; reflexivity).
  - unfold read_exact, tick, dev_len. cbn [faults data pos eof_moves]. destruct (n =? 0); [repeat split; reflexivity|].
    destruct (p + n <=? lenN l); [repeat split; reflexivity|]. destruct (em && (p <=? lenN l)); repeat split; reflexivity.
  - unfold write_all, tick, dev_len. cbn [faults data pos growable]. destruct bs as [|b bs]; [repeat split; reflexivity|].
    destruct (gr || (p + lenN (b :: bs) <=? lenN l)); repeat split; reflexivity.
Qed.
Lemma unsynced_steps {A} (p : prog A) : forall d d', unsynced d d' ->
  fst (run_steps p d') = fst (run_steps p d) /\ unsynced (snd (run_steps p d)) (snd (run_steps p d')).
Proof.
  induction p as [a|R o k IH]; intros d d' U; [split; [reflexivity|exact U]|]. cbn [run_steps].
  destruct (unsynced_io o d d' U) as (X & Y). destruct (do_io o d) as (r, d1), (do_io o d') as (r', d1'). cbn [fst snd] in *. subst r'.
  apply IH, Y.
Qed.
Definition any_sync (b b' : bool) : Prop := True.
Lemma unsynced_talk oc cs g g' : twin unsynced any_sync g g' -> Forall sound_call cs ->
  fst (talk oc cs g') = fst (talk oc cs g) /\ twin unsynced any_sync (snd (talk oc cs g)) (snd (talk oc cs g')).
Proof.
  intros T K. revert g g' T. apply (cm_talk unsynced any_sync).
  - intros A m (p & P) d d' U. rewrite <- !P. apply unsynced_steps, U.
  - intros d d' ((X1 & X2 & _) & _). auto.
  - intros b b' _ x x' T. destruct T as [T1 T2 T3 T4 T5 ((E1 & E2 & E3 & E4 & E5) & F) T7].
    assert (T : forall d d', unsynced d d' -> twin unsynced any_sync (set_device d x) (set_device d' x'))
      by (intros; constructor; assumption).
    assert (S : forall b x, faults (g_device x) = [] -> exists du, synced b x =
      (Ok tt, set_device (mkDev (data (g_device x)) (pos (g_device x)) (growable (g_device x)) (eof_moves (g_device x)) [] du) x)).
    { intros [|] y FY; unfold synced.
      - exists (data (g_device y)). unfold on_device, map_err, sync_all, tick. rewrite FY. cbn. rewrite FY. reflexivity.
      - exists (durable (g_device y)). unfold ret. f_equal. destruct y as [? [? ? ? ? fy ?] ? ? ? ? ?]. cbn in *. subst fy. reflexivity. }
    destruct (S b x F) as (du & ->). destruct (S b' x') as (du' & ->); [congruence|]. cbn [fst snd]. split; [reflexivity|].
    apply T. repeat split; assumption.
  - apply Forall_forall. rewrite Forall_forall in K. intros c I. specialize (K c I).
    destruct c as [[]| | | | | | | | |]; try exact Logic.I. repeat split. exact K.
Qed.
