(** FaultFacts.v - which calls report every device fault. *)
From Verif Require Export HistoryFacts SpecFault.
Open Scope list_scope.
Open Scope N_scope.

Lemma nf_refl d : no_fault_between d d.
Proof. exists []. auto. Qed.
Lemma nf_trans a b c : no_fault_between a b -> no_fault_between b c -> no_fault_between a c.
Proof.
  intros (x & A & B) (y & C & D). exists (x ++ y). split; [rewrite A, C, app_assoc; reflexivity|].
  apply Forall_app; auto.
Qed.
Lemma nf_same a b a' b' : faults a = faults a' -> faults b = faults b' ->
  no_fault_between a b -> no_fault_between a' b'.
Proof. unfold no_fault_between. intros -> ->. auto. Qed.
Lemma rf_bind {E A B} (m : M dev E A) (k : A -> M dev E B) :
  reports_faults m -> (forall a, reports_faults (k a)) -> reports_faults (bind m k).
Proof.
  intros Hm Hk d b d' E0. unfold bind in *. destruct (m d) as [[a|e|] d1] eqn:E1; try discriminate.
  destruct (Hm _ _ _ E1) as (N1 & R1). destruct (Hk a _ _ _ E0) as (N2 & R2).
  rewrite R1. split; [eapply nf_trans; eauto|exact R2].
Qed.
Lemma rf_lift {E A} (o : outcome E A) : reports_faults (@lift dev E A o).
Proof. intros d a d' H. unfold lift in *. injection H as -> <-. split; [apply nf_refl|reflexivity]. Qed.
Lemma rf_ret {E A} (a : A) : reports_faults (@ret dev E A a).
Proof. intros d b d' H. injection H as -> <-. split; [apply nf_refl|reflexivity]. Qed.
Lemma rf_throw {E A} (e : E) : reports_faults (@throw dev E A e).
Proof. intros d b d' H. discriminate. Qed.
Lemma rf_panic {E A} : reports_faults (@panic dev E A).
Proof. intros d b d' H. discriminate. Qed.
Lemma rf_map_err {E F A} (f : E -> F) (m : M dev E A) : reports_faults m -> reports_faults (map_err f m).
Proof.
  intros Hm d a d' H. unfold map_err in *. destruct (m d) as [[b|e|] d1] eqn:E1; try discriminate.
  injection H as -> ->. destruct (Hm _ _ _ E1) as (N1 & R1). rewrite R1. auto.
Qed.
Lemma tick_pass d d' : tick d = (None, d') ->
  no_fault_between d d' /\ tick (repaired d) = (None, repaired d) /\ repaired d' = repaired d /\
  pos d' = pos d /\ data d' = data d /\ growable d' = growable d /\ eof_moves d' = eof_moves d /\ durable d' = durable d.
Proof.
  unfold tick. destruct (faults d) as [|f r] eqn:F; intros H.
  - injection H as <-. split; [apply nf_refl|]. auto 10.
  - injection H as -> <-. split; [exists [None]; split; [exact F|constructor; auto]|]. auto 10.
Qed.
Ltac ticks H := match type of H with context[tick ?d] => destruct (tick d) as [[?m|] ?d'] eqn:?T; try discriminate H;
  let x := fresh in pose proof (tick_pass _ _ T) as x; destruct x as (? & -> & ? & P & D & G & EM & DU) end.
Lemma rf_seek n : reports_faults (seek_start n).
Proof.
  intros d a d' H. unfold seek_start in *. ticks H. injection H as <- <-. split; [exact H0|].
  destruct d'0 as [dl dp dg de df dd]. cbn in *. subst. reflexivity.
Qed.
Lemma rf_seek_end : reports_faults seek_end.
Proof.
  intros d a d' H. unfold seek_end in *. ticks H. injection H as <- <-. split; [exact H0|].
  destruct d'0 as [dl dp dg de df dd]. unfold dev_len. cbn in *. subst. reflexivity.
Qed.
Lemma rf_position : reports_faults stream_position.
Proof.
  intros d a d' H. unfold stream_position in *. ticks H. injection H as <- <-. split; [exact H0|].
  destruct d'0 as [dl dp dg de df dd]. cbn in *. subst. reflexivity.
Qed.
Lemma rf_read n : reports_faults (read_exact n).
Proof.
  intros d a d' H. unfold read_exact in *. destruct (n =? 0).
  - injection H as <- <-. split; [apply nf_refl|reflexivity].
  - ticks H. destruct d'0 as [dl dp dg de df dd]. unfold dev_len in *. cbn in *. subst.
    destruct (_ <=? _); [|discriminate]. injection H as <- <-. split; [exact H0|reflexivity].
Qed.
Lemma rf_write bs : reports_faults (write_all bs).
Proof.
  intros d a d' H. unfold write_all in *. destruct bs as [|b bs].
  - injection H as <- <-. split; [apply nf_refl|reflexivity].
  - ticks H. destruct d'0 as [dl dp dg de df dd]. unfold dev_len in *. cbn [data pos growable eof_moves faults durable repaired with_faults] in *. subst.
    destruct (_ || _); [|discriminate]. injection H as <- <-. split; [exact H0|reflexivity].
Qed.
Lemma rf_flush : reports_faults flush.
Proof.
  intros d a d' H. unfold flush in *. ticks H. injection H as <- <-. split; [exact H0|].
  destruct d'0 as [dl dp dg de df dd]. cbn in *. subst. reflexivity.
Qed.
Lemma rf_sync : reports_faults sync_all.
Proof.
  intros d a d' H. unfold sync_all in *. ticks H. injection H as <- <-. split; [exact H0|].
  destruct d'0 as [dl dp dg de df dd]. cbn in *. subst. reflexivity.
Qed.
Create HintDb rf.
Global Hint Resolve rf_bind rf_lift rf_ret rf_throw rf_panic rf_map_err rf_seek rf_seek_end rf_position rf_read
  rf_write rf_flush rf_sync : rf.
Ltac rf := repeat (first [apply rf_bind; [|intros ?]|apply rf_map_err|apply rf_lift|apply rf_ret|apply rf_throw|apply rf_panic
  |apply rf_seek|apply rf_seek_end|apply rf_position|apply rf_read|apply rf_write|apply rf_flush|apply rf_sync]).

(** * Functions on devices *)
Lemma rf_checksum h lb : reports_faults (partentry_checksum h lb).
Proof. unfold partentry_checksum. rf. Qed.
Lemma rf_find_backup lb : reports_faults (find_backup_lba lb).
Proof. unfold find_backup_lba. rf. destruct (_ <? _); rf. Qed.
Lemma rf_write_to oc p i s lb n : reports_faults (write_to_device oc p i s lb n).
Proof. unfold write_to_device. rf. Qed.
Lemma rf_write_zero oc i n s lb b : reports_faults (write_zero_entries oc i n s lb b).
Proof. unfold write_zero_entries. rf. Qed.
Lemma rf_entries oc lb ph bh l idx : reports_faults (write_entries oc lb ph bh l idx).
Proof.
  revert idx. induction l as [|(k, p) r IH]; intros idx; cbn [write_entries]; [rf|].
  destruct (_ <=? _); [rf|]. rf; try apply IH.
  destruct bh; rf. destruct (_ <=? _); rf. destruct (_ =? _); rf.
Qed.
Lemma rf_tables oc lb ph bh m : reports_faults (write_tables oc lb ph bh m).
Proof.
  unfold write_tables. rf; try apply rf_entries. destruct bh; rf.
Qed.
Definition rf_pair {E A X} (f : dev -> outcome E A * (X * dev)) : Prop := forall d a x d', f d = (Ok a, (x, d')) ->
  no_fault_between d d' /\ f (repaired d) = (Ok a, (x, repaired d')).
Lemma rf_file_write h lba lb : rf_pair (file_write_header h lba lb).
Proof.
  intros d a x d' H. unfold file_write_header in *.
  destruct (partentry_checksum h lb d) as [[c|e|] d1] eqn:E1; try discriminate.
  destruct (rf_checksum _ _ _ _ _ E1) as (N1 & R1). rewrite R1.
  destruct (hdr_to_bytes _ _) as [[cp hb]|e|]; try discriminate.
  destruct ((wr_seek cp ;; _) hb) as [[[]|e|] hb']; try discriminate.
  match type of H with (let (_, _) := ?m d1 in _) = _ => assert (Q : reports_faults m) end.
  { rf. }
  match type of H with (let (_, _) := ?m d1 in _) = _ => destruct (m d1) as [r d2] eqn:E2 end.
  injection H as -> <- <-. destruct (Q _ _ _ E2) as (N2 & R2). split; [eapply nf_trans; eauto|].
  rewrite R2. reflexivity.
Qed.
Lemma rf_write_primary h lb : rf_pair (write_primary h lb).
Proof. intros d a x d' H. unfold write_primary in *. destruct (_ <=? _); [discriminate|]. apply rf_file_write. exact H. Qed.
Lemma rf_write_backup h lb : rf_pair (write_backup h lb).
Proof. intros d a x d' H. unfold write_backup in *. destruct (_ <=? _); [discriminate|]. apply rf_file_write. exact H. Qed.
Lemma rf_write_header oc u rnd lb : reports_faults (write_header oc u rnd lb).
Proof.
  unfold write_header. apply rf_bind; [apply rf_find_backup|intros bak]. apply rf_bind; [apply rf_lift|intros h].
  intros d a d' H. destruct (write_primary h lb d) as [[n|e|] [h' d1]] eqn:E1; try discriminate.
  injection H as <- <-. destruct (rf_write_primary _ _ _ _ _ _ E1) as (N1 & R1). rewrite R1. auto.
Qed.
Lemma rf_read_entries oc left i e parts : reports_faults (read_entries oc left i e parts).
Proof.
  revert i e parts. induction left as [|n IH]; intros; cbn [read_entries]; [rf|]. rf.
  destruct (bytes_eqb _ _); rf; apply IH.
Qed.
Lemma rf_read_partitions oc h lb : reports_faults (file_read_partitions oc h lb).
Proof.
  unfold file_read_partitions. rf. destruct (negb _); rf; [apply rf_read_entries|]. destruct (_ =? _); rf.
Qed.
(** * Functions of mbr.rs *)
Lemma rf_mbr_from_disk lb : reports_faults (mbr_from_disk lb).
Proof. unfold mbr_from_disk. rf. destruct (mbr_from_bytes _ _); rf. Qed.
Lemma rf_records l : reports_faults (dev_write_records l).
Proof. induction l; cbn; rf; auto. Qed.
Lemma rf_overwrite m : reports_faults (overwrite_lba0 m).
Proof. unfold overwrite_lba0. rf. Qed.
Lemma rf_conservative m : reports_faults (update_conservative m).
Proof. unfold update_conservative. rf. apply rf_records. Qed.
Lemma rf_read_at o n : reports_faults (read_at_mbr o n).
Proof. unfold read_at_mbr. rf. Qed.
Lemma rf_write_at o b : reports_faults (write_at_mbr o b).
Proof. unfold write_at_mbr. rf. Qed.

(** * Calls on a disk *)
Lemma drf_bind {E A B} (m : M gdisk E A) (k : A -> M gdisk E B) :
  disk_reports_faults m -> (forall a, disk_reports_faults (k a)) -> disk_reports_faults (bind m k).
Proof.
  intros Hm Hk d b d' E0. unfold bind in *. destruct (m d) as [[a|e|] d1] eqn:E1; try discriminate.
  destruct (Hm _ _ _ E1) as (N1 & R1). destruct (Hk a _ _ _ E0) as (N2 & R2).
  rewrite R1. split; [eapply nf_trans; eauto|exact R2].
Qed.
(** Reading something of the disk that does not depend on the faults. *)
Lemma drf_read {E A X} (f : gdisk -> X) (k : X -> M gdisk E A) :
  (forall g, f (repaired_disk g) = f g) -> (forall x, disk_reports_faults (k x)) ->
  disk_reports_faults (fun g => k (f g) g).
Proof. intros F K g a g' H. destruct (K _ _ _ _ H) as (N1 & R1). rewrite F. auto. Qed.
Lemma drf_lift {E A} (o : outcome E A) : disk_reports_faults (@lift gdisk E A o).
Proof. intros d a d' H. injection H as -> <-. split; [apply nf_refl|reflexivity]. Qed.
Lemma drf_ret {E A} (a : A) : disk_reports_faults (@ret gdisk E A a).
Proof. intros d b d' H. injection H as -> <-. split; [apply nf_refl|reflexivity]. Qed.
Lemma drf_throw {E A} (e : E) : disk_reports_faults (@throw gdisk E A e).
Proof. intros d b d' H. discriminate. Qed.
Lemma drf_panic {E A} : disk_reports_faults (@panic gdisk E A).
Proof. intros d b d' H. discriminate. Qed.
Lemma drf_query {E A} (f : gdisk -> outcome E A) :
  (forall g, f (repaired_disk g) = f g) -> disk_reports_faults (fun g => (f g, g)).
Proof. intros F g a g' H. injection H as H <-. split; [apply nf_refl|]. rewrite F, H. reflexivity. Qed.
Lemma drf_update {E} (f : gdisk -> gdisk) :
  (forall g, f (repaired_disk g) = repaired_disk (f g)) -> (forall g, g_device (f g) = g_device g) ->
  disk_reports_faults (fun g => (@Ok E unit tt, f g)).
Proof.
  intros F D g a g' H. injection H as <- <-. rewrite D, F. split; [apply nf_refl|reflexivity].
Qed.
Lemma drf_on_device {E A} (m : M dev E A) : reports_faults m -> disk_reports_faults (on_device m).
Proof.
  intros Hm g a g' H. unfold on_device in *. destruct (m (g_device g)) as [r d] eqn:E1. injection H as -> <-.
  destruct (Hm _ _ _ E1) as (N1 & R1). split; [exact N1|].
  change (g_device (repaired_disk g)) with (repaired (g_device g)). rewrite R1. reflexivity.
Qed.
Lemma drf_write_backup_of h : disk_reports_faults (write_backup_of h).
Proof.
  intros g a g' H. unfold write_backup_of in *.
  destruct (write_backup h (c_lb (g_config g)) (g_device g)) as [[n|e|] [h' d]] eqn:E1; try discriminate.
  injection H as <- <-. destruct (rf_write_backup _ _ _ _ _ _ E1) as (N1 & R1). split; [exact N1|].
  change (g_device (repaired_disk g)) with (repaired (g_device g)).
  change (g_config (repaired_disk g)) with (g_config g). rewrite R1. reflexivity.
Qed.
Lemma drf_write_primary_of h : disk_reports_faults (write_primary_of h).
Proof.
  intros g a g' H. unfold write_primary_of in *.
  destruct (write_primary h (c_lb (g_config g)) (g_device g)) as [[n|e|] [h' d]] eqn:E1; try discriminate.
  injection H as <- <-. destruct (rf_write_primary _ _ _ _ _ _ E1) as (N1 & R1). split; [exact N1|].
  change (g_device (repaired_disk g)) with (repaired (g_device g)).
  change (g_config (repaired_disk g)) with (g_config g). rewrite R1. reflexivity.
Qed.
(** [write_inplace] with what it reads of the disk made explicit. *)
Definition write_after (oc : bool) (lb : lbsize) (x : outcome gpt_err header * config * pmap * bool)
  : M gdisk gpt_err unit :=
  let '(th, c, parts, sync) := x in
  let* h := lift th in
  let* ph := lift (omap_err GHeader (build oc (bset_primary true (builder_from_header h)) lb)) in
  (fun g => (Ok tt, set_primary (Ok ph) g)) ;;
  (let* bh :=
     (if c_readonly_backup c then ret None
      else
        let* bh := lift (omap_err GHeader
                           (build oc (bset_primary false (builder_from_header ph)) lb)) in
        (fun g => (Ok (Some bh), set_backup (Ok bh) g))) in
   on_device (write_tables oc lb ph bh parts) ;;
   (match bh with Some bh => write_backup_of bh | None => ret tt end) ;;
   write_primary_of ph ;;
   on_device (map_err GIo flush) ;;
   (if sync then on_device (map_err GIo sync_all) else ret tt)).
Definition write_with (oc : bool) (c : config) : M gdisk gpt_err unit :=
  if negb (c_writable c) then throw GReadOnly else
  (on_device (map_err GHeader (find_backup_lba (c_lb c))) ;;
   (fun g => write_after oc (c_lb c) (the_header g, g_config g, g_partitions g, g_sync g) g)).
Lemma write_with_eq oc g : write_inplace oc g = write_with oc (g_config g) g.
Proof. unfold write_inplace, write_with. destruct (negb _); reflexivity. Qed.
Lemma drf_write_after oc lb x : disk_reports_faults (write_after oc lb x).
Proof.
  destruct x as (((th, c'), parts), sync). unfold write_after.
  apply drf_bind; [apply drf_lift|intros h]. apply drf_bind; [apply drf_lift|intros ph].
  apply drf_bind; [apply drf_update; reflexivity|intros _].
  apply drf_bind.
  { destruct (c_readonly_backup c'); [apply drf_ret|]. apply drf_bind; [apply drf_lift|intros bh].
    intros g a g' H. injection H as <- <-. split; [apply nf_refl|reflexivity]. }
  intros bh. apply drf_bind; [apply drf_on_device, rf_tables|intros _].
  apply drf_bind; [destruct bh; [apply drf_write_backup_of|apply drf_ret]|intros _].
  apply drf_bind; [apply drf_write_primary_of|intros _].
  apply drf_bind; [apply drf_on_device, rf_map_err, rf_flush|intros _].
  destruct sync; [apply drf_on_device, rf_map_err, rf_sync|apply drf_ret].
Qed.
Lemma drf_write oc : disk_reports_faults (write_inplace oc).
Proof.
  assert (K : disk_reports_faults (fun g => write_with oc (g_config g) g)).
  { apply (drf_read g_config (write_with oc)); [reflexivity|]. intros c. unfold write_with.
    destruct (negb _); [apply drf_throw|].
    apply drf_bind; [apply drf_on_device, rf_map_err, rf_find_backup|intros _].
    apply (drf_read (fun g => (the_header g, g_config g, g_partitions g, g_sync g)) (write_after oc (c_lb c)));
      [reflexivity|]. apply drf_write_after. }
  intros g a g' H. rewrite write_with_eq in *. exact (K g a g' H).
Qed.
(** * The calls that only touch memory *)
Definition init_with (oc : bool) (lb : lbsize) (bak : N) (x : pmap * outcome hdr_err header * uuid * config)
  : M gdisk gpt_err unit :=
  let '(parts, th, u, c) := x in
  let b := builder_from_maybe_header th uuid_nil in
  let b := bset_primary true (bset_disk_guid u (bset_backup_lba bak (bset_num_parts (lenN parts mod modulus 32) b))) in
  let* h1 := lift (omap_err GHeader (build oc b lb)) in
  (fun g => (Ok tt, set_primary (Ok h1) g)) ;;
  (if c_readonly_backup c then ret tt
   else let* h2 := lift (omap_err GHeader (build oc (bset_primary false (builder_from_header h1)) lb)) in
        (fun g => (Ok tt, set_backup (Ok h2) g))).
Definition init_with2 (oc : bool) (lb : lbsize) : M gdisk gpt_err unit :=
  let* bak := on_device (map_err GHeader (find_backup_lba lb)) in
  fun g => init_with oc lb bak (g_partitions g, try_header g, g_guid g, g_config g) g.
Lemma init_with_eq oc g : init_headers oc g = init_with2 oc (c_lb (g_config g)) g.
Proof.
  unfold init_headers, init_with2, bind at 1 2.
  destruct (on_device _ g) as [[bak|e|] g1]; try reflexivity. unfold init_with, bind, lift.
  destruct (build oc _ _) as [h1|e|]; cbn [omap_err]; try reflexivity.
  cbn [set_primary g_config]. destruct (c_readonly_backup _); [reflexivity|].
  destruct (build oc _ _) as [h2|e|]; reflexivity.
Qed.
Lemma drf_init oc : disk_reports_faults (init_headers oc).
Proof.
  assert (K : disk_reports_faults (fun g => init_with2 oc (c_lb (g_config g)) g)).
  { apply (drf_read (fun g => c_lb (g_config g)) (init_with2 oc)); [reflexivity|]. intros lb. unfold init_with2.
    apply drf_bind; [apply drf_on_device, rf_map_err, rf_find_backup|intros bak].
    apply (drf_read (fun g => (g_partitions g, try_header g, g_guid g, g_config g)) (init_with oc lb bak));
      [reflexivity|]. intros (((parts, th), u), c). unfold init_with.
    apply drf_bind; [apply drf_lift|intros h1]. apply drf_bind; [apply drf_update; reflexivity|intros _].
    destruct (c_readonly_backup c); [apply drf_ret|]. apply drf_bind; [apply drf_lift|intros h2].
    apply drf_update; reflexivity. }
  intros g a g' H. rewrite init_with_eq in *. exact (K g a g' H).
Qed.
Lemma drf_check id : disk_reports_faults (check_count id).
Proof. apply drf_query. reflexivity. Qed.
Lemma drf_insert oc id p c : disk_reports_faults (insert_partition oc id p c).
Proof.
  unfold insert_partition. apply drf_bind; [apply drf_update; reflexivity|intros _].
  apply drf_bind; [destruct c; [apply drf_init|apply drf_ret]|intros _]. apply drf_ret.
Qed.
Lemma drf_add_in oc nm sz ty fl al rnd s : disk_reports_faults (add_in_sections oc nm sz ty fl al rnd s).
Proof.
  induction s as [|(st, len) r IH]; cbn [add_in_sections]; [apply drf_throw|].
  apply drf_bind; [apply drf_lift|intros off]. apply drf_bind; [apply drf_lift|intros need].
  destruct (_ <=? _); [|exact IH].
  apply drf_bind; [apply drf_lift|intros start]. apply drf_bind; [apply drf_query; reflexivity|intros next].
  apply drf_bind; [destruct next; [apply drf_ret|apply drf_query; reflexivity]|intros id].
  apply drf_bind; [apply drf_lift|intros e]. apply drf_bind; [apply drf_lift|intros last].
  apply drf_bind; [apply drf_check|intros c]. apply drf_insert.
Qed.
Lemma drf_add oc nm size ty fl al rnd : disk_reports_faults (add_partition oc nm size ty fl al rnd).
Proof.
  unfold add_partition. destruct (size =? 0); [apply drf_panic|].
  apply (drf_read (fun g => c_lb (g_config g)) (fun lb g => (let* sections := (fun g => (find_free_sectors oc g, g)) in
    add_in_sections oc nm ((size - 1) / lb_u64 lb + 1) ty fl al rnd sections) g)); [reflexivity|].
  intros lb. apply drf_bind; [apply drf_query; reflexivity|intros s; apply drf_add_in].
Qed.
Lemma drf_add_at_in oc nm id f n ty fl rnd s : disk_reports_faults (add_at_in_sections oc nm id f n ty fl rnd s).
Proof.
  induction s as [|(st, len) r IH]; cbn [add_at_in_sections]; [apply drf_throw|].
  destruct (negb _); [exact IH|].
  apply drf_bind; [apply drf_lift|intros e]. apply drf_bind; [apply drf_lift|intros last].
  apply drf_bind; [apply drf_check|intros c]. apply drf_insert.
Qed.
Lemma drf_add_at oc nm id f n ty fl rnd : disk_reports_faults (add_partition_at oc nm id f n ty fl rnd).
Proof.
  unfold add_partition_at. destruct (n =? 0); [apply drf_panic|]. destruct (id =? 0); [apply drf_panic|].
  apply (drf_read (fun g => g_partitions g) (fun m g => if match pm_get id m with Some p => is_used p | None => false end
    then (Err GPartitionIdAlreadyUsed, g) else (let* sections := (fun g => (find_free_sectors oc g, g)) in
    add_at_in_sections oc nm id f n ty fl rnd sections) g)); [reflexivity|].
  intros m. destruct (match pm_get id m with Some p => _ | None => _ end); [apply drf_throw|].
  apply drf_bind; [apply drf_query; reflexivity|intros s; apply drf_add_at_in].
Qed.
Lemma drf_update_partitions oc pp : disk_reports_faults (update_partitions oc pp).
Proof.
  unfold update_partitions.
  apply drf_bind; [destruct (match pm_get 0 pp with Some _ => _ | None => _ end); [apply drf_panic|apply drf_ret]|intros _].
  apply drf_bind; [apply drf_check|intros _]. apply drf_bind; [apply drf_update; reflexivity|intros _]. apply drf_init.
Qed.
Lemma create_reports oc cfg u rnd d g d' : create_from_device oc cfg u rnd d = (Ok g, d') ->
  no_fault_between d d' /\ create_from_device oc cfg u rnd (repaired d) = (Ok (repaired_disk g), repaired d').
Proof.
  unfold create_from_device. set (g0 := mkGdisk _ _ _ _ _ _ _).
  destruct (init_headers oc g0) as [[x|e|] g1] eqn:E1; try discriminate. intros H. injection H as -> <-.
  destruct (drf_init oc _ _ _ E1) as (N1 & R1). split; [exact N1|].
  set (g2 := mkGdisk _ (repaired d) _ _ _ _ _). change g2 with (repaired_disk g0). rewrite R1. reflexivity.
Qed.
