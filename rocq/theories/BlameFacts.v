(** BlameFacts.v - the error a failed device operation leads to. *)
From Verif Require Export FaultFacts SpecBlame.
Open Scope list_scope.
Open Scope N_scope.

Lemma fb_first a b c : no_fault_between a b -> fault_between b c -> fault_between a c.
Proof.
  intros (x & A & B) (y & C & D). exists (x ++ y). split; [rewrite A, C, app_assoc; reflexivity|].
  apply Exists_app. auto.
Qed.
Lemma bl_bind {E A B} P (m : M dev E A) (k : A -> M dev E B) :
  blames P m -> (forall a, blames P (k a)) -> blames P (bind m k).
Proof.
  intros Hm Hk d r d' E0. unfold bind in *. destruct (m d) as [o d1] eqn:E1.
  destruct (Hm _ _ _ E1) as [(N1 & R1)|(F & e & -> & He)].
  - rewrite R1. destruct o as [a|e|]; try (injection E0 as <- <-; left; auto).
    destruct (Hk a _ _ _ E0) as [(N2 & R2)|(F & e & -> & He)].
    + left. split; [eapply nf_trans; eauto|exact R2].
    + right. split; [eapply fb_first; eauto|eauto].
  - injection E0 as <- <-. right. eauto.
Qed.
Lemma bl_lift {E A} P (o : outcome E A) : blames P (@lift dev E A o).
Proof. intros d r d' H. injection H as <- <-. left. split; [apply nf_refl|reflexivity]. Qed.
Lemma bl_ret {E A} P (a : A) : blames P (@ret dev E A a).
Proof. apply (bl_lift P (Ok a)). Qed.
Lemma bl_throw {E A} P (e : E) : blames P (@throw dev E A e).
Proof. apply (bl_lift P (Err e)). Qed.
Lemma bl_panic {E A} (P : E -> Prop) : blames P (@panic dev E A).
Proof. apply (bl_lift P Panic). Qed.
Lemma bl_map_err {E F A} (P : E -> Prop) (Q : F -> Prop) (f : E -> F) (m : M dev E A) :
  (forall e, P e -> Q (f e)) -> blames P m -> blames Q (map_err f m).
Proof.
  intros PQ Hm d r d' H. unfold map_err in *. destruct (m d) as [o d1] eqn:E1.
  destruct (Hm _ _ _ E1) as [(N1 & R1)|(F0 & e & -> & He)].
  - rewrite R1. left. destruct o; injection H as <- <-; auto.
  - injection H as <- <-. right. eauto.
Qed.
Lemma tick_fail d m d' : tick d = (Some m, d') -> fault_between d d'.
Proof.
  unfold tick. destruct (faults d) as [|f r] eqn:F; intros H; [discriminate|]. injection H as -> <-.
  exists [Some m]. split; [exact F|]. constructor. discriminate.
Qed.
Lemma fb_same a b b' : faults b = faults b' -> fault_between a b -> fault_between a b'.
Proof. unfold fault_between. intros ->. auto. Qed.
Ltac prim H d := match type of H with context[tick d] => let T := fresh "T" in destruct (tick d) as [[?m|] ?d'] eqn:T;
  [right; pose proof (tick_fail _ _ _ T) as HF; injection H as <- <-;
   split; [eapply fb_same; [|exact HF]; reflexivity|exists IoFault; split; reflexivity]
  |left; let x := fresh in pose proof (tick_pass _ _ T) as x; destruct x as (HN & TR & HR & P & D & G & EM & DU); rewrite TR;
   match goal with x : dev |- _ => match type of T with _ = (None, x) => destruct x as [dl dp dg de df dd] end end;
   unfold dev_len in *; cbn [data pos growable eof_moves faults durable repaired with_faults] in *; subst] end.
Lemma bl_seek n : blames io_failed (seek_start n).
Proof. intros d r d' H. unfold seek_start in *. prim H d. injection H as <- <-. split; [exact HN|reflexivity]. Qed.
Lemma bl_seek_end : blames io_failed seek_end.
Proof. intros d r d' H. unfold seek_end in *. prim H d. injection H as <- <-. split; [exact HN|reflexivity]. Qed.
Lemma bl_position : blames io_failed stream_position.
Proof. intros d r d' H. unfold stream_position in *. prim H d. injection H as <- <-. split; [exact HN|reflexivity]. Qed.
Lemma bl_flush : blames io_failed flush.
Proof. intros d r d' H. unfold flush in *. prim H d. injection H as <- <-. split; [exact HN|reflexivity]. Qed.
Lemma bl_sync : blames io_failed sync_all.
Proof. intros d r d' H. unfold sync_all in *. prim H d. injection H as <- <-. split; [exact HN|reflexivity]. Qed.
Lemma bl_read n : blames io_failed (read_exact n).
Proof.
  intros d r d' H. unfold read_exact in *. destruct (n =? 0).
  - injection H as <- <-. left. split; [apply nf_refl|reflexivity].
  - prim H d. destruct (_ <=? lenN (data d)); [injection H as <- <-; split; [exact HN|reflexivity]|].
    destruct (eof_moves d && _); injection H as <- <-; (split; [exact HN|reflexivity]).
Qed.
Lemma bl_write bs : blames io_failed (write_all bs).
Proof.
  intros d r d' H. unfold write_all in *. destruct bs as [|b bs].
  - injection H as <- <-. left. split; [apply nf_refl|reflexivity].
  - prim H d. destruct (growable d || _); injection H as <- <-; (split; [exact HN|reflexivity]).
Qed.
Lemma map_hdr e : io_failed e -> hdr_failed (HIo e).
Proof. intros ->. reflexivity. Qed.
Lemma map_gpt e : io_failed e -> gpt_failed (GIo e).
Proof. intros ->. left. reflexivity. Qed.
Lemma map_gpt_hdr e : hdr_failed e -> gpt_failed (GHeader e).
Proof. intros ->. right. reflexivity. Qed.
Lemma map_mbr e : io_failed e -> mbr_failed (MIo e).
Proof. intros ->. reflexivity. Qed.
Ltac bl := repeat (first [apply bl_bind; [|intros ?]|apply (bl_map_err _ _ _ _ map_hdr)|apply (bl_map_err _ _ _ _ map_gpt)
  |apply (bl_map_err _ _ _ _ map_gpt_hdr)|apply (bl_map_err _ _ _ _ map_mbr)|apply bl_lift|apply bl_ret|apply bl_throw|apply bl_panic
  |apply bl_seek|apply bl_seek_end|apply bl_position|apply bl_read|apply bl_write|apply bl_flush|apply bl_sync]).

(** * Functions on devices *)
Lemma bl_checksum h lb : blames hdr_failed (partentry_checksum h lb).
Proof. unfold partentry_checksum. bl. Qed.
Lemma bl_find_backup lb : blames hdr_failed (find_backup_lba lb).
Proof. unfold find_backup_lba. bl. destruct (_ <? _); bl. Qed.
Lemma bl_write_to oc p i s lb n : blames io_failed (write_to_device oc p i s lb n).
Proof. unfold write_to_device. bl. Qed.
Lemma bl_write_zero oc i n s lb b : blames io_failed (write_zero_entries oc i n s lb b).
Proof. unfold write_zero_entries. bl. Qed.
Lemma bl_entries oc lb ph bh l idx : blames gpt_failed (write_entries oc lb ph bh l idx).
Proof.
  revert idx. induction l as [|(k, p) r IH]; intros idx; cbn [write_entries]; [bl|].
  destruct (_ <=? _); [bl|]. bl; try apply bl_write_to; try apply IH.
  destruct bh; bl. destruct (_ <=? _); bl. destruct (_ =? _); bl.
Qed.
Lemma bl_tables oc lb ph bh m : blames gpt_failed (write_tables oc lb ph bh m).
Proof.
  unfold write_tables. bl; try apply bl_entries; try apply bl_write_zero. destruct bh; bl.
Qed.
Definition bl_pair {E A X} (P : E -> Prop) (f : dev -> outcome E A * (X * dev)) : Prop := forall d r x d', f d = (r, (x, d')) ->
  no_fault_between d d' /\ f (repaired d) = (r, (x, repaired d')) \/ fault_between d d' /\ exists e, r = Err e /\ P e.
Lemma bl_file_write h lba lb : bl_pair hdr_failed (file_write_header h lba lb).
Proof.
  intros d r x d' H. unfold file_write_header in *.
  destruct (partentry_checksum h lb d) as [o d1] eqn:E1.
  destruct (bl_checksum _ _ _ _ _ E1) as [(N1 & R1)|(F & e & -> & He)].
  2: { injection H as <- <- <-. right. eauto. }
  rewrite R1. destruct o as [c|e|]; try (injection H as <- <- <-; left; auto).
  destruct (hdr_to_bytes _ _) as [[cp hb]|e|]; try (injection H as <- <- <-; left; auto).
  destruct ((wr_seek cp ;; _) hb) as [[[]|e|] hb']; try (injection H as <- <- <-; left; auto).
  match type of H with (let (_, _) := ?m d1 in _) = _ => assert (Q : blames hdr_failed m) end.
  { bl. }
  match type of H with (let (_, _) := ?m d1 in _) = _ => destruct (m d1) as [r2 d2] eqn:E2 end.
  injection H as -> <- <-. destruct (Q _ _ _ E2) as [(N2 & R2)|(F & e & -> & He)].
  - left. split; [eapply nf_trans; eauto|]. rewrite R2. reflexivity.
  - right. split; [eapply fb_first; eauto|eauto].
Qed.
Lemma bl_write_primary h lb : bl_pair hdr_failed (write_primary h lb).
Proof.
  intros d r x d' H. unfold write_primary in *. destruct (_ <=? _); [|apply bl_file_write; exact H].
  injection H as <- <- <-. left. split; [apply nf_refl|reflexivity].
Qed.
Lemma bl_write_backup h lb : bl_pair hdr_failed (write_backup h lb).
Proof.
  intros d r x d' H. unfold write_backup in *. destruct (_ <=? _); [|apply bl_file_write; exact H].
  injection H as <- <- <-. left. split; [apply nf_refl|reflexivity].
Qed.
Lemma bl_write_header oc u rnd lb : blames hdr_failed (write_header oc u rnd lb).
Proof.
  unfold write_header. apply bl_bind; [apply bl_find_backup|intros bak]. apply bl_bind; [apply bl_lift|intros h].
  intros d r d' H. destruct (write_primary h lb d) as [o [h' d1]] eqn:E1.
  destruct (bl_write_primary _ _ _ _ _ _ E1) as [(N1 & R1)|(F & e & -> & He)].
  - rewrite R1. left. destruct o; injection H as <- <-; auto.
  - injection H as <- <-. right. eauto.
Qed.
Lemma bl_read_entries oc left i e parts : blames io_failed (read_entries oc left i e parts).
Proof.
  revert i e parts. induction left as [|n IH]; intros; cbn [read_entries]; [bl|]. bl.
  destruct (bytes_eqb _ _); bl; apply IH.
Qed.
Lemma bl_read_partitions oc h lb : blames io_failed (file_read_partitions oc h lb).
Proof.
  unfold file_read_partitions. bl. destruct (negb _); bl; [apply bl_read_entries|]. destruct (_ =? _); bl.
Qed.
Lemma bl_mbr_from_disk lb : blames mbr_failed (mbr_from_disk lb).
Proof. unfold mbr_from_disk. bl. destruct (mbr_from_bytes _ _); bl. Qed.
Lemma bl_records l : blames io_failed (dev_write_records l).
Proof. induction l; cbn; bl; auto. Qed.
Lemma bl_overwrite m : blames mbr_failed (overwrite_lba0 m).
Proof. unfold overwrite_lba0. bl. Qed.
Lemma bl_conservative m : blames mbr_failed (update_conservative m).
Proof. unfold update_conservative. bl. apply bl_records. Qed.
Lemma bl_read_at o n : blames io_failed (read_at_mbr o n).
Proof. unfold read_at_mbr. bl. Qed.
Lemma bl_write_at o b : blames io_failed (write_at_mbr o b).
Proof. unfold write_at_mbr. bl. Qed.

(** * Calls on a disk *)
Lemma db_bind {E A B} P (m : M gdisk E A) (k : A -> M gdisk E B) :
  disk_blames P m -> (forall a, disk_blames P (k a)) -> disk_blames P (bind m k).
Proof.
  intros Hm Hk d r d' E0. unfold bind in *. destruct (m d) as [o d1] eqn:E1.
  destruct (Hm _ _ _ E1) as [(N1 & R1)|(F & e & -> & He)].
  - rewrite R1. destruct o as [a|e|]; try (injection E0 as <- <-; left; auto).
    destruct (Hk a _ _ _ E0) as [(N2 & R2)|(F & e & -> & He)].
    + left. split; [eapply nf_trans; eauto|exact R2].
    + right. split; [eapply fb_first; eauto|eauto].
  - injection E0 as <- <-. right. eauto.
Qed.
Lemma db_read {E A X} (P : E -> Prop) (f : gdisk -> X) (k : X -> M gdisk E A) :
  (forall g, f (repaired_disk g) = f g) -> (forall x, disk_blames P (k x)) ->
  disk_blames P (fun g => k (f g) g).
Proof. intros F K g r g' H. rewrite F. apply K. exact H. Qed.
Lemma db_lift {E A} P (o : outcome E A) : disk_blames P (@lift gdisk E A o).
Proof. intros d a d' H. injection H as <- <-. left. split; [apply nf_refl|reflexivity]. Qed.
Lemma db_ret {E A} P (a : A) : disk_blames P (@ret gdisk E A a).
Proof. apply (db_lift P (Ok a)). Qed.
Lemma db_throw {E A} P (e : E) : disk_blames P (@throw gdisk E A e).
Proof. apply (db_lift P (Err e)). Qed.
Lemma db_panic {E A} (P : E -> Prop) : disk_blames P (@panic gdisk E A).
Proof. apply (db_lift P Panic). Qed.
Lemma db_query {E A} (P : E -> Prop) (f : gdisk -> outcome E A) :
  (forall g, f (repaired_disk g) = f g) -> disk_blames P (fun g => (f g, g)).
Proof. intros F g a g' H. injection H as <- <-. left. split; [apply nf_refl|]. rewrite F. reflexivity. Qed.
Lemma db_update {E} (P : E -> Prop) (f : gdisk -> gdisk) :
  (forall g, f (repaired_disk g) = repaired_disk (f g)) -> (forall g, g_device (f g) = g_device g) ->
  disk_blames P (fun g => (@Ok E unit tt, f g)).
Proof.
  intros F D g a g' H. injection H as <- <-. left. rewrite D, F. split; [apply nf_refl|reflexivity].
Qed.
Lemma db_on_device {E A} (P : E -> Prop) (m : M dev E A) : blames P m -> disk_blames P (on_device m).
Proof.
  intros Hm g a g' H. unfold on_device in *. destruct (m (g_device g)) as [r d] eqn:E1. injection H as -> <-.
  change (g_device (repaired_disk g)) with (repaired (g_device g)).
  destruct (Hm _ _ _ E1) as [(N1 & R1)|R]; [left|right; exact R].
  split; [exact N1|]. rewrite R1. reflexivity.
Qed.
Lemma db_write_backup_of h : disk_blames gpt_failed (write_backup_of h).
Proof.
  intros g a g' H. unfold write_backup_of in *.
  change (g_device (repaired_disk g)) with (repaired (g_device g)).
  change (g_config (repaired_disk g)) with (g_config g).
  destruct (write_backup h (c_lb (g_config g)) (g_device g)) as [o [h' d]] eqn:E1.
  destruct (bl_write_backup _ _ _ _ _ _ E1) as [(N1 & R1)|(F & e & -> & He)].
  - rewrite R1. left. destruct o; injection H as <- <-; (split; [exact N1|reflexivity]).
  - injection H as <- <-. right. split; [exact F|]. eexists. split; [reflexivity|]. apply map_gpt_hdr, He.
Qed.
Lemma db_write_primary_of h : disk_blames gpt_failed (write_primary_of h).
Proof.
  intros g a g' H. unfold write_primary_of in *.
  change (g_device (repaired_disk g)) with (repaired (g_device g)).
  change (g_config (repaired_disk g)) with (g_config g).
  destruct (write_primary h (c_lb (g_config g)) (g_device g)) as [o [h' d]] eqn:E1.
  destruct (bl_write_primary _ _ _ _ _ _ E1) as [(N1 & R1)|(F & e & -> & He)].
  - rewrite R1. left. destruct o; injection H as <- <-; (split; [exact N1|reflexivity]).
  - injection H as <- <-. right. split; [exact F|]. eexists. split; [reflexivity|]. apply map_gpt_hdr, He.
Qed.
Lemma db_write_after oc lb x : disk_blames gpt_failed (write_after oc lb x).
Proof.
  destruct x as (((th, c'), parts), sync). unfold write_after.
  apply db_bind; [apply db_lift|intros h]. apply db_bind; [apply db_lift|intros ph].
  apply db_bind; [apply db_update; reflexivity|intros _].
  apply db_bind.
  { destruct (c_readonly_backup c'); [apply db_ret|]. apply db_bind; [apply db_lift|intros bh].
    intros g a g' H. injection H as <- <-. left. split; [apply nf_refl|reflexivity]. }
  intros bh. apply db_bind; [apply db_on_device, bl_tables|intros _].
  apply db_bind; [destruct bh; [apply db_write_backup_of|apply db_ret]|intros _].
  apply db_bind; [apply db_write_primary_of|intros _].
  apply db_bind; [apply db_on_device; bl|intros _].
  destruct sync; [apply db_on_device; bl|apply db_ret].
Qed.
Lemma db_write oc : disk_blames gpt_failed (write_inplace oc).
Proof.
  assert (K : disk_blames gpt_failed (fun g => write_with oc (g_config g) g)).
  { apply (db_read gpt_failed g_config (write_with oc)); [reflexivity|]. intros c. unfold write_with.
    destruct (negb _); [apply db_throw|].
    apply db_bind; [apply db_on_device, (bl_map_err _ _ _ _ map_gpt_hdr), bl_find_backup|intros _].
    apply (db_read gpt_failed (fun g => (the_header g, g_config g, g_partitions g, g_sync g)) (write_after oc (c_lb c)));
      [reflexivity|]. apply db_write_after. }
  intros g a g' H. rewrite write_with_eq in *. exact (K g a g' H).
Qed.
Lemma db_init oc : disk_blames gpt_failed (init_headers oc).
Proof.
  assert (K : disk_blames gpt_failed (fun g => init_with2 oc (c_lb (g_config g)) g)).
  { apply (db_read gpt_failed (fun g => c_lb (g_config g)) (init_with2 oc)); [reflexivity|]. intros lb. unfold init_with2.
    apply db_bind; [apply db_on_device, (bl_map_err _ _ _ _ map_gpt_hdr), bl_find_backup|intros bak].
    apply (db_read gpt_failed (fun g => (g_partitions g, try_header g, g_guid g, g_config g)) (init_with oc lb bak));
      [reflexivity|]. intros (((parts, th), u), c). unfold init_with.
    apply db_bind; [apply db_lift|intros h1]. apply db_bind; [apply db_update; reflexivity|intros _].
    destruct (c_readonly_backup c); [apply db_ret|]. apply db_bind; [apply db_lift|intros h2].
    apply db_update; reflexivity. }
  intros g a g' H. rewrite init_with_eq in *. exact (K g a g' H).
Qed.
Lemma db_check id : disk_blames gpt_failed (check_count id).
Proof. apply db_query. reflexivity. Qed.
Lemma db_insert oc id p c : disk_blames gpt_failed (insert_partition oc id p c).
Proof.
  unfold insert_partition. apply db_bind; [apply db_update; reflexivity|intros _].
  apply db_bind; [destruct c; [apply db_init|apply db_ret]|intros _]. apply db_ret.
Qed.
Lemma db_add_in oc nm sz ty fl al rnd s : disk_blames gpt_failed (add_in_sections oc nm sz ty fl al rnd s).
Proof.
  induction s as [|(st, len) r IH]; cbn [add_in_sections]; [apply db_throw|].
  apply db_bind; [apply db_lift|intros off]. apply db_bind; [apply db_lift|intros need].
  destruct (_ <=? _); [|exact IH].
  apply db_bind; [apply db_lift|intros start]. apply db_bind; [apply db_query; reflexivity|intros next].
  apply db_bind; [destruct next; [apply db_ret|apply db_query; reflexivity]|intros id].
  apply db_bind; [apply db_lift|intros e]. apply db_bind; [apply db_lift|intros last].
  apply db_bind; [apply db_check|intros c]. apply db_insert.
Qed.
Lemma db_add oc nm size ty fl al rnd : disk_blames gpt_failed (add_partition oc nm size ty fl al rnd).
Proof.
  unfold add_partition. destruct (size =? 0); [apply db_panic|].
  apply (db_read gpt_failed (fun g => c_lb (g_config g)) (fun lb g => (let* sections := (fun g => (find_free_sectors oc g, g)) in
    add_in_sections oc nm ((size - 1) / lb_u64 lb + 1) ty fl al rnd sections) g)); [reflexivity|].
  intros lb. apply db_bind; [apply db_query; reflexivity|intros s; apply db_add_in].
Qed.
Lemma db_add_at_in oc nm id f n ty fl rnd s : disk_blames gpt_failed (add_at_in_sections oc nm id f n ty fl rnd s).
Proof.
  induction s as [|(st, len) r IH]; cbn [add_at_in_sections]; [apply db_throw|].
  destruct (negb _); [exact IH|].
  apply db_bind; [apply db_lift|intros e]. apply db_bind; [apply db_lift|intros last].
  apply db_bind; [apply db_check|intros c]. apply db_insert.
Qed.
Lemma db_add_at oc nm id f n ty fl rnd : disk_blames gpt_failed (add_partition_at oc nm id f n ty fl rnd).
Proof.
  unfold add_partition_at. destruct (n =? 0); [apply db_panic|]. destruct (id =? 0); [apply db_panic|].
  apply (db_read gpt_failed (fun g => g_partitions g) (fun m g => if match pm_get id m with Some p => is_used p | None => false end
    then (Err GPartitionIdAlreadyUsed, g) else (let* sections := (fun g => (find_free_sectors oc g, g)) in
    add_at_in_sections oc nm id f n ty fl rnd sections) g)); [reflexivity|].
  intros m. destruct (match pm_get id m with Some p => _ | None => _ end); [apply db_throw|].
  apply db_bind; [apply db_query; reflexivity|intros s; apply db_add_at_in].
Qed.
Lemma db_update_partitions oc pp : disk_blames gpt_failed (update_partitions oc pp).
Proof.
  unfold update_partitions.
  apply db_bind; [destruct (match pm_get 0 pp with Some _ => _ | None => _ end); [apply db_panic|apply db_ret]|intros _].
  apply db_bind; [apply db_check|intros _]. apply db_bind; [apply db_update; reflexivity|intros _]. apply db_init.
Qed.
