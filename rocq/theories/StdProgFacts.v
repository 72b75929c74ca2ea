(** StdProgFacts.v - the functions of the library are programs of device calls (StdIo.v). *)
From Verif Require Export StdIoFacts.
Open Scope list_scope.
Open Scope N_scope.

Fixpoint pbind {A B} (p : prog A) (k : A -> prog B) : prog B :=
  match p with
  | Done a => k a
  | Call o h => Call o (fun r => pbind (h r) k)
  end.
Lemma run_pbind {A B} (p : prog A) (k : A -> prog B) : forall d,
  run_steps (pbind p k) d = let (a, d) := run_steps p d in run_steps (k a) d.
Proof.
  induction p as [a|R o h IH]; intros d; cbn [pbind run_steps]; [reflexivity|].
  destruct (do_io o d) as [r d1]. apply IH.
Qed.

(** Functions on a device. *)
Definition made {A} (f : dev -> A * dev) : Type := {p : prog A | forall d, run_steps p d = f d}.
Lemma mk_call {R} (o : io R) : made (do_io o).
Proof. exists (Call o Done). intros d. cbn [run_steps]. destruct (do_io o d). reflexivity. Qed.
Lemma mk_ext {A} (f g : dev -> A * dev) : (forall d, f d = g d) -> made f -> made g.
Proof. intros H (p & P). exists p. intros d. rewrite P. apply H. Qed.
Lemma mk_lift {E A} (o : outcome E A) : made (@lift dev E A o).
Proof. exists (Done o). reflexivity. Qed.
Lemma mk_ret {E A} (a : A) : made (@ret dev E A a).
Proof. exists (Done (Ok a)). reflexivity. Qed.
Lemma mk_throw {E A} (e : E) : made (@throw dev E A e).
Proof. exists (Done (Err e)). reflexivity. Qed.
Lemma mk_panic {E A} : made (@panic dev E A).
Proof. exists (Done Panic). reflexivity. Qed.
Lemma mk_after {A B} (f : dev -> A * dev) (k : A -> dev -> B * dev) : made f -> (forall a, made (k a)) ->
  made (fun d => let (a, d) := f d in k a d).
Proof.
  intros (p & P) K. exists (pbind p (fun a => proj1_sig (K a))). intros d. rewrite run_pbind, P.
  destruct (f d) as [a d1]. apply (proj2_sig (K a)).
Qed.
Lemma mk_bind {E A B} (m : M dev E A) (k : A -> M dev E B) : made m -> (forall a, made (k a)) -> made (bind m k).
Proof.
  intros Hm K. apply (mk_ext (fun d => let (r, d) := m d in
    (match r with Ok a => k a | Err e => throw e | Panic => panic end) d)).
  { intros d. unfold bind. destruct (m d) as [[a|e|] d1]; reflexivity. }
  apply mk_after; [exact Hm|]. intros [a|e|]; [apply K|apply mk_throw|apply mk_panic].
Qed.
Lemma mk_map_err {E F A} (f : E -> F) (m : M dev E A) : made m -> made (map_err f m).
Proof.
  intros Hm. apply (mk_ext (fun d => let (r, d) := m d in lift (omap_err f r) d)).
  { intros d. unfold map_err. destruct (m d) as [[a|e|] d1]; reflexivity. }
  apply mk_after; [exact Hm|]. intros r. apply mk_lift.
Qed.
Lemma mk_attempt {E F A} (m : M dev E A) : made m -> made (@attempt dev E F A m).
Proof.
  intros Hm. apply (mk_ext (fun d => let (r, d) := m d in
    lift (match r with Panic => Panic | _ => Ok r end) d)).
  { intros d. unfold attempt. destruct (m d) as [[a|e|] d1]; reflexivity. }
  apply mk_after; [exact Hm|]. intros r. apply mk_lift.
Qed.
Ltac mk := repeat (first [apply mk_bind; [|intros ?]|apply mk_map_err|apply mk_attempt|apply mk_lift|apply mk_ret|apply mk_throw
  |apply mk_panic|apply (mk_call (OSeek _))|apply (mk_call OSeekEnd)|apply (mk_call OPosition)|apply (mk_call (ORead _))
  |apply (mk_call (OWrite _))|apply (mk_call OFlush)|apply (mk_call OSync)]).

Lemma mk_read_entries oc n : forall i e m, made (read_entries oc n i e m).
Proof.
  induction n as [|n IH]; intros i e m; cbn [read_entries]; [mk|]. mk. destruct (bytes_eqb _ _); mk; apply IH.
Qed.
Lemma mk_read_partitions oc h lb : made (file_read_partitions oc h lb).
Proof. unfold file_read_partitions. mk. destruct (negb _); mk; [apply mk_read_entries|]. destruct (_ =? _); mk. Qed.
Lemma mk_read_header off : made (file_read_header off).
Proof. unfold file_read_header. mk. Qed.
Lemma mk_find_backup lb : made (find_backup_lba lb).
Proof. unfold find_backup_lba. mk. destruct (_ <? _); mk. Qed.
Lemma mk_primary lb : made (read_primary_header lb).
Proof. unfold read_primary_header, stream_position_or_0. mk. Qed.
Lemma mk_backup lb : made (read_backup_header lb).
Proof. unfold read_backup_header, stream_position_or_0. mk; destruct (_ <? _); mk. Qed.
Lemma mk_checksum h lb : made (partentry_checksum h lb).
Proof. unfold partentry_checksum. mk. Qed.
Lemma mk_write_to_device oc p i s lb n : made (write_to_device oc p i s lb n).
Proof. unfold write_to_device. mk. Qed.
Lemma mk_write_zero oc a b s lb n : made (write_zero_entries oc a b s lb n).
Proof. unfold write_zero_entries. mk. Qed.
Lemma mk_write_entries oc lb ph bh l : forall i, made (write_entries oc lb ph bh l i).
Proof.
  induction l as [|[k p] l IH]; intros i; cbn [write_entries]; [mk|]. destruct (_ <=? _); mk; [|apply IH].
  destruct bh as [bh|]; mk. destruct (_ <=? _); mk. destruct (_ =? _); mk.
Qed.
Lemma mk_write_tables oc lb ph bh m : made (write_tables oc lb ph bh m).
Proof.
  unfold write_tables. mk; [apply mk_write_entries|destruct bh; mk].
Qed.
(** The functions that also update a header. *)
Definition with_header {A} (f : dev -> A * (header * dev)) (d : dev) : (A * header) * dev :=
  let '(a, (h, d)) := f d in (a, h, d).
Lemma mk_file_write_header h lba lb : made (with_header (file_write_header h lba lb)).
Proof.
  set (h1 := set_crc32_parts h).
  set (tail := fun (c : N) => match hdr_to_bytes (E := hdr_err) (h1 c) c return (dev -> (outcome hdr_err N * header) * dev) with
    | Err e => fun d => ((Err e, h1 c), d)
    | Panic => fun d => ((Panic, h1 c), d)
    | Ok (cp, hb) =>
      let h2 := set_crc32 (h1 c) (crc32 (arr hb)) in
      match (wr_seek cp ;; wr_le 4 (crc32 (arr hb))) hb with
      | (Err e, _) => fun d => ((Err e, h2), d)
      | (Panic, _) => fun d => ((Panic, h2), d)
      | (Ok tt, hb) => fun d =>
          let (r, d) := (let* start := lift (ok_or (checked_mul64 lba (lb_u64 lb)) (HOverflow "writing header: lba * lbs")) in
            map_err HIo (seek_start start) ;;
            let bytes := firstn (N.to_nat (lb_u64 lb)) (arr hb ++ zeros (N.to_nat (lb_u64 lb) - 92)) in
            map_err HIo (write_all bytes) ;; ret (lenN bytes)) d in ((r, h2), d)
      end
    end).
  apply (mk_ext (fun d => let (r, d) := partentry_checksum h lb d in
    (match r return (dev -> (outcome hdr_err N * header) * dev) with
     | Ok c => tail c | Err e => fun d => ((Err e, h), d) | Panic => fun d => ((Panic, h), d) end) d)).
  { intros d. unfold with_header, file_write_header. destruct (partentry_checksum h lb d) as [[c|e|] d1]; [|reflexivity|reflexivity].
    unfold tail. fold (h1 c). destruct (hdr_to_bytes (h1 c) c) as [[cp hb]|e|]; [|reflexivity|reflexivity].
    destruct ((wr_seek cp ;; wr_le 4 (crc32 (arr hb))) hb) as [[[]|e|] hb2]; [|reflexivity|reflexivity].
    match goal with |- context [bind (lift ?o) ?k d1] => destruct (bind (lift o) k d1) as [r d2] end. reflexivity. }
  apply mk_after; [apply mk_checksum|]. intros [c|e|]; [|exists (Done (Err e, h)); reflexivity|exists (Done (Panic, h)); reflexivity].
  unfold tail. destruct (hdr_to_bytes (h1 c) c) as [[cp hb]|e|];
    [|exists (Done (Err e, h1 c)); reflexivity|exists (Done (Panic, h1 c)); reflexivity].
  cbv zeta. set (h2 := set_crc32 (h1 c) (crc32 (arr hb))).
  destruct ((wr_seek cp ;; wr_le 4 (crc32 (arr hb))) hb) as [[[]|e|] hb2];
    [|exists (Done (Err e, h2)); reflexivity|exists (Done (Panic, h2)); reflexivity].
  apply (mk_after _ (fun r d => ((r, h2), d))).
  - mk.
  - intros r. exists (Done (r, h2)). reflexivity.
Qed.
Lemma mk_write_primary h lb : made (with_header (write_primary h lb)).
Proof.
  unfold write_primary. destruct (_ <=? _); [exists (Done (Err HWritingToWrongLba, h)); reflexivity|].
  apply mk_file_write_header.
Qed.
Lemma mk_write_backup h lb : made (with_header (write_backup h lb)).
Proof.
  unfold write_backup. destruct (_ <=? _); [exists (Done (Err HWritingToWrongLba, h)); reflexivity|].
  apply mk_file_write_header.
Qed.
Lemma mk_write_header oc u rnd lb : made (write_header oc u rnd lb).
Proof.
  unfold write_header. apply mk_bind; [apply mk_find_backup|intros bak]. cbv zeta. apply mk_bind; [apply mk_lift|intros h].
  apply (mk_ext (fun d => let (x, d) := with_header (write_primary h lb) d in
    lift (match x with (Ok _, h') => Ok (disk_guid h') | (Err e, _) => Err e | (Panic, _) => Panic end) d)).
  { intros d. unfold with_header. destruct (write_primary h lb d) as [[r|e|] [h' d']]; reflexivity. }
  apply mk_after; [apply mk_write_primary|]. intros x. apply mk_lift.
Qed.

(** Functions on an open disk: the program does not depend on the device inside. *)
Definition gmade {A} (F : gdisk -> A * gdisk) : Type := forall g, {p : prog (A * gdisk) |
  forall d, F (set_device d g) = let '((a, g'), d') := run_steps p d in (a, set_device d' g')}.
Lemma gm_pure {A} (F : gdisk -> A * gdisk) : (forall d g, F (set_device d g) = (fst (F g), set_device d (snd (F g)))) -> gmade F.
Proof. intros H g. exists (Done (F g)). intros d. rewrite H. cbn [run_steps]. destruct (F g). reflexivity. Qed.
Lemma gm_after {A B} (F : gdisk -> A * gdisk) (K : A -> gdisk -> B * gdisk) : gmade F -> (forall a, gmade (K a)) ->
  gmade (fun g => let (a, g) := F g in K a g).
Proof.
  intros HF HK g. destruct (HF g) as (p & P).
  exists (pbind p (fun ag => proj1_sig (HK (fst ag) (snd ag)))). intros d. rewrite P, run_pbind.
  destruct (run_steps p d) as [[a g'] d']. apply (proj2_sig (HK a g')).
Qed.
Lemma gm_ext {A} (F G : gdisk -> A * gdisk) : (forall g, F g = G g) -> gmade F -> gmade G.
Proof. intros H HF g. destruct (HF g) as (p & P). exists p. intros d. rewrite <- H. apply P. Qed.
Lemma gm_lift {E A} (o : outcome E A) : gmade (@lift gdisk E A o).
Proof. apply gm_pure. reflexivity. Qed.
Lemma gm_ret {E A} (a : A) : gmade (@ret gdisk E A a).
Proof. apply gm_pure. reflexivity. Qed.
Lemma gm_throw {E A} (e : E) : gmade (@throw gdisk E A e).
Proof. apply gm_pure. reflexivity. Qed.
Lemma gm_panic {E A} : gmade (@panic gdisk E A).
Proof. apply gm_pure. reflexivity. Qed.
Lemma gm_bind {E A B} (m : M gdisk E A) (k : A -> M gdisk E B) : gmade m -> (forall a, gmade (k a)) -> gmade (bind m k).
Proof.
  intros Hm K. apply (gm_ext (fun g => let (r, g) := m g in
    (match r with Ok a => k a | Err e => throw e | Panic => panic end) g)).
  { intros g. unfold bind. destruct (m g) as [[a|e|] g1]; reflexivity. }
  apply gm_after; [exact Hm|]. intros [a|e|]; [apply K|apply gm_throw|apply gm_panic].
Qed.
Lemma gm_on_device {E A} (m : M dev E A) : made m -> gmade (on_device m).
Proof.
  intros (p & P) g. exists (pbind p (fun r => Done (r, g))). intros d. rewrite run_pbind, P. unfold on_device.
  cbn [g_device set_device]. destruct (m d) as [r d1]. reflexivity.
Qed.
Lemma gm_self {A} (B : gdisk -> gdisk -> A * gdisk) : (forall d g, B (set_device d g) = B g) -> (forall g, gmade (B g)) ->
  gmade (fun g => B g g).
Proof. intros H K g. destruct (K g g) as (p & P). exists p. intros d. rewrite H. apply P. Qed.
Lemma gm_write_primary h : gmade (write_primary_of h).
Proof.
  intros g. destruct (mk_write_primary h (c_lb (g_config g))) as (p & P).
  exists (pbind p (fun x => Done (omap_err GHeader (let? _ := fst x in Ok tt), set_primary (Ok (snd x)) g))).
  intros d. rewrite run_pbind, P. unfold write_primary_of, with_header. cbn [g_config g_device set_device].
  destruct (write_primary h (c_lb (g_config g)) d) as [r [h' d']]. reflexivity.
Qed.
Lemma gm_write_backup h : gmade (write_backup_of h).
Proof.
  intros g. destruct (mk_write_backup h (c_lb (g_config g))) as (p & P).
  exists (pbind p (fun x => Done (omap_err GHeader (let? _ := fst x in Ok tt), set_backup (Ok (snd x)) g))).
  intros d. rewrite run_pbind, P. unfold write_backup_of, with_header. cbn [g_config g_device set_device].
  destruct (write_backup h (c_lb (g_config g)) d) as [r [h' d']]. reflexivity.
Qed.
Ltac gm := repeat (first [apply gm_bind; [|intros ?]|apply gm_lift|apply gm_ret|apply gm_throw|apply gm_panic
  |apply gm_write_primary|apply gm_write_backup|apply gm_on_device]).
(** The body of [write_inplace] for the block size and the open disk it started with. *)
Definition wip_inner (oc : bool) (lb : lbsize) (g : gdisk) : M gdisk gpt_err unit :=
  let* h := lift (the_header g) in
  let* ph := lift (omap_err GHeader (build oc (bset_primary true (builder_from_header h)) lb)) in
  (fun g => (Ok tt, set_primary (Ok ph) g)) ;;
  (let* bh :=
     (if c_readonly_backup (g_config g) then ret None
      else
        let* bh := lift (omap_err GHeader (build oc (bset_primary false (builder_from_header ph)) lb)) in
        (fun g => (Ok (Some bh), set_backup (Ok bh) g))) in
   on_device (write_tables oc lb ph bh (g_partitions g)) ;;
   (match bh with Some bh => write_backup_of bh | None => ret tt end) ;;
   write_primary_of ph ;;
   on_device (map_err GIo flush) ;;
   (if g_sync g then on_device (map_err GIo sync_all) else ret tt)).
Definition wip (oc : bool) (g : gdisk) : M gdisk gpt_err unit :=
  if negb (c_writable (g_config g)) then throw GReadOnly else
  on_device (map_err GHeader (find_backup_lba (c_lb (g_config g)))) ;; (fun g' => wip_inner oc (c_lb (g_config g)) g' g').
Lemma wip_eq oc g : wip oc g g = write_inplace oc g.
Proof. unfold wip, write_inplace. destruct (negb _); reflexivity. Qed.
Lemma gm_write_inplace oc : gmade (write_inplace oc).
Proof.
  apply (gm_ext (fun g => wip oc g g) _ (wip_eq oc)). apply gm_self; [reflexivity|intros g].
  unfold wip. destruct (negb _); [apply gm_throw|]. gm; [apply mk_map_err, mk_find_backup|].
  apply gm_self; [reflexivity|intros g']. unfold wip_inner. gm.
  - apply gm_pure. reflexivity.
  - destruct (c_readonly_backup _); gm. apply gm_pure. reflexivity.
  - apply mk_write_tables.
  - destruct a3; gm.
  - mk.
  - destruct (g_sync g'); gm. mk.
Qed.
(** [init_headers] and the edits. *)
Definition init_tail (oc : bool) (lb : lbsize) (bak : N) : M gdisk gpt_err unit := fun g =>
  let num_parts := lenN (g_partitions g) mod modulus 32 in
  let b := builder_from_maybe_header (try_header g) uuid_nil in
  let b := bset_primary true (bset_disk_guid (g_guid g) (bset_backup_lba bak (bset_num_parts num_parts b))) in
  match build oc b lb with
  | Err e => (Err (GHeader e), g)
  | Panic => (Panic, g)
  | Ok h1 =>
      let g := set_primary (Ok h1) g in
      if c_readonly_backup (g_config g) then (Ok tt, g)
      else match build oc (bset_primary false (builder_from_header h1)) lb with
           | Err e => (Err (GHeader e), g)
           | Panic => (Panic, g)
           | Ok h2 => (Ok tt, set_backup (Ok h2) g)
           end
  end.
Lemma gm_init_tail oc lb bak : gmade (init_tail oc lb bak).
Proof.
  apply gm_pure. intros d g. unfold init_tail. cbn [g_partitions g_guid g_config set_device set_primary].
  change (try_header (set_device d g)) with (try_header g).
  destruct (build oc _ lb) as [h1|e|]; [|reflexivity|reflexivity]. destruct (c_readonly_backup _); [reflexivity|].
  destruct (build oc _ lb) as [h2|e|]; reflexivity.
Qed.
Lemma gm_init_headers oc : gmade (init_headers oc).
Proof.
  apply (gm_ext (fun g => (let lb := c_lb (g_config g) in
    let* bak := on_device (map_err GHeader (find_backup_lba lb)) in init_tail oc lb bak) g)).
  { intros g. reflexivity. }
  cbv zeta. apply (gm_self (fun g => let* bak := on_device (map_err GHeader (find_backup_lba (c_lb (g_config g)))) in
    init_tail oc (c_lb (g_config g)) bak)); [reflexivity|intros g].
  gm; [apply mk_map_err, mk_find_backup|apply gm_init_tail].
Qed.
Lemma gm_check_count id : gmade (check_count id).
Proof. apply gm_pure. reflexivity. Qed.
Lemma gm_insert oc id p c : gmade (insert_partition oc id p c).
Proof. unfold insert_partition. gm; [apply gm_pure; reflexivity|]. destruct c; gm. apply gm_init_headers. Qed.
Lemma gm_add_in oc nm size ty fl al rnd l : gmade (add_in_sections oc nm size ty fl al rnd l).
Proof.
  induction l as [|[s n] l IH]; cbn [add_in_sections]; [gm|]. gm. destruct (_ <=? _); [|exact IH].
  apply gm_bind; [apply gm_lift|intros start]. apply gm_bind; [apply gm_pure; reflexivity|intros nx].
  apply gm_bind; [destruct nx; [apply gm_ret|apply gm_pure; reflexivity]|intros id].
  apply gm_bind; [apply gm_lift|intros e]. apply gm_bind; [apply gm_lift|intros la].
  apply gm_bind; [apply gm_check_count|intros c]. apply gm_insert.
Qed.
Lemma gm_add oc nm size ty fl al rnd : gmade (add_partition oc nm size ty fl al rnd).
Proof.
  apply (gm_ext (fun g => (fun g' => if size =? 0 then panic else
    (let* sections := (fun g => (find_free_sectors oc g, g)) in
     add_in_sections oc nm ((size - 1) / lb_u64 (c_lb (g_config g')) + 1) ty fl al rnd sections)) g g)).
  { intros g. unfold add_partition. destruct (size =? 0); reflexivity. }
  apply gm_self; [reflexivity|intros g]. destruct (size =? 0); [apply gm_panic|].
  apply gm_bind; [apply gm_pure; reflexivity|intros l]. apply gm_add_in.
Qed.
Lemma gm_add_at_in oc nm id first len ty fl rnd l : gmade (add_at_in_sections oc nm id first len ty fl rnd l).
Proof.
  induction l as [|[s n] l IH]; cbn [add_at_in_sections]; [gm|]. destruct (negb _); [exact IH|].
  apply gm_bind; [apply gm_lift|intros e]. apply gm_bind; [apply gm_lift|intros la].
  apply gm_bind; [apply gm_check_count|intros c]. apply gm_insert.
Qed.
Lemma gm_add_at oc nm id first len ty fl rnd : gmade (add_partition_at oc nm id first len ty fl rnd).
Proof.
  apply (gm_ext (fun g => (fun g' => if len =? 0 then panic else if id =? 0 then panic else
    if match pm_get id (g_partitions g') with Some p => is_used p | None => false end then throw GPartitionIdAlreadyUsed else
    (let* sections := (fun g => (find_free_sectors oc g, g)) in
     add_at_in_sections oc nm id first len ty fl rnd sections)) g g)).
  { intros g. unfold add_partition_at. destruct (len =? 0); [reflexivity|]. destruct (id =? 0); [reflexivity|].
    destruct (match pm_get id (g_partitions g) with Some p => is_used p | None => false end); reflexivity. }
  apply gm_self; [reflexivity|intros g]. destruct (len =? 0); [apply gm_panic|]. destruct (id =? 0); [apply gm_panic|].
  destruct (match pm_get id (g_partitions g) with Some p => is_used p | None => false end); [apply gm_throw|].
  apply gm_bind; [apply gm_pure; reflexivity|intros l]. apply gm_add_at_in.
Qed.
Lemma gm_update_partitions oc pp : gmade (update_partitions oc pp).
Proof.
  unfold update_partitions. apply gm_bind; [destruct (match pm_get 0 pp with Some _ => true | None => false end); gm|intros _].
  apply gm_bind; [apply gm_check_count|intros _]. apply gm_bind; [apply gm_pure; reflexivity|intros _]. apply gm_init_headers.
Qed.
Lemma gm_remove id : gmade (remove_partition id).
Proof. apply gm_pure. intros d g. unfold remove_partition. cbn [g_partitions set_device]. destruct (pm_get id _); reflexivity. Qed.
Lemma gm_remove_guid u : gmade (remove_partition_by_guid u).
Proof.
  apply gm_pure. intros d g. unfold remove_partition_by_guid. cbn [g_partitions set_device].
  destruct (find _ _) as [[i p]|]; reflexivity.
Qed.

(** A history of calls, as in [run]; replacing the device is another device, not a call on this one. *)
Definition same_device (o : op) : Prop := match o with OpUpdateDevice _ _ => False | _ => True end.
Definition omade (F : gdisk -> option gdisk) : Type := forall g, {p : prog (option gdisk) |
  forall d, F (set_device d g) = let (x, d') := run_steps p d in option_map (set_device d') x}.
Lemma om_kept {A} (F : gdisk -> outcome gpt_err A * gdisk) : gmade F -> omade (fun g => kept (F g)).
Proof.
  intros H g. destruct (H g) as (p & P). exists (pbind p (fun x => Done (kept x))). intros d. rewrite run_pbind, P.
  destruct (run_steps p d) as [[r g'] d']. cbn [run_steps]. destruct r; reflexivity.
Qed.
Lemma om_pure {A} (F : gdisk -> A * gdisk) : gmade F -> omade (fun g => Some (snd (F g))).
Proof.
  intros H g. destruct (H g) as (p & P). exists (pbind p (fun x => Done (Some (snd x)))). intros d. rewrite run_pbind, P.
  destruct (run_steps p d) as [[r g'] d']. reflexivity.
Qed.
Lemma om_step oc o : same_device o -> omade (step oc o).
Proof.
  intros S. destruct o; cbn [step].
  - apply om_kept, gm_add.
  - apply om_kept, gm_add_at.
  - apply om_pure, gm_remove.
  - apply om_pure, gm_remove_guid.
  - apply om_pure, gm_pure. reflexivity.
  - apply (om_pure (fun g => (tt, update_guid u rnd g))). apply gm_pure. reflexivity.
  - apply om_kept, gm_update_partitions.
  - apply om_kept, gm_write_inplace.
  - destruct S.
Qed.
Lemma om_run oc ops : Forall same_device ops -> omade (run oc ops).
Proof.
  intros S. assert (T : forall o, In o ops -> same_device o) by (apply Forall_forall; exact S). clear S.
  induction ops as [|o ops IH]; intros g; [exists (Done (Some g)); reflexivity|].
  destruct (om_step oc o (T o (or_introl eq_refl)) g) as (p & P).
  assert (K : omade (run oc ops)) by (apply IH; intros o' I; apply T; right; exact I).
  exists (pbind p (fun x => match x with Some g' => proj1_sig (K g') | None => Done None end)).
  intros d. cbn [run]. rewrite P, run_pbind. destruct (run_steps p d) as [[g'|] d']; [|reflexivity].
  cbn [option_map]. apply (proj2_sig (K g')).
Qed.
(** Opening and creating: the device is inside the result. *)
Definition dmade (F : M dev gpt_err gdisk) : Type := {p : prog (outcome gpt_err gdisk) |
  forall d, F d = let (r, d') := run_steps p d in (oval (set_device d') r, d')}.
Definition no_dev : dev := mkDev [] 0 false false [] [].
Definition same_but_dev (f g : M dev gpt_err gdisk) : Prop :=
  forall d, f d = let (r, d') := g d in (oval (set_device d') r, d').
Lemma same_but_dev_bind {A} (m : M dev gpt_err A) k k' : (forall a, same_but_dev (k a) (k' a)) -> same_but_dev (bind m k) (bind m k').
Proof. intros H d. unfold bind. destruct (m d) as [[a|e|] d']; [apply H|reflexivity|reflexivity]. Qed.
Lemma dm_open oc cfg : dmade (open_from_device oc cfg).
Proof.
  set (front := let* h1 := attempt (read_primary_header (c_lb cfg)) in
    let* h2 := attempt (read_backup_header (c_lb cfg)) in
    let* hh := (if c_only_valid_headers cfg then
       let* a := lift (omap_err GHeader h1) in let* b := lift (omap_err GHeader h2) in ret (Ok a, Ok b)
     else match h1, h2 with Err e, Err _ => throw (GHeader e) | _, _ => ret (h1, h2) end) in
    let (h1, h2) := hh : outcome hdr_err header * outcome hdr_err header in
    let* h := (match or_else h1 h2 with Ok h => ret h | _ => panic end) in
    let* table := map_err GIo (file_read_partitions oc h (c_lb cfg)) in
    ret (mkGdisk cfg no_dev (disk_guid h) h1 h2 table false) : M dev gpt_err gdisk).
  assert (P : made front).
  { unfold front. apply mk_bind; [apply mk_attempt, mk_primary|intros h1]. apply mk_bind; [apply mk_attempt, mk_backup|intros h2].
    apply mk_bind; [destruct (c_only_valid_headers cfg); [mk|]; destruct h1, h2; mk|intros (a, b)].
    apply mk_bind; [destruct (or_else a b); mk|intros h].
    apply mk_bind; [apply mk_map_err, mk_read_partitions|intros t]. mk. }
  destruct P as (p & P). exists p. intros d. rewrite P. unfold front, open_from_device. clear p P front.
  revert d.
  apply same_but_dev_bind; intros h1. apply same_but_dev_bind; intros h2. apply same_but_dev_bind; intros (a, b).
  apply same_but_dev_bind; intros h. apply same_but_dev_bind; intros t. intros d. reflexivity.
Qed.
Lemma dm_create oc cfg u rnd : dmade (create_from_device oc cfg u rnd).
Proof.
  set (g0 := mkGdisk cfg no_dev (match u with Some u => u | None => rnd end)
    (Err HInvalidGptSignature) (Err HInvalidGptSignature) [] false).
  destruct (gm_init_headers oc g0) as (p & P).
  exists (pbind p (fun x => Done (match x with (Ok _, g) => Ok g | (Err e, _) => Err e | (Panic, _) => Panic end))).
  intros d. rewrite run_pbind. specialize (P d). unfold create_from_device. cbv zeta.
  change (mkGdisk cfg d _ _ _ _ _) with (set_device d g0). rewrite P.
  destruct (run_steps p d) as [[[t|e|] g'] d']; reflexivity.
Qed.
Lemma dm_path F : dmade F -> dmade (with_sync F).
Proof.
  intros (p & P). exists (pbind p (fun r => Done (oval (set_sync true) r))). intros d. rewrite run_pbind.
  unfold with_sync, bind. rewrite P. destruct (run_steps p d) as [[g|e|] d']; reflexivity.
Qed.
(** The functions of mbr.rs. *)
Lemma mk_mbr_from_disk lb : made (mbr_from_disk lb).
Proof. unfold mbr_from_disk. mk. destruct (mbr_from_bytes _ _); mk. Qed.
Lemma mk_overwrite m : made (overwrite_lba0 m).
Proof. unfold overwrite_lba0. mk. Qed.
Lemma mk_records l : made (dev_write_records l).
Proof. induction l as [|r l IH]; cbn [dev_write_records]; mk. exact IH. Qed.
Lemma mk_conservative m : made (update_conservative m).
Proof. unfold update_conservative. mk. apply mk_records. Qed.
Lemma mk_read_at off n : made (read_at_mbr off n).
Proof. unfold read_at_mbr. mk. Qed.
Lemma mk_write_at off b : made (write_at_mbr off b).
Proof. unfold write_at_mbr. mk. Qed.
