(** CallFacts.v - how many device calls the operations make (C95). *)
From Verif Require Export MemoryFacts.
Open Scope list_scope.
Open Scope N_scope.

(** * Device calls (C95) *)
Lemma spent_0 d : spent 0 d d.
Proof. exists O. split; [lia|reflexivity]. Qed.
Lemma spent_trans m n d1 d2 d3 : spent m d1 d2 -> spent n d2 d3 -> spent (m + n) d1 d3.
Proof.
  intros (k & K1 & K2) (j & J1 & J2). exists (k + j)%nat. split; [lia|]. rewrite J2, K2.
  rewrite Nat.add_comm. generalize (faults d1). clear. intros l. revert l. induction k as [|k IH]; intros l; [rewrite Nat.add_0_r; reflexivity|].
  rewrite Nat.add_succ_r. destruct l; [destruct j; reflexivity|]. apply IH.
Qed.
Lemma spent_more m n d d' : spent m d d' -> m <= n -> spent n d d'.
Proof. intros (k & K1 & K2) L. exists k. split; [lia|exact K2]. Qed.
Lemma spent_tick d d' : faults d' = faults (snd (tick d)) -> spent 1 d d'.
Proof.
  intros E. exists 1%nat. split; [lia|]. rewrite E. unfold tick. destruct (faults d) as [|f r] eqn:F; cbn [snd faults]; [rewrite F|]; reflexivity.
Qed.
Definition costs {E A} (n : N) (m : M dev E A) : Prop := forall d, spent n d (snd (m d)).
Lemma co_bind {E A B} a b (m : M dev E A) (k : A -> M dev E B) : costs a m -> (forall x, costs b (k x)) -> costs (a + b) (bind m k).
Proof.
  intros X Y d. unfold bind. specialize (X d). destruct (m d) as [[x|e|] d1]; cbn [snd] in *.
  - exact (spent_trans _ _ _ _ _ X (Y x d1)).
  - eapply spent_more; [exact X|lia].
  - eapply spent_more; [exact X|lia].
Qed.
Lemma co_more {E A} a b (m : M dev E A) : costs a m -> a <= b -> costs b m.
Proof. intros X L d. eapply spent_more; [apply X|exact L]. Qed.
Lemma co_idle {E A} (f : outcome E A) : costs 0 (fun d => (f, d)).
Proof. intros d. apply spent_0. Qed.
Lemma co_lift {E A} (f : outcome E A) : costs 0 (lift f).
Proof. intros d. apply spent_0. Qed.
Lemma co_map_err {E F A} (f : E -> F) n (m : M dev E A) : costs n m -> costs n (map_err f m).
Proof. intros X d. specialize (X d). unfold map_err. destruct (m d) as [[x|e|] d1]; exact X. Qed.
Lemma co_attempt {E F A} n (m : M dev E A) : costs n m -> costs n (attempt (F:=F) m).
Proof. intros X d. specialize (X d). unfold attempt. destruct (m d) as [[x|e|] d1]; exact X. Qed.
Lemma co_seek_start n : costs 1 (seek_start n).
Proof. intros d. apply spent_tick. unfold seek_start. destruct (tick d) as [[m|] d1]; reflexivity. Qed.
Lemma co_seek_end : costs 1 seek_end.
Proof. intros d. apply spent_tick. unfold seek_end. destruct (tick d) as [[m|] d1]; reflexivity. Qed.
Lemma co_position : costs 1 stream_position.
Proof. intros d. apply spent_tick. unfold stream_position. destruct (tick d) as [[m|] d1]; reflexivity. Qed.
Lemma co_flush : costs 1 flush.
Proof. intros d. apply spent_tick. unfold flush. destruct (tick d) as [[m|] d1]; reflexivity. Qed.
Lemma co_sync_all : costs 1 sync_all.
Proof. intros d. apply spent_tick. unfold sync_all. destruct (tick d) as [[m|] d1]; reflexivity. Qed.
Lemma co_read_exact n : costs 1 (read_exact n).
Proof.
  intros d. unfold read_exact. destruct (n =? 0); [eapply spent_more; [apply spent_0|lia]|].
  apply spent_tick. destruct (tick d) as [[m|] d1]; [reflexivity|]. destruct (_ <=? _); [reflexivity|]. cbn [snd]. destruct (_ && _); reflexivity.
Qed.
Lemma co_write_all bs : costs 1 (write_all bs).
Proof.
  intros d. unfold write_all. destruct bs as [|b bs]; [eapply spent_more; [apply spent_0|lia]|].
  apply spent_tick. destruct (tick d) as [[m|] d1]; [reflexivity|]. destruct (_ || _); reflexivity.
Qed.
Ltac cost :=
  repeat first
    [ apply co_more with 0; [apply co_lift|lia] | apply co_map_err | apply co_attempt
    | apply co_more with 1; [first [apply co_seek_start|apply co_seek_end|apply co_position|apply co_flush|apply co_sync_all|apply co_read_exact|apply co_write_all]|lia]
    | apply co_more with 0; [apply (co_idle _)|lia] ].
Lemma co_lift_bind {E A B} n (o : outcome E A) (k : A -> M dev E B) : (forall x, costs n (k x)) -> costs n (let* x := lift o in k x).
Proof. intros X. apply co_more with (0 + n); [apply co_bind; [apply co_lift|exact X]|lia]. Qed.
Lemma co_one {E A B} n (m : M dev E A) (k : A -> M dev E B) : 1 <= n -> costs 1 m -> (forall x, costs (n - 1) (k x)) -> costs n (bind m k).
Proof. intros L X Y. apply co_more with (1 + (n - 1)); [apply co_bind; assumption|lia]. Qed.
Lemma co_find_backup lb : costs 3 (find_backup_lba lb).
Proof.
  unfold find_backup_lba. apply co_one; [lia|cost|intros p]. apply co_one; [lia|cost|intros len]. apply co_one; [lia|cost|intros q].
  destruct (len <? _); cost.
Qed.
Lemma co_position_or_0 : costs 1 stream_position_or_0.
Proof. unfold stream_position_or_0. apply co_one; [lia|cost|intros r; cost]. Qed.
Lemma co_file_read_header o : costs 2 (file_read_header o).
Proof. unfold file_read_header. apply co_one; [lia|cost|intros r]. apply co_one; [lia|cost|intros bs; cost]. Qed.
Lemma co_read_primary lb : costs 4 (read_primary_header lb).
Proof.
  unfold read_primary_header. apply co_one; [lia|apply co_position_or_0|intros cur]. apply co_more with (2 + 1); [|lia].
  apply co_bind; [apply co_attempt, co_file_read_header|intros res]. apply co_one; [lia|cost|intros r; cost].
Qed.
Lemma co_read_backup lb : costs 7 (read_backup_header lb).
Proof.
  unfold read_backup_header. apply co_one; [lia|apply co_position_or_0|intros cur]. apply co_more with (3 + (2 + 1)); [|lia].
  apply co_bind; [apply co_find_backup|intros n]. apply co_lift_bind. intros o.
  apply co_bind; [apply co_attempt, co_file_read_header|intros res]. apply co_one; [lia|cost|intros r; cost].
Qed.
Lemma spent_read_entries oc n : forall i e m d, spent ((lenN (data d) - pos d) / 128 + 1) d (snd (read_entries oc n i e m d)).
Proof.
  induction n as [|n IH]; intros i e m d; cbn [read_entries]; [eapply spent_more; [apply spent_0|lia]|].
  unfold bind at 1. pose proof (co_read_exact 128 d) as C. destruct (read_exact 128 d) as [[bs|x|] d1] eqn:R; cbn [snd] in *;
    [|eapply spent_more; [exact C|lia]..].
  apply read_exact_ok in R; [|discriminate]. destruct R as (R1 & R2 & R3).
  assert (Q : (lenN (data d) - pos d) / 128 = (lenN (data d1) - pos d1) / 128 + 1).
  { rewrite R1, R2. replace (lenN (data d) - pos d) with (lenN (data d) - (pos d + 128) + 1 * 128) by lia. apply N.div_add. discriminate. }
  rewrite Q, N.add_comm. apply (spent_trans 1 _ d d1 _ C). clear Q.
  destruct (bytes_eqb _ _).
  - unfold bind, lift. destruct (addw oc 31 e 1) as [y|y|]; [apply IH|eapply spent_more; [apply spent_0|lia]..].
  - unfold bind, lift. destruct (fst (parse_entry bs)) as [y|y|]; [apply IH|eapply spent_more; [apply spent_0|lia]..].
Qed.
Lemma spent_read_partitions oc h lb d : spent (4 + lenN (data d) / 128) d (snd (file_read_partitions oc h lb d)).
Proof.
  unfold file_read_partitions. unfold bind at 1, lift at 1. destruct (ok_or _ _) as [ps|e|]; cbn [snd]; [|eapply spent_more; [apply spent_0|lia]..].
  unfold bind at 1. pose proof (co_seek_start ps d) as C1. pose proof (untouched_seek_start ps d) as (U1 & _).
  destruct (seek_start ps d) as [[n|e|] d1]; cbn [snd] in *; [|eapply spent_more; [exact C1|lia]..].
  destruct (negb _); [eapply spent_more; [exact C1|lia]|].
  unfold bind at 1. pose proof (spent_read_entries oc (N.to_nat (num_parts h)) 0 0 [] d1) as C2.
  assert (L : (lenN (data d1) - pos d1) / 128 <= lenN (data d) / 128) by (rewrite U1; apply N.div_le_mono; [discriminate|lia]).
  set (q := (lenN (data d1) - pos d1) / 128) in *. set (q' := lenN (data d) / 128) in *. clearbody q q'.
  pose proof (spent_trans _ _ _ _ _ C1 C2) as C. clear C1 C2 U1.
  destruct (read_entries oc (N.to_nat (num_parts h)) 0 0 [] d1) as [[m|e|] d2]; cbn [snd] in *; [|eapply spent_more; [exact C|lia]..].
  eapply spent_more; [eapply spent_trans; [exact C|]|].
  - match goal with |- spent _ d2 (snd (?m d2)) => enough (X : costs 2 m) by apply X end.
    apply co_one; [lia|cost|intros z]. apply co_lift_bind. intros len. apply co_one; [lia|cost|intros t].
    destruct (_ =? _); cost.
  - lia.
Qed.
Lemma spent_open oc cfg d : spent (15 + lenN (data d) / 128) d (snd (open_from_device oc cfg d)).
Proof.
  unfold open_from_device. unfold bind at 1.
  pose proof (untouched_attempt (F:=gpt_err) _ (untouched_read_primary_header (c_lb cfg)) d) as (U1 & _).
  pose proof (co_attempt (F:=gpt_err) _ _ (co_read_primary (c_lb cfg)) d) as C1.
  destruct (attempt (read_primary_header (c_lb cfg)) d) as [[h1|e|] d1]; cbn [snd] in *; [|eapply spent_more; [exact C1|lia]..]. unfold bind at 1.
  pose proof (untouched_attempt (F:=gpt_err) _ (untouched_read_backup_header (c_lb cfg)) d1) as (U2 & _).
  pose proof (spent_trans _ _ _ _ _ C1 (co_attempt (F:=gpt_err) _ _ (co_read_backup (c_lb cfg)) d1)) as C2.
  destruct (attempt (read_backup_header (c_lb cfg)) d1) as [[h2|e|] d2]; cbn [snd] in *; [|eapply spent_more; [exact C2|lia]..]. unfold bind at 1.
  match goal with |- context [let (_, _) := ?x in _] => destruct x as [r d3] eqn:E3 end.
  assert (D3 : d3 = d2).
  { destruct (c_only_valid_headers cfg).
    - unfold bind, lift, ret in E3. destruct (omap_err GHeader h1), (omap_err GHeader h2); congruence.
    - unfold throw, ret in E3. destruct h1, h2; congruence. }
  subst d3. destruct r as [(a, b)|e|]; cbn [snd]; [|eapply spent_more; [exact C2|lia]..].
  unfold bind at 1. destruct (or_else a b) as [h|e|]; unfold ret, panic; cbn [snd]; [|eapply spent_more; [exact C2|lia]..]. unfold bind, map_err.
  pose proof (spent_trans _ _ _ _ _ C2 (spent_read_partitions oc h (c_lb cfg) d2)) as C3.
  assert (U : data d2 = data d) by congruence. rewrite U in C3.
  destruct (file_read_partitions oc h (c_lb cfg) d2) as [[t|e|] d4]; cbn [snd] in *; (eapply spent_more; [exact C3|lia]).
Qed.

Definition gcosts {E A} (n : N) (m : M gdisk E A) : Prop := forall g, spent n (g_device g) (g_device (snd (m g))).
Lemma gc_bind {E A B} a b (m : M gdisk E A) (k : A -> M gdisk E B) : gcosts a m -> (forall x, gcosts b (k x)) -> gcosts (a + b) (bind m k).
Proof.
  intros X Y g. unfold bind. specialize (X g). destruct (m g) as [[x|e|] g1]; cbn [snd] in *.
  - exact (spent_trans _ _ _ _ _ X (Y x g1)).
  - eapply spent_more; [exact X|lia].
  - eapply spent_more; [exact X|lia].
Qed.
Lemma gc_more {E A} a b (m : M gdisk E A) : gcosts a m -> a <= b -> gcosts b m.
Proof. intros X L d. eapply spent_more; [apply X|exact L]. Qed.
Lemma gc_on_device {E A} n (m : M dev E A) : costs n m -> gcosts n (on_device m).
Proof. intros X g. unfold on_device. specialize (X (g_device g)). destruct (m (g_device g)). exact X. Qed.
Lemma gc_idle {E A} (f : gdisk -> outcome E A * gdisk) : (forall g, g_device (snd (f g)) = g_device g) -> gcosts 0 f.
Proof. intros X g. rewrite X. apply spent_0. Qed.
Lemma co_write_to_device oc p i s lb z : costs 2 (write_to_device oc p i s lb z).
Proof. unfold write_to_device. do 3 (apply co_lift_bind; intros ?). apply co_one; [lia|cost|intros w; cost]. Qed.
Lemma co_write_zero oc i n s lb z : costs 2 (write_zero_entries oc i n s lb z).
Proof. unfold write_zero_entries. do 3 (apply co_lift_bind; intros ?). apply co_one; [lia|cost|intros w]. apply co_lift_bind. intros w2. cost. Qed.
Lemma co_write_entries oc lb ph bh l : forall i, costs (4 * lenN l) (write_entries oc lb ph bh l i).
Proof.
  induction l as [|(k, p) l IH]; intros i; cbn [write_entries]; [cost|].
  apply co_more with (2 + (2 + 4 * lenN l)); [|unfold lenN; cbn [length]; lia].
  destruct (_ <=? i); [cost|]. apply co_bind; [apply co_map_err, co_write_to_device|intros _].
  apply co_bind; [|intros _; apply IH]. destruct bh as [b|]; [|cost]. destruct (_ <=? i); [cost|]. destruct (_ =? _); [cost|].
  apply co_map_err, co_write_to_device.
Qed.
Lemma co_write_tables oc lb ph bh m : costs (4 * lenN (used_parts m) + 4) (write_tables oc lb ph bh m).
Proof.
  unfold write_tables. apply co_bind; [apply co_write_entries|intros next]. apply co_lift_bind. intros n. apply co_more with (2 + 2); [|lia].
  apply co_bind; [apply co_map_err, co_write_zero|intros _]. destruct bh; [|cost]. apply co_lift_bind. intros k. apply co_map_err, co_write_zero.
Qed.
Lemma spent_file_write h lba lb d : spent 4 d (snd (snd (file_write_header h lba lb d))).
Proof.
  unfold file_write_header.
  assert (C : costs 2 (partentry_checksum h lb)).
  { unfold partentry_checksum. apply co_lift_bind. intros s. apply co_one; [lia|cost|intros z]. apply co_lift_bind. intros n.
    apply co_one; [lia|cost|intros t; cost]. }
  specialize (C d). destruct (partentry_checksum h lb d) as [[x|e|] d1]; cbn [snd] in *; [|eapply spent_more; [exact C|lia]..].
  destruct (hdr_to_bytes _ x) as [(q, bs)|e|]; cbn [snd]; [|eapply spent_more; [exact C|lia]..].
  match goal with |- context [bind ?a ?b bs] => destruct (bind a b bs) as [[[]|e|] hb] end;
    cbn [snd]; [|eapply spent_more; [exact C|lia]..].
  match goal with |- context [let (r, y) := ?m d1 in _] =>
    assert (C2 : costs 2 m) by (apply co_lift_bind; intros s; apply co_one; [lia|cost|intros z]; apply co_one; [lia|cost|intros u; cost]);
    specialize (C2 d1); destruct (m d1) as [r d2] end. cbn [snd] in *.
  exact (spent_trans 2 2 _ _ _ C C2).
Qed.
Lemma gc_write_primary_of h : gcosts 4 (write_primary_of h).
Proof.
  intros g. unfold write_primary_of, write_primary. destruct (_ <=? _); [eapply spent_more; [apply spent_0|lia]|].
  pose proof (spent_file_write h (current_lba h) (c_lb (g_config g)) (g_device g)) as C. destruct (file_write_header _ _ _ _) as [r [h' d]]. exact C.
Qed.
Lemma gc_write_backup_of h : gcosts 4 (write_backup_of h).
Proof.
  intros g. unfold write_backup_of, write_backup. destruct (_ <=? _); [eapply spent_more; [apply spent_0|lia]|].
  pose proof (spent_file_write h (current_lba h) (c_lb (g_config g)) (g_device g)) as C. destruct (file_write_header _ _ _ _) as [r [h' d]]. exact C.
Qed.
Lemma spent_write oc g : spent (17 + 4 * lenN (used_parts (g_partitions g))) (g_device g) (g_device (snd (write_inplace oc g))).
Proof.
  unfold write_inplace. destruct (negb _); [eapply spent_more; [apply spent_0|lia]|].
  pose proof (gc_on_device _ _ (co_map_err GHeader _ _ (co_find_backup (c_lb (g_config g)))) g) as C1.
  set (u := 4 * lenN (used_parts (g_partitions g))). assert (P : g_partitions (snd (on_device (map_err GHeader (find_backup_lba (c_lb (g_config g)))) g)) = g_partitions g).
  { unfold on_device. destruct (map_err _ _ _); reflexivity. }
  unfold bind at 1. destruct (on_device (map_err GHeader (find_backup_lba (c_lb (g_config g)))) g) as [[x|e|] g1]; cbn [snd] in *;
    [|eapply spent_more; [exact C1|lia]..].
  eapply spent_more; [eapply spent_trans; [exact C1|]|]. 
  - match goal with |- spent _ _ (g_device (snd (?m g1))) => enough (X : gcosts (u + 14) m) by apply X end.
    apply gc_more with (0 + (0 + (0 + (0 + ((u + 4) + (4 + (4 + (1 + 1)))))))); [|lia]. unfold u. rewrite <- P.
    apply gc_bind; [apply gc_idle; reflexivity|intros h]. apply gc_bind; [apply gc_idle; reflexivity|intros ph].
    apply gc_bind; [apply gc_idle; reflexivity|intros _]. apply gc_bind.
    + destruct (c_readonly_backup _); [apply gc_idle; reflexivity|]. apply gc_more with (0 + 0); [|lia].
      apply gc_bind; [apply gc_idle; reflexivity|intros b]. apply gc_idle. reflexivity.
    + intros bh. apply gc_bind; [apply gc_on_device, co_write_tables|intros _].
      apply gc_bind; [destruct bh; [apply gc_write_backup_of|apply gc_more with 0; [apply gc_idle; reflexivity|lia]]|intros _].
      apply gc_bind; [apply gc_write_primary_of|intros _]. apply gc_bind; [apply gc_on_device; cost|intros _].
      destruct (g_sync _); [apply gc_on_device; cost|apply gc_more with 0; [apply gc_idle; reflexivity|lia]].
  - lia.
Qed.
Lemma spent_init oc g : spent 3 (g_device g) (g_device (snd (init_headers oc g))).
Proof.
  unfold init_headers. cbn zeta. unfold bind. pose proof (gc_on_device _ _ (co_map_err GHeader _ _ (co_find_backup (c_lb (g_config g)))) g) as C1.
  destruct (on_device (map_err GHeader (find_backup_lba (c_lb (g_config g)))) g) as [[x|e|] g1]; cbn [snd] in *; try exact C1.
  destruct (build oc _ _) as [h1|e|]; try exact C1. destruct (c_readonly_backup _); [exact C1|]. destruct (build oc _ _) as [h2|e|]; exact C1.
Qed.
Lemma spent_create oc cfg u rnd d : spent 3 d (snd (create_from_device oc cfg u rnd d)).
Proof.
  unfold create_from_device. match goal with |- context [init_headers oc ?g0] => pose proof (spent_init oc g0) as C; destruct (init_headers oc g0) as [[a|e|] g2] end; exact C.
Qed.

Lemma gc_init oc : gcosts 3 (init_headers oc).
Proof. intros g. apply spent_init. Qed.
Lemma gc_q {E A} (f : gdisk -> outcome E A) : gcosts 0 (fun g => (f g, g)).
Proof. intros g. apply spent_0. Qed.
Lemma gc_free {E A B} n (m : M gdisk E A) (k : A -> M gdisk E B) : gcosts 0 m -> (forall x, gcosts n (k x)) -> gcosts n (bind m k).
Proof. intros X Y. exact (gc_bind 0 n m k X Y). Qed.
Lemma gc_insert oc id p c : gcosts 3 (insert_partition oc id p c).
Proof.
  intros g. unfold insert_partition. match goal with |- spent _ _ (g_device (snd (?m g))) => enough (X : gcosts 3 m) by apply X end.
  apply gc_free; [apply gc_idle; reflexivity|intros _]. apply gc_more with (3 + 0); [|lia]. apply gc_bind; [|intros _; apply gc_idle; reflexivity].
  destruct c; [apply gc_init|apply gc_more with 0; [apply gc_idle; reflexivity|lia]].
Qed.
Lemma gc_sections oc nm sz ty fl al rnd s : gcosts 3 (add_in_sections oc nm sz ty fl al rnd s).
Proof.
  induction s as [|[a l] s IH]; cbn [add_in_sections]; [apply gc_more with 0; [apply gc_idle; reflexivity|lia]|].
  do 2 (apply gc_free; [apply (gc_q (fun _ => _))|intros ?]). destruct (_ <=? l); [|exact IH].
  apply gc_free; [apply (gc_q (fun _ => _))|intros start]. apply gc_free; [apply gc_q|]. intros next.
  apply gc_free; [destruct next; [apply (gc_q (fun _ => _))|apply gc_q]|]. intros id.
  do 2 (apply gc_free; [apply (gc_q (fun _ => _))|intros ?]). apply gc_free; [apply gc_q|intros c]. apply gc_insert.
Qed.
Lemma gc_at_sections oc nm id first n ty fl rnd s : gcosts 3 (add_at_in_sections oc nm id first n ty fl rnd s).
Proof.
  induction s as [|[a l] s IH]; cbn [add_at_in_sections]; [apply gc_more with 0; [apply gc_idle; reflexivity|lia]|].
  destruct (negb _); [exact IH|]. do 2 (apply gc_free; [apply (gc_q (fun _ => _))|intros ?]).
  apply gc_free; [apply gc_q|intros c]. apply gc_insert.
Qed.
Lemma used_in_order_len m : lenN (used_in_order m) = lenN (used_parts m).
Proof. rewrite used_in_order_eq. apply used_list_lenN. Qed.
Lemma spent_step oc o g g' : step oc o g = Some g' -> (forall d w, o <> OpUpdateDevice d w) -> spent (budget o g) (g_device g) (g_device g').
Proof.
  intros E ND. assert (Z : forall n, spent n (g_device g) (g_device g)) by (intros n; eapply spent_more; [apply spent_0|lia]).
  destruct o; cbn [step budget] in *; try (apply kept_some in E; subst g').
  - unfold add_partition. destruct (size =? 0); [apply Z|].
    match goal with |- spent _ _ (g_device (snd (?m g))) => enough (X : gcosts 3 m) by apply X end.
    apply gc_free; [apply gc_q|]. intros s. apply gc_sections.
  - unfold add_partition_at. destruct (len =? 0); [apply Z|]. destruct (id =? 0); [apply Z|].
    destruct (match pm_get id (g_partitions g) with Some _ => _ | None => _ end); [apply Z|].
    match goal with |- spent _ _ (g_device (snd (?m g))) => enough (X : gcosts 3 m) by apply X end.
    apply gc_free; [apply gc_q|]. intros s. apply gc_at_sections.
  - injection E as <-. unfold remove_partition. destruct (pm_get id (g_partitions g)); apply Z.
  - injection E as <-. unfold remove_partition_by_guid. destruct (find _ _) as [(id & p)|]; apply Z.
  - injection E as <-. apply Z.
  - injection E as <-. apply Z.
  - unfold update_partitions. match goal with |- spent _ _ (g_device (snd (?m g))) => enough (X : gcosts 3 m) by apply X end.
    apply gc_free; [destruct (match pm_get 0 pp with Some _ => true | None => false end); apply gc_idle; reflexivity|intros _].
    apply gc_free; [apply gc_q|intros _]. apply gc_free; [apply gc_idle; reflexivity|intros _]. apply gc_init.
  - rewrite used_in_order_len. apply spent_write.
  - exfalso. exact (ND d w eq_refl).
Qed.
