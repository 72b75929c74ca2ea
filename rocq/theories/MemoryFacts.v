(** MemoryFacts.v - enough memory is as good as unlimited memory (C94). *)
From Verif Require Export SpecMemory CountFacts OpenFacts CreateFacts HistoryFacts.
Open Scope list_scope.
Open Scope N_scope.

Definition same {S E A} (m m' : M S E A) : Prop := forall s, m s = m' s.
Lemma same_refl {S E A} (m : M S E A) : same m m.
Proof. intros s. reflexivity. Qed.
Lemma same_bind {S E A B} (m m' : M S E A) (k k' : A -> M S E B) : same m m' -> (forall a, same (k a) (k' a)) -> same (bind m k) (bind m' k').
Proof. intros X Y s. unfold bind. rewrite X. destruct (m' s) as [[a|e|] s1]; [apply Y|reflexivity..]. Qed.
Lemma same_map_err {S E F A} (f : E -> F) (m m' : M S E A) : same m m' -> same (map_err f m) (map_err f m').
Proof. intros X s. unfold map_err. rewrite X. reflexivity. Qed.
Lemma same_on_device {E A} (m m' : M dev E A) : same m m' -> same (on_device m) (on_device m').
Proof. intros X g. unfold on_device. rewrite X. reflexivity. Qed.
Lemma same_buffer {S E A} mc n (m : M S E A) : n <= m_mem mc -> same (buffer mc n ;; m) m.
Proof. intros L s. unfold buffer. replace (n <=? m_mem mc) with true by (symmetry; apply N.leb_le, L). reflexivity. Qed.
Lemma same_trans {S E A} (a b c : M S E A) : same a b -> same b c -> same a c.
Proof. intros X Y s. rewrite X. apply Y. Qed.

Lemma same_lift {S E A B} (o : outcome E A) (k k' : A -> M S E B) : (forall a, o = Ok a -> same (k a) (k' a)) ->
  same (bind (lift o) k) (bind (lift o) k').
Proof. intros X s. unfold bind, lift. destruct o as [a|e|]; [apply (X a eq_refl)|reflexivity..]. Qed.

Lemma at_bind {S E A B} (m : M S E A) (k k' : A -> M S E B) s : (forall a s1, m s = (Ok a, s1) -> k a s1 = k' a s1) -> bind m k s = bind m k' s.
Proof. intros X. unfold bind. destruct (m s) as [[a|e|] s1]; [apply X; reflexivity|reflexivity..]. Qed.

(** * Entries and tables *)
Definition fits_in (mem : N) (h : header) : Prop := num_parts h * part_size h <= mem /\ part_size h <= mem.
Section Machine.
Variable mc : machine.
Hypothesis SANE : machine_ok mc.
Local Notation mem := (m_mem mc).
Lemma as_usize_id n : n <= mem -> as_usize mc n = n.
Proof. intros L. unfold as_usize. apply N.mod_small. unfold machine_ok in SANE. lia. Qed.
Lemma try_usize_id n : n <= mem -> try_usize mc (Some n) = Some n.
Proof. intros L. unfold try_usize. replace (n <? 2 ^ m_bits mc) with true; [reflexivity|]. symmetry. apply N.ltb_lt. unfold machine_ok in SANE. lia. Qed.

Lemma checked_mul64_ok a b n : checked_mul64 a b = Some n -> n = a * b.
Proof. unfold checked_mul64. destruct (_ <? _); congruence. Qed.
Lemma same_write_to_device oc p i s lb n : n <= mem -> 128 <= mem -> same (write_to_device_in mc oc p i s lb n) (write_to_device oc p i s lb n).
Proof.
  intros L M. unfold write_to_device_in, write_to_device. repeat (apply same_bind; [apply same_refl|intros ?]). apply same_buffer. lia.
Qed.
Lemma same_write_zero oc a b s lb n : n * b <= mem -> same (write_zero_entries_in mc oc a b s lb n) (write_zero_entries oc a b s lb n).
Proof.
  intros L. unfold write_zero_entries_in, write_zero_entries.
  do 4 (apply same_bind; [apply same_refl|intros ?]).
  destruct (checked_mul64 n b) as [z|] eqn:Z; [|intros d0; reflexivity].
  apply checked_mul64_ok in Z. subst z. rewrite (try_usize_id _ L). intros d0. unfold bind at 1. cbn [ok_or lift]. unfold bind at 2. cbn [lift].
  apply (same_buffer mc (n * b) (write_all (zeros (N.to_nat (n * b)))) L d0).
Qed.
Lemma same_checksum h lb : num_parts h * part_size h <= mem -> same (partentry_checksum_in mc h lb) (partentry_checksum h lb).
Proof.
  intros L. unfold partentry_checksum_in, partentry_checksum. do 2 (apply same_bind; [apply same_refl|intros ?]).
  destruct (checked_mul64 (num_parts h) (part_size h)) as [z|] eqn:Z; [|intros d0; reflexivity].
  apply checked_mul64_ok in Z. subst z. intros d0. unfold bind at 1 3. cbn [ok_or lift]. cbn zeta. rewrite (as_usize_id _ L).
  apply (same_buffer mc _ _ L d0).
Qed.
Lemma same_file_write h lba lb d : num_parts h * part_size h <= mem -> lb_u64 lb <= mem ->
  file_write_header_in mc h lba lb d = file_write_header h lba lb d.
Proof.
  intros L M. unfold file_write_header_in, file_write_header. rewrite (same_checksum h lb L d).
  destruct (partentry_checksum h lb d) as [[c|e|] d1]; [|reflexivity..]. cbn zeta.
  destruct (hdr_to_bytes _ _) as [[q b]|e|]; [|reflexivity..]. destruct ((_ ;; _) b) as [[[]|e|] b']; [|reflexivity..].
  match goal with |- (let (_, _) := ?x d1 in _) = (let (_, _) := ?y d1 in _) => assert (X : same x y) end.
  { do 2 (apply same_bind; [apply same_refl|intros ?]). apply (same_buffer mc (lb_u64 lb) _ M). }
  rewrite (X d1). reflexivity.
Qed.
Lemma same_write_entries oc lb ph bh l : part_size ph <= mem -> (forall b, bh = Some b -> part_size b <= mem) -> 128 <= mem ->
  forall i, same (write_entries_in mc oc lb ph bh l i) (write_entries oc lb ph bh l i).
Proof.
  intros L1 L2 M. induction l as [|(k, p) l IH]; intros i; cbn [write_entries_in write_entries]; [apply same_refl|].
  destruct (_ <=? _); [apply same_refl|]. apply same_bind; [apply same_map_err, same_write_to_device; assumption|]. intros _.
  apply same_bind; [|intros _; apply IH]. destruct bh as [b|]; [|apply same_refl]. specialize (L2 b eq_refl).
  destruct (_ <=? _); [apply same_refl|]. destruct (_ =? _); [apply same_refl|]. apply same_map_err, same_write_to_device; assumption.
Qed.
Lemma sub_unwrap_le {E} a b n : @sub_unwrap E a b = Ok n -> n <= a.
Proof. unfold sub_unwrap, checked_sub64. destruct (b <=? a); [|discriminate]. intros X. injection X as <-. lia. Qed.
Lemma same_write_tables oc lb ph bh m : num_parts ph * part_size ph <= mem -> part_size ph <= mem ->
  (forall b, bh = Some b -> num_parts b * part_size b <= mem /\ part_size b <= mem) -> 128 <= mem ->
  same (write_tables_in mc oc lb ph bh m) (write_tables oc lb ph bh m).
Proof.
  intros L0 L1 L2 M. unfold write_tables_in, write_tables.
  apply same_bind; [apply same_write_entries; auto; intros b B; apply L2, B|]. intros next.
  apply same_lift. intros n S. apply sub_unwrap_le in S.
  apply same_bind; [apply same_map_err, same_write_zero; nia|]. intros _. destruct bh as [b|]; [|apply same_refl].
  destruct (L2 b eq_refl) as (L3 & L4). apply same_lift. intros n' S'. apply sub_unwrap_le in S'. apply same_map_err, same_write_zero. nia.
Qed.

(** * Writing *)
Lemma same_write_inplace oc g : (forall h, try_header g = Ok h -> fits_in mem h) -> 4096 <= mem ->
  write_inplace_in mc oc g = write_inplace oc g.
Proof.
  intros F M. assert (LB : forall lb, lb_u64 lb <= mem) by (intros []; cbn; lia).
  unfold write_inplace_in, write_inplace. destruct (negb _); [reflexivity|]. cbn zeta. set (lb := c_lb (g_config g)).
  apply at_bind. intros n g0 E0.
  assert (F0 : forall h, try_header g0 = Ok h -> fits_in mem h).
  { unfold on_device in E0. destruct (map_err _ _ _) as [r d]. injection E0 as _ <-. exact F. }
  clear F E0.
  match goal with |- ?x g0 = ?y g0 => enough (X : same x y) by apply X end.
  apply same_lift. intros h H. unfold the_header in H. destruct (try_header g0) as [h'|e|] eqn:T; try discriminate H. injection H as <-.
  specialize (F0 h' eq_refl). apply same_lift. intros ph B.
  assert (FP : fits_in mem ph).
  { destruct (build oc _ lb) as [x|e|] eqn:E; try discriminate B. injection B as <-. apply build_fields in E.
    destruct E as (_ & _ & E1 & E2 & _). unfold fits_in. rewrite E1, E2. exact F0. }
  apply same_bind; [apply same_refl|]. intros _.
  assert (R : forall bh, (forall b, bh = Some b -> fits_in mem b) -> same
     (on_device (write_tables_in mc oc lb ph bh (g_partitions g0)) ;;
      (match bh with Some bh => write_backup_of_in mc bh | None => ret tt end) ;;
      write_primary_of_in mc ph ;; on_device (map_err GIo flush) ;; (if g_sync g0 then on_device (map_err GIo sync_all) else ret tt))
     (on_device (write_tables oc lb ph bh (g_partitions g0)) ;;
      (match bh with Some bh => write_backup_of bh | None => ret tt end) ;;
      write_primary_of ph ;; on_device (map_err GIo flush) ;; (if g_sync g0 then on_device (map_err GIo sync_all) else ret tt))).
  { intros bh FB. apply same_bind.
    - apply same_on_device, same_write_tables; [apply FP|apply FP|exact FB|lia].
    - intros _. apply same_bind.
      + destruct bh as [b|]; [|apply same_refl]. intros g1. unfold write_backup_of_in, write_backup_of, write_backup_in, write_backup.
        destruct (_ <=? _); [reflexivity|]. rewrite same_file_write; [reflexivity|apply (FB b eq_refl)|apply LB].
      + intros _. apply same_bind; [|intros _; apply same_refl]. intros g1. unfold write_primary_of_in, write_primary_of, write_primary_in, write_primary.
        destruct (_ <=? _); [reflexivity|]. rewrite same_file_write; [reflexivity|apply FP|apply LB]. }
  destruct (c_readonly_backup (g_config g0)).
  - intros g1. apply at_bind. intros bh g2 E. unfold ret in E. injection E as <- <-. apply R. intros b X. discriminate X.
  - intros g1. apply at_bind. intros bh g2 E. unfold bind, lift in E.
    destruct (build oc (bset_primary false (builder_from_header ph)) lb) as [b|e|] eqn:EB; cbn [omap_err] in E; try discriminate E. injection E as <- <-. apply R. intros b' X. injection X as <-.
    apply build_fields in EB. destruct EB as (_ & _ & E1 & E2 & _). unfold fits_in. rewrite E1, E2. exact FP.
Qed.

(** * Reading *)
Lemma read_exact_ok n d bs d' : read_exact n d = (Ok bs, d') -> n <> 0 -> data d' = data d /\ pos d' = pos d + n /\ pos d + n <= lenN (data d).
Proof.
  unfold read_exact. intros E Z. replace (n =? 0) with false in E by (symmetry; apply N.eqb_neq, Z).
  unfold tick in E. destruct (faults d) as [|[m|] r]; cbn [pos data dev_len] in E; try discriminate E.
  - destruct (N.leb_spec (pos d + n) (dev_len d)) as [L|]; try discriminate E. injection E as _ <-. auto.
  - match type of E with context [if ?b then _ else _] => destruct b eqn:L end; try discriminate E. apply N.leb_le in L. injection E as _ <-. auto.
Qed.
Lemma read_entries_ok oc n : forall i e m d m' d', read_entries oc n i e m d = (Ok m', d') ->
  data d' = data d /\ pos d' = pos d + N.of_nat n * 128 /\ (n <> O -> pos d + N.of_nat n * 128 <= lenN (data d)).
Proof.
  induction n as [|n IH]; intros i e m d m' d' E; cbn [read_entries] in E.
  - injection E as _ <-. split; [reflexivity|]. split; [lia|]. intros X. destruct X. reflexivity.
  - unfold bind at 1 in E. destruct (read_exact 128 d) as [[bs|x|] d1] eqn:R; try discriminate E.
    apply read_exact_ok in R; [|discriminate]. destruct R as (R1 & R2 & R3).
    assert (X : exists i e m, read_entries oc n i e m d1 = (Ok m', d')).
    { destruct (bytes_eqb _ _).
      - unfold bind, lift in E. destruct (addw oc 31 e 1) as [y|y|]; try discriminate E. eauto.
      - unfold bind, lift in E. destruct (fst (parse_entry bs)) as [y|y|]; try discriminate E. eauto. }
    destruct X as (i' & e' & m1 & X). apply IH in X. destruct X as (X1 & X2 & X3). rewrite X1, R1. split; [reflexivity|]. split; [lia|]. intros _.
    destruct n; [cbn in *; lia|]. rewrite R1 in X3. specialize (X3 ltac:(discriminate)). lia.
Qed.
Lemma read_partitions_fits oc h d : part_size h = 128 -> forall pstart parts d1 d2,
  seek_start pstart d = (Ok pstart, d1) -> read_entries oc (N.to_nat (num_parts h)) 0 0 [] d1 = (Ok parts, d2) ->
  num_parts h * 128 <= lenN (data d).
Proof.
  intros P pstart parts d1 d2 S R. assert (D : data d1 = data d) by (pose proof (untouched_seek_start pstart d) as U; rewrite S in U; apply U).
  apply read_entries_ok in R. destruct R as (_ & _ & R). rewrite D in R. destruct (N.eq_dec (num_parts h) 0) as [->|Z]; [lia|].
  specialize (R ltac:(lia)). lia.
Qed.
Lemma same_read_partitions oc h lb d : lenN (data d) <= mem -> file_read_partitions_in mc oc h lb d = file_read_partitions oc h lb d.
Proof.
  intros L. unfold file_read_partitions_in, file_read_partitions. apply at_bind. intros pstart d0 E0. unfold lift in E0.
  destruct (ok_or _ _) as [x|e|]; try discriminate E0. injection E0 as <- <-. rename x into pstart.
  apply at_bind. intros n d1 E1. destruct (N.eqb_spec (part_size h) 128) as [P|P]; cbn [negb]; [|reflexivity].
  apply at_bind. intros parts d2 E2.
  assert (K : num_parts h * 128 <= lenN (data d)).
  { assert (n = pstart) by (unfold seek_start in E1; destruct (tick d) as [[m|] d']; congruence). subst n.
    exact (read_partitions_fits oc h d P pstart parts d1 d2 E1 E2). }
  match goal with |- ?x d2 = ?y d2 => enough (X : same x y) by apply X end. apply same_bind; [apply same_refl|]. intros _. apply same_lift.
  intros z Z. rewrite P in Z. destruct (checked_mul64 (num_parts h) 128) as [q|] eqn:Q; try discriminate Z. injection Z as <-.
  apply checked_mul64_ok in Q. subst q. cbn zeta. rewrite as_usize_id by lia. apply same_buffer. lia.
Qed.
Lemma same_open oc cfg d : lenN (data d) <= mem -> open_from_device_in mc oc cfg d = open_from_device oc cfg d.
Proof.
  intros L. unfold open_from_device_in, open_from_device.
  apply at_bind. intros h1 d1 E1. pose proof (untouched_attempt (F:=gpt_err) _ (untouched_read_primary_header (c_lb cfg)) d) as U1. rewrite E1 in U1.
  apply at_bind. intros h2 d2 E2. pose proof (untouched_attempt (F:=gpt_err) _ (untouched_read_backup_header (c_lb cfg)) d1) as U2. rewrite E2 in U2.
  destruct U1 as (U1 & _). destruct U2 as (U2 & _). cbn [snd] in *.
  apply at_bind. intros (a, b) d3 E3.
  assert (D3 : d3 = d2).
  { destruct (c_only_valid_headers cfg).
    - unfold bind, lift, ret in E3. destruct (omap_err GHeader h1), (omap_err GHeader h2); congruence.
    - unfold throw, ret in E3. destruct h1, h2; congruence. }
  subst d3. apply at_bind. intros h d4 E4. assert (d4 = d2) by (unfold ret, panic in E4; destruct (or_else a b); congruence). subst d4.
  unfold bind. unfold map_err. rewrite same_read_partitions; [reflexivity|]. congruence.
Qed.
End Machine.

(** * Histories *)
Definition slim (n : N) (g : gdisk) : Prop :=
  (forall h, try_header g = Ok h -> part_size h = 128 /\ num_parts h <= N.max 128 n) /\ lenN (g_partitions g) <= n.
Lemma slim_more n n' g : slim n g -> n <= n' -> slim n' g.
Proof. intros (A & B) L. split; [|lia]. intros h H. destruct (A h H). split; [assumption|lia]. Qed.
Lemma slim_set n g m : slim n g -> lenN m <= n -> slim n (set_partitions m g).
Proof. intros (A & _) L. split; [exact A|exact L]. Qed.
Definition stays_slim {E A} (m : M gdisk E A) : Prop := forall n, ginv (slim n) m.
Lemma ss_bind {E A B} (m : M gdisk E A) (k : A -> M gdisk E B) : stays_slim m -> (forall a, stays_slim (k a)) -> stays_slim (bind m k).
Proof. intros X Y n. apply ginv_bind; [apply X|intros a; apply Y]. Qed.
Lemma ss_query {E A} (f : gdisk -> outcome E A) : stays_slim (fun g => (f g, g)).
Proof. intros n g H. exact H. Qed.
Lemma ss_on_device {E A} (m : M dev E A) : stays_slim (on_device m).
Proof. intros n g H. unfold on_device. destruct (m (g_device g)). exact H. Qed.
Lemma slim_primary n g h : slim n g -> part_size h = 128 -> num_parts h <= N.max 128 n -> slim n (set_primary (Ok h) g).
Proof. intros (_ & B) P Q. split; [|exact B]. intros x X. unfold try_header in X. cbn in X. injection X as <-. auto. Qed.
Lemma slim_backup n g r : slim n g -> (exists h, g_primary g = Ok h) -> slim n (set_backup r g).
Proof. intros (A & B) (h & P). split; [|exact B]. intros x X. apply A. unfold try_header, or_else in *. cbn in X. rewrite P in *. exact X. Qed.
Lemma ss_init oc : stays_slim (init_headers oc).
Proof.
  intros n g H. destruct (init_headers_any oc g) as (d & _ & [(e & E)|[E|(bak & E)]]); rewrite E; cbn [snd]; try exact H.
  assert (H0 : slim n (set_device d g)) by exact H. clear E H. set (g0 := set_device d g) in *. clearbody g0.
  unfold init_with. destruct (build oc (init_builder g0 bak) _) as [h1|e|] eqn:B1; try exact H0.
  apply build_fields in B1. destruct B1 as (_ & _ & B2 & B3 & _).
  assert (H1 : slim n (set_primary (Ok h1) g0)).
  { apply slim_primary; [exact H0| |].
    - rewrite B3. unfold init_builder. destruct H0 as (A & _). destruct (try_header g0) as [h|e|]; [|reflexivity..].
      exact (proj1 (A h eq_refl)).
    - assert (N1 : num_parts h1 = next_count g0) by exact B2. rewrite N1. unfold next_count. change MIN_NUM_PARTS with 128.
      destruct H0 as (_ & A). pose proof (N.mod_le (lenN (g_partitions g0)) (modulus 32) ltac:(discriminate)). lia. }
  destruct (c_readonly_backup _); [exact H1|]. destruct (build oc _ _) as [h2|e|]; try exact H1.
Qed.
Lemma len_insert k p m : lenN (pm_insert k p m) <= lenN m + 1.
Proof.
  induction m as [|(k', p') m IH]; cbn [pm_insert]; [unfold lenN; cbn [length]; lia|]. destruct (k <? k'); [unfold lenN; cbn [length]; lia|].
  destruct (k =? k'); unfold lenN in *; cbn [length] in *; lia.
Qed.
Lemma len_remove k m : lenN (pm_remove k m) <= lenN m.
Proof. induction m as [|(k', p') m IH]; cbn [pm_remove]; [lia|]. destruct (k =? k'); unfold lenN in *; cbn [length] in *; lia. Qed.
Definition slim_by {E A} (k : N) (m : M gdisk E A) : Prop := forall n g, slim n g -> slim (n + k) (snd (m g)).
Lemma sb_ss {E A} k (m : M gdisk E A) : stays_slim m -> slim_by k m.
Proof. intros X n g H. eapply slim_more; [apply X, H|lia]. Qed.
Lemma sb_bind {E A B} k (m : M gdisk E A) (c : A -> M gdisk E B) : stays_slim m -> (forall a, slim_by k (c a)) -> slim_by k (bind m c).
Proof.
  intros X Y n g H. unfold bind. specialize (X n g H). destruct (m g) as [[a|e|] g1]; cbn [snd] in *; [apply Y, X|eapply slim_more; [exact X|lia]..].
Qed.
Lemma sb_insert oc id p c : slim_by 1 (insert_partition oc id p c).
Proof.
  intros n g H. unfold insert_partition. unfold bind at 1. assert (H1 : slim (n + 1) (set_partitions (pm_insert id p (g_partitions g)) g)).
  { apply slim_set; [eapply slim_more; [exact H|lia]|]. pose proof (len_insert id p (g_partitions g)). destruct H. lia. }
  revert H1. apply (ginv_bind (slim (n + 1))); [destruct c; [apply ss_init|intros g1 H1; exact H1]|intros _ g1 H1; exact H1].
Qed.
Lemma sb_sections oc nm sz ty fl al rnd s : slim_by 1 (add_in_sections oc nm sz ty fl al rnd s).
Proof.
  induction s as [|[a l] s IH]; cbn [add_in_sections]; [apply sb_ss; intros n g H; exact H|].
  do 2 (apply sb_bind; [apply (ss_query (fun _ => _))|intros ?]). destruct (_ <=? l); [|exact IH].
  apply sb_bind; [apply (ss_query (fun _ => _))|intros start]. apply sb_bind; [apply ss_query|]. intros next.
  apply sb_bind; [destruct next; [apply (ss_query (fun _ => _))|apply ss_query]|]. intros id.
  do 2 (apply sb_bind; [apply (ss_query (fun _ => _))|intros ?]). apply sb_bind; [apply ss_query|intros c]. apply sb_insert.
Qed.
Lemma sb_at_sections oc nm id first n ty fl rnd s : slim_by 1 (add_at_in_sections oc nm id first n ty fl rnd s).
Proof.
  induction s as [|[a l] s IH]; cbn [add_at_in_sections]; [apply sb_ss; intros m g H; exact H|].
  destruct (negb _); [exact IH|]. do 2 (apply sb_bind; [apply (ss_query (fun _ => _))|intros ?]).
  apply sb_bind; [apply ss_query|intros c]. apply sb_insert.
Qed.
Definition primary_shape (n z : N) (g : gdisk) : Prop := exists x, g_primary g = Ok x /\ num_parts x = n /\ part_size x = z.
Lemma ps_on_device {E A} n z (m : M dev E A) : ginv (primary_shape n z) (on_device m).
Proof. intros g HP. unfold on_device. destruct (m (g_device g)) as [r d]. exact HP. Qed.
Lemma ps_write_rest oc lb ph bh m s : ginv (primary_shape (num_parts ph) (part_size ph)) (write_rest oc lb ph bh m s).
Proof.
  unfold write_rest. apply ginv_bind; [apply ps_on_device|intros _]. apply ginv_bind; [|intros _].
  - destruct bh as [b|]; [|intros g H; exact H]. intros g H. unfold write_backup_of.
    destruct (write_backup b (c_lb (g_config g)) (g_device g)) as [r [b' d]]. exact H.
  - apply ginv_bind; [|intros _].
    + intros g H. unfold write_primary_of.
      pose proof (write_primary_keeps ph (c_lb (g_config g)) (g_device g)) as K.
      destruct (write_primary ph (c_lb (g_config g)) (g_device g)) as [r [ph' d]]. exists ph'. split; [reflexivity|].
      split; [exact (sh_num _ _ K)|exact (sh_psize _ _ K)].
    + apply ginv_bind; [apply ps_on_device|intros _]. destruct s; [apply ps_on_device|intros g H; exact H].
Qed.
Lemma write_shape oc g h : try_header g = Ok h ->
  exists h', try_header (snd (write_inplace oc g)) = Ok h' /\ num_parts h' = num_parts h /\ part_size h' = part_size h.
Proof.
  intros HH. unfold write_inplace. destruct (negb (c_writable (g_config g))); [exists h; auto|].
  assert (KEEP : forall d, try_header (set_device d g) = Ok h) by (intros d; exact HH).
  unfold bind at 1. unfold on_device at 1.
  destruct (map_err GHeader (find_backup_lba (c_lb (g_config g))) (g_device g)) as [[n|e|] d];
    [|exists h; split; [apply KEEP|auto] ..].
  specialize (KEEP d). set (g0 := set_device d g) in *. set (lb := c_lb (g_config g)).
  unfold bind at 1, lift at 1. rewrite (the_header_of g0 h (proj2 (header_of_iff _ _) KEEP)). unfold bind at 1, lift at 1.
  destruct (build oc (bset_primary true (builder_from_header h)) _) as [ph|e|] eqn:B; cbn [omap_err];
    [|exists h; split; [exact KEEP|auto] ..].
  assert (NP : num_parts ph = num_parts h /\ part_size ph = part_size h) by (apply build_fields in B; split; apply B).
  assert (X : forall g1, primary_shape (num_parts ph) (part_size ph) g1 -> exists h', try_header g1 = Ok h' /\ num_parts h' = num_parts h /\ part_size h' = part_size h).
  { intros g1 (x & X1 & X2 & X3). exists x. split; [unfold try_header; rewrite X1; reflexivity|]. destruct NP. split; congruence. }
  apply X. unfold bind at 1.
  assert (P0 : primary_shape (num_parts ph) (part_size ph) (set_primary (Ok ph) g0)) by (exists ph; auto).
  set (g1 := set_primary (Ok ph) g0) in *.
  unfold bind at 1. destruct (c_readonly_backup _); cbn [ret].
  - apply (ps_write_rest oc _ ph None _ _ g1 P0).
  - unfold bind at 1, lift at 1. destruct (build oc (bset_primary false _) _) as [bh|e|]; cbn [omap_err]; try exact P0.
    apply (ps_write_rest oc _ ph (Some bh) _ _ _). destruct P0 as (x & P1 & P2). exists x. auto.
Qed.
Lemma slim_write oc : stays_slim (write_inplace oc).
Proof.
  intros n g H. pose proof (wo_write oc g) as (_ & _ & PP & _). split; [|rewrite PP; apply H].
  intros h' T'. destruct (try_header g) as [h|e|] eqn:T.
  - destruct (write_shape oc g h T) as (x & X1 & X2 & X3). assert (x = h') by congruence. subst x.
    rewrite X2, X3. apply H, T.
  - exfalso. revert T'. unfold write_inplace. destruct (negb _); [cbn [snd]; intros Y; congruence|]. unfold bind at 1, on_device at 1.
    destruct (map_err GHeader (find_backup_lba (c_lb (g_config g))) (g_device g)) as [[x|x|] d]; try (cbn [snd]; intros Y; change (try_header g = Ok h') in Y; congruence).
    unfold bind at 1, lift at 1, the_header. change (try_header (set_device d g)) with (try_header g). rewrite T. cbn [omap_err snd]. intros Y. change (try_header g = Ok h') in Y; congruence.
  - exfalso. revert T'. unfold write_inplace. destruct (negb _); [cbn [snd]; intros Y; congruence|]. unfold bind at 1, on_device at 1.
    destruct (map_err GHeader (find_backup_lba (c_lb (g_config g))) (g_device g)) as [[x|x|] d]; try (cbn [snd]; intros Y; change (try_header g = Ok h') in Y; congruence).
    unfold bind at 1, lift at 1, the_header. change (try_header (set_device d g)) with (try_header g). rewrite T. cbn [omap_err snd]. intros Y. change (try_header g = Ok h') in Y; congruence.
Qed.

Lemma slim_step oc o n g g' : slim n g -> step oc o g = Some g' -> slim (n + given o) g'.
Proof.
  intros H E. destruct o; cbn [step given] in *; try (apply kept_some in E; subst g').
  - unfold add_partition. destruct (size =? 0); [eapply slim_more; [exact H|lia]|].
    match goal with |- slim _ (snd (bind ?m ?k g)) => enough (X : slim_by 1 (bind m k)) by apply X, H end.
    apply sb_bind; [apply ss_query|]. intros s. apply sb_sections.
  - unfold add_partition_at. destruct (len =? 0); [eapply slim_more; [exact H|lia]|]. destruct (id =? 0); [eapply slim_more; [exact H|lia]|].
    destruct (match pm_get id (g_partitions g) with Some _ => _ | None => _ end); [eapply slim_more; [exact H|lia]|].
    match goal with |- slim _ (snd (bind ?m ?k g)) => enough (X : slim_by 1 (bind m k)) by apply X, H end.
    apply sb_bind; [apply ss_query|]. intros s. apply sb_at_sections.
  - injection E as <-. unfold remove_partition. destruct (pm_get id (g_partitions g)); cbn [snd]; [|eapply slim_more; [exact H|lia]].
    rewrite N.add_0_r. apply slim_set; [exact H|]. pose proof (len_remove id (g_partitions g)). destruct H. lia.
  - injection E as <-. unfold remove_partition_by_guid. destruct (find _ _) as [(id & p)|]; cbn [snd]; [|eapply slim_more; [exact H|lia]].
    rewrite N.add_0_r. apply slim_set; [exact H|]. pose proof (len_remove id (g_partitions g)). destruct H. lia.
  - injection E as <-. rewrite N.add_0_r. cbn [snd take_partitions]. apply slim_set; [exact H|]. apply N.le_0_l.
  - injection E as <-. rewrite N.add_0_r. exact H.
  - unfold update_partitions. unfold bind at 1. assert (M1 : slim (n + lenN pp) g) by (eapply slim_more; [exact H|lia]).
    destruct (match pm_get 0 pp with Some _ => true | None => false end); [exact M1|]. cbn [ret].
    unfold bind at 1. destruct (check_count (lenN pp mod modulus 32) g) as [[c|e|] g1] eqn:C;
      (assert (g1 = g) by (unfold check_count in C; congruence)); subst g1; try exact M1.
    unfold bind at 1. apply ss_init. apply slim_set; [exact M1|lia].
  - rewrite N.add_0_r. apply slim_write, H.
  - injection E as <-. rewrite N.add_0_r. exact H.
Qed.
Lemma slim_fits mem n g : slim n g -> 16384 <= mem -> 128 * n <= mem -> forall h, try_header g = Ok h -> fits_in mem h.
Proof. intros (A & _) B C h H. destruct (A h H) as (P & Q). unfold fits_in. rewrite P. split; lia. Qed.
Lemma slim_run mc oc ops : machine_ok mc -> forall n g, slim n g -> 16384 <= m_mem mc -> 128 * (n + all_given ops) <= m_mem mc -> run_in mc oc ops g = run oc ops g.
Proof.
  intros SANE. induction ops as [|o ops IH]; intros n g H B C; [reflexivity|]. cbn [run_in run all_given fold_right] in *. fold (all_given ops) in C.
  assert (S : step_in mc oc o g = step oc o g).
  { destruct o; try reflexivity. cbn [step_in step]. rewrite (same_write_inplace mc SANE); [reflexivity| |lia]. apply (slim_fits (m_mem mc) n); [exact H|exact B|lia]. }
  rewrite S. destruct (step oc o g) as [g'|] eqn:E; [|reflexivity]. apply (IH (n + given o)); [exact (slim_step oc o n g g' H E)|exact B|lia].
Qed.
Lemma slim_create oc cfg u rnd d g d' : create_from_device oc cfg u rnd d = (Ok g, d') -> slim 0 g.
Proof.
  unfold create_from_device. match goal with |- context [init_headers oc ?g0] => set (g1 := g0) end.
  assert (S : slim 0 g1) by (split; [intros h; discriminate|apply N.le_refl]).
  pose proof (ss_init oc 0 g1 S) as X. destruct (init_headers oc g1) as [[a|e|] g2]; intros E; try discriminate E.
  injection E as <- _. exact X.
Qed.
Lemma read_entries_len oc n : forall i e m d m' d', read_entries oc n i e m d = (Ok m', d') -> lenN m' <= lenN m + N.of_nat n.
Proof.
  induction n as [|n IH]; intros i e m d m' d' E; cbn [read_entries] in E; [injection E as <- _; lia|].
  unfold bind at 1 in E. destruct (read_exact 128 d) as [[bs|x|] d1]; try discriminate E. destruct (bytes_eqb _ _).
  - unfold bind, lift in E. destruct (addw oc 31 e 1) as [y|y|]; try discriminate E. apply IH in E. lia.
  - unfold bind, lift in E. destruct (fst (parse_entry bs)) as [y|y|]; try discriminate E. apply IH in E.
    match type of E with _ <= lenN (pm_insert ?k ?p m) + _ => pose proof (len_insert k p m) end. lia.
Qed.
Lemma slim_open oc cfg d g d' : open_from_device oc cfg d = (Ok g, d') -> slim (lenN (data d) / 128) g.
Proof.
  unfold open_from_device. unfold bind at 1.
  pose proof (untouched_attempt (F:=gpt_err) _ (untouched_read_primary_header (c_lb cfg)) d) as U1.
  destruct (attempt (read_primary_header (c_lb cfg)) d) as [[h1|e|] d1]; try discriminate. unfold bind at 1.
  pose proof (untouched_attempt (F:=gpt_err) _ (untouched_read_backup_header (c_lb cfg)) d1) as U2.
  destruct (attempt (read_backup_header (c_lb cfg)) d1) as [[h2|e|] d2]; try discriminate. unfold bind at 1.
  destruct U1 as (U1 & _). destruct U2 as (U2 & _). cbn [snd] in *.
  match goal with |- (let (_, _) := ?x in _) = _ -> _ => destruct x as [[(a, b)|e|] d3] eqn:E3; try discriminate end.
  assert (D3 : d3 = d2).
  { destruct (c_only_valid_headers cfg).
    - unfold bind, lift, ret in E3. destruct (omap_err GHeader h1), (omap_err GHeader h2); congruence.
    - unfold throw, ret in E3. destruct h1, h2; congruence. }
  subst d3. unfold bind at 1. destruct (or_else a b) as [h|e|] eqn:O; unfold ret, panic; try discriminate. unfold bind, map_err.
  destruct (file_read_partitions oc h (c_lb cfg) d2) as [[t|e|] d4] eqn:R; try discriminate. intros E. injection E as <- _.
  unfold file_read_partitions in R. unfold bind at 1, lift at 1 in R. destruct (ok_or _ _) as [ps|e|]; try discriminate R.
  unfold bind at 1 in R. destruct (seek_start ps d2) as [[n|e|] d5] eqn:S; try discriminate R.
  destruct (N.eqb_spec (part_size h) 128) as [P|P]; cbn [negb] in R; [|discriminate R].
  unfold bind at 1 in R. destruct (read_entries oc (N.to_nat (num_parts h)) 0 0 [] d5) as [[m|e|] d6] eqn:RE; try discriminate R.
  assert (n = ps) by (unfold seek_start in S; destruct (tick d2) as [[x|] dd]; congruence). subst n.
  pose proof (read_partitions_fits oc h d2 P ps m d5 d6 S RE) as F. apply read_entries_len in RE. rewrite N2Nat.id in RE. change (lenN (@nil (N * partition))) with 0 in RE.
  assert (T : t = m).
  { clear - R. repeat (unfold bind at 1 in R; match type of R with (let (_, _) := ?x in _) = _ => destruct x as [[?|?|] ?]; try discriminate R end).
    repeat match type of R with context [if ?b then _ else _] => destruct b; try discriminate R end. injection R as <- _. reflexivity. }
  subst t. assert (Q : num_parts h <= lenN (data d) / 128) by (apply N.div_le_lower_bound; [discriminate|]; rewrite <- U1, <- U2; lia).
  split; [|cbn [g_partitions]; lia]. intros x X. unfold try_header in X. cbn [g_primary g_backup] in X. rewrite O in X. injection X as <-.
  split; [exact P|lia].
Qed.
