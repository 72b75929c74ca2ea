(** RefineFacts.v - what the debug build does, if it does not panic, the release build does too. *)
From Verif Require Export PanicFacts.
Open Scope list_scope.
Open Scope N_scope.

Definition alike {S E A} (mt mf : M S E A) : Prop := forall s, fst (mt s) <> Panic -> mf s = mt s.
Definition same_out {E A} (t f : outcome E A) : Prop := t <> Panic -> f = t.
Lemma so_refl {E A} (o : outcome E A) : same_out o o.
Proof. intros _. reflexivity. Qed.
Lemma so_obind {E A B} (t f : outcome E A) (kt kf : A -> outcome E B) :
  same_out t f -> (forall a, same_out (kt a) (kf a)) -> same_out (obind t kt) (obind f kf).
Proof.
  intros H K N. destruct t as [a|e|]; cbn [obind] in N |- *.
  - rewrite H by discriminate. cbn [obind]. apply K, N.
  - rewrite H by discriminate. reflexivity.
  - congruence.
Qed.
Lemma so_omap_err {E F A} (g : E -> F) (t f : outcome E A) : same_out t f -> same_out (omap_err g t) (omap_err g f).
Proof. intros H N. rewrite H; [reflexivity|]. intros ->. apply N. reflexivity. Qed.
Lemma so_addw {E} w a b : same_out (@addw E true w a b) (@addw E false w a b).
Proof. unfold same_out, addw. destruct (_ <? _); congruence. Qed.
Lemma so_subw {E} w a b : same_out (@subw E true w a b) (@subw E false w a b).
Proof. unfold same_out, subw. destruct (_ <=? _); congruence. Qed.
Lemma so_mulw {E} w a b : same_out (@mulw E true w a b) (@mulw E false w a b).
Proof. unfold same_out, mulw. destruct (_ <? _); congruence. Qed.

Lemma al_refl {S E A} (m : M S E A) : alike m m.
Proof. intros s _. reflexivity. Qed.
Lemma al_bind {S E A B} (mt mf : M S E A) (kt kf : A -> M S E B) :
  alike mt mf -> (forall a, alike (kt a) (kf a)) -> alike (bind mt kt) (bind mf kf).
Proof.
  intros H K s N. unfold bind in *. specialize (H s). destruct (mt s) as [[a|e|] s'] eqn:EM; cbn [fst] in H.
  - rewrite H by discriminate. apply K, N.
  - rewrite H by discriminate. reflexivity.
  - cbn in N. congruence.
Qed.
Lemma al_lift {S E A} (t f : outcome E A) : same_out t f -> alike (@lift S E A t) (lift f).
Proof. intros H s N. unfold lift in *. rewrite H by exact N. reflexivity. Qed.
Lemma al_query {S E A} (t f : S -> outcome E A) : (forall s, same_out (t s) (f s)) -> alike (fun s => (t s, s)) (fun s => (f s, s)).
Proof. intros H s N. cbn in *. rewrite H by exact N. reflexivity. Qed.
Lemma al_map_err {S E F A} (g : E -> F) (mt mf : M S E A) : alike mt mf -> alike (map_err g mt) (map_err g mf).
Proof.
  intros H s N. unfold map_err in *. specialize (H s). destruct (mt s) as [[a|e|] s'] eqn:EM; cbn [fst] in *;
    [rewrite H by discriminate; reflexivity|rewrite H by discriminate; reflexivity|congruence].
Qed.
Lemma al_on_device {E A} (mt mf : M dev E A) : alike mt mf -> alike (on_device mt) (on_device mf).
Proof.
  intros H g N. unfold on_device in *. specialize (H (g_device g)). destruct (mt (g_device g)) as [r d] eqn:EM. cbn [fst] in *.
  rewrite H by exact N. reflexivity.
Qed.
Create HintDb alike.
Global Hint Resolve so_refl so_addw so_subw so_mulw so_omap_err al_refl al_lift al_map_err al_on_device : alike.

(** * The model, bottom up *)
Lemma al_write_to p i s lb ps : alike (write_to_device true p i s lb ps) (write_to_device false p i s lb ps).
Proof. unfold write_to_device. repeat (apply al_bind; [auto with alike|intros]). auto with alike. Qed.
Lemma al_zero i n s lb ps : alike (write_zero_entries true i n s lb ps) (write_zero_entries false i n s lb ps).
Proof. unfold write_zero_entries. repeat (apply al_bind; [auto with alike|intros]). auto with alike. Qed.
Global Hint Resolve al_write_to al_zero : alike.
Lemma al_read_entries n : forall i e m, alike (read_entries true n i e m) (read_entries false n i e m).
Proof.
  induction n as [|n IH]; intros i e m; cbn [read_entries]; [apply al_refl|].
  apply al_bind; [apply al_refl|intros b]. destruct (bytes_eqb _ _).
  - apply al_bind; [auto with alike|intros; apply IH].
  - apply al_bind; [apply al_refl|intros; apply IH].
Qed.
Lemma al_read_partitions h lb : alike (file_read_partitions true h lb) (file_read_partitions false h lb).
Proof.
  unfold file_read_partitions. do 2 (apply al_bind; [apply al_refl|intros]).
  destruct (negb _); [apply al_refl|]. apply al_bind; [apply al_read_entries|intros; apply al_refl].
Qed.
Lemma al_open cfg : alike (open_from_device true cfg) (open_from_device false cfg).
Proof.
  unfold open_from_device. do 3 (apply al_bind; [apply al_refl|intros]). destruct a1 as [h1 h2].
  apply al_bind; [apply al_refl|intros h]. apply al_bind; [apply al_map_err, al_read_partitions|intros; apply al_refl].
Qed.
Lemma so_build b lb : same_out (build true b lb) (build false b lb).
Proof.
  unfold build. destruct (_ <? _); [apply so_refl|]. apply so_obind; [apply so_mulw|intros sz].
  apply so_obind; [apply so_refl|intros lu]. destruct (_ <? _); [apply so_refl|].
  apply so_obind; [destruct (b_primary b); apply so_addw|intros; apply so_refl].
Qed.
Global Hint Resolve so_build : alike.
Lemma al_init : alike (init_headers true) (init_headers false).
Proof.
  intros g. unfold init_headers. refine (al_bind _ _ _ _ _ _ g); [apply al_refl|]. intros bak g1. cbn zeta.
  set (b := bset_primary true _). set (lb := c_lb (g_config g)). pose proof (so_build b lb) as K.
  destruct (build true b lb) as [h1|e|].
  - rewrite K by discriminate. destruct (c_readonly_backup _); [reflexivity|].
    set (b' := bset_primary false _). pose proof (so_build b' lb) as K'.
    destruct (build true b' lb) as [h2|e|]; intros N; [rewrite K' by discriminate|rewrite K' by discriminate|cbn in N; congruence]; reflexivity.
  - rewrite K by discriminate. reflexivity.
  - intros N. cbn in N. congruence.
Qed.
Lemma al_create cfg u rnd : alike (create_from_device true cfg u rnd) (create_from_device false cfg u rnd).
Proof.
  intros d. unfold create_from_device. set (g := mkGdisk _ _ _ _ _ _ _). pose proof (al_init g) as K.
  destruct (init_headers true g) as [[x|e|] g']; cbn [fst] in *; intros N;
    [rewrite K by discriminate|rewrite K by discriminate|congruence]; reflexivity.
Qed.
Lemma so_chunks {E} l : same_out (@free_chunks E true l) (free_chunks false l).
Proof.
  enough (forall n l, (length l <= n)%nat -> same_out (@free_chunks E true l) (free_chunks false l)) by eauto.
  clear l. induction n as [|n IH]; intros l L.
  { destruct l; [apply so_refl|cbn in L; lia]. }
  destruct l as [|a [|b r]]; [apply so_refl|apply so_refl|]. cbn [free_chunks].
  assert (K : same_out (@free_chunks E true r) (free_chunks false r)) by (apply IH; cbn in L; lia).
  apply so_obind; [apply so_addw|intros start]. apply so_obind; [apply so_subw|intros stop].
  destruct (start <=? stop); [|exact K].
  apply so_obind; [apply so_subw|intros d]. apply so_obind; [apply so_addw|intros len].
  apply so_obind; [exact K|intros; apply so_refl].
Qed.
Lemma so_free {E} g : same_out (@find_free_sectors E true g) (find_free_sectors false g).
Proof.
  unfold find_free_sectors. apply so_obind; [apply so_refl|intros h]. apply so_obind; [apply so_subw|intros b].
  apply so_obind; [apply so_addw|intros a]. apply so_chunks.
Qed.
Lemma al_insert id p c : alike (insert_partition true id p c) (insert_partition false id p c).
Proof.
  unfold insert_partition. apply al_bind; [apply al_refl|intros _].
  apply al_bind; [destruct c; [apply al_init|apply al_refl]|intros _; apply al_refl].
Qed.
Lemma al_add_in_sections nm n ty fl al rnd secs :
  alike (add_in_sections true nm n ty fl al rnd secs) (add_in_sections false nm n ty fl al rnd secs).
Proof.
  induction secs as [|[s len] secs IH]; cbn [add_in_sections]; [apply al_refl|].
  apply al_bind.
  { apply al_lift. destruct al; [|apply so_refl]. apply so_obind; [apply so_refl|intros r].
    apply so_obind; [apply so_subw|intros; apply so_refl]. }
  intros off. apply al_bind; [auto with alike|intros need]. destruct (need <=? len); [|exact IH].
  apply al_bind; [auto with alike|intros start]. apply al_bind; [apply al_refl|intros next].
  apply al_bind.
  { destruct next; [apply al_refl|]. apply al_query. intros g. apply so_obind; [apply so_refl|intros; apply so_addw]. }
  intros id. apply al_bind; [auto with alike|intros e]. apply al_bind; [auto with alike|intros last].
  apply al_bind; [apply al_refl|intros c]. apply al_insert.
Qed.
Lemma al_add nm size ty fl al rnd : alike (add_partition true nm size ty fl al rnd) (add_partition false nm size ty fl al rnd).
Proof.
  intros g. unfold add_partition. destruct (size =? 0); [reflexivity|].
  refine (al_bind _ _ _ _ _ _ g); [apply al_query; intros; apply so_free|intros; apply al_add_in_sections].
Qed.
Lemma al_add_at nm id first n ty fl rnd :
  alike (add_partition_at true nm id first n ty fl rnd) (add_partition_at false nm id first n ty fl rnd).
Proof.
  intros g. unfold add_partition_at. destruct (n =? 0); [reflexivity|]. destruct (id =? 0); [reflexivity|].
  destruct (match pm_get _ _ with Some _ => _ | None => _ end); [reflexivity|].
  refine (al_bind _ _ _ _ _ _ g); [apply al_query; intros; apply so_free|intros secs].
  induction secs as [|[s len] secs IH]; cbn [add_at_in_sections]; [apply al_refl|].
  destruct (negb _); [exact IH|]. apply al_bind; [auto with alike|intros e]. apply al_bind; [auto with alike|intros last].
  apply al_bind; [apply al_refl|intros c]. apply al_insert.
Qed.
Lemma al_update pp : alike (update_partitions true pp) (update_partitions false pp).
Proof. unfold update_partitions. do 3 (apply al_bind; [apply al_refl|intros]). apply al_init. Qed.
Lemma al_write_entries lb ph bh l : forall i, alike (write_entries true lb ph bh l i) (write_entries false lb ph bh l i).
Proof.
  induction l as [|[k p] l IH]; intros i; cbn [write_entries]; [apply al_refl|].
  destruct (_ <=? _); [apply al_refl|]. apply al_bind; [auto with alike|intros _].
  apply al_bind; [|intros; apply IH]. destruct bh as [b|]; [|apply al_refl].
  destruct (_ <=? _); [apply al_refl|]. destruct (_ =? _); auto with alike.
Qed.
Lemma al_write_tables lb ph bh m : alike (write_tables true lb ph bh m) (write_tables false lb ph bh m).
Proof.
  unfold write_tables. apply al_bind; [apply al_write_entries|intros next]. apply al_bind; [apply al_refl|intros n].
  apply al_bind; [auto with alike|intros _]. destruct bh; [|apply al_refl]. apply al_bind; auto with alike.
Qed.
Lemma al_write : alike (write_inplace true) (write_inplace false).
Proof.
  intros g. unfold write_inplace. destruct (negb _); [reflexivity|]. cbn zeta.
  refine (al_bind _ _ _ _ _ _ g); [apply al_refl|]. intros _ g1.
  refine (al_bind _ _ _ _ _ _ g1); [apply al_refl|]. intros h.
  apply al_bind; [auto with alike|intros ph]. apply al_bind; [apply al_refl|intros _].
  apply al_bind; [destruct (c_readonly_backup _); [apply al_refl|apply al_bind; [auto with alike|intros; apply al_refl]]|intros bh].
  apply al_bind; [apply al_on_device, al_write_tables|intros; apply al_refl].
Qed.
Lemma al_write_header u rnd lb : alike (write_header true u rnd lb) (write_header false u rnd lb).
Proof.
  unfold write_header. apply al_bind; [apply al_refl|intros bak]. apply al_bind; [auto with alike|intros; apply al_refl].
Qed.
Lemma al_kept {A} (mt mf : M gdisk gpt_err A) g g' : alike mt mf -> kept (mt g) = Some g' -> kept (mf g) = Some g'.
Proof. intros H K. rewrite (H g); [exact K|]. destruct (mt g) as [[]]; cbn in *; congruence. Qed.
Lemma al_step o g g' : step true o g = Some g' -> step false o g = Some g'.
Proof.
  destruct o; cbn [step]; auto; apply al_kept.
  - apply al_add.
  - apply al_add_at.
  - apply al_update.
  - apply al_write.
Qed.
Lemma al_run ops : forall g g', run true ops g = Some g' -> run false ops g = Some g'.
Proof.
  induction ops as [|o ops IH]; intros g g'; cbn [run]; [auto|].
  destruct (step true o g) as [g1|] eqn:ES; [|discriminate]. rewrite (al_step _ _ _ ES). apply IH.
Qed.

(** * No panic in the debug build on disks in good order *)
Lemma layout_no_overflow lb ro h d : layout_ok lb (dev_len d) h -> dev_len d < modulus 64 -> no_overflow lb ro h d.
Proof.
  intros [G PS NP PR FU LU RM FT] AD. unfold no_overflow. rewrite PR, PS, two32. rewrite two64 in *.
  unfold array_blocks, blocks_for in *. pose proof (lb_pos lb). set (L := lb_u64 lb) in *.
  assert (EQ : div_ceil (num_parts h * 128) L = (num_parts h * 128 + L - 1) / L) by (unfold div_ceil; f_equal; lia).
  pose proof (proj1 (div_ceil_spec (num_parts h * 128) L ltac:(lia))) as DC. rewrite <- EQ in *. clear EQ.
  set (t := div_ceil _ _) in *. clearbody t.
  assert (B : backup_at h < 2 ^ 64) by nia.
  split; [exact NP|]. split; [lia|]. split; [intros _; lia|]. right. split; [nia|].
  replace (N.max (last_usable h) (backup_at h - (t + 1))) with (backup_at h - (t + 1)) by lia.
  replace (backup_at h - (t + 1) + 1) with (backup_at h - t) by lia. nia.
Qed.
Lemma finish_add_calm oc nm n ty fl rnd start g h : header_of g h -> num_parts h + 1 < 2 ^ 32 ->
  c_change_partition_count (g_config g) = false -> fst (finish_add oc nm n ty fl rnd start g) <> Panic.
Proof.
  intros HH HN HC. unfold finish_add, bind at 1.
  assert (N1 : @find_next_partition_id gpt_err g <> Panic).
  { unfold find_next_partition_id. destruct (g_partitions g); [discriminate|]. rewrite (the_header_of g h HH). discriminate. }
  destruct (find_next_partition_id g) as [next|e|]; [|discriminate|congruence].
  assert (K : forall id, fst ((let* changes := check_count id in insert_partition oc id (mkPart ty rnd start (start + n - 1) fl nm) changes) g) <> Panic).
  { intros id. unfold bind at 1, check_count. rewrite (the_header_of g h HH). cbn [obind]. rewrite HC.
    destruct (num_parts_would_change h id); cbn [andb negb]; discriminate. }
  unfold bind at 1. destruct next as [i|]; cbn [ret]; [apply K|].
  rewrite (the_header_of g h HH). cbn [obind]. rewrite addw_ok by (rewrite two32; exact HN). apply K.
Qed.
Lemma add_calm oc nm size ty fl al rnd g h : tidy g h -> c_change_partition_count (g_config g) = false ->
  1 <= size -> 1 <= alignment al -> alignment al + blocks_for size (c_lb (g_config g)) < 2 ^ 64 ->
  fst (add_partition oc nm size ty fl al rnd g) <> Panic.
Proof.
  intros [T1 T2 T3 T4 T5] HC HS H1 H2.
  destruct (add_partition_choose oc nm size ty fl al rnd g h T2 T4 T5 HS (conj H1 (or_intror H2)))
    as [(start & _ & ->)|[(_ & ->)|(X & _)]]; [|discriminate|lia].
  apply finish_add_calm with h; auto. pose proof (lo_num _ _ _ T3). lia.
Qed.
Lemma tidy_write_calm oc g h : tidy g h -> fst (write_inplace oc g) <> Panic.
Proof.
  intros [T1 T2 T3 T4 T5]. rewrite header_of_iff in T2. apply write_inplace_calm with h; auto.
  - exact (lo_guid _ _ _ T3).
  - right. apply layout_no_overflow; [exact T3|]. apply addressable_iff. exact T1.
Qed.

(** * What open returns, whatever the faults *)
Definition gives {S E A} (P : A -> Prop) (m : M S E A) : Prop := forall s a s', m s = (Ok a, s') -> P a.
Lemma gives_bind {S E A B} (P : A -> Prop) (Q : B -> Prop) (m : M S E A) (k : A -> M S E B) :
  gives P m -> (forall a, P a -> gives Q (k a)) -> gives Q (bind m k).
Proof.
  intros H K s b s' E1. unfold bind in E1. destruct (m s) as [[a|e|] s1] eqn:EM; try discriminate.
  exact (K a (H _ _ _ EM) _ _ _ E1).
Qed.
Lemma gives_any {S E A} (m : M S E A) : gives (fun _ => True) m.
Proof. intros s a s' _. exact I. Qed.
Lemma gives_lift {S E A} (P : A -> Prop) (o : outcome E A) : (forall a, o = Ok a -> P a) -> gives P (@lift S E A o).
Proof. intros H s a s' E1. unfold lift in E1. injection E1 as E1 _. auto. Qed.
Definition when_ok {E A} (P : A -> Prop) (o : outcome E A) : Prop := forall a, o = Ok a -> P a.
Lemma gives_attempt {S E F A} (P : A -> Prop) (m : M S E A) : gives P m -> gives (when_ok P) (@attempt S E F A m).
Proof.
  intros H s a s' E1. unfold attempt in E1. destruct (m s) as [[x|e|] s1] eqn:EM; try discriminate;
    injection E1 as <- <-; intros y Ey; try discriminate. injection Ey as <-. eauto.
Qed.
Lemma gives_header off : gives wf_header (file_read_header off).
Proof.
  unfold file_read_header. eapply gives_bind; [apply gives_any|intros _ _].
  apply gives_bind with (fun b => length b = 92%nat).
  - intros s a s' E1. apply map_err_ok_inv, read_exact_length in E1. unfold lenN in E1. lia.
  - intros b Hb. apply gives_lift. intros h Eh. destruct (parse_header_ok_wf b h Hb Eh). assumption.
Qed.
Lemma gives_primary lb : gives wf_header (read_primary_header lb).
Proof.
  unfold read_primary_header. eapply gives_bind; [apply gives_any|intros p _].
  eapply gives_bind; [apply gives_attempt, gives_header|intros r Hr].
  eapply gives_bind; [apply gives_any|intros _ _]. apply gives_lift. exact Hr.
Qed.
Lemma gives_backup lb : gives wf_header (read_backup_header lb).
Proof.
  unfold read_backup_header. eapply gives_bind; [apply gives_any|intros p _].
  eapply gives_bind; [apply gives_any|intros q _]. eapply gives_bind; [apply gives_any|intros o _].
  eapply gives_bind; [apply gives_attempt, gives_header|intros r Hr].
  eapply gives_bind; [apply gives_any|intros _ _]. apply gives_lift. exact Hr.
Qed.
(** Both headers, where valid, have fields in range; one of them is valid; the one in use asks for
    128-byte entries. *)
Record from_disk_state (cfg : config) (g : gdisk) : Prop := mkFrom {
  fd_config : g_config g = cfg;
  fd_primary : when_ok wf_header (g_primary g);
  fd_backup : when_ok wf_header (g_backup g);
  fd_header : exists h, try_header g = Ok h /\ wf_header h /\ part_size h = 128 /\ g_guid g = disk_guid h
}.
Lemma gives_open oc cfg : gives (from_disk_state cfg) (open_from_device oc cfg).
Proof.
  unfold open_from_device. eapply gives_bind; [apply gives_attempt, gives_primary|intros h1 H1].
  eapply gives_bind; [apply gives_attempt, gives_backup|intros h2 H2].
  apply gives_bind with (fun hh => when_ok wf_header (fst hh) /\ when_ok wf_header (snd hh)).
  { destruct (c_only_valid_headers cfg).
    - eapply gives_bind; [apply gives_lift with (P := wf_header)|intros a Ha].
      { intros a Ea. destruct h1; cbn in Ea; try discriminate. injection Ea as <-. apply H1. reflexivity. }
      eapply gives_bind; [apply gives_lift with (P := wf_header)|intros b Hb].
      { intros b Eb. destruct h2; cbn in Eb; try discriminate. injection Eb as <-. apply H2. reflexivity. }
      intros s x s' E1. injection E1 as <- <-. cbn. split; intros y Ey; injection Ey as <-; assumption.
    - destruct h1, h2; intros s x s' E1; try discriminate; injection E1 as <- <-; cbn; auto. }
  intros [k1 k2] (K1 & K2). cbn [fst snd] in *.
  apply gives_bind with (fun h => wf_header h /\ or_else k1 k2 = Ok h).
  { destruct (or_else k1 k2) as [h|e|] eqn:EO; intros s x s' E1; try discriminate. injection E1 as <- <-.
    split; [|reflexivity]. destruct k1; cbn in EO; [injection EO as <-; apply K1; reflexivity| |]; apply K2, EO. }
  intros h (Wh & Eh).
  intros s g s' E1. unfold bind in E1. destruct (map_err GIo (file_read_partitions oc h (c_lb cfg)) s) as [[m|e|] s1] eqn:EP; try discriminate.
  injection E1 as <- <-. constructor; cbn [g_primary g_backup g_guid g_config]; auto.
  exists h. split; [unfold try_header; cbn [g_primary g_backup]; rewrite Eh; reflexivity|]. split; [exact Wh|].
  split; [|reflexivity]. apply map_err_ok_inv in EP. unfold file_read_partitions in EP.
  destruct (N.eqb_spec (part_size h) 128) as [X|X]; [exact X|]. cbn [negb] in EP.
  unfold bind in EP. destruct (lift _ s) as [[a|e|] s2]; try discriminate.
  destruct (seek_start a s2) as [[b|e|] s3]; discriminate.
Qed.
Lemma open_sound oc cfg d g d' : open_from_device oc cfg d = (Ok g, d') -> sound g.
Proof.
  intros E1. destruct (gives_open oc cfg d g d' E1) as [C1 P1 B1 (h & T & W & _ & G)].
  assert (X : forall x, wf_header x -> wf_uuid (disk_guid x)) by (intros x Hx; apply Hx).
  constructor; [eauto| | |rewrite G; apply X, W]; intros x Ex; apply X; [apply P1|apply B1]; exact Ex.
Qed.
(** A created disk. *)
Lemma create_sound oc cfg u rnd d g d' : wf_uuid (match u with Some u => u | None => rnd end) ->
  create_from_device oc cfg u rnd d = (Ok g, d') -> sound g.
Proof.
  intros W E1. unfold create_from_device in E1. set (g0 := mkGdisk _ _ _ _ _ _ _) in E1.
  destruct (init_headers oc g0) as [[[]|e|] g1] eqn:EI; try discriminate. injection E1 as <- <-.
  unfold init_headers in EI. unfold bind at 1, on_device at 1 in EI.
  destruct (map_err GHeader (find_backup_lba (c_lb (g_config g0))) (g_device g0)) as [[bak|e|] d1]; try discriminate.
  cbn zeta in EI. set (b := bset_primary true _) in EI. set (lb := c_lb (g_config g0)) in EI.
  destruct (build oc b lb) as [h1|e|] eqn:B1; try discriminate.
  apply build_inv in B1. destruct B1 as (G1 & _). unfold b in G1. cbn in G1.
  assert (S2 : sound (set_primary (Ok h1) (set_device d1 g0))).
  { constructor; cbn; try discriminate; [exists h1; reflexivity|intros h Eh; injection Eh as <-; rewrite G1; exact W|exact W]. }
  destruct (c_readonly_backup _); [injection EI as <-; exact S2|].
  destruct (build oc (bset_primary false _) lb) as [h2|e|] eqn:B2; try discriminate. injection EI as <-.
  apply build_inv in B2. destruct B2 as (G2 & _). cbn in G2.
  apply sound_backup; [rewrite G2, G1; exact W|exact S2].
Qed.
(** The array of the header in use was there to be read. *)
Lemma read_exact_room n d b d' : read_exact n d = (Ok b, d') -> n <= dev_len d'.
Proof.
  unfold read_exact. destruct (N.eqb_spec n 0) as [->|]; [lia|].
  destruct (tick d) as [[k|] d1]; [discriminate|].
  destruct (N.leb_spec (pos d1 + n) (dev_len d1)) as [L|L]; [|discriminate].
  intros E1. injection E1 as <- <-. unfold dev_len in *. cbn. lia.
Qed.
Lemma read_partitions_room oc h lb d m d' : file_read_partitions oc h lb d = (Ok m, d') ->
  num_parts h * part_size h <= dev_len d'.
Proof.
  unfold file_read_partitions. unfold bind. intros E1.
  destruct (lift _ d) as [[a|e|] d1]; try discriminate.
  destruct (seek_start a d1) as [[b|e|] d2]; try discriminate.
  destruct (negb _); [discriminate|].
  destruct (read_entries _ _ _ _ _ d2) as [[t|e|] d3]; try discriminate.
  destruct (seek_start a d3) as [[c|e|] d4]; try discriminate.
  unfold lift in E1. destruct (checked_mul64 (num_parts h) (part_size h)) as [n|] eqn:EM; cbn [ok_or] in E1; [|discriminate].
  assert (n = num_parts h * part_size h).
  { unfold checked_mul64 in EM. destruct (_ <? _); [injection EM as <-; reflexivity|discriminate]. }
  destruct (read_exact n d4) as [[tb|e|] d5] eqn:ER; try discriminate.
  apply read_exact_room in ER. destruct (_ =? _); [|discriminate]. injection E1 as <- <-. lia.
Qed.
Lemma open_room oc cfg d g d' : open_from_device oc cfg d = (Ok g, d') ->
  g_device g = d' /\ forall h, try_header g = Ok h -> num_parts h * 128 <= dev_len d'.
Proof.
  intros E1. pose proof (gives_open oc cfg d g d' E1) as [_ _ _ (h & T & _ & PS & _)].
  unfold open_from_device in E1. unfold bind at 1 in E1.
  destruct (attempt (read_primary_header (c_lb cfg)) d) as [[r1|e|] d1]; try discriminate.
  unfold bind at 1 in E1. destruct (attempt (read_backup_header (c_lb cfg)) d1) as [[r2|e|] d2]; try discriminate.
  unfold bind at 1 in E1. match type of E1 with (let (o, s') := ?m d2 in _) = _ => destruct (m d2) as [[[k1 k2]|e|] d3] end; try discriminate.
  unfold bind at 1 in E1. destruct (or_else k1 k2) as [x|e|] eqn:EO; try discriminate. cbn [ret] in E1.
  unfold bind in E1. destruct (map_err GIo (file_read_partitions oc x (c_lb cfg)) d3) as [[m|e|] d4] eqn:EP; try discriminate.
  injection E1 as <- <-. split; [reflexivity|]. intros y Ey.
  unfold try_header in T, Ey. cbn [g_primary g_backup] in T, Ey. rewrite EO in T, Ey. cbn in T, Ey.
  injection T as <-. injection Ey as <-.
  apply map_err_ok_inv, read_partitions_room in EP. rewrite PS in EP. exact EP.
Qed.

(** * Exactly when writing overflows *)
Lemma blocks_div n lb : div_ceil n (lb_u64 lb) = blocks_for n lb.
Proof. unfold div_ceil, blocks_for. pose proof (lb_pos lb). f_equal. lia. Qed.
Lemma build_primary_err oc h lb : num_parts h * part_size h < modulus 32 ->
  let t := blocks_for (num_parts h * part_size h) lb in
  ~ (t + 1 <= backup_at h /\ N.max (first_usable h) (2 + t) <= N.max (last_usable h) (backup_at h - (t + 1))) ->
  exists e, build oc (bset_primary true (builder_from_header h)) lb = Err e.
Proof.
  intros H t NB. unfold build. pose proof (from_header_lbas h) as (FP & FB).
  cbn [bset_primary b_primary b_primary_lba b_backup_lba b_num_parts b_part_size b_first_usable b_last_usable b_disk_guid].
  rewrite FP, FB. cbn [builder_from_header b_num_parts b_part_size b_first_usable b_last_usable b_disk_guid].
  destruct (backup_at h <? primary_at h); [eauto|].
  rewrite mulw_ok by exact H. cbn [obind]. rewrite blocks_div. fold t.
  unfold checked_sub64. destruct (N.leb_spec (t + 1) (backup_at h)) as [A|A]; cbn [ok_or obind]; [|eauto].
  destruct (N.ltb_spec (N.max (last_usable h) (backup_at h - (t + 1))) (N.max (first_usable h) (1 + 1 + t))) as [B|B]; [eauto|].
  exfalso. apply NB. split; [exact A|]. replace (2 + t) with (1 + 1 + t) by lia. exact B.
Qed.
Lemma write_calm_err oc g h e : try_header g = Ok h ->
  build oc (bset_primary true (builder_from_header h)) (c_lb (g_config g)) = Err e ->
  fst (write_inplace oc g) <> Panic.
Proof.
  intros HT HB. unfold write_inplace. destruct (negb _); [discriminate|]. cbn zeta.
  unfold bind at 1, on_device at 1.
  assert (CF : calm (map_err GHeader (find_backup_lba (c_lb (g_config g))))) by auto with calm.
  specialize (CF (g_device g)).
  destruct (map_err GHeader (find_backup_lba (c_lb (g_config g))) (g_device g)) as [[bk|x|] d1]; cbn [fst] in CF; [|discriminate|congruence].
  set (g1 := set_device d1 g).
  assert (HT1 : @the_header gpt_err g1 = Ok h).
  { unfold the_header. change (try_header g1) with (try_header g). rewrite HT. reflexivity. }
  rewrite HT1. unfold bind at 1. cbn [lift]. unfold bind at 1. rewrite HB. discriminate.
Qed.
Lemma lba_bounds h : current_lba h < 2 ^ 64 -> backup_lba h < 2 ^ 64 -> primary_at h < 2 ^ 64 /\ backup_at h < 2 ^ 64.
Proof. unfold primary_at, backup_at. lia. Qed.
Lemma no_overflow_calm oc g h : header_of g h -> header_ok h -> addressable (g_device g) ->
  growable (g_device g) = false ->
  ~ overflows (c_lb (g_config g)) (c_readonly_backup (g_config g)) h ->
  fst (write_inplace oc g) <> Panic.
Proof.
  intros HH HO AD GR NO. rewrite header_of_iff in HH. rewrite addressable_iff in AD.
  unfold overflows in NO. destruct HO as [_ _ _ (O1 & O2 & O3 & O4 & _) O5 O6 O7].
  pose proof (lba_bounds h O1 O2) as (LP & LB).
  assert (A : num_parts h * part_size h < modulus 32) by (rewrite two32; lia).
  set (t := blocks_for _ _) in NO.
  destruct (N.leb_spec (t + 1) (backup_at h)) as [B|B].
  2: { destruct (build_primary_err oc h (c_lb (g_config g)) A) as (e & E1); [fold t; lia|]. eapply write_calm_err; eauto. }
  destruct (N.leb_spec (N.max (first_usable h) (2 + t)) (N.max (last_usable h) (backup_at h - (t + 1)))) as [C|C].
  2: { destruct (build_primary_err oc h (c_lb (g_config g)) A) as (e & E1); [fold t; lia|]. eapply write_calm_err; eauto. }
  apply write_inplace_calm with h; [exact HH|exact O5|]. right. unfold no_overflow. rewrite two64 in *.
  split; [exact A|]. split; [lia|]. split; [|left; auto].
  intros R. split; [|exact LB]. destruct (N.eq_dec (last_usable h + 1) (2 ^ 64)); [|lia]. exfalso. apply NO. right. auto.
Qed.
Lemma overflow_panics g h : c_writable (g_config g) = true -> header_of g h -> header_ok h ->
  fault_free (g_device g) -> addressable (g_device g) ->
  3 * lb_u64 (c_lb (g_config g)) <= lenN (data (g_device g)) ->
  overflows (c_lb (g_config g)) (c_readonly_backup (g_config g)) h ->
  fst (write_inplace true g) = Panic.
Proof.
  intros W HH HO FF AD L3 OV. rewrite header_of_iff in HH. rewrite addressable_iff in AD.
  destruct HO as [_ _ _ (O1 & O2 & O3 & O4 & _) O5 O6 O7]. pose proof (lba_bounds h O1 O2) as (LP & LB).
  unfold write_inplace. rewrite W. cbn [negb]. set (lb := c_lb (g_config g)) in *. unfold bind at 1, on_device at 1, map_err at 1.
  rewrite find_backup_lba_ok by assumption.
  destruct (N.ltb_spec (dev_len (g_device g)) (lb_u64 lb * 3)) as [X|X]; [unfold dev_len in X; lia|].
  set (g1 := set_device _ g).
  assert (HT1 : @the_header gpt_err g1 = Ok h).
  { unfold the_header. change (try_header g1) with (try_header g). rewrite HH. reflexivity. }
  rewrite HT1. unfold bind at 1. cbn [lift]. unfold bind at 1.
  pose proof (from_header_lbas h) as (FP & FB).
  set (b1 := bset_primary true (builder_from_header h)).
  assert (LE : primary_at h <= backup_at h) by (unfold primary_at, backup_at; lia).
  set (t := blocks_for (num_parts h * part_size h) lb) in *.
  assert (B1 : build true b1 lb = Panic \/
    (num_parts h * part_size h < modulus 32 /\ c_readonly_backup (g_config g) = false /\ last_usable h + 1 = 2 ^ 64 /\ t + 1 <= backup_at h /\
     build true b1 lb = Ok (mkHeader EFI_PART 1 0 92 0 0 (primary_at h) (backup_at h) (N.max (first_usable h) (1 + 1 + t)) (last_usable h)
        (disk_guid h) (primary_at h + 1) (num_parts h) (part_size h) 0))).
  { unfold build, b1. cbn [bset_primary b_primary b_primary_lba b_backup_lba b_num_parts b_part_size b_first_usable b_last_usable b_disk_guid].
    rewrite FP, FB. cbn [builder_from_header b_num_parts b_part_size b_first_usable b_last_usable b_disk_guid].
    destruct (N.ltb_spec (backup_at h) (primary_at h)); [lia|].
    destruct (N.ltb_spec (num_parts h * part_size h) (modulus 32)) as [A|A].
    2: { left. unfold mulw. destruct (N.ltb_spec (num_parts h * part_size h) (modulus 32)); [lia|reflexivity]. }
    rewrite mulw_ok by exact A. cbn [obind]. rewrite blocks_div. fold t.
    destruct OV as [OV|(V1 & V2 & V3)]; [rewrite two32 in A; lia|]. fold t in V1, V2.
    unfold checked_sub64. destruct (N.leb_spec (t + 1) (backup_at h)); [|lia]. cbn [ok_or obind].
    destruct (N.ltb_spec (N.max (last_usable h) (backup_at h - (t + 1))) (N.max (first_usable h) (1 + 1 + t))); [lia|].
    destruct (N.ltb_spec (primary_at h + 1) (modulus 64)) as [Z|Z].
    2: { left. unfold addw. destruct (N.ltb_spec (primary_at h + 1) (modulus 64)); [lia|reflexivity]. }
    right. rewrite addw_ok by exact Z. cbn [obind].
    destruct V3 as [V3|(V3 & V4)]; [rewrite two64 in Z; lia|]. repeat split; auto.
    replace (N.max (last_usable h) (backup_at h - (t + 1))) with (last_usable h) by lia. reflexivity. }
  destruct B1 as [->|(A & RO & LU & TB & ->)]; [reflexivity|]. cbn [omap_err lift]. unfold bind at 1.
  change (c_readonly_backup (g_config g1)) with (c_readonly_backup (g_config g)). rewrite RO. unfold bind at 1. unfold bind at 1.
  set (ph := mkHeader _ _ _ _ _ _ _ _ _ _ _ _ _ _ _).
  enough (B2 : build true (bset_primary false (builder_from_header ph)) lb = Panic) by (rewrite B2; reflexivity).
  pose proof (from_header_lbas ph) as (FP2 & FB2).
  unfold primary_at in FP2. unfold backup_at in FB2. cbn [ph current_lba backup_lba] in FP2, FB2.
  rewrite N.min_l in FP2 by lia. rewrite N.max_r in FB2 by lia.
  unfold build. cbn [bset_primary b_primary b_primary_lba b_backup_lba b_num_parts b_part_size b_first_usable b_last_usable b_disk_guid].
  rewrite FP2, FB2. cbn [builder_from_header b_num_parts b_part_size b_first_usable b_last_usable b_disk_guid ph num_parts part_size first_usable last_usable].
  destruct (N.ltb_spec (backup_at h) (primary_at h)); [lia|].
  rewrite mulw_ok by exact A. cbn [obind]. rewrite blocks_div. fold t.
  unfold checked_sub64. destruct (N.leb_spec (t + 1) (backup_at h)); [|lia]. cbn [ok_or obind].
  destruct OV as [OV|(V1 & V2 & V3)]; [rewrite two32 in A; lia|]. fold t in V1, V2.
  destruct (N.ltb_spec (N.max (last_usable h) (backup_at h - (t + 1))) (N.max (N.max (first_usable h) (1 + 1 + t)) (1 + 1 + t))); [lia|].
  unfold addw. destruct (N.ltb_spec (N.max (last_usable h) (backup_at h - (t + 1)) + 1) (modulus 64)) as [Z|Z]; [rewrite two64 in Z; lia|reflexivity].
Qed.

Lemma overflows_dec lb ro h : {overflows lb ro h} + {~ overflows lb ro h}.
Proof.
  unfold overflows. set (t := blocks_for _ _). set (n := num_parts h * part_size h).
  destruct (N.ltb_spec0 n (2 ^ 32)) as [A|A]; [|left; left; lia].
  destruct (N.leb_spec0 (t + 1) (backup_at h)) as [B|B]; [|right; intros [X|(X & _)]; [lia|auto]].
  destruct (N.leb_spec0 (N.max (first_usable h) (2 + t)) (N.max (last_usable h) (backup_at h - (t + 1)))) as [C|C];
    [|right; intros [X|(_ & X & _)]; [lia|auto]].
  destruct (N.eq_dec (primary_at h + 1) (2 ^ 64)) as [D|D]; [left; right; auto|].
  destruct (N.eq_dec (last_usable h + 1) (2 ^ 64)) as [E|E]; [|right; intros [X|(_ & _ & [X|(_ & X)])]; [lia|auto|auto]].
  destruct ro; [right; intros [X|(_ & _ & [X|(X & _)])]; [lia|auto|discriminate]|left; right; auto].
Qed.
