(** CountFacts.v - the number of entries: who changes it, what happens when it is exceeded. *)
From Verif Require Export CreateFacts.
Open Scope list_scope.
Open Scope N_scope.

(** * Adding without permission to change the count *)
(** Either nothing changes, or a partition is put under an id [good] within the present count. *)
Definition add_result (good : header -> N -> Prop) (g : gdisk) (r : outcome gpt_err N * gdisk) : Prop :=
  snd r = g \/ exists id p h, header_of g h /\ N.max id 128 <= num_parts h /\ good h id /\
    r = (Ok id, set_partitions (pm_insert id p (g_partitions g)) g).
Lemma check_insert oc id p g (good : header -> N -> Prop) : c_change_partition_count (g_config g) = false ->
  (forall h, header_of g h -> good h id) ->
  add_result good g ((let* c := check_count id in insert_partition oc id p c) g).
Proof.
  intros HC HG. unfold bind at 1, check_count. unfold the_header.
  destruct (try_header g) as [h|e|] eqn:T; cbn [obind]; [|left; reflexivity ..].
  rewrite HC. destruct (num_parts_would_change h id) eqn:W; cbn [andb negb].
  - left. reflexivity.
  - right. apply header_of_iff in T. exists id, p, h. split; [exact T|]. split; [|split; [apply HG, T|reflexivity]].
    apply N.nlt_ge. intros X. apply would_change_iff in X. congruence.
Qed.
Lemma add_sections_fixed oc nm n ty fl al rnd g : c_change_partition_count (g_config g) = false ->
  forall secs, add_result (fun h id =>
      match @find_next_partition_id gpt_err g with
      | Ok (Some i) => id = i
      | _ => @addw gpt_err oc 32 (num_parts h) 1 = Ok id
      end) g (add_in_sections oc nm n ty fl al rnd secs g).
Proof.
  intros HC. set (good := fun h id => _). induction secs as [|[s len] rest IH]; [left; reflexivity|]. cbn [add_in_sections].
  unfold bind at 1, lift at 1.
  match goal with |- context [match ?o with Ok _ => _ | Err _ => _ | Panic => _ end] => destruct o as [off|e|] end;
    try (left; reflexivity).
  unfold bind at 1, lift at 1. destruct (addw oc 64 off n) as [need|e|]; try (left; reflexivity).
  destruct (need <=? len); [|exact IH].
  unfold bind at 1, lift at 1. destruct (addw oc 64 s off) as [start|e|]; try (left; reflexivity).
  unfold bind at 1. destruct (find_next_partition_id g) as [next|e|] eqn:F; try (left; reflexivity).
  unfold bind at 1. destruct next as [i|]; cbn [ret].
  - unfold bind at 1, lift at 1. destruct (addw oc 64 start n) as [e|e|]; try (left; reflexivity).
    unfold bind at 1, lift at 1. destruct (subw oc 64 e 1) as [l|l|]; try (left; reflexivity).
    apply check_insert; [exact HC|]. intros h _. reflexivity.
  - unfold the_header. destruct (try_header g) as [h|e|] eqn:T; cbn [obind]; try (left; reflexivity).
    destruct (addw oc 32 (num_parts h) 1) as [id|e|] eqn:A; try (left; reflexivity).
    unfold bind at 1, lift at 1. destruct (addw oc 64 start n) as [e|e|]; try (left; reflexivity).
    unfold bind at 1, lift at 1. destruct (subw oc 64 e 1) as [l|l|]; try (left; reflexivity).
    apply check_insert; [exact HC|]. intros h' T'. apply header_of_iff in T'. assert (h' = h) by congruence. subst h'.
    exact A.
Qed.
Lemma add_fixed oc nm size ty fl al rnd g : c_change_partition_count (g_config g) = false ->
  add_result (fun h id =>
      match @find_next_partition_id gpt_err g with
      | Ok (Some i) => id = i
      | _ => @addw gpt_err oc 32 (num_parts h) 1 = Ok id
      end) g (add_partition oc nm size ty fl al rnd g).
Proof.
  intros HC. unfold add_partition. destruct (size =? 0); [left; reflexivity|]. unfold bind.
  destruct (find_free_sectors oc g) as [secs|e|]; try (left; reflexivity). apply add_sections_fixed, HC.
Qed.
Lemma add_at_fixed oc nm id first n ty fl rnd g : c_change_partition_count (g_config g) = false ->
  add_result (fun _ i => i = id /\ 1 <= i) g (add_partition_at oc nm id first n ty fl rnd g).
Proof.
  intros HC. unfold add_partition_at. destruct (n =? 0); [left; reflexivity|].
  destruct (N.eqb_spec id 0) as [|I0]; [left; reflexivity|].
  destruct (match pm_get id (g_partitions g) with Some _ => _ | None => _ end); [left; reflexivity|]. unfold bind.
  destruct (find_free_sectors oc g) as [secs|e|]; try (left; reflexivity). rewrite add_at_sections.
  destruct (existsb (takes first n) secs); [|left; reflexivity]. unfold finish_at.
  unfold bind at 1, lift at 1. destruct (addw oc 64 first n) as [e|e|]; try (left; reflexivity).
  unfold bind at 1, lift at 1. destruct (subw oc 64 e 1) as [l|l|]; try (left; reflexivity).
  apply check_insert; auto. intros _ _. split; [reflexivity|lia].
Qed.

(** * Writing keeps the count *)
Definition ginv {E A} (P : gdisk -> Prop) (m : M gdisk E A) : Prop := forall g, P g -> P (snd (m g)).
Lemma ginv_bind {E A B} P (m : M gdisk E A) (k : A -> M gdisk E B) :
  ginv P m -> (forall a, ginv P (k a)) -> ginv P (bind m k).
Proof.
  intros H1 H2 g HP. unfold bind. specialize (H1 g HP). destruct (m g) as [[a|e|] g']; auto. apply H2, H1.
Qed.
Definition primary_count (n : N) (g : gdisk) : Prop := exists x, g_primary g = Ok x /\ num_parts x = n.
Lemma ginv_on_device {E A} n (m : M dev E A) : ginv (primary_count n) (on_device m).
Proof. intros g HP. unfold on_device. destruct (m (g_device g)) as [r d]. exact HP. Qed.
Lemma ginv_write_rest oc lb ph bh m s : ginv (primary_count (num_parts ph)) (write_rest oc lb ph bh m s).
Proof.
  unfold write_rest. apply ginv_bind; [apply ginv_on_device|intros _]. apply ginv_bind; [|intros _].
  - destruct bh as [b|]; [|intros g H; exact H]. intros g H. unfold write_backup_of.
    destruct (write_backup b (c_lb (g_config g)) (g_device g)) as [r [b' d]]. exact H.
  - apply ginv_bind; [|intros _].
    + intros g H. unfold write_primary_of.
      pose proof (write_primary_keeps ph (c_lb (g_config g)) (g_device g)) as K.
      destruct (write_primary ph (c_lb (g_config g)) (g_device g)) as [r [ph' d]]. exists ph'. split; [reflexivity|].
      exact (sh_num _ _ K).
    + apply ginv_bind; [apply ginv_on_device|intros _]. destruct s; [apply ginv_on_device|intros g H; exact H].
Qed.
Lemma write_count oc g h : header_of g h ->
  exists h', header_of (snd (write_inplace oc g)) h' /\ num_parts h' = num_parts h.
Proof.
  intros HH. unfold write_inplace. destruct (negb (c_writable (g_config g))); [exists h; auto|].
  assert (KEEP : forall d, header_of (set_device d g) h) by (intros d; exact HH).
  unfold bind at 1. unfold on_device at 1.
  destruct (map_err GHeader (find_backup_lba (c_lb (g_config g))) (g_device g)) as [[n|e|] d];
    [|exists h; split; [apply KEEP|reflexivity] ..].
  specialize (KEEP d). set (g0 := set_device d g) in *. set (lb := c_lb (g_config g)).
  unfold bind at 1, lift at 1. rewrite (the_header_of g0 h KEEP). unfold bind at 1, lift at 1.
  destruct (build oc (bset_primary true (builder_from_header h)) _) as [ph|e|] eqn:B; cbn [omap_err];
    [|exists h; split; [exact KEEP|reflexivity] ..].
  assert (NP : num_parts ph = num_parts h) by (apply build_fields in B; apply B).
  assert (X : forall g1, primary_count (num_parts ph) g1 -> exists h', header_of g1 h' /\ num_parts h' = num_parts h).
  { intros g1 (x & X1 & X2). exists x. split; [left; exact X1|congruence]. }
  apply X. unfold bind at 1.
  assert (P0 : primary_count (num_parts ph) (set_primary (Ok ph) g0)) by (exists ph; auto).
  set (g1 := set_primary (Ok ph) g0) in *.
  unfold bind at 1. destruct (c_readonly_backup _); cbn [ret].
  - apply (ginv_write_rest oc _ ph None _ _ g1 P0).
  - unfold bind at 1, lift at 1. destruct (build oc (bset_primary false _) _) as [bh|e|]; cbn [omap_err]; try exact P0.
    apply (ginv_write_rest oc _ ph (Some bh) _ _ _). destruct P0 as (x & P1 & P2). exists x. auto.
Qed.

(** * update_partitions *)
Lemma init_count oc g h : header_of g h ->
  let g' := snd (init_headers oc g) in
  g_partitions g' = g_partitions g /\
  exists h', header_of g' h' /\ (num_parts h' = num_parts h \/ num_parts h' = next_count g).
Proof.
  intros HH g'. split; [apply init_headers_partitions|]. subst g'.
  destruct (init_headers_any oc g) as (d & _ & [(e & E)|[E|(bak & E)]]); rewrite E; cbn [snd];
    [exists h; split; [exact HH|auto] ..|].
  unfold init_with. destruct (build oc (init_builder (set_device d g) bak) _) as [h1|e|] eqn:B; cbn [snd];
    [|exists h; split; [exact HH|auto] ..].
  apply build_fields in B. destruct B as (_ & _ & B & _). exists h1.
  assert (N1 : num_parts h1 = next_count g) by exact B.
  split; [|auto]. destruct (c_readonly_backup _); [left; reflexivity|].
  destruct (build oc _ _) as [h2|e|]; left; reflexivity.
Qed.
Lemma update_partitions_count oc pp g h g' : header_of g h -> c_change_partition_count (g_config g) = false ->
  kept (update_partitions oc pp g) = Some g' ->
  let n := N.max (lenN pp mod modulus 32) 128 in
  g' = g \/
  n <= num_parts h /\ g_partitions g' = pp /\ (map_ok pp -> forall p, ~ has pp 0 p) /\
  exists h', header_of g' h' /\ (num_parts h' = num_parts h \/ num_parts h' = n).
Proof.
  intros HH HC E n. unfold update_partitions in E. unfold bind at 1 in E.
  destruct (match pm_get 0 pp with Some _ => true | None => false end) eqn:Z; [discriminate|]. cbn [ret] in E.
  unfold bind at 1, check_count in E. rewrite (the_header_of g h HH) in E. cbn [obind] in E. rewrite HC in E.
  destruct (num_parts_would_change h (lenN pp mod modulus 32)) eqn:W; cbn [andb negb] in E.
  { left. injection E as <-. reflexivity. }
  right. assert (n <= num_parts h).
  { unfold n. apply N.nlt_ge. intros X. apply would_change_iff in X. congruence. }
  split; [assumption|]. unfold bind in E. apply kept_some in E. subst g'.
  destruct (init_count oc (set_partitions pp g) h) as (I1 & I2); [exact HH|].
  split; [exact I1|]. split; [|exact I2].
  intros MO. apply pm_get_none; [exact MO|]. destruct (pm_get 0 pp); [discriminate|reflexivity].
Qed.

(** * Ids within the count *)
Lemma keys_bound n m : map_ok m -> (forall k p, has m k p -> used p -> 1 <= k <= n) ->
  lenN (used_in_order m) <= n.
Proof.
  intros MO HK. rewrite used_in_order_eq, used_list_lenN.
  assert (X : forall a, (forall k p, has m k p -> used p -> a < k <= n) -> lenN (used_parts m) + a <= N.max n a).
  { clear HK. revert MO. induction m as [|[k p] m IH]; intros MO a Ha; [change (lenN (used_parts [])) with 0; lia|].
    apply map_ok_cons in MO. destruct MO as (MO & F). rewrite Forall_forall in F.
    unfold used_parts. cbn [filter snd]. destruct (is_used p) eqn:U.
    - apply used_iff in U. pose proof (Ha k p (or_introl eq_refl) U) as K.
      assert (R : lenN (used_parts m) + k <= N.max n k).
      { apply (IH MO). intros j q Hj Uq. pose proof (Ha j q (or_intror Hj) Uq). specialize (F _ Hj). cbn in F. lia. }
      rewrite lenN_cons. unfold used_parts in R. lia.
    - apply (IH MO a). intros j q Hj. apply (Ha j q). right. exact Hj. }
  specialize (X 0). rewrite N.max_0_r, N.add_0_r in X. apply X. intros k p H U. specialize (HK k p H U). lia.
Qed.
(** The used partitions have ids that the header provides entries for. *)
Definition ids_fit (h : header) (m : pmap) : Prop :=
  map_ok m /\ forall k p, has m k p -> used p -> 1 <= k <= num_parts h.
Lemma ids_fit_count h m : ids_fit h m -> lenN (used_in_order m) <= num_parts h.
Proof. intros (A & B). apply keys_bound; auto. Qed.
Lemma ids_fit_ext h h' m : num_parts h' = num_parts h -> ids_fit h m -> ids_fit h' m.
Proof. unfold ids_fit. intros ->. auto. Qed.
Lemma ids_fit_insert h m k p : ids_fit h m -> 1 <= k <= num_parts h -> ids_fit h (pm_insert k p m).
Proof.
  intros (A & B) K. split; [apply map_ok_insert, A|]. intros j q H U. apply (has_insert m A) in H.
  destruct H as [(-> & ->)|(_ & H)]; [exact K|]. apply (B j q H U).
Qed.
Lemma ids_fit_remove h m k : ids_fit h m -> ids_fit h (pm_remove k m).
Proof.
  intros (A & B). split; [apply map_ok_remove, A|]. intros j q H U. apply (has_remove m A) in H. apply (B j q (proj2 H) U).
Qed.
Lemma find_next_id g h i : header_of g h -> map_ok (g_partitions g) -> 128 <= num_parts h ->
  @find_next_partition_id gpt_err g = Ok (Some i) -> 1 <= i <= num_parts h.
Proof.
  intros HH MO N1 E. destruct (@next_id_spec gpt_err g h HH MO ltac:(lia)) as (r & E' & R).
  rewrite E in E'. apply Ok_inj in E'. subst r. apply R.
Qed.
(** What update_partitions must be given for the ids to fit afterwards. *)
Definition fitting_op (o : op) : Prop :=
  match o with
  | OpUpdatePartitions pp => map_ok pp /\ lenN pp < 2 ^ 32 /\ forall k p, has pp k p -> used p -> k <= N.max (lenN pp) 128
  | _ => True
  end.
Lemma step_count oc o g h g' : header_of g h -> c_change_partition_count (g_config g) = false ->
  step oc o g = Some g' ->
  c_change_partition_count (g_config g') = false /\
  exists h', header_of g' h' /\ num_parts h' <= num_parts h /\
    (num_parts h <= 128 -> num_parts h' = num_parts h) /\
    ((forall pp, o <> OpUpdatePartitions pp) -> num_parts h' = num_parts h) /\
    (fitting_op o -> num_parts h + 1 < 2 ^ 32 -> ids_fit h (g_partitions g) -> ids_fit h' (g_partitions g')).
Proof.
  intros HH HC E.
  assert (SAME : forall m, c_change_partition_count (g_config (set_partitions m g)) = false /\
    ((num_parts h + 1 < 2 ^ 32 -> ids_fit h (g_partitions g) -> ids_fit h m) ->
    exists h', header_of (set_partitions m g) h' /\ num_parts h' <= num_parts h /\
    (num_parts h <= 128 -> num_parts h' = num_parts h) /\
    ((forall pp, o <> OpUpdatePartitions pp) -> num_parts h' = num_parts h) /\
    (fitting_op o -> num_parts h + 1 < 2 ^ 32 -> ids_fit h (g_partitions g) -> ids_fit h' m))).
  { intros m. split; [exact HC|]. intros K. exists h. split; [exact HH|]. split; [apply N.le_refl|]. auto. }
  assert (NOOP : set_partitions (g_partitions g) g = g) by (destruct g; reflexivity).
  assert (ADD : forall good r, add_result good g r -> 
    (forall i, header_of g h -> good h i -> N.max i 128 <= num_parts h -> num_parts h + 1 < 2 ^ 32 -> map_ok (g_partitions g) -> 1 <= i <= num_parts h) ->
    kept r = Some g' -> exists m, g' = set_partitions m g /\ (num_parts h + 1 < 2 ^ 32 -> ids_fit h (g_partitions g) -> ids_fit h m)).
  { intros good r [R|(id & p & h0 & H0 & M & G & R)] HG K.
    - apply kept_some in K. exists (g_partitions g). split; [rewrite NOOP; congruence|auto].
    - assert (h0 = h) by (apply (header_of_fun g); auto). subst h0. subst r. cbn in K. injection K as <-.
      eexists. split; [reflexivity|]. intros N32 F. apply ids_fit_insert; [exact F|]. apply HG; auto. apply F. }
  destruct o as [nm size ty fl al rnd|nm id first len ty fl rnd|id|u| |u rnd|pp| |d w]; cbn [step] in E.
  - destruct (ADD _ _ (add_fixed oc nm size ty fl al rnd g HC)) as (m & -> & K); [|exact E|].
    + intros i _ G M N32 MO.
      destruct (find_next_partition_id g) as [[j|]|e|] eqn:F.
      * subst i. apply (find_next_id g h j HH MO); [lia|exact F].
      * unfold addw in G. rewrite <- two32 in N32.
        replace (num_parts h + 1 <? modulus 32) with true in G by (symmetry; apply N.ltb_lt; lia).
        apply Ok_inj in G. lia.
      * destruct (@find_next_pure gpt_err g) as [(r & X)|X]; congruence.
      * unfold addw in G. rewrite <- two32 in N32.
        replace (num_parts h + 1 <? modulus 32) with true in G by (symmetry; apply N.ltb_lt; lia).
        apply Ok_inj in G. lia.
    + destruct (SAME m) as (A & B). split; [exact A|]. apply B, K.
  - destruct (ADD _ _ (add_at_fixed oc nm id first len ty fl rnd g HC)) as (m & -> & K); [|exact E|].
    + intros i _ (G1 & G2) M _ _. lia.
    + destruct (SAME m) as (A & B). split; [exact A|]. apply B, K.
  - injection E as <-. unfold remove_partition. destruct (pm_get id (g_partitions g)); cbn [snd].
    + destruct (SAME (pm_remove id (g_partitions g))) as (A & B). split; [exact A|]. apply B. intros _. apply ids_fit_remove.
    + destruct (SAME (g_partitions g)) as (A & B). rewrite NOOP in A, B. split; [exact A|]. apply B. auto.
  - injection E as <-. unfold remove_partition_by_guid. destruct (find _ _) as [[id p]|]; cbn [snd].
    + destruct (SAME (pm_remove id (g_partitions g))) as (A & B). split; [exact A|]. apply B. intros _. apply ids_fit_remove.
    + destruct (SAME (g_partitions g)) as (A & B). rewrite NOOP in A, B. split; [exact A|]. apply B. auto.
  - injection E as <-. destruct (SAME []) as (A & B). split; [exact A|]. apply B. intros _ _. split; [apply map_ok_nil|intros k p []].
  - injection E as <-. split; [exact HC|]. exists h. split; [exact HH|]. split; [apply N.le_refl|]. auto.
  - assert (K := E). apply kept_some in K. assert (CF : g_config g' = g_config g).
    { rewrite <- K. apply mo_update_partitions. }
    split; [rewrite CF; exact HC|]. clear K.
    destruct (update_partitions_count oc pp g h g' HH HC E) as [->|(A & B & Z & h' & H' & C)].
    { exists h. split; [exact HH|]. split; [apply N.le_refl|]. auto. }
    exists h'. split; [exact H'|]. split; [destruct C; lia|]. split; [destruct C; lia|].
    split; [intros X; destruct (X pp eq_refl)|]. intros (F1 & F2 & F3) _ _. rewrite B. split; [exact F1|].
    intros k p H U. specialize (F3 k p H U). rewrite <- two32 in F2. rewrite (N.mod_small _ _ F2) in C.
    assert (k <> 0) by (intros ->; apply (Z F1 p H)). rewrite (N.mod_small _ _ F2) in A. destruct C; lia.
  - apply kept_some in E. subst g'. pose proof (wo_write oc g) as (W1 & _ & W3 & _).
    split; [rewrite W1; exact HC|]. destruct (write_count oc g h HH) as (h' & H1 & H2). exists h'. split; [exact H1|].
    split; [lia|]. split; [auto|]. split; [auto|]. intros _ _ F. rewrite W3. apply (ids_fit_ext h); auto.
  - injection E as <-. split; [exact HC|]. exists h. split; [exact HH|]. split; [apply N.le_refl|]. auto.
Qed.

(** * The error GOverflowPartitionCount *)
Definition no_overflow {S A} (m : M S gpt_err A) : Prop := forall s, fst (m s) <> Err GOverflowPartitionCount.
Lemma nov_bind {S A B} (m : M S gpt_err A) (k : A -> M S gpt_err B) :
  no_overflow m -> (forall a, no_overflow (k a)) -> no_overflow (bind m k).
Proof.
  intros H1 H2 s. unfold bind. specialize (H1 s). destruct (m s) as [[a|e|] s']; cbn [fst] in *; [apply H2| |discriminate].
  intros E. apply H1. injection E as ->. reflexivity.
Qed.
Lemma nov_io {S A} (m : M S io_err A) : no_overflow (map_err GIo m).
Proof. intros s. unfold map_err. destruct (m s) as [[a|e|] s']; discriminate. Qed.
Lemma nov_header {S A} (m : M S hdr_err A) : no_overflow (map_err GHeader m).
Proof. intros s. unfold map_err. destruct (m s) as [[a|e|] s']; discriminate. Qed.
Lemma nov_ret {S A} (a : A) : no_overflow (@ret S gpt_err A a).
Proof. intros s. discriminate. Qed.
Lemma nov_on_device {A} (m : M dev gpt_err A) : no_overflow m -> no_overflow (on_device m).
Proof. intros H g. unfold on_device. specialize (H (g_device g)). destruct (m (g_device g)). exact H. Qed.
Lemma write_entries_nov oc lb ph bh : (forall b, bh = Some b -> num_parts b = num_parts ph) ->
  forall l idx, idx + lenN l <= num_parts ph ->
  no_overflow (write_entries oc lb ph bh l idx) /\
  forall d i d', write_entries oc lb ph bh l idx d = (Ok i, d') -> i = idx + lenN l.
Proof.
  intros HB. induction l as [|[k p] l IH]; intros idx HI.
  - split; [apply nov_ret|]. intros d i d' E. cbn in E. injection E as <- _. change (lenN (@nil (N * partition))) with 0. lia.
  - rewrite lenN_cons in HI. cbn [write_entries].
    replace (num_parts ph <=? idx) with false by (symmetry; apply N.leb_gt; lia).
    destruct (IH (idx + 1)) as (I1 & I2); [lia|].
    assert (MID : no_overflow (match bh with
       | None => @ret dev gpt_err unit tt
       | Some bh => if num_parts bh <=? idx then throw GOverflowPartitionCount else
           if part_start ph =? part_start bh then ret tt
           else map_err GIo (write_to_device oc p idx (part_start bh) lb (part_size bh)) end)).
    { destruct bh as [b|]; [|apply nov_ret]. rewrite (HB b eq_refl).
      replace (num_parts ph <=? idx) with false by (symmetry; apply N.leb_gt; lia).
      destruct (part_start ph =? part_start b); [apply nov_ret|apply nov_io]. }
    split.
    + apply nov_bind; [apply nov_io|intros _]. apply nov_bind; [exact MID|intros _]. exact I1.
    + intros d i d' E. apply bind_inv in E. destruct E as (a1 & d1 & _ & E). apply bind_inv in E.
      destruct E as (a2 & d2 & _ & E). apply I2 in E. rewrite lenN_cons. lia.
Qed.
Lemma write_tables_nov oc lb ph bh m : (forall b, bh = Some b -> num_parts b = num_parts ph) ->
  lenN (used_parts m) <= num_parts ph -> no_overflow (write_tables oc lb ph bh m).
Proof.
  intros HB HU. destruct (write_entries_nov oc lb ph bh HB (used_parts m) 0) as (A & _); [lia|].
  unfold write_tables. apply nov_bind; [exact A|intros next]. apply nov_bind; [|intros n].
  { intros s. unfold lift, sub_unwrap. destruct (checked_sub64 _ _); discriminate. }
  apply nov_bind; [apply nov_io|intros _]. destruct bh as [b|]; [|apply nov_ret].
  apply nov_bind; [|intros n']. { intros s. unfold lift, sub_unwrap. destruct (checked_sub64 _ _); discriminate. }
  apply nov_io.
Qed.
Lemma nov_write_rest oc lb ph bh m s : (forall b, bh = Some b -> num_parts b = num_parts ph) ->
  lenN (used_parts m) <= num_parts ph -> no_overflow (write_rest oc lb ph bh m s).
Proof.
  intros HB HU. unfold write_rest. apply nov_bind; [apply nov_on_device, write_tables_nov; auto|intros _].
  apply nov_bind; [|intros _].
  { destruct bh as [b|]; [|apply nov_ret]. intros g. unfold write_backup_of.
    destruct (write_backup b (c_lb (g_config g)) (g_device g)) as [[r|r|] [b' d]]; discriminate. }
  apply nov_bind; [|intros _].
  { intros g. unfold write_primary_of.
    destruct (write_primary ph (c_lb (g_config g)) (g_device g)) as [[r|r|] [b' d]]; discriminate. }
  apply nov_bind; [apply nov_on_device, nov_io|intros _]. destruct s; [apply nov_on_device, nov_io|apply nov_ret].
Qed.
Lemma write_nov oc g h : header_of g h -> lenN (used_in_order (g_partitions g)) <= num_parts h ->
  fst (write_inplace oc g) <> Err GOverflowPartitionCount.
Proof.
  intros HH HU. rewrite used_in_order_eq, used_list_lenN in HU.
  unfold write_inplace. destruct (negb (c_writable (g_config g))); [discriminate|].
  unfold bind at 1. pose proof (nov_on_device _ (nov_header (find_backup_lba (c_lb (g_config g)))) g) as N0.
  unfold on_device at 1. unfold on_device in N0.
  destruct (map_err GHeader (find_backup_lba (c_lb (g_config g))) (g_device g)) as [[n|e|] d];
    [|cbn [fst] in *; intros X; apply N0; injection X as ->; reflexivity|discriminate]. clear N0.
  set (g0 := set_device d g). assert (H0 : header_of g0 h) by exact HH.
  unfold bind at 1, lift at 1. rewrite (the_header_of g0 h H0). unfold bind at 1, lift at 1.
  destruct (build oc (bset_primary true (builder_from_header h)) _) as [ph|e|] eqn:B; cbn [omap_err]; try discriminate.
  assert (NP : num_parts ph = num_parts h) by (apply build_fields in B; apply B).
  unfold bind at 1. set (g1 := set_primary (Ok ph) g0).
  unfold bind at 1. destruct (c_readonly_backup _); cbn [ret].
  - apply (nov_write_rest oc _ ph None); [discriminate|]. change (g_partitions g0) with (g_partitions g). lia.
  - unfold bind at 1, lift at 1. destruct (build oc (bset_primary false _) _) as [bh|e|] eqn:B2; cbn [omap_err]; try discriminate.
    apply (nov_write_rest oc _ ph (Some bh)).
    + intros b E. injection E as <-. apply build_fields in B2. apply B2.
    + change (g_partitions g0) with (g_partitions g). lia.
Qed.

(** With more used partitions than entries, writing fails with that error. *)
Lemma bind_assoc {S E A B C} (m : M S E A) (k : A -> M S E B) (k' : B -> M S E C) s :
  bind (bind m k) k' s = bind m (fun a => bind (k a) k') s.
Proof. unfold bind. destruct (m s) as [[a|e|] s']; reflexivity. Qed.
Lemma write_entries_app oc lb ph bh l1 l2 : forall idx d,
  write_entries oc lb ph bh (l1 ++ l2) idx d =
  bind (write_entries oc lb ph bh l1 idx) (fun i => write_entries oc lb ph bh l2 i) d.
Proof.
  induction l1 as [|[k p] l1 IH]; intros idx d; [reflexivity|]. cbn [app write_entries].
  destruct (num_parts ph <=? idx); [reflexivity|].
  rewrite bind_assoc. apply bind_ext. intros u d1. rewrite bind_assoc. apply bind_ext. intros u' d2. apply IH.
Qed.
Lemma write_overflow oc g h :
  c_writable (g_config g) = true -> try_header g = Ok h -> good_dev (g_device g) ->
  sane (c_lb (g_config g)) (dev_len (g_device g)) h ->
  num_parts h < lenN (used_list (g_partitions g)) ->
  fst (write_inplace oc g) = Err GOverflowPartitionCount.
Proof.
  intros HW HT (HD & H64) S HU. set (lb := c_lb (g_config g)) in *.
  pose proof (build_primary_sane oc lb _ h S H64) as BP. pose proof (build_backup_sane oc lb _ h S H64) as BB.
  set (bh := if c_readonly_backup (g_config g) then None else Some (new_backup lb h)).
  rewrite (write_inplace_eq oc g h (new_primary lb h) bh HW HT BP).
  2: { unfold bh. destruct (c_readonly_backup (g_config g)); [reflexivity|]. exists (new_backup lb h). auto. }
  fold lb. pose proof (sane_areas _ _ _ S) as (A1 & A2 & A3 & A4 & A5 & A6).
  unfold bind at 1. unfold on_device at 1, map_err at 1. rewrite find_backup_lba_ok by exact HD.
  replace (dev_len (g_device g) <? lb_u64 lb * 3) with false by (symmetry; apply N.ltb_ge; nia). cbn [omap_err].
  unfold bind at 1, put_primary. unfold bind at 1, put_backup. unfold write_rest. unfold bind at 1. unfold on_device at 1.
  match goal with |- context [write_tables oc lb _ bh _ ?d0] => set (d := d0) end.
  assert (ED : d = g_device g) by (unfold d; destruct bh; reflexivity).
  assert (WT : exists d', write_tables oc lb (new_primary lb h) bh (g_partitions g) d = (Err GOverflowPartitionCount, d')).
  2: { destruct WT as (d' & ->). reflexivity. }
  rewrite ED. clear d ED. set (l := used_parts (g_partitions g)).
  rewrite used_list_lenN in HU. fold l in HU. set (k := N.to_nat (num_parts h)).
  assert (SP : l = firstn k l ++ skipn k l) by (symmetry; apply firstn_skipn).
  assert (KL : lenN (firstn k l) = num_parts h).
  { unfold lenN in *. rewrite firstn_length. unfold k. lia. }
  assert (WE : exists q, write_entries oc lb (new_primary lb h) bh (firstn k l) 0 (g_device g) = (Ok (num_parts h), q)).
  { unfold bh. destruct (c_readonly_backup (g_config g)).
    - destruct (write_entries_ok_1 oc lb (new_primary lb h) (firstn k l) 0 [] (g_device g) (data (g_device g)))
        as (q & E); cbn [new_primary part_start num_parts part_size]; auto; try (unfold dev_len in *; nia).
      exists (set_data (g_device g) (store (part_start (new_primary lb h) * lb_u64 lb) ([] ++ entries (map snd (firstn k l))) (data (g_device g))) q).
      rewrite E, KL. reflexivity.
    - destruct (write_entries_ok oc lb (new_primary lb h) (new_backup lb h) (firstn k l) 0 [] (g_device g) (data (g_device g)))
        as (q & E); cbn [new_primary new_backup part_start num_parts part_size]; auto; try (unfold dev_len in *; nia).
      eexists. rewrite E, KL. reflexivity. }
  destruct WE as (q & WE). exists q. unfold write_tables. unfold bind at 1. fold l. rewrite SP, write_entries_app.
  unfold bind at 1. rewrite WE. destruct (skipn k l) as [|[j p] r] eqn:K.
  { exfalso. assert (X := f_equal (@length _) K). rewrite skipn_length in X. cbn in X. unfold lenN in HU. unfold k in X. lia. }
  cbn [write_entries]. change (num_parts (new_primary lb h)) with (num_parts h). rewrite N.leb_refl. reflexivity.
Qed.

(** * init_headers for a disk with a sane header *)
Definition reinit (g : gdisk) (n bak fu lu : N) : gdisk :=
  (if c_readonly_backup (g_config g) then id else set_backup (Ok (built (g_guid g) n bak fu lu false)))
    (set_primary (Ok (built (g_guid g) n bak fu lu true)) g).
Lemma sane_last lb d h : sane lb (dev_len d) h -> lb_u64 lb * 3 <= dev_len d /\ blba h <= last_block lb d.
Proof.
  intros [S1 S2 S3 S4 S5 S6 S7 S8]. pose proof (lb_pos lb).
  assert (lb_u64 lb * 3 <= dev_len d).
  { apply N.le_trans with ((blba h + 1) * lb_u64 lb); [|exact S8]. rewrite N.mul_comm. apply N.mul_le_mono_r. lia. }
  split; [assumption|]. unfold last_block. assert (blba h + 1 <= dev_len d / lb_u64 lb) by (apply N.div_le_lower_bound; lia). lia.
Qed.
Lemma init_layout oc g h : good_dev (g_device g) -> try_header g = Ok h ->
  let lb := c_lb (g_config g) in let len := dev_len (g_device g) in
  sane lb len h -> wf_uuid (g_guid g) ->
  let n := next_count g in let t := ablocks n 128 lb in let bak := last_block lb (g_device g) in
  let fu := N.max (first_usable h) (2 + t) in let lu := N.max (last_usable h) (bak - (t + 1)) in
  n * 128 < modulus 32 -> t + 1 <= bak -> fu <= lu ->
  init_headers oc g = (Ok tt, reinit g n bak fu lu) /\
  (last_usable h + t + 1 <= bak -> sane lb len (built (g_guid g) n bak fu lu true)).
Proof.
  intros (HD & H64) HT lb len S GO n t bak fu lu N32 TB FL.
  destruct (sane_last _ _ _ S) as (L3 & LB). fold bak in LB.
  assert (B2 : 2 <= bak). { destruct S as [S1 S2 S3 S4 S5 S6 S7 S8]. lia. }
  assert (B64 : bak < modulus 64).
  { unfold bak, last_block. pose proof (lb_pos lb).
    assert (dev_len (g_device g) / lb_u64 lb <= dev_len (g_device g)) by (apply N.div_le_upper_bound; nia). lia. }
  split.
  - rewrite init_headers_eq by exact HD. fold lb.
    replace (dev_len (g_device g) <? lb_u64 lb * 3) with false by (symmetry; apply N.ltb_ge; exact L3).
    assert (ST : starts_from g (first_usable h) (last_usable h)).
    { unfold starts_from. rewrite HT. split; [apply S|]. split; [apply S|]. auto. }
    fold bak. pose proof (init_ok oc g bak _ _ ST) as X. cbn zeta in X. fold lb n t fu lu in X. rewrite X; auto.
    destruct S as [S1 S2 S3 S4 S5 S6 S7 S8]. lia.
  - intros LU. destruct S as [S1 S2 S3 S4 S5 S6 S7 S8].
    assert (PB : plba (built (g_guid g) n bak fu lu true) = 1 /\ blba (built (g_guid g) n bak fu lu true) = bak).
    { unfold plba, blba. cbn. replace (1 <? bak) with true by (symmetry; apply N.ltb_lt; lia). auto. }
    destruct PB as (P1 & P2). pose proof (lb_pos lb) as LP.
    constructor; rewrite ?P2; cbn [built disk_guid part_size num_parts first_usable last_usable]; fold t; auto.
    + unfold fu. lia.
    + unfold lu. lia.
    + unfold fu, lu in FL |- *. lia.
    + apply (last_block_bound lb (g_device g) L3).
Qed.
(** update_partitions on such a disk. *)
Lemma update_partitions_ok oc pp g h : good_dev (g_device g) -> try_header g = Ok h ->
  let lb := c_lb (g_config g) in let len := dev_len (g_device g) in
  sane lb len h -> wf_uuid (g_guid g) -> map_ok pp -> (forall p, ~ has pp 0 p) ->
  let n := N.max (lenN pp) 128 in let t := ablocks n 128 lb in let bak := last_block lb (g_device g) in
  let fu := N.max (first_usable h) (2 + t) in let lu := N.max (last_usable h) (bak - (t + 1)) in
  n <= num_parts h \/ c_change_partition_count (g_config g) = true ->
  n * 128 < modulus 32 -> t + 1 <= bak -> fu <= lu ->
  update_partitions oc pp g = (Ok tt, reinit (set_partitions pp g) n bak fu lu) /\
  (last_usable h + t + 1 <= bak -> sane lb len (built (g_guid g) n bak fu lu true)).
Proof.
  intros HD HT lb len S GO MO H0 n t bak fu lu HC N32 TB FL.
  assert (NE : next_count (set_partitions pp g) = n).
  { unfold next_count. cbn [set_partitions g_partitions]. rewrite N.mod_small; [reflexivity|]. unfold n in N32. lia. }
  pose proof (init_layout oc (set_partitions pp g) h HD HT S GO) as I. cbn zeta in I. rewrite NE in I.
  cbn [set_partitions g_config g_device g_guid] in I. fold lb t bak fu lu len in I. destruct (I N32 TB FL) as (I1 & I2).
  split; [|exact I2]. unfold update_partitions.
  assert (Z : pm_get 0 pp = None) by (apply pm_get_none; auto). rewrite Z.
  unfold bind at 1. cbn [ret]. unfold bind at 1, check_count. unfold the_header. rewrite HT. cbn [obind].
  assert (W : num_parts_would_change h (lenN pp mod modulus 32) && negb (c_change_partition_count (g_config g)) = false).
  { rewrite N.mod_small by (unfold n in N32; lia). destruct HC as [HC| ->]; [|destruct (num_parts_would_change _ _); reflexivity].
    destruct (num_parts_would_change h (lenN pp)) eqn:W; [|reflexivity]. apply would_change_iff in W. unfold n in HC. lia. }
  rewrite W. unfold bind. exact I1.
Qed.
Lemma reinit_header g n bak fu lu : header_of (reinit g n bak fu lu) (built (g_guid g) n bak fu lu true).
Proof. unfold reinit. destruct (c_readonly_backup (g_config g)); left; reflexivity. Qed.
Lemma reinit_fields g n bak fu lu : let g' := reinit g n bak fu lu in
  g_config g' = g_config g /\ g_device g' = g_device g /\ g_guid g' = g_guid g /\ g_partitions g' = g_partitions g.
Proof. cbn zeta. unfold reinit. destruct (c_readonly_backup (g_config g)); repeat split. Qed.
(** Fewer entries need no more blocks. *)
Lemma ablocks_mono a b lb : a <= b -> ablocks a 128 lb <= ablocks b 128 lb.
Proof.
  intros H. pose proof (lb_pos lb). unfold ablocks. apply (div_ceil_spec (a * 128) (lb_u64 lb)); [lia|].
  apply N.le_trans with (b * 128); [lia|]. apply (div_ceil_spec (b * 128) (lb_u64 lb)). lia.
Qed.
