(** IdleFacts.v - editing calls see only part of the disk (C86). *)
From Verif Require Export SpecIdle RetryFacts CountFacts UndoFacts RefineFacts.
Open Scope list_scope.
Open Scope N_scope.

(** * Editing calls *)
(** Two disks that look alike to the editing calls. *)
Definition look (g1 g2 : gdisk) : Prop :=
  g_config g1 = g_config g2 /\ c_change_partition_count (g_config g1) = false /\ g_partitions g1 = g_partitions g2 /\
  exists x1 x2, try_header g1 = Ok x1 /\ try_header g2 = Ok x2 /\
    first_usable x1 = first_usable x2 /\ last_usable x1 = last_usable x2 /\ num_parts x1 = num_parts x2.
(** An operation that does the same to both, and only to the table. *)
Definition par {E A} (m : M gdisk E A) : Prop := forall g1 g2, look g1 g2 ->
  exists r t, m g1 = (r, set_partitions t g1) /\ m g2 = (r, set_partitions t g2).
Lemma look_set t g1 g2 : look g1 g2 -> look (set_partitions t g1) (set_partitions t g2).
Proof. intros (A & B & C & D). split; [exact A|]. split; [exact B|]. split; [reflexivity|exact D]. Qed.
Lemma set_same g : set_partitions (g_partitions g) g = g.
Proof. destruct g; reflexivity. Qed.
Lemma set_set t t' g : set_partitions t (set_partitions t' g) = set_partitions t g.
Proof. reflexivity. Qed.
Lemma par_bind {E A B} (m : M gdisk E A) (k : A -> M gdisk E B) : par m -> (forall a, par (k a)) -> par (bind m k).
Proof.
  intros HM HK g1 g2 HL. destruct (HM g1 g2 HL) as (r & t & E1 & E2). unfold bind. rewrite E1, E2.
  destruct r as [a|e|]; [|exists (Err e), t; auto|exists Panic, t; auto].
  destruct (HK a _ _ (look_set t g1 g2 HL)) as (r & t' & F1 & F2). exists r, t'. rewrite F1, F2. auto.
Qed.
Lemma par_query {E A} (f : gdisk -> outcome E A) : (forall g1 g2, look g1 g2 -> f g1 = f g2) -> par (fun g => (f g, g)).
Proof.
  intros H g1 g2 HL. exists (f g1), (g_partitions g1). rewrite set_same, (H g1 g2 HL).
  destruct HL as (_ & _ & -> & _). rewrite set_same. auto.
Qed.
Lemma par_lift {E A} (o : outcome E A) : par (@lift gdisk E A o).
Proof. apply (par_query (fun _ => o)). reflexivity. Qed.
Lemma par_ret {E A} (a : A) : par (@ret gdisk E A a).
Proof. apply (par_query (fun _ => Ok a)). reflexivity. Qed.
Lemma par_throw {E A} (e : E) : par (@throw gdisk E A e).
Proof. apply (par_query (fun _ => Err e)). reflexivity. Qed.
Lemma look_free {E} oc g1 g2 : look g1 g2 -> @find_free_sectors E oc g1 = find_free_sectors oc g2.
Proof.
  intros (_ & _ & C & x1 & x2 & T1 & T2 & F & L & _). unfold find_free_sectors, the_header. rewrite T1, T2, C. cbn [obind].
  rewrite F, L. reflexivity.
Qed.
Lemma look_next {E} g1 g2 : look g1 g2 -> @find_next_partition_id E g1 = find_next_partition_id g2.
Proof.
  intros (_ & _ & C & x1 & x2 & T1 & T2 & _ & _ & F). unfold find_next_partition_id, the_header. rewrite T1, T2, C. cbn [obind]. rewrite F. reflexivity.
Qed.
Lemma par_tail oc id p : par (let* changes := check_count id in insert_partition oc id p changes).
Proof.
  intros g1 g2 (A & B & C & x1 & x2 & T1 & T2 & _ & _ & F). unfold bind, check_count, the_header.
  rewrite T1, T2, <- A. cbn [obind]. assert (W : num_parts_would_change x1 id = num_parts_would_change x2 id).
  { unfold num_parts_would_change. rewrite F. reflexivity. }
  rewrite W, B. destruct (num_parts_would_change x2 id); cbn [andb negb].
  - exists (Err GPartitionCountWouldChange), (g_partitions g1). rewrite set_same, C, set_same. auto.
  - exists (Ok id), (pm_insert id p (g_partitions g1)). unfold insert_partition, bind. cbn. rewrite C. auto.
Qed.
Lemma par_sections oc nm n ty fl al rnd secs : par (add_in_sections oc nm n ty fl al rnd secs).
Proof.
  induction secs as [|(s, len) secs IH]; cbn [add_in_sections]; [apply par_throw|].
  apply par_bind; [apply par_lift|]. intros off. apply par_bind; [apply par_lift|]. intros need.
  destruct (need <=? len); [|exact IH]. apply par_bind; [apply par_lift|]. intros start.
  apply par_bind; [apply par_query; intros; apply look_next; auto|]. intros next.
  apply par_bind.
  - destruct next; [apply par_ret|]. apply (par_query (fun g => let? h := the_header g in addw oc 32 (num_parts h) 1)).
    intros g1 g2 (_ & _ & _ & x1 & x2 & T1 & T2 & _ & _ & F). unfold the_header. rewrite T1, T2. cbn [obind]. rewrite F. reflexivity.
  - intros id. apply par_bind; [apply par_lift|]. intros e. apply par_bind; [apply par_lift|]. intros last. apply par_tail.
Qed.
Lemma par_at oc nm id first n ty fl rnd secs : par (add_at_in_sections oc nm id first n ty fl rnd secs).
Proof.
  induction secs as [|(s, len) secs IH]; cbn [add_at_in_sections]; [apply par_throw|].
  destruct (negb _); [exact IH|]. apply par_bind; [apply par_lift|]. intros e. apply par_bind; [apply par_lift|].
  intros last. apply par_tail.
Qed.
Lemma par_add oc nm size ty fl al rnd : par (add_partition oc nm size ty fl al rnd).
Proof.
  intros g1 g2 HL. unfold add_partition. destruct (size =? 0).
  - exists Panic, (g_partitions g1). destruct HL as (_ & _ & C & _). rewrite set_same, C, set_same. auto.
  - destruct HL as (A & HL). cbn zeta. rewrite <- A.
    apply (par_bind (fun g => (find_free_sectors oc g, g))); [|intros; apply par_sections|split; auto].
    apply par_query. intros; apply look_free; auto.
Qed.
Lemma par_add_at oc nm id first n ty fl rnd : par (add_partition_at oc nm id first n ty fl rnd).
Proof.
  intros g1 g2 HL. pose proof HL as (_ & _ & C & _).
  assert (S : forall r : outcome gpt_err N, exists r' t, (r, g1) = (r', set_partitions t g1) /\ (r, g2) = (r', set_partitions t g2)).
  { intros r. exists r, (g_partitions g1). rewrite set_same, C, set_same. auto. }
  unfold add_partition_at. rewrite <- C. destruct (n =? 0); [apply S|]. destruct (id =? 0); [apply S|].
  destruct (match pm_get id (g_partitions g1) with Some p => is_used p | None => false end); [apply S|].
  apply (par_bind (fun g => (find_free_sectors oc g, g))); [|intros; apply par_at|exact HL].
  apply par_query. intros; apply look_free; auto.
Qed.

(** * Both runs side by side *)
Definition area (cfg : config) (h : header) (i : N) : Prop :=
  primary_area (c_lb cfg) h i \/ (c_readonly_backup cfg = false /\ backup_area (c_lb cfg) h i).
(** The headers of both, seen from a common origin [h]. *)
Definition like (lb : lbsize) (len : N) (h x : header) : Prop :=
  sane lb len x /\ blba x = blba h /\ num_parts x = num_parts h /\ last_usable x + ablocks (num_parts x) 128 lb + 1 = blba x.
Record beside (cfg : config) (h : header) (l : list byte) (g1 g2 : gdisk) : Prop := mkBeside {
  bs_config : g_config g1 = cfg /\ g_config g2 = cfg;
  bs_memory : g_partitions g1 = g_partitions g2 /\ g_guid g1 = g_guid g2 /\ wf_uuid (g_guid g1) /\ g_sync g1 = g_sync g2;
  bs_headers : exists x1 x2, try_header g1 = Ok x1 /\ try_header g2 = Ok x2 /\
    like (c_lb cfg) (lenN l) h x1 /\ like (c_lb cfg) (lenN l) h x2 /\
    first_usable x1 = first_usable x2 /\ disk_guid x1 = disk_guid x2;
  bs_first : healthy (g_device g1) /\ agree_off (area cfg h) (data (g_device g1)) l;
  bs_second : healthy (g_device g2) /\ data (g_device g2) = l
}.
Lemma beside_look cfg h l g1 g2 : c_change_partition_count cfg = false -> beside cfg h l g1 g2 -> look g1 g2.
Proof.
  intros HC [(C1 & C2) (M & _) (x1 & x2 & T1 & T2 & (S1 & A1 & B1 & L1) & (S2 & A2 & B2 & L2) & F & _) _ _].
  split; [congruence|]. split; [congruence|]. split; [exact M|]. exists x1, x2. repeat split; auto; [|congruence].
  rewrite A1, B1 in L1. rewrite A2, B2 in L2. lia.
Qed.
Lemma beside_set cfg h l g1 g2 t : beside cfg h l g1 g2 -> beside cfg h l (set_partitions t g1) (set_partitions t g2).
Proof. intros [A (M & U) B C D]. constructor; auto. Qed.
(** Saving the first one. *)
Lemma beside_save oc cfg h l fs g1 g2 g1' : beside cfg h l g1 g2 -> lenN l < modulus 64 ->
  act_step oc (Save fs) g1 = Some g1' -> beside cfg h l g1' g2.
Proof.
  intros [(C1 & C2) (M1 & M2 & M3 & M4) (x1 & x2 & T1 & T2 & (S1 & A1 & B1 & L1) & X2 & F & G) (D1 & D2) D3] H64 E.
  cbn [act_step] in E. set (g := set_device (with_faults fs (g_device g1)) g1) in E.
  assert (LE : dev_len (g_device g) = lenN l) by (apply D2).
  assert (SG : sane (c_lb (g_config g)) (dev_len (g_device g)) x1) by (rewrite LE; cbn; rewrite C1; exact S1).
  assert (TG : try_header g = Ok x1) by exact T1.
  destruct (write_inplace_header oc g x1 TG) as (y & TY & (SY & Y1 & Y2 & Y3 & Y4 & Y5)); [rewrite LE; exact H64|exact SG|].
  pose proof (write_inplace_frame oc g x1 TG) as (FL & FR); [rewrite LE; exact H64|exact SG|].
  pose proof (wo_write oc g) as (W1 & W2 & W3 & W4).
  destruct (write_inplace oc g) as [r g'] eqn:EW. cbn [snd] in *.
  assert (E' : Some (set_device (repaired (g_device g')) g') = Some g1') by (destruct r; [exact E|exact E|discriminate]).
  injection E' as <-. rewrite LE in SY. cbn [g set_device g_config g_partitions g_guid g_sync] in *.
  constructor; cbn [set_device g_config g_partitions g_guid g_sync g_device].
  - split; congruence.
  - repeat split; try congruence.
  - exists y, x2. split; [exact TY|]. split; [exact T2|]. rewrite C1 in SY. split; [|split; [exact X2|split; congruence]].
    split; [exact SY|]. split; [congruence|]. split; [congruence|].
    pose proof (s_lu _ _ _ SY). rewrite Y4, Y1 in *. lia.
  - split; [reflexivity|]. cbn [repaired with_faults data]. destruct D2 as (D2 & D4).
    split; [rewrite FL; exact D2|]. intros i Hi. rewrite FR; [apply D4, Hi|].
    intros HR. apply Hi. rewrite C1 in HR. unfold area. destruct HR as [HR|(HR & HB)]; [left|right; split; [exact HR|]].
    + unfold primary_area in *. rewrite <- B1. exact HR.
    + unfold backup_area in *. rewrite <- B1, <- A1. exact HB.
  - exact D3.
Qed.
(** Editing both. *)
Definition both (cfg : config) (h : header) (l : list byte) (o1 o2 : option gdisk) : Prop :=
  match o1, o2 with
  | Some g1, Some g2 => beside cfg h l g1 g2
  | None, None => True
  | _, _ => False
  end.
Lemma beside_par {A} cfg h l g1 g2 (m : M gdisk gpt_err A) : c_change_partition_count cfg = false ->
  par m -> beside cfg h l g1 g2 -> both cfg h l (kept (m g1)) (kept (m g2)).
Proof.
  intros HC HP B. destruct (HP g1 g2 (beside_look _ _ _ _ _ HC B)) as (r & t & E1 & E2). rewrite E1, E2.
  destruct r as [a|e|]; cbn [kept both]; auto using beside_set.
Qed.
Lemma update_one oc pp cfg h len g x n : good_dev (g_device g) -> lenN (data (g_device g)) = len -> try_header g = Ok x ->
  g_config g = cfg -> c_change_partition_count cfg = false -> like (c_lb cfg) len h x -> wf_uuid (g_guid g) ->
  num_parts h <= 128 -> blba h = last_block (c_lb cfg) (g_device g) -> pm_get 0 pp = None ->
  n = lenN pp mod modulus 32 ->
  (num_parts_would_change x n = true -> update_partitions oc pp g = (Err GPartitionCountWouldChange, g)) /\
  (num_parts_would_change x n = false ->
   update_partitions oc pp g = (Ok tt, reinit (set_partitions pp g) 128 (blba h) (first_usable x) (last_usable x)) /\
   like (c_lb cfg) len h (built (g_guid g) 128 (blba h) (first_usable x) (last_usable x) true)).
Proof.
  intros HG HL HT EC HC (S & A & B & C) GO N128 EB Z En. subst cfg.
  assert (U : update_partitions oc pp g =
    if num_parts_would_change x n then (Err GPartitionCountWouldChange, g) else init_headers oc (set_partitions pp g)).
  { unfold update_partitions. rewrite Z. unfold bind at 1. cbn [ret]. unfold bind, check_count, the_header.
    rewrite HT. cbn [obind]. rewrite <- En, HC. destruct (num_parts_would_change x n); reflexivity. }
  split; intros W; rewrite U, W; [reflexivity|].
  assert (NP : num_parts x = 128 /\ n <= 128).
  { destruct (num_parts_would_change x n) eqn:W'; [discriminate|].
    assert (~ num_parts x < N.max n 128); [|lia]. intros X.
    assert (num_parts_would_change x n = true) by (apply would_change_iff; lia). congruence. }
  destruct NP as (NP & Nn).
  assert (NE : next_count (set_partitions pp g) = 128).
  { unfold next_count. cbn [set_partitions g_partitions]. rewrite <- En. unfold MIN_NUM_PARTS. lia. }
  assert (S' : sane (c_lb (g_config g)) (dev_len (g_device g)) x) by (unfold dev_len; rewrite HL; exact S).
  pose proof (init_layout oc (set_partitions pp g) x HG HT S' GO) as I. cbn zeta in I. rewrite NE in I.
  cbn [set_partitions g_config g_device g_guid] in I. rewrite <- EB in I. rewrite NP in C.
  destruct S as [S1 S2 S3 S4 S5 S6 S7 S8]. rewrite NP in S5, S6, S7. rewrite A in S6, S7, S8, C.
  set (t := ablocks 128 128 (c_lb (g_config g))) in *. set (b := blba h) in *.
  rewrite (N.max_l (first_usable x)) in I by lia. rewrite (N.max_l (last_usable x)) in I by lia.
  destruct I as (I1 & I2); [reflexivity|lia|lia|]. split; [exact I1|].
  assert (B2 : 1 < b) by lia. specialize (I2 ltac:(lia)). unfold dev_len in I2. rewrite HL in I2. split; [exact I2|].
  assert (BB : blba (built (g_guid g) 128 b (first_usable x) (last_usable x) true) = b).
  { unfold blba at 1. cbn. replace (1 <? b) with true by (symmetry; apply N.ltb_lt; lia). reflexivity. }
  rewrite BB. cbn [built num_parts last_usable]. repeat split; [congruence|lia].
Qed.
Lemma beside_edit oc cfg h l o g1 g2 : c_change_partition_count cfg = false -> lenN l < modulus 64 ->
  (num_parts h <= 128 /\ blba h = lenN l / lb_u64 (c_lb cfg) - 1) \/ (forall pp, o <> OpUpdatePartitions pp) ->
  edit_ok o -> beside cfg h l g1 g2 -> both cfg h l (step oc o g1) (step oc o g2).
Proof.
  intros HC H64 HU HE B. destruct o; cbn [step edit_ok] in *; try contradiction.
  - apply beside_par; auto. apply par_add.
  - apply beside_par; auto. apply par_add_at.
  - cbn [both]. pose proof (bs_memory _ _ _ _ _ B) as (M & _).
    unfold remove_partition. rewrite <- M. destruct (pm_get id (g_partitions g1)); [apply beside_set|]; exact B.
  - cbn [both]. pose proof (bs_memory _ _ _ _ _ B) as (M & _).
    unfold remove_partition_by_guid. rewrite <- M. destruct (find _ _) as [[k p]|]; [apply beside_set|]; exact B.
  - cbn [both]. apply beside_set, B.
  - cbn [both]. destruct B as [A (M1 & M2 & M3 & M4) B C D]. constructor; auto.
  - destruct HU as [(HU & EB)|HU]; [|exfalso; eapply HU; reflexivity].
    destruct B as [(C1 & C2) (M1 & M2 & M3 & M4) (x1 & x2 & T1 & T2 & X1 & X2 & F & G) (D1 & D2 & D3) (D4 & D5)].
    destruct (pm_get 0 pp) eqn:Z.
    { unfold update_partitions. rewrite Z. exact I. }
    assert (L1 : lenN (data (g_device g1)) = lenN l) by exact D2.
    assert (L2 : lenN (data (g_device g2)) = lenN l) by (rewrite D5; reflexivity).
    pose proof X1 as (_ & _ & N1 & LU1). pose proof X2 as (_ & _ & N2 & LU2).
    destruct (update_one oc pp cfg h (lenN l) g1 x1 (lenN pp mod modulus 32)) as (A1 & B1); auto.
    { split; [exact D1|]. unfold dev_len. rewrite L1. exact H64. }
    { unfold last_block, dev_len. rewrite L1. exact EB. }
    destruct (update_one oc pp cfg h (lenN l) g2 x2 (lenN pp mod modulus 32)) as (A2 & B2); auto.
    { split; [exact D4|]. unfold dev_len. rewrite L2. exact H64. }
    { rewrite <- M2. exact M3. }
    { unfold last_block, dev_len. rewrite L2. exact EB. }
    assert (W : num_parts_would_change x1 (lenN pp mod modulus 32) = num_parts_would_change x2 (lenN pp mod modulus 32)).
    { unfold num_parts_would_change. rewrite N1, N2. reflexivity. }
    destruct (num_parts_would_change x2 (lenN pp mod modulus 32)).
    + rewrite (A1 W), (A2 eq_refl). cbn [kept both].
      constructor; [auto|auto| |split; [exact D1|split; auto]|auto].
      exists x1, x2. exact (conj T1 (conj T2 (conj X1 (conj X2 (conj F G))))).
    + destruct (B1 W) as (E1 & K1). destruct (B2 eq_refl) as (E2 & K2). rewrite E1, E2. cbn [kept both].
      pose proof (reinit_fields (set_partitions pp g1) 128 (blba h) (first_usable x1) (last_usable x1)) as (P1 & P2 & P3 & P4).
      pose proof (reinit_fields (set_partitions pp g2) 128 (blba h) (first_usable x2) (last_usable x2)) as (Q1 & Q2 & Q3 & Q4).
      cbn zeta in *.
      assert (Y : forall g, g_sync (reinit (set_partitions pp g) 128 (blba h) (first_usable x1) (last_usable x1)) = g_sync g).
      { intros g. unfold reinit. destruct (c_readonly_backup _); reflexivity. }
      assert (Y' : forall g, g_sync (reinit (set_partitions pp g) 128 (blba h) (first_usable x2) (last_usable x2)) = g_sync g).
      { intros g. unfold reinit. destruct (c_readonly_backup _); reflexivity. }
      constructor; rewrite ?P1, ?P2, ?P3, ?P4, ?Q1, ?Q2, ?Q3, ?Q4, ?Y, ?Y'; cbn [set_partitions g_config g_device g_guid g_partitions g_sync]; auto.
      * exists (built (g_guid g1) 128 (blba h) (first_usable x1) (last_usable x1) true), (built (g_guid g2) 128 (blba h) (first_usable x2) (last_usable x2) true).
        split; [apply header_of_iff, (reinit_header (set_partitions pp g1))|].
        split; [apply header_of_iff, (reinit_header (set_partitions pp g2))|]. split; [exact K1|]. split; [exact K2|].
        split; [exact F|exact M2].
      * split; [exact D1|]. split; auto.
Qed.
Lemma save_calm oc cfg h l fs g1 g2 : beside cfg h l g1 g2 -> lenN l < modulus 64 -> act_step oc (Save fs) g1 <> None.
Proof.
  intros [(C1 & C2) _ (x1 & x2 & T1 & _ & (S1 & _) & _) (D1 & D2 & _) _] H64. cbn [act_step].
  pose proof (write_inplace_calm oc (set_device (with_faults fs (g_device g1)) g1) x1 T1 (s_guid _ _ _ S1)) as X.
  destruct (write_inplace _ _) as [[a|e|] g']; try discriminate. exfalso. apply X; [|reflexivity]. right.
  assert (LE : dev_len (g_device (set_device (with_faults fs (g_device g1)) g1)) = lenN l) by exact D2.
  apply layout_no_overflow; rewrite LE; [|exact H64]. apply layout_ok_iff. cbn [set_device g_config]. rewrite C1. exact S1.
Qed.
Lemma beside_run oc cfg h l acts : c_change_partition_count cfg = false -> lenN l < modulus 64 ->
  (num_parts h <= 128 /\ blba h = lenN l / lb_u64 (c_lb cfg) - 1) \/ Forall (fun a => ~ replaces_table a) acts ->
  Forall act_ok acts -> forall g1 g2, beside cfg h l g1 g2 -> both cfg h l (act_run oc acts g1) (run oc (edits acts) g2).
Proof.
  intros HC H64. induction acts as [|a acts IH]; intros HU HF g1 g2 B; cbn [act_run edits]; [exact B|].
  inversion HF as [|? ? HF1 HF2]; subst.
  assert (HU' : (num_parts h <= 128 /\ blba h = lenN l / lb_u64 (c_lb cfg) - 1) \/ Forall (fun a => ~ replaces_table a) acts).
  { destruct HU as [HU|HU]; [left; exact HU|right; inversion HU; auto]. }
  destruct a as [o|fs].
  - cbn [act_ok act_step run] in *.
    assert (X : both cfg h l (step oc o g1) (step oc o g2)).
    { apply beside_edit; auto.
      destruct HU as [HU|HU]; [left; exact HU|right]. intros pp ->. inversion HU as [|? ? X _]; subst. apply X. exists pp. reflexivity. }
    destruct (step oc o g1), (step oc o g2); cbn [both] in X; [apply IH; auto|contradiction|contradiction|exact I].
  - destruct (act_step oc (Save fs) g1) as [g3|] eqn:ES; [|destruct (save_calm oc cfg h l fs g1 g2 B H64 ES)].
    apply (IH HU' HF2). eapply beside_save; eauto.
Qed.
(** Writing both in the end. *)
Lemma beside_write oc cfg h l g1 g2 : c_writable cfg = true -> lenN l < modulus 64 -> beside cfg h l g1 g2 ->
  lenN (used_list (g_partitions g1)) <= num_parts h ->
  exists w1 w2, write_inplace oc g1 = (Ok tt, w1) /\ write_inplace oc g2 = (Ok tt, w2) /\
    data (g_device w1) = data (g_device w2) /\ g_primary w1 = g_primary w2 /\ g_partitions w1 = g_partitions w2 /\
    g_guid w1 = g_guid w2 /\ g_config w1 = g_config w2.
Proof.
  intros HW H64 [(C1 & C2) (M1 & M2 & M3 & M4) (x1 & x2 & T1 & T2 & (S1 & A1 & B1 & L1) & (S2 & A2 & B2 & L2) & F & G) (D1 & D2) (D3 & D4)] HU.
  assert (LE1 : dev_len (g_device g1) = lenN l) by apply D2.
  assert (LE2 : dev_len (g_device g2) = lenN l) by (unfold dev_len; rewrite D4; reflexivity).
  assert (EQ : equiv (c_lb cfg) (lenN l) x2 x1).
  { split; [exact S1|]. rewrite B1, A1 in L1. rewrite B2, A2 in L2. repeat split; try congruence. lia. }
  destruct (write_any oc g1 x1) as (w1 & W1 & I1 & P1 & (V1 & V2 & V3 & V4) & _); auto.
  { rewrite C1. exact HW. } { split; [exact D1|rewrite LE1; exact H64]. } { rewrite LE1, C1. exact S1. } { rewrite B1. exact HU. }
  destruct (write_any oc g2 x2) as (w2 & W2 & I2 & P2 & (U1 & U2 & U3 & U4) & _); auto.
  { rewrite C2. exact HW. } { split; [exact D3|rewrite LE2; exact H64]. } { rewrite LE2, C2. exact S2. } { rewrite B2, <- M1. exact HU. }
  exists w1, w2. split; [exact W1|]. split; [exact W2|]. cbn zeta in *.
  destruct (image_equiv _ _ _ _ (used_list (g_partitions g1)) (data (g_device g1)) EQ) as (J1 & J2 & J3).
  split; [|repeat split; try congruence].
  - rewrite I1, I2, <- M1, C1, C2, D4. transitivity (image_for cfg x2 (used_list (g_partitions g1)) (data (g_device g1))).
    + unfold image_for. destruct (c_readonly_backup cfg); assumption.
    + apply image_for_agree.
      * destruct D2 as (D2 & _). rewrite D2. exact S2.
      * rewrite B2. exact HU.
      * destruct D2 as (D2 & D5). split; [exact D2|]. intros i Hi. apply D5. intros [X|(X & Y)]; apply Hi.
        -- left. unfold primary_area in *. rewrite B2. exact X.
        -- right. split; [exact X|]. unfold backup_area in *. rewrite B2, A2. exact Y.
  - rewrite P1, P2, <- M1, J3, C1, C2. f_equal. f_equal. apply new_primary_ext; congruence.
Qed.
