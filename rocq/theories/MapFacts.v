(** MapFacts.v - partition tables as maps listed in the order of their ids. *)
From Verif Require Export AcceptFacts.
Open Scope list_scope.
Open Scope N_scope.

Lemma map_ok_nil : map_ok [].
Proof. constructor. Qed.
Lemma map_ok_cons k p m : map_ok ((k, p) :: m) <-> map_ok m /\ Forall (fun x => k < fst x) m.
Proof.
  unfold map_ok. cbn [map fst]. split.
  - intros H. inversion H as [|a l S F]; subst. split; [exact S|]. rewrite Forall_map in F. exact F.
  - intros (S & F). constructor; [exact S|]. rewrite Forall_map. exact F.
Qed.
Lemma has_fun m : map_ok m -> forall k p q, has m k p -> has m k q -> p = q.
Proof.
  induction m as [|[k' p'] m IH]; intros H k p q; [intros []|].
  apply map_ok_cons in H. destruct H as (H & F). rewrite Forall_forall in F.
  intros [A|A] [B|B]; try (injection A as -> ->); try (injection B as <-); eauto.
  - apply F in B. cbn in B. lia.
  - apply F in A. cbn in A. lia.
Qed.
Lemma pmap_ext m : map_ok m -> forall m', map_ok m' -> (forall k p, has m k p <-> has m' k p) -> m = m'.
Proof.
  induction m as [|[k p] m IH]; intros H m' H' X.
  - destruct m' as [|[k' p'] m']; auto. exfalso. apply (X k' p'). left. reflexivity.
  - destruct m' as [|[k' p'] m']; [exfalso; apply (X k p); left; reflexivity|].
    apply map_ok_cons in H. destruct H as (H & F). apply map_ok_cons in H'. destruct H' as (H' & F').
    rewrite Forall_forall in F, F'.
    assert (E : (k, p) = (k', p')).
    { destruct (proj1 (X k p)) as [A|A]; [left; reflexivity|congruence|].
      destruct (proj2 (X k' p')) as [B|B]; [left; reflexivity|congruence|].
      apply F' in A. apply F in B. cbn in A, B. lia. }
    injection E as <- <-. f_equal. apply IH; auto. intros j q. split; intros A.
    + destruct (proj1 (X j q)) as [B|B]; [right; exact A| |exact B].
      injection B as <- <-. apply F in A. cbn in A. lia.
    + destruct (proj2 (X j q)) as [B|B]; [right; exact A| |exact B].
      injection B as <- <-. apply F' in A. cbn in A. lia.
Qed.
Lemma pm_get_some m : map_ok m -> forall k p, pm_get k m = Some p <-> has m k p.
Proof.
  induction m as [|[k' p'] m IH]; intros H k p; [split; [discriminate|intros []]|].
  apply map_ok_cons in H. destruct H as (H & F). rewrite Forall_forall in F. cbn [pm_get].
  destruct (N.eqb_spec k k') as [->|NE].
  - split; [intros E; injection E as ->; left; reflexivity|].
    intros [E|E]; [congruence|]. apply F in E. cbn in E. lia.
  - rewrite IH by exact H. split; [intros A; right; exact A|]. intros [E|E]; [congruence|exact E].
Qed.
Lemma pm_get_none m : map_ok m -> forall k, pm_get k m = None <-> forall p, ~ has m k p.
Proof.
  intros H k. split.
  - intros E p A. apply (pm_get_some m H) in A. congruence.
  - intros A. destruct (pm_get k m) as [p|] eqn:E; [|reflexivity]. apply (pm_get_some m H) in E. destruct (A p E).
Qed.
Lemma has_insert m : map_ok m -> forall k p j q,
  has (pm_insert k p m) j q <-> (j = k /\ q = p) \/ (j <> k /\ has m j q).
Proof.
  induction m as [|[k' p'] m IH]; intros H k p j q; cbn [pm_insert].
  - unfold has. cbn [In]. split; [intros [E|[]]; injection E; auto|]. intros [(-> & ->)|(_ & [])]; auto.
  - apply map_ok_cons in H. destruct H as (H & F). rewrite Forall_forall in F.
    destruct (N.ltb_spec k k') as [L|L]; [|destruct (N.eqb_spec k k') as [->|NE]]; unfold has in *; cbn [In].
    + split.
      * intros [E|[E|E]]; [injection E; auto|injection E as <- <-; right; split; [lia|auto]|].
        right. split; [|auto]. apply F in E. cbn in E. lia.
      * intros [(-> & ->)|(_ & E)]; auto.
    + split.
      * intros [E|E]; [injection E; auto|]. right. split; [|auto]. apply F in E. cbn in E. lia.
      * intros [(-> & ->)|(N & [E|E])]; auto. congruence.
    + rewrite IH by exact H. split.
      * intros [E|[E|(N & E)]]; auto. injection E as <- <-. right. split; [lia|auto].
      * intros [E|(N & [E|E])]; auto.
Qed.
Lemma insert_ids k p m : Forall (fun x => In x (k :: map fst m)) (map fst (pm_insert k p m)).
Proof.
  apply Forall_forall. induction m as [|[k' p'] m IH]; cbn [pm_insert]; [intros x [<-|[]]; left; reflexivity|].
  destruct (k <? k'); [|destruct (N.eqb_spec k k') as [->|NE]]; cbn [map fst In] in *; intros x.
  - tauto.
  - tauto.
  - intros [<-|H]; auto. specialize (IH _ H). tauto.
Qed.
Lemma map_ok_insert m : map_ok m -> forall k p, map_ok (pm_insert k p m).
Proof.
  induction m as [|[k' p'] m IH]; intros H k p; cbn [pm_insert]; [repeat constructor|].
  assert (H0 := H). apply map_ok_cons in H. destruct H as (H & F).
  destruct (N.ltb_spec k k') as [L|L]; [|destruct (N.eqb_spec k k') as [->|NE]].
  - apply map_ok_cons. split; [exact H0|]. constructor; [exact L|]. eapply Forall_impl; [|exact F].
    intros x. cbn beta. lia.
  - apply map_ok_cons. split; assumption.
  - apply map_ok_cons. split; [apply IH; exact H|]. pose proof (insert_ids k p m) as I.
    rewrite Forall_forall in *. intros x Hx. pose proof (I (fst x)) as J.
    destruct J as [J|J]; [apply in_map; exact Hx|lia|].
    apply in_map_iff in J. destruct J as (y & E & J). rewrite <- E. apply F; exact J.
Qed.
Lemma has_remove m : map_ok m -> forall k j q, has (pm_remove k m) j q <-> j <> k /\ has m j q.
Proof.
  induction m as [|[k' p'] m IH]; intros H k j q; cbn [pm_remove]; [split; [intros []|intros (_ & [])]|].
  apply map_ok_cons in H. destruct H as (H & F). rewrite Forall_forall in F.
  destruct (N.eqb_spec k k') as [->|NE]; unfold has in *; cbn [In].
  - split; [intros A; split; [|auto]; apply F in A; cbn in A; lia|]. intros (N & [E|E]); [congruence|exact E].
  - rewrite IH by exact H. split.
    + intros [E|(N & E)]; [injection E as <- <-; split; [congruence|auto]|auto].
    + intros (N & [E|E]); auto.
Qed.
Lemma map_ok_remove m : map_ok m -> forall k, map_ok (pm_remove k m).
Proof.
  induction m as [|[k' p'] m IH]; intros H k; cbn [pm_remove]; [exact H|].
  apply map_ok_cons in H. destruct H as (H & F). destruct (k =? k'); [exact H|].
  apply map_ok_cons. split; [apply IH; exact H|]. rewrite Forall_forall in *. intros [j q] A.
  apply (has_remove m H) in A. apply F. apply A.
Qed.

(** * Tables read from a device *)
Lemma table_parts_ok n : forall i tbl, map_ok (table_parts n i tbl) /\ Forall (fun x => i < fst x) (table_parts n i tbl).
Proof.
  induction n as [|n IH]; intros i tbl; cbn [table_parts]; [split; constructor|].
  destruct (IH (i + 1) (skipn 128 tbl)) as (A & B).
  assert (B' : Forall (fun x => i < fst x) (table_parts n (i + 1) (skipn 128 tbl))).
  { eapply Forall_impl; [|exact B]. intros x. cbn beta. lia. }
  destruct (bytes_eqb _ _); [split; assumption|].
  destruct (fst (parse_entry (firstn 128 tbl))); try (split; assumption).
  split; [apply map_ok_cons; split; assumption|constructor; [cbn; lia|exact B']].
Qed.
Lemma read_parts_spec h lb l : part_size h = 128 -> lenN l < modulus 64 ->
  match read_parts_at h lb l with
  | Ok m => array_intact lb h l /\ table_read lb h l m
  | Err _ => ~ array_intact lb h l
  | Panic => False
  end.
Proof.
  intros HP HL. unfold read_parts_at, array_intact, table_read, array_at, array_len. rewrite HP.
  rewrite <- two64.
  destruct (N.leb_spec (modulus 64) (part_start h * lb_u64 lb)) as [X|X]; [lia|].
  destruct (N.leb_spec (part_start h * lb_u64 lb + num_parts h * 128) (lenN l)) as [Y|Y].
  - unfold parts_of, table_of. rewrite HP.
    destruct (N.eqb_spec (crc32 (slice (part_start h * lb_u64 lb) (num_parts h * 128) l)) (crc32_parts h)) as [Z|Z].
    + split; [auto|]. split; [apply table_parts_ok|]. intros k p. apply table_parts_has.
      rewrite slice_length by lia. lia.
    + intros (_ & _ & A). auto.
  - destruct (N.eqb_spec (num_parts h) 0) as [Z|Z].
    + rewrite Z. rewrite N.mul_0_l. change (range (part_start h * lb_u64 lb) 0 l) with (@nil byte).
      change (crc32 []) with 0. destruct (N.eqb_spec 0 (crc32_parts h)) as [W|W].
      * split; [auto|]. split; [constructor|]. intros k p. split; [intros []|]. intros (? & _). lia.
      * intros (_ & _ & A). auto.
    + intros (_ & [A|A] & _); lia.
Qed.
Lemma table_read_fun lb h l m m' : table_read lb h l m -> table_read lb h l m' -> m = m'.
Proof.
  intros (A & B) (C & D). apply pmap_ext; auto. intros k p. rewrite B, D. reflexivity.
Qed.
Lemma backup_header_spec lb d : backup_header_at lb d (read_backup_at lb d).
Proof.
  unfold backup_header_at, read_backup_at, dev_len. split; intros H.
  - replace (lenN (data d) <? lb_u64 lb * 3) with false by (symmetry; apply N.ltb_ge; lia).
    apply read_header_at_spec.
  - replace (lenN (data d) <? lb_u64 lb * 3) with true by (symmetry; apply N.ltb_lt; lia). reflexivity.
Qed.
Lemma backup_header_fun lb d r r' : backup_header_at lb d r -> backup_header_at lb d r' -> r = r'.
Proof.
  intros (A & B) (C & D). destruct (N.le_gt_cases (3 * lb_u64 lb) (lenN (data d))) as [H|H].
  - eapply header_at_fun; eauto.
  - rewrite B, D; auto.
Qed.

(** * Opening *)
Lemma open_with_header oc cfg d h r1 r2 : fault_free d -> addressable d ->
  header_at (data d) (lb_u64 (c_lb cfg)) r1 -> backup_header_at (c_lb cfg) d r2 ->
  select cfg r1 r2 = Ok h -> part_size h = 128 -> countable oc h (data d) ->
  opened_with cfg d r1 r2 h (fst (open_from_device oc cfg d)).
Proof.
  intros F A H1 H2 S P Hn. rewrite addressable_iff in A. rewrite countable_iff in Hn.
  pose proof (header_at_fun _ _ _ _ H1 (read_header_at_spec (lb_u64 (c_lb cfg)) (data d))).
  pose proof (backup_header_fun _ _ _ _ H2 (backup_header_spec (c_lb cfg) d)). subst r1 r2.
  destruct (open_ok_128 oc cfg d h F A S P Hn) as (q & ->). cbn [fst].
  pose proof (read_parts_spec h (c_lb cfg) (data d) P A) as R.
  destruct (read_parts_at h (c_lb cfg) (data d)) as [m|e|]; [|exact R|exact R].
  destruct R as (R1 & R2). unfold opened_with. cbn [g_config g_guid g_primary g_backup g_device g_sync g_partitions].
  split; [exact R1|]. split; [exact R2|]. repeat split; auto.
Qed.
