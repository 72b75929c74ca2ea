(** Props_Wrap.v - property C106: free space and placements without overflow checks, for any header and any table. *)
From Coq Require Import Sorting.Permutation.
From Verif Require Import SpecWrap PanicFacts QueryFacts Props_Alloc Props_Query Samples.
Open Scope list_scope.
Open Scope N_scope.

Lemma addw_release {E} a b : @addw E false 64 a b = Ok ((a + b) mod 2 ^ 64).
Proof. unfold addw. rewrite <- two64. destruct (N.ltb_spec (a + b) (modulus 64)) as [H|H]; [|reflexivity]. rewrite N.mod_small by exact H. reflexivity. Qed.
Lemma subw_release {E} a b : a < 2 ^ 64 -> b <= 2 ^ 64 -> @subw E false 64 a b = Ok ((a + (2 ^ 64 - b)) mod 2 ^ 64).
Proof.
  intros HA HB. unfold subw. rewrite <- two64 in *. destruct (N.leb_spec b a) as [H|H].
  - replace (a + (modulus 64 - b)) with (a - b + 1 * modulus 64) by lia. rewrite N.mod_add by lia. rewrite N.mod_small by lia. reflexivity.
  - replace (a + modulus 64 - b) with (a + (modulus 64 - b)) by lia. reflexivity.
Qed.
Lemma chunks_release {E} n : forall l, length l = (2 * n)%nat -> StronglySorted N.le l -> Forall (fun x => x < 2 ^ 64) l ->
  exists secs, @free_chunks E false l = Ok secs /\ pairs_report l secs.
Proof.
  induction n as [|n IH]; intros l L S F.
  - destruct l; [|discriminate]. exists []. split; [reflexivity|constructor].
  - destruct l as [|a [|b r]]; [discriminate|cbn in L; lia|].
    destruct (sorted_chunk _ _ _ S) as (AB & SR & FB & FA).
    inversion F as [|y l F1 F2]; subst. inversion F2 as [|y l F3 F4]; subst.
    destruct (IH r) as (secs & E1 & G1); [cbn in L; lia|exact SR|exact F4|].
    cbn [free_chunks]. rewrite addw_release. cbn [obind]. rewrite subw_release by lia. cbn [obind].
    destruct (N.eq_dec a (2 ^ 64 - 1)) as [EA|NA].
    { assert (EB : b = 2 ^ 64 - 1) by lia. subst a b. change ((2 ^ 64 - 1 + 1) mod 2 ^ 64) with 0.
      change ((2 ^ 64 - 1 + (2 ^ 64 - 1)) mod 2 ^ 64) with (2 ^ 64 - 2). change (0 <=? 2 ^ 64 - 2) with true. cbv iota.
      rewrite subw_release by lia. cbn [obind]. rewrite addw_release. cbn [obind]. rewrite E1. cbn [obind].
      eexists. split; [reflexivity|]. change ((((2 ^ 64 - 2 + (2 ^ 64 - 0)) mod 2 ^ 64 + 1) mod 2 ^ 64)) with (2 ^ 64 - 1).
      apply (pairs_pair _ _ _ [_]); [apply pair_tops|exact G1]. }
    rewrite (N.mod_small (a + 1)) by lia.
    destruct (N.eq_dec b 0) as [EB|NB].
    { assert (EA : a = 0) by lia. subst a b. change ((0 + (2 ^ 64 - 1)) mod 2 ^ 64) with (2 ^ 64 - 1).
      change (0 + 1 <=? 2 ^ 64 - 1) with true. cbv iota.
      rewrite subw_release by lia. cbn [obind]. rewrite addw_release. cbn [obind]. rewrite E1. cbn [obind].
      eexists. split; [reflexivity|]. change ((((2 ^ 64 - 1 + (2 ^ 64 - (0 + 1))) mod 2 ^ 64 + 1) mod 2 ^ 64)) with (2 ^ 64 - 1).
      apply (pairs_pair _ _ _ [_]); [apply pair_zeros|exact G1]. }
    replace ((b + (2 ^ 64 - 1)) mod 2 ^ 64) with (b - 1).
    2: { replace (b + (2 ^ 64 - 1)) with (b - 1 + 1 * 2 ^ 64) by lia. rewrite N.mod_add by lia. symmetry. apply N.mod_small. lia. }
    destruct (N.leb_spec (a + 1) (b - 1)) as [D|D].
    + unfold subw. destruct (N.leb_spec (a + 1) (b - 1)); [|lia]. cbn [obind]. rewrite addw_release. cbn [obind]. rewrite E1. cbn [obind].
      rewrite (N.mod_small (b - 1 - (a + 1) + 1)) by lia. eexists. split; [reflexivity|].
      apply (pairs_pair _ _ _ [_]); [|exact G1]. replace (b - 1 - (a + 1) + 1) with (b - a - 1) by lia. apply pair_blocks. lia.
    + exists secs. split; [exact E1|]. apply (pairs_pair _ _ _ []); [|exact G1].
      destruct (N.eq_dec a b) as [->|NE]; [apply pair_same; assumption|apply pair_next; lia].
Qed.
(** C106.  Without overflow checks there is a report for any header and any table: the pairs of neighbouring edges. *)
Theorem C106_report : forall g h, header_of g h -> fields_fit h (g_partitions g) ->
  exists l secs, Permutation (wrapped_edges h (g_partitions g)) l /\ StronglySorted N.le l /\
    @find_free_sectors gpt_err false g = Ok secs /\ pairs_report l secs.
Proof.
  intros g h H (F1 & F2 & F3). unfold find_free_sectors. rewrite (the_header_of g h H). cbn [obind].
  rewrite subw_release by lia. rewrite addw_release. cbn [obind]. rewrite edges_positions.
  fold (wrapped_edges h (g_partitions g)). set (l := wrapped_edges h (g_partitions g)).
  assert (M64 : 2 ^ 64 <> 0) by discriminate.
  assert (FL : Forall (fun x => x < 2 ^ 64) l).
  { unfold l, wrapped_edges. constructor; [apply N.mod_upper_bound, M64|]. apply Forall_app.
    split; [|constructor; [apply N.mod_upper_bound, M64|constructor]].
    apply Forall_forall. intros x I. apply in_flat_map in I. destruct I as (p & Ip & I).
    unfold used_in_order in Ip. apply filter_In in Ip. destruct Ip as (Ip & _). apply in_map_iff in Ip. destruct Ip as ((k, q) & <- & Ip).
    destruct (F3 k q Ip) as (X & Y). cbn in I. destruct I as [<-|[<-|[]]]; assumption. }
  assert (EV : exists n, length l = (2 * n)%nat).
  { destruct (edges_even h (g_partitions g)) as (n & EN). exists n. rewrite <- EN. unfold l, wrapped_edges, edges. cbn [length]. rewrite !app_length. reflexivity. }
  destruct EV as (n & EN). pose proof (sort_perm l) as P.
  destruct (@chunks_release gpt_err n (sort_N l)) as (secs & E1 & G1).
  - rewrite <- (Permutation_length P). exact EN.
  - apply sort_sorted.
  - eapply Permutation_Forall; [exact P|exact FL].
  - exists (sort_N l), secs. split; [exact P|]. split; [apply sort_sorted|]. split; [exact E1|exact G1].
Qed.
Print Assumptions C106_report.
(** There is only one such report. *)
Theorem C106_report_unique : forall l l' s s', Permutation l l' -> StronglySorted N.le l -> StronglySorted N.le l' ->
  pairs_report l s -> pairs_report l' s' -> s = s'.
Proof.
  assert (U : forall l s, pairs_report l s -> forall s', pairs_report l s' -> s = s').
  { induction 1 as [|a b l s r G1 G2 IH]; intros s' H; inversion H; subst; [reflexivity|]. f_equal; [|apply IH; assumption].
    match goal with X : pair_report a b ?t |- _ = ?t => inversion G1; subst; inversion X; subst; try reflexivity; exfalso; try lia; try congruence end. }
  intros l l' s s' P S S' G G'. replace l' with l in G'; [apply (U l s G s' G')|].
  clear - P S S'. revert l' P S'. induction S as [|a l S IH F]; intros l' P S'.
  - apply Permutation_nil in P. congruence.
  - destruct l' as [|b l']; [symmetry in P; apply Permutation_nil in P; discriminate|].
    inversion S' as [|? ? S2 F2]; subst. assert (a = b).
    { assert (I : In a (b :: l')) by (eapply Permutation_in; [exact P|left; reflexivity]).
      assert (J : In b (a :: l)) by (eapply Permutation_in; [symmetry; exact P|left; reflexivity]).
      rewrite Forall_forall in F, F2. destruct I as [I|I]; [congruence|]. destruct J as [J|J]; [congruence|].
      specialize (F _ J). specialize (F2 _ I). cbn in *. lia. }
    subst b. f_equal. apply IH; [|assumption]. apply Permutation_cons_inv in P. exact P.
Qed.
Print Assumptions C106_report_unique.

(** * add_partition *)
(** The rest of [add_partition] once the blocks are chosen. *)
Definition finish_wrap (nm : list N) (ty : ptype) (fl : N) (rnd : uuid) (start last : N) : M gdisk gpt_err N :=
  let* next := (fun g => (find_next_partition_id g, g)) in
  let* id := (match next with
              | Some i => ret i
              | None => fun g => (let? h := the_header g in addw false 32 (num_parts h) 1, g)
              end) in
  let* changes := check_count id in
  insert_partition false id (mkPart ty rnd start last fl nm) changes.
Lemma finish_wrap_ok nm ty fl rnd start last g h id g' : header_of g h ->
  finish_wrap nm ty fl rnd start last g = (Ok id, g') ->
  g_partitions g' = pm_insert id (mkPart ty rnd start last fl nm) (g_partitions g).
Proof.
  intros HH. unfold finish_wrap. unfold bind at 1. destruct (find_next_partition_id g) as [next|e|]; try discriminate.
  unfold bind at 1.
  assert (X : exists o, match next with
      | Some i => ret i
      | None => fun g0 : gdisk => (let? h0 := the_header g0 in @addw gpt_err false 32 (num_parts h0) 1, g0)
      end g = (o, g)).
  { destruct next as [i|]; [exists (Ok i); reflexivity|]. eexists. reflexivity. }
  destruct X as (o & ->). destruct o as [id'|e|]; try discriminate.
  unfold bind at 1, check_count. rewrite (the_header_of g h HH). cbn [obind].
  destruct (num_parts_would_change h id' && negb (c_change_partition_count (g_config g))); [discriminate|].
  intros H. apply insert_partition_ok in H. destruct H as (<- & H1 & _). exact H1.
Qed.
Lemma finish_wrap_not_space nm ty fl rnd start last g : fst (finish_wrap nm ty fl rnd start last g) <> Err GNotEnoughSpace.
Proof.
  unfold finish_wrap. unfold bind at 1. destruct (@find_next_pure gpt_err g) as [(r & ->)| ->]; [|discriminate].
  assert (TL : forall id, fst ((let* changes := check_count id in
     insert_partition false id (mkPart ty rnd start last fl nm) changes) g) <> Err GNotEnoughSpace).
  { intros id. unfold bind, check_count. unfold the_header. destruct (try_header g) as [h|e|]; try discriminate. cbn [obind].
    match goal with |- context [if ?b then _ else _] => destruct b end; [discriminate|]. apply insert_not_space. }
  unfold bind at 1. destruct r as [i|]; [apply TL|].
  unfold the_header at 1. destruct (try_header g) as [h|e|]; try discriminate. cbn [obind]. unfold addw.
  destruct (num_parts h + 1 <? modulus 32); apply TL.
Qed.
Lemma steps_up_unique al s x y : steps_up al s x -> steps_up al s y -> x = y.
Proof. intros (A & B) (C & D). pose proof (B y C). pose proof (D x A). lia. Qed.
Lemma wrap_end x n : ((x mod 2 ^ 64 + n) mod 2 ^ 64 + (2 ^ 64 - 1)) mod 2 ^ 64 = (x + n + (2 ^ 64 - 1)) mod 2 ^ 64.
Proof.
  assert (M64 : 2 ^ 64 <> 0) by discriminate. rewrite (N.add_mod_idemp_l (x mod 2 ^ 64 + n)) by exact M64.
  rewrite <- !N.add_assoc. apply N.add_mod_idemp_l, M64.
Qed.
Lemma add_in_wrap nm n ty fl al rnd g : 1 <= alignment al < 2 ^ 64 -> forall secs,
  (exists before s after off, secs = before ++ s :: after /\ Forall (fun t => ~ taken_to_fit (alignment al) n t) before /\
     steps_up (alignment al) (fst s) off /\ (off + n) mod 2 ^ 64 <= snd s /\
     add_in_sections false nm n ty fl al rnd secs g =
     finish_wrap nm ty fl rnd ((fst s + off) mod 2 ^ 64) ((fst s + off + n + (2 ^ 64 - 1)) mod 2 ^ 64) g) \/
  (Forall (fun t => ~ taken_to_fit (alignment al) n t) secs /\
   add_in_sections false nm n ty fl al rnd secs g = (Err GNotEnoughSpace, g)).
Proof.
  intros HA. induction secs as [|[s len] r IH]; [right; split; [constructor|reflexivity]|].
  destruct (align_up (alignment al) s (proj1 HA)) as (A1 & A2 & A3). set (off := (alignment al - s mod alignment al) mod alignment al) in *.
  assert (SU : steps_up (alignment al) s off).
  { split; [exact A2|]. intros k K. specialize (A3 (s + k)). assert (s + off <= s + k) by (apply A3; [lia|exact K]). lia. }
  assert (A0 : alignment al <> 0) by lia.
  assert (EO : match al with
              | Some a => let? r0 := remw s a in let? s0 := subw false 64 a r0 in remw s0 a
              | None => Ok 0
              end = @Ok gpt_err N off).
  { unfold off. destruct al as [a|]; cbn [alignment] in *.
    - unfold remw at 1. replace (a =? 0) with false by (symmetry; apply N.eqb_neq; lia). cbn [obind].
      pose proof (N.mod_upper_bound s a A0). unfold subw. replace (s mod a <=? a) with true by (symmetry; apply N.leb_le; lia).
      cbn [obind]. unfold remw. replace (a =? 0) with false by (symmetry; apply N.eqb_neq; lia). reflexivity.
    - rewrite !N.mod_1_r. reflexivity. }
  assert (EQ : add_in_sections false nm n ty fl al rnd ((s, len) :: r) g =
    if (off + n) mod 2 ^ 64 <=? len
    then finish_wrap nm ty fl rnd ((s + off) mod 2 ^ 64) ((s + off + n + (2 ^ 64 - 1)) mod 2 ^ 64) g
    else add_in_sections false nm n ty fl al rnd r g).
  { cbn [add_in_sections]. rewrite EO. unfold bind at 1, lift at 1. unfold bind at 1, lift at 1. rewrite addw_release.
    destruct ((off + n) mod 2 ^ 64 <=? len); [|reflexivity].
    unfold bind at 1, lift at 1. rewrite addw_release. unfold finish_wrap.
    apply bind_ext. intros next g1. apply bind_ext. intros id g2.
    unfold bind at 1, lift at 1. rewrite addw_release. unfold bind at 1, lift at 1.
    rewrite subw_release by (try (apply N.mod_upper_bound; discriminate); lia).
    rewrite wrap_end. reflexivity. }
  rewrite EQ. destruct (N.leb_spec ((off + n) mod 2 ^ 64) len) as [L|L].
  - left. exists [], (s, len), r, off. split; [reflexivity|]. split; [constructor|]. split; [exact SU|]. split; [exact L|]. reflexivity.
  - assert (NT : ~ taken_to_fit (alignment al) n (s, len)).
    { intros (k & K1 & K2). cbn [fst snd] in *. rewrite (steps_up_unique _ _ _ _ K1 SU) in K2. lia. }
    destruct IH as [(before & t & after & o & -> & B1 & B2 & B3 & B4)|(B1 & B2)].
    + left. exists ((s, len) :: before), t, after, o. split; [reflexivity|]. split; [constructor; assumption|]. auto.
    + right. split; [constructor; assumption|exact B2].
Qed.
(** Without overflow checks add_partition takes the first section of the report in which, modulo 2^64, the blocks fit; the
    positions are computed modulo 2^64 too.  It fails for want of space exactly if there is no such section. *)
Theorem C106_add : forall nm size ty fl al rnd g h secs, header_of g h -> map_ok (g_partitions g) ->
  let n := blocks_for size (c_lb (g_config g)) in
  1 <= size -> 1 <= alignment al < 2 ^ 64 -> @find_free_sectors gpt_err false g = Ok secs ->
  (forall id g', add_partition false nm size ty fl al rnd g = (Ok id, g') ->
   exists before s after off, secs = before ++ s :: after /\ Forall (fun t => ~ taken_to_fit (alignment al) n t) before /\
     steps_up (alignment al) (fst s) off /\ (off + n) mod 2 ^ 64 <= snd s /\
     placed (g_partitions g) id
       (mkPart ty rnd ((fst s + off) mod 2 ^ 64) ((fst s + off + n + (2 ^ 64 - 1)) mod 2 ^ 64) fl nm) (g_partitions g')) /\
  (fst (add_partition false nm size ty fl al rnd g) = Err GNotEnoughSpace <->
   Forall (fun t => ~ taken_to_fit (alignment al) n t) secs) /\
  (fst (add_partition false nm size ty fl al rnd g) = Err GNotEnoughSpace ->
   snd (add_partition false nm size ty fl al rnd g) = g).
Proof.
  intros nm size ty fl al rnd g h secs HH MO n S1 HA EF.
  assert (EA : add_partition false nm size ty fl al rnd g = add_in_sections false nm n ty fl al rnd secs g).
  { unfold add_partition. replace (size =? 0) with false by (symmetry; apply N.eqb_neq; lia). cbn zeta.
    rewrite (blocks_ceil size _ S1). fold n. unfold bind at 1. rewrite EF. reflexivity. }
  rewrite EA. destruct (add_in_wrap nm n ty fl al rnd g HA secs) as [(before & s & after & off & E1 & B1 & B2 & B3 & B4)|(B1 & B2)].
  - rewrite B4. split; [|split].
    + intros id g' H. exists before, s, after, off. split; [exact E1|]. split; [exact B1|]. split; [exact B2|]. split; [exact B3|].
      apply (finish_wrap_ok _ _ _ _ _ _ _ h) in H; [|exact HH]. rewrite H. apply placed_insert, MO.
    + pose proof (finish_wrap_not_space nm ty fl rnd ((fst s + off) mod 2 ^ 64) ((fst s + off + n + (2 ^ 64 - 1)) mod 2 ^ 64) g) as NS.
      split; [intros X; contradiction|]. intros F. exfalso. subst secs. apply Forall_app in F. destruct F as (_ & F). inversion F as [|? ? F1 _]; subst.
      apply F1. exists off. auto.
    + intros X. destruct (finish_wrap_not_space _ _ _ _ _ _ _ X).
  - rewrite B2. split; [intros id g' H; discriminate|]. cbn [fst snd]. split; [|auto]. split; auto.
Qed.
Print Assumptions C106_add.
(** An alignment of 0 is a division by zero in both builds, unless no free section is reported. *)
Theorem C106_alignment_zero : forall oc nm size ty fl rnd g secs, 1 <= size -> @find_free_sectors gpt_err oc g = Ok secs ->
  add_partition oc nm size ty fl (Some 0) rnd g = (match secs with [] => Err GNotEnoughSpace | _ => Panic end, g).
Proof.
  intros oc nm size ty fl rnd g secs S1 EF. unfold add_partition. replace (size =? 0) with false by (symmetry; apply N.eqb_neq; lia).
  cbn zeta. unfold bind at 1. rewrite EF. destruct secs as [|[s len] r]; reflexivity.
Qed.
Print Assumptions C106_alignment_zero.
(** add_partition_at with blocks that go beyond 2^64: a panic with overflow checks, and without a partition that ends before
    it begins. *)
Theorem C106_at : forall oc nm id first n ty fl rnd g h secs, header_of g h -> map_ok (g_partitions g) ->
  1 <= id <= num_parts h -> 128 <= num_parts h -> ~ is_in_use id (g_partitions g) ->
  first < 2 ^ 64 -> 1 <= n < 2 ^ 64 -> 2 ^ 64 <= first + n -> @find_free_sectors gpt_err oc g = Ok secs ->
  let fits := exists s, In s secs /\ fst s <= first /\ n <= snd s in
  (fits -> if oc then fst (add_partition_at oc nm id first n ty fl rnd g) = Panic
           else exists m', add_partition_at oc nm id first n ty fl rnd g = (Ok id, set_partitions m' g) /\
                  placed (g_partitions g) id (mkPart ty rnd first ((first + n - 1) mod 2 ^ 64) fl nm) m') /\
  (~ fits -> add_partition_at oc nm id first n ty fl rnd g = (Err GNotEnoughSpace, g)).
Proof.
  intros oc nm id first n ty fl rnd g h secs HH MO I1 N128 NU F64 N1 B64 EF fits.
  assert (EQ : add_partition_at oc nm id first n ty fl rnd g =
    if existsb (takes first n) secs then finish_at oc nm id first n ty fl rnd g else (Err GNotEnoughSpace, g)).
  { unfold add_partition_at.
    replace (n =? 0) with false by (symmetry; apply N.eqb_neq; lia).
    replace (id =? 0) with false by (symmetry; apply N.eqb_neq; lia).
    rewrite <- (in_use_get _ _ MO) in NU.
    match goal with |- context [if ?b then _ else _] => destruct b end; [destruct NU; reflexivity|].
    unfold bind. rewrite EF. apply add_at_sections. }
  rewrite EQ. split.
  - intros (s & Hs & L1 & L2).
    assert (X : existsb (takes first n) secs = true).
    { apply existsb_exists. exists s. split; [exact Hs|]. unfold takes. apply andb_true_intro. split; apply N.leb_le; assumption. }
    rewrite X. unfold finish_at. destruct oc.
    + unfold bind at 1, lift at 1. unfold addw. rewrite <- two64 in B64.
      replace (first + n <? modulus 64) with false by (symmetry; apply N.ltb_ge; exact B64). reflexivity.
    + exists (pm_insert id (mkPart ty rnd first ((first + n - 1) mod 2 ^ 64) fl nm) (g_partitions g)). split; [|apply placed_insert, MO].
      unfold bind at 1, lift at 1. rewrite addw_release.
      unfold bind at 1, lift at 1. rewrite subw_release by (try (apply N.mod_upper_bound; discriminate); lia).
      rewrite N.add_mod_idemp_l by discriminate.
      replace ((first + n + (2 ^ 64 - 1)) mod 2 ^ 64) with ((first + n - 1) mod 2 ^ 64).
      2: { replace (first + n + (2 ^ 64 - 1)) with (first + n - 1 + 1 * 2 ^ 64) by lia. rewrite N.mod_add by discriminate. reflexivity. }
      unfold bind at 1, check_count. rewrite (the_header_of g h HH). cbn [obind].
      destruct (num_parts_would_change h id) eqn:W; [apply would_change_iff in W; lia|]. reflexivity.
  - intros NF. destruct (existsb (takes first n) secs) eqn:X; [|reflexivity]. destruct NF.
    apply existsb_exists in X. destruct X as (s & Hs & X). unfold takes in X.
    apply andb_prop in X. destruct X as (X1 & X2). apply N.leb_le in X1, X2. exists s. auto.
Qed.
Print Assumptions C106_at.

(** Usable blocks up to the last 64-bit number, and a partition that ends there. *)
Definition top_header : header := mkHeader EFI_PART 1 0 92 0 0 1 63 34 (2 ^ 64 - 1) sample_guid 2 128 128 0.
Definition top_disk (m : pmap) : gdisk :=
  mkGdisk mini_config (mkDev [] 0 false false [] []) sample_guid (Ok top_header) (Err HInvalidGptSignature) m false.
Definition top_parts : pmap := [(1, part_at (2 ^ 64 - 1) (2 ^ 64 - 1))].
Example C106_report_case : fields_fit top_header top_parts /\
  wrapped_edges top_header top_parts = [33; 2 ^ 64 - 1; 2 ^ 64 - 1; 0] /\
  @find_free_sectors gpt_err true (top_disk top_parts) = Panic /\
  @find_free_sectors gpt_err false (top_disk top_parts) = Ok [(1, 32); (0, 2 ^ 64 - 1)] /\
  pairs_report [0; 33; 2 ^ 64 - 1; 2 ^ 64 - 1] [(1, 32); (0, 2 ^ 64 - 1)].
Proof.
  split; [|split; [vm_compute; reflexivity|split; [vm_compute; reflexivity|split; [vm_compute; reflexivity|]]]].
  - split; [vm_compute; reflexivity|]. split; [vm_compute; reflexivity|]. intros k p [X|[]]. injection X as <- <-. vm_compute. auto.
  - apply (pairs_pair _ _ _ [_] [_]); [apply (pair_blocks 0 33); lia|]. apply (pairs_pair _ _ _ [_] []); [apply pair_tops|apply pairs_nil].
Qed.
Example C106_add_case :
  (* 20 blocks from the section before the usable blocks, then 40 blocks from block 0 on *)
  match add_partition false [] 10240 (mkType linux_fs OsLinux) 0 None sample_guid (top_disk top_parts),
        add_partition false [] 20480 (mkType linux_fs OsLinux) 0 None sample_guid (top_disk top_parts),
        add_partition false [] 512 (mkType linux_fs OsLinux) 0 (Some (2 ^ 64 - 1)) sample_guid (top_disk top_parts) with
  | (Ok a, ga), (Ok b, gb), (Ok c, gc) =>
      has (g_partitions ga) a (mkPart (mkType linux_fs OsLinux) sample_guid 1 20 0 []) /\
      has (g_partitions gb) b (mkPart (mkType linux_fs OsLinux) sample_guid 0 39 0 []) /\
      has (g_partitions gc) c (mkPart (mkType linux_fs OsLinux) sample_guid 0 0 0 [])
  | _, _, _ => False
  end.
Proof. vm_compute. auto. Qed.
Example C106_at_case :
  @find_free_sectors gpt_err true (wide_disk []) = Ok [(34, 27)] /\
  fst (add_partition_at true [] 1 (2 ^ 64 - 2) 5 (mkType linux_fs OsLinux) 0 sample_guid (wide_disk [])) = Panic /\
  match add_partition_at false [] 1 (2 ^ 64 - 2) 5 (mkType linux_fs OsLinux) 0 sample_guid (wide_disk []) with
  | (Ok id, g') => has (g_partitions g') id (mkPart (mkType linux_fs OsLinux) sample_guid (2 ^ 64 - 2) 2 0 [])
  | _ => False
  end.
Proof. vm_compute. auto. Qed.
Example C106_alignment_zero_case :
  fst (add_partition false [] 512 (mkType linux_fs OsLinux) 0 (Some 0) sample_guid (wide_disk [(1, part_at 34 60)])) = Err GNotEnoughSpace /\
  fst (add_partition false [] 512 (mkType linux_fs OsLinux) 0 (Some 0) sample_guid (wide_disk [])) = Panic.
Proof. vm_compute. auto. Qed.
