(** Props_AnyTable.v - additions to C25, C27 and C28: tables in any state. *)
From Coq Require Import Sorting.Permutation.
From Verif Require Import SpecAnyTable QueryFacts Props_Alloc Props_Query Samples.
Open Scope list_scope.
Open Scope N_scope.

Definition in_gap (l : list N) (x : N) : Prop := ~ In x l /\ Nat.Odd (length (filter (fun e => e <? x) l)).
Lemma in_gap_perm l l' x : Permutation l l' -> in_gap l x <-> in_gap l' x.
Proof.
  intros P. unfold in_gap.
  assert (L : length (filter (fun e => e <? x) l) = length (filter (fun e => e <? x) l')).
  { induction P as [|y l l' P IH|y z l|l l' l'' P IH P' IH']; cbn [filter]; auto.
    - destruct (y <? x); cbn [length]; congruence.
    - destruct (y <? x), (z <? x); reflexivity.
    - congruence. }
  rewrite L. split; intros (A & B); (split; [|exact B]); intros I; apply A.
  - eapply Permutation_in; [symmetry; exact P|exact I].
  - eapply Permutation_in; [exact P|exact I].
Qed.
Lemma filter_none l x : Forall (N.le x) l -> filter (fun e => e <? x) l = [].
Proof.
  induction 1 as [|y l H F IH]; [reflexivity|]. cbn [filter]. destruct (N.ltb_spec y x); [lia|exact IH].
Qed.
Lemma in_gap_chunk a b r x : StronglySorted N.le (a :: b :: r) ->
  (in_gap (a :: b :: r) x <-> a < x < b \/ b < x /\ in_gap r x).
Proof.
  intros S. destruct (sorted_chunk _ _ _ S) as (AB & SR & FB & FA). unfold in_gap. cbn [filter In].
  assert (LOW : x <= b -> filter (fun e => e <? x) r = []).
  { intros L. apply filter_none. eapply Forall_impl; [|exact FB]. intros y Hy. cbn in Hy. lia. }
  assert (NR : x < b -> ~ In x r) by (intros L I; rewrite Forall_forall in FB; specialize (FB _ I); cbn in FB; lia).
  destruct (N.ltb_spec a x) as [A|A], (N.ltb_spec b x) as [B|B]; cbn [length].
  - split.
    + intros (N & O). right. split; [exact B|]. split; [tauto|]. apply Nat.Odd_succ in O. destruct O as (k & O). exists (k - 1)%nat. lia.
    + intros [X|(_ & N & O)]; [lia|]. split; [intros [X|[X|X]]; [lia|lia|contradiction]|]. destruct O as (k & O). exists (Datatypes.S k). lia.
  - rewrite (LOW B). cbn [length]. split.
    + intros (N & _). left. split; [exact A|]. destruct (N.eq_dec b x); [destruct N; auto|lia].
    + intros [X|(X & _)]; [|lia]. split; [|exists 0%nat; reflexivity]. intros [Y|[Y|Y]]; [lia|lia|]. apply (NR (proj2 X) Y).
  - lia.
  - rewrite LOW by lia. cbn [length]. split; [|intros [X|X]; lia]. intros (_ & (k & O)). lia.
Qed.
Lemma in_gap_above r x b : Forall (N.le b) r -> in_gap r x -> b < x.
Proof.
  intros F (N & (k & O)). apply N.nle_gt. intros L. rewrite filter_none in O; [cbn in O; lia|].
  eapply Forall_impl; [|exact F]. intros y Hy. cbn in Hy. lia.
Qed.
Lemma chunks_gaps {E} oc n : forall l, length l = (2 * n)%nat -> StronglySorted N.le l ->
  Forall (fun x => x < modulus 64) l -> ~ at_least_two 0 l -> ~ at_least_two (modulus 64 - 1) l ->
  exists secs, @free_chunks E oc l = Ok secs /\ sections_of (in_gap l) secs.
Proof.
  unfold at_least_two. induction n as [|n IH]; intros l L S F Z T.
  - destruct l; [|discriminate]. exists []. split; [reflexivity|]. constructor; [constructor|constructor|].
    intros x. split; [intros (s & [] & _)|]. intros (_ & (k & O)). cbn in O. lia.
  - destruct l as [|a [|b r]]; [discriminate|cbn in L; lia|].
    assert (S' := S). destruct (sorted_chunk _ _ _ S) as (AB & SR & FB & FA).
    inversion F as [|y l F1 F2]; subst. inversion F2 as [|y l F3 F4]; subst.
    cbn [count_occ] in Z, T.
    assert (B1 : 1 <= b).
    { destruct (N.eq_dec b 0) as [->|]; [|lia]. assert (a = 0) by lia. subst a. destruct (N.eq_dec 0 0); [lia|congruence]. }
    assert (A1 : a + 1 < modulus 64).
    { destruct (N.eq_dec a (modulus 64 - 1)) as [EA|]; [|lia]. assert (EB : b = modulus 64 - 1) by lia.
      destruct (N.eq_dec b (modulus 64 - 1)); [lia|congruence]. }
    destruct (IH r) as (secs & E1 & S1); [cbn in L; lia|exact SR|exact F4| | |].
    { destruct (N.eq_dec a 0), (N.eq_dec b 0); lia. }
    { destruct (N.eq_dec a (modulus 64 - 1)), (N.eq_dec b (modulus 64 - 1)); lia. }
    assert (EC : @free_chunks E oc (a :: b :: r) = Ok (if a + 1 <=? b - 1 then (a + 1, b - 1 - (a + 1) + 1) :: secs else secs)).
    { cbn [free_chunks]. unfold addw at 1. destruct (N.ltb_spec (a + 1) (modulus 64)); [|lia]. cbn [obind].
      unfold subw at 1. destruct (N.leb_spec 1 b); [|lia]. cbn [obind].
      destruct (N.leb_spec (a + 1) (b - 1)) as [D|D]; [|exact E1].
      unfold subw. destruct (N.leb_spec (a + 1) (b - 1)); [|lia]. cbn [obind].
      unfold addw. destruct (N.ltb_spec (b - 1 - (a + 1) + 1) (modulus 64)); [|lia]. cbn [obind]. rewrite E1. reflexivity. }
    rewrite EC. eexists. split; [reflexivity|]. destruct S1 as [C1 C2 C3].
    assert (UP : Forall (fun s => b < fst s) secs).
    { apply Forall_forall. intros s Hs. rewrite Forall_forall in C1. specialize (C1 s Hs). cbn in C1.
      apply (in_gap_above r (fst s) b FB). apply C3. exists s. split; [exact Hs|lia]. }
    destruct (N.leb_spec (a + 1) (b - 1)) as [D|D]; constructor.
    + constructor; [cbn; lia|exact C1].
    + constructor; [exact C2|]. eapply Forall_impl; [|exact UP]. intros s Hs. cbn in Hs |- *. lia.
    + intros x. rewrite (in_gap_chunk a b r x S'). split.
      * intros (s & [<-|Hs] & X); cbn in X; [left; lia|]. right.
        rewrite Forall_forall in UP. specialize (UP s Hs). cbn in UP. split; [lia|]. apply C3. exists s. auto.
      * intros [X|(X & G)]; [exists (a + 1, b - 1 - (a + 1) + 1); split; [left; reflexivity|cbn; lia]|].
        apply C3 in G. destruct G as (s & Hs & G). exists s. split; [right; exact Hs|exact G].
    + exact C1.
    + exact C2.
    + intros x. rewrite (in_gap_chunk a b r x S'), C3. split.
      * intros G. right. split; [apply (in_gap_above r x b FB G)|exact G].
      * intros [X|(_ & G)]; [lia|exact G].
Qed.
Definition lt_decided x y : {x < y} + {~ x < y}.
Proof. destruct (x <? y) eqn:H; [left; apply N.ltb_lt, H|right; apply N.nlt_ge, N.ltb_ge, H]. Defined.
(** C25 for any table, overlapping partitions and partitions outside the usable range included: the report lists, in
    ascending order, without empty sections and without sections that touch, exactly the blocks between two edges. *)
Theorem C25_any_table : forall oc g h, header_of g h -> askable h (g_partitions g) ->
  exists secs, @find_free_sectors gpt_err oc g = Ok secs /\ sections_of (between_edges h (g_partitions g)) secs /\
    Forall (fun s => fst s + snd s < 2 ^ 64) secs.
Proof.
  intros oc g h H ((F1 & F2 & F3) & U1 & U2 & Z & T). rewrite two64_1 in T. rewrite <- two64 in *.
  unfold find_free_sectors. rewrite (the_header_of g h H). cbn [obind].
  unfold subw at 1. destruct (N.leb_spec 1 (first_usable h)) as [A|A]; [|lia]. cbn [obind].
  unfold addw at 1. destruct (N.ltb_spec (last_usable h + 1) (modulus 64)) as [B|B]; [|lia]. cbn [obind].
  rewrite edges_positions. change (first_usable h - 1 :: flat_map (fun p => [first_lba p; last_lba p]) (used_in_order (g_partitions g)) ++ [last_usable h + 1])
    with (edges h (g_partitions g)). set (l := edges h (g_partitions g)) in *.
  assert (P := sort_perm l). destruct (edges_even h (g_partitions g)) as (n & EN). fold l in EN.
  assert (FL : Forall (fun x => x < modulus 64) l).
  { apply Forall_forall. intros x I. unfold l, edges in I. destruct I as [<-|I]; [lia|]. apply in_app_or in I.
    destruct I as [I|[<-|[]]]; [|lia]. apply in_flat_map in I. destruct I as (p & Ip & I).
    unfold used_in_order in Ip. apply filter_In in Ip. destruct Ip as (Ip & _). apply in_map_iff in Ip. destruct Ip as ((k, q) & <- & Ip).
    destruct (F3 k q Ip) as (X & Y). cbn in I. rewrite two64. destruct I as [<-|[<-|[]]]; assumption. }
  destruct (@chunks_gaps gpt_err oc n (sort_N l)) as (secs & E1 & S1).
  - rewrite <- (Permutation_length P). exact EN.
  - apply sort_sorted.
  - eapply Permutation_Forall; [exact P|exact FL].
  - unfold at_least_two in *. rewrite <- (proj1 (Permutation_count_occ N.eq_dec l (sort_N l)) P). exact Z.
  - unfold at_least_two in *. rewrite <- (proj1 (Permutation_count_occ N.eq_dec l (sort_N l)) P). exact T.
  - exists secs. split; [exact E1|]. split.
    + destruct S1 as [C1 C2 C3]. constructor; auto. intros x. rewrite C3. symmetry. apply (in_gap_perm l (sort_N l) x P).
    + apply Forall_forall. intros s Hs. pose proof (sc_nonempty _ _ S1) as N1. rewrite Forall_forall in N1. specialize (N1 s Hs). cbn in N1.
      assert (G : in_gap (sort_N l) (fst s + snd s - 1)) by (apply (sc_exact _ _ S1); exists s; split; [exact Hs|lia]).
      apply (in_gap_perm _ _ _ P) in G. destruct G as (NI & (k & O)).
      (* an odd number of the even number of edges lies below, so some edge lies above *)
      assert (X : exists e, In e l /\ fst s + snd s - 1 < e).
      { destruct (Forall_Exists_dec (fun e => e < fst s + snd s - 1) (fun e => lt_decided e (fst s + snd s - 1)) l) as [FA|EX].
        - exfalso. assert (filter (fun e => e <? fst s + snd s - 1) l = l).
          { clear - FA. induction FA as [|e l He FA IH]; [reflexivity|]. cbn [filter]. destruct (N.ltb_spec e (fst s + snd s - 1)); [|lia]. rewrite IH. reflexivity. }
          rewrite H0 in O. lia.
        - apply Exists_exists in EX. destruct EX as (e & I & X). exists e. split; [exact I|].
          assert (e <> fst s + snd s - 1) by (intros ->; contradiction). lia. }
      destruct X as (e & I & X). rewrite Forall_forall in FL. specialize (FL e I). cbn in FL. lia.
Qed.
Print Assumptions C25_any_table.

(** The places for [n] blocks as the report has them. *)
Definition reported_fit h m n al start := start mod al = 0 /\ forall x, start <= x < start + n -> between_edges h m x.
Lemma add_any_table oc nm size ty fl al rnd g h : header_of g h -> askable h (g_partitions g) -> 1 <= size ->
  let n := blocks_for size (c_lb (g_config g)) in sensible oc al n ->
  (exists start, smallest (reported_fit h (g_partitions g) n (alignment al)) start /\
     add_partition oc nm size ty fl al rnd g = finish_add oc nm n ty fl rnd start g) \/
  ((forall s, ~ reported_fit h (g_partitions g) n (alignment al) s) /\
     add_partition oc nm size ty fl al rnd g = (Err GNotEnoughSpace, g)) \/
  (2 ^ 64 <= alignment al + n /\ fst (add_partition oc nm size ty fl al rnd g) = Panic).
Proof.
  intros HH HA HS n (HL & HO). destruct (C25_any_table oc g h HH HA) as (secs & EF & SF & BD0).
  assert (N1 : 1 <= n) by (unfold n; rewrite <- blocks_ceil by exact HS; apply N.le_add_l).
  rewrite <- two64 in *.
  assert (BD : Forall (fun s => fst s + snd s <= modulus 64 - 1) secs).
  { eapply Forall_impl; [|exact BD0]. intros s Hs. cbn beta in Hs |- *. lia. }
  assert (EA : add_partition oc nm size ty fl al rnd g = add_in_sections oc nm n ty fl al rnd secs g).
  { unfold add_partition. replace (size =? 0) with false by (symmetry; apply N.eqb_neq; lia). cbn zeta.
    rewrite (blocks_ceil size _ HS). fold n. unfold bind at 1. rewrite EF. reflexivity. }
  assert (EQ : add_partition oc nm size ty fl al rnd g = match choose n (alignment al) secs with
    | Some start => finish_add oc nm n ty fl rnd start g | None => (Err GNotEnoughSpace, g) end \/
    (modulus 64 <= alignment al + n /\ fst (add_partition oc nm size ty fl al rnd g) = Panic)).
  { rewrite EA. destruct (N.lt_ge_cases (alignment al + n) (modulus 64)) as [LT|GE]; [left; apply add_in_sections_choose; auto|].
    assert (oc = true) by (destruct HO as [HO|HO]; [exact HO|lia]). subst oc.
    destruct (fst (add_in_sections true nm n ty fl al rnd secs g)) eqn:EP; [left|left|right; auto];
      (apply add_in_sections_debug; auto; rewrite EP; discriminate). }
  destruct EQ as [EQ|EQ]; [|right; right; exact EQ].
  rewrite EQ. pose proof (choose_spec n (alignment al) HL N1 secs _ SF) as CS.
  destruct (choose n (alignment al) secs) as [start|]; [left|right; left].
  - exists start. split; [exact CS|reflexivity].
  - split; [exact CS|reflexivity].
Qed.
(** C27 for any table: add_partition takes the lowest aligned place all of whose blocks are reported free. *)
Theorem C27_any_table : forall oc nm size ty fl al rnd g h id g',
  header_of g h -> askable h (g_partitions g) -> map_ok (g_partitions g) ->
  let n := blocks_for size (c_lb (g_config g)) in
  sensible oc al n ->
  add_partition oc nm size ty fl al rnd g = (Ok id, g') ->
  exists start, smallest (reported_fit h (g_partitions g) n (alignment al)) start /\
    placed (g_partitions g) id (mkPart ty rnd start (start + n - 1) fl nm) (g_partitions g').
Proof.
  intros oc nm size ty fl al rnd g h id g' HH HA MO n HS E.
  assert (S1 : 1 <= size).
  { destruct (N.eq_dec size 0) as [->|NE]; [|lia]. unfold add_partition in E. cbn in E. discriminate. }
  destruct (add_any_table oc nm size ty fl al rnd g h HH HA S1 HS) as [(start & SM & EQ)|[(_ & EQ)|(_ & EQ)]].
  - exists start. split; [exact SM|]. rewrite E in EQ. symmetry in EQ. apply (finish_add_ok _ _ _ _ _ _ _ _ h) in EQ; [|exact HH].
    destruct EQ as (next & _ & _ & _ & EQ & _). fold n in EQ. rewrite EQ. apply placed_insert, MO.
  - rewrite E in EQ. discriminate.
  - rewrite E in EQ. discriminate.
Qed.
Print Assumptions C27_any_table.
(** C28 for any table. *)
Theorem C28_any_table : forall oc nm size ty fl al rnd g h,
  header_of g h -> askable h (g_partitions g) ->
  let n := blocks_for size (c_lb (g_config g)) in
  1 <= size -> 1 <= alignment al -> alignment al + n < 2 ^ 64 ->
  (fst (add_partition oc nm size ty fl al rnd g) = Err GNotEnoughSpace <->
   forall start, ~ reported_fit h (g_partitions g) n (alignment al) start) /\
  (fst (add_partition oc nm size ty fl al rnd g) = Err GNotEnoughSpace ->
   snd (add_partition oc nm size ty fl al rnd g) = g).
Proof.
  intros oc nm size ty fl al rnd g h HH HA n S1 A1 A2.
  destruct (add_any_table oc nm size ty fl al rnd g h HH HA S1 (conj A1 (or_intror A2)))
    as [(start & (SM & _) & EQ)|[(NF & EQ)|(GE & _)]].
  - fold n in EQ. rewrite EQ. pose proof (finish_add_not_space oc nm n ty fl rnd start g) as NS. split; [|intros X; contradiction].
    split; [intros X; contradiction|]. intros X. destruct (X start SM).
  - rewrite EQ. cbn [fst snd]. split; [|auto]. split; auto.
  - fold n in GE. lia.
Qed.
Print Assumptions C28_any_table.
(** One partition inside another: the inner blocks of the inner one are reported free, and add_partition takes them. *)
Definition nested : pmap := [(1, part_at 40 60); (2, part_at 45 50)].
Example C27_nested_case : askable wide_header nested /\ map_ok nested /\
  @find_free_sectors gpt_err true (wide_disk nested) = Ok [(34, 6); (46, 4)] /\
  between_edges wide_header nested 47 /\ ~ between_edges wide_header nested 42 /\
  match add_partition true [] 1024 (mkType linux_fs OsLinux) 0 (Some 46) sample_guid (wide_disk nested) with
  | (Ok id, g') => id = 3 /\ has (g_partitions g') 3 (mkPart (mkType linux_fs OsLinux) sample_guid 46 47 0 [])
  | _ => False
  end.
Proof.
  split; [|split; [|split; [vm_compute; reflexivity|split; [|split]]]].
  - split; [|split; [vm_compute; discriminate|split; [vm_compute; reflexivity|]]].
    + split; [vm_compute; reflexivity|]. split; [vm_compute; reflexivity|].
      intros k p [X|[X|[]]]; injection X as <- <-; vm_compute; auto.
    + unfold at_least_two. change (edges wide_header nested) with [33; 40; 60; 45; 50; 61]. split; cbn; intros X; inversion X.
  - vm_compute. repeat constructor.
  - unfold between_edges. change (edges wide_header nested) with [33; 40; 60; 45; 50; 61]. split; [intros X; cbn in X; lia|exists 1%nat; reflexivity].
  - unfold between_edges. change (edges wide_header nested) with [33; 40; 60; 45; 50; 61]. intros (_ & (k & X)). change (2 = 2 * k + 1)%nat in X. lia.
  - vm_compute. auto.
Qed.

(** C30 for any table and for every first block: which calls of add_partition_at with an entry for the id are accepted.
    Accepted is what has some run of as many reported blocks starting at or before the block asked for. *)
Theorem C30_any_table : forall oc nm id first n ty fl rnd g h,
  header_of g h -> askable h (g_partitions g) -> map_ok (g_partitions g) ->
  1 <= id <= num_parts h -> 128 <= num_parts h -> ~ is_in_use id (g_partitions g) -> 1 <= n -> first + n < 2 ^ 64 ->
  let fits := exists s, s <= first /\ forall x, s <= x < s + n -> between_edges h (g_partitions g) x in
  (fits -> exists m', add_partition_at oc nm id first n ty fl rnd g = (Ok id, set_partitions m' g) /\
     placed (g_partitions g) id (mkPart ty rnd first (first + n - 1) fl nm) m') /\
  (~ fits -> add_partition_at oc nm id first n ty fl rnd g = (Err GNotEnoughSpace, g)).
Proof.
  intros oc nm id first n ty fl rnd g h HH HA MO I1 N128 NU N1 F64 fits.
  destruct (C25_any_table oc g h HH HA) as (secs & EF & SF & _). rewrite <- two64 in F64.
  assert (EQ : add_partition_at oc nm id first n ty fl rnd g =
    if existsb (takes first n) secs then finish_at oc nm id first n ty fl rnd g else (Err GNotEnoughSpace, g)).
  { unfold add_partition_at.
    replace (n =? 0) with false by (symmetry; apply N.eqb_neq; lia).
    replace (id =? 0) with false by (symmetry; apply N.eqb_neq; lia).
    rewrite <- (in_use_get _ _ MO) in NU.
    match goal with |- context [if ?b then _ else _] => destruct b end; [destruct NU; reflexivity|].
    unfold bind. rewrite EF. apply add_at_sections. }
  rewrite EQ. split.
  - intros (s & L & R). destruct (run_in_section _ _ _ _ SF N1 R) as (u & Hu & U1 & U2).
    assert (X : existsb (takes first n) secs = true).
    { apply existsb_exists. exists u. split; [exact Hu|]. unfold takes. apply andb_true_intro. split; apply N.leb_le; lia. }
    rewrite X. exists (pm_insert id (mkPart ty rnd first (first + n - 1) fl nm) (g_partitions g)). split; [|apply placed_insert, MO].
    unfold finish_at. unfold bind at 1, lift at 1. unfold addw.
    replace (first + n <? modulus 64) with true by (symmetry; apply N.ltb_lt; lia).
    unfold bind at 1, lift at 1. unfold subw. replace (1 <=? first + n) with true by (symmetry; apply N.leb_le; lia).
    unfold bind at 1, check_count. rewrite (the_header_of g h HH). cbn [obind].
    destruct (num_parts_would_change h id) eqn:W; [apply would_change_iff in W; lia|]. reflexivity.
  - intros NF. destruct (existsb (takes first n) secs) eqn:X; [|reflexivity]. destruct NF.
    apply existsb_exists in X. destruct X as ([s len] & Hs & X). unfold takes in X. cbn [fst snd] in X.
    apply andb_prop in X. destruct X as (X1 & X2). apply N.leb_le in X1, X2.
    exists s. split; [exact X1|]. intros x Hx. apply (section_run _ _ (s, len) SF Hs). cbn. lia.
Qed.
Print Assumptions C30_any_table.
Example C30_nested_case :
  fst (add_partition_at true [] 3 35 6 (mkType linux_fs OsLinux) 0 sample_guid (wide_disk nested)) = Ok 3 /\
  fst (add_partition_at true [] 3 33 1 (mkType linux_fs OsLinux) 0 sample_guid (wide_disk nested)) = Err GNotEnoughSpace /\
  fst (add_partition_at true [] 3 50 7 (mkType linux_fs OsLinux) 0 sample_guid (wide_disk nested)) = Err GNotEnoughSpace.
Proof. vm_compute. auto. Qed.

(** * Outside [askable], without overflow checks *)
Lemma two_zeros_first l : at_least_two 0 l -> exists r, sort_N l = 0 :: 0 :: r.
Proof.
  intros H. unfold at_least_two in H. rewrite (proj1 (Permutation_count_occ N.eq_dec l (sort_N l)) (sort_perm l) 0) in H.
  pose proof (sort_sorted l) as S. destruct (sort_N l) as [|a [|b r]].
  - cbn in H. lia.
  - cbn in H. destruct (N.eq_dec a 0); cbn in H; lia.
  - inversion S as [|? ? S1 F1]; subst. inversion S1 as [|? ? S2 F2]; subst. inversion F1 as [|? ? AB F1']; subst.
    assert (Z : b = 0).
    { destruct (N.eq_dec b 0) as [|NB]; [assumption|]. exfalso.
      assert (C0 : count_occ N.eq_dec r 0 = 0%nat).
      { apply count_occ_not_In. intros I. rewrite Forall_forall in F2. specialize (F2 _ I). lia. }
      cbn [count_occ] in H. rewrite C0 in H. destruct (N.eq_dec b 0); [contradiction|]. destruct (N.eq_dec a 0); lia. }
    subst b. assert (a = 0) by lia. subst a. eauto.
Qed.
(** If two edges are 0 - say a partition of block 0 alone, or the usable blocks starting at 1 and a partition at 0 - then without
    overflow checks all blocks from 1 on are reported as the first free section. *)
Theorem C25_wrapped : forall g h, header_of g h ->
  1 <= first_usable h -> last_usable h + 1 < 2 ^ 64 -> at_least_two 0 (edges h (g_partitions g)) ->
  exists secs, @find_free_sectors gpt_err false g = Ok ((1, 2 ^ 64 - 1) :: secs).
Proof.
  intros g h HH F1 L1 TW. unfold find_free_sectors. rewrite (the_header_of g h HH). cbn [obind].
  rewrite <- two64 in L1. unfold subw at 1, addw at 1.
  replace (1 <=? first_usable h) with true by (symmetry; apply N.leb_le; lia).
  replace (last_usable h + 1 <? modulus 64) with true by (symmetry; apply N.ltb_lt; lia). cbn [obind].
  assert (EE : edges h (g_partitions g) = (first_usable h - 1) ::
     flat_map (fun p => [first_lba (snd p); last_lba (snd p)]) (used_parts (g_partitions g)) ++ [last_usable h + 1]).
  { unfold edges. rewrite used_in_order_eq. unfold used_list. f_equal. f_equal.
    induction (used_parts (g_partitions g)) as [|x l IH]; [reflexivity|]. cbn [map flat_map]. rewrite IH. reflexivity. }
  rewrite <- EE. destruct (two_zeros_first _ TW) as (r & ->).
  pose proof (@free_chunks_release gpt_err r) as NP. cbn [free_chunks].
  assert (A1 : @addw gpt_err false 64 0 1 = Ok 1) by (vm_compute; reflexivity).
  assert (A2 : @subw gpt_err false 64 0 1 = Ok (2 ^ 64 - 1)) by (vm_compute; reflexivity).
  assert (A3 : @subw gpt_err false 64 (2 ^ 64 - 1) 1 = Ok (2 ^ 64 - 2)) by (vm_compute; reflexivity).
  assert (A4 : @addw gpt_err false 64 (2 ^ 64 - 2) 1 = Ok (2 ^ 64 - 1)) by (vm_compute; reflexivity).
  rewrite A1, A2. cbn [obind]. change (1 <=? 2 ^ 64 - 1) with true. cbv iota. rewrite A3. cbn [obind]. rewrite A4. cbn [obind].
  pose proof (fun e => @free_chunks_no_err gpt_err (length r) false r e (le_n _)) as NE.
  destruct (free_chunks false r) as [t|e|]; [exists t; reflexivity|destruct (NE e); reflexivity|destruct NP; reflexivity].
Qed.
Print Assumptions C25_wrapped.
(** So on a disk with a partition of block 0 the next partition is put on the primary header. *)
Definition zero_part : pmap := [(1, part_at 0 0)].
Theorem C27_wrapped_refuted : exists g h id g' p, header_of g h /\ usable_ok h /\ map_ok (g_partitions g) /\
  current_lba h = 1 /\ first_usable h = 34 /\
  @find_free_sectors gpt_err true g = Panic /\
  add_partition false [] 1024 (mkType linux_fs OsLinux) 0 None sample_guid g = (Ok id, g') /\
  has (g_partitions g') id p /\ first_lba p = 1 /\ last_lba p = 2.
Proof.
  exists (wide_disk zero_part), wide_header, 2. eexists _, _.
  split; [left; reflexivity|]. split; [vm_compute; repeat split; discriminate|]. split; [vm_compute; repeat constructor|].
  split; [reflexivity|]. split; [reflexivity|]. split; [vm_compute; reflexivity|]. split; [vm_compute; reflexivity|].
  split; [right; left; reflexivity|]. vm_compute. auto.
Qed.
Print Assumptions C27_wrapped_refuted.
Example C25_wrapped_case : at_least_two 0 (edges wide_header zero_part) /\
  @find_free_sectors gpt_err false (wide_disk zero_part) = Ok [(1, 2 ^ 64 - 1); (34, 27)].
Proof. split; [unfold at_least_two; vm_compute; auto|vm_compute; reflexivity]. Qed.
