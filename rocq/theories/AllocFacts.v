(** AllocFacts.v - free space, placement and partition ids. *)
From Coq Require Import Sorting.Permutation.
From Verif Require Export RetryFacts.
Open Scope list_scope.
Open Scope N_scope.

(** * Sorting *)
Lemma insert_sorted_perm x l : Permutation (x :: l) (insert_sorted x l).
Proof.
  induction l as [|y r IH]; cbn [insert_sorted]; [reflexivity|]. destruct (x <=? y); [reflexivity|].
  rewrite perm_swap. constructor. exact IH.
Qed.
Lemma sort_perm l : Permutation l (sort_N l).
Proof.
  induction l as [|x l IH]; cbn [sort_N fold_right]; [constructor|].
  rewrite <- insert_sorted_perm. constructor. exact IH.
Qed.
Lemma insert_sorted_sorted x l : StronglySorted N.le l -> StronglySorted N.le (insert_sorted x l).
Proof.
  induction 1 as [|y r S IH F]; cbn [insert_sorted]; [repeat constructor|].
  destruct (N.leb_spec x y) as [L|L].
  - constructor; [constructor; assumption|]. constructor; [exact L|]. eapply Forall_impl; [|exact F].
    intros z. cbn beta. lia.
  - constructor; [exact IH|]. eapply Permutation_Forall; [apply insert_sorted_perm|]. constructor; [lia|exact F].
Qed.
Lemma sort_sorted l : StronglySorted N.le (sort_N l).
Proof. induction l; cbn [sort_N fold_right]; [constructor|apply insert_sorted_sorted; assumption]. Qed.
Lemma sorted_unique l : StronglySorted N.le l -> forall l', StronglySorted N.le l' -> Permutation l l' -> l = l'.
Proof.
  induction 1 as [|x l S IH F]; intros l' S' P.
  - apply Permutation_nil in P. auto.
  - destruct S' as [|y l' S' F']; [apply Permutation_sym, Permutation_nil in P; discriminate|].
    assert (E : x = y).
    { rewrite Forall_forall in F, F'.
      assert (X : In x (y :: l')) by (eapply Permutation_in; [exact P|left; reflexivity]).
      assert (Y : In y (x :: l)) by (eapply Permutation_in; [apply Permutation_sym, P|left; reflexivity]).
      destruct X as [X|X]; [auto|]. destruct Y as [Y|Y]; [auto|]. apply F' in X. apply F in Y. lia. }
    subst y. f_equal. apply IH; auto. eapply Permutation_cons_inv. exact P.
Qed.
Lemma sort_unique l l' : StronglySorted N.le l' -> Permutation l l' -> sort_N l = l'.
Proof.
  intros S P. apply sorted_unique; auto using sort_sorted. rewrite <- P. apply Permutation_sym, sort_perm.
Qed.
Lemma sort_permuted l l' : Permutation l l' -> sort_N l = sort_N l'.
Proof. intros P. apply sort_unique; [apply sort_sorted|]. rewrite P. apply sort_perm. Qed.

(** * Chains of spans *)
Definition flat (S : list (N * N)) : list N := flat_map (fun s => [fst s; snd s]) S.
Fixpoint chained (prev : N) (S : list (N * N)) (after : N) : Prop :=
  match S with
  | [] => prev < after
  | (a, b) :: r => prev < a /\ a <= b /\ chained b r after
  end.
Fixpoint ins_span (s : N * N) (S : list (N * N)) : list (N * N) :=
  match S with
  | [] => [s]
  | t :: r => if fst s <? fst t then s :: S else t :: ins_span s r
  end.
Lemma ins_perm s S : Permutation (s :: S) (ins_span s S).
Proof.
  induction S as [|t r IH]; cbn [ins_span]; [reflexivity|]. destruct (fst s <? fst t); [reflexivity|].
  rewrite perm_swap. constructor. exact IH.
Qed.
Lemma chained_lt prev S after : chained prev S after -> prev < after.
Proof. revert prev; induction S as [|[a b] r IH]; intros prev; cbn [chained]; [auto|]. intros (A & B & C). apply IH in C. lia. Qed.
Lemma ins_chained a b S : forall prev after, a <= b -> prev < a -> b < after -> chained prev S after ->
  Forall (fun t => b < fst t \/ snd t < a) S -> chained prev (ins_span (a, b) S) after.
Proof.
  induction S as [|[c d] r IH]; intros prev after AB PA BA C F; cbn [ins_span]; [cbn [chained]; auto|].
  cbn [chained] in C. destruct C as (C1 & C2 & C3). inversion F as [|x l F1 F2]; subst. cbn [fst snd] in *.
  destruct (N.ltb_spec a c) as [L|L]; cbn [chained].
  - repeat split; auto. lia.
  - repeat split; auto. apply IH; auto. lia.
Qed.
Lemma flat_perm S S' : Permutation S S' -> Permutation (flat S) (flat S').
Proof. apply Permutation_flat_map. Qed.
Lemma chained_sorted S : forall prev after, chained prev S after -> StronglySorted N.le (prev :: flat S ++ [after]).
Proof.
  induction S as [|[a b] r IH]; intros prev after; cbn [chained flat flat_map app fst snd].
  - intros H. repeat constructor. lia.
  - intros (A & B & C). pose proof (IH _ _ C) as S. fold (flat r). fold (flat r) in S.
    inversion S as [|x l S' F]; subst.
    constructor; [constructor; [exact S|]|]; repeat constructor; try lia; (eapply Forall_impl; [|exact F]; intros z; cbn beta; lia).
Qed.
Fixpoint gaps (prev : N) (S : list (N * N)) (after : N) : list (N * N) :=
  match S with
  | [] => if prev + 1 <? after then [(prev + 1, after - prev - 1)] else []
  | (a, b) :: r => (if prev + 1 <? a then [(prev + 1, a - prev - 1)] else []) ++ gaps b r after
  end.
Lemma free_chunks_gaps {E} oc S : forall prev after, after < modulus 64 -> chained prev S after ->
  @free_chunks E oc (prev :: flat S ++ [after]) = Ok (gaps prev S after).
Proof.
  assert (X : forall prev a (r : list N) (rest : list (N * N)), prev < a -> a < modulus 64 ->
    @free_chunks E oc r = Ok rest ->
    @free_chunks E oc (prev :: a :: r) = Ok ((if prev + 1 <? a then [(prev + 1, a - prev - 1)] else []) ++ rest)).
  { intros prev a r rest L H64 HR. cbn [free_chunks]. unfold addw at 1. replace (prev + 1 <? modulus 64) with true
      by (symmetry; apply N.ltb_lt; lia). cbn [obind]. unfold subw at 1.
    replace (1 <=? a) with true by (symmetry; apply N.leb_le; lia). cbn [obind].
    destruct (N.leb_spec (prev + 1) (a - 1)) as [G|G].
    - unfold subw. replace (prev + 1 <=? a - 1) with true by (symmetry; apply N.leb_le; lia). cbn [obind].
      unfold addw. replace (a - 1 - (prev + 1) + 1 <? modulus 64) with true by (symmetry; apply N.ltb_lt; lia).
      cbn [obind]. rewrite HR. cbn [obind]. replace (prev + 1 <? a) with true by (symmetry; apply N.ltb_lt; lia).
      cbn [app]. do 3 f_equal. lia.
    - rewrite HR. replace (prev + 1 <? a) with false by (symmetry; apply N.ltb_ge; lia). reflexivity. }
  induction S as [|[a b] r IH]; intros prev after H64 C; cbn [chained flat flat_map app fst snd gaps] in *.
  - rewrite (X prev after [] []); auto. rewrite app_nil_r. reflexivity.
  - destruct C as (C1 & C2 & C3). pose proof (chained_lt _ _ _ C3). apply X; [lia|lia|]. apply IH; auto.
Qed.
Lemma gaps_spec S : forall prev after, chained prev S after ->
  sections_of (fun x => prev < x < after /\ Forall (fun s => ~ (fst s <= x <= snd s)) S) (gaps prev S after) /\
  Forall (fun s => prev < fst s) (gaps prev S after).
Proof.
  induction S as [|[a b] r IH]; intros prev after C; cbn [chained gaps] in *.
  - destruct (N.ltb_spec (prev + 1) after) as [L|L].
    + split; [|repeat constructor; cbn; lia]. constructor; [repeat constructor; cbn; lia|repeat constructor|].
      intros x. split.
      * intros (s & [<-|[]] & H). cbn [fst snd] in H. split; [lia|constructor].
      * intros (H & _). eexists. split; [left; reflexivity|]. cbn [fst snd]. lia.
    + split; [|constructor]. constructor; [constructor|constructor|]. intros x. split; [intros (s & [] & _)|]. intros (H & _). lia.
  - destruct C as (C1 & C2 & C3). destruct (IH _ _ C3) as ([I1 I2 I3] & I4). pose proof (chained_lt _ _ _ C3) as BA.
    assert (EX : forall x, (exists s, In s (gaps b r after) /\ fst s <= x < fst s + snd s) <->
      (b < x < after /\ Forall (fun s => ~ (fst s <= x <= snd s)) r)) by exact I3.
    assert (RX : forall x, x <= b -> Forall (fun s => ~ (fst s <= x <= snd s)) r).
    { intros x Hx. clear - C3 Hx. revert b C3 Hx. induction r as [|[c d] r IH]; intros b C Hx; constructor; cbn [chained fst snd] in *.
      - lia. - destruct C as (C1 & C2 & C3). eapply IH; [exact C3|lia]. }
    destruct (N.ltb_spec (prev + 1) a) as [L|L]; cbn [app].
    + split.
      2: { constructor; [cbn; lia|]. eapply Forall_impl; [|exact I4]. intros s. cbn beta. lia. }
      constructor.
      * constructor; [cbn; lia|exact I1].
      * constructor; [exact I2|]. eapply Forall_impl; [|exact I4]. intros s. cbn [fst snd]. lia.
      * intros x. split.
        -- intros (s & [<-|Hs] & H).
           ++ cbn [fst snd] in H. split; [lia|]. constructor; [cbn; lia|]. apply RX. lia.
           ++ destruct (proj1 (EX x)) as (Y1 & Y2); [eauto|]. split; [lia|]. constructor; [cbn; lia|exact Y2].
        -- intros (H & F). inversion F as [|y l F1 F2]; subst. cbn [fst snd] in F1.
           destruct (N.lt_ge_cases x a) as [XA|XA].
           ++ eexists. split; [left; reflexivity|]. cbn [fst snd]. lia.
           ++ destruct (proj2 (EX x)) as (s & Y1 & Y2); [split; [lia|exact F2]|]. exists s. split; [right; exact Y1|exact Y2].
    + split.
      2: { eapply Forall_impl; [|exact I4]. intros s. cbn beta. lia. }
      constructor; [exact I1|exact I2|]. intros x. rewrite EX. split.
      * intros (H & F). split; [lia|]. constructor; [cbn; lia|exact F].
      * intros (H & F). inversion F as [|y l F1 F2]; subst. cbn [fst snd] in F1. split; [lia|exact F2].
Qed.

(** * The free-space report *)
Lemma the_header_of {E} g h : header_of g h -> @the_header E g = Ok h.
Proof. intros H. rewrite header_of_iff in H. unfold the_header. rewrite H. reflexivity. Qed.
Lemma header_of_fun g h h' : header_of g h -> header_of g h' -> h = h'.
Proof. rewrite !header_of_iff. congruence. Qed.
Lemma positions m : flat_map (fun p => [first_lba (snd p); last_lba (snd p)]) (used_parts m) = flat (spans m).
Proof.
  unfold spans. rewrite used_in_order_eq. unfold used_list, flat.
  induction (used_parts m) as [|x r IH]; cbn [map flat_map]; [reflexivity|]. rewrite IH. reflexivity.
Qed.
Lemma arranged_tail h k p m : arranged h ((k, p) :: m) -> arranged h m.
Proof.
  intros [A B C]. apply map_ok_cons in A. destruct A as (A & _). constructor; auto.
  - intros j q H. apply (B j q). right. exact H.
  - intros i p1 j p2 H1 H2. apply (C i p1 j p2); right; assumption.
Qed.
Lemma arranged_chain h m : usable_ok h -> arranged h m ->
  exists S, Permutation (spans m) S /\ chained (first_usable h - 1) S (last_usable h + 1).
Proof.
  intros (U1 & U2 & U3). induction m as [|[k p] m IH]; intros A.
  - exists []. split; [constructor|]. cbn [chained]. lia.
  - destruct (IH (arranged_tail _ _ _ _ A)) as (S & P & C).
    unfold spans. cbn [used_in_order map snd filter]. unfold used_in_order. cbn [map snd filter].
    destruct (used_dec p) eqn:D; [|exists S; split; [exact P|exact C]].
    exists (ins_span (first_lba p, last_lba p) S). split.
    + cbn [map]. rewrite <- ins_perm. constructor. exact P.
    + assert (UP : used p).
      { unfold used_dec in D. destruct (list_eq_dec _ _ _) as [E|E]; [discriminate|exact E]. }
      destruct A as [A1 A2 A3]. destruct (A2 k p) as (R1 & R2 & R3); [left; reflexivity|exact UP|].
      apply ins_chained; auto; try lia. rewrite <- P. unfold spans. rewrite Forall_map. apply Forall_forall.
      intros q Hq. unfold used_in_order in Hq. apply filter_In in Hq. destruct Hq as (Hq & DQ).
      apply in_map_iff in Hq. destruct Hq as ([j q'] & <- & Hq). cbn [snd fst] in *.
      assert (UQ : used q').
      { unfold used_dec in DQ. destruct (list_eq_dec _ _ _) as [E|E]; [discriminate|exact E]. }
      apply map_ok_cons in A1. destruct A1 as (_ & A1). rewrite Forall_forall in A1.
      assert (JK : k <> j). { apply A1 in Hq. cbn in Hq. lia. }
      pose proof (A3 k p j q' (or_introl eq_refl) (or_intror Hq) UP UQ JK) as X. unfold covers in X.
      destruct (A2 j q') as (Q1 & Q2 & Q3); [right; exact Hq|exact UQ|].
      destruct (N.lt_ge_cases (last_lba p) (first_lba q')); [left; assumption|].
      destruct (N.lt_ge_cases (last_lba q') (first_lba p)); [right; assumption|]. exfalso.
      apply (X (N.max (first_lba p) (first_lba q'))). lia.
Qed.
Lemma sections_ext F G secs : (forall x, F x <-> G x) -> sections_of F secs -> sections_of G secs.
Proof. intros X [A B C]. constructor; auto. intros x. rewrite C. apply X. Qed.
Lemma used_covers m x :
  Forall (fun s => ~ (fst s <= x <= snd s)) (spans m) <-> (forall k p, has m k p -> used p -> ~ covers p x).
Proof.
  unfold spans. rewrite Forall_map, Forall_forall. unfold used_in_order, covers. split.
  - intros H k p Hp UP. apply (H p). apply filter_In. split; [apply in_map_iff; exists (k, p); auto|].
    unfold used_dec. destruct (list_eq_dec _ _ _); [contradiction|reflexivity].
  - intros H p Hp. apply filter_In in Hp. destruct Hp as (Hp & D). apply in_map_iff in Hp.
    destruct Hp as ([k q] & <- & Hp). apply (H k); [exact Hp|]. cbn [snd] in D.
    unfold used_dec in D. destruct (list_eq_dec _ _ _) as [E|E]; [discriminate|exact E].
Qed.
Lemma find_free_spec {E} oc g h : header_of g h -> usable_ok h -> arranged h (g_partitions g) ->
  exists secs, @find_free_sectors E oc g = Ok secs /\ sections_of (free_lba h (g_partitions g)) secs.
Proof.
  intros HH HU HA. destruct (arranged_chain h _ HU HA) as (S & P & C). destruct HU as (U1 & U2 & U3).
  rewrite <- two64 in U3.
  exists (gaps (first_usable h - 1) S (last_usable h + 1)). split.
  - unfold find_free_sectors. rewrite (the_header_of g h HH). cbn [obind]. unfold subw at 1.
    replace (1 <=? first_usable h) with true by (symmetry; apply N.leb_le; lia). cbn [obind].
    unfold addw at 1. replace (last_usable h + 1 <? modulus 64) with true by (symmetry; apply N.ltb_lt; lia).
    cbn [obind]. rewrite positions.
    rewrite (sort_unique _ (first_usable h - 1 :: flat S ++ [last_usable h + 1])).
    + apply free_chunks_gaps; auto.
    + apply chained_sorted, C.
    + constructor. apply Permutation_app; [apply flat_perm, P|reflexivity].
  - eapply sections_ext; [|apply gaps_spec, C]. intros x. cbn beta. unfold free_lba. rewrite <- used_covers.
    split; intros (A & B); (split; [lia|]); [rewrite P|rewrite <- P]; exact B.
Qed.
Lemma sections_unique F s1 : forall s2, sections_of F s1 -> sections_of F s2 -> s1 = s2.
Proof.
  revert F. induction s1 as [|[a n] s1 IH]; intros F [|[b k] s2] H1 H2; auto.
  - destruct H1 as [_ _ X], H2 as [N2 _ Y]. inversion N2; subst. cbn [snd] in *.
    destruct (proj2 (X b)) as (s & [] & _). apply Y. exists (b, k). split; [left; reflexivity|cbn; lia].
  - destruct H2 as [_ _ X], H1 as [N2 _ Y]. inversion N2; subst. cbn [snd] in *.
    destruct (proj2 (X a)) as (s & [] & _). apply Y. exists (a, n). split; [left; reflexivity|cbn; lia].
  - assert (HD : forall F a n s, sections_of F ((a, n) :: s) ->
      (forall x, F x -> a <= x) /\ (forall x, a <= x < a + n -> F x) /\ 1 <= n /\ ~ F (a + n) /\
      sections_of (fun x => F x /\ a + n <= x) s).
    { clear. intros F a n s [A B C]. inversion A as [|x l A1 A2]; inversion B as [|x' l' B1 B2]; subst. cbn [fst snd] in *.
      rewrite Forall_forall in B2. assert (FA : forall x, F x -> a <= x < a + n \/ a + n < x).
      { intros x Hx. apply C in Hx. destruct Hx as (t & [<-|Ht] & Hx); cbn [fst snd] in Hx; [left; lia|].
        apply B2 in Ht. right. lia. }
      split; [intros x Hx; apply FA in Hx; lia|]. split.
      { intros x Hx. apply C. exists (a, n). split; [left; reflexivity|exact Hx]. }
      split; [exact A1|]. split; [intros Hx; apply FA in Hx; lia|].
      constructor; [exact A2|exact B1|]. intros x. split.
      - intros (t & Ht & Hx). split; [apply C; exists t; split; [right; exact Ht|exact Hx]|]. apply B2 in Ht. lia.
      - intros (Hx & HL). apply C in Hx. destruct Hx as (t & [<-|Ht] & Hx); cbn [fst snd] in Hx; [lia|]. eauto. }
    apply HD in H1. apply HD in H2. destruct H1 as (A1 & A2 & A3 & A4 & A5), H2 as (B1 & B2 & B3 & B4 & B5).
    assert (a = b). { pose proof (A1 b (B2 b ltac:(lia))). pose proof (B1 a (A2 a ltac:(lia))). lia. } subst b.
    assert (n = k). { destruct (N.lt_trichotomy n k) as [L|[L|L]]; auto; exfalso; [apply A4, B2; lia|apply B4, A2; lia]. }
    subst k. f_equal. eapply IH; eassumption.
Qed.

(** * Aligned placement *)
Lemma align_up a s : 1 <= a -> let off := (a - s mod a) mod a in
  off < a /\ (s + off) mod a = 0 /\ forall t, s <= t -> t mod a = 0 -> s + off <= t.
Proof.
  intros HA off. assert (A0 : a <> 0) by lia. pose proof (N.mod_upper_bound s a A0) as HM.
  assert (EO : off = if s mod a =? 0 then 0 else a - s mod a).
  { unfold off. destruct (N.eqb_spec (s mod a) 0) as [E|E].
    - rewrite E, N.sub_0_r. apply N.mod_same. exact A0.
    - apply N.mod_small. lia. }
  split; [apply N.mod_upper_bound; exact A0|].
  pose proof (N.div_mod s a A0) as DS.
  assert (ES : s + off = a * (s / a + (if s mod a =? 0 then 0 else 1))).
  { rewrite EO. destruct (s mod a =? 0) eqn:E; [apply N.eqb_eq in E|]; lia. }
  split.
  - rewrite ES, N.mul_comm. apply N.mod_mul. exact A0.
  - intros t ST T0. pose proof (N.div_mod t a A0) as DT. rewrite T0 in DT. rewrite ES, DT, N.add_0_r.
    apply N.mul_le_mono_l. destruct (N.eqb_spec (s mod a) 0) as [E|E].
    + rewrite N.add_0_r. apply N.div_le_mono; assumption.
    + assert (s / a < t / a); [|lia].
      destruct (N.le_gt_cases (t / a) (s / a)) as [G|G]; [|exact G]. exfalso.
      pose proof (N.mul_le_mono_l _ _ a G). lia.
Qed.

(** Where the loop of add_partition puts [n] blocks. *)
Fixpoint choose (n a : N) (secs : list (N * N)) : option N :=
  match secs with
  | [] => None
  | (s, len) :: r => let off := (a - s mod a) mod a in if off + n <=? len then Some (s + off) else choose n a r
  end.
Lemma choose_spec n a : 1 <= a -> 1 <= n -> forall secs F, sections_of F secs ->
  match choose n a secs with
  | Some start => smallest (fun s => s mod a = 0 /\ forall x, s <= x < s + n -> F x) start
  | None => forall s, ~ (s mod a = 0 /\ forall x, s <= x < s + n -> F x)
  end.
Proof.
  intros HA HN. induction secs as [|[s len] r IH]; intros F SF; cbn [choose].
  - intros t (_ & X). destruct SF as [_ _ C]. destruct (proj2 (C t)) as (u & [] & _). apply X. lia.
  - destruct (align_up a s HA) as (A1 & A2 & A3). set (off := (a - s mod a) mod a) in *.
    assert (SF' := SF). destruct SF' as [SA SB SC]. inversion SA as [|x l SA1 SA2]; inversion SB as [|x' l' SB1 SB2]; subst.
    cbn [fst snd] in *. rewrite Forall_forall in SB2.
    assert (IN : forall t m, (forall x, t <= x < t + m -> F x) -> 1 <= m -> t < s + len -> s <= t /\ t + m <= s + len).
    { intros t m X M1 TL. assert (Ft : F t) by (apply X; lia). apply SC in Ft. destruct Ft as (u & [<-|Hu] & Hx); cbn [fst snd] in *.
      - split; [lia|]. destruct (N.le_gt_cases (t + m) (s + len)) as [G|G]; [exact G|]. exfalso.
        assert (Y : F (s + len)) by (apply X; lia). apply SC in Y. destruct Y as (v & [<-|Hv] & Hy); cbn [fst snd] in *; [lia|].
        apply SB2 in Hv. lia.
      - apply SB2 in Hu. lia. }
    assert (TL : sections_of (fun x => F x /\ s + len <= x) r).
    { constructor; auto. intros x. split.
      - intros (u & Hu & Hx). split; [apply SC; exists u; split; [right; exact Hu|exact Hx]|]. apply SB2 in Hu. lia.
      - intros (Fx & L). apply SC in Fx. destruct Fx as (u & [<-|Hu] & Hx); cbn [fst snd] in *; [lia|eauto]. }
    destruct (N.leb_spec (off + n) len) as [L|L].
    + split.
      * split; [exact A2|]. intros x Hx. apply SC. exists (s, len). split; [left; reflexivity|cbn [fst snd]; lia].
      * intros t (T0 & TX). apply A3; [|exact T0]. assert (Ft : F t) by (apply TX; lia).
        apply SC in Ft. destruct Ft as (u & [<-|Hu] & Hx); cbn [fst snd] in *; [lia|]. apply SB2 in Hu. lia.
    + specialize (IH _ TL).
      assert (EQ : forall t, (t mod a = 0 /\ forall x, t <= x < t + n -> F x) <->
                   (t mod a = 0 /\ forall x, t <= x < t + n -> F x /\ s + len <= x)).
      { intros t. split; intros (T0 & TX); (split; [exact T0|]); intros x Hx; [|apply TX, Hx].
        split; [apply TX, Hx|]. destruct (N.lt_ge_cases t (s + len)) as [G|G]; [|lia]. exfalso.
        destruct (IN t n TX HN G) as (G1 & G2). pose proof (A3 t G1 T0). lia. }
      destruct (choose n a r) as [start|].
      * destruct IH as (I1 & I2). split; [apply EQ, I1|]. intros t Ht. apply I2. apply EQ. exact Ht.
      * intros t Ht. apply (IH t). apply EQ. exact Ht.
Qed.
Lemma blocks_ceil size lb : 1 <= size -> (size - 1) / lb_u64 lb + 1 = blocks_for size lb.
Proof.
  intros H. unfold blocks_for. assert (L : lb_u64 lb <> 0) by (destruct lb; discriminate).
  replace (size + lb_u64 lb - 1) with (size - 1 + 1 * lb_u64 lb) by lia. rewrite N.div_add by exact L. reflexivity.
Qed.

(** The rest of add_partition once the place is known. *)
Definition finish_add (oc : bool) (nm : list N) (n : N) (ty : ptype) (fl : N) (rnd : uuid) (start : N) : M gdisk gpt_err N :=
  let* next := (fun g => (find_next_partition_id g, g)) in
  let* id := (match next with
              | Some i => ret i
              | None => fun g => (let? h := the_header g in addw oc 32 (num_parts h) 1, g)
              end) in
  let* changes := check_count id in
  insert_partition oc id (mkPart ty rnd start (start + n - 1) fl nm) changes.
Lemma bind_ext {S E A B} (m : M S E A) (k1 k2 : A -> M S E B) s :
  (forall a s', k1 a s' = k2 a s') -> bind m k1 s = bind m k2 s.
Proof. intros H. unfold bind. destruct (m s) as [[a|e|] s']; auto. Qed.
Lemma add_in_sections_choose oc nm n ty fl al rnd g : 1 <= alignment al -> 1 <= n -> alignment al + n < modulus 64 ->
  forall secs, Forall (fun s => fst s + snd s <= modulus 64 - 1) secs ->
  add_in_sections oc nm n ty fl al rnd secs g =
  match choose n (alignment al) secs with
  | Some start => finish_add oc nm n ty fl rnd start g
  | None => (Err GNotEnoughSpace, g)
  end.
Proof.
  intros HA HN H64. induction secs as [|[s len] r IH]; intros F; [reflexivity|].
  inversion F as [|x l F1 F2]; subst. cbn [fst snd] in F1. cbn [add_in_sections choose].
  destruct (align_up (alignment al) s HA) as (A1 & _ & _). set (off := (alignment al - s mod alignment al) mod alignment al) in *.
  assert (A0 : alignment al <> 0) by lia.
  assert (EO : match al with
              | Some a => let? r0 := remw s a in let? s0 := subw oc 64 a r0 in remw s0 a
              | None => Ok 0
              end = @Ok gpt_err N off).
  { unfold off. destruct al as [a|]; cbn [alignment] in *.
    - unfold remw at 1. replace (a =? 0) with false by (symmetry; apply N.eqb_neq; lia). cbn [obind].
      pose proof (N.mod_upper_bound s a A0). unfold subw. replace (s mod a <=? a) with true by (symmetry; apply N.leb_le; lia).
      cbn [obind]. unfold remw. replace (a =? 0) with false by (symmetry; apply N.eqb_neq; lia). reflexivity.
    - rewrite !N.mod_1_r. reflexivity. }
  rewrite EO. unfold bind at 1, lift at 1. unfold bind at 1, lift at 1.
  unfold addw at 1. replace (off + n <? modulus 64) with true by (symmetry; apply N.ltb_lt; lia).
  destruct (N.leb_spec (off + n) len) as [L|L]; [|apply IH; exact F2].
  unfold bind at 1, lift at 1. unfold addw at 1. replace (s + off <? modulus 64) with true by (symmetry; apply N.ltb_lt; lia).
  unfold finish_add.
  apply bind_ext. intros next g1. apply bind_ext. intros id g2.
  unfold bind at 1, lift at 1. unfold addw at 1. replace (s + off + n <? modulus 64) with true by (symmetry; apply N.ltb_lt; lia).
  unfold bind at 1, lift at 1. unfold subw at 1. replace (1 <=? s + off + n) with true by (symmetry; apply N.leb_le; lia).
  reflexivity.
Qed.
Lemma bind_lift_ok {S E A B} (a : A) (k : A -> M S E B) s : bind (lift (Ok a)) k s = k a s.
Proof. reflexivity. Qed.
(** In the debug build an overflow stops the program, so nothing needs to be assumed. *)
Lemma add_in_sections_debug nm n ty fl al rnd g : 1 <= alignment al -> 1 <= n ->
  forall secs, Forall (fun s => fst s + snd s <= modulus 64 - 1) secs ->
  fst (add_in_sections true nm n ty fl al rnd secs g) <> Panic ->
  add_in_sections true nm n ty fl al rnd secs g =
  match choose n (alignment al) secs with
  | Some start => finish_add true nm n ty fl rnd start g
  | None => (Err GNotEnoughSpace, g)
  end.
Proof.
  intros HA HN. induction secs as [|[s len] r IH]; intros F; [reflexivity|].
  inversion F as [|x l F1 F2]; subst. cbn [fst snd] in F1. cbn [add_in_sections choose].
  destruct (align_up (alignment al) s HA) as (A1 & _ & _). set (off := (alignment al - s mod alignment al) mod alignment al) in *.
  assert (A0 : alignment al <> 0) by lia.
  assert (EO : match al with
              | Some a => let? r0 := remw s a in let? s0 := subw true 64 a r0 in remw s0 a
              | None => Ok 0
              end = @Ok gpt_err N off).
  { unfold off. destruct al as [a|]; cbn [alignment] in *.
    - unfold remw at 1. replace (a =? 0) with false by (symmetry; apply N.eqb_neq; lia). cbn [obind].
      pose proof (N.mod_upper_bound s a A0). unfold subw. replace (s mod a <=? a) with true by (symmetry; apply N.leb_le; lia).
      cbn [obind]. unfold remw. replace (a =? 0) with false by (symmetry; apply N.eqb_neq; lia). reflexivity.
    - rewrite !N.mod_1_r. reflexivity. }
  rewrite EO. intros NP.
  destruct (N.ltb_spec (off + n) (modulus 64)) as [H64|H64].
  2: { destruct NP. unfold bind, lift, addw. replace (off + n <? modulus 64) with false by (symmetry; apply N.ltb_ge; lia). reflexivity. }
  assert (EN : @addw gpt_err true 64 off n = Ok (off + n)).
  { unfold addw. replace (off + n <? modulus 64) with true by (symmetry; apply N.ltb_lt; lia). reflexivity. }
  rewrite bind_lift_ok in NP |- *. rewrite EN in NP |- *. rewrite bind_lift_ok in NP |- *.
  destruct (N.leb_spec (off + n) len) as [L|L]; [|apply IH; [exact F2|exact NP]].
  clear NP. unfold bind at 1, lift at 1. unfold addw at 1. replace (s + off <? modulus 64) with true by (symmetry; apply N.ltb_lt; lia).
  unfold finish_add.
  apply bind_ext. intros next g1. apply bind_ext. intros id g2.
  unfold bind at 1, lift at 1. unfold addw at 1. replace (s + off + n <? modulus 64) with true by (symmetry; apply N.ltb_lt; lia).
  unfold bind at 1, lift at 1. unfold subw at 1. replace (1 <=? s + off + n) with true by (symmetry; apply N.leb_le; lia).
  reflexivity.
Qed.
Lemma sections_bound F secs n : sections_of F secs -> (forall x, F x -> x < n) -> Forall (fun s => fst s + snd s <= n) secs.
Proof.
  intros [A _ C] HF. rewrite Forall_forall in *. intros s Hs. pose proof (A s Hs) as L.
  assert (X : F (fst s + snd s - 1)) by (apply C; exists s; split; [exact Hs|lia]). apply HF in X. lia.
Qed.
Lemma add_partition_choose oc nm size ty fl al rnd g h :
  header_of g h -> usable_ok h -> arranged h (g_partitions g) ->
  1 <= size -> let n := blocks_for size (c_lb (g_config g)) in sensible oc al n ->
  (exists start, smallest (fits_at h (g_partitions g) n (alignment al)) start /\
     add_partition oc nm size ty fl al rnd g = finish_add oc nm n ty fl rnd start g) \/
  ((forall s, ~ fits_at h (g_partitions g) n (alignment al) s) /\
     add_partition oc nm size ty fl al rnd g = (Err GNotEnoughSpace, g)) \/
  (2 ^ 64 <= alignment al + n /\ fst (add_partition oc nm size ty fl al rnd g) = Panic).
Proof.
  intros HH HU HA HS n (HL & HO). destruct (@find_free_spec gpt_err oc g h HH HU HA) as (secs & EF & SF).
  assert (N1 : 1 <= n) by (unfold n; rewrite <- blocks_ceil by exact HS; apply N.le_add_l).
  rewrite <- two64 in *.
  assert (BD : Forall (fun s => fst s + snd s <= modulus 64 - 1) secs).
  { destruct HU as (U1 & U2 & U3). eapply Forall_impl; [|apply (sections_bound _ _ (last_usable h + 1) SF)].
    - intros s Hs. cbn beta in Hs |- *. rewrite <- two64 in U3. lia.
    - intros x (X & _). lia. }
  assert (EA : add_partition oc nm size ty fl al rnd g = add_in_sections oc nm n ty fl al rnd secs g).
  { unfold add_partition. replace (size =? 0) with false by (symmetry; apply N.eqb_neq; lia). cbn zeta.
    rewrite (blocks_ceil size _ HS). fold n. unfold bind at 1. rewrite EF. reflexivity. }
  assert (EQ : add_partition oc nm size ty fl al rnd g = match choose n (alignment al) secs with
    | Some start => finish_add oc nm n ty fl rnd start g | None => (Err GNotEnoughSpace, g) end \/
    (modulus 64 <= alignment al + n /\ fst (add_partition oc nm size ty fl al rnd g) = Panic)).
  { rewrite EA. destruct (N.lt_ge_cases (alignment al + n) (modulus 64)) as [LT|GE]; [left; apply add_in_sections_choose; auto|].
    assert (oc = true) by (destruct HO as [HO|HO]; [exact HO|lia]). subst oc.
    destruct (fst (add_in_sections true nm n ty fl al rnd secs g)) eqn:EP; [left|left|right; auto];
      (apply add_in_sections_debug; auto; rewrite EP; discriminate). }
  destruct EQ as [EQ|EQ]; [|right; right; exact EQ].
  rewrite EQ. pose proof (choose_spec n (alignment al) HL N1 secs _ SF) as CS.
  destruct (choose n (alignment al) secs) as [start|]; [left|right; left].
  - exists start. split; [exact CS|reflexivity].
  - split; [exact CS|reflexivity].
Qed.

(** * Ids *)
Lemma used_is p : is_used p = true <-> used p.
Proof. symmetry. apply used_iff. Qed.
Lemma first_free_id_spec m (MO : map_ok m) n : forall i,
  match first_free_id m i n with
  | Some k => smallest (fun k => i <= k < i + N.of_nat n /\ ~ is_in_use k m) k
  | None => forall k, i <= k < i + N.of_nat n -> is_in_use k m
  end.
Proof.
  induction n as [|n IH]; intros i; cbn [first_free_id]; [intros k; lia|].
  assert (D : match pm_get i m with Some p => is_used p | None => false end = true <-> is_in_use i m).
  { destruct (pm_get i m) as [p|] eqn:G.
    - apply (pm_get_some m MO) in G. rewrite used_is. split; [intros U; exists p; auto|].
      intros (q & Hq & U). rewrite (has_fun m MO i p q G Hq). exact U.
    - split; [discriminate|]. intros (q & Hq & _). rewrite (pm_get_none m MO) in G. destruct (G q Hq). }
  assert (FREE : ~ is_in_use i m -> smallest (fun k => i <= k < i + N.of_nat (S n) /\ ~ is_in_use k m) i).
  { intros X. split; [split; [lia|exact X]|]. intros y (Y & _). lia. }
  assert (NEXT : is_in_use i m -> match first_free_id m (i + 1) n with
     | Some k => smallest (fun k => i <= k < i + N.of_nat (S n) /\ ~ is_in_use k m) k
     | None => forall k, i <= k < i + N.of_nat (S n) -> is_in_use k m end).
  { intros X. specialize (IH (i + 1)). destruct (first_free_id m (i + 1) n) as [k|].
    - destruct IH as ((I1 & I2) & I3). split; [split; [lia|exact I2]|]. intros y (Y1 & Y2).
      destruct (N.eq_dec y i) as [->|NE]; [contradiction|]. apply I3. split; [lia|exact Y2].
    - intros k Hk. destruct (N.eq_dec k i) as [->|NE]; [exact X|]. apply IH. lia. }
  destruct (pm_get i m) as [p|].
  - destruct (is_used p); [apply NEXT, D; reflexivity|apply FREE; rewrite <- D; discriminate].
  - apply FREE. rewrite <- D. discriminate.
Qed.
Lemma next_id_spec {E} g h : header_of g h -> map_ok (g_partitions g) -> 1 <= num_parts h ->
  exists r, @find_next_partition_id E g = Ok r /\
  match r with
  | Some k => smallest (fun k => 1 <= k <= num_parts h /\ ~ is_in_use k (g_partitions g)) k
  | None => forall k, 1 <= k <= num_parts h -> is_in_use k (g_partitions g)
  end.
Proof.
  intros HH MO N1. unfold find_next_partition_id. rewrite (the_header_of g h HH). cbn [obind].
  assert (X : match first_free_id (g_partitions g) 1 (N.to_nat (num_parts h)) with
    | Some k => smallest (fun k => 1 <= k <= num_parts h /\ ~ is_in_use k (g_partitions g)) k
    | None => forall k, 1 <= k <= num_parts h -> is_in_use k (g_partitions g) end).
  { pose proof (first_free_id_spec _ MO (N.to_nat (num_parts h)) 1) as S. rewrite N2Nat.id in S.
    destruct (first_free_id _ _ _) as [k|].
    - destruct S as ((S1 & S2) & S3). split; [split; [lia|exact S2]|]. intros y (Y1 & Y2). apply S3. split; [lia|exact Y2].
    - intros k Hk. apply S. lia. }
  destruct (g_partitions g) as [|x m] eqn:EQ; [|eexists; split; [reflexivity|exact X]].
  exists (Some 1). split; [reflexivity|]. split; [split; [lia|]|intros y (Y & _); lia]. intros (p & [] & _).
Qed.
Lemma would_change_iff h k : num_parts_would_change h k = true <-> num_parts h < N.max k 128.
Proof.
  unfold num_parts_would_change, MIN_NUM_PARTS. rewrite Bool.negb_true_iff, N.eqb_neq. lia.
Qed.
Lemma placed_insert m k p : map_ok m -> placed m k p (pm_insert k p m).
Proof. intros MO. split; [apply map_ok_insert, MO|]. intros j q. apply has_insert, MO. Qed.
Lemma init_headers_partitions oc g : g_partitions (snd (init_headers oc g)) = g_partitions g.
Proof.
  unfold init_headers. unfold bind at 1, on_device, map_err.
  destruct (find_backup_lba (c_lb (g_config g)) (g_device g)) as [[n|e|] d]; try reflexivity.
  cbn zeta. destruct (build oc _ _) as [h1|e|]; try reflexivity.
  cbn [g_config set_primary set_device]. destruct (c_readonly_backup (g_config g)); [reflexivity|].
  destruct (build oc _ _) as [h2|e|]; reflexivity.
Qed.
Lemma insert_partition_ok oc id p c g k g' : insert_partition oc id p c g = (Ok k, g') ->
  k = id /\ g_partitions g' = pm_insert id p (g_partitions g) /\
  (c = false -> g' = set_partitions (pm_insert id p (g_partitions g)) g).
Proof.
  unfold insert_partition. unfold bind at 1. unfold bind at 1.
  set (g1 := set_partitions (pm_insert id p (g_partitions g)) g). destruct c.
  - destruct (init_headers oc g1) as [[[]|e|] g2] eqn:E; cbn; intros H; try discriminate. injection H as <- <-.
    split; [reflexivity|]. split; [|discriminate]. pose proof (init_headers_partitions oc g1) as X. rewrite E in X. exact X.
  - cbn. intros H. injection H as <- <-. auto.
Qed.
Lemma finish_add_ok oc nm n ty fl rnd start g h id g' :
  header_of g h -> finish_add oc nm n ty fl rnd start g = (Ok id, g') ->
  exists next, @find_next_partition_id gpt_err g = Ok next /\
    match next with Some i => id = i | None => @addw gpt_err oc 32 (num_parts h) 1 = Ok id end /\
    (num_parts h < N.max id 128 -> c_change_partition_count (g_config g) = true) /\
    g_partitions g' = pm_insert id (mkPart ty rnd start (start + n - 1) fl nm) (g_partitions g) /\
    (N.max id 128 <= num_parts h -> g' = set_partitions (pm_insert id (mkPart ty rnd start (start + n - 1) fl nm) (g_partitions g)) g).
Proof.
  intros HH. unfold finish_add. unfold bind at 1. destruct (find_next_partition_id g) as [next|e|]; try discriminate.
  unfold bind at 1.
  assert (X : exists o, match next with
      | Some i => ret i
      | None => fun g0 : gdisk => (let? h0 := the_header g0 in addw oc 32 (num_parts h0) 1, g0)
      end g = (o, g) /\ match next with Some i => o = Ok i | None => o = @addw gpt_err oc 32 (num_parts h) 1 end).
  { destruct next as [i|]; [exists (Ok i); split; reflexivity|]. rewrite (the_header_of g h HH). eexists; split; reflexivity. }
  destruct X as (o & -> & X). destruct o as [id'|e|]; try discriminate.
  unfold bind at 1, check_count. rewrite (the_header_of g h HH). cbn [obind].
  destruct (num_parts_would_change h id' && negb (c_change_partition_count (g_config g))) eqn:W; [discriminate|].
  intros H. apply insert_partition_ok in H. destruct H as (<- & H1 & H2).
  exists next. split; [reflexivity|]. split; [destruct next; [congruence|symmetry; exact X]|]. split.
  - intros L. apply would_change_iff in L. rewrite L in W. destruct (c_change_partition_count (g_config g)); auto.
  - split; [exact H1|]. intros L. apply H2. destruct (num_parts_would_change h id) eqn:Y; [|reflexivity].
    apply would_change_iff in Y. lia.
Qed.
(** If the number of entries may not change, the only outcomes are: insertion, or an error. *)
Lemma finish_add_fixed oc nm n ty fl rnd start g h :
  header_of g h -> map_ok (g_partitions g) -> 128 <= num_parts h -> num_parts h + 1 < 2 ^ 32 ->
  c_change_partition_count (g_config g) = false ->
  (exists id, smallest (fun k => 1 <= k <= num_parts h /\ ~ is_in_use k (g_partitions g)) id /\
     finish_add oc nm n ty fl rnd start g =
     (Ok id, set_partitions (pm_insert id (mkPart ty rnd start (start + n - 1) fl nm) (g_partitions g)) g)) \/
  ((forall k, 1 <= k <= num_parts h -> is_in_use k (g_partitions g)) /\
   finish_add oc nm n ty fl rnd start g = (Err GPartitionCountWouldChange, g)).
Proof.
  intros HH MO N1 N2 HC. destruct (@next_id_spec gpt_err g h HH MO) as (r & E & S); [lia|].
  unfold finish_add. destruct r as [k|]; [left|right].
  - exists k. split; [exact S|]. unfold bind at 1. rewrite E. unfold bind at 1. unfold ret at 1. unfold bind at 1, check_count. rewrite (the_header_of g h HH). cbn [obind].
    destruct (num_parts_would_change h k) eqn:W.
    { apply would_change_iff in W. destruct S as ((S1 & _) & _). lia. }
    cbn [andb]. reflexivity.
  - split; [exact S|]. unfold bind at 1. rewrite E. unfold bind at 1. rewrite (@the_header_of gpt_err g h HH). cbn [obind]. unfold addw.
    replace (num_parts h + 1 <? modulus 32) with true by (symmetry; apply N.ltb_lt; rewrite two32; exact N2).
    unfold bind, check_count. rewrite (the_header_of g h HH). cbn [obind].
    destruct (num_parts_would_change h (num_parts h + 1)) eqn:W.
    2: { assert (num_parts h < N.max (num_parts h + 1) 128) by lia. apply would_change_iff in H. congruence. }
    rewrite HC. reflexivity.
Qed.

Lemma find_next_pure {E} g : (exists r, @find_next_partition_id E g = Ok r) \/ @find_next_partition_id E g = Panic.
Proof.
  unfold find_next_partition_id. destruct (g_partitions g); [left; eauto|]. unfold the_header.
  destruct (try_header g); cbn [obind]; eauto.
Qed.
Lemma init_not_space oc g : fst (init_headers oc g) <> Err GNotEnoughSpace.
Proof.
  unfold init_headers. unfold bind at 1, on_device, map_err.
  destruct (find_backup_lba (c_lb (g_config g)) (g_device g)) as [[n|e|] d]; try discriminate.
  cbn zeta. destruct (build oc _ _) as [h1|e|]; try discriminate.
  cbn [g_config set_primary set_device]. destruct (c_readonly_backup (g_config g)); [discriminate|].
  destruct (build oc _ _) as [h2|e|]; discriminate.
Qed.
Lemma insert_not_space oc id p c g : fst (insert_partition oc id p c g) <> Err GNotEnoughSpace.
Proof.
  unfold insert_partition. unfold bind at 1. unfold bind at 1. destruct c; [|discriminate].
  pose proof (init_not_space oc (set_partitions (pm_insert id p (g_partitions g)) g)) as X.
  destruct (init_headers oc _) as [[[]|e|] g2]; cbn in X |- *; congruence.
Qed.
Lemma finish_add_not_space oc nm n ty fl rnd start g :
  fst (finish_add oc nm n ty fl rnd start g) <> Err GNotEnoughSpace.
Proof.
  unfold finish_add. unfold bind at 1. destruct (@find_next_pure gpt_err g) as [(r & ->)| ->]; [|discriminate].
  assert (TL : forall id, fst ((let* changes := check_count id in
     insert_partition oc id (mkPart ty rnd start (start + n - 1) fl nm) changes) g) <> Err GNotEnoughSpace).
  { intros id. unfold bind, check_count. unfold the_header. destruct (try_header g) as [h|e|]; try discriminate. cbn [obind].
    match goal with |- context [if ?b then _ else _] => destruct b end; [discriminate|]. apply insert_not_space. }
  unfold bind at 1. destruct r as [i|]; [apply TL|].
  unfold the_header at 1. destruct (try_header g) as [h|e|]; try discriminate. cbn [obind]. unfold addw.
  destruct (num_parts h + 1 <? modulus 32); [apply TL|]. destruct oc; [discriminate|apply TL].
Qed.
(** Without permission to change the number of entries, either the partition is inserted under an id
    within the present number or nothing changes. *)
Lemma finish_add_cases oc nm n ty fl rnd start g h :
  header_of g h -> c_change_partition_count (g_config g) = false ->
  snd (finish_add oc nm n ty fl rnd start g) = g \/
  exists id, finish_add oc nm n ty fl rnd start g =
    (Ok id, set_partitions (pm_insert id (mkPart ty rnd start (start + n - 1) fl nm) (g_partitions g)) g).
Proof.
  intros HH HC. remember (finish_add oc nm n ty fl rnd start g) as res eqn:EM.
  assert (TL : forall id, res = (let* changes := check_count id in
     insert_partition oc id (mkPart ty rnd start (start + n - 1) fl nm) changes) g ->
     snd res = g \/ exists id, res = (Ok id, set_partitions (pm_insert id (mkPart ty rnd start (start + n - 1) fl nm) (g_partitions g)) g)).
  { intros id ->. unfold bind, check_count. rewrite (the_header_of g h HH). cbn [obind]. rewrite HC. rewrite Bool.andb_true_r.
    destruct (num_parts_would_change h id); [left; reflexivity|]. right. exists id. reflexivity. }
  unfold finish_add in EM. unfold bind at 1 in EM.
  destruct (@find_next_pure gpt_err g) as [(r & EN)|EN]; rewrite EN in EM; [|subst res; left; reflexivity].
  unfold bind at 1 in EM. destruct r as [i|]; [apply (TL i EM)|].
  rewrite (the_header_of g h HH) in EM. cbn [obind] in EM. unfold addw in EM.
  destruct (num_parts h + 1 <? modulus 32); [apply (TL _ EM)|]. destruct oc; [subst res; left; reflexivity|apply (TL _ EM)].
Qed.

(** * add_partition_at *)
Definition finish_at (oc : bool) (nm : list N) (id first n : N) (ty : ptype) (fl : N) (rnd : uuid) : M gdisk gpt_err N :=
  let* e := lift (addw oc 64 first n) in
  let* last := lift (subw oc 64 e 1) in
  let* changes := check_count id in
  insert_partition oc id (mkPart ty rnd first last fl nm) changes.
Definition takes (first n : N) (s : N * N) : bool := (fst s <=? first) && (n <=? snd s).
Lemma add_at_sections oc nm id first n ty fl rnd g secs :
  add_at_in_sections oc nm id first n ty fl rnd secs g =
  if existsb (takes first n) secs then finish_at oc nm id first n ty fl rnd g else (Err GNotEnoughSpace, g).
Proof.
  induction secs as [|[s len] r IH]; [reflexivity|]. cbn [add_at_in_sections existsb]. unfold takes at 1. cbn [fst snd].
  destruct ((s <=? first) && (n <=? len)); cbn [negb orb]; [reflexivity|exact IH].
Qed.
Lemma run_in_section F secs t n : sections_of F secs -> 1 <= n -> (forall x, t <= x < t + n -> F x) ->
  exists s, In s secs /\ fst s <= t /\ t + n <= fst s + snd s.
Proof.
  intros [A B C] N1 X. assert (Ft : F t) by (apply X; lia). apply C in Ft. destruct Ft as (s & Hs & Hx).
  exists s. split; [exact Hs|]. split; [lia|].
  destruct (N.le_gt_cases (t + n) (fst s + snd s)) as [G|G]; [exact G|]. exfalso.
  assert (Y : F (fst s + snd s)) by (apply X; lia). apply C in Y. destruct Y as (v & Hv & Hy). clear C X.
  revert Hs Hv. rewrite Forall_forall in A. assert (A' := A v). clear A. induction B as [|u l B IH FB]; [intros []|].
  rewrite Forall_forall in FB. intros [<-|Hs] [<-|Hv].
  - lia. - apply FB in Hv. lia. - apply FB in Hs. lia.
  - apply IH; auto. intros; apply A'. right; assumption.
Qed.
Lemma section_run F secs s : sections_of F secs -> In s secs -> forall x, fst s <= x < fst s + snd s -> F x.
Proof. intros [_ _ C] Hs x Hx. apply C. exists s. auto. Qed.
Lemma in_use_get m k : map_ok m ->
  (match pm_get k m with Some p => is_used p | None => false end = true <-> is_in_use k m).
Proof.
  intros MO. destruct (pm_get k m) as [p|] eqn:G.
  - apply (pm_get_some m MO) in G. rewrite used_is. split; [intros U; exists p; auto|].
    intros (q & Hq & U). rewrite (has_fun m MO k p q G Hq). exact U.
  - split; [discriminate|]. intros (q & Hq & _). rewrite (pm_get_none m MO) in G. destruct (G q Hq).
Qed.
(** The call with everything but the search for a section resolved. *)
Lemma add_at_eq oc nm id first n ty fl rnd g h :
  header_of g h -> usable_ok h -> arranged h (g_partitions g) -> 1 <= id -> 1 <= n -> ~ is_in_use id (g_partitions g) ->
  exists secs, sections_of (free_lba h (g_partitions g)) secs /\
  add_partition_at oc nm id first n ty fl rnd g =
  if existsb (takes first n) secs then finish_at oc nm id first n ty fl rnd g else (Err GNotEnoughSpace, g).
Proof.
  intros HH HU HA I1 N1 NU. destruct (@find_free_spec gpt_err oc g h HH HU HA) as (secs & EF & SF).
  exists secs. split; [exact SF|]. unfold add_partition_at.
  replace (n =? 0) with false by (symmetry; apply N.eqb_neq; lia).
  replace (id =? 0) with false by (symmetry; apply N.eqb_neq; lia).
  rewrite <- (in_use_get _ _ (ar_map _ _ HA)) in NU.
  match goal with |- context [if ?b then _ else _] => destruct b end; [destruct NU; reflexivity|].
  unfold bind. rewrite EF. apply add_at_sections.
Qed.

(** * Keeping partitions apart *)
Lemma arranged_nil h : arranged h [].
Proof. constructor; [constructor|intros k p []|intros j p k q []]. Qed.
Lemma arranged_remove h m k : arranged h m -> arranged h (pm_remove k m).
Proof.
  intros [A B C]. constructor; [apply map_ok_remove, A| |].
  - intros j p H. apply (has_remove m A) in H. apply (B j p), H.
  - intros i p j q H1 H2. apply (has_remove m A) in H1. apply (has_remove m A) in H2. apply (C i p j q); [apply H1|apply H2].
Qed.
Lemma arranged_insert h m k p : arranged h m ->
  (used p -> first_lba p <= last_lba p /\ forall x, covers p x -> free_lba h m x) ->
  arranged h (pm_insert k p m).
Proof.
  intros [A B C] F. constructor; [apply map_ok_insert, A| |].
  - intros j q H U. apply (has_insert m A) in H. destruct H as [(-> & ->)|(_ & H)]; [|apply (B j q H U)].
    destruct (F U) as (L & X). destruct (X (first_lba p)) as (X1 & _); [unfold covers; lia|].
    destruct (X (last_lba p)) as (X2 & _); [unfold covers; lia|]. lia.
  - intros i q j r H1 H2 U1 U2 NE x (X1 & X2). apply (has_insert m A) in H1. apply (has_insert m A) in H2.
    destruct H1 as [(-> & ->)|(N1 & H1)], H2 as [(-> & ->)|(N2 & H2)].
    + congruence.
    + destruct (F U1) as (_ & X). destruct (X x X1) as (_ & Y). apply (Y j r H2 U2 X2).
    + destruct (F U2) as (_ & X). destruct (X x X2) as (_ & Y). apply (Y i q H1 U1 X1).
    + apply (C i q j r H1 H2 U1 U2 NE x). auto.
Qed.
Lemma arranged_mono h h' m : first_usable h' = first_usable h -> last_usable h <= last_usable h' ->
  arranged h m -> arranged h' m.
Proof.
  intros E L [A B C]. constructor; auto. intros k p H U. destruct (B k p H U) as (B1 & B2 & B3). rewrite E. lia.
Qed.

(** * Alignment *)
Lemma lower_exponent_spec f e : let r := lower_exponent e f in
  (r <= e)%nat /\ f mod 2 ^ N.of_nat r = 0 /\
  forall k, (k <= e)%nat -> f mod 2 ^ N.of_nat k = 0 -> (k <= r)%nat.
Proof.
  induction e as [|e IH]; cbn [lower_exponent].
  - split; [lia|]. split; [apply N.mod_1_r|auto].
  - destruct (N.eqb_spec (f mod 2 ^ N.of_nat (S e)) 0) as [E|E].
    + split; [lia|]. split; [exact E|auto].
    + destruct IH as (I1 & I2 & I3). cbn zeta. split; [lia|]. split; [exact I2|]. intros k K1 K2.
      destruct (Nat.eq_dec k (S e)) as [->|NE]; [contradiction|]. apply I3; [lia|exact K2].
Qed.
Lemma pow2_divides f a b : (a <= b)%nat -> f mod 2 ^ N.of_nat b = 0 -> f mod 2 ^ N.of_nat a = 0.
Proof.
  intros L H. apply N.mod_divide in H; [|apply N.pow_nonzero; discriminate]. apply N.mod_divide; [apply N.pow_nonzero; discriminate|].
  eapply N.divide_trans; [|exact H]. exists (2 ^ (N.of_nat b - N.of_nat a)). rewrite <- N.pow_add_r. f_equal. lia.
Qed.
Lemma fold_lower l : forall e, let r := fold_left (fun e (p : N * partition) => lower_exponent e (first_lba (snd p))) l e in
  (r <= e)%nat /\ Forall (fun p => first_lba (snd p) mod 2 ^ N.of_nat r = 0) l /\
  forall k, (k <= e)%nat -> Forall (fun p => first_lba (snd p) mod 2 ^ N.of_nat k = 0) l -> (k <= r)%nat.
Proof.
  induction l as [|p l IH]; intros e; cbn [fold_left]; [split; [lia|]; split; [constructor|auto]|].
  destruct (lower_exponent_spec (first_lba (snd p)) e) as (A1 & A2 & A3).
  destruct (IH (lower_exponent e (first_lba (snd p)))) as (B1 & B2 & B3). cbn zeta. split; [lia|]. split.
  - constructor; [eapply pow2_divides; eassumption|exact B2].
  - intros k K F. inversion F as [|x y F1 F2]; subst. apply B3; [apply A3; assumption|exact F2].
Qed.
