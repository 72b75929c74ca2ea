(** QueryFacts.v - lemmas about calls that only look at a disk. *)
From Coq Require Import Sorting.Permutation.
From Verif Require Export SpecQuery RefineFacts AllocFacts.
Open Scope list_scope.
Open Scope N_scope.

Lemma chunk_panics {E} a b r : a <= b -> b < modulus 64 ->
  (@free_chunks E true (a :: b :: r) = Panic <-> a + 1 = modulus 64 \/ b = 0 \/ @free_chunks E true r = Panic).
Proof.
  intros L B. cbn [free_chunks]. unfold addw, subw. 
  destruct (N.ltb_spec (a + 1) (modulus 64)) as [A|A]; cbn [obind].
  2:{ split; [intros _; left; lia|reflexivity]. }
  destruct (N.leb_spec 1 b) as [C|C]; cbn [obind].
  2:{ split; [intros _; right; left; lia|reflexivity]. }
  destruct (N.leb_spec (a + 1) (b - 1)) as [D|D].
  - destruct (N.leb_spec (a + 1) (b - 1)) as [_|X]; [|lia]. cbn [obind].
    destruct (N.ltb_spec (b - 1 - (a + 1) + 1) (modulus 64)) as [_|X]; [|lia]. cbn [obind].
    destruct (free_chunks true r) as [x|e|]; cbn [obind]; split; try discriminate; auto; intros [X|[X|X]]; try lia; discriminate.
  - split; [auto|]. intros [X|[X|X]]; try lia; exact X.
Qed.
Lemma sorted_chunk a b r : StronglySorted N.le (a :: b :: r) ->
  a <= b /\ StronglySorted N.le r /\ Forall (N.le b) r /\ Forall (N.le a) r.
Proof.
  intros S. inversion S as [|x l S1 F1]; subst. inversion S1 as [|x l S2 F2]; subst. inversion F1 as [|x l G1 G2]; subst.
  auto.
Qed.
Lemma count_le x l : (count_occ N.eq_dec l x <= length l)%nat.
Proof. induction l as [|y l IH]; cbn; [auto|]. destruct (N.eq_dec y x); lia. Qed.
Lemma chunks_panic {E} n : forall l, length l = (2 * n)%nat -> StronglySorted N.le l ->
  Forall (fun x => x < modulus 64) l ->
  (@free_chunks E true l = Panic <-> at_least_two 0 l \/ at_least_two (modulus 64 - 1) l).
Proof.
  assert (MP : 0 < modulus 64) by reflexivity.
  unfold at_least_two. induction n as [|n IH]; intros l L S F.
  - destruct l; [|discriminate]. cbn. split; [discriminate|intros [H|H]; lia].
  - destruct l as [|a [|b r]]; [discriminate|cbn in L; lia|].
    destruct (sorted_chunk _ _ _ S) as (AB & SR & FB & FA). inversion F as [|x y F1 F2]; subst. inversion F2 as [|x y F3 F4]; subst.
    rewrite chunk_panics by assumption. rewrite IH; [|cbn in L; lia|exact SR|exact F4].
    cbn [count_occ]. split.
    + intros [A|[B|[C|C]]].
      * right. assert (a = modulus 64 - 1) by lia. assert (b = modulus 64 - 1) by lia.
        destruct (N.eq_dec a (modulus 64 - 1)); [|contradiction]. destruct (N.eq_dec b (modulus 64 - 1)); [|contradiction]. lia.
      * left. assert (a = 0) by lia. destruct (N.eq_dec a 0); [|contradiction]. destruct (N.eq_dec b 0); [|contradiction]. lia.
      * left. destruct (N.eq_dec a 0), (N.eq_dec b 0); lia.
      * right. destruct (N.eq_dec a (modulus 64 - 1)), (N.eq_dec b (modulus 64 - 1)); lia.
    + intros [C|C].
      * destruct (N.eq_dec b 0) as [B|B]; [right; left; exact B|]. right. right. left.
        assert (Z : ~ In 0 r) by (intros I; rewrite Forall_forall in FB; specialize (FB _ I); lia).
        apply (count_occ_not_In N.eq_dec) in Z. rewrite Z in C. destruct (N.eq_dec a 0); lia.
      * destruct (N.eq_dec a (modulus 64 - 1)) as [A|A]; [left; lia|]. right. right.
        destruct (N.eq_dec b (modulus 64 - 1)) as [B|B]; [|right; exact C].
        right. destruct r as [|c [|d r]]; cbn in L |- *; [cbn in C; lia|lia|].
        inversion FB as [|x y G1 G2]; subst. inversion G2 as [|x y G3 G4]; subst.
        inversion F4 as [|x y K1 K2]; subst. inversion K2 as [|x y K3 K4]; subst.
        assert (c = modulus 64 - 1) by lia. assert (d = modulus 64 - 1) by lia.
        destruct (N.eq_dec c (modulus 64 - 1)); [|contradiction]. destruct (N.eq_dec d (modulus 64 - 1)); [|contradiction]. lia.
Qed.
Lemma edges_even h m : exists n, length (edges h m) = (2 * n)%nat.
Proof.
  unfold edges. exists (S (length (used_in_order m))). cbn [length]. rewrite app_length. cbn [length].
  induction (used_in_order m); cbn in *; lia.
Qed.
Lemma edges_positions m : flat_map (fun p : N * partition => [first_lba (snd p); last_lba (snd p)]) (used_parts m) =
  flat_map (fun p => [first_lba p; last_lba p]) (used_in_order m).
Proof.
  rewrite used_in_order_eq. unfold used_list, used_parts. induction m as [|(k, p) m IH]; [reflexivity|].
  cbn [filter map snd]. destruct (is_used p); cbn [filter map flat_map snd]; [|exact IH]. rewrite IH. reflexivity.
Qed.
Lemma two64_1 : 2 ^ 64 - 1 = modulus 64 - 1. Proof. reflexivity. Qed.
Lemma find_free_panics {E} g h : header_of g h -> fields_fit h (g_partitions g) ->
  (@find_free_sectors E true g = Panic <->
   first_usable h = 0 \/ last_usable h = 2 ^ 64 - 1 \/
   at_least_two 0 (edges h (g_partitions g)) \/ at_least_two (2 ^ 64 - 1) (edges h (g_partitions g))).
Proof.
  intros H (F1 & F2 & F3). rewrite two64_1. rewrite <- two64 in F1, F2. unfold find_free_sectors. rewrite (the_header_of g h H). cbn [obind].
  unfold subw at 1. destruct (N.leb_spec 1 (first_usable h)) as [A|A]; cbn [obind].
  2:{ split; [intros _; left; lia|reflexivity]. }
  unfold addw at 1. destruct (N.ltb_spec (last_usable h + 1) (modulus 64)) as [B|B]; cbn [obind].
  2:{ split; [intros _; right; left; lia|reflexivity]. }
  rewrite edges_positions. fold (edges h (g_partitions g)). set (l := edges h (g_partitions g)).
  assert (P := sort_perm l). destruct (edges_even h (g_partitions g)) as (n & L). fold l in L.
  rewrite (chunks_panic n).
  - unfold at_least_two. rewrite <- !(proj1 (Permutation_count_occ N.eq_dec l (sort_N l)) P).
    split; [tauto|]. intros [X|[X|X]]; [lia|lia|exact X].
  - rewrite <- (Permutation_length P). exact L.
  - apply sort_sorted.
  - eapply Permutation_Forall; [exact P|]. unfold l, edges. constructor; [lia|]. apply Forall_app. split; [|constructor; [lia|constructor]].
    apply Forall_forall. intros x I. apply in_flat_map in I. destruct I as (p & I & J).
    rewrite used_in_order_eq in I. unfold used_list in I. apply in_map_iff in I. destruct I as ((k, q) & <- & I).
    apply filter_In in I. destruct I as (I & _). destruct (F3 k q I) as (K1 & K2). rewrite <- two64 in K1, K2. cbn in J. destruct J as [<-|[<-|[]]]; assumption.
Qed.
Lemma free_chunks_no_err {E} n : forall oc l (e : E), (length l <= n)%nat -> free_chunks oc l <> Err e.
Proof.
  induction n as [|n IH]; intros oc l e L; destruct l as [|a [|b r]]; cbn [length] in L; try lia; cbn [free_chunks]; try discriminate.
  assert (R := IH oc r e ltac:(lia)). unfold addw, subw.
  repeat match goal with
  | |- context [if ?c then _ else _] => destruct c; cbn [obind]
  end; try discriminate; auto;
  match goal with H : free_chunks ?o ?l <> _ |- _ => destruct (free_chunks o l) end; cbn [obind]; congruence.
Qed.
(** * A header is always there *)
Lemma sound_run oc ops g g' : Forall args_ok ops -> sound g -> run oc ops g = Some g' -> sound g'.
Proof.
  intros F S R. assert (R' : run false ops g = Some g') by (destruct oc; [apply al_run, R|exact R]).
  destruct (release_run ops g F S) as (g2 & R2 & S2). congruence.
Qed.
Lemma sound_queries {E} g : sound g -> exists h, header_of g h /\ @the_header E g = Ok h /\
  (exists r, @find_next_partition_id E g = Ok r) /\ exists s, @find_free_sectors E false g = Ok s.
Proof.
  intros S. destruct (so_header g S) as (h & H). exists h. 
  assert (HO : header_of g h) by (apply header_of_iff; exact H).
  split; [exact HO|]. split; [apply the_header_of, HO|]. split.
  - unfold find_next_partition_id. destruct (g_partitions g); [eexists; reflexivity|].
    rewrite (the_header_of g h HO). eexists. reflexivity.
  - pose proof (@find_free_release E g S) as N.
    destruct (@find_free_sectors E false g) as [s|e|] eqn:Q; [eexists; reflexivity| |congruence].
    exfalso. revert Q. unfold find_free_sectors. rewrite (the_header_of g h HO). cbn [obind].
    unfold subw at 1. destruct (1 <=? first_usable h); cbn [obind]; unfold addw at 1;
      destruct (last_usable h + 1 <? modulus 64); cbn [obind]; eapply free_chunks_no_err, le_n.
Qed.
