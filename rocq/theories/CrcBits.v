(** CrcBits.v - which flipped bits the checksum notices.  A bit flipped in the message adds a power of x to the
    remainder; the lemmas below are about sums of few such powers. *)
From Coq Require Import Permutation.
From Verif Require Export CrcPoly.
Open Scope list_scope.
Open Scope N_scope.

Definition q0 : N := 2 ^ 31.
Definition Q (k : N) : N := steps (N.to_nat k) q0.
Definition sum (l : list N) : N := fold_right N.lxor 0 l.

Lemma Q_u32 k : u32 (Q k).
Proof. apply steps_u32. reflexivity. Qed.
Lemma Q_add a b : Q (a + b) = steps (N.to_nat b) (Q a).
Proof. unfold Q. rewrite Nnat.N2Nat.inj_add. apply steps_add. Qed.
Lemma steps_0 n : steps n 0 = 0.
Proof. induction n; cbn; auto. Qed.
Lemma steps_sum n l : steps n (sum l) = sum (map (steps n) l).
Proof. induction l as [|a l IH]; [apply steps_0|]. cbn [sum fold_right map]. rewrite steps_lxor. f_equal. exact IH. Qed.
Lemma sum_u32 l : Forall u32 l -> u32 (sum l).
Proof. induction 1; [reflexivity|]. apply u32_lxor; auto. Qed.
Lemma sum_app a b : sum (a ++ b) = N.lxor (sum a) (sum b).
Proof. induction a as [|x a IH]; [reflexivity|]. cbn [app sum fold_right]. fold (sum (a ++ b)). fold (sum a). rewrite IH. symmetry. apply N.lxor_assoc. Qed.

(** * Bits of lists *)
Lemma testbit_le_val l : forall i, N.testbit (le_val l) i = bit_at l i.
Proof.
  induction l as [|b l IH]; intros i.
  - unfold bit_at, byte_no. cbn [le_val]. rewrite N.bits_0. destruct (N.to_nat (i / 8)); reflexivity.
  - cbn [le_val]. rewrite add_lxor_byte, N.lxor_spec.
    replace (256 * le_val l) with (le_val l * 2 ^ 8) by (change (2 ^ 8) with 256; lia).
    unfold bit_at, byte_no. destruct (N.lt_ge_cases i 8) as [L|L].
    + rewrite N.mul_pow2_bits_low by auto. rewrite xorb_false_r.
      rewrite N.div_small, N.mod_small by auto. reflexivity.
    + rewrite N.mul_pow2_bits_high by auto. rewrite (testbit_high _ 8), xorb_false_l; [|apply byte_to_N_bound|auto].
      assert (exists j, i = j + 1 * 8) as (j & ->) by (exists (i - 8); lia). replace (j + 1 * 8 - 8) with j by lia.
      rewrite IH. unfold bit_at, byte_no. rewrite N.div_add, N.mod_add by lia.
      replace (N.to_nat (j / 8 + 1)) with (S (N.to_nat (j / 8))) by lia. reflexivity.
Qed.
Lemma bits_of_sum ps : NoDup ps -> forall i, N.testbit (sum (map (fun p => 2 ^ p) ps)) i = true <-> In i ps.
Proof.
  induction 1 as [|p ps NI ND IH]; intros i.
  - change (sum _) with 0. rewrite N.bits_0. split; [discriminate|contradiction].
  - cbn [map sum fold_right In]. rewrite N.lxor_spec. fold (sum (map (fun p => 2 ^ p) ps)).
    destruct (N.eq_dec p i) as [->|NE].
    + rewrite N.pow2_bits_true. destruct (N.testbit (sum _) i) eqn:B; [apply IH in B; contradiction|].
      split; auto.
    + rewrite N.pow2_bits_false by auto. rewrite xorb_false_l, IH. split; [auto|]. intros [|]; [contradiction|auto].
Qed.
Lemma flipped_val ps l l' : flipped ps l l' -> N.lxor (le_val l) (le_val l') = sum (map (fun p => 2 ^ p) ps).
Proof.
  intros (HL & ND & HB). apply N.bits_inj; intros i. rewrite N.lxor_spec, !testbit_le_val.
  specialize (HB i). pose proof (bits_of_sum ps ND i) as BS.
  destruct (N.testbit (sum _) i) eqn:B.
  - assert (I : In i ps) by (apply BS; auto). apply HB in I. destruct (bit_at l i), (bit_at l' i); auto; congruence.
  - destruct (bit_at l i), (bit_at l' i); auto; assert (I : In i ps) by (apply HB; discriminate);
      apply BS in I; discriminate.
Qed.
Lemma flipped_bound ps l l' : flipped ps l l' -> Forall (fun p => p < 8 * lenN l) ps.
Proof.
  intros (HL & ND & HB). apply Forall_forall. intros p I. apply HB in I.
  destruct (N.lt_ge_cases p (8 * lenN l)) as [|G]; auto. exfalso. apply I. unfold bit_at, byte_no.
  assert (lenN l <= p / 8) by (apply N.div_le_lower_bound; lia). unfold lenN in *.
  rewrite !(proj2 (nth_error_None _ _)) by lia. reflexivity.
Qed.

(** * The sum of powers a change adds *)
Lemma steps_pow n i : (i <= n)%nat -> steps n (2 ^ N.of_nat i) = Q (N.of_nat (31 + n - i)).
Proof.
  intros H. replace n with (i + (n - i))%nat at 1 by lia. rewrite steps_add.
  assert (E : steps i (2 ^ N.of_nat i) = 1).
  { clear. induction i as [|i IH]; [reflexivity|]. cbn [steps]. rewrite Nnat.Nat2N.inj_succ, N.pow_succ_r', crc_bit_double. exact IH. }
  rewrite E. unfold Q. rewrite Nnat.Nat2N.id. replace (31 + n - i)%nat with (31 + (n - i))%nat by lia.
  rewrite steps_add. reflexivity.
Qed.
Lemma low_pow j : j < 32 -> 2 ^ j = Q (31 - j).
Proof.
  intros H. unfold Q. assert (E : q0 = 2 ^ N.of_nat (N.to_nat (31 - j)) * 2 ^ j).
  { rewrite <- N.pow_add_r, Nnat.N2Nat.id. unfold q0. f_equal. lia. }
  rewrite E. clear. generalize (N.to_nat (31 - j)) as k. intros k. generalize (2 ^ j) as v.
  induction k as [|k IH]; intros v; cbn [steps]; [cbn; destruct v; reflexivity|].
  rewrite Nnat.Nat2N.inj_succ, N.pow_succ_r', <- N.mul_assoc, crc_bit_double. apply IH.
Qed.
Lemma crc_difference l l' : length l' = length l ->
  N.lxor (crc32 l) (crc32 l') = steps (8 * length l) (N.lxor (le_val l) (le_val l')).
Proof.
  intros HL. unfold crc32. rewrite lxor_4, N.lxor_nilpotent, N.lxor_0_r, !crc_update_steps, HL, <- steps_lxor.
  rewrite lxor_4, N.lxor_nilpotent, N.lxor_0_l. reflexivity.
Qed.
Lemma flipped_crc ps l l' : flipped ps l l' ->
  N.lxor (crc32 l) (crc32 l') = sum (map Q (map (fun p => 31 + 8 * lenN l - p) ps)).
Proof.
  intros F. assert (HL : length l' = length l) by (destruct F as (HL & _); unfold lenN in HL; lia).
  rewrite crc_difference, (flipped_val ps) by auto. rewrite steps_sum, !map_map.
  f_equal. apply map_ext_in. intros p I. pose proof (flipped_bound ps l l' F) as B.
  rewrite Forall_forall in B. specialize (B p I). unfold lenN in B |- *.
  pose proof (steps_pow (8 * length l) (N.to_nat p) ltac:(lia)) as S. rewrite Nnat.N2Nat.id in S. rewrite S.
  f_equal. lia.
Qed.

(** * Few powers never add up to nothing *)
(** Shifting all of them. *)
Lemma sum_shift m l : Forall (fun a => m <= a) l -> sum (map Q l) = 0 -> sum (map Q (map (fun a => a - m) l)) = 0.
Proof.
  intros HM H. apply (steps_inj (N.to_nat m)); [|reflexivity|].
  - apply sum_u32. apply Forall_forall. intros x I. apply in_map_iff in I. destruct I as (a & <- & _). apply Q_u32.
  - rewrite steps_0, steps_sum, <- H, !map_map. f_equal. apply map_ext_in. intros a I.
    rewrite Forall_forall in HM. specialize (HM a I). rewrite <- Q_add. f_equal. lia.
Qed.
Lemma Q_not_0 k : Q k <> 0.
Proof.
  intros H. assert (X : q0 = 0); [|discriminate]. apply (steps_inj (N.to_nat k)); [reflexivity|reflexivity|].
  rewrite steps_0. exact H.
Qed.
Lemma sum_perm a b : Permutation a b -> sum a = sum b.
Proof.
  induction 1; cbn; auto.
  - f_equal; auto.
  - fold (sum l). rewrite <- !N.lxor_assoc. f_equal. apply N.lxor_comm.
  - congruence.
Qed.
Lemma least_of l : l <> [] -> exists m r, Permutation l (m :: r) /\ Forall (fun a => m <= a) r.
Proof.
  induction l as [|a l IH]; [congruence|]. intros _. destruct l as [|b l].
  - exists a, []. split; constructor; auto. 
  - destruct (IH ltac:(discriminate)) as (m & r & P & F). destruct (N.le_gt_cases a m) as [H|H].
    + exists a, (m :: r). split; [constructor; exact P|]. constructor; [exact H|].
      eapply Forall_impl; [|exact F]. intros x; cbn; lia.
    + exists m, (a :: r). split; [eapply perm_trans; [constructor; exact P|apply perm_swap]|].
      constructor; [lia|exact F].
Qed.
(** The least index can be taken to be 0. *)
Lemma sum_from_0 n l : l <> [] -> NoDup l -> Forall (fun a => a < n) l -> sum (map Q l) = 0 ->
  exists r, length l = S (length r) /\ NoDup r /\ Forall (fun a => 0 < a < n) r /\ N.lxor q0 (sum (map Q r)) = 0.
Proof.
  intros NE ND B H. destruct (least_of l NE) as (m & r & P & F).
  assert (ND' : NoDup (m :: r)) by (eapply Permutation_NoDup; eauto).
  assert (B' : Forall (fun a => a < n) (m :: r)) by (eapply Permutation_Forall; eauto).
  assert (H' : sum (map Q (m :: r)) = 0) by (rewrite <- H; apply sum_perm, Permutation_map, Permutation_sym, P).
  apply (sum_shift m) in H'; [|constructor; [lia|exact F]].
  inversion ND' as [|? ? NI ND2]; subst. inversion B' as [|? ? Bm B2]; subst.
  exists (map (fun a => a - m) r). split; [|split; [|split]].
  - rewrite map_length. apply Permutation_length in P. exact P.
  - clear - ND2 F. induction r as [|a r IH]; [constructor|]. inversion ND2; subst. inversion F; subst. cbn [map]. constructor; auto.
    intros I. apply in_map_iff in I. destruct I as (b & E & Ib). rewrite Forall_forall in *.
    match goal with X : forall x, In x r -> m <= x |- _ => specialize (X b Ib) end.
    assert (a = b) by lia. subst. contradiction.
  - apply Forall_forall. intros x I. apply in_map_iff in I. destruct I as (a & <- & Ia).
    rewrite Forall_forall in *. specialize (F a Ia). specialize (B2 a Ia).
    assert (a <> m) by (intros ->; contradiction). lia.
  - cbn [map sum fold_right] in H'. rewrite N.sub_diag in H'. exact H'.
Qed.

(** A set of numbers, for searching. *)
Inductive trie : Type := Empty | Node (here : bool) (l r : trie).
Fixpoint mem (p : positive) (t : trie) : bool :=
  match t with
  | Empty => false
  | Node h l r => match p with xH => h | xO p => mem p l | xI p => mem p r end
  end.
Fixpoint add (p : positive) (t : trie) : trie :=
  match p, t with
  | xH, Empty => Node true Empty Empty
  | xH, Node _ l r => Node true l r
  | xO p, Empty => Node false (add p Empty) Empty
  | xO p, Node h l r => Node h (add p l) r
  | xI p, Empty => Node false Empty (add p Empty)
  | xI p, Node h l r => Node h l (add p r)
  end.
Definition memN (n : N) (t : trie) : bool := match n with N0 => true | Npos p => mem p t end.
Definition addN (n : N) (t : trie) : trie := match n with N0 => t | Npos p => add p t end.
Lemma mem_add_same p : forall t, mem p (add p t) = true.
Proof. induction p; destruct t; cbn; auto. Qed.
Lemma mem_add p : forall q t, mem q t = true -> mem q (add p t) = true.
Proof. induction p; destruct q, t; cbn; auto; discriminate. Qed.
Definition set_of (l : list N) : trie := fold_right addN Empty l.
Lemma set_of_in n l : In n l -> memN n (set_of l) = true.
Proof.
  destruct n as [|p]; [reflexivity|]. induction l as [|a l IH]; [contradiction|]. cbn [set_of fold_right].
  intros [-> |I]; [apply mem_add_same|]. destruct a; [exact (IH I)|]. apply mem_add. exact (IH I).
Qed.

Fixpoint orbit (n : nat) (c : N) : list N := match n with O => [] | S n => c :: orbit n (crc_bit c) end.
Lemma orbit_nth n : forall c i, (i < n)%nat -> nth_error (orbit n c) i = Some (steps i c).
Proof. induction n as [|n IH]; intros c [|i] H; cbn; try lia; auto. apply IH. lia. Qed.
Definition powers (n : nat) : list N := orbit n (crc_bit q0).
Lemma powers_nth n k : 0 < k -> k <= N.of_nat n -> nth_error (powers n) (N.to_nat k - 1) = Some (Q k).
Proof.
  intros H0 H. unfold powers. rewrite orbit_nth by lia. unfold Q.
  replace (N.to_nat k) with (S (N.to_nat k - 1)) at 2 by lia. reflexivity.
Qed.
Lemma powers_in n k : 0 < k -> k <= N.of_nat n -> In (Q k) (powers n).
Proof. intros H0 H. eapply nth_error_In. apply powers_nth; eauto. Qed.
Fixpoint no_pair (t : trie) (l : list N) : bool :=
  match l with
  | [] => true
  | a :: r => let a' := N.lxor a q0 in forallb (fun b => negb (memN (N.lxor a' b) t)) r && no_pair t r
  end.
Lemma no_pair_nth t l : no_pair t l = true -> forall i j a b, (i < j)%nat -> nth_error l i = Some a -> nth_error l j = Some b ->
  memN (N.lxor (N.lxor a q0) b) t = false.
Proof.
  induction l as [|x l IH]; cbn [no_pair]; intros H i j a b L Ha Hb; [destruct i; discriminate|].
  apply andb_prop in H. destruct H as [H1 H2]. destruct j as [|j]; [lia|]. destruct i as [|i].
  - cbn in Ha, Hb. injection Ha as ->. rewrite forallb_forall in H1. apply nth_error_In in Hb. specialize (H1 b Hb).
    destruct (memN _ t); [discriminate|reflexivity].
  - cbn in Ha, Hb. apply (IH H2 i j); auto. lia.
Qed.

(** Up to three more powers below 768 (the header, its checksum included, has 768 bits less the 32 of the
    field, which count as zero). *)
Definition reach : nat := 767.
Definition header_set : trie := set_of (powers reach).
Lemma header_code1 : memN q0 header_set = false.
Proof. vm_compute. reflexivity. Qed.
Lemma header_code2 : forallb (fun a => negb (memN (N.lxor a q0) header_set)) (powers reach) = true.
Proof. vm_compute. reflexivity. Qed.
Lemma header_code3 : no_pair header_set (powers reach) = true.
Proof. vm_compute. reflexivity. Qed.
Lemma header_in k : 0 < k < 768 -> memN (Q k) header_set = true.
Proof. intros Hk. apply set_of_in, powers_in; [|unfold reach]; lia. Qed.
Lemma few_powers l : l <> [] -> (length l <= 4)%nat -> NoDup l -> Forall (fun a => a < 768) l -> sum (map Q l) <> 0.
Proof.
  intros NE L4 ND B H. destruct (sum_from_0 768 l NE ND B H) as (r & HL & ND' & B' & H').
  pose proof header_code1 as C1. pose proof header_code2 as C2. pose proof header_code3 as C3. pose proof header_in as IN.
  apply N.lxor_eq in H'.
  destruct r as [|a r]; [discriminate H'|]. inversion B' as [|? ? Ba Br]; subst.
  destruct r as [|b r].
  - cbn in H'. rewrite N.lxor_0_r in H'.
    pose proof (IN a Ba) as M. rewrite <- H' in M. rewrite M in C1. discriminate C1.
  - inversion Br as [|? ? Bb Br']; subst. destruct r as [|c r].
    + cbn in H'. rewrite N.lxor_0_r in H'.
      assert (E : N.lxor (Q a) q0 = Q b) by (rewrite H', <- N.lxor_assoc, N.lxor_nilpotent, N.lxor_0_l; reflexivity).
      rewrite forallb_forall in C2. specialize (C2 (Q a) (powers_in reach a ltac:(lia) ltac:(unfold reach; lia))).
      rewrite E, (IN b Bb) in C2. discriminate C2.
    + destruct r as [|d r]; [|cbn in HL; lia]. inversion Br' as [|? ? Bc _]; subst.
      inversion ND' as [|? ? Na ND2]; subst. cbn in Na.
      assert (K : forall a b, 0 < a < 768 -> 0 < b < 768 -> a < b -> memN (N.lxor (N.lxor (Q a) q0) (Q b)) header_set = false).
      { intros x y Hx Hy Hxy. apply (no_pair_nth header_set (powers reach) C3 (N.to_nat x - 1) (N.to_nat y - 1)); [lia| |];
          apply powers_nth; unfold reach; lia. }
      cbn in H'. rewrite N.lxor_0_r in H'.
      assert (E : N.lxor (N.lxor (Q a) q0) (Q b) = Q c).
      { rewrite H'. rewrite <- (N.lxor_assoc (Q a)), N.lxor_nilpotent, N.lxor_0_l, N.lxor_comm, <- N.lxor_assoc, N.lxor_nilpotent, N.lxor_0_l.
        reflexivity. }
      destruct (N.lt_trichotomy a b) as [X|[X|X]]; [|subst; tauto|].
      * pose proof (K a b Ba Bb X) as M. rewrite E, (IN c Bc) in M. discriminate M.
      * pose proof (K b a Bb Ba X) as M. 
        assert (E2 : N.lxor (N.lxor (Q b) q0) (Q a) = N.lxor (N.lxor (Q a) q0) (Q b)).
        { rewrite (N.lxor_comm (N.lxor (Q b) q0)), (N.lxor_comm (Q b) q0), <- N.lxor_assoc. reflexivity. }
        rewrite E2, E, (IN c Bc) in M. discriminate M.
Qed.

(** * The powers repeat after 2^32 - 1 steps and not before *)
(** Linear maps on 32 bits, by their values on the single bits. *)
Fixpoint apply_to (m : list N) (v : N) : N :=
  match m with [] => 0 | a :: m => N.lxor (if N.testbit v 0 then a else 0) (apply_to m (N.shiftr v 1)) end.
Definition linear (f : N -> N) : Prop := f 0 = 0 /\ forall a b, f (N.lxor a b) = N.lxor (f a) (f b).
Fixpoint columns (f : N -> N) (n : nat) (b : N) : list N := match n with O => [] | S n => f b :: columns f n (2 * b) end.
Lemma apply_columns f : linear f -> forall n v b, v < 2 ^ N.of_nat n -> apply_to (columns f n b) v = f (times v b).
Proof.
  intros [F0 FL] n. induction n as [|n IH]; intros v b H.
  - change (2 ^ N.of_nat 0) with 1 in H. replace v with 0 by lia. symmetry. exact F0.
  - cbn [columns apply_to].
    assert (D : N.shiftr v 1 < 2 ^ N.of_nat n).
    { apply lt_pow2_testbit. intros m Hm. rewrite N.shiftr_spec by lia. apply testbit_high with (N.of_nat (S n)); [exact H|lia]. }
    rewrite IH by exact D.
    assert (TD : forall q, times q (2 * b) = 2 * times q b).
    { clear. intros q. induction q as [|q IH|q IH] using even_odd_ind; [reflexivity| |].
      - rewrite !times_double, IH. reflexivity.
      - rewrite !times_succ_double, IH, <- lxor_double. reflexivity. }
    rewrite TD. destruct (N.Even_or_Odd v) as [[r ->]|[r ->]].
    + rewrite N.testbit_even_0, N.lxor_0_l, times_double. f_equal. f_equal. f_equal.
      rewrite N.shiftr_div_pow2. change (2 ^ 1) with 2. rewrite N.mul_comm. apply N.div_mul. lia.
    + rewrite N.testbit_odd_0, times_succ_double, FL. f_equal. f_equal. f_equal. f_equal.
      rewrite N.shiftr_div_pow2. change (2 ^ 1) with 2. symmetry. apply (N.div_unique _ 2 r 1); lia.
Qed.
Lemma times_1 q : times q 1 = q.
Proof.
  induction q as [|q IH|q IH] using even_odd_ind; [reflexivity| |].
  - rewrite times_double, IH. reflexivity.
  - rewrite times_succ_double, IH. rewrite N.lxor_comm.
    change 1 with (2 * 0 + 1) at 1. rewrite N.lxor_comm, lxor_succ_double, N.lxor_0_l. reflexivity.
Qed.
Definition matrix (f : N -> N) : list N := columns f 32 1.
Lemma apply_matrix f v : linear f -> u32 v -> apply_to (matrix f) v = f v.
Proof. intros L H. unfold matrix. rewrite apply_columns by auto. f_equal. apply times_1. Qed.
Definition represents (m : list N) (f : N -> N) : Prop := forall v, u32 v -> apply_to m v = f v.
Lemma linear_steps n : linear (steps n).
Proof. split; [apply steps_0|]. intros a b. apply steps_lxor. Qed.
Lemma columns_map f g n : forall b, columns (fun v => g (f v)) n b = map g (columns f n b).
Proof. induction n as [|n IH]; intros b; cbn; [reflexivity|]. rewrite IH. reflexivity. Qed.
Lemma columns_ext f g n : forall b, (forall k, (k < n)%nat -> f (2 ^ N.of_nat k * b) = g (2 ^ N.of_nat k * b)) ->
  columns f n b = columns g n b.
Proof.
  induction n as [|n IH]; intros b H; cbn [columns]; [reflexivity|]. f_equal.
  - specialize (H 0%nat ltac:(lia)). cbn in H. destruct b; exact H.
  - apply IH. intros k Hk. specialize (H (S k) ltac:(lia)). rewrite Nnat.Nat2N.inj_succ, N.pow_succ_r' in H.
    replace (2 ^ N.of_nat k * (2 * b)) with (2 * 2 ^ N.of_nat k * b) by lia. exact H.
Qed.
(** The matrix of [steps n], by doubling. *)
Definition after (p q : list N) : list N := map (apply_to p) q.
Definition is_power (m : list N) (n : N) : Prop := m = matrix (steps (N.to_nat n)).
Lemma after_power p a q b : is_power p a -> is_power q b -> is_power (after p q) (b + a).
Proof.
  intros -> ->. unfold is_power, after, matrix at 2. rewrite <- columns_map. unfold matrix.
  apply columns_ext. intros k Hk. fold (matrix (steps (N.to_nat a))).
  assert (U : u32 (2 ^ N.of_nat k * 1)).
  { rewrite N.mul_1_r. apply N.pow_lt_mono_r; lia. }
  rewrite apply_matrix; [|apply linear_steps|apply steps_u32; exact U].
  rewrite Nnat.N2Nat.inj_add, steps_add. reflexivity.
Qed.
Definition one_step : list N := matrix crc_bit.
Fixpoint power (p : positive) : list N :=
  match p with
  | xH => one_step
  | xO p => let m := power p in after m m
  | xI p => let m := power p in after one_step (after m m)
  end.
Lemma one_step_power : is_power one_step 1.
Proof. reflexivity. Qed.
Lemma power_is p : is_power (power p) (Npos p).
Proof.
  induction p as [p IH|p IH|]; cbn [power].
  - replace (Npos (xI p)) with (Npos p + Npos p + 1) by lia. apply after_power; [exact one_step_power|]. apply after_power; exact IH.
  - replace (Npos (xO p)) with (Npos p + Npos p) by lia. apply after_power; exact IH.
  - exact one_step_power.
Qed.
Lemma Q_power p : Q (Npos p) = apply_to (power p) q0.
Proof. rewrite power_is, apply_matrix; [reflexivity|apply linear_steps|reflexivity]. Qed.

Definition period : N := 2 ^ 32 - 1.
Lemma period_returns : Q period = q0.
Proof. unfold period. change (2 ^ 32 - 1) with (Npos 4294967295). rewrite Q_power. vm_compute. reflexivity. Qed.
Definition returns (n : N) : bool := match n with N0 => true | Npos p => apply_to (power p) q0 =? q0 end.
Lemma returns_Q n : Q n = q0 -> returns n = true.
Proof. destruct n as [|p]; [reflexivity|]. intros H. apply N.eqb_eq. rewrite <- Q_power. exact H. Qed.
Lemma shorter_not : forallb (fun d => negb (returns (period / d))) [3; 5; 17; 257; 65537] = true.
Proof. vm_compute. reflexivity. Qed.

Lemma returns_sub a b : b <= a -> Q a = q0 -> Q b = q0 -> Q (a - b) = q0.
Proof.
  intros L A B. apply (steps_inj (N.to_nat b)); [apply Q_u32|reflexivity|]. rewrite <- Q_add.
  replace (a - b + b) with a by lia. rewrite A. symmetry. exact B.
Qed.
Lemma returns_gcd n : forall a b, a + b <= n -> Q a = q0 -> Q b = q0 -> Q (N.gcd a b) = q0.
Proof.
  induction n as [|n IH] using N.peano_ind; intros a b H A B.
  - replace a with 0 by lia. replace b with 0 by lia. reflexivity.
  - destruct (N.eq_dec a 0) as [->|A0]; [rewrite N.gcd_0_l; exact B|].
    destruct (N.eq_dec b 0) as [->|B0]; [rewrite N.gcd_0_r; exact A|].
    destruct (N.le_gt_cases a b) as [L|L].
    + rewrite <- N.gcd_sub_diag_r by exact L. apply IH; [lia|exact A|]. apply returns_sub; auto.
    + rewrite N.gcd_comm, <- N.gcd_sub_diag_r by lia. apply IH; [lia|exact B|]. apply returns_sub; auto. lia.
Qed.
(** The only divisors of the five primes are themselves and 1. *)
Fixpoint no_divisor (p : N) (d : N) (n : nat) : bool :=
  match n with O => true | S n => negb (p mod d =? 0) && no_divisor p (d + 1) n end.
Lemma no_divisor_spec p n : forall d, no_divisor p d n = true -> forall k, d <= k < d + N.of_nat n -> p mod k <> 0.
Proof.
  induction n as [|n IH]; intros d H k Hk; [lia|]. cbn [no_divisor] in H. apply andb_prop in H. destruct H as [H1 H2].
  destruct (N.eq_dec k d) as [->|NE].
  - destruct (N.eqb_spec (p mod d) 0); [discriminate|assumption].
  - apply (IH (d + 1) H2). lia.
Qed.
Lemma small_prime p r : p < (2 + N.of_nat r) * (2 + N.of_nat r) -> no_divisor p 2 r = true -> 1 < p ->
  forall d, (d | p) -> d = 1 \/ d = p.
Proof.
  intros HP ND P1 d [e E]. pose proof (no_divisor_spec p r 2 ND) as K.
  assert (D0 : d <> 0) by (intros ->; lia). assert (E0 : e <> 0) by (intros ->; lia).
  destruct (N.eq_dec d 1) as [|D1]; [auto|]. destruct (N.eq_dec e 1) as [E1|E1]; [right; subst e; lia|]. exfalso.
  destruct (N.lt_ge_cases d (2 + N.of_nat r)) as [L|L].
  - apply (K d); [lia|]. rewrite E. apply N.mod_mul. exact D0.
  - destruct (N.lt_ge_cases e (2 + N.of_nat r)) as [L2|L2].
    + apply (K e); [lia|]. rewrite E, N.mul_comm. apply N.mod_mul. exact E0.
    + assert (X : (2 + N.of_nat r) * (2 + N.of_nat r) <= e * d) by (apply N.mul_le_mono; assumption). lia.
Qed.
Lemma coprime_or p r m : p < (2 + N.of_nat r) * (2 + N.of_nat r) -> no_divisor p 2 r = true -> 1 < p -> N.gcd p m = 1 \/ (p | m).
Proof.
  intros HP ND P1. destruct (small_prime p r HP ND P1 (N.gcd p m)) as [X|X]; [apply N.gcd_divide_l|auto|].
  right. rewrite <- X. apply N.gcd_divide_r.
Qed.
Lemma period_factors : period = 3 * (5 * (17 * (257 * 65537))).
Proof. reflexivity. Qed.
Lemma order k : 0 < k -> k < period -> Q k <> q0.
Proof.
  intros K0 KP H.
  assert (G : Q (N.gcd k period) = q0) by (apply (returns_gcd (k + period)); [lia|exact H|exact period_returns]).
  destruct (N.gcd_divide_r k period) as [m M]. destruct (N.gcd_divide_l k period) as [j J].
  set (g := N.gcd k period) in *. clearbody g.
  assert (P0 : period <> 0) by discriminate.
  assert (G0 : g <> 0) by (intros ->; rewrite N.mul_0_r in M; congruence).
  assert (GL : g <= k) by (destruct j; [lia|nia]).
  assert (MUL : forall c, Q (c * g) = q0).
  { intros c. induction c as [|c IH] using N.peano_ind; [reflexivity|]. rewrite N.mul_succ_l, Q_add, IH. exact G. }
  assert (ND : forall d, In d [3; 5; 17; 257; 65537] -> ~ (d | m)).
  { intros d I [c C]. pose proof shorter_not as S. rewrite forallb_forall in S. specialize (S d I).
    assert (E : period / d = c * g).
    { rewrite M, C. replace (c * d * g) with (c * g * d) by lia. apply N.div_mul. intros ->. cbn in I. intuition discriminate. }
    rewrite E, (returns_Q _ (MUL c)) in S. discriminate S. }
  assert (CP : forall d r, In d [3; 5; 17; 257; 65537] -> d < (2 + N.of_nat r) * (2 + N.of_nat r) -> no_divisor d 2 r = true ->
    N.gcd m d = 1).
  { intros d r I HR NDV. rewrite N.gcd_comm. destruct (coprime_or d r m HR NDV) as [X|X]; [|exact X|].
    - cbn in I. destruct I as [<-|[<-|[<-|[<-|[<-|[]]]]]]; reflexivity.
    - destruct (ND d I X). }
  assert (D : (m | period)) by (exists g; lia). rewrite period_factors in D.
  apply N.gauss in D; [|apply (CP 3 0%nat); [cbn; auto|reflexivity|reflexivity]].
  apply N.gauss in D; [|apply (CP 5 1%nat); [cbn; auto|reflexivity|reflexivity]].
  apply N.gauss in D; [|apply (CP 17 3%nat); [cbn; auto|reflexivity|reflexivity]].
  apply N.gauss in D; [|apply (CP 257 15%nat); [cbn; auto|reflexivity|reflexivity]].
  rewrite <- (N.mul_1_r 65537) in D.
  apply N.gauss in D; [|apply (CP 65537 255%nat); [cbn; auto 6|reflexivity|vm_compute; reflexivity]].
  apply N.divide_1_r in D. subst m. rewrite N.mul_1_l in M. subst g. lia.
Qed.
Lemma two_powers a b : a <> b -> a < period -> b < period -> Q a <> Q b.
Proof.
  assert (W : forall a b, a < b -> b < period -> Q a <> Q b).
  { intros x y L LP E. apply (order (y - x)); [lia|lia|]. apply (steps_inj (N.to_nat x)); [apply Q_u32|reflexivity|].
    rewrite <- Q_add. replace (y - x + x) with y by lia. symmetry. exact E. }
  intros NE HA HB E. destruct (N.lt_trichotomy a b) as [X|[X|X]]; [apply (W a b); auto|auto|apply (W b a); auto].
Qed.

(** Three powers that do add up to nothing. *)
Lemma three_powers : N.lxor q0 (N.lxor (Q 41678) (Q 91639)) = 0.
Proof.
  rewrite (Q_power 41678), (Q_power 91639). vm_compute. reflexivity.
Qed.
