(** CrcPoly.v - the bitwise checksum is the remainder of a polynomial division. *)
From Verif Require Export SpecCrc CrcFacts.
Open Scope N_scope.

Fixpoint steps (n : nat) (c : N) : N := match n with O => c | S n => steps n (crc_bit c) end.
Lemma steps_add a b c : steps (a + b) c = steps b (steps a c).
Proof. revert c. induction a as [|a IH]; intros c; cbn [steps Nat.add]; auto. Qed.
Lemma crc_8s_steps n : forall c, crc_8s n c = steps (8 * n) c.
Proof.
  induction n as [|n IH]; intros c; [reflexivity|]. cbn [crc_8s]. rewrite IH.
  replace (8 * S n)%nat with (8 + 8 * n)%nat by lia. rewrite steps_add. reflexivity.
Qed.
Lemma number_le_val l : number_le l = le_val l.
Proof. induction l; cbn; congruence. Qed.
Lemma crc_update_steps c l : crc_update c l = steps (8 * length l) (N.lxor c (le_val l)).
Proof. rewrite crc_update_window. apply crc_8s_steps. Qed.
Lemma steps_lxor n : forall a b, steps n (N.lxor a b) = N.lxor (steps n a) (steps n b).
Proof. induction n as [|n IH]; intros a b; cbn [steps]; [reflexivity|]. rewrite crc_bit_lxor. apply IH. Qed.
Lemma steps_inj n : forall a b, u32 a -> u32 b -> steps n a = steps n b -> a = b.
Proof.
  induction n as [|n IH]; cbn [steps]; auto. intros a b Ha Hb H. apply crc_bit_inj; auto.
  apply IH; auto using u32_crc_bit.
Qed.
Lemma steps_u32 n : forall c, u32 c -> u32 (steps n c).
Proof. induction n as [|n IH]; cbn [steps]; auto using u32_crc_bit. Qed.

(** * Products *)
Lemma lxor_double a b : N.lxor (2 * a) (2 * b) = 2 * N.lxor a b.
Proof. destruct a, b; cbn; auto; destruct (Pos.lxor _ _); reflexivity. Qed.
Lemma times_double q g : times (2 * q) g = 2 * times q g.
Proof. destruct q; reflexivity. Qed.
Lemma times_succ_double q g : times (2 * q + 1) g = N.lxor g (2 * times q g).
Proof. destruct q; cbn [N.mul N.add times times_pos]; [rewrite N.lxor_0_r|]; reflexivity. Qed.
Lemma even_odd_ind (P : N -> Prop) : P 0 -> (forall q, P q -> P (2 * q)) -> (forall q, P q -> P (2 * q + 1)) -> forall q, P q.
Proof.
  intros H0 He Ho. apply N.binary_ind; [exact H0| |]; intros q Hq.
  - rewrite ?N.double_spec. auto.
  - rewrite ?N.succ_double_spec. auto.
Qed.
Lemma lxor_succ_double a b : N.lxor (2 * a + 1) (2 * b) = 2 * N.lxor a b + 1.
Proof.
  rewrite <- !N.succ_double_spec, <- !N.double_spec. destruct a, b; cbn; auto.
Qed.
Lemma lxor_succ_double2 a b : N.lxor (2 * a + 1) (2 * b + 1) = 2 * N.lxor a b.
Proof.
  rewrite <- !N.succ_double_spec, <- !N.double_spec. destruct a, b; cbn; auto.
Qed.
Lemma times_lxor g : forall p q, times (N.lxor p q) g = N.lxor (times p g) (times q g).
Proof.
  intros p. induction p as [|p IH|p IH] using even_odd_ind; intros q.
  - reflexivity.
  - destruct (N.Even_or_Odd q) as [[r ->]|[r ->]].
    + rewrite lxor_double, !times_double, IH, lxor_double. reflexivity.
    + rewrite N.lxor_comm, lxor_succ_double, times_double, !times_succ_double.
      rewrite (N.lxor_comm r p), IH, <- lxor_double. rewrite <- !N.lxor_assoc. f_equal. apply N.lxor_comm.
  - destruct (N.Even_or_Odd q) as [[r ->]|[r ->]].
    + rewrite lxor_succ_double, times_double, !times_succ_double, IH, <- lxor_double. symmetry. apply N.lxor_assoc.
    + rewrite lxor_succ_double2, times_double, !times_succ_double, IH, <- lxor_double.
      rewrite lxor_4, N.lxor_nilpotent, N.lxor_0_l. reflexivity.
Qed.
Lemma times_pow2 k g : times (2 ^ k) g = 2 ^ k * g.
Proof.
  induction k as [|k IH] using N.peano_ind; [cbn; destruct g; reflexivity|].
  rewrite N.pow_succ_r', times_double, IH. lia.
Qed.
Lemma times_log q g : q <> 0 -> g <> 0 -> times q g <> 0 /\ N.log2 (times q g) = N.log2 q + N.log2 g.
Proof.
  intros Hq Hg. induction q as [|q IH|q IH] using even_odd_ind; [congruence| |].
  - destruct (IH ltac:(lia)) as (A & B). rewrite times_double. split; [lia|].
    rewrite !N.log2_double by lia. lia.
  - rewrite times_succ_double. destruct (N.eq_dec q 0) as [->|Q0].
    + cbn [times]. rewrite N.lxor_0_r. split; [exact Hg|reflexivity].
    + destruct (IH Q0) as (A & B).
      assert (L : N.log2 (N.lxor g (2 * times q g)) = N.log2 (2 * times q g)).
      { pose proof (N.log2_double _ (proj1 (N.neq_0_lt_0 _) A)) as LD.
        apply N.log2_bits_unique.
        - rewrite N.lxor_spec, N.bit_log2 by lia. rewrite N.bits_above_log2; [reflexivity|]. lia.
        - intros m Hm. rewrite N.lxor_spec, !N.bits_above_log2; auto. lia. }
      split.
      * intros Z. rewrite Z in L. rewrite N.log2_double in L by lia. cbn in L. lia.
      * rewrite L, N.log2_double, N.log2_succ_double by lia. lia.
Qed.

(** * Congruence *)
Lemma congruent_refl a : congruent a a.
Proof. exists 0. apply N.lxor_nilpotent. Qed.
Lemma congruent_sym a b : congruent a b -> congruent b a.
Proof. intros [q H]. exists q. rewrite N.lxor_comm. exact H. Qed.
Lemma congruent_trans a b c : congruent a b -> congruent b c -> congruent a c.
Proof.
  intros [p P] [q Q]. exists (N.lxor p q). rewrite times_lxor, <- P, <- Q.
  rewrite N.lxor_assoc, <- (N.lxor_assoc b b c), N.lxor_nilpotent, N.lxor_0_l. reflexivity.
Qed.
Lemma congruent_small a b : a < 2 ^ 32 -> b < 2 ^ 32 -> congruent a b -> a = b.
Proof.
  intros Ha Hb [q H]. apply N.lxor_eq. destruct (N.eq_dec q 0) as [->|Q0]; [exact H|]. exfalso.
  destruct (times_log q generator Q0 ltac:(discriminate)) as (A & B).
  pose proof (u32_lxor a b Ha Hb) as U. unfold u32 in U. rewrite H in U.
  apply N.log2_lt_pow2 in U; [|lia]. change (N.log2 generator) with 32 in B. lia.
Qed.

(** * Mirrors *)
Lemma mirror_bit w : forall n i, N.testbit (mirror w n) i = if i <? N.of_nat w then N.testbit n (N.of_nat w - 1 - i) else false.
Proof.
  induction w as [|w IH]; intros n i.
  - cbn [mirror]. rewrite N.bits_0. destruct (N.ltb_spec i (N.of_nat 0)); [lia|reflexivity].
  - cbn [mirror].
    assert (L : forall v, mirror w v < 2 ^ N.of_nat w).
    { intros v. apply lt_pow2_testbit. intros m Hm. rewrite IH. destruct (N.ltb_spec m (N.of_nat w)); [lia|reflexivity]. }
    assert (E : 2 ^ N.of_nat w * (n mod 2) + mirror w (n / 2) = N.lxor (2 ^ N.of_nat w * (n mod 2)) (mirror w (n / 2))).
    { apply N.add_nocarry_lxor. apply N.bits_inj; intros m. rewrite N.land_spec, N.bits_0, N.mul_comm.
      destruct (N.lt_ge_cases m (N.of_nat w)).
      - rewrite N.mul_pow2_bits_low by auto. reflexivity.
      - rewrite (testbit_high _ _ (L (n / 2))) by auto. apply andb_false_r. }
    rewrite E, N.lxor_spec, IH, N.mul_comm.
    destruct (N.lt_trichotomy i (N.of_nat w)) as [H|[H|H]].
    + rewrite N.mul_pow2_bits_low by auto. rewrite xorb_false_l.
      rewrite (proj2 (N.ltb_lt i _)) by exact H. rewrite (proj2 (N.ltb_lt i _)) by lia.
      rewrite <- (N.div2_div n), N.div2_spec, N.shiftr_spec by lia. f_equal. lia.
    + subst i. rewrite N.mul_pow2_bits_high, N.sub_diag by lia.
      rewrite (proj2 (N.ltb_ge _ _)) by lia. rewrite (proj2 (N.ltb_lt _ _)) by lia. rewrite xorb_false_r.
      replace (N.of_nat (S w) - 1 - N.of_nat w) with 0 by lia.
      apply (N.mod_pow2_bits_low n 1 0). lia.
    + rewrite N.mul_pow2_bits_high by lia. rewrite !(proj2 (N.ltb_ge i _)) by lia. rewrite xorb_false_r.
      apply testbit_high with 1; [|lia]. change (2 ^ 1) with 2. apply N.mod_lt. lia.
Qed.

Lemma mirror_bound w n : mirror w n < 2 ^ N.of_nat w.
Proof. apply lt_pow2_testbit. intros m Hm. rewrite mirror_bit. destruct (N.ltb_spec m (N.of_nat w)); [lia|reflexivity]. Qed.
Lemma mirror_lxor w a b : mirror w (N.lxor a b) = N.lxor (mirror w a) (mirror w b).
Proof.
  apply N.bits_inj; intros i. rewrite N.lxor_spec, !mirror_bit. destruct (i <? N.of_nat w); [apply N.lxor_spec|reflexivity].
Qed.
Lemma mirror_twice w n : n < 2 ^ N.of_nat w -> mirror w (mirror w n) = n.
Proof.
  intros H. apply N.bits_inj; intros i. rewrite mirror_bit. destruct (N.ltb_spec i (N.of_nat w)).
  - rewrite mirror_bit. destruct (N.ltb_spec (N.of_nat w - 1 - i) (N.of_nat w)); [|lia]. f_equal. lia.
  - symmetry. apply testbit_high with (N.of_nat w); auto.
Qed.
(** A number of [w] bits seen as one of [w + k] bits. *)
Lemma mirror_wider w k n : n < 2 ^ N.of_nat w -> mirror (k + w) n = mirror w n * 2 ^ N.of_nat k.
Proof.
  intros H. apply N.bits_inj; intros i. rewrite mirror_bit.
  destruct (N.lt_ge_cases i (N.of_nat k)) as [L|L].
  - rewrite N.mul_pow2_bits_low by auto. destruct (N.ltb_spec i (N.of_nat (k + w))); [|reflexivity].
    apply testbit_high with (N.of_nat w); [exact H|lia].
  - rewrite N.mul_pow2_bits_high by auto. rewrite mirror_bit.
    destruct (N.ltb_spec i (N.of_nat (k + w))), (N.ltb_spec (i - N.of_nat k) (N.of_nat w)); try lia; try reflexivity; f_equal; lia.
Qed.

(** * One step divides *)
Lemma step_congruent k v : v < 2 ^ N.of_nat (33 + k) -> congruent (mirror (33 + k) v) (mirror (32 + k) (crc_bit v)).
Proof.
  intros H. 
  assert (A : mirror (33 + k) v = N.lxor (if N.testbit v 0 then 2 ^ N.of_nat (32 + k) else 0) (mirror (32 + k) (N.shiftr v 1))).
  { apply N.bits_inj; intros i. rewrite N.lxor_spec, !mirror_bit.
    destruct (N.lt_trichotomy i (N.of_nat (32 + k))) as [L|[L|L]].
    - rewrite (proj2 (N.ltb_lt i _)) by lia. rewrite (proj2 (N.ltb_lt i _)) by exact L.
      rewrite N.shiftr_spec by lia.
      replace (N.testbit (if N.testbit v 0 then 2 ^ N.of_nat (32 + k) else 0) i) with false.
      + rewrite xorb_false_l. f_equal. lia.
      + destruct (N.testbit v 0); [|symmetry; apply N.bits_0]. symmetry. apply N.pow2_bits_false. lia.
    - subst i. rewrite (proj2 (N.ltb_lt _ _)) by lia. rewrite (proj2 (N.ltb_ge _ _)) by lia.
      replace (N.of_nat (33 + k) - 1 - N.of_nat (32 + k)) with 0 by lia. rewrite xorb_false_r.
      destruct (N.testbit v 0); [rewrite N.pow2_bits_true|rewrite N.bits_0]; reflexivity.
    - rewrite !(proj2 (N.ltb_ge i _)) by lia. rewrite xorb_false_r.
      destruct (N.testbit v 0); [rewrite N.pow2_bits_false by lia|rewrite N.bits_0]; reflexivity. }
  rewrite A. unfold crc_bit. destruct (N.testbit v 0).
  - exists (2 ^ N.of_nat k). rewrite times_pow2, mirror_lxor.
    replace (32 + k)%nat with (k + 32)%nat by lia. rewrite (mirror_wider 32 k crc_poly) by reflexivity.
    change (mirror 32 crc_poly) with 0x04C11DB7.
    rewrite (N.lxor_comm (mirror (k + 32) (N.shiftr v 1))), <- N.lxor_assoc.
    rewrite (N.lxor_assoc _ (mirror (k + 32) (N.shiftr v 1))), (N.lxor_comm (mirror (k + 32) (N.shiftr v 1))).
    rewrite <- N.lxor_assoc, N.lxor_assoc, N.lxor_nilpotent, N.lxor_0_r.
    rewrite Nnat.Nat2N.inj_add, N.pow_add_r. change (2 ^ N.of_nat 32) with 0x100000000.
    rewrite !(N.mul_comm (2 ^ N.of_nat k)), <- !N.shiftl_mul_pow2, <- N.shiftl_lxor. reflexivity.
  - rewrite N.lxor_0_l. apply congruent_refl.
Qed.
Lemma crc_bit_bound k v : v < 2 ^ N.of_nat (33 + k) -> crc_bit v < 2 ^ N.of_nat (32 + k).
Proof.
  intros H. assert (S : N.shiftr v 1 < 2 ^ N.of_nat (32 + k)).
  { apply lt_pow2_testbit. intros m Hm. rewrite N.shiftr_spec by lia. apply testbit_high with (N.of_nat (33 + k)); [exact H|lia]. }
  unfold crc_bit. destruct (N.testbit v 0); [|exact S]. apply lt_pow2_testbit. intros m Hm.
  rewrite N.lxor_spec, (testbit_high _ _ S) by exact Hm. rewrite (testbit_high crc_poly 32); [reflexivity|reflexivity|lia].
Qed.
Lemma steps_congruent n : forall v, v < 2 ^ N.of_nat (32 + n) -> congruent (mirror (32 + n) v) (mirror 32 (steps n v)).
Proof.
  induction n as [|n IH]; intros v H; cbn [steps]; [apply congruent_refl|].
  replace (32 + S n)%nat with (33 + n)%nat in * by lia.
  eapply congruent_trans; [apply step_congruent; exact H|]. apply IH. apply crc_bit_bound. exact H.
Qed.

Lemma le_val_pow l : le_val l < 2 ^ N.of_nat (8 * length l).
Proof.
  pose proof (le_val_bound l) as B. change 256 with (2 ^ 8) in B. rewrite <- N.pow_mul_r in B. unfold lenN in B.
  replace (N.of_nat (8 * length l)) with (8 * N.of_nat (length l)) by lia. exact B.
Qed.
Lemma crc_remainder l : congruent (dividend l) (mirror 32 (crc_update crc_ones l)).
Proof.
  rewrite crc_update_steps. pose proof (le_val_pow l) as B.
  eapply congruent_trans; [|apply steps_congruent].
  - replace (mirror (32 + 8 * length l) (N.lxor crc_ones (le_val l))) with (dividend l); [apply congruent_refl|].
    rewrite mirror_lxor, (mirror_wider (8 * length l) 32 (le_val l)) by exact B.
    replace (32 + 8 * length l)%nat with (8 * length l + 32)%nat by lia.
    rewrite (mirror_wider 32 (8 * length l) crc_ones) by reflexivity. unfold dividend, message, lenN.
    rewrite number_le_val, N.lxor_comm. change (mirror 32 crc_ones) with ones.
    replace (8 * N.of_nat (length l)) with (N.of_nat (8 * length l)) by lia. reflexivity.
  - apply lt_pow2_testbit. intros m Hm. rewrite N.lxor_spec.
    rewrite (testbit_high crc_ones 32), (testbit_high _ _ B); [reflexivity|lia|reflexivity|lia].
Qed.
Lemma crc32_polynomial l r : r < 2 ^ 32 -> congruent (dividend l) r <-> crc32 l = N.lxor (mirror 32 r) ones.
Proof.
  intros Hr. pose proof (crc_remainder l) as C. unfold crc32. change crc_ones with ones in *. split; intros H.
  - assert (E : mirror 32 (crc_update ones l) = r).
    { apply congruent_small; [apply (mirror_bound 32)|exact Hr|]. eapply congruent_trans; [apply congruent_sym; exact C|exact H]. }
    rewrite <- E, mirror_twice; [reflexivity|]. apply u32_crc_update. reflexivity.
  - assert (E : crc_update ones l = mirror 32 r).
    { apply (f_equal (fun x => N.lxor x ones)) in H. rewrite !N.lxor_assoc, N.lxor_nilpotent, !N.lxor_0_r in H. exact H. }
    rewrite E, mirror_twice in C by exact Hr. exact C.
Qed.
