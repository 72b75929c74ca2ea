(** CrcFacts.v - error-detection properties of CRC-32, proved from its bitwise definition. *)
From Verif Require Export BaseFacts Crc32.
Open Scope N_scope.

Definition u32 (x : N) : Prop := x < 2 ^ 32.

Lemma testbit_high x n : x < 2 ^ n -> forall m, n <= m -> N.testbit x m = false.
Proof.
  intros H m Hm. destruct (N.eq_dec x 0) as [->|Hx]; [apply N.bits_0|].
  apply N.bits_above_log2. apply N.log2_lt_pow2 in H; lia.
Qed.
Lemma lt_pow2_testbit x n : (forall m, n <= m -> N.testbit x m = false) -> x < 2 ^ n.
Proof.
  intros H. destruct (N.eq_dec x 0) as [->|Hx].
  - apply N.neq_0_lt_0. apply N.pow_nonzero. lia.
  - apply N.log2_lt_pow2; [lia|]. destruct (N.lt_ge_cases (N.log2 x) n) as [|G]; auto.
    specialize (H _ G). rewrite N.bit_log2 in H; auto; discriminate.
Qed.

Lemma u32_lxor a b : u32 a -> u32 b -> u32 (N.lxor a b).
Proof.
  unfold u32; intros Ha Hb. apply lt_pow2_testbit; intros m Hm.
  rewrite N.lxor_spec, !(testbit_high _ 32) by auto. auto.
Qed.
Lemma u32_byte b : u32 (Byte.to_N b).
Proof. pose proof (byte_to_N_bound b). unfold u32. change (2 ^ 32) with 4294967296. lia. Qed.
Lemma u32_poly : u32 crc_poly. Proof. reflexivity. Qed.
Lemma u32_ones : u32 crc_ones. Proof. reflexivity. Qed.

Lemma u32_shiftr c : u32 c -> u32 (N.shiftr c 1).
Proof.
  unfold u32; intros H. rewrite N.shiftr_div_pow2. change (2 ^ 1) with 2.
  pose proof (N.mul_div_le c 2). lia.
Qed.
Lemma u32_crc_bit c : u32 c -> u32 (crc_bit c).
Proof.
  intros H; unfold crc_bit. pose proof (u32_shiftr c H).
  destruct (N.testbit c 0); auto. apply u32_lxor; auto using u32_poly.
Qed.

(** Bit 31 of the result tells which branch was taken. *)
Lemma crc_bit_31 c : u32 c -> N.testbit (crc_bit c) 31 = N.testbit c 0.
Proof.
  intros H. unfold crc_bit.
  assert (E : N.testbit (N.shiftr c 1) 31 = false).
  { rewrite N.shiftr_spec by lia. apply testbit_high with 32; [exact H|lia]. }
  destruct (N.testbit c 0) eqn:B.
  - rewrite N.lxor_spec, E. reflexivity.
  - auto.
Qed.
Lemma shiftr1_inj a b : N.testbit a 0 = N.testbit b 0 -> N.shiftr a 1 = N.shiftr b 1 -> a = b.
Proof.
  intros H0 H1. apply N.bits_inj; intros m. destruct (N.eq_dec m 0) as [->|Hm]; auto.
  replace m with (N.pred m + 1) by lia. rewrite <- !N.shiftr_spec by lia. rewrite H1; auto.
Qed.
Lemma crc_bit_inj a b : u32 a -> u32 b -> crc_bit a = crc_bit b -> a = b.
Proof.
  intros Ha Hb H.
  assert (E : N.testbit a 0 = N.testbit b 0) by (rewrite <- !crc_bit_31, H; auto).
  apply shiftr1_inj; auto. unfold crc_bit in H. rewrite E in H.
  destruct (N.testbit b 0); auto.
  apply (f_equal (fun x => N.lxor x crc_poly)) in H.
  rewrite !N.lxor_assoc, N.lxor_nilpotent, !N.lxor_0_r in H. auto.
Qed.

Lemma u32_crc_8 c : u32 c -> u32 (crc_8 c).
Proof. intros; unfold crc_8; repeat apply u32_crc_bit; auto. Qed.
Lemma crc_8_inj a b : u32 a -> u32 b -> crc_8 a = crc_8 b -> a = b.
Proof.
  intros Ha Hb H; unfold crc_8 in H.
  repeat (apply crc_bit_inj in H; [|repeat apply u32_crc_bit; assumption ..]). auto.
Qed.

(** Linearity. *)
Lemma lxor_4 a b c d : N.lxor (N.lxor a b) (N.lxor c d) = N.lxor (N.lxor a c) (N.lxor b d).
Proof.
  rewrite !N.lxor_assoc. f_equal. rewrite <- !N.lxor_assoc. f_equal. apply N.lxor_comm.
Qed.
Lemma crc_bit_lxor a b : crc_bit (N.lxor a b) = N.lxor (crc_bit a) (crc_bit b).
Proof.
  unfold crc_bit. rewrite N.lxor_spec, N.shiftr_lxor.
  destruct (N.testbit a 0), (N.testbit b 0); simpl; auto.
  - rewrite lxor_4, N.lxor_nilpotent, N.lxor_0_r; auto.
  - rewrite !N.lxor_assoc. f_equal. apply N.lxor_comm.
  - apply N.lxor_assoc.
Qed.
Lemma crc_8_lxor a b : crc_8 (N.lxor a b) = N.lxor (crc_8 a) (crc_8 b).
Proof. unfold crc_8. rewrite !crc_bit_lxor. auto. Qed.

Lemma crc_bit_double x : crc_bit (2 * x) = x.
Proof.
  unfold crc_bit. rewrite N.testbit_even_0.
  rewrite N.shiftr_div_pow2. change (2 ^ 1) with 2. rewrite N.mul_comm, N.div_mul; auto. lia.
Qed.
Lemma crc_8_256 x : crc_8 (256 * x) = x.
Proof.
  unfold crc_8.
  replace (256 * x) with (2 * (2 * (2 * (2 * (2 * (2 * (2 * (2 * x)))))))) by lia.
  rewrite !crc_bit_double. auto.
Qed.

(** A window of at most four bytes acts as one 32-bit word xored into the state. *)
Fixpoint crc_8s (n : nat) (c : N) : N :=
  match n with O => c | S n' => crc_8s n' (crc_8 c) end.
Lemma crc_8s_inj n : forall a b, u32 a -> u32 b -> crc_8s n a = crc_8s n b -> a = b.
Proof.
  induction n as [|n IH]; simpl; auto. intros a b Ha Hb H.
  apply crc_8_inj; auto. apply IH; auto using u32_crc_8.
Qed.
Lemma add_lxor_byte b v : Byte.to_N b + 256 * v = N.lxor (Byte.to_N b) (256 * v).
Proof.
  apply N.add_nocarry_lxor. apply N.bits_inj; intros m. rewrite N.land_spec, N.bits_0.
  destruct (N.lt_ge_cases m 8).
  - replace (256 * v) with (v * 2 ^ 8) by (change (2 ^ 8) with 256; lia).
    rewrite N.mul_pow2_bits_low by auto. apply andb_false_r.
  - rewrite (testbit_high (Byte.to_N b) 8); auto. apply byte_to_N_bound.
Qed.
Lemma crc_update_window l : forall c, crc_update c l = crc_8s (length l) (N.lxor c (le_val l)).
Proof.
  induction l as [|b l IH]; intros c.
  - simpl. rewrite N.lxor_0_r; auto.
  - unfold crc_update. simpl fold_left. change (fold_left crc_byte l) with (fun x => crc_update x l).
    cbv beta. rewrite IH. simpl length. simpl crc_8s. f_equal.
    unfold crc_byte. simpl le_val. rewrite add_lxor_byte, <- N.lxor_assoc.
    rewrite (crc_8_lxor (N.lxor c (Byte.to_N b)) (256 * le_val l)), crc_8_256. auto.
Qed.

Lemma crc_update_app c a b : crc_update c (a ++ b) = crc_update (crc_update c a) b.
Proof. apply fold_left_app. Qed.
Lemma u32_crc_update l : forall c, u32 c -> u32 (crc_update c l).
Proof.
  induction l as [|b l IH]; intros c H; simpl; auto.
  apply IH. apply u32_crc_8. apply u32_lxor; auto using u32_byte.
Qed.
Lemma crc_byte_inj_state a b x : u32 a -> u32 b -> crc_byte a x = crc_byte b x -> a = b.
Proof.
  intros Ha Hb H. apply crc_8_inj in H; try (apply u32_lxor; auto using u32_byte).
  apply (f_equal (fun y => N.lxor y (Byte.to_N x))) in H.
  rewrite !N.lxor_assoc, N.lxor_nilpotent, !N.lxor_0_r in H. auto.
Qed.
Lemma crc_update_inj_state l : forall a b, u32 a -> u32 b -> crc_update a l = crc_update b l -> a = b.
Proof.
  induction l as [|x l IH]; simpl; auto. intros a b Ha Hb H.
  apply (crc_byte_inj_state a b x); auto. apply IH; auto;
    apply u32_crc_8, u32_lxor; auto using u32_byte.
Qed.
Lemma le_val_u32 l : (length l <= 4)%nat -> u32 (le_val l).
Proof.
  intros H. unfold u32. pose proof (le_val_bound l) as B.
  assert (256 ^ lenN l <= 256 ^ 4).
  { apply N.pow_le_mono_r; unfold lenN; lia. }
  change (256 ^ 4) with (2 ^ 32) in *. lia.
Qed.
Lemma crc_update_inj_window s w1 w2 :
  u32 s -> length w1 = length w2 -> (length w1 <= 4)%nat ->
  crc_update s w1 = crc_update s w2 -> w1 = w2.
Proof.
  intros Hs HL H4 H. rewrite !crc_update_window, HL in H.
  apply crc_8s_inj in H; try (apply u32_lxor; auto; apply le_val_u32; lia).
  apply (f_equal (N.lxor s)) in H.
  rewrite <- !N.lxor_assoc, N.lxor_nilpotent, !N.lxor_0_l in H.
  apply le_val_inj; auto.
Qed.

Lemma crc32_inj_update a b : crc32 a = crc32 b -> crc_update crc_ones a = crc_update crc_ones b.
Proof.
  unfold crc32; intros H. apply (f_equal (fun x => N.lxor x crc_ones)) in H.
  rewrite !N.lxor_assoc, N.lxor_nilpotent, !N.lxor_0_r in H. auto.
Qed.

(** Changing a run of one to four bytes always changes the CRC. *)
Lemma crc32_burst pre w1 w2 post :
  length w1 = length w2 -> (length w1 <= 4)%nat -> w1 <> w2 ->
  crc32 (pre ++ w1 ++ post) <> crc32 (pre ++ w2 ++ post).
Proof.
  intros HL H4 Hne H. apply Hne. apply crc32_inj_update in H.
  rewrite !crc_update_app in H.
  apply crc_update_inj_state in H; try (repeat apply u32_crc_update; apply u32_ones).
  eapply crc_update_inj_window; eauto. apply u32_crc_update, u32_ones.
Qed.
Lemma crc32_u32 l : crc32 l < 256 ^ 4.
Proof. change (256 ^ 4) with (2 ^ 32). apply u32_lxor; [apply u32_crc_update|]; apply u32_ones. Qed.

(** Published check value of CRC-32/ISO-HDLC: the CRC of "123456789". *)
Example crc32_check : crc32 [x31; x32; x33; x34; x35; x36; x37; x38; x39] = 0xCBF43926.
Proof. reflexivity. Qed.
