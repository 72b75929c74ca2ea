(** BaseFacts.v - lemmas about [Base.v]. *)
From Verif Require Export Base.
From Coq Require Export ZifyBool ZifyNat ZifyN.
Open Scope N_scope.

Arguments N.add : simpl never.
Arguments N.sub : simpl never.
Arguments N.mul : simpl never.
Arguments N.div : simpl never.
Arguments N.modulo : simpl never.
Arguments N.pow : simpl never.
Arguments N.leb : simpl never.
Arguments N.ltb : simpl never.
Arguments N.eqb : simpl never.
Arguments N.of_nat : simpl never.
Arguments N.to_nat : simpl never.
Arguments zeros : simpl never.

Ltac nlia := first [lia | exfalso; lia].

(** Booleans to propositions. *)
Ltac bool_hyps := repeat match goal with
  | H : (_ && _)%bool = true |- _ => apply andb_true_iff in H; destruct H
  | H : (_ || _)%bool = false |- _ => apply orb_false_iff in H; destruct H
  | H : negb _ = true |- _ => apply negb_true_iff in H
  | H : negb _ = false |- _ => apply negb_false_iff in H
  | H : (_ =? _) = true |- _ => apply N.eqb_eq in H
  | H : (_ =? _) = false |- _ => apply N.eqb_neq in H
  | H : (_ <=? _) = true |- _ => apply N.leb_le in H
  | H : (_ <=? _) = false |- _ => apply N.leb_gt in H
  | H : (_ <? _) = true |- _ => apply N.ltb_lt in H
  | H : (_ <? _) = false |- _ => apply N.ltb_ge in H
  end.

(** Lists. *)
Lemma nth_error_ext {A} (l1 l2 : list A) :
  (forall i, nth_error l1 i = nth_error l2 i) -> l1 = l2.
Proof.
  revert l2; induction l1 as [|a l1 IH]; intros [|b l2] H; auto.
  - specialize (H O); discriminate.
  - specialize (H O); discriminate.
  - pose proof (H O) as H0; simpl in H0; injection H0 as ->.
    f_equal; apply IH; intros i; exact (H (S i)).
Qed.

Lemma nth_error_app {A} (l1 l2 : list A) i :
  nth_error (l1 ++ l2) i =
  if (i <? length l1)%nat then nth_error l1 i else nth_error l2 (i - length l1).
Proof.
  destruct (Nat.ltb_spec i (length l1)).
  - apply nth_error_app1; auto.
  - apply nth_error_app2; auto.
Qed.

Lemma nth_error_firstn {A} (l : list A) n i :
  nth_error (firstn n l) i = if (i <? n)%nat then nth_error l i else None.
Proof.
  revert n i; induction l as [|a l IH]; intros n i.
  - rewrite firstn_nil. destruct i; simpl; destruct (_ <? _)%nat; auto.
  - destruct n; simpl firstn.
    + destruct i; auto.
    + destruct i; simpl; auto. rewrite IH.
      destruct (Nat.ltb_spec i n), (Nat.ltb_spec (S i) (S n)); auto; lia.
Qed.

Lemma nth_error_skipn {A} (l : list A) n i :
  nth_error (skipn n l) i = nth_error l (n + i).
Proof.
  revert l; induction n as [|n IH]; intros [|a l]; simpl; auto.
  destruct i; auto.
Qed.

Lemma nth_error_repeat_if {A} (x : A) n i :
  nth_error (repeat x n) i = if (i <? n)%nat then Some x else None.
Proof.
  revert i; induction n as [|n IH]; intros [|i]; simpl; auto.
  rewrite IH. destruct (Nat.ltb_spec i n), (Nat.ltb_spec (S i) (S n)); auto; lia.
Qed.

Lemma nth_error_ge {A} (l : list A) i : (length l <= i)%nat -> nth_error l i = None.
Proof. apply nth_error_None. Qed.

Lemma zeros_length n : length (zeros n) = n.
Proof. apply repeat_length. Qed.

Lemma zeros_app a b : zeros (a + b) = zeros a ++ zeros b.
Proof. apply repeat_app. Qed.

Lemma firstn_app_l {A} (a b : list A) n : n = length a -> firstn n (a ++ b) = a.
Proof. intros ->; rewrite firstn_app, firstn_all, Nat.sub_diag, firstn_O, app_nil_r; auto. Qed.
Lemma skipn_app_l {A} (a b : list A) n : n = length a -> skipn n (a ++ b) = b.
Proof. intros ->; rewrite skipn_app, skipn_all, Nat.sub_diag; auto. Qed.

Lemma lenN_app {A} (a b : list A) : lenN (a ++ b) = lenN a + lenN b.
Proof. unfold lenN; rewrite app_length; lia. Qed.
Lemma lenN_zeros n : lenN (zeros n) = N.of_nat n.
Proof. unfold lenN; rewrite zeros_length; auto. Qed.
Lemma lenN_nil {A} : lenN (@nil A) = 0.
Proof. reflexivity. Qed.
Lemma lenN_cons {A} (x : A) l : lenN (x :: l) = 1 + lenN l.
Proof. unfold lenN; simpl length; lia. Qed.

(** Bytes. *)
Lemma byte_to_N_bound b : Byte.to_N b < 256.
Proof. pose proof (Byte.to_N_bounded b). lia. Qed.

Lemma byte_of_N_to_N b : byte_of_N (Byte.to_N b) = b.
Proof.
  unfold byte_of_N. rewrite N.mod_small by apply byte_to_N_bound.
  rewrite Byte.of_to_N; auto.
Qed.

Lemma to_N_byte_of_N v : Byte.to_N (byte_of_N v) = v mod 256.
Proof.
  unfold byte_of_N.
  assert (v mod 256 < 256) by (apply N.mod_lt; lia).
  destruct (Byte.of_N (v mod 256)) eqn:E.
  - apply Byte.to_of_N in E. auto.
  - apply Byte.of_N_None_iff in E. lia.
Qed.

Lemma byte_to_N_inj a b : Byte.to_N a = Byte.to_N b -> a = b.
Proof.
  intros H. rewrite <- (byte_of_N_to_N a), <- (byte_of_N_to_N b), H; auto.
Qed.

Lemma byte_eqb_eq a b : Byte.eqb a b = true <-> a = b.
Proof.
  split; [apply Byte.byte_dec_bl | apply Byte.byte_dec_lb].
Qed.

Lemma bytes_eqb_eq a b : bytes_eqb a b = true <-> a = b.
Proof.
  revert b; induction a as [|x a IH]; intros [|y b]; simpl; split; intros H; try discriminate; auto.
  - apply andb_true_iff in H as [H1 H2]. apply byte_eqb_eq in H1. apply IH in H2. subst; auto.
  - injection H as -> ->. apply andb_true_iff; split; [apply byte_eqb_eq | apply IH]; auto.
Qed.
Lemma bytes_eqb_refl a : bytes_eqb a a = true.
Proof. apply bytes_eqb_eq; auto. Qed.
Lemma bytes_eqb_neq a b : bytes_eqb a b = false <-> a <> b.
Proof.
  split; intros H.
  - intros E; apply bytes_eqb_eq in E; congruence.
  - destruct (bytes_eqb a b) eqn:E; auto. apply bytes_eqb_eq in E; contradiction.
Qed.

Lemma le_bytes_length n v : length (le_bytes n v) = n.
Proof. revert v; induction n; intros v; simpl; auto. Qed.
Lemma be_bytes_length n v : length (be_bytes n v) = n.
Proof. unfold be_bytes; rewrite rev_length; apply le_bytes_length. Qed.

Lemma le_val_le_bytes n v : le_val (le_bytes n v) = v mod 256 ^ N.of_nat n.
Proof.
  revert v; induction n as [|n IH]; intros v; simpl le_bytes; simpl le_val.
  - change (N.of_nat 0) with 0. rewrite N.pow_0_r, N.mod_1_r; auto.
  - rewrite to_N_byte_of_N, IH.
    replace (N.of_nat (S n)) with (1 + N.of_nat n) by lia.
    rewrite N.pow_add_r, N.pow_1_r.
    rewrite N.mod_mul_r by (try lia; apply N.pow_nonzero; lia). lia.
Qed.
Lemma le_val_le_bytes_small n v : v < 256 ^ N.of_nat n -> le_val (le_bytes n v) = v.
Proof. intros; rewrite le_val_le_bytes; apply N.mod_small; auto. Qed.

Lemma le_val_bound l : le_val l < 256 ^ lenN l.
Proof.
  induction l as [|b l IH]; simpl le_val.
  - reflexivity.
  - rewrite lenN_cons, N.pow_add_r, N.pow_1_r. pose proof (byte_to_N_bound b). lia.
Qed.

Lemma le_bytes_le_val l : le_bytes (length l) (le_val l) = l.
Proof.
  induction l as [|b l IH]; simpl; auto.
  pose proof (byte_to_N_bound b).
  f_equal.
  - unfold byte_of_N. replace ((Byte.to_N b + 256 * le_val l) mod 256) with (Byte.to_N b).
    + rewrite Byte.of_to_N; auto.
    + rewrite (N.mul_comm 256), N.mod_add by lia. rewrite N.mod_small; auto.
  - replace ((Byte.to_N b + 256 * le_val l) / 256) with (le_val l); auto.
    rewrite (N.mul_comm 256), N.div_add by lia. rewrite N.div_small; auto.
Qed.
Lemma le_bytes_le_val_n n l : length l = n -> le_bytes n (le_val l) = l.
Proof. intros <-; apply le_bytes_le_val. Qed.

Lemma le_val_inj a b : length a = length b -> le_val a = le_val b -> a = b.
Proof.
  intros HL HV. rewrite <- (le_bytes_le_val a), <- (le_bytes_le_val b), HL, HV; auto.
Qed.

Lemma be_val_be_bytes_small n v : v < 256 ^ N.of_nat n -> be_val (be_bytes n v) = v.
Proof. unfold be_val, be_bytes; rewrite rev_involutive; apply le_val_le_bytes_small. Qed.
Lemma be_bytes_be_val_n n l : length l = n -> be_bytes n (be_val l) = l.
Proof.
  intros H; unfold be_bytes, be_val. rewrite le_bytes_le_val_n by (rewrite rev_length; auto).
  apply rev_involutive.
Qed.
Lemma be_val_bound l : be_val l < 256 ^ lenN l.
Proof.
  unfold be_val. pose proof (le_val_bound (rev l)) as H.
  unfold lenN in *. rewrite rev_length in H; auto.
Qed.

Lemma le_bytes_0 n : le_bytes n 0 = zeros n.
Proof.
  induction n as [|n IH]; simpl; auto.
  rewrite N.div_0_l by lia. rewrite IH. reflexivity.
Qed.

(** Machine arithmetic without overflow is exact in both modes. *)
Lemma addw_ok {E} oc w a b : a + b < modulus w -> @addw E oc w a b = Ok (a + b).
Proof. intros; unfold addw; destruct (N.ltb_spec (a + b) (modulus w)); auto; lia. Qed.
Lemma subw_ok {E} oc w a b : b <= a -> @subw E oc w a b = Ok (a - b).
Proof. intros; unfold subw; destruct (N.leb_spec b a); auto; lia. Qed.
Lemma mulw_ok {E} oc w a b : a * b < modulus w -> @mulw E oc w a b = Ok (a * b).
Proof. intros; unfold mulw; destruct (N.ltb_spec (a * b) (modulus w)); auto; lia. Qed.
Lemma remw_ok {E} a b : 0 < b -> @remw E a b = Ok (a mod b).
Proof. intros; unfold remw; destruct (N.eqb_spec b 0); auto; lia. Qed.
Lemma checked_mul64_ok a b : a * b < modulus 64 -> checked_mul64 a b = Some (a * b).
Proof. intros; unfold checked_mul64; destruct (N.ltb_spec (a * b) (modulus 64)); auto; lia. Qed.
Lemma checked_mul64_none a b : modulus 64 <= a * b -> checked_mul64 a b = None.
Proof. intros; unfold checked_mul64; destruct (N.ltb_spec (a * b) (modulus 64)); auto; lia. Qed.
Lemma checked_sub64_ok a b : b <= a -> checked_sub64 a b = Some (a - b).
Proof. intros; unfold checked_sub64; destruct (N.leb_spec b a); auto; lia. Qed.
Lemma checked_sub64_none a b : a < b -> checked_sub64 a b = None.
Proof. intros; unfold checked_sub64; destruct (N.leb_spec b a); auto; lia. Qed.

Lemma modulus_64 : modulus 64 = 18446744073709551616.
Proof. reflexivity. Qed.
Lemma modulus_32 : modulus 32 = 4294967296.
Proof. reflexivity. Qed.
Lemma modulus_31 : modulus 31 = 2147483648.
Proof. reflexivity. Qed.
Global Opaque modulus.

(** Reading from a byte string. *)
Lemma rd_bytes_app {E} n (a r : list byte) :
  length a = n -> @rd_bytes E n (a ++ r) = (Ok a, r).
Proof.
  intros H. unfold rd_bytes. rewrite app_length.
  destruct (Nat.leb_spec n (length a + length r)); [|lia].
  rewrite firstn_app_l, skipn_app_l by auto. auto.
Qed.
Lemma rd_le_app {E} n v r :
  v < 256 ^ N.of_nat n -> @rd_le E n (le_bytes n v ++ r) = (Ok v, r).
Proof.
  intros H. unfold rd_le, bind. rewrite rd_bytes_app by apply le_bytes_length.
  unfold ret. rewrite le_val_le_bytes_small; auto.
Qed.
Lemma rd_le_app_raw {E} n a r :
  length a = n -> @rd_le E n (a ++ r) = (Ok (le_val a), r).
Proof. intros H. unfold rd_le, bind. rewrite rd_bytes_app by auto. reflexivity. Qed.

(** Writing into an array. *)
Lemma splice_length p bs l : (p + length bs <= length l)%nat -> length (splice p bs l) = length l.
Proof.
  intros H; unfold splice. rewrite !app_length, firstn_length, skipn_length. lia.
Qed.
Lemma splice_app pre bs old rest :
  length bs = length old -> splice (length pre) bs (pre ++ old ++ rest) = pre ++ bs ++ rest.
Proof.
  intros H; unfold splice. rewrite firstn_app_l by auto. f_equal. f_equal.
  rewrite app_assoc. apply skipn_app_l. rewrite app_length; lia.
Qed.
Lemma wr_bytes_app {E} pre bs old rest p :
  length bs = length old -> p = length pre ->
  @wr_bytes E bs (mkWarr (pre ++ old ++ rest) p) =
  (Ok tt, mkWarr (pre ++ bs ++ rest) (length pre + length bs)).
Proof.
  intros H ->. unfold wr_bytes; simpl.
  rewrite !app_length. destruct (Nat.leb_spec (length pre + length bs)
    (length pre + (length old + length rest))); [|lia].
  rewrite splice_app; auto.
Qed.

Lemma map_ext_Fa {A B} (f g : A -> B) l :
  Forall (fun x => f x = g x) l -> map f l = map g l.
Proof. induction 1; simpl; f_equal; auto. Qed.
