(** BitFacts.v - flipped bits on a device. *)
From Verif Require Export AcceptFacts CrcBits.
Open Scope list_scope.
Open Scope N_scope.

Lemma bit_at_app a b i : bit_at (a ++ b) i = if i <? 8 * lenN a then bit_at a i else bit_at b (i - 8 * lenN a).
Proof.
  unfold bit_at. rewrite byte_no_app.
  destruct (N.ltb_spec i (8 * lenN a)) as [L|L].
  - rewrite (proj2 (N.ltb_lt (i / 8) _)); [reflexivity|]. apply N.div_lt_upper_bound; lia.
  - rewrite (proj2 (N.ltb_ge (i / 8) _)) by (apply N.div_le_lower_bound; lia).
    assert (E : i = (i - 8 * lenN a) + lenN a * 8) by lia. set (j := i - 8 * lenN a) in *. clearbody j. subst i.
    rewrite N.div_add, N.mod_add by lia. replace (j / 8 + lenN a - lenN a) with (j / 8) by lia. reflexivity.
Qed.
Lemma bit_at_slice off n l i : bit_at (slice off n l) i = if i <? 8 * n then bit_at l (8 * off + i) else false.
Proof.
  unfold bit_at. rewrite byte_no_at, byte_at_slice.
  replace (8 * off + i) with (i + off * 8) by lia. rewrite N.div_add, N.mod_add by lia.
  destruct (N.ltb_spec i (8 * n)) as [L|L].
  - rewrite (proj2 (N.ltb_lt (i / 8) _)) by (apply N.div_lt_upper_bound; lia). unfold byte_no, byte_at.
    replace (off + i / 8) with (i / 8 + off) by lia. reflexivity.
  - rewrite (proj2 (N.ltb_ge (i / 8) _)) by (apply N.div_le_lower_bound; lia). reflexivity.
Qed.
Lemma bit_at_ge l i : 8 * lenN l <= i -> bit_at l i = false.
Proof.
  intros H. unfold bit_at. rewrite byte_no_at, byte_at_ge; [reflexivity|]. apply N.div_le_lower_bound; lia.
Qed.
Lemma bit_at_zeros n i : bit_at (zeros n) i = false.
Proof.
  unfold bit_at. destruct (byte_no (zeros n) (i / 8)) as [b|] eqn:E; [|reflexivity].
  apply nth_error_In in E. apply repeat_spec in E. subst b. apply N.bits_0.
Qed.
Lemma bit_at_ext l l' : lenN l = lenN l' -> (forall i, bit_at l i = bit_at l' i) -> l = l'.
Proof.
  intros HL H. apply le_val_inj; [unfold lenN in HL; lia|]. apply N.bits_inj; intros i. rewrite !testbit_le_val. apply H.
Qed.
Lemma flipped_nil l l' : flipped [] l l' -> l = l'.
Proof.
  intros (HL & _ & HB). symmetry. apply bit_at_ext; [exact HL|]. intros i. specialize (HB i). cbn in HB.
  destruct (bit_at l' i), (bit_at l i); auto; exfalso; apply (proj1 HB); intros X; discriminate X.
Qed.
Lemma flipped_xor ps l l' i : flipped ps l l' -> xorb (bit_at l i) (bit_at l' i) = true <-> In i ps.
Proof.
  intros (_ & _ & HB). rewrite <- HB. destruct (bit_at l i), (bit_at l' i); cbn; split; auto; try discriminate; congruence.
Qed.

(** The flipped bits that are in a part of the list. *)
Definition within_bits (off n p : N) : bool := (8 * off <=? p) && (p <? 8 * (off + n)).
Definition part_of (off n : N) (ps : list N) : list N := map (fun p => p - 8 * off) (filter (within_bits off n) ps).
Lemma within_bits_iff off n p : within_bits off n p = true <-> 8 * off <= p < 8 * (off + n).
Proof. unfold within_bits. rewrite Bool.andb_true_iff, N.leb_le, N.ltb_lt. reflexivity. Qed.
Lemma NoDup_map_in {A B} (f : A -> B) l : (forall x y, In x l -> In y l -> f x = f y -> x = y) -> NoDup l -> NoDup (map f l).
Proof.
  induction l as [|a l IH]; intros INJ ND; cbn [map]; [constructor|]. inversion ND; subst. constructor.
  - intros I. apply in_map_iff in I. destruct I as (b & E & Ib). apply INJ in E; [subst; contradiction|right; auto|left; auto].
  - apply IH; auto. intros x y Hx Hy. apply INJ; right; auto.
Qed.
Lemma part_of_in off n ps i : In i (part_of off n ps) <-> i < 8 * n /\ In (8 * off + i) ps.
Proof.
  unfold part_of. rewrite in_map_iff. split.
  - intros (p & <- & I). apply filter_In in I. destruct I as [I W]. apply within_bits_iff in W. split; [lia|].
    replace (8 * off + (p - 8 * off)) with p by lia. exact I.
  - intros [H I]. exists (8 * off + i). split; [lia|]. apply filter_In. split; [exact I|]. apply within_bits_iff. lia.
Qed.
Lemma flipped_slice ps l l' off n : flipped ps l l' -> off + n <= lenN l ->
  flipped (part_of off n ps) (slice off n l) (slice off n l').
Proof.
  intros (HL & ND & HB) H. split; [rewrite !slice_length by lia; reflexivity|]. split.
  - apply NoDup_map_in; [|apply NoDup_filter; exact ND]. intros x y Hx Hy E.
    apply filter_In in Hx, Hy. destruct Hx as [_ Hx], Hy as [_ Hy]. apply within_bits_iff in Hx, Hy. lia.
  - intros i. rewrite !bit_at_slice, part_of_in. destruct (N.ltb_spec i (8 * n)) as [L|L].
    + rewrite HB. tauto.
    + split; [congruence|lia].
Qed.
Lemma filter_length_le {A} (f : A -> bool) l : (length (filter f l) <= length l)%nat.
Proof. induction l as [|a l IH]; cbn; [lia|]. destruct (f a); cbn; lia. Qed.
Lemma part_of_length off n ps : (length (part_of off n ps) <= length ps)%nat.
Proof. unfold part_of. rewrite map_length. apply filter_length_le. Qed.
Lemma part_of_some off n ps p : In p ps -> 8 * off <= p < 8 * (off + n) -> part_of off n ps <> [].
Proof.
  intros I W E. assert (X : In (p - 8 * off) (part_of off n ps)).
  { apply part_of_in. split; [lia|]. replace (8 * off + (p - 8 * off)) with p by lia. exact I. }
  rewrite E in X. contradiction.
Qed.
Lemma part_of_none off n ps l l' : flipped ps l l' -> off + n <= lenN l -> part_of off n ps = [] -> slice off n l = slice off n l'.
Proof. intros F H E. apply flipped_nil. rewrite <- E. apply flipped_slice; auto. Qed.

(** * A header *)
Definition in_field (p : N) : bool := (128 <=? p) && (p <? 160).
Lemma in_field_iff p : in_field p = true <-> 128 <= p < 160.
Proof. unfold in_field. rewrite Bool.andb_true_iff, N.leb_le, N.ltb_lt. reflexivity. Qed.
Lemma sum_pow_unique v ps : NoDup ps -> (forall i, N.testbit v i = true <-> In i ps) -> v = sum (map (fun p => 2 ^ p) ps).
Proof.
  intros ND H. apply N.bits_inj; intros i. pose proof (bits_of_sum ps ND i) as B. specialize (H i).
  destruct (N.testbit v i), (N.testbit (sum _) i); auto.
  - symmetry. apply B, H. reflexivity.
  - apply H, B. reflexivity.
Qed.
Lemma header_bits ps b b' : lenN b = 92 -> flipped ps b b' -> ps <> [] -> (length ps <= 4)%nat ->
  num_at 16 4 b = header_checksum b -> num_at 16 4 b' = header_checksum b' -> False.
Proof.
  intros HL F NE L4 V V'. pose proof (flipped_bound _ _ _ F) as B. rewrite HL in B. 
  assert (ND : NoDup ps) by (destruct F as (_ & ND & _); exact ND).
  assert (HL' : lenN b' = 92) by (destruct F as (X & _); lia).
  assert (FX : forall i, xorb (bit_at b i) (bit_at b' i) = true <-> In i ps) by (intros i; apply flipped_xor; exact F).
  destruct (split_header b HL) as (pre & c & post & -> & A1 & A2 & A3).
  destruct (split_header b' HL') as (pre' & c' & post' & -> & B1 & B2 & B3).
  rewrite header_checksum_split, num_at_split in V, V' by assumption.
  set (z := pre ++ zeros 4 ++ post) in *. set (z' := pre' ++ zeros 4 ++ post') in *.
  assert (Lz : length z = 92%nat) by (unfold z, lenN in *; rewrite !app_length, zeros_length; lia).
  assert (Lz' : length z' = 92%nat) by (unfold z', lenN in *; rewrite !app_length, zeros_length; lia).
  set (fs := filter in_field ps). set (ms := filter (fun p => negb (in_field p)) ps).
  assert (Dz : N.lxor (le_val z) (le_val z') = sum (map (fun p => 2 ^ p) ms)).
  { apply sum_pow_unique; [apply NoDup_filter; exact ND|]. intros i. rewrite N.lxor_spec, !testbit_le_val.
    unfold ms. rewrite filter_In, Bool.negb_true_iff. specialize (FX i). unfold z, z'.
    rewrite !bit_at_app, ?lenN_zeros, A1, A2, B1, B2 in *. change (8 * N.of_nat 4) with (8 * 4).
    destruct (N.ltb_spec i (8 * 16)) as [L|L].
    - rewrite FX. assert (X : in_field i = false) by (unfold in_field; rewrite (proj2 (N.leb_gt 128 i)) by lia; reflexivity).
      tauto.
    - destruct (N.ltb_spec (i - 8 * 16) (8 * 4)) as [L2|L2].
      + rewrite !bit_at_zeros. cbn [xorb]. assert (X : in_field i = true) by (apply in_field_iff; lia). rewrite X.
        split; [discriminate|]. intros [_ Y]. discriminate.
      + rewrite FX. assert (X : in_field i = false).
        { unfold in_field. rewrite (proj2 (N.ltb_ge i 160)) by lia. apply Bool.andb_false_r. }
        tauto. }
  assert (Df : N.lxor (le_val c) (le_val c') = sum (map (fun p => 2 ^ p) (map (fun p => p - 128) fs))).
  { apply sum_pow_unique.
    - apply NoDup_map_in; [|apply NoDup_filter; exact ND]. intros x y Hx Hy E.
      apply filter_In in Hx, Hy. destruct Hx as [_ Hx], Hy as [_ Hy]. apply in_field_iff in Hx, Hy. lia.
    - intros j. rewrite N.lxor_spec, !testbit_le_val. destruct (N.lt_ge_cases j 32) as [L|L].
      + specialize (FX (128 + j)). rewrite !bit_at_app, A1, A2, B1, B2 in FX.
        rewrite (proj2 (N.ltb_ge (128 + j) (8 * 16))) in FX by lia.
        replace (128 + j - 8 * 16) with j in FX by lia. rewrite (proj2 (N.ltb_lt j (8 * 4))) in FX by lia.
        rewrite FX, in_map_iff. split.
        * intros I. exists (128 + j). split; [lia|]. apply filter_In. split; [exact I|]. apply in_field_iff. lia.
        * intros (p & <- & I). apply filter_In in I. destruct I as [I W]. apply in_field_iff in W.
          replace (128 + (p - 128)) with p by lia. exact I.
      + rewrite !bit_at_ge by lia. split; [discriminate|]. intros I. apply in_map_iff in I. destruct I as (p & <- & I).
        apply filter_In in I. destruct I as [_ W]. apply in_field_iff in W. lia. }
  pose proof (crc_difference z z' ltac:(lia)) as CD. rewrite <- V, <- V', Df, Dz, Lz, steps_sum in CD.
  set (idx := map (fun p => 159 - p) fs ++ map (fun p => 767 - p) ms).
  assert (Z : sum (map Q idx) = 0).
  { unfold idx. rewrite map_app, sum_app. rewrite !map_map in *.
    replace (map (fun x => Q (159 - x)) fs) with (map (fun x => 2 ^ (x - 128)) fs).
    - replace (map (fun x => Q (767 - x)) ms) with (map (fun x => steps (8 * 92) (2 ^ x)) ms); [rewrite <- CD; apply N.lxor_nilpotent|].
      apply map_ext_in. intros p I. apply filter_In in I. destruct I as [I _]. rewrite Forall_forall in B. specialize (B p I).
      pose proof (steps_pow (8 * 92) (N.to_nat p) ltac:(lia)) as S. rewrite Nnat.N2Nat.id in S. rewrite S. f_equal. lia.
    - apply map_ext_in. intros p I. apply filter_In in I. destruct I as [_ W]. apply in_field_iff in W.
      rewrite low_pow by lia. f_equal. lia. }
  revert Z. apply few_powers.
  - intros E. unfold idx in E. apply app_eq_nil in E. destruct E as [E1 E2]. apply map_eq_nil in E1, E2.
    destruct ps as [|p ps]; [congruence|]. unfold fs, ms in *. cbn [filter] in *. destruct (in_field p); discriminate.
  - unfold idx. rewrite app_length, !map_length. unfold fs, ms.
    replace (length (filter in_field ps) + length (filter (fun p => negb (in_field p)) ps))%nat with (length ps); [exact L4|].
    clear. induction ps as [|p ps IH]; cbn [filter length]; [reflexivity|]. destruct (in_field p); cbn [negb length]; lia.
  - assert (FI : forall p, In p fs -> 128 <= p < 160) by (intros p I; apply filter_In in I; apply in_field_iff; tauto).
    assert (MI : forall p, In p ms -> p < 736 /\ ~ (128 <= p < 160)).
    { intros p I. apply filter_In in I. destruct I as [I W]. rewrite Forall_forall in B. specialize (B p I).
      split; [lia|]. intros X. apply in_field_iff in X. rewrite X in W. discriminate. }
    unfold idx. assert (N1 : NoDup (map (fun p => 159 - p) fs)).
    { apply NoDup_map_in; [|apply NoDup_filter; exact ND]. intros x y Hx Hy. apply FI in Hx, Hy. lia. }
    assert (N2 : NoDup (map (fun p => 767 - p) ms)).
    { apply NoDup_map_in; [|apply NoDup_filter; exact ND]. intros x y Hx Hy. apply MI in Hx, Hy. lia. }
    assert (N3 : forall x, In x (map (fun p => 159 - p) fs) -> ~ In x (map (fun p => 767 - p) ms)).
    { intros x I J. apply in_map_iff in I, J. destruct I as (p & <- & I), J as (q & E & J). apply FI in I. apply MI in J. lia. }
    clear - N1 N2 N3. revert N1 N3. generalize (map (fun p => 159 - p) fs) as u. induction u as [|a u IH]; intros N1 N3; [exact N2|].
    inversion N1; subst. cbn [app]. constructor.
    + rewrite in_app_iff. intros [X|X]; [contradiction|]. apply (N3 a); [left; reflexivity|exact X].
    + apply IH; [assumption|]. intros x I. apply N3. right. exact I.
  - unfold idx. apply Forall_app. split; apply Forall_forall; intros x I; apply in_map_iff in I; destruct I as (p & <- & I); lia.
Qed.
Lemma read_header_bits ps off l l' h : read_header_at off l = Ok h -> flipped ps l l' -> (length ps <= 4)%nat ->
  (exists p, In p ps /\ 8 * off <= p < 8 * (off + 92)) -> exists e, read_header_at off l' = Err e.
Proof.
  intros R F L4 (p & I & W).
  pose proof (read_header_at_spec off l) as S. rewrite R in S.
  pose proof (read_header_at_spec off l') as S'.
  destruct (read_header_at off l') as [h'|e|] eqn:E; [|exists e; reflexivity|exfalso; eapply read_header_at_no_panic; eauto].
  exfalso. inversion S as [| | |x HL _ V _]; subst x. inversion S' as [| | |x HL' _ V' _]; subst x.
  apply (header_bits (part_of off 92 ps) (slice off 92 l) (slice off 92 l')).
  - apply slice_length. exact HL.
  - apply flipped_slice; auto.
  - eapply part_of_some; eauto.
  - pose proof (part_of_length off 92 ps). lia.
  - rewrite num_at_slice by lia. exact V.
  - rewrite num_at_slice by lia. exact V'.
Qed.

(** * An array *)
Lemma array_bits ps l l' : flipped ps l l' -> ps <> [] -> (length ps <= 2)%nat -> lenN l < 2 ^ 29 - 4 -> crc32 l <> crc32 l'.
Proof.
  intros F NE L2 HL E. pose proof (flipped_crc ps l l' F) as C. rewrite E, N.lxor_nilpotent in C. symmetry in C.
  pose proof (flipped_bound ps l l' F) as B. destruct F as (_ & ND & _).
  destruct ps as [|p ps]; [congruence|]. inversion B as [|? ? Bp B2]; subst. destruct ps as [|q ps].
  - cbn in C. rewrite N.lxor_0_r in C. exact (Q_not_0 _ C).
  - destruct ps as [|r ps]; [|cbn in L2; lia]. inversion B2 as [|? ? Bq _]; subst.
    cbn [map sum fold_right] in C. rewrite N.lxor_0_r in C. apply N.lxor_eq in C. revert C.
    inversion ND as [|? ? NI _]; subst. cbn in NI. unfold period. change (2 ^ 29 - 4) with 536870908 in HL.
    apply two_powers; [lia|unfold period; change (2 ^ 32 - 1) with 4294967295; lia ..].
Qed.
(** Three bits that keep the checksum. *)
Definition blind (p : N) : list N := [p; p + 49961; p + 91639].
Lemma blind_bits l l' p : flipped (blind p) l l' -> crc32 l = crc32 l'.
Proof.
  intros F. apply N.lxor_eq. rewrite (flipped_crc _ _ _ F). pose proof (flipped_bound _ _ _ F) as B.
  inversion B as [|? ? _ B2]; subst. inversion B2 as [|? ? _ B3]; subst. inversion B3 as [|? ? B4 _]; subst.
  unfold blind. set (e := 31 + 8 * lenN l - (p + 91639)).
  cbn [map sum fold_right]. rewrite N.lxor_0_r.
  replace (31 + 8 * lenN l - (p + 49961)) with (41678 + e) by lia. replace (31 + 8 * lenN l - p) with (91639 + e) by lia.
  rewrite (Q_add 91639 e), (Q_add 41678 e). change (Q (31 + 8 * lenN l - (p + 91639))) with (steps (N.to_nat e) q0).
  rewrite <- (steps_lxor (N.to_nat e) (Q 41678) q0), <- (steps_lxor (N.to_nat e) (Q 91639)).
  replace (N.lxor (Q 91639) (N.lxor (Q 41678) q0)) with (N.lxor q0 (N.lxor (Q 41678) (Q 91639))).
  - rewrite three_powers. apply steps_0.
  - rewrite (N.lxor_comm q0), (N.lxor_comm (Q 41678) (Q 91639)). apply N.lxor_assoc.
Qed.

(** * Flipping bits *)
Definition flip (p : N) (l : list byte) : list byte :=
  match byte_no l (p / 8) with
  | Some b => store (p / 8) [byte_of_N (N.lxor (Byte.to_N b) (2 ^ (p mod 8)))] l
  | None => l
  end.
Definition flips (ps : list N) (l : list byte) : list byte := fold_right flip l ps.
Lemma flip_len p l : lenN (flip p l) = lenN l.
Proof.
  unfold flip. destruct (byte_no l (p / 8)) as [b|] eqn:E; [|reflexivity].
  apply store_lenN_in. unfold byte_no in E. assert (H : nth_error l (N.to_nat (p / 8)) <> None) by congruence.
  apply nth_error_Some in H. unfold lenN. cbn. lia.
Qed.
Lemma flip_bit p l i : p < 8 * lenN l -> bit_at (flip p l) i = if i =? p then negb (bit_at l i) else bit_at l i.
Proof.
  intros H. unfold flip, bit_at. change byte_no with byte_at.
  assert (HP : p / 8 < lenN l) by (apply N.div_lt_upper_bound; lia).
  destruct (byte_at l (p / 8)) as [b|] eqn:E.
  2:{ exfalso. unfold byte_at in E. apply nth_error_None in E. unfold lenN in HP. lia. }
  rewrite byte_at_store_in by (change (lenN [_]) with 1; lia). change (lenN [_]) with 1.
  destruct (N.eqb_spec (i / 8) (p / 8)) as [D|D].
  - rewrite D. replace ((p / 8 <=? p / 8) && (p / 8 <? p / 8 + 1)) with true
      by (symmetry; apply Bool.andb_true_iff; split; [apply N.leb_le|apply N.ltb_lt]; lia).
    rewrite N.sub_diag, E.
    match goal with |- context [byte_at [?x] 0] => change (byte_at [x] 0) with (Some x) end. cbv iota. rewrite to_N_byte_of_N.
    change 256 with (2 ^ 8). rewrite N.mod_pow2_bits_low by (apply N.mod_lt; lia).
    rewrite N.lxor_spec, N.pow2_bits_eqb.
    assert (X : (p mod 8 =? i mod 8) = (i =? p)).
    { destruct (N.eqb_spec i p) as [->|NE]; [apply N.eqb_refl|]. apply N.eqb_neq. intros Y. apply NE.
      rewrite (N.div_mod i 8), (N.div_mod p 8) by lia. congruence. }
    rewrite X. destruct (i =? p); [rewrite Bool.xorb_true_r|rewrite Bool.xorb_false_r]; reflexivity.
  - replace ((p / 8 <=? i / 8) && (i / 8 <? p / 8 + 1)) with false
      by (destruct (N.leb_spec (p / 8) (i / 8)), (N.ltb_spec (i / 8) (p / 8 + 1)); auto; lia).
    replace (i =? p) with false by (symmetry; apply N.eqb_neq; intros ->; congruence). reflexivity.
Qed.
Lemma flips_len ps l : lenN (flips ps l) = lenN l.
Proof. induction ps as [|p ps IH]; cbn [flips fold_right]; [reflexivity|]. rewrite flip_len. exact IH. Qed.
Lemma flips_flipped ps l : NoDup ps -> Forall (fun p => p < 8 * lenN l) ps -> flipped ps l (flips ps l).
Proof.
  intros ND B. split; [apply flips_len|]. split; [exact ND|]. induction ps as [|p ps IH]; intros i.
  - cbn. tauto.
  - inversion ND as [|? ? NI ND']; subst. inversion B as [|? ? Bp B']; subst. specialize (IH ND' B' i).
    cbn [flips fold_right]. fold (flips ps l). rewrite flip_bit by (rewrite flips_len; exact Bp).
    destruct (N.eqb_spec i p) as [->|NE].
    + assert (X : bit_at (flips ps l) p = bit_at l p).
      { destruct (Bool.bool_dec (bit_at (flips ps l) p) (bit_at l p)) as [Y|Y]; [exact Y|]. apply IH in Y. contradiction. }
      rewrite X. split; intros _; [left; reflexivity|]. destruct (bit_at l p); intros Y; discriminate Y.
    + rewrite IH. cbn [In]. split; [auto|]. intros [Y|Y]; [congruence|exact Y].
Qed.

(** * Reading an array *)
Lemma read_parts_bits ps h lb l l' m : part_size h = 128 -> lenN l < modulus 64 -> num_parts h < 2 ^ 22 -> read_parts_at h lb l = Ok m ->
  part_start h * lb_u64 lb + num_parts h * 128 <= lenN l ->
  flipped ps l l' -> (length ps <= 2)%nat ->
  (exists p, In p ps /\ 8 * (part_start h * lb_u64 lb) <= p < 8 * (part_start h * lb_u64 lb + num_parts h * 128)) ->
  read_parts_at h lb l' = Err (IoOther "partition table CRC mismatch").
Proof.
  intros HP HA HN R HL F L2 (p & I & W). assert (HL' : lenN l' = lenN l) by (destruct F; auto).
  unfold read_parts_at in *. rewrite HL'.
  replace (modulus 64 <=? part_start h * lb_u64 lb) with false in * by (symmetry; apply N.leb_gt; lia).
  replace (part_start h * lb_u64 lb + num_parts h * 128 <=? lenN l) with true in * by (symmetry; apply N.leb_le; lia).
  destruct (N.eqb_spec (crc32 (table_of h lb l)) (crc32_parts h)) as [X|X]; [|discriminate R].
  destruct (N.eqb_spec (crc32 (table_of h lb l')) (crc32_parts h)) as [Y|Y]; [|reflexivity].
  exfalso. rewrite <- Y in X. revert X. unfold table_of. rewrite HP.
  apply (array_bits (part_of (part_start h * lb_u64 lb) (num_parts h * 128) ps)).
  - apply flipped_slice; assumption.
  - eapply part_of_some; eauto.
  - pose proof (part_of_length (part_start h * lb_u64 lb) (num_parts h * 128) ps). lia.
  - rewrite slice_length by lia. change (2 ^ 29 - 4) with 536870908. change (2 ^ 22) with 4194304 in HN. lia.
Qed.
Lemma read_parts_same h lb l l' : part_size h = 128 -> lenN l' = lenN l ->
  slice (part_start h * lb_u64 lb) (num_parts h * 128) l = slice (part_start h * lb_u64 lb) (num_parts h * 128) l' ->
  read_parts_at h lb l' = read_parts_at h lb l.
Proof. intros HP HL E. unfold read_parts_at, parts_of, table_of. rewrite HP, HL, E. reflexivity. Qed.
