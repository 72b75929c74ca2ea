(** LayoutFacts.v - byte-level meaning of the partition array and of its entries. *)
From Verif Require Export SpecFacts.
Open Scope list_scope.
Open Scope N_scope.

Lemma read_units_vals {E} n : forall r, (2 * n <= length r)%nat ->
  @read_units E n r =
  (Ok (map (fun i => le_val (firstn 2 (skipn (2 * i) r))) (seq 0 n)), skipn (2 * n) r).
Proof.
  induction n as [|n IH]; intros r H; [reflexivity|].
  cbn [read_units]. unfold bind at 1. rewrite rd_le_firstn by lia.
  unfold bind. rewrite IH by (rewrite skipn_length; lia).
  unfold ret. rewrite skipn_add. replace (2 + 2 * n)%nat with (2 * S n)%nat by lia.
  do 2 f_equal. cbn [seq map]. f_equal.
  rewrite <- seq_shift, map_map. apply map_ext. intros i. rewrite skipn_add.
  replace (2 + 2 * i)%nat with (2 * S i)%nat by lia. reflexivity.
Qed.

Lemma Ok_inj {E A} (a b : A) : @Ok E A a = Ok b -> a = b.
Proof. congruence. Qed.
Lemma parse_uuid_firstn r : (16 <= length r)%nat ->
  parse_uuid r = (Ok (uuid_of_disk (firstn 16 r)), skipn 16 r).
Proof.
  intros H. rewrite <- (firstn_skipn 16 r) at 1. apply parse_uuid_raw. rewrite firstn_length. lia.
Qed.
Lemma name_field_vals b : length b = 128%nat ->
  name_field b = map (fun i => le_val (firstn 2 (skipn (2 * i) (skipn 56 b)))) (seq 0 36).
Proof.
  intros _. unfold name_field. apply map_ext. intros i. unfold unit_at, num_at, range.
  rewrite number_le_val, skipn_add. do 3 f_equal. lia.
Qed.

Lemma parse_entry_decodes b : length b = 128%nat ->
  exists p, fst (parse_entry b) = Ok p /\ entry_decodes b p /\ wf_part p /\ ~ In 0 (name p).
Proof.
  intros H. destruct (parse_entry_total b H) as (p & E & W & NZ & G & T).
  exists p. split; [exact E|]. split; [|split; assumption].
  assert (V : name p = decode_utf16_lossy (until_zero (name_field b)) /\
    part_guid p = uuid_of_disk (firstn 16 (skipn 16 b)) /\ first_lba p = field 32 8 b /\
    last_lba p = field 40 8 b /\ flags p = field 48 8 b).
  { unfold parse_entry in E. rewrite name_field_vals by exact H. unfold field.
    unfold bind at 1 in E. rewrite parse_uuid_firstn in E by lia.
    unfold bind at 1 in E. rewrite parse_uuid_firstn in E by (rewrite skipn_length; lia).
    unfold bind at 1 in E. rewrite rd_le_firstn in E by (rewrite !skipn_length; lia).
    unfold bind at 1 in E. rewrite rd_le_firstn in E by (rewrite !skipn_length; lia).
    unfold bind at 1 in E. rewrite rd_le_firstn in E by (rewrite !skipn_length; lia).
    unfold bind at 1 in E. rewrite read_units_vals in E by (rewrite !skipn_length; lia).
    unfold ret in E. cbn [fst] in E. apply Ok_inj in E. subst p.
    cbn [name part_guid first_lba last_lba flags]. rewrite !skipn_add.
    repeat split; reflexivity. }
  destruct V as (V1 & V2 & V3 & V4 & V5).
  destruct W as (W1 & W2 & W3 & W4 & W5 & W6).
  constructor.
  - constructor.
    + unfold lenN. rewrite H. reflexivity.
    + rewrite G. symmetry. apply (guid_on_disk_invol (firstn 16 b)).
    + rewrite V2. symmetry. apply (guid_on_disk_invol (firstn 16 (skipn 16 b))).
    + rewrite V3. apply (num_at_field 32 8).
    + rewrite V4. apply (num_at_field 40 8).
    + rewrite V5. apply (num_at_field 48 8).
  - rewrite T. rewrite type_guid_from_uuid. apply canonical_os_from_uuid. exact W1.
  - exists (until_zero (name_field b)). split; [apply before_nul_spec|].
    rewrite V1. eapply decode_utf16_spec. apply Nat.le_refl.
Qed.

Lemma before_nul_fun l s1 : before_nul l s1 -> forall s2, before_nul l s2 -> s1 = s2.
Proof.
  induction 1 as [|r|u r s Hu H IH]; intros s2 H2; inversion H2; subst; try reflexivity; try contradiction.
  f_equal; auto.
Qed.
Lemma table_os_fun u nm nm' o o' :
  In (nm, guid_text u, o) type_table -> In (nm', guid_text u, o') type_table -> o = o'.
Proof.
  assert (A : forall t : list (string * string * os_label), NoDup (map (fun x => snd (fst x)) t) ->
     forall nm nm' g o o', In (nm, g, o) t -> In (nm', g, o') t -> o = o').
  { induction t as [|x r IH]; intros ND n n' g p p' I I'; [destruct I|].
    cbn [map] in ND. inversion ND as [|y l NI ND']; subst.
    destruct I as [->|I], I' as [I'|I'].
    - congruence.
    - exfalso. apply NI. cbn [fst snd]. apply (in_map (fun x => snd (fst x))) in I'. exact I'.
    - subst x. exfalso. apply NI. cbn [fst snd]. apply (in_map (fun x => snd (fst x))) in I. exact I.
    - eapply IH; eauto. }
  apply A.
  assert (B : (fix nd (l : list string) : bool :=
                match l with [] => true | x :: r => negb (existsb (String.eqb x) r) && nd r end)
              (map (fun x => snd (fst x)) type_table) = true) by (vm_compute; reflexivity).
  revert B. generalize (map (fun x => snd (fst x)) type_table). intros l.
  induction l as [|x r IH]; intros B; constructor.
  - apply andb_true_iff in B. destruct B as [B _]. apply negb_true_iff in B. intros I.
    assert (existsb (String.eqb x) r = true); [|congruence].
    apply existsb_exists. exists x. split; [exact I|apply String.eqb_refl].
  - apply IH. apply andb_true_iff in B. apply B.
Qed.
Lemma canonical_os_fun u o o' : canonical_os u o -> canonical_os u o' -> o = o'.
Proof.
  intros [(n & I)|[-> N]] [(n' & I')|[-> N']].
  - eapply table_os_fun; eauto.
  - exfalso. eapply N'; eauto.
  - exfalso. eapply N; eauto.
  - reflexivity.
Qed.
Lemma guid_on_disk_inj u v : guid_on_disk u = guid_on_disk v -> u = v.
Proof. intros H. rewrite <- (guid_on_disk_invol u), H. apply guid_on_disk_invol. Qed.
Lemma entry_decodes_fun b p q : entry_decodes b p -> entry_decodes b q -> p = q.
Proof.
  intros [[L1 T1 G1 F1 A1 X1] O1 (us1 & B1 & U1)] [[L2 T2 G2 F2 A2 X2] O2 (us2 & B2 & U2)].
  destruct p as [[pg po] g1 f1 l1 x1 n1], q as [[qg qo] g2 f2 l2 x2 n2].
  cbn [part_type part_guid first_lba last_lba flags name guid os] in *.
  rewrite T1 in T2. apply guid_on_disk_inj in T2. rewrite G1 in G2. apply guid_on_disk_inj in G2.
  subst qg g2. rewrite <- (before_nul_fun _ _ B1 _ B2) in U2.
  rewrite (utf16_fun _ _ U1 _ U2), (canonical_os_fun _ _ _ O1 O2). congruence.
Qed.

(** Membership in the table read from an array. *)
Lemma table_parts_in n : forall i tbl k q,
  (128 * n <= length tbl)%nat ->
  (In (k, q) (table_parts n i tbl) <->
   exists j, (j < n)%nat /\ k = i + N.of_nat j + 1 /\
     firstn 128 (skipn (128 * j) tbl) <> zeros 128 /\
     fst (parse_entry (firstn 128 (skipn (128 * j) tbl))) = Ok q).
Proof.
  induction n as [|n IH]; intros i tbl k q HL.
  - cbn [table_parts]. split; [intros []|]. intros (j & Hj & _). lia.
  - cbn [table_parts].
    assert (R : In (k, q) (table_parts n (i + 1) (skipn 128 tbl)) <->
      exists j, (1 <= j < S n)%nat /\ k = i + N.of_nat j + 1 /\
        firstn 128 (skipn (128 * j) tbl) <> zeros 128 /\
        fst (parse_entry (firstn 128 (skipn (128 * j) tbl))) = Ok q).
    { rewrite IH by (rewrite skipn_length; lia). split.
      - intros (j & Hj & Hk & A & B). exists (S j). rewrite skipn_add in A, B.
        replace (128 * S j)%nat with (128 + 128 * j)%nat by lia. repeat split; auto; lia.
      - intros (j & Hj & Hk & A & B). destruct j as [|j]; [lia|]. exists j. rewrite skipn_add.
        replace (128 * S j)%nat with (128 + 128 * j)%nat in A, B by lia. repeat split; auto; lia. }
    destruct (bytes_eqb (firstn 128 tbl) (zeros 128)) eqn:Z.
    + rewrite R. apply bytes_eqb_eq in Z. split.
      * intros (j & Hj & X). exists j. split; [lia|exact X].
      * intros (j & Hj & Hk & A & B). destruct j as [|j].
        -- exfalso. apply A. exact Z.
        -- exists (S j). repeat split; auto; lia.
    + apply bytes_eqb_neq in Z.
      destruct (parse_entry_total (firstn 128 tbl)) as (p & E & _).
      { rewrite firstn_length. lia. }
      rewrite E. cbn [In]. rewrite R. split.
      * intros [X|(j & Hj & X)].
        -- injection X as <- <-. exists 0%nat. rewrite Nat.mul_0_r. cbn [skipn].
           repeat split; auto; lia.
        -- exists j. split; [lia|exact X].
      * intros (j & Hj & Hk & A & B). destruct j as [|j].
        -- left. rewrite Nat.mul_0_r in A, B. cbn [skipn] in A, B. rewrite E in B. injection B as <-.
           f_equal. lia.
        -- right. exists (S j). repeat split; auto; lia.
Qed.

Lemma slot_nat k tbl : 1 <= k -> slot k tbl = firstn 128 (skipn (128 * N.to_nat (k - 1)) tbl).
Proof. intros H. unfold slot, range. do 2 f_equal. lia. Qed.
Lemma all_zero_128 b : length b = 128%nat -> (all_zero b <-> b = zeros 128).
Proof. intros H. rewrite all_zero_iff, H. reflexivity. Qed.
(** Partition [p] is read under id [k] exactly if entry [k] is not empty and says so. *)
Lemma table_parts_has np tbl k p : lenN tbl = 128 * np ->
  (has (table_parts (N.to_nat np) 0 tbl) k p <->
   1 <= k <= np /\ ~ all_zero (slot k tbl) /\ entry_decodes (slot k tbl) p).
Proof.
  intros HL. assert (HL' : length tbl = (128 * N.to_nat np)%nat) by (unfold lenN in HL; lia).
  unfold has. rewrite table_parts_in by lia.
  assert (SL : forall j, (j < N.to_nat np)%nat -> length (firstn 128 (skipn (128 * j) tbl)) = 128%nat).
  { intros j Hj. rewrite firstn_length, skipn_length. lia. }
  split.
  - intros (j & Hj & -> & A & B).
    rewrite slot_nat by lia. replace (N.to_nat (0 + N.of_nat j + 1 - 1)) with j by lia.
    rewrite all_zero_128 by auto.
    destruct (parse_entry_decodes _ (SL j Hj)) as (p' & E & D & _). rewrite E in B. apply Ok_inj in B. subst p'.
    split; [lia|]. split; [exact A|exact D].
  - intros (Hk & A & B). exists (N.to_nat (k - 1)).
    rewrite slot_nat in A, B by lia. assert (Hj : (N.to_nat (k - 1) < N.to_nat np)%nat) by lia.
    rewrite all_zero_128 in A by auto.
    destruct (parse_entry_decodes _ (SL _ Hj)) as (p' & E & D & _).
    rewrite (entry_decodes_fun _ _ _ B D). repeat split; auto; lia.
Qed.

(** The entry written decodes to the partition as it comes back. *)
Lemma as_bytes_decodes p : wf_part p -> entry_decodes (as_bytes p 128) (normal p).
Proof.
  intros W. destruct (parse_entry_decodes (as_bytes p 128)) as (q & E & D & _).
  { apply as_bytes_length. }
  rewrite parse_entry_as_bytes in E by exact W. injection E as <-. exact D.
Qed.

(** Padding. *)
Lemma nth_error_zeros n i : (i < n)%nat -> nth_error (zeros n) i = Some x00.
Proof. intros H. unfold zeros. rewrite nth_error_repeat_if. destruct (Nat.ltb_spec i n); [reflexivity|lia]. Qed.
Lemma as_bytes_tail p s i : wf_part p ->
  56 + 2 * N.min 36 (name_units (name p)) <= i < s -> byte_no (as_bytes p s) i = Some x00.
Proof.
  intros W H. rewrite as_bytes_eq. unfold byte_no, resize.
  assert (L : length (entry_head p ++ entry_name p) =
              (56 + 2 * min 36 (length (encode_utf16 (name p))))%nat).
  { rewrite app_length, entry_head_length, entry_name_length by exact W. reflexivity. }
  rewrite name_units_length in H. unfold lenN in H.
  rewrite nth_error_app, firstn_length, L.
  destruct (Nat.ltb_spec (N.to_nat i) (min (N.to_nat s) (56 + 2 * min 36 (length (encode_utf16 (name p)))))); [lia|].
  apply nth_error_zeros. lia.
Qed.
Lemma as_bytes_head p s : wf_part p -> 56 <= s -> range 0 56 (as_bytes p s) = entry_head p.
Proof.
  intros W H. rewrite as_bytes_eq. unfold resize, range. change (N.to_nat 0) with 0%nat. cbn [skipn].
  pose proof (entry_head_length p W) as L.
  apply nth_error_ext. intros i. rewrite nth_error_firstn, nth_error_app, firstn_length, app_length, L.
  rewrite nth_error_firstn, nth_error_app, L.
  destruct (Nat.ltb_spec i (N.to_nat 56)) as [Hi|Hi].
  - destruct (Nat.ltb_spec i (min (N.to_nat s) (56 + length (entry_name p)))); [|lia].
    destruct (Nat.ltb_spec i (N.to_nat s)); [|lia]. destruct (Nat.ltb_spec i 56); [reflexivity|lia].
  - symmetry. apply nth_error_ge. lia.
Qed.
