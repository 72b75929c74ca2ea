(** CrashFacts.v - the contents an interrupted write can leave, stage by stage. *)
From Verif Require Export RetryFacts FaultFacts.
Open Scope list_scope.
Open Scope N_scope.

(** Every byte is that of one of two contents. *)
Definition mix (a b l : list byte) : Prop :=
  lenN l = lenN a /\ forall i, byte_at l i = byte_at a i \/ byte_at l i = byte_at b i.
Lemma mix_refl a b : mix a b a.
Proof. split; auto. Qed.
Lemma mix_store a b l off bs k : lenN b = lenN a -> off + lenN bs <= lenN b -> slice off (lenN bs) b = bs ->
  mix a b l -> mix a b (store off (firstn k bs) l).
Proof.
  intros HL HO HS [H1 H2]. pose proof (lenN_firstn_le k bs).
  split; [rewrite store_lenN_in; lia|]. intros i.
  rewrite byte_at_store_in by lia.
  destruct (N.leb_spec off i), (N.ltb_spec i (off + lenN (firstn k bs))); cbn [andb]; auto.
  right. assert (E : store off (firstn k bs) b = b) by (apply store_prefix_same; auto).
  rewrite <- E, byte_at_store_in by lia.
  destruct (N.leb_spec off i), (N.ltb_spec i (off + lenN (firstn k bs))); cbn [andb]; auto; lia.
Qed.
Lemma mix_slice a b l off n : lenN b = lenN a -> mix a b l -> mix (slice off n a) (slice off n b) (slice off n l).
Proof.
  intros HL [H1 H2]. split; [unfold slice, lenN in *; rewrite !firstn_length, !skipn_length; lia|].
  intros i. rewrite !byte_at_slice. destruct (_ <? _); auto.
Qed.
Lemma mix_same a b l off n : lenN b = lenN a -> slice off n b = slice off n a -> mix a b l -> slice off n l = slice off n a.
Proof.
  intros HL HS HM. apply byte_at_ext. intros i.
  destruct (mix_slice a b l off n HL HM) as [_ H]. destruct (H i) as [->| ->]; auto. rewrite HS. auto.
Qed.

Section Toward.
  Variables (I : list byte -> Prop) (L : list byte).
  Hypothesis HI : forall l off bs k, off + lenN bs <= lenN L -> slice off (lenN bs) L = bs -> I l ->
    I (store off (firstn k bs) l).
  Hypothesis H64 : lenN L < modulus 64.

  Lemma toward_entries oc lb ph bh : forall l idx,
    part_size ph = 128 -> (forall b, bh = Some b -> part_size b = 128) ->
    part_start ph * lb_u64 lb + 128 * (idx + lenN l) <= lenN L ->
    (forall b, bh = Some b -> part_start b * lb_u64 lb + 128 * (idx + lenN l) <= lenN L) ->
    slice (part_start ph * lb_u64 lb + 128 * idx) (128 * lenN l) L = entries (map snd l) ->
    (forall b, bh = Some b ->
       slice (part_start b * lb_u64 lb + 128 * idx) (128 * lenN l) L = entries (map snd l)) ->
    keeps I (write_entries oc lb ph bh l idx).
  Proof.
    induction l as [|[k p] l IH]; intros idx SP SB LP LB EP EB; [apply keeps_ret|].
    cbn [write_entries map snd] in *.
    assert (LL : lenN ((k, p) :: l) = lenN (p :: map snd l)).
    { rewrite !lenN_cons. unfold lenN. rewrite map_length. auto. }
    assert (LM : lenN (map snd l) = lenN l) by (unfold lenN; rewrite map_length; auto).
    rewrite LL in *.
    assert (W : forall x, part_size x = 128 -> part_start x * lb_u64 lb + 128 * (idx + lenN (p :: map snd l)) <= lenN L ->
      slice (part_start x * lb_u64 lb + 128 * idx) (128 * lenN (p :: map snd l)) L = entries (p :: map snd l) ->
      keeps I (write_to_device oc p idx (part_start x) lb (part_size x))).
    { intros x SX LX EX d Hd. rewrite SX. rewrite lenN_cons in LX.
      destruct (write_to_device_prefix oc p idx (part_start x) lb 128 d) as (j & ->); [lia|].
      apply HI; auto; rewrite as_bytes_lenN; [lia|].
      apply slice_cons_entries in EX as [EX _]; [|rewrite lenN_cons; lia].
      rewrite <- EX. f_equal. lia. }
    destruct (_ <=? _); [apply untouched_keeps, untouched_throw|].
    apply keeps_bind; [apply keeps_map_err, W; auto|intros _].
    apply keeps_bind.
    - destruct bh as [b|]; [|apply keeps_ret].
      destruct (_ <=? _); [apply untouched_keeps, untouched_throw|].
      destruct (_ =? _); [apply keeps_ret|]. apply keeps_map_err, W; auto.
    - intros _. apply slice_cons_entries in EP as [_ EP]; [|lia]. rewrite lenN_cons in *. rewrite LM in *.
      apply IH; auto; try lia.
      + intros b Hb. specialize (LB b Hb). lia.
      + rewrite <- EP. f_equal. lia.
      + intros b Hb. specialize (EB b Hb). specialize (LB b Hb).
        replace (1 + lenN l) with (lenN (p :: map snd l)) in EB by (rewrite lenN_cons, LM; auto).
        apply slice_cons_entries in EB as [_ EB]; [|rewrite lenN_cons, LM; lia].
        rewrite LM in EB. rewrite <- EB. f_equal. lia.
  Qed.

  (** Everything the tables are made of is already in [L]. *)
  Lemma toward_tables oc lb ph bh m np :
    part_size ph = 128 -> (forall b, bh = Some b -> part_size b = 128) ->
    num_parts ph = np -> (forall b, bh = Some b -> num_parts b = np) ->
    lenN (used_list m) <= np ->
    part_start ph * lb_u64 lb + 128 * np <= lenN L ->
    (forall b, bh = Some b -> part_start b * lb_u64 lb + 128 * np <= lenN L) ->
    slice (part_start ph * lb_u64 lb) (128 * np) L = table_bytes (used_list m) np ->
    (forall b, bh = Some b ->
       slice (part_start b * lb_u64 lb) (128 * np) L = table_bytes (used_list m) np) ->
    keeps I (write_tables oc lb ph bh m).
  Proof.
    intros SP SB NP NB HU LP LB EP EB. rewrite used_list_lenN in HU.
    set (u := lenN (used_parts m)) in *.
    assert (SL : forall off, off + 128 * np <= lenN L -> slice off (128 * np) L = table_bytes (used_list m) np ->
      slice off (128 * u) L = entries (used_list m) /\
      slice (off + 128 * u) (128 * (np - u)) L = zeros (N.to_nat (128 * (np - u)))).
    { intros off Ho E. unfold table_bytes in E. rewrite used_list_lenN in E. fold u in E.
      replace (128 * np) with (128 * u + 128 * (np - u)) in E by lia.
      apply slice_split_eq in E; auto; [lia|]. rewrite entries_lenN, used_list_lenN. auto. }
    unfold write_tables.
    assert (KE : keeps I (write_entries oc lb ph bh (used_parts m) 0)).
    { apply toward_entries; auto; fold u; rewrite ?N.mul_0_r, ?N.add_0_r, ?N.add_0_l; auto; try lia.
      - intros b Hb. specialize (LB b Hb). lia.
      - apply SL; auto.
      - intros b Hb. rewrite N.add_0_r. apply SL; auto. }
    intros d Hd. unfold bind at 1.
    specialize (KE d Hd).
    destruct (write_entries oc lb ph bh (used_parts m) 0 d) as [[next|e|] d1] eqn:EW; cbn [snd] in *; auto.
    apply write_entries_count in EW. fold u in EW. rewrite N.add_0_l in EW. subst next.
    revert d1 KE.
    assert (ZZ : forall x, part_size x = 128 -> part_start x * lb_u64 lb + 128 * np <= lenN L ->
      slice (part_start x * lb_u64 lb) (128 * np) L = table_bytes (used_list m) np ->
      keeps I (write_zero_entries oc u (np - u) (part_start x) lb (part_size x))).
    { intros x SX LX EX d1 Hd1. rewrite SX.
      destruct (write_zero_entries_prefix oc u (np - u) (part_start x) lb 128 d1) as (j & ->); [lia|].
      apply HI; auto; rewrite lenN_zeros, ?N2Nat.id; [lia|].
      destruct (SL _ LX EX) as [_ <-]. f_equal. lia. }
    match goal with |- forall d1, I (data d1) -> I (data (snd (?m d1))) => change (keeps I m) end.
    assert (SU : forall x (k : N -> M dev gpt_err unit), num_parts x = np ->
      keeps I (k (np - u)) -> keeps I (let* n := lift (sub_unwrap (num_parts x) u) in k n)).
    { intros x k Hx Hk d1 Hd1. unfold bind, lift, sub_unwrap. rewrite Hx, checked_sub64_ok by auto. apply Hk; auto. }
    apply SU; auto. apply keeps_bind; [apply keeps_map_err, ZZ; auto|intros _].
    destruct bh as [b|]; [|apply keeps_ret].
    apply SU; auto. apply keeps_map_err, ZZ; auto.
  Qed.
End Toward.

(** The array of one copy while it is written: the new array up to some byte, the old one from there on. *)
Definition cut_at (off n : N) (T0 T : list byte) (k : nat) (l : list byte) : Prop :=
  off + n <= lenN l /\ slice off n l = firstn k T ++ skipn k T0.
Section Cuts.
  Variables (off n : N) (T0 T : list byte).
  Hypothesis LT0 : lenN T0 = n.
  Hypothesis LT : lenN T = n.
  Lemma cut_zero l : off + n <= lenN l -> slice off n l = T0 -> cut_at off n T0 T 0 l.
  Proof. intros H E. split; auto. Qed.
  (** Storing a prefix of what comes next. *)
  Lemma cut_store k bs j l : cut_at off n T0 T k l -> N.of_nat k + lenN bs <= n ->
    slice (N.of_nat k) (lenN bs) T = bs ->
    cut_at off n T0 T (k + Nat.min j (length bs)) (store (off + N.of_nat k) (firstn j bs) l).
  Proof.
    intros [HL E] HK HS. pose proof (lenN_firstn_le j bs) as LF.
    split; [rewrite store_lenN_in; lia|].
    apply byte_at_ext. intros i. rewrite byte_at_slice.
    assert (F : lenN (firstn j bs) = N.of_nat (Nat.min j (length bs))).
    { unfold lenN. rewrite firstn_length. auto. }
    set (m := Nat.min j (length bs)) in *.
    assert (LA : length (firstn (k + m) T) = (k + m)%nat) by (rewrite firstn_length; unfold lenN in *; lia).
    assert (LB : length (firstn k T) = k) by (rewrite firstn_length; unfold lenN in *; lia).
    destruct (N.ltb_spec i n) as [Hi|Hi].
    2: { unfold byte_at. symmetry. apply nth_error_None. rewrite app_length, LA, skipn_length.
         unfold lenN in *. lia. }
    assert (Z : byte_at l (off + i) = byte_at (firstn k T ++ skipn k T0) i).
    { rewrite <- E, byte_at_slice. destruct (N.ltb_spec i n); [auto|lia]. }
    assert (OLD : (k <= N.to_nat i)%nat -> byte_at (firstn k T ++ skipn k T0) i = byte_at T0 i).
    { intros Q. unfold byte_at. rewrite nth_error_app2 by lia. rewrite LB, nth_error_skipn. f_equal. lia. }
    assert (NEW : forall q, (N.to_nat i < q)%nat -> (q <= length T)%nat ->
      byte_at (firstn q T ++ skipn q T0) i = byte_at T i).
    { intros q Q1 Q2. unfold byte_at. rewrite nth_error_app1 by (rewrite firstn_length; lia).
      rewrite <- (firstn_skipn q T) at 2. rewrite nth_error_app1; auto. rewrite firstn_length; lia. }
    assert (LTn : length T = N.to_nat n) by (unfold lenN in LT; lia).
    rewrite byte_at_store_in by lia.
    destruct (N.leb_spec (off + N.of_nat k) (off + i)) as [Y|Y]; cbn [andb].
    - destruct (N.ltb_spec (off + i) (off + N.of_nat k + lenN (firstn j bs))) as [W|W].
      + rewrite NEW by lia.
        replace (off + i - (off + N.of_nat k)) with (i - N.of_nat k) by lia.
        rewrite <- HS. 
        assert (X : firstn j (slice (N.of_nat k) (lenN bs) T) = slice (N.of_nat k) (N.of_nat m) T).
        { unfold slice. rewrite firstn_firstn. f_equal. unfold lenN, m in *. lia. }
        rewrite X, byte_at_slice. destruct (N.ltb_spec (i - N.of_nat k) (N.of_nat m)); [|lia].
        f_equal. lia.
      + rewrite Z, OLD by lia. unfold byte_at. rewrite nth_error_app2 by lia. rewrite LA, nth_error_skipn. f_equal. lia.
    - rewrite Z. rewrite !NEW by lia. auto.
  Qed.
  Lemma cut_store_other k o bs l : cut_at off n T0 T k l -> o + lenN bs <= lenN l ->
    o + lenN bs <= off \/ off + n <= o -> cut_at off n T0 T k (store o bs l).
  Proof.
    intros [HL E] HO HD. split; [rewrite store_lenN_in; lia|]. rewrite slice_store_other by lia. auto.
  Qed.
End Cuts.

Lemma write_to_device_full oc p idx sl lb d d' :
  sl * lb_u64 lb + idx * 128 + 128 <= dev_len d -> dev_len d < modulus 64 ->
  write_to_device oc p idx sl lb 128 d = (Ok tt, d') ->
  data d' = store (sl * lb_u64 lb + idx * 128) (as_bytes p 128) (data d).
Proof.
  intros HL H64 E. apply rf_write_to in E as (_ & R).
  destruct (write_to_device_ok oc p idx sl lb 128 (repaired d)) as (q & X); auto; [reflexivity|].
  rewrite X in R. apply (f_equal (fun x => data (snd x))) in R. symmetry. exact R.
Qed.
Lemma write_zero_full oc idx n sl lb d d' :
  sl * lb_u64 lb + idx * 128 + 128 * n <= dev_len d -> dev_len d < modulus 64 ->
  write_zero_entries oc idx n sl lb 128 d = (Ok tt, d') ->
  data d' = store (sl * lb_u64 lb + idx * 128) (zeros (N.to_nat (128 * n))) (data d).
Proof.
  intros HL H64 E. apply rf_write_zero in E as (_ & R).
  destruct (write_zero_entries_ok oc idx n sl lb 128 (repaired d)) as (q & X); auto; [reflexivity|].
  rewrite X in R. apply (f_equal (fun x => data (snd x))) in R. symmetry. exact R.
Qed.

Section CutTables.
  Variables (lb : lbsize) (ph : header) (bh : option header) (np len : N) (T0 : list byte) (ps : list partition).
  Let off := part_start ph * lb_u64 lb.
  Let T := table_bytes ps np.
  Hypothesis LT0 : lenN T0 = 128 * np.
  Hypothesis HU : lenN ps <= np.
  Hypothesis H64 : len < modulus 64.
  Hypothesis SP : part_size ph = 128.
  Hypothesis SB : forall b, bh = Some b -> part_size b = 128.
  Hypothesis NP : num_parts ph = np.
  Hypothesis NB : forall b, bh = Some b -> num_parts b = np.
  Hypothesis LP : off + 128 * np <= len.
  Hypothesis LB : forall b, bh = Some b -> off + 128 * np <= part_start b * lb_u64 lb /\
    part_start b * lb_u64 lb + 128 * np <= len.
  Let C (k : nat) (l : list byte) : Prop := lenN l = len /\ cut_at off (128 * np) T0 T k l.

  Lemma LT : lenN T = 128 * np.
  Proof. apply table_bytes_lenN. auto. Qed.
  Lemma C_own k bs j l : C k l -> N.of_nat k + lenN bs <= 128 * np -> slice (N.of_nat k) (lenN bs) T = bs ->
    C (k + Nat.min j (length bs)) (store (off + N.of_nat k) (firstn j bs) l).
  Proof.
    intros [HL HC] HK HS. split.
    - pose proof (lenN_firstn_le j bs). rewrite store_lenN_in; lia.
    - apply cut_store; auto. apply LT.
  Qed.
  Lemma C_other k o bs l : C k l -> o + lenN bs <= len -> off + 128 * np <= o -> C k (store o bs l).
  Proof.
    intros [HL HC] HO HD. split; [rewrite store_lenN_in; lia|]. apply cut_store_other; auto; [apply LT|lia].
  Qed.
  Definition cuts {E A} (k' : A -> nat) (x : outcome E A * dev) : Prop :=
    match x with (Ok a, d) => C (k' a) (data d) | (_, d) => exists k, C k (data d) end.

  Lemma C_dev k d : C k (data d) -> dev_len d = len.
  Proof. intros [H _]. exact H. Qed.

  Lemma cut_own_entry oc p idx d : C (N.to_nat (128 * idx)) (data d) -> idx < np ->
    slice (128 * idx) 128 T = as_bytes p 128 ->
    cuts (fun _ => N.to_nat (128 * (idx + 1))) (write_to_device oc p idx (part_start ph) lb (part_size ph) d).
  Proof.
    intros HC HI HS. rewrite SP. pose proof (C_dev _ _ HC) as HD.
    assert (E0 : part_start ph * lb_u64 lb + idx * 128 = off + N.of_nat (N.to_nat (128 * idx))) by (unfold off; lia).
    assert (O : forall j, C (N.to_nat (128 * idx) + Nat.min j 128)
        (store (part_start ph * lb_u64 lb + idx * 128) (firstn j (as_bytes p 128)) (data d))).
    { intros j. rewrite E0. pose proof (as_bytes_lenN p 128) as LA.
      assert (LA' : length (as_bytes p 128) = 128%nat) by (unfold lenN in LA; lia).
      rewrite <- LA'. apply C_own; auto; rewrite LA; rewrite N2Nat.id; [lia|auto]. }
    destruct (write_to_device oc p idx (part_start ph) lb 128 d) as [r d'] eqn:E.
    destruct (write_to_device_prefix oc p idx (part_start ph) lb 128 d) as (j & X).
    { fold off. lia. }
    rewrite E in X. cbn [snd] in X.
    destruct r as [[]|e|]; cbn [cuts]; try (eexists; rewrite X; apply O).
    assert (B1 : part_start ph * lb_u64 lb + idx * 128 + 128 <= dev_len d) by (fold off; lia).
    assert (B2 : dev_len d < modulus 64) by lia.
    rewrite (write_to_device_full oc p idx (part_start ph) lb d d' B1 B2 E).
    specialize (O 128%nat). rewrite firstn_all2 in O.
    - replace (N.to_nat (128 * (idx + 1))) with (N.to_nat (128 * idx) + Nat.min 128 128)%nat by lia. exact O.
    - pose proof (as_bytes_lenN p 128). unfold lenN in *. lia.
  Qed.
  Lemma cut_other_entry oc b p idx k d : bh = Some b -> C k (data d) -> idx < np ->
    cuts (fun _ => k) (write_to_device oc p idx (part_start b) lb (part_size b) d).
  Proof.
    intros Hb HC HI. rewrite (SB b Hb). pose proof (C_dev _ _ HC) as HD. destruct (LB b Hb) as [B1 B2].
    destruct (write_to_device_prefix oc p idx (part_start b) lb 128 d) as (j & X); [lia|].
    destruct (write_to_device oc p idx (part_start b) lb 128 d) as [r d']. cbn [snd] in X.
    assert (O : C k (data d')).
    { rewrite X. pose proof (lenN_firstn_le j (as_bytes p 128)) as Q. rewrite as_bytes_lenN in Q.
      apply C_other; auto; lia. }
    destruct r as [[]|e|]; cbn [cuts]; eauto.
  Qed.

  Lemma cuts_bind {E A B} (m : M dev E A) (f : A -> M dev E B) k1 k2 d :
    cuts k1 (m d) -> (forall a d1, C (k1 a) (data d1) -> cuts k2 (f a d1)) -> cuts k2 (bind m f d).
  Proof.
    intros H1 H2. unfold bind. destruct (m d) as [[a|e|] d1]; cbn [cuts] in *; auto.
  Qed.
  Lemma cuts_map_err {E F A} (f : E -> F) (m : M dev E A) k d : cuts k (m d) -> cuts k (map_err f m d).
  Proof. unfold map_err. destruct (m d) as [[a|e|] d1]; auto. Qed.

  Lemma cut_entries oc : forall l idx d,
    idx + lenN l <= np ->
    slice (128 * idx) (128 * lenN l) T = entries (map snd l) ->
    C (N.to_nat (128 * idx)) (data d) ->
    cuts (fun n => N.to_nat (128 * n)) (write_entries oc lb ph bh l idx d).
  Proof.
    induction l as [|[k p] l IH]; intros idx d HN HS HC; [exact HC|].
    cbn [write_entries map snd] in *. rewrite lenN_cons in *.
    assert (LM : lenN (map snd l) = lenN l) by (unfold lenN; rewrite map_length; auto).
    assert (ES : slice (128 * idx) 128 T = as_bytes p 128 /\ slice (128 * idx + 128) (128 * lenN (map snd l)) T = entries (map snd l)).
    { apply slice_cons_entries; rewrite lenN_cons, LM; [rewrite LT; lia|exact HS]. }
    destruct ES as [ES1 ES2]. rewrite LM in ES2.
    destruct (N.leb_spec (num_parts ph) idx) as [Q|Q]; [lia|].
    apply cuts_bind with (k1 := fun _ => N.to_nat (128 * (idx + 1)));
      [apply cuts_map_err, cut_own_entry; [exact HC|lia|exact ES1]|]. intros [] d1 H1.
    apply cuts_bind with (k1 := fun _ => N.to_nat (128 * (idx + 1))).
    - destruct bh as [b|] eqn:Hb; [|exact H1].
      destruct (N.leb_spec (num_parts b) idx) as [Q'|Q']; [rewrite (NB b eq_refl) in Q'; lia|].
      destruct (_ =? _); [exact H1|]. apply cuts_map_err.
      rewrite <- Hb in *. apply cut_other_entry; auto; lia.
    - intros [] d2 H2. apply IH; auto; [lia|]. rewrite <- ES2. f_equal. lia.
  Qed.

  Lemma cut_tables oc m d : used_list m = ps -> C 0 (data d) ->
    exists k, C k (data (snd (write_tables oc lb ph bh m d))).
  Proof.
    intros HM HC.
    assert (G : forall x : outcome gpt_err unit * dev, cuts (fun _ => N.to_nat (128 * np)) x -> exists k, C k (data (snd x))).
    { intros [[a|e|] d1]; cbn [cuts snd]; eauto. }
    apply G. clear G. unfold write_tables.
    assert (LU : lenN (used_parts m) = lenN ps) by (rewrite <- HM, used_list_lenN; auto).
    assert (ST : slice 0 (128 * lenN ps) T = entries ps /\
                 slice (128 * lenN ps) (128 * (np - lenN ps)) T = zeros (N.to_nat (128 * (np - lenN ps)))).
    { pose proof (slice_split_eq 0 (128 * lenN ps) (128 * (np - lenN ps)) T (entries ps)
        (zeros (N.to_nat (128 * (np - lenN ps))))) as X. rewrite N.add_0_l in X. apply X.
      - rewrite LT. lia.
      - apply entries_lenN.
      - replace (128 * lenN ps + 128 * (np - lenN ps)) with (lenN T) by (rewrite LT; lia).
        unfold slice. cbn [N.to_nat skipn]. rewrite skipn_O, firstn_all2 by (unfold lenN; lia). reflexivity. }
    destruct ST as [ST1 ST2].
    assert (KE : cuts (fun n => N.to_nat (128 * n)) (write_entries oc lb ph bh (used_parts m) 0 d)).
    { apply cut_entries.
      - rewrite LU. lia.
      - rewrite LU. cbn [N.mul]. rewrite N.mul_0_r. fold (used_list m). rewrite HM. exact ST1.
      - exact HC. }
    unfold bind at 1. destruct (write_entries oc lb ph bh (used_parts m) 0 d) as [[next|e|] d1] eqn:EW; cbn [cuts] in *; auto.
    apply write_entries_count in EW. rewrite N.add_0_l, LU in EW. subst next.
    unfold bind at 1, lift at 1, sub_unwrap. rewrite NP, checked_sub64_ok by auto.
    apply cuts_bind with (k1 := fun _ => N.to_nat (128 * np)).
    - apply cuts_map_err. rewrite SP. pose proof (C_dev _ _ KE) as HD.
      set (Z := zeros (N.to_nat (128 * (np - lenN ps)))).
      assert (LZ : lenN Z = 128 * (np - lenN ps)) by (unfold Z; rewrite lenN_zeros; lia).
      assert (LZ' : length Z = N.to_nat (128 * (np - lenN ps))) by (unfold Z; apply zeros_length).
      assert (E0 : part_start ph * lb_u64 lb + lenN ps * 128 = off + N.of_nat (N.to_nat (128 * lenN ps))) by (unfold off; lia).
      assert (O : forall j, C (N.to_nat (128 * lenN ps) + Nat.min j (length Z))
          (store (part_start ph * lb_u64 lb + lenN ps * 128) (firstn j Z) (data d1))).
      { intros j. rewrite E0. apply C_own; auto; rewrite LZ, N2Nat.id; [lia|exact ST2]. }
      destruct (write_zero_entries oc (lenN ps) (np - lenN ps) (part_start ph) lb 128 d1) as [r d2] eqn:E.
      destruct (write_zero_entries_prefix oc (lenN ps) (np - lenN ps) (part_start ph) lb 128 d1) as (j & X).
      { fold off. lia. }
      rewrite E in X. cbn [snd] in X. fold Z in X.
      destruct r as [[]|e|]; cbn [cuts]; try (eexists; rewrite X; apply O).
      assert (B1 : part_start ph * lb_u64 lb + lenN ps * 128 + 128 * (np - lenN ps) <= dev_len d1) by (fold off; lia).
      assert (B2 : dev_len d1 < modulus 64) by lia.
      rewrite (write_zero_full oc (lenN ps) (np - lenN ps) (part_start ph) lb d1 d2 B1 B2 E).
      fold Z. specialize (O (length Z)). rewrite firstn_all in O. rewrite Nat.min_id, LZ' in O.
      replace (N.to_nat (128 * np)) with (N.to_nat (128 * lenN ps) + N.to_nat (128 * (np - lenN ps)))%nat by lia. exact O.
    - intros _ d2 H2.
      assert (KO : forall b, bh = Some b -> cuts (fun _ => N.to_nat (128 * np))
        (write_zero_entries oc (lenN ps) (np - lenN ps) (part_start b) lb 128 d2)).
      { intros b Hb. pose proof (C_dev _ _ H2) as HD. destruct (LB b Hb) as [B1 B2].
        destruct (write_zero_entries_prefix oc (lenN ps) (np - lenN ps) (part_start b) lb 128 d2) as (j & X); [lia|].
        destruct (write_zero_entries oc (lenN ps) (np - lenN ps) (part_start b) lb 128 d2) as [r d3]. cbn [snd] in X.
        assert (O : C (N.to_nat (128 * np)) (data d3)).
        { rewrite X. pose proof (lenN_firstn_le j (zeros (N.to_nat (128 * (np - lenN ps))))) as Q. rewrite lenN_zeros in Q.
          apply C_other; auto; lia. }
        destruct r as [[]|e|]; cbn [cuts]; eauto. }
      clear KE. destruct bh as [b|]; [|exact H2].
      unfold bind at 1, lift at 1, sub_unwrap. rewrite (NB b eq_refl), checked_sub64_ok by auto.
      apply cuts_map_err. rewrite (SB b eq_refl). apply KO. auto.
  Qed.
End CutTables.

(** A header write stores a prefix of the block that belongs to the array on the device. *)
Lemma file_write_header_cut h lba lb d :
  length (signature h) = 8%nat -> wf_uuid (disk_guid h) -> lba * lb_u64 lb < modulus 64 ->
  part_start h * lb_u64 lb < modulus 64 ->
  exists k, data (snd (snd (file_write_header h lba lb d))) =
    store (lba * lb_u64 lb) (firstn k (hdr_block h (table_crc h lb (data d)) lb)) (data d).
Proof.
  intros Hs Hg HL HP. unfold file_write_header.
  pose proof (untouched_partentry_checksum h lb d) as (U & _).
  destruct (partentry_checksum h lb d) as [[pc|e|] d1] eqn:EC; cbn [snd] in U |- *;
    try (exists 0%nat; rewrite U; reflexivity).
  apply partentry_checksum_inv in EC; auto. subst pc. set (pc := table_crc h lb (data d)) in *.
  rewrite hdr_to_bytes_eq by auto.
  set (h1 := set_crc32_parts h pc).
  assert (EI : forall c, hdr_image h1 pc c = hdr_image h pc c) by reflexivity.
  rewrite EI. cbn [arr]. change (crc32 (hdr_image h pc 0)) with (hdr_crc h pc).
  rewrite seek_patch by auto.
  assert (EB : firstn (N.to_nat (lb_u64 lb))
            (hdr_image h pc (hdr_crc h pc) ++ zeros (N.to_nat (lb_u64 lb) - 92)) = hdr_block h pc lb).
  { apply firstn_all2. pose proof (hdr_block_lenN h pc lb Hs Hg). unfold lenN, hdr_block in *. lia. }
  cbn [arr]. rewrite EB. pose proof (lb_pos lb).
  unfold bind at 1. rewrite checked_mul64_ok by lia. cbn [lift ok_or].
  destruct (seek_write_prefix (lba * lb_u64 lb) (hdr_block h pc lb) d1) as (k & E & _).
  exists k.
  transitivity (data (snd ((seek_start (lba * lb_u64 lb);; write_all (hdr_block h pc lb)) d1))).
  { unfold bind, map_err.
    destruct (seek_start (lba * lb_u64 lb) d1) as [[a|e|] d2]; auto.
    destruct (write_all (hdr_block h pc lb) d2) as [[a'|e|] d3]; auto. }
  rewrite E, U. auto.
Qed.

(** The contents once the arrays are written, and once the backup header is written too. *)
Definition tables_image (cfg : config) (h : header) (ps : list partition) (l : list byte) : list byte :=
  let lb := c_lb cfg in
  let T := table_image h ps in
  store (2 * lb_u64 lb) T
    (if c_readonly_backup cfg then l
     else store ((blba h - ablocks (num_parts h) 128 lb) * lb_u64 lb) T l).
Definition backup_block (cfg : config) (h : header) (ps : list partition) : list byte :=
  hdr_block (new_backup (c_lb cfg) h) (crc32 (table_image h ps)) (c_lb cfg).
Definition primary_block (cfg : config) (h : header) (ps : list partition) : list byte :=
  hdr_block (new_primary (c_lb cfg) h) (crc32 (table_image h ps)) (c_lb cfg).
Definition mid_image (cfg : config) (h : header) (ps : list partition) (l : list byte) : list byte :=
  if c_readonly_backup cfg then tables_image cfg h ps l
  else store (blba h * lb_u64 (c_lb cfg)) (backup_block cfg h ps) (tables_image cfg h ps l).

Lemma image_mid cfg h ps l :
  image_for cfg h ps l = store (lb_u64 (c_lb cfg)) (primary_block cfg h ps) (mid_image cfg h ps l).
Proof.
  unfold image_for, mid_image, tables_image, final_image, final_image_ro, backup_block, primary_block.
  destruct (c_readonly_backup cfg); auto.
Qed.

Section Stages.
  Variables (cfg : config) (h : header) (ps : list partition) (l0 : list byte).
  Let lb := c_lb cfg.
  Hypothesis S : sane lb (lenN l0) h.
  Hypothesis HU : lenN ps <= num_parts h.
  Let L1 := tables_image cfg h ps l0.
  Let T := table_image h ps.
  Let t := ablocks (num_parts h) 128 lb.

  Lemma tables_facts :
    lenN L1 = lenN l0 /\
    slice (2 * lb_u64 lb) (128 * num_parts h) L1 = T /\
    (c_readonly_backup cfg = false -> slice ((blba h - t) * lb_u64 lb) (128 * num_parts h) L1 = T) /\
    slice (lb_u64 lb) (lb_u64 lb) L1 = slice (lb_u64 lb) (lb_u64 lb) l0 /\
    slice (blba h * lb_u64 lb) (lb_u64 lb) L1 = slice (blba h * lb_u64 lb) (lb_u64 lb) l0.
  Proof.
    assert (LT : lenN T = 128 * num_parts h) by (apply table_bytes_lenN; auto).
    pose proof (sane_areas _ _ _ S) as (A1 & A2 & A3 & A4 & A5 & A6). fold t in A2, A3, A6.
    unfold L1, tables_image. fold T lb t.
    assert (LB : lenN (store ((blba h - t) * lb_u64 lb) T l0) = lenN l0) by (apply store_lenN_in; lia).
    destruct (c_readonly_backup cfg).
    - split; [rewrite store_lenN_in; lia|].
      split; [apply slice_store_same; auto|].
      split; [discriminate|].
      split; rewrite slice_store_other by lia; auto.
    - split; [rewrite store_lenN_in; lia|].
      split; [apply slice_store_same; auto|].
      split; [intros _; rewrite slice_store_other by lia; apply slice_store_same; auto|].
      split; rewrite !slice_store_other by lia; auto.
  Qed.
  Lemma mid_facts : lenN (mid_image cfg h ps l0) = lenN l0 /\
    slice (2 * lb_u64 lb) (128 * num_parts h) (mid_image cfg h ps l0) = T /\
    slice (lb_u64 lb) (lb_u64 lb) (mid_image cfg h ps l0) = slice (lb_u64 lb) (lb_u64 lb) l0 /\
    (c_readonly_backup cfg = false ->
      slice ((blba h - t) * lb_u64 lb) (128 * num_parts h) (mid_image cfg h ps l0) = T /\
      slice (blba h * lb_u64 lb) (lb_u64 lb) (mid_image cfg h ps l0) = backup_block cfg h ps).
  Proof.
    destruct tables_facts as (F1 & F2 & F3 & F4 & F5). unfold mid_image. fold L1 lb.
    assert (wf_uuid (disk_guid h)) by apply S.
    assert (LB : lenN (backup_block cfg h ps) = lb_u64 lb) by (apply hdr_block_lenN; auto).
    pose proof (sane_areas _ _ _ S) as (A1 & A2 & A3 & A4 & A5 & A6). fold t in A2, A3, A6.
    destruct (c_readonly_backup cfg).
    - split; [auto|]. split; [auto|]. split; [auto|]. discriminate.
    - split; [rewrite store_lenN_in; lia|].
      split; [rewrite slice_store_other by lia; auto|].
      split; [rewrite slice_store_other by lia; auto|]. intros _.
      split; [rewrite slice_store_other by lia; auto|].
      apply slice_store_same; auto.
  Qed.
End Stages.

(** An interrupted write: in the arrays, in the backup header, or in the primary header (and then the
    write may also be complete). *)
Inductive stage (cfg : config) (h : header) (ps : list partition) (l0 l : list byte) : Prop :=
| InArrays k : mix l0 (tables_image cfg h ps l0) l ->
    cut_at (2 * lb_u64 (c_lb cfg)) (128 * num_parts h)
      (slice (2 * lb_u64 (c_lb cfg)) (128 * num_parts h) l0) (table_image h ps) k l -> stage cfg h ps l0 l
| InBackup k : c_readonly_backup cfg = false ->
    l = store (blba h * lb_u64 (c_lb cfg)) (firstn k (backup_block cfg h ps)) (tables_image cfg h ps l0) ->
    stage cfg h ps l0 l
| InPrimary k :
    l = store (lb_u64 (c_lb cfg)) (firstn k (primary_block cfg h ps)) (mid_image cfg h ps l0) ->
    stage cfg h ps l0 l.
Theorem write_stages oc g h : c_writable (g_config g) = true ->
  try_header g = Ok h -> dev_len (g_device g) < modulus 64 ->
  sane (c_lb (g_config g)) (dev_len (g_device g)) h ->
  lenN (used_list (g_partitions g)) <= num_parts h ->
  stage (g_config g) h (used_list (g_partitions g)) (data (g_device g))
    (data (g_device (snd (write_inplace oc g)))).
Proof.
  intros HW HT H64 S HU. set (cfg := g_config g) in *. set (lb := c_lb cfg) in *.
  set (ps := used_list (g_partitions g)) in *. set (L0 := data (g_device g)) in *.
  pose proof (tables_facts cfg h ps L0 S HU) as (F1 & F2 & F3 & F4 & F5).
  pose proof (mid_facts cfg h ps L0 S HU) as (M1 & M2 & M3 & M4).
  fold lb in F2, F3, F4, F5, M2, M3, M4.
  pose proof (sane_areas _ _ _ S) as (A1 & A2 & A3 & A4 & A5 & A6).
  assert (Gw : wf_uuid (disk_guid h)) by apply S.
  set (t := ablocks (num_parts h) 128 lb) in *. set (T := table_image h ps) in *.
  set (L1 := tables_image cfg h ps L0) in *.
  set (bh := if c_readonly_backup cfg then None else Some (new_backup lb h)).
  rewrite (write_inplace_eq oc g h (new_primary lb h) bh); auto.
  2: { exact (build_primary_sane oc lb _ h S H64). }
  2: { unfold bh. fold cfg. destruct (c_readonly_backup cfg); auto.
       eexists. split; [exact (build_backup_sane oc lb _ h S H64)|auto]. }
  fold cfg. fold lb. unfold dev_len in *. fold L0 in A4, H64.
  assert (HBH : forall b, bh = Some b -> b = new_backup lb h /\ c_readonly_backup cfg = false).
  { unfold bh. destruct (c_readonly_backup cfg); [discriminate|]. intros b [= <-]. auto. }
  unfold bind at 1, on_device at 1, map_err at 1.
  pose proof (untouched_find_backup_lba lb (g_device g)) as (U1 & _).
  destruct (find_backup_lba lb (g_device g)) as [[n|e|] d1] eqn:E1; cbn [snd omap_err set_device g_device] in *;
    try (apply (InArrays _ _ _ _ _ 0%nat); rewrite U1; [apply mix_refl|split; [fold lb L0; lia|reflexivity]]).
  unfold bind at 1, put_primary. unfold bind at 1, put_backup.
  cbv beta iota.
  match goal with |- context[write_rest oc lb (new_primary lb h) bh (g_partitions g) (g_sync g) ?x] => set (g1 := x) end.
  assert (G1 : g_device g1 = d1 /\ g_config g1 = cfg) by (unfold g1; destruct bh; auto).
  destruct G1 as [G1 C1]. fold L0 in U1. clearbody g1. unfold write_rest.
  unfold bind at 1, on_device at 1. rewrite G1.
  assert (KT : keeps (mix L0 L1) (write_tables oc lb (new_primary lb h) bh (g_partitions g))).
  { apply (toward_tables (mix L0 L1) L1) with (num_parts h); auto.
    - intros l off bs k Ho Hs Hm. apply mix_store; auto.
    - rewrite F1. auto.
    - intros b Hb. destruct (HBH b Hb) as [-> _]. auto.
    - intros b Hb. destruct (HBH b Hb) as [-> _]. auto.
    - rewrite F1. cbn. lia.
    - intros b Hb. destruct (HBH b Hb) as [-> _]. rewrite F1. cbn. fold t. lia.
    - intros b Hb. destruct (HBH b Hb) as [-> HR]. cbn. fold t. apply F3; auto. }
  assert (M : mix L0 L1 (data d1)) by (rewrite U1; apply mix_refl).
  specialize (KT d1 M).
  assert (CT : exists k, cut_at (2 * lb_u64 lb) (128 * num_parts h) (slice (2 * lb_u64 lb) (128 * num_parts h) L0) T k
     (data (snd (write_tables oc lb (new_primary lb h) bh (g_partitions g) d1)))).
  { pose proof (cut_tables lb (new_primary lb h) bh (num_parts h) (lenN L0)
      (slice (2 * lb_u64 lb) (128 * num_parts h) L0) ps) as K. cbv zeta in K.
    edestruct K with (oc := oc) (m := g_partitions g) (d := d1) as (k & _ & Q); clear K; auto.
    - apply slice_length. lia.
    - intros b Hb. destruct (HBH b Hb) as [-> _]. auto.
    - intros b Hb. destruct (HBH b Hb) as [-> _]. auto.
    - cbn. lia.
    - intros b Hb. destruct (HBH b Hb) as [-> _]. cbn. fold t. lia.
    - rewrite U1. split; [reflexivity|]. split; [cbn; lia|reflexivity].
    - exists k. exact Q. }
  destruct CT as (kc & CT).
  destruct (write_tables oc lb (new_primary lb h) bh (g_partitions g) d1) as [[[]|e|] d2] eqn:E2;
    cbn [snd set_device g_device] in *; try (exact (InArrays _ _ _ _ _ kc KT CT)).
  apply rf_tables in E2 as (_ & R2).
  assert (D2 : data d2 = L1).
  { assert (HD : healthy (repaired d1)) by reflexivity.
    unfold bh in R2.  unfold L1, tables_image. fold lb T. fold t.
    destruct (c_readonly_backup cfg).
    - destruct (write_tables_ok_1 oc lb (new_primary lb h) (g_partitions g) (repaired d1)) as (q & X); auto.
      + unfold dev_len. cbn [repaired with_faults data]. rewrite U1. cbn. lia.
      + unfold dev_len. cbn [repaired with_faults data]. rewrite U1. auto.
      + rewrite X in R2. apply (f_equal (fun x => data (snd x))) in R2.
        cbn [snd set_data data repaired with_faults] in R2. rewrite U1 in R2. symmetry. exact R2.
    - destruct (write_tables_ok oc lb (new_primary lb h) (new_backup lb h) (g_partitions g) (repaired d1))
        as (q & X); auto.
      + cbn. fold t. pose proof (lb_pos lb). lia.
      + unfold dev_len. cbn [repaired with_faults data]. rewrite U1. cbn. fold t. lia.
      + unfold dev_len. cbn [repaired with_faults data]. rewrite U1. auto.
      + cbn. fold t. lia.
      + rewrite X in R2. apply (f_equal (fun x => data (snd x))) in R2.
        cbn [snd set_data data repaired with_faults] in R2. rewrite U1 in R2. symmetry. exact R2. }
  clear R2 KT M. set (g2 := set_device d2 g1).
  assert (G2 : g_device g2 = d2 /\ g_config g2 = cfg) by (split; auto; exact C1).
  destruct G2 as [G2 C2]. clearbody g2.
  (* the backup header *)
  assert (MB : (exists k, c_readonly_backup cfg = false /\
      data (g_device (snd ((match bh with Some b => write_backup_of b | None => ret tt end) g2))) =
      store (blba h * lb_u64 lb) (firstn k (backup_block cfg h ps)) L1) \/ c_readonly_backup cfg = true).
  { unfold bh. destruct (c_readonly_backup cfg) eqn:HR; [auto|left].
    unfold write_backup_of. rewrite C2, G2. fold lb.
    assert (EC : table_crc (new_backup lb h) lb (data d2) = crc32 T).
    { rewrite D2. unfold table_crc. cbn [new_backup part_start num_parts part_size].
      fold t. replace (num_parts h * 128) with (128 * num_parts h) by lia. rewrite F3; auto. }
    destruct (write_backup (new_backup lb h) lb d2) as [r [b' d3]] eqn:E3. cbn [snd set_device g_device].
    unfold write_backup in E3. destruct (_ <=? _) eqn:EL.
    { exfalso. apply N.leb_le in EL. cbn in EL. lia. }
    destruct (file_write_header_cut (new_backup lb h) (current_lba (new_backup lb h)) lb d2) as (k & X); auto.
    { cbn. lia. }
    { cbn. fold t. lia. }
    exists k. split; [reflexivity|]. rewrite E3 in X. cbn [snd] in X. rewrite X, EC, D2. reflexivity. }
  unfold bind at 1.
  destruct ((match bh with Some b => write_backup_of b | None => ret tt end) g2) as [r3 g3] eqn:E3.
  cbn [snd] in MB.
  assert (C3 : g_config g3 = cfg).
  { destruct bh; [|injection E3 as _ <-; auto]. unfold write_backup_of in E3.
    destruct (write_backup _ _ _) as [? [? ?]]. injection E3 as _ <-. auto. }
  assert (D3 : r3 = Ok tt -> data (g_device g3) = mid_image cfg h ps L0).
  { intros ->. unfold mid_image. fold L1 lb.
    destruct (c_readonly_backup cfg) eqn:HR.
    - unfold bh in E3.  rewrite ?HR in E3. injection E3 as <-. rewrite G2. auto.
    - unfold bh in E3.  rewrite ?HR in E3. unfold write_backup_of in E3. rewrite C2, G2 in E3. fold lb in E3.
      destruct (write_backup (new_backup lb h) lb d2) as [[n3|e|] [b' d3]] eqn:E4; try discriminate.
      injection E3 as <-. cbn [set_device g_device].
      apply rf_write_backup in E4 as (_ & R4).
      unfold write_backup in R4. destruct (_ <=? _) eqn:EL; [discriminate|].
      destruct (write_header_step (new_backup lb h) (current_lba (new_backup lb h)) lb (repaired d2)) as (p & X); auto.
      { reflexivity. }
      { unfold dev_len. cbn [repaired with_faults data]. rewrite D2, F1. auto. }
      { unfold dev_len. cbn [repaired with_faults data]. rewrite D2, F1. cbn. fold t. lia. }
      { unfold dev_len. cbn [repaired with_faults data]. rewrite D2, F1. cbn. lia. }
      rewrite X in R4. apply (f_equal (fun x => data (snd (snd x)))) in R4.
      cbn [snd set_data data repaired with_faults] in R4.
      assert (EC : table_crc (new_backup lb h) lb (data d2) = crc32 T).
      { rewrite D2. unfold table_crc. cbn [new_backup part_start num_parts part_size].
        fold t. replace (num_parts h * 128) with (128 * num_parts h) by lia. rewrite F3; auto. }
      rewrite EC, D2 in R4. symmetry. exact R4. }
  assert (ST : forall r, r3 = r -> r <> Ok tt -> data (g_device g3) = L1 \/
     (c_readonly_backup cfg = false /\ exists k, data (g_device g3) =
        store (blba h * lb_u64 lb) (firstn k (backup_block cfg h ps)) L1)).
  { intros r _ _. destruct MB as [(k & HR & X)|HR]; [right; eauto|].
    left. unfold bh in E3.  rewrite ?HR in E3. injection E3 as _ <-. rewrite G2. auto. }
  assert (ML1 : mix L0 L1 L1) by (split; auto).
  assert (CL1 : cut_at (2 * lb_u64 lb) (128 * num_parts h) (slice (2 * lb_u64 lb) (128 * num_parts h) L0) T kc L1)
    by (rewrite <- D2; exact CT).
  destruct r3 as [[]|e|]; cbn [snd].
  2: { destruct (ST _ eq_refl) as [->|(? & k & ->)]; [discriminate|exact (InArrays _ _ _ _ _ kc ML1 CL1)|eapply InBackup; [auto|reflexivity]]. }
  2: { destruct (ST _ eq_refl) as [->|(? & k & ->)]; [discriminate|exact (InArrays _ _ _ _ _ kc ML1 CL1)|eapply InBackup; [auto|reflexivity]]. }
  specialize (D3 eq_refl). clear E3 MB ST.
  (* the primary header *)
  assert (KP : exists k, data (g_device (snd (write_primary_of (new_primary lb h) g3))) =
    store (lb_u64 lb) (firstn k (primary_block cfg h ps)) (mid_image cfg h ps L0)).
  { unfold write_primary_of. rewrite C3. fold lb.
    assert (EC : table_crc (new_primary lb h) lb (data (g_device g3)) = crc32 T).
    { rewrite D3. unfold table_crc. cbn [new_primary part_start num_parts part_size].
      replace (num_parts h * 128) with (128 * num_parts h) by lia. rewrite M2; auto. }
    destruct (write_primary (new_primary lb h) lb (g_device g3)) as [r [b' d4]] eqn:E4. cbn [snd set_device g_device].
    unfold write_primary in E4. destruct (_ <=? _) eqn:EL.
    { exfalso. apply N.leb_le in EL. cbn in EL. lia. }
    destruct (file_write_header_cut (new_primary lb h) (current_lba (new_primary lb h)) lb (g_device g3)) as (k & X); auto.
    { cbn. lia. }
    { cbn. lia. }
    exists k. rewrite E4 in X. cbn [snd] in X. rewrite X, EC, D3. cbn [new_primary current_lba]. rewrite N.mul_1_l.
    reflexivity. }
  destruct KP as (k & KP). apply (InPrimary _ _ _ _ _ k). fold lb. rewrite <- KP.
  unfold bind at 1. destruct (write_primary_of (new_primary lb h) g3) as [[[]|e|] g4]; cbn [snd]; auto.
  unfold bind, on_device, map_err.
  pose proof (untouched_flush (g_device g4)) as (U4 & _).
  destruct (flush (g_device g4)) as [[[]|e|] d5]; cbn [snd omap_err set_device g_device] in *; auto.
  destruct (g_sync g); [|cbn; auto]. change (g_device (set_device d5 g4)) with d5.
  pose proof (untouched_sync d5) as U5.
  destruct (sync_all d5) as [[[]|e|] d6]; cbn in U5 |- *; congruence.
Qed.

(** * Header blocks that are partly old and partly new *)
Lemma app_cut {A} k (a b a' b' : list A) : length a = length a' ->
  firstn k (a ++ b) ++ skipn k (a' ++ b') =
  (firstn k a ++ skipn k a') ++ firstn (k - length a) b ++ skipn (k - length a) b'.
Proof.
  intros H. rewrite firstn_app, skipn_app, <- H.
  destruct (Nat.le_gt_cases k (length a)) as [E|E].
  - replace (k - length a)%nat with 0%nat by lia. cbn [firstn skipn]. rewrite !app_nil_r, app_nil_l, app_assoc. auto.
  - rewrite (skipn_all2 a') by lia. rewrite !app_nil_l, app_nil_r. rewrite app_assoc. auto.
Qed.
Lemma cut_self {A} k (a : list A) : firstn k a ++ skipn k a = a.
Proof. apply firstn_skipn. Qed.

(** A header that differs from a valid one only in the checksum of the array: cut anywhere, the block is
    one of the two or not valid. *)
Lemma header_cut X pc0 pc1 k r : length (signature X) = 8%nat -> wf_uuid (disk_guid X) ->
  pc0 < 256 ^ 4 -> pc1 < 256 ^ 4 ->
  let a := hdr_image X pc0 (hdr_crc X pc0) in
  let b := hdr_image X pc1 (hdr_crc X pc1) in
  let c := firstn k b ++ skipn k a in
  parse_header c = Ok r -> c = a \/ c = b.
Proof.
  intros Hs Hg H0 H1 a b c E.
  assert (La : length a = 92%nat) by (apply length_image; auto).
  assert (Lb : length b = 92%nat) by (apply length_image; auto).
  assert (Lc : length c = 92%nat) by (unfold c; rewrite app_length, firstn_length, skipn_length; lia).
  rewrite parse_header_raw in E by auto.
  destruct (bytes_eqb _ _); [|discriminate]. destruct (crc_ok c) eqn:EC; [|discriminate]. clear E.
  unfold crc_ok in EC. apply N.eqb_eq in EC.
  set (pre := hdr_pre X) in *.
  assert (Lp : length pre = 16%nat) by (apply length_pre; auto).
  set (Q := zeros 4 ++ le_bytes 8 (current_lba X) ++ le_bytes 8 (backup_lba X) ++
    le_bytes 8 (first_usable X) ++ le_bytes 8 (last_usable X) ++ uuid_le_bytes (disk_guid X) ++
    le_bytes 8 (part_start X) ++ le_bytes 4 (num_parts X) ++ le_bytes 4 (part_size X)).
  assert (EP : forall pc, hdr_post X pc = Q ++ le_bytes 4 pc).
  { intros pc. unfold hdr_post, Q. rewrite <- !app_assoc. reflexivity. }
  assert (LQ : length Q = 68%nat).
  { pose proof (length_post X 0 Hg) as L. rewrite EP, app_length, le_bytes_length in L. lia. }
  assert (EA : forall pc cc, hdr_image X pc cc = pre ++ le_bytes 4 cc ++ Q ++ le_bytes 4 pc).
  { intros pc cc. unfold hdr_image. rewrite EP. auto. }
  set (f := firstn (k - 16) (le_bytes 4 (hdr_crc X pc1)) ++ skipn (k - 16) (le_bytes 4 (hdr_crc X pc0))).
  set (w := firstn (k - 88) (le_bytes 4 pc1) ++ skipn (k - 88) (le_bytes 4 pc0)).
  assert (Ec : c = pre ++ f ++ Q ++ w).
  { unfold c, a, b. rewrite !EA. rewrite app_cut by auto. rewrite cut_self, Lp.
    rewrite app_cut by (rewrite !le_bytes_length; auto). rewrite le_bytes_length.
    rewrite app_cut by auto. rewrite cut_self, LQ.
    unfold f, w. replace (k - 16 - 4 - 68)%nat with (k - 88)%nat by lia. auto. }
  assert (Lf : length f = 4%nat).
  { unfold f. rewrite app_length, firstn_length, skipn_length, !le_bytes_length. lia. }
  assert (Lw : length w = 4%nat).
  { unfold w. rewrite app_length, firstn_length, skipn_length, !le_bytes_length. lia. }
  assert (EZ : splice 16 (zeros 4) c = pre ++ zeros 4 ++ Q ++ w).
  { rewrite Ec, <- Lp. apply splice_app. rewrite Lf. reflexivity. }
  assert (EF : field 16 4 c = le_val f).
  { unfold field. rewrite Ec. rewrite skipn_app_l by auto. rewrite firstn_app_l by auto. auto. }
  rewrite EZ, EF in EC.
  assert (F : f = le_bytes 4 (crc32 (pre ++ zeros 4 ++ Q ++ w))).
  { rewrite EC. symmetry. apply le_bytes_le_val_n. auto. }
  assert (Z4 : le_bytes 4 0 = zeros 4) by reflexivity.
  destruct (Nat.le_gt_cases k 88) as [K|K].
  - left. assert (W : w = le_bytes 4 pc0).
    { unfold w. replace (k - 88)%nat with 0%nat by lia. reflexivity. }
    rewrite Ec, F, W. unfold a. rewrite EA. unfold hdr_crc. rewrite EA, Z4. auto.
  - right. assert (F1 : f = le_bytes 4 (hdr_crc X pc1)).
    { unfold f. rewrite firstn_all2 by (rewrite le_bytes_length; lia).
      rewrite skipn_all2 by (rewrite le_bytes_length; lia). apply app_nil_r. }
    rewrite F1 in EC. rewrite le_val_le_bytes_small in EC by apply crc32_u32.
    assert (W : w = le_bytes 4 pc1).
    { destruct (list_eq_dec Byte.byte_eq_dec w (le_bytes 4 pc1)) as [Y|Y]; auto. exfalso.
      apply (crc32_burst (pre ++ zeros 4 ++ Q) w (le_bytes 4 pc1) []).
      - rewrite Lw, le_bytes_length. auto.
      - lia.
      - auto.
      - rewrite !app_nil_r, <- !app_assoc. rewrite EC. unfold hdr_crc. rewrite EA, Z4. auto. }
    rewrite Ec, F1, W. unfold b. rewrite EA. auto.
Qed.

Lemma header_bytes off l P : read_header_at off l = Ok P -> reserved P = 0 ->
  slice off 92 l = hdr_image P (crc32_parts P) (hdr_crc P (crc32_parts P)).
Proof.
  unfold read_header_at. intros E HR. destruct (N.leb_spec (off + 92) (lenN l)); [|discriminate].
  set (b := slice off 92 l) in *.
  assert (Lb : length b = 92%nat) by (apply slice_length_nat; auto).
  rewrite parse_header_raw in E by auto.
  destruct (bytes_eqb _ _) eqn:ES; [|discriminate]. destruct (crc_ok b) eqn:EC; [|discriminate].
  injection E as <-. cbn [raw_header reserved] in HR.
  assert (Z : firstn 4 (skipn 20 b) = zeros 4).
  { unfold field in HR. rewrite <- (le_bytes_le_val_n 4 (firstn 4 (skipn 20 b))).
    - rewrite HR. reflexivity.
    - rewrite firstn_length, skipn_length, Lb. reflexivity. }
  pose proof (raw_header_image b Lb Z) as R.
  apply N.eqb_eq in EC. unfold hdr_crc.
  rewrite <- (image_splice0 (raw_header b) (crc32_parts (raw_header b)) (crc32_hdr (raw_header b))).
  - rewrite R, EC. symmetry. exact R.
  - cbn [raw_header signature]. rewrite firstn_length, Lb. reflexivity.
Qed.
Lemma headers_for_image lb h P B pc c : headers_for lb h P B ->
  hdr_image P pc c = hdr_image (new_primary lb h) pc c.
Proof.
  intros [(E1 & E2 & E3) _ (E4 & _) (E5 & _) (E6 & _) (E7 & _) (E8 & _) _ (C1 & _ & C2 & _ & C3 & _ & C4 & _ & C5 & _)].
  unfold hdr_image, hdr_pre, hdr_post.
  rewrite C1, C2, C3, C4, E1, E2, E3, E4, E5, E6, E7, E8, backup_at_eq, array_blocks_eq. reflexivity.
Qed.

(** * Opening after an interrupted write *)
Lemma slice_92 off l l' lb : slice off (lb_u64 lb) l = slice off (lb_u64 lb) l' -> slice off 92 l = slice off 92 l'.
Proof.
  intros H. pose proof (lb_pos lb).
  assert (X : forall x, slice off 92 x = firstn 92 (slice off (lb_u64 lb) x)).
  { intros x. rewrite <- (firstn_slice 92 off (lb_u64 lb) x) by lia. reflexivity. }
  rewrite !X, H. auto.
Qed.
Lemma read_header_slice off l l' : lenN l = lenN l' -> slice off 92 l = slice off 92 l' ->
  read_header_at off l = read_header_at off l'.
Proof. intros HL H. unfold read_header_at. rewrite HL, H. auto. Qed.

Section Open.
  Variables (oc' : bool) (cfg : config) (d0 : dev) (g0 : gdisk) (h P B : header) (ps : list partition).
  Let lb := c_lb cfg.
  Let T := table_image h ps.
  Hypothesis HU : lenN ps <= num_parts h.
  Hypothesis HF : Forall (fun p => wf_part p /\ is_used p = true) ps.
  Hypothesis H64 : dev_len d0 < modulus 64.
  Hypothesis S : sane lb (dev_len d0) h.
  Hypothesis HP : headers_for lb h P B.
  Hypothesis R0 : read_header_at (lb_u64 lb) (data d0) = Ok P.
  Hypothesis O0 : fst (open_from_device oc' cfg (repaired d0)) = Ok g0.
  Let T0 := slice (2 * lb_u64 lb) (128 * num_parts h) (data d0).
  Hypothesis TA : forall k, let c := firstn k T ++ skipn k T0 in crc32 c = crc32 T0 -> c = T0 \/ c = T.

  Lemma crash_counts : counts oc' P (dev_len d0).
  Proof.
    right. left. rewrite (proj1 (hf_num _ _ _ _ HP)). pose proof (s_np _ _ _ S).
    pose proof (sane_areas _ _ _ S). rewrite modulus_31, modulus_32 in *. lia.
  Qed.
  Lemma crash_table l : table_of P lb l = slice (2 * lb_u64 lb) (128 * num_parts h) l.
  Proof.
    unfold table_of. rewrite (proj2 (proj2 (hf_primary _ _ _ _ HP))), (proj1 (hf_num _ _ _ _ HP)),
      (proj1 (hf_psize _ _ _ _ HP)). f_equal. lia.
  Qed.
  Lemma crash_old : read_parts_at P lb (data d0) = Ok (g_partitions g0).
  Proof.
    pose proof (open_ok oc' cfg (repaired d0) eq_refl H64) as E. cbv zeta in E. fold lb in E.
    change (data (repaired d0)) with (data d0) in E. rewrite R0 in E. 
    assert (SE : select cfg (Ok P) (read_backup_at lb (repaired d0)) = Ok P).
    { rewrite E in O0. unfold select in *. destruct (read_backup_at lb (repaired d0)); auto; try discriminate.
      destruct (c_only_valid_headers cfg); auto. discriminate. }
    destruct (open_ok_128 oc' cfg (repaired d0) P) as (p & X); auto.
    - reflexivity.
    - fold lb. change (data (repaired d0)) with (data d0). rewrite R0. auto.
    - apply HP.
    - apply crash_counts.
    - rewrite X in O0. fold lb in O0. change (data (repaired d0)) with (data d0) in O0.
      destruct (read_parts_at P lb (data d0)) as [m|e|]; try discriminate. injection O0 as <-. auto.
  Qed.
  (** The primary header is the old one, the primary array a mixture: the disk has the old table if it
      opens. *)
  Lemma crash_same d : healthy d -> lenN (data d) = dev_len d0 ->
    read_header_at (lb_u64 lb) (data d) = Ok P ->
    (exists k, slice (2 * lb_u64 lb) (128 * num_parts h) (data d) = firstn k T ++ skipn k T0) ->
    match fst (open_from_device oc' cfg d) with
    | Ok g' => (g_partitions g' = g_partitions g0 \/ g_partitions g' = number 1 (map normal ps)) /\
               g_guid g' = disk_guid h
    | Err _ => True
    | Panic => False
    end.
  Proof.
    intros Hd HL R (kc & M).
    assert (D64 : dev_len d < modulus 64) by (unfold dev_len in *; lia).
    pose proof (open_ok oc' cfg d Hd D64) as E. cbv zeta in E. fold lb in E. rewrite R in E.
    destruct (select cfg (Ok P) (read_backup_at lb d)) as [x|e|] eqn:SE.
    3: { exfalso. pose proof (read_backup_at_no_panic lb d) as NP. unfold select in SE.
         destruct (read_backup_at lb d); try discriminate; auto.
         destruct (c_only_valid_headers cfg); discriminate. }
    2: { rewrite E. cbn. auto. }
    assert (x = P).
    { unfold select in SE. destruct (read_backup_at lb d); try discriminate; try congruence.
      destruct (c_only_valid_headers cfg); congruence. }
    subst x. clear E.
    destruct (open_ok_128 oc' cfg d P) as (p & X); auto.
    - fold lb. rewrite R. auto.
    - apply HP.
    - assert (Z : dev_len d = dev_len d0) by (unfold dev_len at 1; lia). rewrite Z. apply crash_counts.
    - rewrite X. fold lb. cbn [fst].
      assert (G : match read_parts_at P lb (data d) with
        Ok t => t = g_partitions g0 \/ t = number 1 (map normal ps) | Err _ => True | Panic => False end).
      { clear X. pose proof crash_old as CO. unfold read_parts_at, parts_of in *. rewrite !crash_table in *.
        unfold dev_len in HL. rewrite HL.
        destruct (modulus 64 <=? part_start P * lb_u64 lb); [exact I|].
        destruct (part_start P * lb_u64 lb + num_parts P * 128 <=? lenN (data d0)).
        - destruct (N.eqb_spec (crc32 (slice (2 * lb_u64 lb) (128 * num_parts h) (data d))) (crc32_parts P)) as [Y|Y];
            [|exact I].
          destruct (N.eqb_spec (crc32 (slice (2 * lb_u64 lb) (128 * num_parts h) (data d0))) (crc32_parts P)) as [Z|Z];
            [|discriminate].
          destruct (TA kc) as [W|W].
          * rewrite <- M. unfold T0. congruence.
          * left. rewrite M, W. unfold T0. injection CO as CO. exact CO.
          * right. rewrite M, W. rewrite (proj1 (hf_num _ _ _ _ HP)). apply table_parts_table; auto.
        - destruct (_ =? 0); [|exact I]. destruct (0 =? _); [|exact I]. left. congruence. }
      destruct (read_parts_at P lb (data d)) as [m|e|]; auto. cbn [g_partitions g_guid]. split; [exact G|].
      apply (proj1 (hf_guid _ _ _ _ HP)).
  Qed.
End Open.

(** The primary copy is the new one, valid: the disk has the new table if it opens. *)
Lemma crash_new oc' cfg h ps (l0 : list byte) d :
  let lb := c_lb cfg in
  let X := hdr_written (new_primary lb h) (crc32 (table_image h ps)) in
  sane lb (lenN l0) h -> lenN l0 < modulus 64 -> lenN ps <= num_parts h ->
  Forall (fun p => wf_part p /\ is_used p = true) ps ->
  healthy d -> lenN (data d) = lenN l0 ->
  read_header_at (lb_u64 lb) (data d) = Ok X ->
  slice (2 * lb_u64 lb) (128 * num_parts h) (data d) = table_image h ps ->
  match fst (open_from_device oc' cfg d) with
  | Ok g' => g_partitions g' = number 1 (map normal ps) /\ g_guid g' = disk_guid h
  | Err _ => True
  | Panic => False
  end.
Proof.
  intros lb X S H64 HU HF Hd HL R ET.
  pose proof (sane_areas _ _ _ S) as (A1 & A2 & A3 & A4 & A5 & A6).
  assert (D64 : dev_len d < modulus 64) by (unfold dev_len in *; lia).
  pose proof (open_ok oc' cfg d Hd D64) as E. cbv zeta in E. fold lb in E. rewrite R in E.
  destruct (select cfg (Ok X) (read_backup_at lb d)) as [x|e|] eqn:SE.
  3: { exfalso. pose proof (read_backup_at_no_panic lb d) as NP. unfold select in SE.
       destruct (read_backup_at lb d); try discriminate; auto.
       destruct (c_only_valid_headers cfg); discriminate. }
  2: { rewrite E. cbn. auto. }
  assert (x = X).
  { unfold select in SE. destruct (read_backup_at lb d); try discriminate; try congruence.
    destruct (c_only_valid_headers cfg); congruence. }
  subst x. clear E.
  destruct (open_ok_128 oc' cfg d X) as (p & Y); auto.
  - fold lb. rewrite R. auto.
  - right. left. cbn. pose proof (s_np _ _ _ S). rewrite modulus_31, modulus_32 in *. lia.
  - rewrite Y. fold lb. cbn [fst]. rewrite (read_parts_image lb h ps l0) with (hd := X); auto.
    + unfold X. cbn [hdr_written set_crc32 set_crc32_parts new_primary part_start]. lia.
Qed.

(** Whatever happens to the backup: the old table, the new one or an error - or the primary header cannot be read and only
    the primary copy differs from what a write leaves. *)
Theorem crash_cases oc oc' cfg g g0 h P B : c_writable (g_config g) = true ->
  c_lb cfg = c_lb (g_config g) ->
  try_header g = Ok h -> dev_len (g_device g) < modulus 64 ->
  sane (c_lb cfg) (dev_len (g_device g)) h ->
  lenN (used_list (g_partitions g)) <= num_parts h ->
  Forall (fun p => wf_part p /\ is_used p = true) (used_list (g_partitions g)) ->
  headers_for (c_lb cfg) h P B ->
  read_header_at (lb_u64 (c_lb cfg)) (data (g_device g)) = Ok P ->
  fst (open_from_device oc' cfg (repaired (g_device g))) = Ok g0 ->
  let T0 := slice (2 * lb_u64 (c_lb cfg)) (128 * num_parts h) (data (g_device g)) in
  let T := table_image h (used_list (g_partitions g)) in
  (forall k, let c := firstn k T ++ skipn k T0 in crc32 c = crc32 T0 -> c = T0 \/ c = T) ->
  (match fst (open_from_device oc' cfg (repaired (g_device (snd (write_inplace oc g))))) with
  | Ok g' => (g_partitions g' = g_partitions g0 \/
              g_partitions g' = number 1 (map normal (used_list (g_partitions g)))) /\ g_guid g' = disk_guid h
  | Err _ => True
  | Panic => False
  end) \/
  c_only_valid_headers cfg = false /\ exists e k,
    read_header_at (lb_u64 (c_lb cfg)) (data (g_device (snd (write_inplace oc g)))) = Err e /\
    data (g_device (snd (write_inplace oc g))) =
      store (lb_u64 (c_lb cfg)) (firstn k (primary_block (g_config g) h (used_list (g_partitions g))))
        (mid_image (g_config g) h (used_list (g_partitions g)) (data (g_device g))).
Proof.
  intros HW HC HT H64 S HU HF HP R0 O0 T0 T TA.
  assert (S' := S). rewrite HC in S'.
  pose proof (write_stages oc g h HW HT H64 S' HU) as ST.
  set (d' := g_device (snd (write_inplace oc g))) in *.
  set (lb := c_lb cfg) in *. set (ps := used_list (g_partitions g)) in *.
  set (L0 := data (g_device g)) in *. set (L := data d') in *.
  pose proof (tables_facts (g_config g) h ps L0 S' HU) as (F1 & F2 & F3 & F4 & F5).
  pose proof (mid_facts (g_config g) h ps L0 S' HU) as (M1 & M2 & M3 & M4).
  rewrite <- HC in F2, F3, F4, F5, M2, M3, M4.
  pose proof (sane_areas _ _ _ S) as (A1 & A2 & A3 & A4 & A5 & A6).
  assert (Gw : wf_uuid (disk_guid h)) by apply S.
  set (t := ablocks (num_parts h) 128 lb) in *. fold ps in T. fold T in F2, F3, M2, M4.
  assert (LT : lenN T = 128 * num_parts h) by (apply table_bytes_lenN; auto).
  assert (LO : lenN (slice (2 * lb_u64 lb) (128 * num_parts h) L0) = 128 * num_parts h).
  { apply slice_length. unfold L0. unfold dev_len in *. lia. }
  fold lb in T0. fold L0 in T0. fold T0 in LO.
  assert (MT : exists k, T = firstn k T ++ skipn k T0).
  { exists (length T). rewrite firstn_all, skipn_all2; [symmetry; apply app_nil_r|]. unfold lenN in *. lia. }
  assert (LBB : lenN (backup_block (g_config g) h ps) = lb_u64 lb).
  { unfold backup_block. rewrite <- HC. apply hdr_block_lenN; auto. }
  assert (LPB : lenN (primary_block (g_config g) h ps) = lb_u64 lb).
  { unfold primary_block. rewrite <- HC. apply hdr_block_lenN; auto. }
  assert (OLD : lenN L = lenN L0 -> slice (lb_u64 lb) 92 L = slice (lb_u64 lb) 92 L0 ->
    (exists k, slice (2 * lb_u64 lb) (128 * num_parts h) L = firstn k T ++ skipn k T0) ->
    match fst (open_from_device oc' cfg (repaired d')) with
    | Ok g' => (g_partitions g' = g_partitions g0 \/ g_partitions g' = number 1 (map normal ps)) /\ g_guid g' = disk_guid h
    | Err _ => True
    | Panic => False
    end).
  { intros X1 X2 X3.
    pose proof (crash_same oc' cfg (g_device g) g0 h P B ps HU HF H64 S HP R0 O0 TA (repaired d')) as K.
    fold lb in K. change (data (repaired d')) with L in K.
    specialize (K eq_refl X1). rewrite (read_header_slice _ L L0) in K by auto. specialize (K R0 X3).
    exact K. }
  destruct ST as [kc M CM|k _ E|k E].
  - left. apply OLD.
    + apply M.
    + apply (slice_92 _ _ _ lb). apply (mix_same L0 (tables_image (g_config g) h ps L0)); auto.
    + exists kc. rewrite <- HC in CM. apply CM.
  - fold L in E. pose proof (lenN_firstn_le k (backup_block (g_config g) h ps)).
    rewrite <- HC in E. fold lb in E. fold L0 in A4. unfold dev_len in *. fold L0 in A4, H64.
    left. apply OLD.
    + rewrite E, store_lenN_in; lia.
    + rewrite E. apply (slice_92 _ _ _ lb). rewrite slice_store_other by lia. auto.
    + rewrite E. rewrite slice_store_other by lia. rewrite F2. exact MT.
  - fold L in E. rewrite <- HC in E. fold lb in E.
    pose proof (lenN_firstn_le k (primary_block (g_config g) h ps)) as LK.
    unfold dev_len in *. fold L0 in A4, H64.
    assert (EL : lenN L = lenN L0) by (rewrite E, store_lenN_in; lia).
    assert (ET : slice (2 * lb_u64 lb) (128 * num_parts h) L = T).
    { rewrite E. rewrite slice_store_other by lia. auto. }
    (* the header block on the device *)
    set (X := new_primary lb h). set (pc0 := crc32_parts P).
    assert (EO : slice (lb_u64 lb) 92 L0 = hdr_image X pc0 (hdr_crc X pc0)).
    { rewrite (header_bytes _ _ _ R0).
      - unfold hdr_crc. rewrite !(headers_for_image lb h P B) by auto. reflexivity.
      - apply (hf_const _ _ _ _ HP). }
    assert (EH : slice (lb_u64 lb) 92 L =
      firstn k (hdr_image X (crc32 T) (hdr_crc X (crc32 T))) ++ skipn k (hdr_image X pc0 (hdr_crc X pc0))).
    { apply byte_at_ext. intros i.
      assert (L92 : forall pc c, lenN (hdr_image X pc c) = 92).
      { intros pc c. unfold lenN. rewrite length_image; auto. }
      rewrite byte_at_slice. rewrite <- EO.
      assert (LF : lenN (firstn k (hdr_image X (crc32 T) (hdr_crc X (crc32 T)))) = N.min (N.of_nat k) 92).
      { unfold lenN. rewrite firstn_length, length_image by auto. lia. }
      assert (NB : forall j, j < 92 -> byte_at (primary_block (g_config g) h ps) j =
        byte_at (hdr_image X (crc32 T) (hdr_crc X (crc32 T))) j).
      { intros j Hj. unfold primary_block. rewrite <- HC. fold lb X T. unfold hdr_block, byte_at.
        rewrite nth_error_app1; auto. rewrite length_image by auto. lia. }
      destruct (N.ltb_spec i 92) as [Hi|Hi].
      2: { unfold byte_at. symmetry. apply nth_error_None. rewrite app_length, skipn_length.
           unfold lenN in LF. rewrite slice_length_nat by lia. lia. }
      rewrite E, byte_at_store_in by lia.
      assert (LF2 : lenN (firstn k (primary_block (g_config g) h ps)) = N.min (N.of_nat k) (lb_u64 lb)).
      { unfold lenN in *. rewrite firstn_length. lia. }
      destruct (N.leb_spec (lb_u64 lb) (lb_u64 lb + i)) as [_|]; [|lia].
      destruct (N.ltb_spec (lb_u64 lb + i) (lb_u64 lb + lenN (firstn k (primary_block (g_config g) h ps)))) as [Y|Y];
        cbn [andb].
      - replace (lb_u64 lb + i - lb_u64 lb) with i by lia. unfold byte_at in *.
        rewrite nth_error_app1 by (unfold lenN in *; lia).
        assert (i < N.of_nat k) by lia.
        assert (G : forall (x : list byte), nth_error (firstn k x) (N.to_nat i) = nth_error x (N.to_nat i)).
        { intros x. rewrite <- (firstn_skipn k x) at 2. destruct (Nat.le_gt_cases (length x) k) as [Q|Q].
          - rewrite firstn_all2 by auto. rewrite skipn_all2 by auto. rewrite app_nil_r. auto.
          - rewrite nth_error_app1; auto. rewrite firstn_length. lia. }
        rewrite !G. apply NB. auto.
      - assert (Hk : N.of_nat k <= i) by lia.
        assert (MB : byte_at (mid_image (g_config g) h ps L0) (lb_u64 lb + i) = byte_at L0 (lb_u64 lb + i)).
        { assert (Z := f_equal (fun x => byte_at x i) M3). cbn beta in Z. rewrite !byte_at_slice in Z.
          destruct (N.ltb_spec i (lb_u64 lb)); [exact Z|lia]. }
        rewrite MB. unfold byte_at in *. unfold lenN in LF.
        rewrite nth_error_app2 by lia.
        rewrite nth_error_skipn. 
        assert (Z : (k + (N.to_nat i - length (firstn k (hdr_image X (crc32 T) (hdr_crc X (crc32 T))))))%nat = N.to_nat i) by lia.
        rewrite Z. pose proof (byte_at_slice (lb_u64 lb) 92 L0 i) as W. unfold byte_at in W. rewrite W.
        destruct (N.ltb_spec i 92); [auto|lia]. }
    assert (PC0 : pc0 < 256 ^ 4).
    { unfold read_header_at in R0. destruct (_ <=? _) eqn:EE; [|discriminate]. apply N.leb_le in EE.
      apply parse_header_ok_wf in R0; [apply R0|]. apply slice_length_nat; auto. }
    assert (RL : read_header_at (lb_u64 lb) L = parse_header (slice (lb_u64 lb) 92 L)).
    { unfold read_header_at. destruct (N.leb_spec (lb_u64 lb + 92) (lenN L)); auto. lia. }
    destruct (read_header_at (lb_u64 lb) L) as [r|e|] eqn:RR.
    3: { exfalso. eapply read_header_at_no_panic; eauto. }
    + symmetry in RL. rewrite EH in RL.
      destruct (header_cut X pc0 (crc32 T) k r) as [Y|Y]; auto.
      { apply crc32_u32. }
      * left. apply OLD; auto.
        -- rewrite EH, Y. symmetry. exact EO.
        -- rewrite ET. exact MT.
      * assert (RN : read_header_at (lb_u64 lb) L = Ok (hdr_written X (crc32 T))).
        { rewrite RR, <- RL, Y. apply parse_header_image; [eapply new_primary_wf; eauto|apply crc32_u32]. }
        rewrite RR in RN. injection RN as ->.
        pose proof (crash_new oc' cfg h ps L0 (repaired d')) as K. cbv zeta in K. fold lb in K. fold T in K. fold X in K.
        change (data (repaired d')) with L in K. rewrite RR in K.
        specialize (K S H64 HU HF eq_refl EL eq_refl ET). left.
        destruct (fst (open_from_device oc' cfg (repaired d'))); auto. destruct K; auto.
    + destruct (c_only_valid_headers cfg) eqn:OV.
      * left. rewrite (open_ok oc' cfg (repaired d') eq_refl); [|change (dev_len (repaired d')) with (lenN L); lia].
        fold lb. change (data (repaired d')) with L. rewrite RR. unfold select. rewrite OV.
        pose proof (read_backup_at_no_panic lb (repaired d')) as NP.
        destruct (read_backup_at lb (repaired d')); cbn; auto.
      * right. split; [reflexivity|]. exists e, k. split; [reflexivity|exact E].
Qed.
Theorem crash_open oc oc' cfg g g0 h P B : c_writable (g_config g) = true ->
  c_readonly_backup (g_config g) = false -> c_lb cfg = c_lb (g_config g) ->
  try_header g = Ok h -> dev_len (g_device g) < modulus 64 ->
  sane (c_lb cfg) (dev_len (g_device g)) h ->
  lenN (used_list (g_partitions g)) <= num_parts h ->
  Forall (fun p => wf_part p /\ is_used p = true) (used_list (g_partitions g)) ->
  blba h = last_block (c_lb cfg) (g_device g) ->
  headers_for (c_lb cfg) h P B ->
  read_header_at (lb_u64 (c_lb cfg)) (data (g_device g)) = Ok P ->
  fst (open_from_device oc' cfg (repaired (g_device g))) = Ok g0 ->
  let T0 := slice (2 * lb_u64 (c_lb cfg)) (128 * num_parts h) (data (g_device g)) in
  let T := table_image h (used_list (g_partitions g)) in
  (forall k, let c := firstn k T ++ skipn k T0 in crc32 c = crc32 T0 -> c = T0 \/ c = T) ->
  match fst (open_from_device oc' cfg (repaired (g_device (snd (write_inplace oc g))))) with
  | Ok g' => (g_partitions g' = g_partitions g0 \/
              g_partitions g' = number 1 (map normal (used_list (g_partitions g)))) /\ g_guid g' = disk_guid h
  | Err _ => True
  | Panic => False
  end.
Proof.
  intros HW HR HC HT H64 S HU HF HB HP R0 O0 T0 T TA.
  destruct (crash_cases oc oc' cfg g g0 h P B HW HC HT H64 S HU HF HP R0 O0 TA) as [K|(OV & e & k & RR & E)]; [exact K|].
  set (d' := g_device (snd (write_inplace oc g))) in *. set (lb := c_lb cfg) in *. set (ps := used_list (g_partitions g)) in *.
  set (L0 := data (g_device g)) in *. set (L := data d') in *.
  pose proof (sane_areas _ _ _ S) as (A1 & A2 & A3 & A4 & A5 & A6). unfold dev_len in *. fold L0 in A4, H64, S.
  assert (S' : sane (c_lb (g_config g)) (lenN L0) h) by (rewrite <- HC; exact S).
  pose proof (mid_facts (g_config g) h ps L0 S' HU) as (M1 & _).
  assert (Gw : wf_uuid (disk_guid h)) by apply S.
  assert (LPB : lenN (primary_block (g_config g) h ps) = lb_u64 lb).
  { unfold primary_block. rewrite <- HC. apply hdr_block_lenN; auto. }
  pose proof (lenN_firstn_le k (primary_block (g_config g) h ps)) as LK.
  assert (EL : lenN L = lenN L0) by (rewrite E, store_lenN_in; lia).
  destruct (reopen_backup oc' cfg lb h ps L0 (repaired d')) as (p & K); auto.
  - reflexivity.
  - change (data (repaired d')) with L.
    assert (EM : final_image lb h ps L0 = image_for (g_config g) h ps L0).
    { unfold image_for. rewrite HR, <- HC. auto. }
    rewrite EM, image_mid, <- HC. fold lb. rewrite E.
    split; [rewrite !store_lenN_in by lia; auto|].
    intros i Hi. unfold primary_area, in_area in Hi.
    rewrite !byte_at_store_in by lia.
    destruct (N.leb_spec (lb_u64 lb) i); cbn [andb]; auto.
    destruct (N.ltb_spec i (lb_u64 lb + lenN (firstn k (primary_block (g_config g) h ps)))),
      (N.ltb_spec i (lb_u64 lb + lenN (primary_block (g_config g) h ps))); auto; lia.
  - exists e. exact RR.
  - rewrite HB. unfold last_block. change (dev_len (repaired d')) with (lenN L). unfold dev_len.
    fold L0. rewrite EL. auto.
  - rewrite K. cbn [fst g_partitions g_guid]. auto.
Qed.
