(** StdIoFacts.v - the loops of std amount to the single steps of Device.v. *)
From Verif Require Export StdIo MbrFacts TraceFacts.
Open Scope list_scope.
Open Scope N_scope.

Definition no_failure (s : list answer) : Prop := ~ In Fails s.
Lemma no_failure_cons a s : no_failure (a :: s) -> a <> Fails /\ no_failure s.
Proof. unfold no_failure. cbn. intuition congruence. Qed.
Definition kind (d d' : dev) : Prop := growable d' = growable d /\ eof_moves d' = eof_moves d /\ faults d' = faults d.
Lemma set_pos_same d : set_pos d (pos d) = d.
Proof. destruct d; reflexivity. Qed.
Lemma set_pos_twice d a b : set_pos (set_pos d a) b = set_pos d b.
Proof. reflexivity. Qed.

(** Reading: what the loop returns and where it leaves the device. *)
Inductive read_end (n : N) (got : list byte) (d : dev) (s : list answer) : outcome io_err (list byte) -> dev -> Prop :=
| read_all : pos d + n <= dev_len d -> read_end n got d s (Ok (got ++ slice (pos d) n (data d))) (set_pos d (pos d + n))
| read_eof : dev_len d < pos d + n ->
    read_end n got d s (Err IoUnexpectedEof) (if pos d <=? dev_len d then set_pos d (dev_len d) else d)
| read_fault m : ~ no_failure s -> read_end n got d s (Err IoFault) (set_pos d (pos d + N.of_nat m)).

Lemma raw_read_piece n d s : fst (next s) <> Some Interrupted -> fst (next s) <> Some Fails -> 0 < n ->
  exists k, raw_read n (d, s) = (Did (slice (pos d) k (data d)), (set_pos d (pos d + k), snd (next s))) /\
   k <= n /\ k <= dev_len d - pos d /\ (k = 0 -> dev_len d <= pos d) /\ (s = [] -> k = n \/ k = dev_len d - pos d).
Proof.
  intros NI NF Z. unfold raw_read. destruct (next s) as [a s'] eqn:N. cbn [fst snd] in *.
  exists (N.min (piece_of a n) (dev_len d - pos d)). split.
  { destruct a as [[m| |]|]; reflexivity || congruence. }
  assert (s = [] -> a = None) by (intros ->; injection N as <- _; reflexivity).
  destruct a as [[m| |]|]; cbn [piece_of]; repeat split; intros; try (exfalso; intuition congruence); lia.
Qed.
Lemma read_loop_zero f got r : read_loop f 0 got r = (Ok got, r).
Proof. destruct f; reflexivity. Qed.
Lemma read_loop_S f n got r : 0 < n -> read_loop (S f) n got r =
  match raw_read n r with
  | (Did [], r) => (Err IoUnexpectedEof, r)
  | (Did b, r) => read_loop f (n - lenN b) (got ++ b) r
  | (Again, r) => read_loop f n got r
  | (Failed, r) => (Err IoFault, r)
  end.
Proof. intros Z. cbn [read_loop]. destruct (N.eqb_spec n 0); [lia|]. destruct (raw_read n r) as [[[|b bs]| |] r']; reflexivity. Qed.

Lemma read_step n got d s x d' k : 0 < n -> k <= n -> k <= dev_len d - pos d -> 0 < k -> n - k <> 0 ->
  read_end (n - k) (got ++ slice (pos d) k (data d)) (set_pos d (pos d + k)) s x d' -> read_end n got d s x d'.
Proof.
  intros Z K1 K2 K3 K4 H. assert (D : dev_len (set_pos d (pos d + k)) = dev_len d) by reflexivity.
  assert (P : pos (set_pos d (pos d + k)) = pos d + k) by reflexivity.
  inversion H as [L E1 E2|L E1 E2|m L E1 E2]; rewrite P, ?D in *; clear H.
  - rewrite set_pos_twice. cbn [data set_pos]. rewrite <- app_assoc, <- slice_app_split.
    replace (k + (n - k)) with n by lia. replace (pos d + k + (n - k)) with (pos d + n) by lia. apply read_all. lia.
  - destruct (N.leb_spec (pos d + k) (dev_len d)); [|lia]. rewrite set_pos_twice.
    assert (G : (pos d <=? dev_len d) = true) by (apply N.leb_le; lia).
    pose proof (read_eof n got d s ltac:(lia)) as R. rewrite G in R. exact R.
  - rewrite set_pos_twice. replace (pos d + k + N.of_nat m) with (pos d + N.of_nat (N.to_nat k + m)) by lia.
    apply read_fault. exact L.
Qed.
Lemma read_end_more n got d a s x d' : read_end n got d s x d' -> read_end n got d (a :: s) x d'.
Proof.
  intros H. destruct H; [apply read_all; assumption|apply read_eof; assumption|apply read_fault].
  unfold no_failure in *. cbn. intuition.
Qed.
Lemma slice_k_len d k : k <= dev_len d - pos d -> 0 < k -> lenN (slice (pos d) k (data d)) = k.
Proof. intros H Z. apply slice_length. unfold dev_len in *. lia. Qed.
Lemma read_eof_here n got d s : dev_len d <= pos d -> 0 < n -> read_end n got d s (Err IoUnexpectedEof) d.
Proof.
  intros H Z. pose proof (read_eof n got d s ltac:(lia)) as R. destruct (N.leb_spec (pos d) (dev_len d)); [|exact R].
  replace (dev_len d) with (pos d) in R by lia. rewrite set_pos_same in R. exact R.
Qed.
Lemma read_loop_end s : forall fuel n got d, (length s + 2 <= fuel)%nat -> 0 < n ->
  exists x d' s', read_loop fuel n got (d, s) = (x, (d', s')) /\ read_end n got d s x d' /\
    (no_failure s -> no_failure s').
Proof.
  induction s as [|a s IH]; intros fuel n got d F Z.
  - destruct fuel as [|[|f]]; [cbn in F; lia|cbn in F; lia|]. rewrite read_loop_S by exact Z.
    destruct (raw_read_piece n d [] ltac:(discriminate) ltac:(discriminate) Z) as (k & E & K1 & K2 & K0 & KN).
    rewrite E. clear E. cbn [next snd]. specialize (KN eq_refl).
    destruct (N.eq_dec k 0) as [-> |NZ].
    { rewrite slice_0. do 3 eexists. split; [reflexivity|]. split; [|auto]. rewrite N.add_0_r, set_pos_same.
      apply read_eof_here; [apply K0; reflexivity|exact Z]. }
    pose proof (slice_k_len d k K2 ltac:(lia)) as LK.
    destruct (slice (pos d) k (data d)) as [|b bs] eqn:S; [unfold lenN in LK; cbn in LK; lia|]. rewrite LK, <- S.
    destruct (N.eq_dec k n) as [-> |NE].
    + rewrite N.sub_diag. cbn [read_loop N.eqb]. do 3 eexists. split; [reflexivity|]. split; [|auto]. apply read_all. lia.
    + assert (KE : k = dev_len d - pos d) by lia. rewrite read_loop_S by lia.
      unfold raw_read. cbn [next piece_of pos set_pos].
      replace (N.min (n - k) (dev_len (set_pos d (pos d + k)) - (pos d + k))) with 0
        by (change (dev_len (set_pos d (pos d + k))) with (dev_len d); lia).
      rewrite slice_0. do 3 eexists. split; [reflexivity|]. split; [|auto]. rewrite set_pos_twice, N.add_0_r.
      replace (pos d + k) with (dev_len d) by lia. pose proof (read_eof n got d [] ltac:(lia)) as R.
      assert (G : (pos d <=? dev_len d) = true) by (apply N.leb_le; lia). rewrite G in R. exact R.
  - destruct fuel as [|f]; [cbn in F; lia|]. rewrite read_loop_S by exact Z. cbn [length] in F.
    assert (Ff : (length s + 2 <= f)%nat) by lia.
    destruct a as [m| |].
    + destruct (raw_read_piece n d (Piece m :: s) ltac:(discriminate) ltac:(discriminate) Z) as (k & E & K1 & K2 & K0 & KN).
      rewrite E. clear E KN. cbn [next snd]. destruct (N.eq_dec k 0) as [-> |NZ].
      { rewrite slice_0. do 3 eexists. split; [reflexivity|]. split; [|intros N; apply no_failure_cons in N; tauto].
        rewrite N.add_0_r, set_pos_same.
        apply read_eof_here; [apply K0; reflexivity|exact Z]. }
      pose proof (slice_k_len d k K2 ltac:(lia)) as LK.
      destruct (slice (pos d) k (data d)) as [|b bs] eqn:S; [unfold lenN in LK; cbn in LK; lia|]. rewrite LK, <- S.
      destruct (N.eq_dec (n - k) 0) as [ZK|NK].
      * rewrite ZK, read_loop_zero. do 3 eexists. split; [reflexivity|].
        split; [|intros N; apply no_failure_cons in N; tauto]. replace k with n by lia. apply read_all. lia.
      * destruct (IH f (n - k) (got ++ slice (pos d) k (data d)) (set_pos d (pos d + k)) Ff ltac:(lia)) as (x & d' & s' & E & R & N).
        rewrite E. do 3 eexists. split; [reflexivity|]. split; [|intros NF; apply no_failure_cons in NF; tauto].
        apply read_end_more. apply (read_step n got d s x d' k Z K1 K2 ltac:(lia) NK R).
    + cbn [raw_read next]. destruct (IH f n got d Ff Z) as (x & d' & s' & E & R & N). rewrite E. do 3 eexists.
      split; [reflexivity|]. split; [apply read_end_more, R|intros NF; apply no_failure_cons in NF; tauto].
    + cbn [raw_read next]. do 3 eexists. split; [reflexivity|].
      split; [|intros NF; apply no_failure_cons in NF; tauto].
      pose proof (read_fault n got d (Fails :: s) 0) as R. cbn [N.of_nat] in R. rewrite N.add_0_r, set_pos_same in R.
      apply R. unfold no_failure. cbn. tauto.
Qed.

(** Writing. *)
Definition fitting (d : dev) (bs : list byte) : list byte :=
  if growable d then bs else firstn (N.to_nat (dev_len d - pos d)) bs.
Definition stored (d : dev) (part : list byte) : dev := set_data d (store (pos d) part (data d)) (pos d + lenN part).
Inductive write_end (bs : list byte) (d : dev) (s : list answer) : outcome io_err unit -> dev -> Prop :=
| write_done : growable d = true \/ pos d + lenN bs <= dev_len d -> write_end bs d s (Ok tt) (stored d bs)
| write_full : growable d = false -> dev_len d < pos d + lenN bs ->
    write_end bs d s (Err IoWriteZero) (stored d (firstn (N.to_nat (dev_len d - pos d)) bs))
| write_fault m : ~ no_failure s -> write_end bs d s (Err IoFault) (stored d (firstn m (fitting d bs))).

Lemma stored_nil d : stored d [] = d.
Proof. unfold stored. cbn. rewrite N.add_0_r. destruct d; reflexivity. Qed.
Lemma stored_twice d a b : stored (stored d a) b = stored d (a ++ b).
Proof.
  unfold stored, set_data. cbn [pos data growable eof_moves faults durable].
  rewrite store_adjacent_any by reflexivity. f_equal. unfold lenN. rewrite app_length. lia.
Qed.
Lemma lenN_firstn {A} k (l : list A) : lenN (firstn k l) = N.min (N.of_nat k) (lenN l).
Proof. unfold lenN. rewrite firstn_length. lia. Qed.
Lemma lenN_skipn {A} k (l : list A) : lenN (skipn k l) = lenN l - N.of_nat k.
Proof. unfold lenN. rewrite skipn_length. lia. Qed.
Lemma raw_write_piece bs d s : fst (next s) <> Some Interrupted -> fst (next s) <> Some Fails -> bs <> [] ->
  exists k, raw_write bs (d, s) = (Did k, (stored d (firstn (N.to_nat k) bs), snd (next s))) /\
   k <= lenN bs /\ (growable d = false -> k <= dev_len d - pos d) /\
   (k = 0 -> growable d = false /\ dev_len d <= pos d) /\
   (s = [] -> k = lenN bs \/ growable d = false /\ k = dev_len d - pos d).
Proof.
  intros NI NF NB. unfold raw_write. destruct (next s) as [a s'] eqn:N. cbn [fst snd] in *.
  assert (0 < lenN bs) by (destruct bs; [congruence|unfold lenN; cbn; lia]).
  assert (NN : s = [] -> a = None) by (intros ->; injection N as <- _; reflexivity).
  exists (if growable d then piece_of a (lenN bs) else N.min (piece_of a (lenN bs)) (dev_len d - pos d)).
  assert (K : (if growable d then piece_of a (lenN bs) else N.min (piece_of a (lenN bs)) (dev_len d - pos d)) <= lenN bs)
    by (destruct (growable d); destruct a as [[m| |]|]; cbn [piece_of]; lia).
  split.
  - unfold stored. rewrite lenN_firstn, N2Nat.id. rewrite (N.min_l _ (lenN bs)) by exact K.
    destruct a as [[m| |]|]; reflexivity || congruence.
  - split; [exact K|].
    destruct a as [[m| |]|]; try congruence; cbn [piece_of]; destruct (growable d); repeat split; intros;
      try congruence; try lia; try (specialize (NN ltac:(assumption)); discriminate).
Qed.
Lemma write_loop_S f bs r : bs <> [] -> write_loop (S f) bs r =
  match raw_write bs r with
  | (Did 0, r) => (Err IoWriteZero, r)
  | (Did k, r) => write_loop f (skipn (N.to_nat k) bs) r
  | (Again, r) => write_loop f bs r
  | (Failed, r) => (Err IoFault, r)
  end.
Proof. destruct bs; [congruence|reflexivity]. Qed.
Lemma write_loop_nil f r : write_loop f [] r = (Ok tt, r).
Proof. destruct f; reflexivity. Qed.
Lemma stored_len d a : pos d + lenN a <= dev_len d -> dev_len (stored d a) = dev_len d.
Proof. intros H. unfold dev_len, stored, set_data in *. cbn [data]. apply store_lenN_in. exact H. Qed.

Lemma write_step bs d s x d' k : 0 < k -> k <= lenN bs -> (growable d = false -> k <= dev_len d - pos d) ->
  write_end (skipn (N.to_nat k) bs) (stored d (firstn (N.to_nat k) bs)) s x d' -> write_end bs d s x d'.
Proof.
  intros K0 K1 K2 H. set (a := firstn (N.to_nat k) bs) in *. set (b := skipn (N.to_nat k) bs) in *.
  assert (AB : a ++ b = bs) by apply firstn_skipn.
  assert (LA : lenN a = k) by (unfold a; rewrite lenN_firstn; lia).
  assert (LB : lenN b = lenN bs - k) by (unfold b; rewrite lenN_skipn; lia).
  assert (G : growable (stored d a) = growable d) by reflexivity.
  assert (P : pos (stored d a) = pos d + k) by (rewrite <- LA; reflexivity).
  assert (D : growable d = false -> dev_len (stored d a) = dev_len d)
    by (intros X; apply stored_len; rewrite LA; specialize (K2 X); lia).
  assert (Z : length a = N.to_nat k) by (unfold lenN in LA; lia).
  inversion H as [L E1 E2|L0 L E1 E2|m L E1 E2]; clear H.
  - rewrite stored_twice, AB. apply write_done. rewrite G, P in L. destruct L as [L|L]; [left; exact L|].
    destruct (growable d) eqn:GD; [left; reflexivity|]. right. rewrite D in L by reflexivity. lia.
  - rewrite stored_twice. rewrite G in L0. rewrite D in * by exact L0. rewrite P in *. specialize (K2 L0).
    replace (a ++ firstn (N.to_nat (dev_len d - (pos d + k))) b) with (firstn (N.to_nat (dev_len d - pos d)) bs).
    { apply write_full; [exact L0|lia]. }
    rewrite <- AB. rewrite firstn_app, Z, (firstn_all2 a) by lia. f_equal. f_equal. lia.
  - rewrite stored_twice.
    replace (a ++ firstn m (fitting (stored d a) b)) with (firstn (N.to_nat k + m) (fitting d bs)).
    { apply (write_fault bs d s (N.to_nat k + m)). exact L. }
    unfold fitting. rewrite G, P. destruct (growable d) eqn:GD.
    + rewrite <- AB at 1. rewrite firstn_app, Z, (firstn_all2 a) by lia. f_equal. f_equal. lia.
    + rewrite D by reflexivity. specialize (K2 eq_refl). rewrite !firstn_firstn. rewrite <- AB at 1.
      rewrite firstn_app, Z, (firstn_all2 a) by lia. f_equal. f_equal. lia.
Qed.
Lemma write_end_more bs d a s x d' : write_end bs d s x d' -> write_end bs d (a :: s) x d'.
Proof.
  intros H. destruct H; [apply write_done; assumption|apply write_full; assumption|apply write_fault].
  unfold no_failure in *. cbn. intuition.
Qed.
Lemma write_full_here bs d s : bs <> [] -> growable d = false -> dev_len d <= pos d ->
  write_end bs d s (Err IoWriteZero) d.
Proof.
  intros NB G H. assert (0 < lenN bs) by (destruct bs; [congruence|unfold lenN; cbn; lia]).
  pose proof (write_full bs d s G ltac:(lia)) as R. replace (dev_len d - pos d) with 0 in R by lia.
  cbn [N.to_nat firstn] in R. rewrite stored_nil in R. exact R.
Qed.
Lemma skipn_nonempty {A} k (l : list A) : (k < length l)%nat -> skipn k l <> [].
Proof. intros H E. apply (f_equal (@length A)) in E. rewrite skipn_length in E. cbn in E. lia. Qed.
Lemma write_loop_end s : forall fuel bs d, (length s + 2 <= fuel)%nat -> bs <> [] ->
  exists x d' s', write_loop fuel bs (d, s) = (x, (d', s')) /\ write_end bs d s x d' /\ (no_failure s -> no_failure s').
Proof.
  induction s as [|a s IH]; intros fuel bs d F NB.
  - destruct fuel as [|[|f]]; [cbn in F; lia|cbn in F; lia|]. rewrite write_loop_S by exact NB.
    destruct (raw_write_piece bs d [] ltac:(discriminate) ltac:(discriminate) NB) as (k & E & K1 & K2 & K0 & KN).
    rewrite E. clear E. cbn [next snd]. specialize (KN eq_refl).
    destruct (N.eq_dec k 0) as [-> |NZ].
    { destruct (K0 eq_refl) as (G & L). cbn [N.to_nat firstn]. rewrite stored_nil. do 3 eexists. split; [reflexivity|].
      split; [apply write_full_here; assumption|auto]. }
    destruct k as [|k']; [congruence|]. set (k := N.pos k') in *.
    destruct (N.eq_dec k (lenN bs)) as [KE|NE].
    + rewrite KE. unfold lenN. rewrite Nat2N.id, skipn_all, firstn_all. cbn [write_loop].
      do 3 eexists. split; [reflexivity|]. split; [|auto]. apply write_done.
      destruct (growable d); [left; reflexivity|right; specialize (K2 eq_refl); lia].
    + destruct KN as [KN|[G KN]]; [contradiction|].
      assert (NB' : skipn (N.to_nat k) bs <> []) by (apply skipn_nonempty; unfold lenN in *; lia).
      rewrite write_loop_S by exact NB'.
      set (d1 := stored d (firstn (N.to_nat k) bs)).
      assert (D1 : dev_len d1 = dev_len d) by (apply stored_len; rewrite lenN_firstn; specialize (K2 G); lia).
      assert (P1 : pos d1 = pos d + k) by (unfold d1, stored; cbn [set_data pos]; rewrite lenN_firstn; lia).
      destruct (raw_write_piece (skipn (N.to_nat k) bs) d1 [] ltac:(discriminate) ltac:(discriminate) NB') as (q & E & Q1 & Q2 & Q0 & _).
      rewrite E. specialize (Q2 G). assert (q = 0) by lia. subst q. cbn [next snd N.to_nat firstn]. rewrite stored_nil.
      do 3 eexists. split; [reflexivity|]. split; [|auto].
      apply (write_step bs d [] _ _ k ltac:(lia) K1 K2). fold d1. apply write_full_here; [exact NB'|exact G|lia].
  - destruct fuel as [|f]; [cbn in F; lia|]. rewrite write_loop_S by exact NB. cbn [length] in F.
    assert (Ff : (length s + 2 <= f)%nat) by lia.
    destruct a as [m| |].
    + destruct (raw_write_piece bs d (Piece m :: s) ltac:(discriminate) ltac:(discriminate) NB) as (k & E & K1 & K2 & K0 & _).
      rewrite E. clear E. cbn [next snd]. destruct (N.eq_dec k 0) as [-> |NZ].
      { destruct (K0 eq_refl) as (G & L). cbn [N.to_nat firstn]. rewrite stored_nil. do 3 eexists. split; [reflexivity|].
        split; [apply write_full_here; assumption|intros N; apply no_failure_cons in N; tauto]. }
      destruct k as [|k']; [congruence|]. set (k := N.pos k') in *.
      destruct (N.eq_dec k (lenN bs)) as [KE|NE].
      * rewrite KE. unfold lenN. rewrite Nat2N.id, skipn_all, firstn_all, write_loop_nil.
        do 3 eexists. split; [reflexivity|]. split; [|intros N; apply no_failure_cons in N; tauto]. apply write_done.
        destruct (growable d); [left; reflexivity|right; specialize (K2 eq_refl); lia].
      * assert (NB' : skipn (N.to_nat k) bs <> []) by (apply skipn_nonempty; unfold lenN in *; lia).
        destruct (IH f (skipn (N.to_nat k) bs) (stored d (firstn (N.to_nat k) bs)) Ff NB') as (x & d' & s' & E & R & N).
        rewrite E. do 3 eexists. split; [reflexivity|]. split; [|intros NF; apply no_failure_cons in NF; tauto].
        apply write_end_more. apply (write_step bs d s x d' k ltac:(lia) K1 K2 R).
    + cbn [raw_write next]. destruct (IH f bs d Ff NB) as (x & d' & s' & E & R & N). rewrite E. do 3 eexists.
      split; [reflexivity|]. split; [apply write_end_more, R|intros NF; apply no_failure_cons in NF; tauto].
    + cbn [raw_write next]. do 3 eexists. split; [reflexivity|].
      split; [|intros NF; apply no_failure_cons in NF; tauto].
      pose proof (write_fault bs d (Fails :: s) 0) as R. cbn [firstn] in R. rewrite stored_nil in R.
      apply R. unfold no_failure. cbn. tauto.
Qed.

(** One call by the loops is one call as a step, with at most one element of a fault schedule. *)
Lemma io_step {R} (o : io R) d s x d' s' : eof_moves d = true -> do_raw o (d, s) = (x, (d', s')) ->
  exists f, (forall fs, do_io o (with_faults (f ++ fs) d) = (x, with_faults fs d')) /\
    (no_failure s -> do_io o (repaired d) = (x, repaired d') /\ no_failure s') /\ eof_moves d' = true.
Proof.
  intros EM H.
  assert (C : forall A (g : dev -> A * dev) (m : M dev io_err A) x d' s',
    (forall e, eof_moves e = true -> eof_moves (snd (g e)) = true) ->
    (forall fs, m (with_faults fs d) = match tick (with_faults fs d) with
       | (Some _, e) => (Err IoFault, e) | (None, e) => (Ok (fst (g e)), snd (g e)) end) ->
    (forall fs, g (with_faults fs d) = (fst (g d), with_faults fs (snd (g d)))) ->
    raw_call g (d, s) = (x, (d', s')) ->
    exists f, (forall fs, m (with_faults (f ++ fs) d) = (x, with_faults fs d')) /\
      (no_failure s -> m (repaired d) = (x, repaired d') /\ no_failure s') /\ eof_moves d' = true).
  { clear H x d' s'. intros A g m x d' s' GE Hm Hg H. unfold raw_call in H. destruct (next s) as [a s1] eqn:N.
    assert (NS : no_failure s -> a <> Some Fails /\ no_failure s1).
    { intros X. destruct s as [|a0 s0]; injection N as <- <-; [split; [congruence|exact X]|].
      apply no_failure_cons in X. split; [intuition congruence|tauto]. }
    assert (T : forall fs, tick (with_faults (None :: fs) d) = (None, with_faults fs d)) by reflexivity.
    assert (T0 : tick (repaired d) = (None, repaired d)) by reflexivity.
    destruct a as [[m0| |]|].
    1, 2, 4: (destruct (g d) as [a0 d0] eqn:G; injection H as <- <- <-; exists [None]; split; [|split]).
    1, 4, 7: (intros fs; cbn [app]; rewrite Hm, T, Hg; cbn [fst snd]; reflexivity).
    1, 3, 5: (intros X; destruct (NS X) as (_ & X1); split; [|exact X1]; unfold repaired; rewrite Hm; fold (repaired d);
      rewrite T0; unfold repaired; rewrite Hg; reflexivity).
    1, 2, 3: (specialize (GE d EM); rewrite G in GE; exact GE).
    injection H as <- <- <-. exists [Some 0%nat]. split; [|split; [|exact EM]].
    - intros fs. cbn [app]. rewrite Hm. reflexivity.
    - intros X. destruct (NS X) as (X0 & _). congruence. }
  destruct o; cbn [do_raw do_io] in *.
  - apply (C N (fun d => (n, set_pos d n))); auto.
  - apply (C N (fun d => (dev_len d, set_pos d (dev_len d)))); auto.
  - apply (C N (fun d => (pos d, d))); auto.
  - cbn [snd] in H. destruct (N.eq_dec n 0) as [-> |NZ].
    { rewrite read_loop_zero in H. injection H as <- <- <-. exists []. repeat split; auto. }
    assert (Z : (n =? 0) = false) by (apply N.eqb_neq; exact NZ).
    destruct (read_loop_end s (length s + 2) n [] d (Nat.le_refl _) ltac:(lia)) as (x0 & d0 & s0 & E & RE & NF).
    rewrite E in H. injection H as <- <- <-. unfold read_exact. rewrite Z. destruct RE as [L|L|m L].
    + assert (G : (pos d + n <=? dev_len d) = true) by (apply N.leb_le; exact L). unfold dev_len in G.
      exists [None]. split; [intros fs|split; [intros X; split; [|exact (NF X)]|exact EM]];
        unfold dev_len; cbn [app tick with_faults repaired faults data pos growable eof_moves durable set_pos];
        rewrite G; reflexivity.
    + assert (G : (pos d + n <=? dev_len d) = false) by (apply N.leb_gt; exact L). unfold dev_len in *.
      exists [None]. split; [intros fs|split; [intros X; split; [|exact (NF X)]|]].
      3: destruct (pos d <=? _); exact EM.
      all: destruct d as [dl dp dg de df dd]; cbn [eof_moves data pos] in *; subst de;
        cbn [app tick with_faults repaired faults data pos growable eof_moves durable set_pos andb];
        rewrite G; destruct (dp <=? lenN dl); reflexivity.
    + exists [Some m]. split; [intros fs; reflexivity|]. split; [intros X; contradiction|exact EM].
  - cbn [snd] in H. destruct bs as [|b0 bs0].
    { rewrite write_loop_nil in H. injection H as <- <- <-. exists []. repeat split; auto. }
    assert (NB : b0 :: bs0 <> []) by discriminate. set (bs := b0 :: bs0) in *.
    destruct (write_loop_end s (length s + 2) bs d (Nat.le_refl _) NB) as (x0 & d0 & s0 & E & RE & NF).
    rewrite E in H. injection H as <- <- <-. unfold write_all. unfold bs at 1. fold bs.
    destruct RE as [L|L0 L|m L].
    + assert (G : (growable d || (pos d + lenN bs <=? dev_len d))%bool = true).
      { apply orb_true_iff. destruct L as [L|L]; [left; exact L|right; apply N.leb_le; exact L]. } unfold dev_len in G.
      exists [None]. split; [intros fs|split; [intros X; split; [|exact (NF X)]|exact EM]];
        unfold dev_len; cbn [app tick with_faults repaired faults data pos growable eof_moves durable set_data];
        rewrite G; reflexivity.
    + assert (G : (growable d || (pos d + lenN bs <=? dev_len d))%bool = false).
      { apply orb_false_iff. split; [exact L0|apply N.leb_gt; exact L]. } unfold dev_len in *.
      exists [None]. split; [intros fs|split; [intros X; split; [|exact (NF X)]|exact EM]];
        cbn [app tick with_faults repaired faults data pos growable eof_moves durable set_data];
        rewrite G; reflexivity.
    + exists [Some m]. split; [intros fs; reflexivity|]. split; [intros X; contradiction|exact EM].
  - apply (C unit (fun d => (tt, d))); auto.
  - apply (C unit (fun d => (tt, mkDev (data d) (pos d) (growable d) (eof_moves d) (faults d) (data d)))); auto.
Qed.
(** Whole programs. *)
Lemma prog_steps {A} (p : prog A) : forall d s x d' s', eof_moves d = true -> run_loops p (d, s) = (x, (d', s')) ->
  exists f, (forall fs, run_steps p (with_faults (f ++ fs) d) = (x, with_faults fs d')) /\
    (no_failure s -> run_steps p (repaired d) = (x, repaired d')) /\ eof_moves d' = true.
Proof.
  induction p as [a|R o k IH]; intros d s x d' s' EM H; cbn [run_loops run_steps] in *.
  - injection H as <- <- <-. exists []. repeat split; auto.
  - destruct (do_raw o (d, s)) as [r [d1 s1]] eqn:E. destruct (io_step o d s r d1 s1 EM E) as (f & F & Q & EM1).
    destruct (IH r d1 s1 x d' s' EM1 H) as (f1 & F1 & Q1 & EM2). exists (f ++ f1). split; [|split; [|exact EM2]].
    + intros fs. rewrite <- app_assoc, F. apply F1.
    + intros X. destruct (Q X) as (Q2 & X1). rewrite Q2. apply Q1, X1.
Qed.
(** The fault schedule is not touched by the loops. *)
Lemma io_faults {R} (o : io R) d s x d' s' : do_raw o (d, s) = (x, (d', s')) -> faults d' = faults d.
Proof.
  assert (C : forall A (g : dev -> A * dev) x d' s', (forall e, faults (snd (g e)) = faults e) ->
    raw_call g (d, s) = (x, (d', s')) -> faults d' = faults d).
  { clear x d' s'. intros A g x d' s' G H. unfold raw_call in H. specialize (G d).
    destruct (next s) as [[[m| |]|] s1]; try (destruct (g d) as [a0 d0]; injection H as <- <- <-; exact G).
    injection H as <- <- <-. reflexivity. }
  destruct o; cbn [do_raw snd]; intros H; try (eapply C; [|exact H]; reflexivity).
  - destruct (N.eq_dec n 0) as [-> |NZ]; [rewrite read_loop_zero in H; injection H as <- <- <-; reflexivity|].
    destruct (read_loop_end s (length s + 2) n [] d (Nat.le_refl _) ltac:(lia)) as (x0 & d0 & s0 & E & RE & _).
    rewrite E in H. injection H as <- <- <-. destruct RE; try reflexivity. destruct (_ <=? _); reflexivity.
  - destruct bs as [|b0 bs0]; [rewrite write_loop_nil in H; injection H as <- <- <-; reflexivity|].
    destruct (write_loop_end s (length s + 2) (b0 :: bs0) d (Nat.le_refl _) ltac:(discriminate)) as (x0 & d0 & s0 & E & RE & _).
    rewrite E in H. injection H as <- <- <-. destruct RE; reflexivity.
Qed.
Lemma prog_faults {A} (p : prog A) : forall d s x d' s', run_loops p (d, s) = (x, (d', s')) -> faults d' = faults d.
Proof.
  induction p as [a|R o k IH]; intros d s x d' s' H; cbn [run_loops] in H; [injection H as <- <- <-; reflexivity|].
  destruct (do_raw o (d, s)) as [r [d1 s1]] eqn:E. rewrite (IH _ _ _ _ _ _ H). eapply io_faults, E.
Qed.
Lemma repaired_same d : faults d = [] -> repaired d = d.
Proof. destruct d; cbn. intros ->. reflexivity. Qed.
Lemma prog_calm {A} (p : prog A) d s x d' s' : eof_moves d = true -> no_failure s -> faults d = [] ->
  run_loops p (d, s) = (x, (d', s')) -> run_steps p d = (x, d').
Proof.
  intros EM NF F H. destruct (prog_steps p d s x d' s' EM H) as (_ & _ & Q & _). specialize (Q NF).
  rewrite !repaired_same in Q by (try (rewrite (prog_faults _ _ _ _ _ _ H)); exact F). exact Q.
Qed.
