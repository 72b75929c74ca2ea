(** DeviceFacts.v - lemmas about byte arrays ([store], [slice]) and device operations. *)
From Verif Require Export BaseFacts Device Lb.
Open Scope N_scope.

(** The byte at an offset, if the array is that long. *)
Definition byte_at (l : list byte) (i : N) : option byte := nth_error l (N.to_nat i).

Lemma byte_at_ext l1 l2 : (forall i, byte_at l1 i = byte_at l2 i) -> l1 = l2.
Proof.
  intros H; apply nth_error_ext; intros i. specialize (H (N.of_nat i)).
  unfold byte_at in H. rewrite Nat2N.id in H. auto.
Qed.

Lemma byte_at_ge l i : lenN l <= i -> byte_at l i = None.
Proof. intros; unfold byte_at; apply nth_error_None. unfold lenN in *. lia. Qed.

Lemma byte_at_lt l i : i < lenN l -> exists b, byte_at l i = Some b.
Proof.
  intros H; unfold byte_at. destruct (nth_error l (N.to_nat i)) eqn:E; eauto.
  apply nth_error_None in E. unfold lenN in *; lia.
Qed.

Lemma byte_at_app l1 l2 i :
  byte_at (l1 ++ l2) i = if i <? lenN l1 then byte_at l1 i else byte_at l2 (i - lenN l1).
Proof.
  unfold byte_at; rewrite nth_error_app; unfold lenN.
  destruct (Nat.ltb_spec (N.to_nat i) (length l1)), (N.ltb_spec i (N.of_nat (length l1)));
    auto; try lia. f_equal; lia.
Qed.

Lemma byte_at_slice off n l i :
  byte_at (slice off n l) i = if i <? n then byte_at l (off + i) else None.
Proof.
  unfold byte_at, slice. rewrite nth_error_firstn, nth_error_skipn.
  destruct (Nat.ltb_spec (N.to_nat i) (N.to_nat n)), (N.ltb_spec i n); auto; try lia.
  f_equal; lia.
Qed.

Lemma byte_at_zeros n i : byte_at (zeros n) i = if i <? N.of_nat n then Some x00 else None.
Proof.
  unfold byte_at, zeros. rewrite nth_error_repeat_if.
  destruct (Nat.ltb_spec (N.to_nat i) n), (N.ltb_spec i (N.of_nat n)); auto; lia.
Qed.

Lemma slice_length off n l : off + n <= lenN l -> lenN (slice off n l) = n.
Proof.
  intros H. unfold slice, lenN in *. rewrite firstn_length, skipn_length. lia.
Qed.
Lemma slice_length_nat off n l : off + n <= lenN l -> length (slice off n l) = N.to_nat n.
Proof. intros H; apply slice_length in H. unfold lenN in H. lia. Qed.
Lemma slice_0 off l : slice off 0 l = [].
Proof. reflexivity. Qed.
Lemma slice_all l : slice 0 (lenN l) l = l.
Proof. unfold slice, lenN. rewrite Nat2N.id. simpl. apply firstn_all. Qed.

Lemma slice_slice a n b m l : b + m <= n -> slice b m (slice a n l) = slice (a + b) m l.
Proof.
  intros H; apply byte_at_ext; intros i. rewrite !byte_at_slice.
  destruct (N.ltb_spec i m); auto.
  destruct (N.ltb_spec (b + i) n); [|lia]. f_equal; lia.
Qed.

Lemma slice_lenN off n l : lenN (slice off n l) = N.min n (lenN l - off).
Proof. unfold slice, lenN. rewrite firstn_length, skipn_length. lia. Qed.

Lemma slice_app_split off n m l : slice off (n + m) l = slice off n l ++ slice (off + n) m l.
Proof.
  apply byte_at_ext; intros i. rewrite byte_at_app, !byte_at_slice, slice_lenN.
  destruct (N.ltb_spec i (N.min n (lenN l - off))), (N.ltb_spec i (n + m)), (N.ltb_spec i n);
    try lia; auto.
  - rewrite (byte_at_ge l (off + i)) by lia.
    destruct (N.ltb_spec (i - N.min n (lenN l - off)) m); auto.
    rewrite byte_at_ge by lia. auto.
  - destruct (N.leb_spec (lenN l) (off + i)).
    + rewrite (byte_at_ge l (off + i)) by lia.
      destruct (N.ltb_spec (i - N.min n (lenN l - off)) m); auto.
      rewrite byte_at_ge by lia; auto.
    + destruct (N.ltb_spec (i - N.min n (lenN l - off)) m); [|lia]. f_equal; lia.
  - destruct (N.ltb_spec (i - N.min n (lenN l - off)) m); auto.
    rewrite byte_at_ge by lia; auto.
Qed.

(** [store] *)
Lemma store_nil off l : store off [] l = l.
Proof. reflexivity. Qed.

Lemma store_eq off bs l : bs <> [] ->
  store off bs l =
  (let l' := l ++ zeros (N.to_nat off - length l) in
   firstn (N.to_nat off) l' ++ bs ++ skipn (N.to_nat off + length bs) l').
Proof. destruct bs; [congruence|reflexivity]. Qed.

Lemma byte_at_store off bs l i :
  bs <> [] ->
  byte_at (store off bs l) i =
  if (off <=? i) && (i <? off + lenN bs) then byte_at bs (i - off)
  else if i <? lenN l then byte_at l i
  else if i <? off then Some x00 else None.
Proof.
  intros Hne. rewrite store_eq by auto. cbv zeta.
  set (l' := l ++ zeros (N.to_nat off - length l)).
  assert (HL : lenN l' = N.max (lenN l) off).
  { unfold l'. rewrite lenN_app, lenN_zeros. unfold lenN. lia. }
  assert (Hl' : forall j, byte_at l' j = if j <? lenN l then byte_at l j
                 else if j <? off then Some x00 else None).
  { intros j; unfold l'. rewrite byte_at_app. destruct (N.ltb_spec j (lenN l)); auto.
    rewrite byte_at_zeros. unfold lenN in *.
    destruct (N.ltb_spec (j - N.of_nat (length l)) (N.of_nat (N.to_nat off - length l))),
      (N.ltb_spec j off); auto; lia. }
  assert (HF : lenN (firstn (N.to_nat off) l') = off).
  { unfold lenN in *. rewrite firstn_length. lia. }
  rewrite byte_at_app, HF. destruct (N.ltb_spec i off).
  - destruct (N.leb_spec off i); [lia|]. simpl.
    unfold byte_at at 1. rewrite nth_error_firstn.
    destruct (Nat.ltb_spec (N.to_nat i) (N.to_nat off)); [|lia].
    specialize (Hl' i). unfold byte_at in Hl' at 1. rewrite Hl'.
    destruct (N.ltb_spec i (lenN l)); auto. destruct (N.ltb_spec i off); auto; lia.
  - destruct (N.leb_spec off i); [|lia]. simpl.
    rewrite byte_at_app. destruct (N.ltb_spec (i - off) (lenN bs)), (N.ltb_spec i (off + lenN bs)); try lia; auto.
    unfold byte_at at 1. rewrite nth_error_skipn.
    specialize (Hl' i). unfold byte_at in Hl' at 1.
    replace (N.to_nat off + length bs + N.to_nat (i - off - lenN bs))%nat with (N.to_nat i)
      by (unfold lenN in *; lia).
    rewrite Hl'. destruct (N.ltb_spec i (lenN l)); auto.
    destruct (N.ltb_spec i off); auto; lia.
Qed.

Lemma byte_at_store_in off bs l i :
  off + lenN bs <= lenN l ->
  byte_at (store off bs l) i =
  if (off <=? i) && (i <? off + lenN bs) then byte_at bs (i - off) else byte_at l i.
Proof.
  intros H. destruct bs as [|b bs].
  - rewrite store_nil, lenN_nil. destruct (N.leb_spec off i), (N.ltb_spec i (off + 0)); simpl; auto; lia.
  - rewrite byte_at_store by discriminate.
    destruct ((off <=? i) && (i <? off + lenN (b :: bs))) eqn:E; auto.
    destruct (N.ltb_spec i (lenN l)); auto. rewrite byte_at_ge by lia.
    destruct (N.ltb_spec i off); auto. lia.
Qed.

Lemma store_lenN off bs l : bs <> [] -> lenN (store off bs l) = N.max (lenN l) (off + lenN bs).
Proof.
  intros H. rewrite store_eq by auto. cbv zeta.
  unfold lenN. rewrite !app_length, firstn_length, skipn_length, !app_length, zeros_length. lia.
Qed.
Lemma store_lenN_in off bs l : off + lenN bs <= lenN l -> lenN (store off bs l) = lenN l.
Proof.
  destruct bs as [|b bs]; auto. intros H; rewrite store_lenN by discriminate. lia.
Qed.
Lemma store_lenN_ge off bs l : lenN l <= lenN (store off bs l).
Proof. destruct bs as [|b bs]; [simpl; lia|]. rewrite store_lenN by discriminate. lia. Qed.

Lemma byte_at_store_out off bs l i :
  i < off \/ off + lenN bs <= i -> i < lenN l -> byte_at (store off bs l) i = byte_at l i.
Proof.
  intros H H'. destruct bs as [|b bs]; auto.
  rewrite byte_at_store by discriminate.
  destruct (N.leb_spec off i), (N.ltb_spec i (off + lenN (b :: bs))); simpl; try lia;
    destruct (N.ltb_spec i (lenN l)); auto; lia.
Qed.

Lemma slice_store_same off bs l n : n = lenN bs -> slice off n (store off bs l) = bs.
Proof.
  intros ->. apply byte_at_ext; intros i. rewrite byte_at_slice.
  destruct bs as [|b bs].
  - rewrite lenN_nil, (byte_at_ge []) by (rewrite lenN_nil; lia).
    destruct (N.ltb_spec i 0); auto; lia.
  - rewrite byte_at_store by discriminate.
    destruct (N.ltb_spec i (lenN (b :: bs))).
    + destruct (N.leb_spec off (off + i)), (N.ltb_spec (off + i) (off + lenN (b :: bs))); simpl; try lia.
      f_equal; lia.
    + symmetry; apply byte_at_ge; auto.
Qed.

Lemma slice_store_other off bs l a n :
  a + n <= off \/ off + lenN bs <= a -> a + n <= lenN l ->
  slice a n (store off bs l) = slice a n l.
Proof.
  intros H H'. apply byte_at_ext; intros i. rewrite !byte_at_slice.
  destruct (N.ltb_spec i n); auto. apply byte_at_store_out; lia.
Qed.

Lemma slice_store_inner off bs l a n :
  off <= a -> a + n <= off + lenN bs -> slice a n (store off bs l) = slice (a - off) n bs.
Proof.
  intros H H'. apply byte_at_ext; intros i. rewrite !byte_at_slice.
  destruct (N.ltb_spec i n); auto.
  destruct bs as [|b bs]. { rewrite lenN_nil in *. lia. }
  rewrite byte_at_store by discriminate.
  destruct (N.leb_spec off (a + i)), (N.ltb_spec (a + i) (off + lenN (b :: bs))); simpl; try lia.
  f_equal; lia.
Qed.

Lemma store_adjacent off a b l p :
  p = off + lenN a -> off + lenN a + lenN b <= lenN l ->
  store p b (store off a l) = store off (a ++ b) l.
Proof.
  intros -> H. apply byte_at_ext; intros i.
  rewrite byte_at_store_in by (rewrite store_lenN_in; lia).
  rewrite !byte_at_store_in by (rewrite ?lenN_app; lia).
  rewrite lenN_app, byte_at_app.
  destruct (N.leb_spec (off + lenN a) i), (N.ltb_spec i (off + lenN a + lenN b)),
    (N.leb_spec off i), (N.ltb_spec i (off + lenN a)), (N.ltb_spec i (off + (lenN a + lenN b))),
    (N.ltb_spec (i - off) (lenN a)); simpl; auto; try lia.
  f_equal; lia.
Qed.

Lemma store_comm o1 b1 o2 b2 l :
  o1 + lenN b1 <= o2 \/ o2 + lenN b2 <= o1 ->
  o1 + lenN b1 <= lenN l -> o2 + lenN b2 <= lenN l ->
  store o1 b1 (store o2 b2 l) = store o2 b2 (store o1 b1 l).
Proof.
  intros H H1 H2. apply byte_at_ext; intros i.
  rewrite !byte_at_store_in by (rewrite ?store_lenN_in; lia).
  destruct (N.leb_spec o1 i), (N.ltb_spec i (o1 + lenN b1)), (N.leb_spec o2 i),
    (N.ltb_spec i (o2 + lenN b2)); simpl; auto; lia.
Qed.

Lemma store_over off a b l :
  lenN a = lenN b -> off + lenN a <= lenN l -> store off b (store off a l) = store off b l.
Proof.
  intros H H1. apply byte_at_ext; intros i.
  rewrite !byte_at_store_in by (rewrite ?store_lenN_in; lia). rewrite H.
  destruct ((off <=? i) && (i <? off + lenN b)); auto.
Qed.

Lemma store_same off bs l :
  off + lenN bs <= lenN l -> slice off (lenN bs) l = bs -> store off bs l = l.
Proof.
  intros H E. apply byte_at_ext; intros i. rewrite byte_at_store_in by auto.
  destruct (N.leb_spec off i), (N.ltb_spec i (off + lenN bs)); simpl; auto.
  rewrite <- E at 1. rewrite byte_at_slice. destruct (N.ltb_spec (i - off) (lenN bs)); [|lia].
  f_equal; lia.
Qed.

(** Equality of arrays of the same length on a range is equality of slices. *)
Lemma slice_eq_byte_at off n l1 l2 :
  (forall i, off <= i < off + n -> byte_at l1 i = byte_at l2 i) ->
  slice off n l1 = slice off n l2.
Proof.
  intros H; apply byte_at_ext; intros i. rewrite !byte_at_slice.
  destruct (N.ltb_spec i n); auto. apply H; lia.
Qed.
Lemma byte_at_eq_slice off n l1 l2 i :
  slice off n l1 = slice off n l2 -> off <= i < off + n -> byte_at l1 i = byte_at l2 i.
Proof.
  intros H Hi. assert (E : byte_at (slice off n l1) (i - off) = byte_at (slice off n l2) (i - off))
    by (rewrite H; auto).
  rewrite !byte_at_slice in E. destruct (N.ltb_spec (i - off) n); [|lia].
  replace (off + (i - off)) with i in E by lia. auto.
Qed.

(** Fault-free devices. *)
Definition healthy (d : dev) : Prop := faults d = [].

Lemma tick_healthy d : healthy d -> tick d = (None, d).
Proof. unfold healthy, tick; intros ->; auto. Qed.

Lemma seek_start_ok n d : healthy d -> seek_start n d = (Ok n, set_pos d n).
Proof. intros H; unfold seek_start; rewrite tick_healthy; auto. Qed.
Lemma seek_end_ok d : healthy d -> seek_end d = (Ok (dev_len d), set_pos d (dev_len d)).
Proof. intros H; unfold seek_end; rewrite tick_healthy; auto. Qed.
Lemma stream_position_ok d : healthy d -> stream_position d = (Ok (pos d), d).
Proof. intros H; unfold stream_position; rewrite tick_healthy; auto. Qed.
Lemma flush_ok d : healthy d -> flush d = (Ok tt, d).
Proof. intros H; unfold flush; rewrite tick_healthy; auto. Qed.

Lemma read_exact_ok n d : healthy d -> pos d + n <= dev_len d ->
  read_exact n d = (Ok (slice (pos d) n (data d)), set_pos d (pos d + n)).
Proof.
  intros H Hn; unfold read_exact. destruct (N.eqb_spec n 0).
  - subst. rewrite slice_0, N.add_0_r. unfold set_pos. destruct d; auto.
  - rewrite tick_healthy by auto. destruct (N.leb_spec (pos d + n) (dev_len d)); auto; lia.
Qed.
Lemma read_exact_eof n d : healthy d -> 0 < n -> dev_len d < pos d + n ->
  exists p, read_exact n d = (Err IoUnexpectedEof, set_pos d p).
Proof.
  intros H Hn Hl; unfold read_exact. destruct (N.eqb_spec n 0); [lia|].
  rewrite tick_healthy by auto. destruct (N.leb_spec (pos d + n) (dev_len d)); [lia|].
  destruct (eof_moves d && (pos d <=? dev_len d)); eauto.
  exists (pos d). unfold set_pos. destruct d; auto.
Qed.

Lemma write_all_ok bs d : healthy d -> pos d + lenN bs <= dev_len d ->
  write_all bs d = (Ok tt, set_data d (store (pos d) bs (data d)) (pos d + lenN bs)).
Proof.
  intros H Hn; unfold write_all. destruct bs as [|b bs].
  - rewrite store_nil, lenN_nil, N.add_0_r. unfold set_data. destruct d; auto.
  - rewrite tick_healthy by auto.
    destruct (N.leb_spec (pos d + lenN (b :: bs)) (dev_len d)); [|lia].
    rewrite orb_true_r. auto.
Qed.

Lemma healthy_set_pos d p : healthy d -> healthy (set_pos d p).
Proof. auto. Qed.
Lemma healthy_set_data d l p : healthy d -> healthy (set_data d l p).
Proof. auto. Qed.

Lemma lb_pos lb : 512 <= lb_u64 lb <= 4096.
Proof. destruct lb; simpl; lia. Qed.
