(** Frame.v - compositional reasoning about what device code can do to the bytes, for every
    fault schedule. *)
From Verif Require Export DeviceFacts.
Open Scope N_scope.

(** Everything but the position and the remaining fault schedule is as before. *)
Definition same_media (d d' : dev) : Prop :=
  data d' = data d /\ durable d' = durable d /\ growable d' = growable d /\ eof_moves d' = eof_moves d.
Definition untouched {E A} (m : M dev E A) : Prop := forall d, same_media d (snd (m d)).

Lemma same_media_refl d : same_media d d.
Proof. repeat split. Qed.
Lemma same_media_trans a b c : same_media a b -> same_media b c -> same_media a c.
Proof. unfold same_media; intuition congruence. Qed.

Lemma untouched_bind {E A B} (m : M dev E A) (k : A -> M dev E B) :
  untouched m -> (forall a, untouched (k a)) -> untouched (bind m k).
Proof.
  intros Hm Hk d. unfold bind. specialize (Hm d). destruct (m d) as [[a|e|] d']; simpl in *; auto.
  eapply same_media_trans; [exact Hm | apply Hk].
Qed.
Lemma untouched_ret {E A} (a : A) : untouched (@ret dev E A a).
Proof. intros d; apply same_media_refl. Qed.
Lemma untouched_throw {E A} (e : E) : untouched (@throw dev E A e).
Proof. intros d; apply same_media_refl. Qed.
Lemma untouched_panic {E A} : untouched (@panic dev E A).
Proof. intros d; apply same_media_refl. Qed.
Lemma untouched_lift {E A} (o : outcome E A) : untouched (@lift dev E A o).
Proof. intros d; apply same_media_refl. Qed.
Lemma untouched_map_err {E F A} (f : E -> F) (m : M dev E A) : untouched m -> untouched (map_err f m).
Proof. intros H d. specialize (H d). unfold map_err. destruct (m d) as [[a|e|] d']; auto. Qed.
Lemma untouched_attempt {E F A} (m : M dev E A) : untouched m -> untouched (@attempt dev E F A m).
Proof. intros H d. specialize (H d). unfold attempt. destruct (m d) as [[a|e|] d']; auto. Qed.
Lemma tick_same_media d : same_media d (snd (tick d)).
Proof. unfold tick; destruct (faults d); repeat split. Qed.
Lemma untouched_seek_start n : untouched (seek_start n).
Proof.
  intros d; unfold seek_start. pose proof (tick_same_media d).
  destruct (tick d) as [[m|] d']; simpl in *; auto.
Qed.
Lemma untouched_seek_end : untouched seek_end.
Proof.
  intros d; unfold seek_end. pose proof (tick_same_media d).
  destruct (tick d) as [[m|] d']; simpl in *; auto.
Qed.
Lemma untouched_stream_position : untouched stream_position.
Proof.
  intros d; unfold stream_position. pose proof (tick_same_media d).
  destruct (tick d) as [[m|] d']; simpl in *; auto.
Qed.
Lemma untouched_flush : untouched flush.
Proof.
  intros d; unfold flush. pose proof (tick_same_media d).
  destruct (tick d) as [[m|] d']; simpl in *; auto.
Qed.
Lemma untouched_read_exact n : untouched (read_exact n).
Proof.
  intros d; unfold read_exact. destruct (n =? 0); [apply same_media_refl|].
  pose proof (tick_same_media d).
  destruct (tick d) as [[m|] d']; simpl in *; auto.
  destruct (pos d' + n <=? dev_len d'); simpl; auto.
  destruct (eof_moves d' && (pos d' <=? dev_len d')); simpl; auto.
Qed.

Create HintDb untouched.
Global Hint Resolve untouched_ret untouched_throw untouched_panic untouched_lift untouched_map_err
  untouched_attempt untouched_seek_start untouched_seek_end untouched_stream_position
  untouched_flush untouched_read_exact : untouched.
Global Hint Extern 2 (untouched (bind _ _)) => apply untouched_bind; [|intros] : untouched.
Global Hint Extern 3 (untouched (if ?b then _ else _)) => destruct b : untouched.

(** [keeps I m]: the predicate [I] on the device contents survives [m], however it ends. *)
Definition keeps {E A} (I : list byte -> Prop) (m : M dev E A) : Prop :=
  forall d, I (data d) -> I (data (snd (m d))).

Lemma untouched_keeps {E A} I (m : M dev E A) : untouched m -> keeps I m.
Proof. intros H d Hd. destruct (H d) as [-> _]. auto. Qed.
Lemma keeps_bind {E A B} I (m : M dev E A) (k : A -> M dev E B) :
  keeps I m -> (forall a, keeps I (k a)) -> keeps I (bind m k).
Proof.
  intros Hm Hk d Hd. unfold bind. specialize (Hm d Hd).
  destruct (m d) as [[a|e|] d']; simpl in *; auto. apply Hk; auto.
Qed.
Lemma keeps_map_err {E F A} I (f : E -> F) (m : M dev E A) : keeps I m -> keeps I (map_err f m).
Proof. intros H d Hd. specialize (H d Hd). unfold map_err. destruct (m d) as [[a|e|] d']; auto. Qed.

(** A seek followed by a write, under any faults, stores some prefix at the target - or nothing. *)
Lemma write_all_prefix bs d :
  exists k, data (snd (write_all bs d)) = store (pos d) (firstn k bs) (data d)
    /\ durable (snd (write_all bs d)) = durable d.
Proof.
  unfold write_all. destruct bs as [|b bs]; [exists O; auto|].
  set (w := b :: bs). unfold tick.
  destruct (faults d) as [|[m|] r] eqn:EF; simpl.
  - destruct (growable d || (pos d + lenN w <=? dev_len d)).
    + exists (length w). rewrite firstn_all. auto.
    + eexists; simpl; split; reflexivity.
  - destruct (growable d).
    + exists m. auto.
    + rewrite firstn_firstn. eexists; split; reflexivity.
  - change (dev_len {| data := data d; pos := pos d; growable := growable d;
                      eof_moves := eof_moves d; faults := r; durable := durable d |}) with (dev_len d).
    destruct (growable d || (pos d + lenN w <=? dev_len d)).
    + exists (length w). rewrite firstn_all. auto.
    + eexists; simpl; split; reflexivity.
Qed.

Lemma seek_write_prefix n bs d :
  exists j, data (snd ((seek_start n ;; write_all bs) d)) = store n (firstn j bs) (data d)
    /\ durable (snd ((seek_start n ;; write_all bs) d)) = durable d.
Proof.
  unfold bind. unfold seek_start. pose proof (tick_same_media d) as (H1 & H2 & _).
  destruct (tick d) as [[m|] d'] eqn:E; simpl in *.
  - exists O. simpl. rewrite H1, H2; auto.
  - destruct (write_all_prefix bs (set_pos d' n)) as (j & Hj & Hd).
    exists j. rewrite Hj, Hd. simpl. rewrite H1, H2; auto.
Qed.

Lemma keeps_seek_write (I : list byte -> Prop) n bs :
  (forall l k, I l -> I (store n (firstn k bs) l)) ->
  keeps I (seek_start n ;; write_all bs).
Proof.
  intros H d Hd. destruct (seek_write_prefix n bs d) as (j & -> & _). auto.
Qed.
Lemma keeps_ret {E A} I (a : A) : keeps I (@ret dev E A a).
Proof. apply untouched_keeps, untouched_ret. Qed.

(** The contents keep length [L] and every byte outside [off, off+n). *)
Definition only_in (l0 : list byte) (R : N -> Prop) (l : list byte) : Prop :=
  lenN l = lenN l0 /\ forall i, ~ R i -> byte_at l i = byte_at l0 i.

Lemma lenN_firstn_le {A} k (bs : list A) : lenN (firstn k bs) <= lenN bs.
Proof. unfold lenN. rewrite firstn_length. lia. Qed.

Lemma only_in_store l0 (R : N -> Prop) off (bs : list byte) l k :
  (forall i, off <= i < off + lenN bs -> R i) -> off + lenN bs <= lenN l0 ->
  only_in l0 R l -> only_in l0 R (store off (firstn k bs) l).
Proof.
  intros HR HL [H1 H2]. pose proof (lenN_firstn_le k bs). split.
  - rewrite store_lenN_in; lia.
  - intros i Hi. rewrite byte_at_store_in by lia.
    destruct (N.leb_spec off i), (N.ltb_spec i (off + lenN (firstn k bs))); simpl; auto.
    exfalso; apply Hi, HR; lia.
Qed.
Lemma only_in_refl l0 R : only_in l0 R l0.
Proof. split; auto. Qed.
Lemma only_in_weaken l0 (R R' : N -> Prop) l : (forall i, R i -> R' i) -> only_in l0 R l -> only_in l0 R' l.
Proof. intros H [H1 H2]; split; auto. Qed.

(** A partial overwrite of bytes with the same bytes changes nothing. *)
Lemma store_prefix_same off bs l k :
  off + lenN bs <= lenN l -> slice off (lenN bs) l = bs -> store off (firstn k bs) l = l.
Proof.
  intros H E. pose proof (lenN_firstn_le k bs). apply store_same; [lia|].
  rewrite <- E at 2. unfold slice. rewrite firstn_firstn.
  f_equal. unfold lenN. rewrite firstn_length. lia.
Qed.
