(** Block0Facts.v - opening does not look at the first 512 bytes (C84). *)
From Verif Require Export SpecBlock0 ReopenFacts MbrFacts SpecFacts.
Open Scope list_scope.
Open Scope N_scope.

(** * Reading beyond byte 512 *)
Definition near (d d' : dev) : Prop := healthy d /\ healthy d' /\ same_beyond_512 (data d) (data d').
Definition level (d d' : dev) : Prop := near d d' /\ pos d = pos d' /\ 512 <= pos d.
Lemma beyond_slice a b off n : same_beyond_512 a b -> 512 <= off -> slice off n a = slice off n b.
Proof. intros (_ & H) L. apply slice_eq_byte_at. intros i Hi. apply H. lia. Qed.
Lemma level_seek d d' p : near d d' -> 512 <= p -> level (set_pos d p) (set_pos d' p).
Proof. intros (H1 & H2 & H3) L. repeat split; auto; apply H3. Qed.
Lemma level_read n d d' : level d d' ->
  (exists b e e', read_exact n d = (Ok b, e) /\ read_exact n d' = (Ok b, e') /\ level e e') \/
  (exists x e e', read_exact n d = (Err x, e) /\ read_exact n d' = (Err x, e') /\ near e e').
Proof.
  intros ((H1 & H2 & H3) & HP & HL). destruct (N.eq_dec n 0) as [->|NZ].
  { left. exists [], d, d'. repeat split; auto; apply H3. }
  pose proof (proj1 H3) as LL.
  destruct (N.leb_spec (pos d + n) (dev_len d)) as [LE|GT].
  - left. exists (slice (pos d) n (data d)). do 2 eexists. rewrite read_exact_ok by auto.
    rewrite read_exact_ok by (auto; rewrite <- HP; unfold dev_len in *; lia).
    rewrite <- HP. rewrite (beyond_slice _ _ (pos d) n H3 HL). split; [reflexivity|]. split; [reflexivity|].
    repeat split; auto; try apply H3. cbn. lia.
  - right. destruct (read_exact_eof n d H1) as (p & E); [lia|exact GT|].
    destruct (read_exact_eof n d' H2) as (p' & E'); [lia|rewrite <- HP; unfold dev_len in *; lia|].
    rewrite E, E'. do 3 eexists. split; [reflexivity|]. split; [reflexivity|]. repeat split; auto; apply H3.
Qed.
Lemma level_entries oc left : forall i e m d d', level d d' ->
  (exists b x x', read_entries oc left i e m d = (Ok b, x) /\ read_entries oc left i e m d' = (Ok b, x') /\ near x x') \/
  (exists r x x', read_entries oc left i e m d = (Err r, x) /\ read_entries oc left i e m d' = (Err r, x')) \/
  (exists x x', read_entries oc left i e m d = (Panic, x) /\ read_entries oc left i e m d' = (Panic, x')).
Proof.
  induction left as [|left IH]; intros i e m d d' HL; cbn [read_entries].
  - left. unfold ret. do 3 eexists. split; [reflexivity|]. split; [reflexivity|]. apply HL.
  - unfold bind.
    destruct (level_read 128 d d' HL) as [(b & x & x' & E & E' & R)|(r & x & x' & E & E' & R)]; rewrite E, E'.
    2:{ right. left. do 3 eexists. split; reflexivity. }
    destruct (bytes_eqb b (zeros 128)).
    + unfold lift. destruct (addw oc 31 e 1) as [z|z|].
      * apply IH, R.
      * right. left. do 3 eexists. split; reflexivity.
      * right. right. do 2 eexists. split; reflexivity.
    + unfold lift. destruct (fst (parse_entry b)) as [z|z|].
      * apply IH, R.
      * right. left. do 3 eexists. split; reflexivity.
      * right. right. do 2 eexists. split; reflexivity.
Qed.
Lemma near_partitions oc h lb d d' : near d d' -> 1 <= part_start h ->
  fst (file_read_partitions oc h lb d) = fst (file_read_partitions oc h lb d').
Proof.
  intros HN HP. pose proof HN as (H1 & H2 & H3). unfold file_read_partitions, bind at 1 7, lift.
  destruct (checked_mul64 (part_start h) (lb_u64 lb)) as [p|] eqn:EC; cbn [ok_or]; [|reflexivity].
  assert (512 <= p).
  { unfold checked_mul64 in EC. destruct (_ <? _) in EC; [injection EC as <-|discriminate].
    assert (512 <= lb_u64 lb) by (destruct lb; cbn; lia). nia. }
  unfold bind at 1 6. rewrite !seek_start_ok by auto.
  destruct (negb (part_size h =? 128)); [reflexivity|].
  unfold bind at 1 5.
  destruct (level_entries oc (N.to_nat (num_parts h)) 0 0 [] _ _ (level_seek d d' p HN H))
    as [(b & x & x' & E & E' & R)|[(r & x & x' & E & E')|(x & x' & E & E')]]; rewrite E, E'; try reflexivity.
  destruct R as (R1 & R2 & R3). unfold bind. rewrite !seek_start_ok by auto.
  unfold lift. destruct (checked_mul64 (num_parts h) (part_size h)) as [q|]; cbn [ok_or]; [|reflexivity].
  destruct (level_read q _ _ (level_seek x x' p (conj R1 (conj R2 R3)) H)) as
    [(c & y & y' & F & F' & S)|(r & y & y' & F & F' & S)]; rewrite F, F'; [|reflexivity].
  destruct (crc32 c =? crc32_parts h); reflexivity.
Qed.
Lemma near_header a b off : same_beyond_512 a b -> 512 <= off -> read_header_at off a = read_header_at off b.
Proof. intros H L. unfold read_header_at. rewrite (proj1 H), (beyond_slice a b off 92 H L). reflexivity. Qed.
Lemma near_primary lb a b : same_beyond_512 a b -> read_header_at (lb_u64 lb) a = read_header_at (lb_u64 lb) b.
Proof. intros H. apply near_header; auto. destruct lb; cbn; lia. Qed.
Lemma near_backup lb d d' : same_beyond_512 (data d) (data d') -> read_backup_at lb d = read_backup_at lb d'.
Proof.
  intros H. unfold read_backup_at, last_block, dev_len. rewrite (proj1 H).
  destruct (N.ltb_spec (lenN (data d')) (lb_u64 lb * 3)); auto. apply near_header; auto.
  pose proof (last_block_bound lb d') as B. unfold dev_len, last_block in B. specialize (B H0).
  assert (512 <= lb_u64 lb) by (destruct lb; cbn; lia). nia.
Qed.
Lemma open_near oc cfg d d' : near d d' -> dev_len d < modulus 64 ->
  (forall h, select cfg (read_header_at (lb_u64 (c_lb cfg)) (data d)) (read_backup_at (c_lb cfg) d) = Ok h ->
     1 <= part_start h) ->
  same_opened (fst (open_from_device oc cfg d)) (fst (open_from_device oc cfg d')).
Proof.
  intros (H1 & H2 & H3) HL HS. rewrite open_ok by auto. rewrite open_ok by (auto; unfold dev_len in *; rewrite <- (proj1 H3); auto).
  rewrite <- (near_primary (c_lb cfg) _ _ H3), <- (near_backup (c_lb cfg) d d' H3).
  destruct (select cfg _ _) as [h|e|] eqn:ES; cbn; auto.
  pose proof (near_partitions oc h (c_lb cfg) d d' (conj H1 (conj H2 H3)) (HS h eq_refl)) as P.
  unfold map_err. destruct (file_read_partitions oc h (c_lb cfg) d) as [[t|e|] x], (file_read_partitions oc h (c_lb cfg) d') as [[t'|e'|] x'];
    cbn in P |- *; try discriminate; auto.
  - injection P as <-. reflexivity.
  - injection P as <-. reflexivity.
Qed.
(** * The calls *)
Lemma beyond_refl a : same_beyond_512 a a.
Proof. split; auto. Qed.
Lemma beyond_trans a b c : same_beyond_512 a b -> same_beyond_512 b c -> same_beyond_512 a c.
Proof. intros (A & B) (C & D). split; [congruence|]. intros i Hi. rewrite (B i Hi). apply D, Hi. Qed.
Lemma beyond_sym a b : same_beyond_512 a b -> same_beyond_512 b a.
Proof. intros (A & B). split; auto. intros i Hi. symmetry. apply B, Hi. Qed.
Lemma wrote_beyond lo hi a b : wrote_within lo hi a b -> hi <= 512 -> 512 <= lenN a -> same_beyond_512 a b.
Proof.
  intros (L & H) B LA. assert (E : lenN a = lenN b) by lia. split; [exact E|]. intros i Hi.
  destruct (N.lt_ge_cases i (lenN a)) as [LT|GE].
  - symmetry. apply H; auto. unfold between. lia.
  - change byte_no with byte_at. rewrite !byte_at_ge by lia. reflexivity.
Qed.
(** * Writing *)
Lemma beyond_store off bs a b : off + lenN bs <= lenN a -> same_beyond_512 a b ->
  same_beyond_512 (store off bs a) (store off bs b).
Proof.
  intros L (E & H). split; [rewrite !store_lenN_in by lia; exact E|]. intros i Hi. change byte_no with byte_at.
  rewrite !byte_at_store_in by lia. destruct (_ && _); [reflexivity|]. apply H, Hi.
Qed.
Lemma final_image_beyond lb h ps a b : sane lb (lenN a) h -> lenN ps <= num_parts h -> same_beyond_512 a b ->
  same_beyond_512 (final_image lb h ps a) (final_image lb h ps b).
Proof.
  intros S HU HA. pose proof (image_lens lb h ps a S HU) as (LT & LP & LB).
  pose proof (sane_areas _ _ _ S) as (A1 & A2 & A3 & A4 & A5 & A6).
  unfold final_image. set (T := table_image h ps) in *. set (t := ablocks (num_parts h) 128 lb) in *.
  repeat apply beyond_store; auto; rewrite ?store_lenN_in; rewrite ?store_lenN_in; rewrite ?store_lenN_in; lia.
Qed.
