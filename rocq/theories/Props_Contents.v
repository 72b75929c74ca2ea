(** Props_Contents.v - what is stored in the partitions is neither looked at nor copied (C101). *)
From Verif Require Import SpecContents Block0Facts WriteFacts CrashFacts MapFacts Props_Header Props_Write RetryFacts Props_Fault Samples.
Open Scope list_scope.
Open Scope N_scope.

(** * Reading a stretch of bytes *)
Definition abreast (n : N) (d d' : dev) : Prop :=
  healthy d /\ healthy d' /\ lenN (data d) = lenN (data d') /\ pos d = pos d' /\
  forall i, pos d <= i < pos d + n -> byte_at (data d) i = byte_at (data d') i.
Lemma abreast_read n m d d' : abreast (n + m) d d' ->
  (exists b e e', read_exact n d = (Ok b, e) /\ read_exact n d' = (Ok b, e') /\ abreast m e e' /\
     data e = data d /\ data e' = data d') \/
  (exists x e e', read_exact n d = (Err x, e) /\ read_exact n d' = (Err x, e')).
Proof.
  intros (H1 & H2 & HL & HP & HB). destruct (N.eq_dec n 0) as [->|NZ].
  { left. exists [], d, d'. repeat split; auto. }
  destruct (N.leb_spec (pos d + n) (dev_len d)) as [LE|GT].
  - left. exists (slice (pos d) n (data d)). do 2 eexists. rewrite read_exact_ok by auto.
    rewrite read_exact_ok by (auto; rewrite <- HP; unfold dev_len in *; lia).
    rewrite <- HP. rewrite (slice_eq_byte_at (pos d) n (data d) (data d')) by (intros i Hi; apply HB; lia).
    split; [reflexivity|]. split; [reflexivity|]. split; [|auto].
    repeat split; auto. cbn [set_pos pos data]. intros i Hi. apply HB. lia.
  - right. destruct (read_exact_eof n d H1) as (p & E); [lia|exact GT|].
    destruct (read_exact_eof n d' H2) as (p' & E'); [lia|rewrite <- HP; unfold dev_len in *; lia|].
    rewrite E, E'. do 3 eexists. split; reflexivity.
Qed.
Lemma abreast_entries oc left : forall i e m d d', abreast (128 * N.of_nat left) d d' ->
  (exists b x x', read_entries oc left i e m d = (Ok b, x) /\ read_entries oc left i e m d' = (Ok b, x') /\
     healthy x /\ healthy x' /\ data x = data d /\ data x' = data d') \/
  (exists r x x', read_entries oc left i e m d = (Err r, x) /\ read_entries oc left i e m d' = (Err r, x')) \/
  (exists x x', read_entries oc left i e m d = (Panic, x) /\ read_entries oc left i e m d' = (Panic, x')).
Proof.
  induction left as [|left IH]; intros i e m d d' HL; cbn [read_entries].
  - left. unfold ret. do 3 eexists. split; [reflexivity|]. split; [reflexivity|]. repeat split; apply HL.
  - replace (128 * N.of_nat (S left)) with (128 + 128 * N.of_nat left) in HL by lia. unfold bind.
    destruct (abreast_read 128 _ d d' HL) as [(b & x & x' & E & E' & R & D & D')|(r & x & x' & E & E')]; rewrite E, E'.
    2:{ right. left. do 3 eexists. split; reflexivity. }
    assert (GO : forall i e m,
      (exists b y y', read_entries oc left i e m x = (Ok b, y) /\ read_entries oc left i e m x' = (Ok b, y') /\
         healthy y /\ healthy y' /\ data y = data d /\ data y' = data d') \/
      (exists r y y', read_entries oc left i e m x = (Err r, y) /\ read_entries oc left i e m x' = (Err r, y')) \/
      (exists y y', read_entries oc left i e m x = (Panic, y) /\ read_entries oc left i e m x' = (Panic, y'))).
    { intros i0 e0 m0. rewrite <- D, <- D'. apply IH, R. }
    destruct (bytes_eqb b (zeros 128)).
    + unfold lift. destruct (addw oc 31 e 1) as [z|z|].
      * apply GO.
      * right. left. do 3 eexists. split; reflexivity.
      * right. right. do 2 eexists. split; reflexivity.
    + unfold lift. destruct (fst (parse_entry b)) as [z|z|].
      * apply GO.
      * right. left. do 3 eexists. split; reflexivity.
      * right. right. do 2 eexists. split; reflexivity.
Qed.
Lemma abreast_partitions oc h lb d d' : healthy d -> healthy d' -> lenN (data d) = lenN (data d') ->
  agree (array_place lb h) (data d) (data d') ->
  fst (file_read_partitions oc h lb d) = fst (file_read_partitions oc h lb d').
Proof.
  intros H1 H2 HL HA. unfold file_read_partitions, bind at 1 7, lift.
  destruct (checked_mul64 (part_start h) (lb_u64 lb)) as [p|] eqn:EC; cbn [ok_or]; [|reflexivity].
  assert (EP : p = part_start h * lb_u64 lb).
  { unfold checked_mul64 in EC. destruct (_ <? _) in EC; [injection EC as <-; reflexivity|discriminate]. }
  assert (AB : forall x x', healthy x -> healthy x' -> data x = data d -> data x' = data d' ->
    abreast (128 * num_parts h) (set_pos x p) (set_pos x' p)).
  { intros x x' X1 X2 D D'. repeat split; auto; cbn [set_pos data pos]; rewrite D, D'; [exact HL|].
    intros i Hi. apply HA. unfold array_place, between. lia. }
  unfold bind at 1 6. rewrite !seek_start_ok by auto.
  destruct (negb (part_size h =? 128)) eqn:ES; [reflexivity|].
  apply Bool.negb_false_iff, N.eqb_eq in ES.
  unfold bind at 1 5.
  destruct (abreast_entries oc (N.to_nat (num_parts h)) 0 0 [] (set_pos d p) (set_pos d' p))
    as [(b & x & x' & E & E' & X1 & X2 & D & D')|[(r & x & x' & E & E')|(x & x' & E & E')]].
  { rewrite N2Nat.id. apply AB; auto. }
  all: rewrite E, E'; try reflexivity.
  unfold bind. rewrite !seek_start_ok by auto.
  unfold lift. destruct (checked_mul64 (num_parts h) (part_size h)) as [q|] eqn:EQ; cbn [ok_or]; [|reflexivity].
  assert (q = 128 * num_parts h).
  { unfold checked_mul64 in EQ. destruct (_ <? _) in EQ; [injection EQ as <-; rewrite ES; lia|discriminate]. }
  subst q.
  destruct (abreast_read (128 * num_parts h) 0 (set_pos x p) (set_pos x' p)) as [(c & y & y' & F & F' & _)|(r & y & y' & F & F')].
  { rewrite N.add_0_r. apply AB; auto. }
  - rewrite F, F'. destruct (crc32 c =? crc32_parts h); reflexivity.
  - rewrite F, F'. reflexivity.
Qed.

(** * Opening *)
Theorem C101_opening_looks_at : forall oc cfg d d', let lb := c_lb cfg in
  fault_free d -> fault_free d' -> addressable d -> lenN (data d') = lenN (data d) ->
  agree (header_places lb d) (data d) (data d') ->
  (forall h, goes_by lb d h -> agree (array_place lb h) (data d) (data d')) ->
  same_opened (fst (open_from_device oc cfg d)) (fst (open_from_device oc cfg d')).
Proof.
  intros oc cfg d d' lb HF HF' HA HL HH HT. rewrite addressable_iff in HA.
  assert (HA' : dev_len d' < modulus 64) by (unfold dev_len in *; rewrite HL; exact HA).
  rewrite open_ok by auto. rewrite open_ok by auto. cbn zeta. fold lb.
  assert (E1 : read_header_at (lb_u64 lb) (data d') = read_header_at (lb_u64 lb) (data d)).
  { unfold read_header_at. rewrite HL. destruct (_ <=? _); [|reflexivity]. f_equal. symmetry.
    apply slice_eq_byte_at. intros i Hi. apply HH. left. exact Hi. }
  assert (E2 : read_backup_at lb d' = read_backup_at lb d).
  { assert (LB : last_block lb d' = last_block lb d) by (unfold last_block, dev_len; rewrite HL; reflexivity).
    unfold read_backup_at. rewrite LB. unfold dev_len. rewrite HL. destruct (_ <? _); [reflexivity|].
    unfold read_header_at. rewrite HL. destruct (_ <=? _); [|reflexivity]. f_equal. symmetry.
    apply slice_eq_byte_at. intros i Hi. apply HH. right. unfold last_whole_block. exact Hi. }
  rewrite E1, E2. destruct (select cfg _ _) as [h|e|] eqn:ES; cbn; auto.
  assert (G : goes_by lb d h).
  { pose proof (read_header_at_spec (lb_u64 lb) (data d)) as S1. pose proof (backup_header_spec lb d) as S2.
    unfold select in ES. unfold goes_by.
    destruct (read_header_at (lb_u64 lb) (data d)) as [a|e|] eqn:R1, (read_backup_at lb d) as [b|e'|] eqn:R2; try discriminate ES.
    - left. injection ES as <-. exact S1.
    - left. destruct (c_only_valid_headers cfg); [discriminate|]. injection ES as <-. exact S1.
    - right. destruct (c_only_valid_headers cfg); [discriminate|]. injection ES as <-. split; [|exact S2].
      intros h' X. pose proof (C07_acceptance_unique _ _ _ _ S1 X). discriminate. }
  pose proof (abreast_partitions oc h lb d d' HF HF' (eq_sym HL) (HT h G)) as P. unfold map_err.
  destruct (file_read_partitions oc h lb d) as [[t|e|] x], (file_read_partitions oc h lb d') as [[t'|e'|] x']; cbn in P |- *; try discriminate; auto.
  - injection P as <-. reflexivity.
  - injection P as <-. reflexivity.
Qed.
Print Assumptions C101_opening_looks_at.

Lemma goes_by_opened oc cfg d g h h' : fault_free d -> addressable d -> fst (open_from_device oc cfg d) = Ok g ->
  header_of g h -> goes_by (c_lb cfg) d h' -> h' = h.
Proof.
  intros HF HA HO HH G. rewrite addressable_iff in HA. rewrite open_ok in HO by auto. cbn zeta in HO.
  pose proof (read_header_at_spec (lb_u64 (c_lb cfg)) (data d)) as S1. pose proof (backup_header_spec (c_lb cfg) d) as S2.
  assert (GE : g_primary g = read_header_at (lb_u64 (c_lb cfg)) (data d) /\ g_backup g = read_backup_at (c_lb cfg) d).
  { destruct (select cfg _ _) as [x|e|]; try discriminate. destruct (map_err GIo _ _) as [[t|e|] y]; try discriminate.
    injection HO as <-. auto. }
  destruct GE as (G1 & G2). rewrite <- G1 in S1. rewrite <- G2 in S2. clear HO G1 G2.
  destruct HH as [P|(NP & B)], G as [X|(NX & X)].
  - rewrite P in S1. pose proof (C07_acceptance_unique _ _ _ _ S1 X) as E. injection E as ->. reflexivity.
  - rewrite P in S1. destruct (NX h S1).
  - destruct (NP h'). symmetry. apply (C07_acceptance_unique _ _ _ _ X S1).
  - rewrite B in S2. destruct (N.le_gt_cases (3 * lb_u64 (c_lb cfg)) (lenN (data d))) as [L|L].
    + pose proof (C07_acceptance_unique _ _ _ _ (proj1 S2 L) (proj1 X L)) as E. injection E as ->. reflexivity.
    + discriminate (proj2 S2 L).
Qed.
(** Whatever is stored in the usable blocks, the disk opens the same. *)
Theorem C101_contents_unseen : forall oc cfg d d' g h, let lb := c_lb cfg in
  fault_free d -> fault_free d' -> addressable d -> lenN (data d') = lenN (data d) ->
  fst (open_from_device oc cfg d) = Ok g -> header_of g h -> layout_ok lb (lenN (data d)) h ->
  (forall i, array_place lb h i -> ~ usable_place lb h i) ->
  agree (fun i => ~ usable_place lb h i) (data d) (data d') ->
  exists g', fst (open_from_device oc cfg d') = Ok g' /\ same_in_memory g g'.
Proof.
  intros oc cfg d d' g h lb HF HF' HA HL HO HH LO AR AG.
  assert (X : same_opened (fst (open_from_device oc cfg d)) (fst (open_from_device oc cfg d'))).
  { apply C101_opening_looks_at; auto.
    - intros i HP. apply AG. fold lb in HP. pose proof (lb_pos lb) as LP.
      pose proof (lo_first _ _ _ LO) as F1. pose proof (lo_last _ _ _ LO) as F2. pose proof (lo_fit _ _ _ LO) as F3.
      assert (BL : backup_at h <= last_whole_block lb d).
      { unfold last_whole_block. assert (backup_at h + 1 <= lenN (data d) / lb_u64 lb) by (apply N.div_le_lower_bound; lia). lia. }
      unfold header_places, usable_place, between in *. nia.
    - intros h' G. assert (h' = h) by (apply (goes_by_opened oc cfg d g h h'); assumption). subst h'. intros i Hi. apply AG, AR, Hi. }
  rewrite HO in X. destruct (fst (open_from_device oc cfg d')) as [g'|e|]; [exists g'; auto|destruct X|destruct X].
Qed.
Print Assumptions C101_contents_unseen.

(** * Writing *)
Lemma image_byte cfg h ps a b i : sane (c_lb cfg) (lenN a) h -> lenN b = lenN a -> lenN ps <= num_parts h ->
  (metadata_place cfg h i -> byte_at (image_for cfg h ps a) i = byte_at (image_for cfg h ps b) i) /\
  (~ metadata_place cfg h i -> byte_at (image_for cfg h ps a) i = byte_at a i) /\
  (byte_at (tables_image cfg h ps a) i = byte_at a i \/
   metadata_place cfg h i /\ byte_at (tables_image cfg h ps a) i = byte_at (image_for cfg h ps a) i) /\
  (byte_at (mid_image cfg h ps a) i = byte_at a i \/
   metadata_place cfg h i /\ byte_at (mid_image cfg h ps a) i = byte_at (image_for cfg h ps a) i).
Proof.
  intros S E HU. pose proof (image_lens (c_lb cfg) h ps a S HU) as (LT & LP & LB).
  pose proof (sane_areas _ _ _ S) as (A1 & A2 & A3 & A4 & A5 & A6).
  assert (MP : metadata_place cfg h i <-> primary_area (c_lb cfg) h i \/ c_readonly_backup cfg = false /\ backup_area (c_lb cfg) h i).
  { unfold metadata_place. rewrite primary_copy_iff, backup_copy_iff. reflexivity. }
  rewrite !MP. clear MP. unfold primary_area, backup_area, in_area.
  unfold image_for, tables_image, mid_image, backup_block, tables_image, final_image, final_image_ro.
  set (L := lb_u64 (c_lb cfg)) in *. set (T := table_image h ps) in *. set (t := ablocks (num_parts h) 128 (c_lb cfg)) in *.
  set (PB := hdr_block (new_primary (c_lb cfg) h) (crc32 T) (c_lb cfg)) in *.
  set (BB := hdr_block (new_backup (c_lb cfg) h) (crc32 T) (c_lb cfg)) in *.
  clearbody L T t PB BB.
  assert (ST : forall off bs l, lenN bs = 128 * num_parts h \/ lenN bs = L -> off + lenN bs <= lenN a -> lenN l = lenN a ->
    lenN (store off bs l) = lenN a /\ byte_at (store off bs l) i = if (off <=? i) && (i <? off + lenN bs) then byte_at bs (i - off) else byte_at l i).
  { intros off bs l _ FI EL. split; [rewrite store_lenN_in by lia; exact EL|apply byte_at_store_in; lia]. }
  destruct (c_readonly_backup cfg).
  - destruct (ST (2 * L) T a) as (S1 & B1); [auto|lia|reflexivity|]. destruct (ST (2 * L) T b) as (S2 & B2); [auto|lia|exact E|].
    destruct (ST L PB (store (2 * L) T a)) as (S3 & B3); [auto|lia|exact S1|]. destruct (ST L PB (store (2 * L) T b)) as (S4 & B4); [auto|lia|exact S2|].
    rewrite B3, B4, B1, B2. rewrite LT, LP.
    destruct (N.leb_spec L i), (N.ltb_spec i (L + L)), (N.leb_spec (2 * L) i), (N.ltb_spec i (2 * L + 128 * num_parts h)); cbn [andb];
      repeat split; intros; auto; try (exfalso; lia); try (right; split; [lia|reflexivity]).
  - set (o := (blba h - t) * L) in *. set (q := blba h * L) in *. clearbody o q.
    destruct (ST o T a) as (S1 & B1); [auto|lia|reflexivity|]. destruct (ST o T b) as (S2 & B2); [auto|lia|exact E|].
    destruct (ST (2 * L) T (store o T a)) as (S3 & B3); [auto|lia|exact S1|]. destruct (ST (2 * L) T (store o T b)) as (S4 & B4); [auto|lia|exact S2|].
    destruct (ST q BB (store (2 * L) T (store o T a))) as (S5 & B5); [auto|lia|exact S3|].
    destruct (ST q BB (store (2 * L) T (store o T b))) as (S6 & B6); [auto|lia|exact S4|].
    destruct (ST L PB (store q BB (store (2 * L) T (store o T a)))) as (S7 & B7); [auto|lia|exact S5|].
    destruct (ST L PB (store q BB (store (2 * L) T (store o T b)))) as (S8 & B8); [auto|lia|exact S6|].
    rewrite B7, B8, B5, B6, B3, B4, B1, B2. rewrite LT, LP, LB. clear - A1 A2 A3 A4 A5 A6.
    destruct (N.leb_spec L i), (N.ltb_spec i (L + L)); cbn [andb]; try (exfalso; lia);
    destruct (N.leb_spec q i), (N.ltb_spec i (q + L)); cbn [andb]; try (exfalso; lia);
    destruct (N.leb_spec (2 * L) i), (N.ltb_spec i (2 * L + 128 * num_parts h)); cbn [andb]; try (exfalso; lia);
    destruct (N.leb_spec o i), (N.ltb_spec i (o + 128 * num_parts h)); cbn [andb]; try (exfalso; lia);
      repeat split; intros; auto; try (exfalso; lia); try (right; split; [lia|reflexivity]).
Qed.
Lemma byte_at_firstn k (l : list byte) i : i < lenN (firstn k l) -> byte_at (firstn k l) i = byte_at l i.
Proof.
  intros H. unfold byte_at. rewrite nth_error_firstn. unfold lenN in H. rewrite firstn_length in H.
  destruct (Nat.ltb_spec (N.to_nat i) k); [reflexivity|lia].
Qed.
(** What a write puts down is settled by the disk in memory: there is one picture of the metadata such that, whatever
    is on the device and however it fails, every byte left by the write is the byte that was there or, in the places
    of the metadata, the byte of the picture; a write that reports success has put down all of the picture. *)
Theorem C101_writing_puts_down : forall g h, ready g h -> exists picture : list byte,
  forall oc d', lenN (data d') = lenN (data (g_device g)) ->
    let (r, w) := write_inplace oc (set_device d' g) in
    lenN (data (g_device w)) = lenN (data d') /\
    (forall i, byte_no (data (g_device w)) i = byte_no (data d') i \/
       metadata_place (g_config g) h i /\ byte_no (data (g_device w)) i = byte_no picture i) /\
    (r = Ok tt -> forall i, metadata_place (g_config g) h i -> byte_no (data (g_device w)) i = byte_no picture i).
Proof.
  intros g h R. assert (HW := rd_writable _ _ R). pose proof (ready_sane g h R) as (T & A & S & U & _).
  set (cfg := g_config g) in *. set (ps := used_list (g_partitions g)) in *.
  exists (image_for cfg h ps (data (g_device g))). intros oc d' L. set (g1 := set_device d' g).
  assert (A1 : dev_len (g_device g1) < modulus 64) by (unfold dev_len in *; cbn; rewrite L; exact A).
  assert (S1 : sane (c_lb cfg) (dev_len (g_device g1)) h) by (unfold dev_len in *; cbn; rewrite L; exact S).
  assert (T1 : try_header g1 = Ok h) by exact T. assert (U1 : lenN (used_list (g_partitions g1)) <= num_parts h) by exact U.
  pose proof (write_stages oc g1 h HW T1 A1 S1 U1) as ST.
  change (g_config g1) with cfg in ST. change (used_list (g_partitions g1)) with ps in ST. change (data (g_device g1)) with (data d') in ST.
  destruct (write_inplace oc g1) as [r w] eqn:E. cbn [snd] in ST.
  pose proof (fun i => image_byte cfg h ps (data d') (data (g_device g)) i S1 (eq_sym L) U) as IB.
  pose proof (tables_facts cfg h ps (data d') S1 U) as (TL & _).
  pose proof (mid_facts cfg h ps (data d') S1 U) as (ML & _).
  pose proof (image_lens (c_lb cfg) h ps (data d') S1 U) as (_ & LP & LB).
  pose proof (sane_areas _ _ _ S1) as (B1 & B2 & B3 & B4 & B5 & B6). change (dev_len (g_device g1)) with (lenN (data d')) in B4.
  assert (X : lenN (data (g_device w)) = lenN (data d') /\ forall i, byte_at (data (g_device w)) i = byte_at (data d') i \/
    metadata_place cfg h i /\ byte_at (data (g_device w)) i = byte_at (image_for cfg h ps (data d')) i).
  { destruct ST as [k (M1 & M2) _|k RO ST|k ST].
    - split; [exact M1|]. intros i. destruct (IB i) as (_ & _ & I3 & _). destruct (M2 i) as [M|M]; [auto|].
      destruct I3 as [I3|(P & I3)]; [left; congruence|right; split; [exact P|congruence]].
    - assert (LK := lenN_firstn_le k (backup_block cfg h ps)). change (lenN (backup_block cfg h ps) = lb_u64 (c_lb cfg)) in LB. rewrite LB in LK.
      rewrite ST. split; [rewrite store_lenN_in; lia|]. intros i. rewrite byte_at_store_in by lia.
      destruct (IB i) as (_ & _ & I3 & I4).
      destruct (N.leb_spec (blba h * lb_u64 (c_lb cfg)) i), (N.ltb_spec i (blba h * lb_u64 (c_lb cfg) + lenN (firstn k (backup_block cfg h ps))));
        cbn [andb]; try exact I3.
      right. assert (MP : metadata_place cfg h i).
      { right. split; [exact RO|]. rewrite backup_copy_iff. unfold backup_area, in_area. lia. }
      split; [exact MP|]. rewrite image_mid, byte_at_store_in; change (lenN (primary_block cfg h ps) = lb_u64 (c_lb cfg)) in LP; rewrite LP.
      2:{ lia. }
      destruct (N.leb_spec (lb_u64 (c_lb cfg)) i), (N.ltb_spec i (lb_u64 (c_lb cfg) + lb_u64 (c_lb cfg))); cbn [andb]; try lia;
      unfold mid_image; rewrite RO, byte_at_store_in by lia; rewrite LB;
      destruct (N.leb_spec (blba h * lb_u64 (c_lb cfg)) i), (N.ltb_spec i (blba h * lb_u64 (c_lb cfg) + lb_u64 (c_lb cfg))); cbn [andb]; try lia.
      apply byte_at_firstn. lia.
    - assert (LK := lenN_firstn_le k (primary_block cfg h ps)). change (lenN (primary_block cfg h ps) = lb_u64 (c_lb cfg)) in LP. rewrite LP in LK.
      rewrite ST. split; [rewrite store_lenN_in; lia|]. intros i. rewrite byte_at_store_in by lia.
      destruct (IB i) as (_ & _ & _ & I4).
      destruct (N.leb_spec (lb_u64 (c_lb cfg)) i), (N.ltb_spec i (lb_u64 (c_lb cfg) + lenN (firstn k (primary_block cfg h ps))));
        cbn [andb]; try exact I4.
      right. split.
      { left. rewrite primary_copy_iff. unfold primary_area, in_area. lia. }
      rewrite image_mid, byte_at_store_in by lia. rewrite LP.
      destruct (N.leb_spec (lb_u64 (c_lb cfg)) i), (N.ltb_spec i (lb_u64 (c_lb cfg) + lb_u64 (c_lb cfg))); cbn [andb]; try lia.
      apply byte_at_firstn. lia. }
  destruct X as (X1 & X2). split; [exact X1|]. split.
  - intros i. rewrite !byte_no_at. destruct (X2 i) as [Y|(P & Y)]; [auto|right]. split; [exact P|].
    rewrite Y. apply (IB i), P.
  - intros -> i P. rewrite !byte_no_at. destruct (C61_write oc g1 tt w E) as (_ & Q).
    destruct (write_any oc (repaired_disk g1) h HW T1 (conj eq_refl A1) S1 U1) as (w' & E' & D & _).
    rewrite Q in E'. injection E' as <-. change (data (g_device (repaired_disk w))) with (data (g_device w)) in D. rewrite D.
    apply (IB i), P.
Qed.
Print Assumptions C101_writing_puts_down.

(** Concrete cases: the sample disk written and opened; a file stored in its usable block; the disk opens as before.
    The header says where things are, and its array is not among the usable blocks. *)
Definition settled_dev : dev := g_device (snd (write_inplace true (mini_disk [(1, sample_part)]))).
Definition with_file : dev := set_data settled_dev (store 1536 (repeat xa5 512) (data settled_dev)) 0.
Example C101_case :
  match fst (open_from_device true mini_config settled_dev) with
  | Ok g => match g_primary g with
            | Ok h => first_usable h = 3 /\ last_usable h = 3 /\ part_start h = 2 /\ num_parts h = 4 /\ backup_at h = 5 /\
                primary_at h = 1 /\ part_size h = 128 /\ lenN (g_partitions g) = 1 /\ disk_guid h = sample_guid
            | _ => False
            end
  | _ => False
  end /\
  fault_free settled_dev /\ lenN (data settled_dev) = 3072 /\ lenN (data with_file) = 3072 /\
  firstn 1536 (data with_file) = firstn 1536 (data settled_dev) /\ skipn 2048 (data with_file) = skipn 2048 (data settled_dev) /\
  data with_file <> data settled_dev /\
  match fst (open_from_device true mini_config settled_dev), fst (open_from_device true mini_config with_file) with
  | Ok g, Ok g' => g_primary g = g_primary g' /\ g_backup g = g_backup g' /\ g_partitions g = g_partitions g'
  | _, _ => False
  end.
Proof. vm_compute. repeat split; discriminate. Qed.
(** And writing onto a device full of other bytes, unhindered and with the device failing half way. *)
Definition noisy_dev : dev := mkDev (repeat xee (N.to_nat 3072)) 0 false false [] [].
Definition put_down (d : dev) : outcome gpt_err unit * list byte :=
  let (r, w) := write_inplace true (set_device d (mini_disk [(1, sample_part)])) in (r, data (g_device w)).
Example C101_writing_case : ready (mini_disk [(1, sample_part)]) mini_header /\
  let (r, l) := put_down mini_dev in let (r', l') := put_down noisy_dev in
  let (r'', l'') := put_down (with_faults [None; None; None; None; None; None; None; None; None; Some 100%nat] noisy_dev) in
  r = Ok tt /\ r' = Ok tt /\ r'' <> Ok tt /\ l <> l' /\ l' <> l'' /\ l'' <> data noisy_dev /\
  range 512 1024 l = range 512 1024 l' /\ range 2048 1024 l = range 2048 1024 l' /\
  range 1536 512 l' = repeat xee 512 /\ range 0 512 l' = repeat xee 512.
Proof. split; [exact mini_ready|]. vm_compute. repeat split; discriminate. Qed.
