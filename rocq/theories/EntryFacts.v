(** EntryFacts.v - GUIDs, names and 128-byte table entries: encoding, decoding, round trips. *)
From Verif Require Export Frame Partition.
Open Scope list_scope.
Open Scope N_scope.

(** * GUIDs *)
Lemma pow256 n : 256 ^ n = 2 ^ (8 * n).
Proof. rewrite N.pow_mul_r. reflexivity. Qed.

Lemma uuid_fields_wf u : wf_uuid u ->
  uuid_d1 u < 256 ^ 4 /\ uuid_d2 u < 256 ^ 2 /\ uuid_d3 u < 256 ^ 2 /\ length (uuid_d4 u) = 8%nat.
Proof.
  unfold wf_uuid; intros H. unfold uuid_d1, uuid_d2, uuid_d3, uuid_d4.
  assert (L4 : lenN (firstn 4 u) = 4) by (unfold lenN; rewrite firstn_length; lia).
  assert (L2 : lenN (firstn 2 (skipn 4 u)) = 2)
    by (unfold lenN; rewrite firstn_length, skipn_length; lia).
  assert (L2' : lenN (firstn 2 (skipn 6 u)) = 2)
    by (unfold lenN; rewrite firstn_length, skipn_length; lia).
  pose proof (be_val_bound (firstn 4 u)). pose proof (be_val_bound (firstn 2 (skipn 4 u))).
  pose proof (be_val_bound (firstn 2 (skipn 6 u))).
  rewrite L4, L2, L2' in *. rewrite skipn_length. repeat split; auto; lia.
Qed.

Lemma uuid_from_fields_eq u : wf_uuid u ->
  uuid_from_fields (uuid_d1 u) (uuid_d2 u) (uuid_d3 u) (uuid_d4 u) = u.
Proof.
  unfold wf_uuid; intros H. do 16 (destruct u as [|? u]; [discriminate|]).
  destruct u; [|discriminate].
  unfold uuid_from_fields, uuid_d1, uuid_d2, uuid_d3, uuid_d4.
  rewrite !be_bytes_be_val_n by reflexivity. reflexivity.
Qed.

Lemma uuid_le_bytes_length u : wf_uuid u -> length (uuid_le_bytes u) = 16%nat.
Proof.
  intros H; unfold uuid_le_bytes. rewrite !app_length, !le_bytes_length.
  destruct (uuid_fields_wf u H) as (_ & _ & _ & ->). reflexivity.
Qed.

(** The mixed-endian order of UEFI: first three fields reversed, the rest as is. *)
Lemma uuid_le_bytes_order b0 b1 b2 b3 b4 b5 b6 b7 t :
  uuid_le_bytes (b0 :: b1 :: b2 :: b3 :: b4 :: b5 :: b6 :: b7 :: t)
  = b3 :: b2 :: b1 :: b0 :: b5 :: b4 :: b7 :: b6 :: t.
Proof.
  unfold uuid_le_bytes, uuid_d1, uuid_d2, uuid_d3, uuid_d4, be_val. simpl firstn. simpl skipn.
  rewrite !le_bytes_le_val_n by reflexivity. reflexivity.
Qed.

Lemma parse_uuid_app u r : wf_uuid u -> parse_uuid (uuid_le_bytes u ++ r) = (Ok u, r).
Proof.
  intros H. pose proof (uuid_fields_wf u H) as (H1 & H2 & H3 & H4).
  unfold parse_uuid. rewrite app_length, uuid_le_bytes_length by auto.
  destruct (Nat.ltb_spec (16 + length r) 16); [lia|].
  unfold uuid_le_bytes. rewrite <- !app_assoc.
  unfold bind at 1. rewrite rd_le_app by exact H1.
  unfold bind at 1. rewrite rd_le_app by exact H2.
  unfold bind at 1. rewrite rd_le_app by exact H3.
  unfold bind at 1. rewrite rd_bytes_app by auto.
  unfold ret. rewrite uuid_from_fields_eq; auto.
Qed.

(** Every 16 bytes on disk denote a GUID whose on-disk form they are. *)
Definition uuid_of_disk (b : list byte) : uuid :=
  match b with
  | b0 :: b1 :: b2 :: b3 :: b4 :: b5 :: b6 :: b7 :: t =>
      b3 :: b2 :: b1 :: b0 :: b5 :: b4 :: b7 :: b6 :: t
  | _ => b
  end.
Lemma uuid_of_disk_wf b : length b = 16%nat -> wf_uuid (uuid_of_disk b).
Proof.
  unfold wf_uuid; intros H. do 8 (destruct b as [|? b]; [discriminate|]). exact H.
Qed.
Lemma uuid_of_disk_le b : length b = 16%nat -> uuid_le_bytes (uuid_of_disk b) = b.
Proof.
  intros H. do 8 (destruct b as [|? b]; [discriminate|]). simpl uuid_of_disk.
  apply uuid_le_bytes_order.
Qed.
Lemma parse_uuid_raw b r : length b = 16%nat -> parse_uuid (b ++ r) = (Ok (uuid_of_disk b), r).
Proof.
  intros H. rewrite <- (uuid_of_disk_le b) at 1 by auto. apply parse_uuid_app, uuid_of_disk_wf; auto.
Qed.
Lemma uuid_eqb_eq a b : uuid_eqb a b = true <-> a = b.
Proof. apply bytes_eqb_eq. Qed.

(** * Names *)
Definition scalars (s : list N) : Prop := Forall (fun c => is_scalar c = true) s.

(** Number of UTF-16 code units of a character. *)
Definition units_of (c : N) : nat := if c <? 0x10000 then 1%nat else 2%nat.

(** What remains of a name in a field of [n] code units: it ends at a NUL, at the limit, and a
    character cut in half at the limit becomes U+FFFD. *)
Fixpoint stored_name (n : nat) (s : list N) : list N :=
  match s with
  | [] => []
  | c :: r =>
      if c =? 0 then []
      else if (units_of c <=? n)%nat then c :: stored_name (n - units_of c) r
      else if (n =? 0)%nat then [] else [0xFFFD]
  end.

Lemma scalar_bound c : is_scalar c = true -> c < 0x110000.
Proof.
  unfold is_scalar; intros H. apply orb_true_iff in H as [H|H]; bool_hyps; lia.
Qed.
Lemma scalar_not_surrogate c : is_scalar c = true -> is_high c = false /\ is_low c = false.
Proof.
  unfold is_scalar, is_high, is_low; intros H.
  destruct (N.leb_spec 0xD800 c), (N.ltb_spec c 0xDC00), (N.leb_spec 0xDC00 c), (N.ltb_spec c 0xE000);
    simpl; auto; exfalso; apply orb_true_iff in H as [H|H]; bool_hyps; lia.
Qed.

Lemma decode_stored n : forall s, scalars s ->
  decode_utf16_lossy (until_zero (firstn n (encode_utf16 s))) = stored_name n s.
Proof.
  intros s; revert n; induction s as [|c s IH]; intros n Hs.
  - simpl. rewrite firstn_nil. reflexivity.
  - inversion Hs as [|? ? Hc Hr]; subst. unfold encode_utf16; simpl flat_map.
    fold (encode_utf16 s). unfold utf16_char. simpl stored_name. unfold units_of.
    pose proof (scalar_bound c Hc).
    destruct (N.ltb_spec c 0x10000).
    + simpl app. destruct n as [|n].
      * simpl. destruct (c =? 0); reflexivity.
      * simpl firstn. simpl until_zero. destruct (N.eqb_spec c 0); [reflexivity|].
        simpl Nat.leb. rewrite Nat.sub_succ, Nat.sub_0_r.
        destruct (scalar_not_surrogate c Hc) as [Hh Hl].
        simpl decode_utf16_lossy. rewrite Hh, Hl, IH; auto.
    + set (v := c - 0x10000). set (hi := 0xD800 + v / 0x400). set (lo := 0xDC00 + v mod 0x400).
      assert (Hv : v < 0x100000) by (unfold v; lia).
      assert (Hq : v / 0x400 < 0x400) by (apply N.div_lt_upper_bound; lia).
      assert (Hm : v mod 0x400 < 0x400) by (apply N.mod_lt; lia).
      assert (Hhi : is_high hi = true) by (unfold is_high, hi; lia).
      assert (Hlo : is_low lo = true) by (unfold is_low, lo; lia).
      assert (Hhi0 : (hi =? 0) = false) by (unfold hi; lia).
      assert (Hlo0 : (lo =? 0) = false) by (unfold lo; lia).
      destruct (N.eqb_spec c 0); [lia|].
      simpl app. destruct n as [|[|n]].
      * reflexivity.
      * simpl. rewrite Hhi0. simpl. rewrite Hhi. reflexivity.
      * simpl firstn. simpl until_zero. rewrite Hhi0, Hlo0. simpl Nat.leb.
        simpl decode_utf16_lossy. rewrite Hhi, Hlo.
        replace (S (S n) - 2)%nat with n by lia. rewrite IH by auto. f_equal.
        unfold hi, lo. pose proof (N.div_mod v 0x400). unfold v in *. lia.
Qed.

Lemma stored_name_short n s :
  (length (encode_utf16 s) <= n)%nat -> ~ In 0 s -> stored_name n s = s.
Proof.
  revert n; induction s as [|c s IH]; intros n HL H0; auto.
  unfold encode_utf16 in HL; simpl flat_map in HL. rewrite app_length in HL.
  fold (encode_utf16 s) in HL. simpl. unfold utf16_char in HL. unfold units_of.
  destruct (N.eqb_spec c 0); [exfalso; apply H0; left; auto|].
  destruct (c <? 0x10000); simpl length in HL.
  - destruct (Nat.leb_spec 1 n); [|lia]. f_equal. apply IH; [lia|]. intros X; apply H0; right; auto.
  - destruct (Nat.leb_spec 2 n); [|lia]. f_equal. apply IH; [lia|]. intros X; apply H0; right; auto.
Qed.

Lemma encode_units_bound s : scalars s -> Forall (fun u => u < 256 ^ 2) (encode_utf16 s).
Proof.
  induction 1 as [|c s Hc Hs IH]; [constructor|].
  unfold encode_utf16; simpl flat_map. apply Forall_app; split; auto.
  pose proof (scalar_bound c Hc). change (256 ^ 2) with 0x10000. unfold utf16_char.
  destruct (N.ltb_spec c 0x10000); repeat constructor; auto.
  - assert ((c - 0x10000) / 0x400 < 0x400) by (apply N.div_lt_upper_bound; lia). lia.
  - assert ((c - 0x10000) mod 0x400 < 0x400) by (apply N.mod_lt; lia). lia.
Qed.

(** Whatever code units are in the field, the decoded name is a valid string without NUL. *)
Lemma decode_scalars_strong n : forall l, (length l <= n)%nat -> Forall (fun u => u < 0x10000) l ->
  scalars (decode_utf16_lossy l).
Proof.
  unfold scalars. induction n as [|n IH]; intros [|u l] HL Hl; simpl in HL; try lia; try constructor.
  inversion Hl as [|? ? Hu Hr]; subst. simpl.
  destruct (is_high u) eqn:Eh.
  - destruct l as [|v r']; [repeat constructor|].
    inversion Hr as [|? ? Hv Hr']; subst. destruct (is_low v) eqn:El.
    + constructor; [|apply IH; [simpl in HL; lia|auto]].
      unfold is_scalar, is_high, is_low in *. bool_hyps. apply orb_true_iff; right.
      apply andb_true_iff; split; [apply N.leb_le|apply N.ltb_lt]; lia.
    + constructor; [reflexivity|]. apply IH; [lia|auto].
  - destruct (is_low u) eqn:El.
    + constructor; [reflexivity|]. apply IH; [lia|auto].
    + constructor; [|apply IH; [lia|auto]].
      unfold is_scalar, is_high, is_low in *. lia.
Qed.
Lemma decode_no_nul n : forall l, (length l <= n)%nat -> ~ In 0 l -> ~ In 0 (decode_utf16_lossy l).
Proof.
  induction n as [|n IH]; intros [|u l] HL Hl; simpl in HL; try lia; try (simpl; auto; fail).
  simpl. destruct (is_high u) eqn:Eh.
  - destruct l as [|v r']; [simpl; unfold replacement; lia|].
    destruct (is_low v) eqn:El.
    + unfold is_high, is_low in *; bool_hyps. intros [X|X]; [lia|].
      revert X; apply IH; [simpl in HL; lia|]. intros Y; apply Hl; right; right; auto.
    + intros [X|X]; [unfold replacement in X; lia|]. revert X; apply IH; [lia|].
      intros Y; apply Hl; right; auto.
  - destruct (is_low u) eqn:El; (intros [X|X];
      [| revert X; apply IH; [lia|]; intros Y; apply Hl; right; auto]).
    + unfold replacement in X; lia.
    + apply Hl; left; auto.
Qed.
Lemma until_zero_no_zero l : ~ In 0 (until_zero l).
Proof.
  induction l as [|u l IH]; simpl; auto. destruct (N.eqb_spec u 0); simpl; auto.
  intros [X|X]; auto.
Qed.
Lemma until_zero_Forall (P : N -> Prop) l : Forall P l -> Forall P (until_zero l).
Proof. induction 1; simpl; auto. destruct (_ =? _); constructor; auto. Qed.
Lemma until_zero_app_zeros l k : until_zero (l ++ repeat 0 k) = until_zero l.
Proof.
  induction l as [|u l IH]; simpl.
  - destruct k; reflexivity.
  - destruct (u =? 0); auto. f_equal; auto.
Qed.
Lemma stored_name_idem n s : scalars s -> stored_name n (stored_name n s) = stored_name n s.
Proof.
  revert n; induction s as [|c s IH]; intros n Hs; auto.
  inversion Hs as [|? ? Hc Hr]; subst. simpl.
  destruct (N.eqb_spec c 0); auto. destruct (Nat.leb_spec (units_of c) n).
  - simpl. destruct (N.eqb_spec c 0); [lia|].
    destruct (Nat.leb_spec (units_of c) n); [|lia]. rewrite IH; auto.
  - destruct (Nat.eqb_spec n 0); auto. cbn [stored_name].
    change (65533 =? 0) with false. change (units_of 65533) with 1%nat. cbv iota.
    destruct (Nat.leb_spec 1 n); auto. lia.
Qed.
Lemma stored_name_scalars n s : scalars s -> scalars (stored_name n s).
Proof.
  unfold scalars. revert n; induction s as [|c s IH]; intros n Hs; simpl; auto.
  inversion Hs; subst. destruct (c =? 0); auto. destruct (_ <=? _)%nat; [constructor; auto|].
  destruct (_ =? _)%nat; repeat constructor.
Qed.

(** * Entries *)
Lemma read_units_app {E} us r :
  Forall (fun u => u < 256 ^ 2) us ->
  @read_units E (length us) (flat_map (le_bytes 2) us ++ r) = (Ok us, r).
Proof.
  induction 1 as [|u us Hu Hus IH]; [reflexivity|].
  cbn [length read_units flat_map].
  unfold bind at 1. rewrite <- app_assoc, rd_le_app by exact Hu.
  unfold bind. rewrite IH. reflexivity.
Qed.
Lemma flat_map_zero_units k : flat_map (le_bytes 2) (repeat 0 k) = zeros (2 * k).
Proof.
  induction k as [|k IH]; auto. replace (2 * S k)%nat with (2 + 2 * k)%nat by lia.
  rewrite zeros_app, <- IH. reflexivity.
Qed.
Lemma flat_map_le2_length us : length (flat_map (le_bytes 2) us) = (2 * length us)%nat.
Proof. induction us as [|u us IH]; auto. simpl flat_map. simpl length. simpl in IH. rewrite IH. lia. Qed.

Definition wf_part (p : partition) : Prop :=
  wf_uuid (guid (part_type p)) /\ wf_uuid (part_guid p) /\
  first_lba p < modulus 64 /\ last_lba p < modulus 64 /\ flags p < modulus 64 /\
  scalars (name p).

(** The unpadded record. *)
Definition entry_head (p : partition) : list byte :=
  uuid_le_bytes (guid (part_type p)) ++ uuid_le_bytes (part_guid p) ++
  le_bytes 8 (first_lba p) ++ le_bytes 8 (last_lba p) ++ le_bytes 8 (flags p).
Definition entry_name (p : partition) : list byte :=
  flat_map (le_bytes 2) (firstn 36 (encode_utf16 (name p))).

Lemma entry_head_length p : wf_part p -> length (entry_head p) = 56%nat.
Proof.
  intros (H1 & H2 & _). unfold entry_head.
  rewrite !app_length, !uuid_le_bytes_length, !le_bytes_length by auto. reflexivity.
Qed.
Lemma entry_name_length p : length (entry_name p) = (2 * min 36 (length (encode_utf16 (name p))))%nat.
Proof. unfold entry_name. rewrite flat_map_le2_length, firstn_length. auto. Qed.

Lemma as_bytes_eq p n : as_bytes p n = resize (N.to_nat n) (entry_head p ++ entry_name p).
Proof. unfold as_bytes, entry_head, entry_name. rewrite <- !app_assoc. auto. Qed.

Lemma resize_length n l : length (resize n l) = n.
Proof. unfold resize. rewrite app_length, firstn_length, zeros_length. lia. Qed.
Lemma resize_grow n l : (length l <= n)%nat -> resize n l = l ++ zeros (n - length l).
Proof. intros H. unfold resize. rewrite firstn_all2; auto. Qed.

Lemma as_bytes_length p n : length (as_bytes p n) = N.to_nat n.
Proof. rewrite as_bytes_eq. apply resize_length. Qed.
Lemma as_bytes_lenN p n : lenN (as_bytes p n) = n.
Proof. unfold lenN. rewrite as_bytes_length. lia. Qed.

(** A 128-byte entry: head, name field of 36 units. *)
Lemma as_bytes_128 p : wf_part p ->
  as_bytes p 128 =
  entry_head p ++ flat_map (le_bytes 2)
    (firstn 36 (encode_utf16 (name p)) ++ repeat 0 (36 - length (encode_utf16 (name p)))).
Proof.
  intros H. rewrite as_bytes_eq. rewrite resize_grow.
  2: { rewrite app_length, entry_head_length, entry_name_length by auto. lia. }
  rewrite app_length, entry_head_length, entry_name_length by auto.
  rewrite flat_map_app, flat_map_zero_units, <- app_assoc.
  do 3 f_equal. change (N.to_nat 128) with 128%nat. lia.
Qed.

Lemma type_guid_from_uuid u : guid (type_from_uuid u) = u.
Proof.
  unfold type_from_uuid. generalize type_table as t.
  induction t as [|[[n g] o] t IH]; simpl; auto.
  destruct (uuid_eqb u (lit_uuid g)) eqn:E; auto. apply uuid_eqb_eq in E; auto.
Qed.

(** What a partition looks like after one trip through the disk: canonical OS label and the
    stored part of the name. *)
Definition normal (p : partition) : partition :=
  mkPart (type_from_uuid (guid (part_type p))) (part_guid p) (first_lba p) (last_lba p) (flags p)
    (stored_name 36 (name p)).

Lemma pow_256_8 : 256 ^ 8 = modulus 64.
Proof. reflexivity. Qed.

Lemma parse_entry_as_bytes p : wf_part p -> fst (parse_entry (as_bytes p 128)) = Ok (normal p).
Proof.
  intros H. rewrite as_bytes_128 by auto.
  pose proof H as (H1 & H2 & H3 & H4 & H5 & H6).
  unfold entry_head. rewrite <- !app_assoc. unfold parse_entry.
  unfold bind at 1. rewrite parse_uuid_app by auto.
  unfold bind at 1. rewrite parse_uuid_app by auto.
  unfold bind at 1. rewrite rd_le_app by (change (N.of_nat 8) with 8; rewrite pow_256_8; auto).
  unfold bind at 1. rewrite rd_le_app by (change (N.of_nat 8) with 8; rewrite pow_256_8; auto).
  unfold bind at 1. rewrite rd_le_app by (change (N.of_nat 8) with 8; rewrite pow_256_8; auto).
  unfold bind at 1.
  set (us := firstn 36 (encode_utf16 (name p)) ++ _).
  assert (HL : length us = 36%nat).
  { unfold us. rewrite app_length, firstn_length, repeat_length. lia. }
  rewrite <- HL at 1. rewrite <- (app_nil_r (flat_map (le_bytes 2) us)).
  rewrite read_units_app.
  2: { unfold us. apply Forall_app; split.
       - apply Forall_forall; intros x Hx.
         assert (In x (encode_utf16 (name p))) as Hx'.
         { rewrite <- (firstn_skipn 36 (encode_utf16 (name p))). apply in_or_app; auto. }
         pose proof (encode_units_bound _ H6) as HF. rewrite Forall_forall in HF. auto.
       - apply Forall_forall; intros x Hx. apply repeat_spec in Hx; subst. reflexivity. }
  unfold ret. simpl fst. unfold normal. do 2 f_equal.
  unfold us. rewrite until_zero_app_zeros. apply decode_stored; auto.
Qed.

(** Reading an entry never fails, whatever its 128 bytes. *)
Lemma read_units_total {E} n : forall r, (2 * n <= length r)%nat ->
  exists us, @read_units E n r = (Ok us, skipn (2 * n) r) /\ length us = n /\
    Forall (fun u => u < 0x10000) us /\ flat_map (le_bytes 2) us = firstn (2 * n) r.
Proof.
  induction n as [|n IH]; intros r H.
  - exists []. repeat split; auto.
  - destruct r as [|a [|b r]]; simpl in H; try lia.
    destruct (IH r) as (us & E1 & E2 & E3 & E4); [lia|].
    exists (le_val [a; b] :: us). simpl read_units. unfold bind at 1.
    change (a :: b :: r) with ([a; b] ++ r). rewrite rd_le_app_raw by reflexivity.
    unfold bind. rewrite E1. unfold ret.
    replace (2 * S n)%nat with (S (S (2 * n))) by lia. simpl app. split; [reflexivity|].
    split; [simpl; auto|]. split.
    + constructor; auto. apply (le_val_bound [a; b]).
    + cbn [flat_map]. rewrite (le_bytes_le_val_n 2) by reflexivity. rewrite E4. reflexivity.
Qed.

Lemma split_at {A} n (l : list A) : (n <= length l)%nat ->
  exists a b, l = a ++ b /\ length a = n /\ length b = (length l - n)%nat.
Proof.
  intros H. exists (firstn n l), (skipn n l). rewrite firstn_skipn, firstn_length, skipn_length.
  repeat split; lia.
Qed.

Lemma parse_entry_total b : length b = 128%nat ->
  exists p, fst (parse_entry b) = Ok p /\ wf_part p /\ ~ In 0 (name p) /\
    guid (part_type p) = uuid_of_disk (firstn 16 b) /\
    part_type p = type_from_uuid (guid (part_type p)).
Proof.
  intros H.
  destruct (split_at 16 b) as (t & b1 & -> & Ht & H1); [lia|]. rewrite firstn_app_l by auto.
  destruct (split_at 16 b1) as (g & b2 & -> & Hg & H2); [lia|].
  destruct (split_at 8 b2) as (f & b3 & -> & Hf & H3); [lia|].
  destruct (split_at 8 b3) as (l & b4 & -> & Hl & H4); [lia|].
  destruct (split_at 8 b4) as (fl & b5 & -> & Hfl & H5); [lia|].
  unfold parse_entry.
  unfold bind at 1. rewrite parse_uuid_raw by auto.
  unfold bind at 1. rewrite parse_uuid_raw by auto.
  unfold bind at 1. rewrite rd_le_app_raw by auto.
  unfold bind at 1. rewrite rd_le_app_raw by auto.
  unfold bind at 1. rewrite rd_le_app_raw by auto.
  unfold bind at 1.
  destruct (@read_units_total io_err 36 b5) as (us & -> & HL & HF & _); [lia|].
  unfold ret; simpl fst. eexists; split; [reflexivity|]. simpl.
  rewrite type_guid_from_uuid. split; [|split; [|split]]; auto.
  - unfold wf_part; simpl. rewrite type_guid_from_uuid.
    pose proof (le_val_bound f) as Bf. pose proof (le_val_bound l) as Bl.
    pose proof (le_val_bound fl) as Bfl. unfold lenN in *. rewrite Hf, Hl, Hfl in *.
    change (256 ^ N.of_nat 8) with (modulus 64) in *.
    repeat split; auto using uuid_of_disk_wf.
    eapply decode_scalars_strong; [apply Nat.le_refl|]. apply until_zero_Forall; auto.
  - eapply decode_no_nul; [apply Nat.le_refl|]. apply until_zero_no_zero.
Qed.

(** A used partition's entry is not all zeros. *)
Lemma used_type_not_nil p : is_used p = true -> guid (part_type p) <> uuid_nil.
Proof.
  unfold is_used; intros H E. rewrite E in H. discriminate.
Qed.
Lemma zeros_128_split : zeros 128 = zeros 16 ++ zeros 112.
Proof. reflexivity. Qed.
Lemma uuid_le_nil : uuid_le_bytes uuid_nil = zeros 16.
Proof. reflexivity. Qed.
Lemma uuid_le_bytes_inj a b : wf_uuid a -> wf_uuid b -> uuid_le_bytes a = uuid_le_bytes b -> a = b.
Proof.
  intros Ha Hb H. pose proof (parse_uuid_app a [] Ha) as E1. pose proof (parse_uuid_app b [] Hb) as E2.
  rewrite H in E1. rewrite E1 in E2. congruence.
Qed.
Lemma used_entry_nonzero p : wf_part p -> is_used p = true -> as_bytes p 128 <> zeros 128.
Proof.
  intros H Hu E. pose proof H as (H1 & _). apply (used_type_not_nil p Hu).
  apply uuid_le_bytes_inj; auto; [reflexivity|]. rewrite uuid_le_nil.
  apply (f_equal (firstn 16)) in E. rewrite zeros_128_split, firstn_app_l in E by reflexivity.
  rewrite as_bytes_128 in E by auto. unfold entry_head in E. rewrite <- !app_assoc in E.
  rewrite firstn_app_l in E by (rewrite uuid_le_bytes_length; auto). auto.
Qed.

Lemma as_bytes_zero n : as_bytes partition_zero n = zeros (N.to_nat n).
Proof.
  rewrite as_bytes_eq. change (entry_head partition_zero ++ entry_name partition_zero) with (zeros 56).
  unfold resize. rewrite zeros_length.
  assert (E : firstn (N.to_nat n) (zeros 56) = zeros (min (N.to_nat n) 56)).
  { unfold zeros. clear. generalize (N.to_nat n) as k, 56%nat as m. induction k; intros [|m]; simpl; auto.
    f_equal; auto. }
  rewrite E, <- zeros_app. f_equal. lia.
Qed.

Lemma normal_wf p : wf_part p -> wf_part (normal p).
Proof.
  intros (H1 & H2 & H3 & H4 & H5 & H6). unfold wf_part, normal; simpl.
  rewrite type_guid_from_uuid. repeat split; auto. apply stored_name_scalars; auto.
Qed.
Lemma normal_used p : is_used (normal p) = is_used p.
Proof. unfold is_used, normal; simpl. rewrite type_guid_from_uuid; auto. Qed.
Lemma normal_idem p : wf_part p -> normal (normal p) = normal p.
Proof.
  intros (H1 & H2 & H3 & H4 & H5 & H6). unfold normal; simpl.
  rewrite type_guid_from_uuid. f_equal. apply stored_name_idem; auto.
Qed.
