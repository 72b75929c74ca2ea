(** SpecFacts.v - the vocabulary of [Spec.v] in terms of the lemmas' own. *)
From Verif Require Export IdemFacts Spec.
Open Scope list_scope.
Open Scope N_scope.

Lemma two64 : modulus 64 = 2 ^ 64.
Proof. rewrite modulus_64. reflexivity. Qed.
Lemma two32 : modulus 32 = 2 ^ 32.
Proof. rewrite modulus_32. reflexivity. Qed.
Lemma two31 : modulus 31 = 2 ^ 31.
Proof. rewrite modulus_31. reflexivity. Qed.

Lemma countable_iff oc h l : countable oc h l <-> counts oc h (lenN l).
Proof.
  unfold countable, counts. rewrite two31. change (128 * 2 ^ 31) with (2 ^ 38). reflexivity.
Qed.
(** * Bytes and devices *)
Lemma byte_no_at l i : byte_no l i = byte_at l i.
Proof. reflexivity. Qed.
Lemma range_slice off n l : range off n l = slice off n l.
Proof. reflexivity. Qed.
Lemma number_le_val l : number_le l = le_val l.
Proof. induction l as [|b r IH]; cbn [number_le le_val]; congruence. Qed.
Lemma num_at_field off n l : num_at (N.of_nat off) (N.of_nat n) l = field off n l.
Proof. unfold num_at, field, range. rewrite number_le_val, !Nnat.Nat2N.id. reflexivity. Qed.
Lemma changed_only_in_iff R l l' : changed_only_in R l l' <-> only_in l R l'.
Proof. reflexivity. Qed.
Lemma changed_only_in_weaken (R R' : N -> Prop) l l' : (forall i, R i -> R' i) ->
  changed_only_in R l l' -> changed_only_in R' l l'.
Proof. intros H. apply only_in_weaken. exact H. Qed.
Lemma all_zero_iff l : all_zero l <-> l = zeros (length l).
Proof.
  unfold all_zero. split.
  - induction 1 as [|b r Hb Hr IH]; [reflexivity|].
    subst b. unfold zeros in *. cbn [length repeat]. congruence.
  - intros ->. apply Forall_forall. intros x Hx. unfold zeros in Hx. apply repeat_spec in Hx. congruence.
Qed.
Lemma addressable_iff d : addressable d <-> dev_len d < modulus 64.
Proof. unfold addressable, dev_len. rewrite two64. reflexivity. Qed.
Lemma fault_free_iff d : fault_free d <-> healthy d.
Proof. reflexivity. Qed.
Lemma last_whole_block_eq lb d : last_whole_block lb d = last_block lb d.
Proof. reflexivity. Qed.

(** * GUIDs *)
Lemma guid_on_disk_le u : guid_ok u -> guid_on_disk u = uuid_le_bytes u.
Proof.
  intros H. do 8 (destruct u as [|? u]; [discriminate H|]).
  rewrite uuid_le_bytes_order. reflexivity.
Qed.
Lemma guid_on_disk_of b : guid_on_disk b = uuid_of_disk b.
Proof. reflexivity. Qed.
Lemma guid_on_disk_invol u : guid_on_disk (guid_on_disk u) = u.
Proof. do 8 (destruct u as [|? u]; [reflexivity|]). reflexivity. Qed.

(** * Names *)
Lemma units_of_N c : units c = N.of_nat (units_of c).
Proof. unfold units, units_of. destruct (c <? 0x10000); reflexivity. Qed.
Lemma kept_stored s : forall n, kept_name (N.of_nat n) s = stored_name n s.
Proof.
  induction s as [|c r IH]; intros n; cbn [kept_name stored_name]; [reflexivity|].
  destruct (c =? 0); [reflexivity|].
  rewrite units_of_N.
  destruct (Nat.leb_spec (units_of c) n) as [Hl|Hl].
  - replace (N.of_nat (units_of c) <=? N.of_nat n) with true by (symmetry; apply N.leb_le; lia).
    f_equal. rewrite <- Nnat.Nat2N.inj_sub. apply IH.
  - replace (N.of_nat (units_of c) <=? N.of_nat n) with false by (symmetry; apply N.leb_gt; lia).
    destruct (Nat.eqb_spec n 0) as [->|Hn]; [reflexivity|].
    replace (N.of_nat n =? 0) with false by (symmetry; apply N.eqb_neq; lia). reflexivity.
Qed.
Lemma kept_36 s : kept_name 36 s = stored_name 36 s.
Proof. apply (kept_stored s 36). Qed.
Lemma name_units_length s : name_units s = lenN (encode_utf16 s).
Proof.
  induction s as [|c r IH]; [reflexivity|].
  cbn [name_units encode_utf16 flat_map]. rewrite lenN_app. unfold encode_utf16 in IH. rewrite <- IH.
  f_equal. unfold units, utf16_char. destruct (c <? 0x10000); reflexivity.
Qed.
Lemma char_ok_iff c : char_ok c <-> is_scalar c = true.
Proof.
  unfold char_ok, is_scalar. rewrite orb_true_iff, andb_true_iff, !N.ltb_lt, N.leb_le. reflexivity.
Qed.
Lemma chars_ok_iff s : Forall char_ok s <-> scalars s.
Proof. unfold scalars. split; intros H; eapply Forall_impl; try exact H; apply char_ok_iff. Qed.
Lemma high_iff u : high u <-> is_high u = true.
Proof. unfold high, is_high. rewrite andb_true_iff, N.leb_le, N.ltb_lt. reflexivity. Qed.
Lemma low_iff u : low u <-> is_low u = true.
Proof. unfold low, is_low. rewrite andb_true_iff, N.leb_le, N.ltb_lt. reflexivity. Qed.
Lemma decode_utf16_spec n : forall l, (length l <= n)%nat -> utf16 l (decode_utf16_lossy l).
Proof.
  induction n as [|n IH]; intros l Hl.
  - destruct l; [constructor|cbn in Hl; lia].
  - destruct l as [|u r]; [constructor|].
    cbn [decode_utf16_lossy]. cbn [length] in Hl.
    destruct (is_high u) eqn:Hh.
    + destruct r as [|v r'].
      * apply u16_lone_high; [apply high_iff; exact Hh|discriminate|constructor].
      * destruct (is_low v) eqn:Hv.
        -- apply u16_pair; [apply high_iff|apply low_iff|apply IH; cbn in Hl]; auto; lia.
        -- apply u16_lone_high; [apply high_iff; exact Hh| |apply IH; lia].
           intros l r0 E HL. injection E as -> ->. apply low_iff in HL. congruence.
    + destruct (is_low u) eqn:Hw.
      * apply u16_lone_low; [apply low_iff; exact Hw|apply IH; lia].
      * apply u16_plain; [rewrite high_iff|rewrite low_iff|apply IH; lia]; congruence.
Qed.
(** The relation is a function, so it pins the decoder down. *)
Lemma utf16_fun l s1 : utf16 l s1 -> forall s2, utf16 l s2 -> s1 = s2.
Proof.
  induction 1 as [|u r s Hh Hl H IH|h l r s Hh Hl H IH|h r s Hh Hn H IH|l r s Hl H IH];
    intros s2 H2; inversion H2; subst; try reflexivity; try (f_equal; auto; fail);
    try contradiction; try (unfold high, low in *; lia);
    try (exfalso; match goal with F : forall l r', _ = l :: r' -> ~ low l |- _ => eapply F; eauto end; fail).
Qed.
Lemma before_nul_spec l : before_nul l (until_zero l).
Proof.
  induction l as [|u r IH]; cbn [until_zero]; [constructor|].
  destruct (N.eqb_spec u 0) as [->|Hu]; [constructor|constructor; auto].
Qed.

(** * Partitions *)
Lemma used_iff p : used p <-> is_used p = true.
Proof.
  unfold used, is_used. rewrite negb_true_iff. change (guid UNUSED) with (repeat x00 16).
  unfold uuid_eqb. symmetry. apply bytes_eqb_neq.
Qed.
Lemma used_dec_eq p : used_dec p = is_used p.
Proof.
  unfold used_dec, is_used. f_equal. change (guid UNUSED) with (repeat x00 16). unfold uuid_eqb.
  destruct (list_eq_dec _ _ _) as [->|H]; symmetry; [apply bytes_eqb_refl|apply bytes_eqb_neq; exact H].
Qed.
Lemma used_in_order_eq m : used_in_order m = used_list m.
Proof.
  unfold used_in_order, used_list, used_parts. induction m as [|[k p] r IH]; [reflexivity|].
  cbn [map filter snd]. rewrite used_dec_eq. destruct (is_used p); cbn [map snd]; congruence.
Qed.
Lemma numbered_from ps : forall i, number (N.of_nat i) ps = combine (map N.of_nat (seq i (length ps))) ps.
Proof.
  induction ps as [|p r IH]; intros i; [reflexivity|].
  cbn [number length seq map combine]. f_equal.
  replace (N.of_nat i + 1) with (N.of_nat (S i)) by lia. apply IH.
Qed.
Lemma numbered_eq ps : numbered ps = number 1 ps.
Proof. symmetry. apply (numbered_from ps 1). Qed.
Lemma partition_ok_iff p : partition_ok p <-> wf_part p.
Proof.
  unfold wf_part. rewrite two64, <- chars_ok_iff. split.
  - intros [A B C D F G]. repeat split; auto.
  - intros (A & B & C & D & F & G). constructor; auto.
Qed.

(** * Types *)
Definition is_nil {A} (l : list A) : bool := match l with [] => true | _ => false end.
Lemma hex_digit_char n : n < 16 -> hex_digit (hex_char n) = Some n.
Proof.
  intros H.
  assert (A : forallb (fun n => match hex_digit (hex_char n) with Some m => m =? n | None => false end)
                (map N.of_nat (seq 0 16)) = true) by (vm_compute; reflexivity).
  rewrite forallb_forall in A. specialize (A n).
  assert (I : In n (map N.of_nat (seq 0 16))).
  { apply in_map_iff. exists (N.to_nat n). split; [lia|]. apply in_seq. lia. }
  specialize (A I). destruct (hex_digit (hex_char n)) as [m|]; [|discriminate A].
  apply N.eqb_eq in A. congruence.
Qed.
Lemma list_ascii_app a b : list_ascii_of_string (a ++ b) = list_ascii_of_string a ++ list_ascii_of_string b.
Proof. induction a as [|c r IH]; [reflexivity|]. cbn. f_equal. exact IH. Qed.
Lemma string_app_nil a : (a ++ "")%string = a.
Proof. induction a; cbn; congruence. Qed.
Lemma hex_bytes_cons b r : hex_bytes (b :: r) = (hex_byte b ++ hex_bytes r)%string.
Proof. destruct r; [cbn; reflexivity|reflexivity]. Qed.
Lemma hex_pairs_app b r : 
  hex_pairs (list_ascii_of_string (hex_byte b) ++ r) =
  match hex_pairs r with Some bs => Some (b :: bs) | None => None end.
Proof.
  pose proof (byte_to_N_bound b) as B.
  cbn [hex_byte list_ascii_of_string app hex_pairs].
  rewrite !hex_digit_char by (try apply N.mod_lt; try (apply N.div_lt_upper_bound); lia).
  destruct (hex_pairs r); [|reflexivity].
  do 2 f_equal. rewrite <- N.div_mod by lia. apply byte_of_N_to_N.
Qed.
Lemma hex_pairs_bytes l : forall r,
  hex_pairs (list_ascii_of_string (hex_bytes l) ++ r) =
  match hex_pairs r with Some bs => Some (l ++ bs) | None => None end.
Proof.
  induction l as [|b l IH]; intros r.
  - cbn. destruct (hex_pairs r); reflexivity.
  - rewrite hex_bytes_cons, list_ascii_app, <- app_assoc, hex_pairs_app, IH.
    destruct (hex_pairs r); reflexivity.
Qed.
Lemma hex_bytes_length l : length (list_ascii_of_string (hex_bytes l)) = (2 * length l)%nat.
Proof.
  induction l as [|b l IH]; [reflexivity|].
  rewrite hex_bytes_cons, list_ascii_app, app_length, IH. cbn. lia.
Qed.
(** The parser reads the canonical text of every GUID back. *)
Lemma guid_text_list u : list_ascii_of_string (guid_text u) =
  list_ascii_of_string (hex_bytes (firstn 4 u)) ++ "-"%char ::
  list_ascii_of_string (hex_bytes (firstn 2 (skipn 4 u))) ++ "-"%char ::
  list_ascii_of_string (hex_bytes (firstn 2 (skipn 6 u))) ++ "-"%char ::
  list_ascii_of_string (hex_bytes (firstn 2 (skipn 8 u))) ++ "-"%char ::
  list_ascii_of_string (hex_bytes (skipn 10 u)).
Proof. unfold guid_text. rewrite !list_ascii_app. reflexivity. Qed.
Lemma parse_hyphenated_text u : guid_ok u ->
  parse_hyphenated (list_ascii_of_string (guid_text u)) = Some u.
Proof.
  intros H. unfold guid_ok in H.
  do 16 (destruct u as [|? u]; [discriminate H|]). destruct u; [|discriminate H]. clear H.
  rewrite guid_text_list. cbn [firstn skipn]. unfold parse_hyphenated.
  set (A := [b; b0; b1; b2]). set (B := [b3; b4]). set (C := [b5; b6]). set (D := [b7; b8]).
  set (F := [b9; b10; b11; b12; b13; b14]).
  set (X := list_ascii_of_string (hex_bytes A) ++ _).
  change (nth_error X 8) with (Some "-"%char). change (nth_error X 13) with (Some "-"%char).
  change (nth_error X 18) with (Some "-"%char). change (nth_error X 23) with (Some "-"%char).
  change (length X =? 36)%nat with true. cbn [is_hyphen andb].
  change (Ascii.eqb "-" "-") with true. cbn [andb].
  change (firstn 8 X) with (list_ascii_of_string (hex_bytes A)).
  change (firstn 4 (skipn 9 X)) with (list_ascii_of_string (hex_bytes B)).
  change (firstn 4 (skipn 14 X)) with (list_ascii_of_string (hex_bytes C)).
  change (firstn 4 (skipn 19 X)) with (list_ascii_of_string (hex_bytes D)).
  change (skipn 24 X) with (list_ascii_of_string (hex_bytes F)).
  rewrite !hex_pairs_bytes.
  rewrite <- (app_nil_r (list_ascii_of_string (hex_bytes F))), hex_pairs_bytes.
  reflexivity.
Qed.
Lemma guid_text_length u : guid_ok u -> length (list_ascii_of_string (guid_text u)) = 36%nat.
Proof.
  intros H. rewrite guid_text_list. repeat (rewrite app_length; cbn [length]).
  rewrite !hex_bytes_length. unfold guid_ok in H. rewrite ?firstn_length, ?skipn_length. lia.
Qed.
Lemma try_parse_text u : guid_ok u -> uuid_try_parse (guid_text u) = Some u.
Proof.
  intros H. unfold uuid_try_parse. rewrite guid_text_length by exact H.
  apply parse_hyphenated_text. exact H.
Qed.
Lemma guid_text_inj u v : guid_ok u -> guid_ok v -> guid_text u = guid_text v -> u = v.
Proof. intros Hu Hv E. apply try_parse_text in Hu, Hv. congruence. Qed.

(** The literals of the table are canonical texts. *)
Lemma table_texts : Forall (fun x => guid_text (lit_uuid (snd (fst x))) = snd (fst x) /\
                                     guid_ok (lit_uuid (snd (fst x)))) type_table.
Proof.
  assert (A : forallb (fun x => String.eqb (guid_text (lit_uuid (snd (fst x)))) (snd (fst x)) &&
                                (length (lit_uuid (snd (fst x))) =? 16)%nat) type_table = true)
    by (vm_compute; reflexivity).
  rewrite forallb_forall in A. apply Forall_forall. intros x Hx. specialize (A x Hx).
  apply andb_true_iff in A. destruct A as [A B]. apply String.eqb_eq in A. apply Nat.eqb_eq in B.
  split; assumption.
Qed.
Lemma find_by_uuid_spec t u :
  Forall (fun x => guid_text (lit_uuid (snd (fst x))) = snd (fst x) /\ guid_ok (lit_uuid (snd (fst x)))) t ->
  guid_ok u ->
  match find_by_uuid t u with
  | Some ty => guid ty = u /\ exists nm, In (nm, guid_text u, os ty) t
  | None => forall nm o, ~ In (nm, guid_text u, o) t
  end.
Proof.
  intros HF Hu. induction t as [|[[nm g] o] r IH]; cbn [find_by_uuid].
  - intros nm o H. exact H.
  - inversion HF as [|x l [Ht Hk] HF']; subst. cbn [fst snd] in Ht, Hk.
    destruct (uuid_eqb u (lit_uuid g)) eqn:E.
    + apply uuid_eqb_eq in E. cbn [guid os]. split; [congruence|].
      exists nm. left. rewrite E, Ht. reflexivity.
    + specialize (IH HF'). destruct (find_by_uuid r u) as [ty|].
      * destruct IH as (G & nm' & I). split; [exact G|]. exists nm'. right. exact I.
      * intros nm' o' [I|I]; [|eapply IH; exact I].
        injection I as _ Eg _. subst g.
        apply guid_text_inj in Ht; [|exact Hk|exact Hu].
        rewrite Ht in E. assert (uuid_eqb u u = true) by (apply uuid_eqb_eq; reflexivity). congruence.
Qed.
Lemma canonical_os_from_uuid u : guid_ok u -> canonical_os u (os (type_from_uuid u)).
Proof.
  intros Hu. pose proof (find_by_uuid_spec type_table u table_texts Hu) as H.
  unfold type_from_uuid, canonical_os. destruct (find_by_uuid type_table u) as [ty|].
  - destruct H as (_ & nm & I). left. exists nm. exact I.
  - right. split; [reflexivity|exact H].
Qed.
Lemma same_entry_normal p : guid_ok (guid (part_type p)) -> same_entry p (normal p).
Proof.
  intros H. constructor; cbn [normal part_type part_guid first_lba last_lba flags name]; auto.
  - apply type_guid_from_uuid.
  - apply canonical_os_from_uuid. exact H.
  - symmetry. apply kept_36.
Qed.

(** * Headers and layouts *)
Lemma header_ok_iff h : header_ok h <-> wf_header h.
Proof.
  unfold wf_header. rewrite two64, two32. change (256 ^ 2) with (2 ^ 16). change (256 ^ 4) with (2 ^ 32).
  split.
  - intros [A [B1 B2] C (D1 & D2 & D3 & D4 & D5) F G K]. repeat split; auto.
  - intros (A & B1 & B2 & C & D1 & D2 & D3 & D4 & F & D5 & G & K). constructor; auto.
Qed.
Lemma array_blocks_eq lb h : array_blocks lb h = ablocks (num_parts h) 128 lb.
Proof.
  unfold array_blocks, blocks_for, ablocks, div_ceil. pose proof (lb_pos lb). f_equal. lia.
Qed.
Lemma primary_at_eq h : primary_at h = plba h.
Proof. unfold primary_at, plba. destruct (N.ltb_spec (current_lba h) (backup_lba h)); lia. Qed.
Lemma backup_at_eq h : backup_at h = blba h.
Proof. unfold backup_at, blba. destruct (N.ltb_spec (current_lba h) (backup_lba h)); lia. Qed.
Lemma layout_ok_iff lb len h : layout_ok lb len h <-> sane lb len h.
Proof.
  split.
  - intros [A B C D F G K L].
    rewrite array_blocks_eq in *. rewrite primary_at_eq in *. rewrite backup_at_eq in *.
    rewrite <- two32 in C. constructor; auto.
  - intros [A B C D F G K L]. rewrite two32 in C.
    constructor; rewrite ?array_blocks_eq, ?primary_at_eq, ?backup_at_eq; auto.
Qed.
Lemma primary_copy_iff lb h i : primary_copy lb h i <-> primary_area lb h i.
Proof. unfold primary_copy, primary_area, between, in_area. lia. Qed.
Lemma backup_copy_iff lb h i : backup_copy lb h i <-> backup_area lb h i.
Proof.
  unfold backup_copy, backup_area, between, in_area. rewrite array_blocks_eq, backup_at_eq. lia.
Qed.
Lemma header_of_iff g h : header_of g h <-> try_header g = Ok h.
Proof.
  unfold header_of, try_header, or_else. split.
  - intros [->|[N ->]]; [reflexivity|].
    destruct (g_primary g) eqn:E; [exfalso; eapply N; reflexivity|reflexivity|reflexivity].
  - destruct (g_primary g) as [a|e|] eqn:E; cbn [omap_err]; intros H.
    + left. congruence.
    + right. split; [discriminate|]. destruct (g_backup g); cbn [omap_err] in H; congruence.
    + right. split; [discriminate|]. destruct (g_backup g); cbn [omap_err] in H; congruence.
Qed.
