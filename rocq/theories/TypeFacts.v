(** TypeFacts.v - lemmas about parsing GUIDs and looking up partition types. *)
From Verif Require Export SpecTypes SpecFacts.
Open Scope list_scope.
Open Scope N_scope.

(** * Letter case *)
Lemma hex_digit_upper a : hex_digit (upper_ascii a) = hex_digit a.
Proof. destruct a as [[] [] [] [] [] [] [] []]; reflexivity. Qed.
Lemma hex_digit_sound a n : hex_digit a = Some n -> n < 16 /\ upper_ascii a = hex_char n.
Proof.
  unfold hex_digit, upper_ascii, hex_char. set (c := Ascii.N_of_ascii a).
  assert (A : Ascii.ascii_of_N c = a) by apply Ascii.ascii_N_embedding.
  destruct ((48 <=? c) && (c <=? 57)) eqn:E1; [|destruct ((65 <=? c) && (c <=? 70)) eqn:E2; [|destruct ((97 <=? c) && (c <=? 102)) eqn:E3; [|discriminate]]];
    rewrite ?andb_true_iff, ?N.leb_le in *; intros H; injection H as <-; (split; [lia|]).
  - replace ((97 <=? c) && (c <=? 122)) with false by (symmetry; apply andb_false_iff; rewrite !N.leb_gt; lia).
    replace (c - 48 <? 10) with true by (symmetry; apply N.ltb_lt; lia). replace (48 + (c - 48)) with c by lia. auto.
  - replace ((97 <=? c) && (c <=? 122)) with false by (symmetry; apply andb_false_iff; rewrite !N.leb_gt; lia).
    replace (c - 55 <? 10) with false by (symmetry; apply N.ltb_ge; lia). replace (55 + (c - 55)) with c by lia. auto.
  - replace ((97 <=? c) && (c <=? 122)) with true by (symmetry; apply andb_true_iff; rewrite !N.leb_le; lia).
    replace (c - 87 <? 10) with false by (symmetry; apply N.ltb_ge; lia). f_equal. lia.
Qed.
Lemma is_hyphen_upper o : is_hyphen (option_map upper_ascii o) = is_hyphen o.
Proof. destruct o as [a|]; [|reflexivity]. destruct a as [[] [] [] [] [] [] [] []]; reflexivity. Qed.
Lemma upper_list s : list_ascii_of_string (upper s) = map upper_ascii (list_ascii_of_string s).
Proof. induction s as [|a s IH]; cbn; [reflexivity|]. rewrite IH. reflexivity. Qed.
Lemma upper_idem a : upper_ascii (upper_ascii a) = upper_ascii a.
Proof. destruct a as [[] [] [] [] [] [] [] []]; reflexivity. Qed.
Lemma list_ascii_inj s t : list_ascii_of_string s = list_ascii_of_string t -> s = t.
Proof. intros H. rewrite <- (string_of_list_ascii_of_string s), H. apply string_of_list_ascii_of_string. Qed.
Lemma upper_app s t : upper (s ++ t) = (upper s ++ upper t)%string.
Proof. induction s as [|a s IH]; cbn; [reflexivity|]. rewrite IH. reflexivity. Qed.
Lemma ascii_N_inj a b : Ascii.N_of_ascii a = Ascii.N_of_ascii b -> a = b.
Proof. intros H. rewrite <- (Ascii.ascii_N_embedding a), H. apply Ascii.ascii_N_embedding. Qed.
Lemma same_char_upper a b : same_char a b <-> upper_ascii a = upper_ascii b.
Proof.
  split.
  - intros [->|(n & Hn & H)]; [reflexivity|].
    assert (I : In n (map N.of_nat (seq 0 26))).
    { apply in_map_iff. exists (N.to_nat n). split; [lia|]. apply in_seq. lia. }
    assert (K : forall k, k < 26 -> upper_ascii (Ascii.ascii_of_N (65 + k)) = upper_ascii (Ascii.ascii_of_N (97 + k))).
    { intros k Hk. assert (A : Forall (fun k => upper_ascii (Ascii.ascii_of_N (65 + k)) = upper_ascii (Ascii.ascii_of_N (97 + k))) (map N.of_nat (seq 0 26))).
      { repeat constructor. }
      rewrite Forall_forall in A. apply A. apply in_map_iff. exists (N.to_nat k). split; [lia|]. apply in_seq. lia. }
    destruct H as [(-> & ->)|(-> & ->)]; [|symmetry]; apply K, Hn.
  - intros H. unfold upper_ascii in H.
    pose proof (Ascii.N_ascii_bounded a) as Ba. pose proof (Ascii.N_ascii_bounded b) as Bb.
    destruct ((97 <=? Ascii.N_of_ascii a) && (Ascii.N_of_ascii a <=? 122)) eqn:Ea;
      destruct ((97 <=? Ascii.N_of_ascii b) && (Ascii.N_of_ascii b <=? 122)) eqn:Eb;
      rewrite ?andb_true_iff, ?andb_false_iff, ?N.leb_le, ?N.leb_gt in *.
    + left. apply ascii_N_inj. apply (f_equal Ascii.N_of_ascii) in H. rewrite !Ascii.N_ascii_embedding in H by lia. lia.
    + right. exists (Ascii.N_of_ascii a - 97). split; [lia|]. right. split.
      * replace (97 + (Ascii.N_of_ascii a - 97)) with (Ascii.N_of_ascii a) by lia. symmetry. apply Ascii.ascii_N_embedding.
      * rewrite <- H. f_equal. lia.
    + right. exists (Ascii.N_of_ascii b - 97). split; [lia|]. left. split.
      * rewrite H. f_equal. lia.
      * replace (97 + (Ascii.N_of_ascii b - 97)) with (Ascii.N_of_ascii b) by lia. symmetry. apply Ascii.ascii_N_embedding.
    + left. exact H.
Qed.
Lemma same_text_upper s t : same_text s t <-> upper s = upper t.
Proof.
  unfold same_text. split.
  - intros H. apply list_ascii_inj. rewrite !upper_list. induction H as [|a b r r' Hc _ IH]; [reflexivity|].
    cbn [map]. rewrite IH. apply same_char_upper in Hc. rewrite Hc. reflexivity.
  - intros H. apply (f_equal list_ascii_of_string) in H. rewrite !upper_list in H.
    revert H. generalize (list_ascii_of_string s) (list_ascii_of_string t). intros l. induction l as [|a l IH]; intros [|b r] H; try discriminate; constructor.
    + apply same_char_upper. cbn in H. congruence.
    + apply IH. cbn in H. congruence.
Qed.
Lemma same_text_length s t : same_text s t -> length (list_ascii_of_string s) = length (list_ascii_of_string t).
Proof. unfold same_text. induction 1; cbn; auto. Qed.

(** * The parser and letter case *)
Lemma pair_ind {A} (P : list A -> Prop) : P [] -> (forall a, P [a]) -> (forall a b l, P l -> P (a :: b :: l)) -> forall l, P l.
Proof.
  intros H0 H1 H2 l. enough (P l /\ forall a, P (a :: l)) by tauto. induction l as [|b l (IH1 & IH2)]; auto.
Qed.
Lemma hex_pairs_upper l : hex_pairs (map upper_ascii l) = hex_pairs l.
Proof.
  induction l using pair_ind; [reflexivity|reflexivity|]. cbn [map hex_pairs]. rewrite !hex_digit_upper, IHl. reflexivity.
Qed.
Lemma nth_error_map' {A B} (f : A -> B) l n : nth_error (map f l) n = option_map f (nth_error l n).
Proof. revert n. induction l as [|x l IH]; intros [|n]; cbn; auto. Qed.
Lemma parse_hyphenated_upper s : parse_hyphenated (map upper_ascii s) = parse_hyphenated s.
Proof.
  unfold parse_hyphenated. rewrite map_length, !nth_error_map', !is_hyphen_upper.
  rewrite !firstn_map, !skipn_map, !firstn_map, <- !map_app, hex_pairs_upper. reflexivity.
Qed.
(** * What the parser accepts *)
Lemma hex_pairs_sound u : forall l, hex_pairs l = Some u -> map upper_ascii l = list_ascii_of_string (hex_bytes u) /\ length l = (2 * length u)%nat.
Proof.
  induction u as [|x u IH]; intros l H.
  - destruct l as [|a [|b l]]; [auto|discriminate|]. cbn [hex_pairs] in H.
    destruct (hex_digit a); [|discriminate]. destruct (hex_digit b); [|discriminate]. destruct (hex_pairs l); discriminate.
  - destruct l as [|a [|b l]]; [discriminate|discriminate|]. cbn [hex_pairs] in H.
    destruct (hex_digit a) as [m|] eqn:Ea; [|discriminate]. destruct (hex_digit b) as [n|] eqn:Eb; [|discriminate].
    destruct (hex_pairs l) as [r|] eqn:El; [|discriminate]. injection H as <- <-.
    destruct (IH l El) as (M & L). apply hex_digit_sound in Ea, Eb. destruct Ea as (Lm & Ua), Eb as (Ln & Ub).
    split; [|cbn [length]; lia]. rewrite hex_bytes_cons, list_ascii_app. cbn [map]. rewrite Ua, Ub, M.
    unfold hex_byte. rewrite to_N_byte_of_N. rewrite N.mod_small by lia.
    replace ((16 * m + n) / 16) with m by (rewrite N.mul_comm, N.div_add_l by lia; rewrite N.div_small by exact Ln; lia).
    replace ((16 * m + n) mod 16) with n by (rewrite N.mul_comm, N.add_comm, N.mod_add by lia; rewrite N.mod_small by exact Ln; reflexivity).
    reflexivity.
Qed.
Lemma hex_pairs_split k : forall a b u, length a = (2 * k)%nat -> hex_pairs (a ++ b) = Some u ->
  hex_pairs a = Some (firstn k u) /\ hex_pairs b = Some (skipn k u).
Proof.
  induction k as [|k IH]; intros a b u L H.
  - destruct a; [|discriminate]. cbn in *. auto.
  - destruct a as [|x [|y a]]; cbn [length] in L; try lia. cbn [app hex_pairs] in H |- *.
    destruct (hex_digit x); [|discriminate]. destruct (hex_digit y); [|discriminate].
    destruct (hex_pairs (a ++ b)) as [r|] eqn:E; [|discriminate]. injection H as <-.
    destruct (IH a b r) as (H1 & H2); [lia|exact E|]. rewrite H1. cbn [firstn skipn]. auto.
Qed.
Lemma skipn_add {A} a b (l : list A) : skipn a (skipn b l) = skipn (b + a) l.
Proof. revert l. induction b as [|b IH]; intros [|x l]; cbn; auto. destruct a; reflexivity. Qed.
Lemma is_hyphen_eq o : is_hyphen o = true -> o = Some "-"%char.
Proof. destruct o as [c|]; [|discriminate]. cbn. intros H. apply Ascii.eqb_eq in H. congruence. Qed.
Lemma split_at {A} n (l : list A) x : nth_error l n = Some x -> l = firstn n l ++ x :: skipn (S n) l.
Proof.
  revert l. induction n as [|n IH]; intros [|y l] H; try discriminate; cbn in *; [congruence|]. f_equal. apply IH, H.
Qed.
Lemma parse_hyphenated_sound s u : parse_hyphenated s = Some u ->
  guid_ok u /\ map upper_ascii s = list_ascii_of_string (guid_text u).
Proof.
  unfold parse_hyphenated.
  destruct ((length s =? 36)%nat && is_hyphen (nth_error s 8) && is_hyphen (nth_error s 13)
     && is_hyphen (nth_error s 18) && is_hyphen (nth_error s 23)) eqn:C; [|discriminate].
  rewrite !andb_true_iff in C. destruct C as ((((L & H1) & H2) & H3) & H4). apply Nat.eqb_eq in L.
  apply is_hyphen_eq in H1, H2, H3, H4. intros H.
  apply (hex_pairs_split 4) in H; [|rewrite firstn_length; lia]. destruct H as (P1 & H).
  apply (hex_pairs_split 2) in H; [|rewrite firstn_length, skipn_length; lia]. destruct H as (P2 & H).
  apply (hex_pairs_split 2) in H; [|rewrite firstn_length, skipn_length; lia]. destruct H as (P3 & H).
  apply (hex_pairs_split 2) in H; [|rewrite firstn_length, skipn_length; lia]. destruct H as (P4 & P5).
  rewrite !skipn_add in *. cbn [Nat.add] in *.
  apply hex_pairs_sound in P1, P2, P3, P4, P5. destruct P1 as (P1 & _), P2 as (P2 & _), P3 as (P3 & _), P4 as (P4 & _), P5 as (P5 & L5).
  split.
  { unfold guid_ok. rewrite !skipn_length in L5. lia. }
  rewrite guid_text_list, <- P1, <- P2, <- P3, <- P4, <- P5.
  assert (E8 : s = firstn 8 s ++ "-"%char :: skipn 9 s) by (apply split_at, H1).
  assert (E13 : skipn 9 s = firstn 4 (skipn 9 s) ++ "-"%char :: skipn 14 s).
  { replace (skipn 14 s) with (skipn 5 (skipn 9 s)) by (rewrite skipn_add; reflexivity). apply split_at. rewrite nth_error_skipn. exact H2. }
  assert (E18 : skipn 14 s = firstn 4 (skipn 14 s) ++ "-"%char :: skipn 19 s).
  { replace (skipn 19 s) with (skipn 5 (skipn 14 s)) by (rewrite skipn_add; reflexivity). apply split_at. rewrite nth_error_skipn. exact H3. }
  assert (E23 : skipn 19 s = firstn 4 (skipn 19 s) ++ "-"%char :: skipn 24 s).
  { replace (skipn 24 s) with (skipn 5 (skipn 19 s)) by (rewrite skipn_add; reflexivity). apply split_at. rewrite nth_error_skipn. exact H4. }
  transitivity (map upper_ascii (firstn 8 s ++ "-"%char :: firstn 4 (skipn 9 s) ++ "-"%char :: firstn 4 (skipn 14 s) ++
                  "-"%char :: firstn 4 (skipn 19 s) ++ "-"%char :: skipn 24 s)).
  - rewrite <- E23, <- E18, <- E13, <- E8. reflexivity.
  - repeat (rewrite map_app; cbn [map]). reflexivity.
Qed.
Lemma parse_hyphenated_case s t u : guid_ok u -> map upper_ascii s = map upper_ascii t -> list_ascii_of_string (guid_text u) = t ->
  parse_hyphenated s = Some u.
Proof.
  intros G H <-. rewrite <- parse_hyphenated_upper, H, parse_hyphenated_upper. apply parse_hyphenated_text, G.
Qed.
Lemma map_upper s t : same_text s t -> map upper_ascii (list_ascii_of_string s) = map upper_ascii (list_ascii_of_string t).
Proof. intros H. rewrite <- !upper_list. apply same_text_upper in H. congruence. Qed.
Lemma guid_text_upper u : guid_ok u -> upper (guid_text u) = guid_text u.
Proof.
  intros G. apply list_ascii_inj. rewrite upper_list. destruct (parse_hyphenated_sound _ _ (parse_hyphenated_text u G)) as (_ & H). exact H.
Qed.
Lemma hex_bytes_upper u : upper (hex_bytes u) = hex_bytes u.
Proof.
  apply list_ascii_inj. rewrite upper_list. destruct (hex_pairs_sound u (list_ascii_of_string (hex_bytes u))) as (H & _); [|exact H].
  rewrite <- (app_nil_r (list_ascii_of_string _)), hex_pairs_bytes. cbn. rewrite app_nil_r. reflexivity.
Qed.
(** Every way of writing a GUID parses to it. *)
Lemma denotes_parse s u : guid_ok u -> denotes s u -> uuid_try_parse s = Some u.
Proof.
  intros G D. destruct D as [s u H|s u H|t u H|t u H]; unfold uuid_try_parse.
  - rewrite (same_text_length _ _ H), guid_text_length by exact G. eapply parse_hyphenated_case; [exact G|apply map_upper, H|reflexivity].
  - rewrite (same_text_length _ _ H), hex_bytes_length. unfold guid_ok in G. rewrite G. cbn [Nat.mul Nat.add].
    rewrite <- hex_pairs_upper, (map_upper _ _ H), hex_pairs_upper.
    rewrite <- (app_nil_r (list_ascii_of_string _)), hex_pairs_bytes. cbn. rewrite app_nil_r. reflexivity.
  - pose proof (same_text_length _ _ H) as L. rewrite guid_text_length in L by exact G.
    rewrite !list_ascii_app. cbn [list_ascii_of_string]. rewrite !app_length, L. cbn [length Nat.add].
    cbn [app]. rewrite last_last, removelast_last. rewrite Ascii.eqb_refl. cbn [andb].
    change (Ascii.eqb "}" "}") with true. cbn [andb]. eapply parse_hyphenated_case; [exact G|apply map_upper, H|reflexivity].
  - pose proof (same_text_length _ _ H) as L. rewrite guid_text_length in L by exact G.
    rewrite !list_ascii_app, app_length, L. cbn [list_ascii_of_string length Nat.add].
    change (firstn 9 _) with urn_prefix. change (ascii_list_eqb urn_prefix urn_prefix) with true. cbn [app skipn].
    eapply parse_hyphenated_case; [exact G|apply map_upper, H|reflexivity].
Qed.
Lemma same_text_of l u : map upper_ascii l = list_ascii_of_string (guid_text u) -> guid_ok u ->
  same_text (string_of_list_ascii l) (guid_text u).
Proof.
  intros H G. apply same_text_upper. apply list_ascii_inj. rewrite upper_list, list_ascii_of_string_of_list_ascii, (guid_text_upper u G). exact H.
Qed.
Lemma ascii_list_eqb_eq a : forall b, ascii_list_eqb a b = true -> a = b.
Proof.
  induction a as [|x a IH]; intros [|y b] H; try discriminate; [reflexivity|]. cbn in H. apply andb_true_iff in H. destruct H as (H1 & H2).
  apply Ascii.eqb_eq in H1. subst. f_equal. apply IH, H2.
Qed.
Lemma parse_denotes s u : uuid_try_parse s = Some u -> guid_ok u /\ denotes s u.
Proof.
  intros H.
  assert (C : length (list_ascii_of_string s) = 32%nat \/ length (list_ascii_of_string s) = 36%nat \/
              length (list_ascii_of_string s) = 38%nat \/ length (list_ascii_of_string s) = 45%nat).
  { unfold uuid_try_parse in H. destruct (length (list_ascii_of_string s)) as [|n]; [discriminate|].
    do 45 (destruct n as [|n]; [solve [discriminate H|auto]|]). discriminate. }
  unfold uuid_try_parse in H.
  assert (S : s = string_of_list_ascii (list_ascii_of_string s)) by (symmetry; apply string_of_list_ascii_of_string).
  destruct C as [C|[C|[C|C]]]; rewrite C in H.
  - apply hex_pairs_sound in H. destruct H as (H & L). split; [unfold guid_ok; lia|]. apply dn_simple.
    apply same_text_upper, list_ascii_inj. rewrite upper_list, hex_bytes_upper. exact H.
  - apply parse_hyphenated_sound in H. destruct H as (G & H). split; [exact G|]. apply dn_hyphenated.
    rewrite S. apply same_text_of; auto.
  - destruct (list_ascii_of_string s) as [|o r] eqn:E; [discriminate|].
    destruct (Ascii.eqb o "{" && Ascii.eqb (last r " "%char) "}") eqn:B; [|discriminate].
    apply andb_true_iff in B. destruct B as (B1 & B2). apply Ascii.eqb_eq in B1, B2.
    apply parse_hyphenated_sound in H. destruct H as (G & H). split; [exact G|].
    assert (R : r = removelast r ++ ["}"%char]).
    { rewrite <- B2. apply app_removelast_last. intros ->. discriminate. }
    replace s with ("{" ++ string_of_list_ascii (removelast r) ++ "}")%string.
    { apply dn_braced, same_text_of; auto. }
    apply list_ascii_inj. rewrite E, !list_ascii_app, list_ascii_of_string_of_list_ascii. cbn [list_ascii_of_string app]. rewrite <- R, B1. reflexivity.
  - destruct (ascii_list_eqb (firstn 9 (list_ascii_of_string s)) urn_prefix) eqn:B; [|discriminate].
    apply ascii_list_eqb_eq in B. apply parse_hyphenated_sound in H. destruct H as (G & H). split; [exact G|].
    replace s with ("urn:uuid:" ++ string_of_list_ascii (skipn 9 (list_ascii_of_string s)))%string.
    { apply dn_urn, same_text_of; auto. }
    apply list_ascii_inj. rewrite list_ascii_app, list_ascii_of_string_of_list_ascii.
    change (list_ascii_of_string "urn:uuid:") with urn_prefix. rewrite <- B. apply firstn_skipn.
Qed.

(** * The table *)
(** Names and GUIDs are in capital letters; no name is a way of writing a GUID or begins like one. *)
Definition plain (s : string) : bool :=
  match s with String c r => negb (Ascii.eqb c "{") && negb (String.prefix "URN:" s) | EmptyString => false end.
Definition row_ok (x : string * string * os_label) : bool :=
  let '(nm, g, _) := x in
  String.eqb (upper nm) nm && (match uuid_try_parse nm with None => true | _ => false end) && plain nm && plain g.
Lemma table_rows : forallb row_ok type_table = true.
Proof. vm_compute. reflexivity. Qed.
Fixpoint distinct (l : list string) : bool :=
  match l with [] => true | x :: r => negb (existsb (String.eqb x) r) && distinct r end.
Lemma distinct_nodup l : distinct l = true -> NoDup l.
Proof.
  induction l as [|x l IH]; intros H; [constructor|]. cbn in H. apply andb_true_iff in H. destruct H as (H1 & H2).
  constructor; [|auto]. intros I. apply negb_true_iff in H1. assert (E : existsb (String.eqb x) l = true); [|congruence].
  apply existsb_exists. exists x. split; [exact I|apply String.eqb_refl].
Qed.
Lemma table_names_nodup : NoDup (map (fun x => fst (fst x)) type_table).
Proof. apply distinct_nodup. vm_compute. reflexivity. Qed.
Lemma table_guids_nodup : NoDup (map (fun x => snd (fst x)) type_table).
Proof. apply distinct_nodup. vm_compute. reflexivity. Qed.
Lemma nodup_map_inj {A B} (f : A -> B) l x y : NoDup (map f l) -> In x l -> In y l -> f x = f y -> x = y.
Proof.
  induction l as [|z l IH]; intros ND Hx Hy E; [destruct Hx|]. cbn in ND. inversion ND as [|? ? N1 N2]; subst.
  destruct Hx as [->|Hx], Hy as [->|Hy]; auto.
  - exfalso. apply N1. rewrite E. apply in_map, Hy.
  - exfalso. apply N1. rewrite <- E. apply in_map, Hx.
Qed.
Lemma row_facts nm g o : In (nm, g, o) type_table ->
  upper nm = nm /\ uuid_try_parse nm = None /\ plain nm = true /\ plain g = true /\
  guid_text (lit_uuid g) = g /\ guid_ok (lit_uuid g) /\ upper g = g.
Proof.
  intros I. pose proof table_rows as R. rewrite forallb_forall in R. specialize (R _ I). unfold row_ok in R.
  rewrite !andb_true_iff in R. destruct R as (((R1 & R2) & R3) & R4). apply String.eqb_eq in R1.
  pose proof table_texts as T. rewrite Forall_forall in T. destruct (T _ I) as (T1 & T2). cbn [fst snd] in T1, T2.
  repeat (split; [assumption || (destruct (uuid_try_parse nm); [discriminate|reflexivity])|]). rewrite <- T1. apply guid_text_upper, T2.
Qed.
Lemma find_by_str_spec t u :
  match find_by_str t u with
  | Some ty => exists nm g o, In (nm, g, o) t /\ (u = g \/ u = nm) /\ ty = mkType (lit_uuid g) o
  | None => forall nm g o, In (nm, g, o) t -> u <> g /\ u <> nm
  end.
Proof.
  induction t as [|[[nm g] o] t IH]; cbn [find_by_str]; [intros ? ? ? []|].
  destruct (String.eqb u g || String.eqb u nm) eqn:E.
  - exists nm, g, o. split; [left; reflexivity|]. split; [|reflexivity]. apply orb_true_iff in E. rewrite !String.eqb_eq in E. exact E.
  - apply orb_false_iff in E. rewrite !String.eqb_neq in E. destruct (find_by_str t u) as [ty|].
    + destruct IH as (nm' & g' & o' & I & H). exists nm', g', o'. split; [right; exact I|exact H].
    + intros nm' g' o' [X|I]; [injection X as <- <- <-; exact E|apply (IH _ _ _ I)].
Qed.
(** Looking a row up by its name or its GUID finds that row. *)
Lemma find_row nm g o u : In (nm, g, o) type_table -> u = nm \/ u = g ->
  find_by_str type_table u = Some (mkType (lit_uuid g) o).
Proof.
  intros I H. destruct (row_facts _ _ _ I) as (_ & P & _ & _ & T & G & _).
  pose proof (find_by_str_spec type_table u) as F. destruct (find_by_str type_table u) as [ty|].
  - destruct F as (nm' & g' & o' & I' & H' & ->). destruct (row_facts _ _ _ I') as (_ & P' & _ & _ & T' & G' & _).
    assert (PG : uuid_try_parse g = Some (lit_uuid g)) by (rewrite <- T at 1; apply try_parse_text, G).
    assert (PG' : uuid_try_parse g' = Some (lit_uuid g')) by (rewrite <- T' at 1; apply try_parse_text, G').
    assert (X : (nm', g', o') = (nm, g, o)); [|congruence].
    destruct H as [-> | ->], H' as [E|E]; subst.
    + congruence.
    + eapply (nodup_map_inj (fun x => fst (fst x))); [apply table_names_nodup|exact I'|exact I|reflexivity].
    + eapply (nodup_map_inj (fun x => snd (fst x))); [apply table_guids_nodup|exact I'|exact I|reflexivity].
    + congruence.
  - destruct (F _ _ _ I) as (F1 & F2). destruct H; contradiction.
Qed.
(** A text that is not the name of a type nor a hyphenated GUID is not in the table. *)
Lemma not_in_table s : (forall nm g o, In (nm, g, o) type_table -> upper s <> g /\ upper s <> nm) ->
  find_by_str type_table (upper s) = None.
Proof.
  intros H. pose proof (find_by_str_spec type_table (upper s)) as F. destruct (find_by_str type_table (upper s)) as [ty|]; [|reflexivity].
  destruct F as (nm & g & o & I & C & _). destruct (H _ _ _ I). destruct C; contradiction.
Qed.
Lemma from_uuid_unknown u : guid_ok u -> not_well_known u -> type_from_uuid u = mkType u OsNone.
Proof.
  intros G H. unfold type_from_uuid. pose proof (find_by_uuid_spec type_table u table_texts G) as F.
  destruct (find_by_uuid type_table u) as [t|]; [|reflexivity]. destruct F as (_ & nm & I). destruct (H _ _ I).
Qed.
Lemma from_uuid_known nm g o : In (nm, g, o) type_table -> type_from_uuid (lit_uuid g) = mkType (lit_uuid g) o.
Proof.
  intros I. destruct (row_facts _ _ _ I) as (_ & _ & _ & _ & T & G & _). unfold type_from_uuid.
  pose proof (find_by_uuid_spec type_table _ table_texts G) as F. rewrite T in F.
  destruct (find_by_uuid type_table (lit_uuid g)) as [t|]; [|destruct (F _ _ I)].
  destruct F as (<- & nm' & I').
  assert (X : (nm', g, os t) = (nm, g, o)) by (eapply (nodup_map_inj (fun x => snd (fst x))); [apply table_guids_nodup|exact I'|exact I|reflexivity]).
  injection X as _ <-. destruct t; reflexivity.
Qed.
Lemma from_uuid_guid u : guid_ok u -> guid (type_from_uuid u) = u.
Proof.
  intros G. unfold type_from_uuid. pose proof (find_by_uuid_spec type_table u table_texts G) as F.
  destruct (find_by_uuid type_table u) as [t|]; [apply F|reflexivity].
Qed.
Lemma known_dec u : (exists nm o, In (nm, guid_text u, o) type_table) \/ not_well_known u.
Proof.
  unfold not_well_known. induction type_table as [|[[nm g] o] t IH]; [right; intros ? ? []|].
  destruct (string_dec g (guid_text u)) as [->|N]; [left; exists nm, o; left; reflexivity|].
  destruct IH as [(nm' & o' & I)|H]; [left; exists nm', o'; right; exact I|].
  right. intros nm' o' [X|I]; [congruence|apply (H _ _ I)].
Qed.
(** Forms other than the hyphenated one are never in the table. *)
Lemma other_form_not_in_table s u : guid_ok u -> denotes s u -> length (list_ascii_of_string s) <> 36%nat ->
  find_by_str type_table (upper s) = None.
Proof.
  intros G D L. apply not_in_table. intros nm g o I. destruct (row_facts _ _ _ I) as (UN & P & PN & PG & T & GG & UG).
  assert (LU : length (list_ascii_of_string (upper s)) = length (list_ascii_of_string s)) by (rewrite upper_list; apply map_length).
  split.
  - intros E. apply L. rewrite <- LU, E, <- T. apply guid_text_length, GG.
  - intros E. destruct D as [s u H|s u H|t u H|t u H].
    + apply L. rewrite (same_text_length _ _ H). apply guid_text_length, G.
    + assert (X : denotes (upper s) u).
      { apply dn_simple. apply same_text_upper in H. apply same_text_upper. rewrite H, hex_bytes_upper. apply hex_bytes_upper. }
      apply denotes_parse in X; [|exact G]. rewrite E in X. congruence.
    + rewrite <- E in PN. rewrite upper_app in PN. vm_compute in PN. discriminate.
    + rewrite <- E in PN. rewrite upper_app in PN. cbn in PN. discriminate.
Qed.
Lemma brace_upper a : Ascii.eqb (upper_ascii a) "{" = Ascii.eqb a "{" /\ Ascii.eqb (upper_ascii a) "}" = Ascii.eqb a "}".
Proof. destruct a as [[] [] [] [] [] [] [] []]; split; reflexivity. Qed.
Lemma last_map_upper l d : upper_ascii d = d -> last (map upper_ascii l) d = upper_ascii (last l d).
Proof. intros D. induction l as [|a [|b l] IH]; cbn [map last] in *; auto. Qed.
Lemma removelast_map {A B} (f : A -> B) l : removelast (map f l) = map f (removelast l).
Proof. induction l as [|a [|b l] IH]; cbn [map removelast] in *; auto. f_equal. exact IH. Qed.
Lemma try_parse_upper s : length (list_ascii_of_string s) <> 45%nat -> uuid_try_parse (upper s) = uuid_try_parse s.
Proof.
  intros L. unfold uuid_try_parse. rewrite upper_list, map_length.
  destruct (list_ascii_of_string s) as [|o r] eqn:E; [reflexivity|].
  rewrite hex_pairs_upper, parse_hyphenated_upper. cbn [map]. destruct (brace_upper o) as (-> & _).
  rewrite last_map_upper by reflexivity. destruct (brace_upper (last r " "%char)) as (_ & ->).
  rewrite removelast_map, parse_hyphenated_upper.
  set (n := length (o :: r)) in *.
  assert (K : forall (a b c x y : option uuid), match n with 32%nat => a | 36%nat => b | 38%nat => c | 45%nat => x | _ => None end =
              match n with 32%nat => a | 36%nat => b | 38%nat => c | 45%nat => y | _ => None end).
  { intros a b c x y. clearbody n. do 45 (destruct n as [|n]; [reflexivity|]). destruct n as [|n]; [congruence|reflexivity]. }
  apply K.
Qed.
