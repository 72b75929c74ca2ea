(** TextFacts.v - lemmas about printed texts. *)
From Verif Require Export SpecText TypeFacts.
Open Scope list_scope.
Open Scope N_scope.

(** * Numbers *)
Lemma value_snoc s c : value (s ++ [c]) = 10 * value s + (c - 48).
Proof. unfold value. rewrite fold_left_app. reflexivity. Qed.
Lemma numeral_digit n : n < 10 -> numeral [48 + n] n.
Proof.
  intros H. split; [discriminate|]. split; [repeat constructor; lia|]. split; [unfold value; cbn; lia|].
  intros r E. injection E as _ <-. reflexivity.
Qed.
Lemma numeral_step s n c : numeral s n -> 0 < n -> c < 10 -> numeral (s ++ [48 + c]) (10 * n + c).
Proof.
  intros (A & B & C & D) P H. split; [destruct s; discriminate|].
  split; [apply Forall_app; split; [exact B|repeat constructor; lia]|]. split; [rewrite value_snoc; lia|].
  intros r E. destruct s as [|x s]; [contradiction|]. cbn in E. injection E as E1 E2. subst x.
  specialize (D s eq_refl). subst s. unfold value in C. cbn in C. lia.
Qed.
Lemma show_digits_ok f : forall n, n < 10 ^ (N.of_nat f + 1) -> numeral (show_digits f n) n.
Proof.
  induction f as [|f IH]; intros n H; cbn [show_digits].
  - change (10 ^ (N.of_nat 0 + 1)) with 10 in H. rewrite N.mod_small by exact H. apply numeral_digit, H.
  - destruct (N.ltb_spec n 10) as [L|L]; [apply numeral_digit, L|].
    assert (M : n mod 10 < 10) by (apply N.mod_lt; discriminate).
    assert (E : n = 10 * (n / 10) + n mod 10) by (apply N.div_mod; discriminate).
    rewrite E at 3. apply numeral_step; [apply IH| |exact M].
    + apply N.div_lt_upper_bound; [discriminate|]. replace (N.of_nat (S f) + 1) with (N.succ (N.of_nat f + 1)) in H by lia.
      rewrite N.pow_succ_r' in H. exact H.
    + apply N.div_str_pos. split; [reflexivity|exact L].
Qed.
Lemma show_int_ok n : n < 2 ^ 64 -> numeral (show_int n) n.
Proof. intros H. apply show_digits_ok. eapply N.lt_trans; [exact H|reflexivity]. Qed.
Lemma numeral_fun s n m : numeral s n -> numeral s m -> n = m.
Proof. intros (_ & _ & A & _) (_ & _ & B & _). congruence. Qed.

(** * GUIDs *)
Lemma chars_inj s t : chars s = chars t -> s = t.
Proof.
  unfold chars. intros H. apply list_ascii_inj. revert H. generalize (list_ascii_of_string s) (list_ascii_of_string t).
  induction l as [|a l IH]; intros [|b r] E; try discriminate; [reflexivity|]. injection E as E1 E2.
  f_equal; [apply ascii_N_inj, E1|apply IH, E2].
Qed.
Lemma chars_app s t : chars (s ++ t) = chars s ++ chars t.
Proof. unfold chars. induction s as [|a s IH]; cbn; [reflexivity|]. f_equal. exact IH. Qed.
Lemma low_digit_char n : n < 16 -> exists a, low_digit n = Ascii.N_of_ascii a /\ same_char a (hex_char n).
Proof.
  intros H. exists (Ascii.ascii_of_N (low_digit n)).
  assert (B : low_digit n < 256) by (unfold low_digit; destruct (n <? 10); lia).
  split; [symmetry; apply Ascii.N_ascii_embedding, B|].
  unfold low_digit, hex_char. destruct (N.ltb_spec n 10) as [L|L]; [left; reflexivity|right].
  exists (n - 10). split; [lia|right]. split; f_equal; lia.
Qed.
Lemma show_byte_char b : exists t, show_byte b = chars t /\ same_text t (hex_byte b).
Proof.
  assert (B := Byte.to_N_bounded b).
  destruct (low_digit_char (Byte.to_N b / 16)) as (a1 & A1 & A2); [apply N.div_lt_upper_bound; [discriminate|lia]|].
  destruct (low_digit_char (Byte.to_N b mod 16)) as (b1 & B1 & B2); [apply N.mod_lt; discriminate|].
  exists (String a1 (String b1 "")). unfold show_byte, hex_byte, chars, same_text. cbn [list_ascii_of_string map].
  rewrite A1, B1. split; [reflexivity|]. constructor; [exact A2|]. constructor; [exact B2|constructor].
Qed.
Lemma same_text_app a b c d : same_text a c -> same_text b d -> same_text (a ++ b) (c ++ d).
Proof.
  unfold same_text. assert (L : forall s t, list_ascii_of_string (s ++ t) = list_ascii_of_string s ++ list_ascii_of_string t).
  { induction s as [|x s IH]; intros t; cbn; [reflexivity|]. f_equal. apply IH. }
  intros H1 H2. rewrite !L. apply Forall2_app; assumption.
Qed.
Lemma hex_bytes_cons b l : hex_bytes (b :: l) = (hex_byte b ++ hex_bytes l)%string.
Proof. destruct l as [|c l]; [unfold hex_bytes, hex_byte; reflexivity|reflexivity]. Qed.
Lemma show_bytes_char l : exists t, flat_map show_byte l = chars t /\ same_text t (hex_bytes l).
Proof.
  induction l as [|b l (t & T1 & T2)]; [exists ""%string; split; [reflexivity|constructor]|].
  destruct (show_byte_char b) as (s & S1 & S2). exists (s ++ t)%string. cbn [flat_map]. rewrite S1, T1, chars_app.
  split; [reflexivity|]. rewrite hex_bytes_cons. apply same_text_app; assumption.
Qed.
Lemma same_text_refl s : same_text s s.
Proof. unfold same_text. induction (list_ascii_of_string s); constructor; [left; reflexivity|assumption]. Qed.
Lemma show_uuid_spells u : spells_guid (show_uuid u) u.
Proof.
  unfold show_uuid, guid_text.
  destruct (show_bytes_char (firstn 4 u)) as (a & A1 & A2), (show_bytes_char (firstn 2 (skipn 4 u))) as (b & B1 & B2),
    (show_bytes_char (firstn 2 (skipn 6 u))) as (c & C1 & C2), (show_bytes_char (firstn 2 (skipn 8 u))) as (d & D1 & D2),
    (show_bytes_char (skipn 10 u)) as (e & E1 & E2).
  exists (a ++ "-" ++ b ++ "-" ++ c ++ "-" ++ d ++ "-" ++ e)%string. rewrite A1, B1, C1, D1, E1, !chars_app.
  split; [reflexivity|]. unfold guid_text. repeat (apply same_text_app; [first [assumption|apply same_text_refl]|]). assumption.
Qed.
Lemma spells_fun s u v : guid_ok u -> guid_ok v -> spells_guid s u -> spells_guid s v -> u = v.
Proof.
  intros U V (t & -> & A) (t' & E & B). apply chars_inj in E. subst t'.
  pose proof (denotes_parse t u U (dn_hyphenated _ _ A)) as X. pose proof (denotes_parse t v V (dn_hyphenated _ _ B)) as Y.
  congruence.
Qed.
Lemma guid_text_length u : guid_ok u -> length (list_ascii_of_string (guid_text u)) = 36%nat.
Proof. unfold guid_ok. do 17 (destruct u as [|? u]; try discriminate). reflexivity. Qed.
Lemma spells_length s u : guid_ok u -> spells_guid s u -> length s = 36%nat.
Proof.
  intros U (t & -> & A). unfold chars. rewrite map_length, (same_text_length _ _ A). apply guid_text_length, U.
Qed.

(** * Taking a text apart from its end *)
Lemma split_len {A} (a b a' b' : list A) : length b = length b' -> a ++ b = a' ++ b' -> a = a' /\ b = b'.
Proof.
  intros L E. assert (LA : length a = length a') by (apply (f_equal (@length A)) in E; rewrite !app_length in E; lia).
  clear L. revert a' LA E. induction a as [|x a IH]; intros [|y a'] LA E; try discriminate; [split; auto|].
  cbn in E. injection E as -> E. destruct (IH a') as (-> & ->); auto.
Qed.
Lemma split_head (c : N) (P : N -> Prop) d : forall d' x x', ~ P c -> Forall P d -> Forall P d' ->
  d ++ c :: x = d' ++ c :: x' -> d = d' /\ x = x'.
Proof.
  induction d as [|a d IH]; intros d' x x' N D D' E.
  - destruct d' as [|b d']; cbn in E; injection E; intros; subst; [split; reflexivity|inversion D'; contradiction].
  - inversion D; subst. destruct d' as [|b d']; cbn in E; injection E; intros; subst; [contradiction|].
    inversion D'; subst. destruct (IH d' x x') as (-> & ->); auto.
Qed.
Lemma split_tail (c : N) (P : N -> Prop) a a' d d' : ~ P c -> Forall P d -> Forall P d' ->
  a ++ [c] ++ d = a' ++ [c] ++ d' -> a = a' /\ d = d'.
Proof.
  intros N D D' E. apply (f_equal (@rev _)) in E. rewrite !rev_app_distr in E. cbn [rev app] in E.
  rewrite <- !app_assoc in E. cbn [app] in E.
  apply (split_head c P) in E; [|exact N|apply Forall_rev; assumption..].
  destruct E as (E1 & E2). split; [rewrite <- (rev_involutive a), E2|rewrite <- (rev_involutive d), E1]; apply rev_involutive.
Qed.
