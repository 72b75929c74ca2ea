(** Props_Packing.v - what fits on a disk (C99). *)
From Verif Require Import SpecPacking MapFacts AllocFacts RoomFacts Props_Alloc Props_More Props_Build Props_Room Samples.
Open Scope list_scope.
Open Scope N_scope.

(** * Asking for less, or with less on the disk *)
Lemma mod_divides s a b : (b | a) -> s mod a = 0 -> a <> 0 -> b <> 0 -> s mod b = 0.
Proof.
  intros D M A B. apply N.mod_divide in M; [|exact A]. apply N.mod_divide; [exact B|]. eapply N.divide_trans; eauto.
Qed.
Lemma blocks_mono lb a b : a <= b -> blocks_for a lb <= blocks_for b lb.
Proof. intros L. unfold blocks_for. apply N.div_le_mono; [destruct lb; discriminate|lia]. Qed.
Theorem C99_monotone : forall oc nm size ty fl al rnd nm' size' ty' fl' al' rnd' g g' h id g1,
  header_of g h -> header_of g' h -> usable_ok h -> arranged h (g_partitions g) -> map_ok (g_partitions g') ->
  c_lb (g_config g') = c_lb (g_config g) -> c_change_partition_count (g_config g) = false ->
  c_change_partition_count (g_config g') = false -> 128 <= num_parts h -> num_parts h + 1 < 2 ^ 32 ->
  (forall k p, has (g_partitions g') k p -> used p -> has (g_partitions g) k p) ->
  1 <= size' <= size -> 1 <= alignment al' -> (alignment al' | alignment al) ->
  1 <= alignment al -> alignment al + blocks_for size (c_lb (g_config g)) < 2 ^ 64 ->
  add_partition oc nm size ty fl al rnd g = (Ok id, g1) ->
  exists id' g1' p p', add_partition oc nm' size' ty' fl' al' rnd' g' = (Ok id', g1') /\
    has (g_partitions g1) id p /\ has (g_partitions g1') id' p' /\ id' <= id /\ first_lba p' <= first_lba p.
Proof.
  intros oc nm size ty fl al rnd nm' size' ty' fl' al' rnd' g g' h id g1 HH HH' HU HA MO' LB HC HC' N1 N2 SUB HS A1' DV A1 A2 E.
  set (n := blocks_for size (c_lb (g_config g))) in *. set (n' := blocks_for size' (c_lb (g_config g'))).
  assert (LN : n' <= n) by (unfold n', n; rewrite LB; apply blocks_mono; lia).
  assert (LA : alignment al' <= alignment al) by (apply N.divide_pos_le; [lia|exact DV]).
  assert (HA' : arranged h (g_partitions g')).
  { constructor; [exact MO'| |].
    - intros k p P U. apply (ar_range _ _ HA k p (SUB k p P U) U).
    - intros j p k q P Q UP UQ. apply (ar_apart _ _ HA); auto. }
  pose proof (C32_no_overwrite_partial oc nm size ty fl al rnd g h id g1 HH HU HA (conj A1 (or_intror A2)) HC N2 E) as ((I1 & I2) & _).
  destruct (C27_lowest_position_partial oc nm size ty fl al rnd g h id g1 HH HU HA (conj A1 (or_intror A2)) E) as (start & ((F1 & F2) & _) & (_ & PL)).
  fold n in F2, PL.
  assert (NU : ~ is_in_use id (g_partitions g')).
  { intros (p & P & U). apply I2. exists p. split; [apply SUB; assumption|exact U]. }
  assert (FT : fits_at h (g_partitions g') n' (alignment al') start).
  { split; [apply (mod_divides start (alignment al)); auto; lia|]. intros x X. destruct (F2 x) as (R & F); [lia|]. split; [exact R|].
    intros k p P U. apply F with k; auto. }
  destruct (C60_added_partial oc nm' size' ty' fl' al' rnd' g' h id start HH' HU HA' HC' N1 N2 ltac:(lia) A1' ltac:(fold n'; lia) I1 NU FT)
    as (id' & start' & m' & E' & SI & SS & (_ & PL')).
  eexists id', _, _, _. split; [exact E'|]. split; [apply PL; left; split; reflexivity|].
  split; [apply PL'; left; split; reflexivity|]. split.
  - apply SI. split; assumption.
  - cbn [first_lba]. apply SS. exact FT.
Qed.
Print Assumptions C99_monotone.

(** * Filling an empty disk *)
Lemma round_up_spec a x : 1 <= a -> round_up a x mod a = 0 /\ x <= round_up a x /\ forall s, s mod a = 0 -> x <= s -> round_up a x <= s.
Proof.
  intros A. unfold round_up. split; [apply N.mod_mul; lia|]. split.
  - pose proof (N.div_mod (x + (a - 1)) a ltac:(lia)) as D. pose proof (N.mod_lt (x + (a - 1)) a ltac:(lia)). rewrite N.mul_comm in D. lia.
  - intros s M L. apply N.mod_divide in M; [|lia]. destruct M as (q & ->). apply N.mul_le_mono_r.
    apply N.lt_succ_r. apply N.div_lt_upper_bound; [lia|]. rewrite N.mul_succ_r, (N.mul_comm a q). lia.
Qed.
Lemma number_app ps p : forall i, number i (ps ++ [p]) = number i ps ++ [(i + lenN ps, p)].
Proof.
  induction ps as [|q ps IH]; intros i; cbn [app number]; [change (lenN (@nil partition)) with 0; rewrite N.add_0_r; reflexivity|].
  rewrite IH, lenN_cons. replace (i + 1 + lenN ps) with (i + (lenN ps + 1)) by lia. try (rewrite (N.add_comm 1 (lenN ps))). reflexivity.
Qed.
Lemma has_number ps : forall i k p, In (k, p) (number i ps) -> i <= k < i + lenN ps /\ In p ps.
Proof.
  induction ps as [|q ps IH]; intros i k p; cbn [number]; [intros []|]. rewrite lenN_cons. intros [E|E].
  - injection E as <- <-. split; [lia|left; reflexivity].
  - destruct (IH _ _ _ E). split; [lia|right; assumption].
Qed.
Lemma number_has ps : forall i k, i <= k < i + lenN ps -> exists p, In (k, p) (number i ps) /\ In p ps.
Proof.
  induction ps as [|q ps IH]; intros i k; cbn [number]; [change (lenN (@nil partition)) with 0; lia|]. rewrite lenN_cons. intros L.
  destruct (N.eq_dec k i) as [->|NE]; [exists q; split; left; reflexivity|].
  destruct (IH (i + 1) k ltac:(lia)) as (p & A & B). exists p. split; right; assumption.
Qed.
Lemma in_number ps : forall i p, In p ps -> exists k, In (k, p) (number i ps).
Proof.
  induction ps as [|q ps IH]; intros i p; [intros []|]. cbn [number]. intros [<-|I]; [exists i; left; reflexivity|].
  destruct (IH (i + 1) p I) as (k & K). exists k. right. exact K.
Qed.
Lemma number_ok ps : forall i, map_ok (number i ps).
Proof.
  induction ps as [|q ps IH]; intros i; [apply map_ok_nil|]. cbn [number]. apply map_ok_cons. split; [apply IH|].
  apply Forall_forall. intros [k p] I. apply has_number in I. cbn. lia.
Qed.
(** The first part of the disk is filled with [ps], up to block [next]. *)
Record packed (h : header) (a : N) (ps : list partition) (next : N) : Prop := mkPacked {
  pk_arranged : arranged h (numbered ps);
  pk_used : Forall used ps;
  pk_first : first_usable h <= next;
  pk_below : Forall (fun p => last_lba p < next) ps;
  pk_full : forall s, s mod a = 0 -> first_usable h <= s < next -> exists p, In p ps /\ covers p s }.
Lemma packed_in_use h a ps next : packed h a ps next -> forall k, is_in_use k (numbered ps) <-> 1 <= k <= lenN ps.
Proof.
  intros P k. rewrite numbered_eq. split.
  - intros (p & I & _). apply has_number in I. lia.
  - intros L. destruct (number_has ps 1 k ltac:(lia)) as (p & A & B). exists p. split; [exact A|].
    pose proof (pk_used _ _ _ _ P) as U. rewrite Forall_forall in U. apply U, B.
Qed.
Lemma packed_fits h a ps next n : packed h a ps next -> 1 <= a -> 1 <= n ->
  (round_up a next + n <= last_usable h + 1 -> smallest (fits_at h (numbered ps) n a) (round_up a next)) /\
  (last_usable h + 1 < round_up a next + n -> forall s, ~ fits_at h (numbered ps) n a s).
Proof.
  intros P A N1. destruct (round_up_spec a next A) as (R1 & R2 & R3).
  assert (LOW : forall s, fits_at h (numbered ps) n a s -> round_up a next <= s).
  { intros s (M & F). apply R3; [exact M|]. destruct (N.lt_ge_cases s next) as [L|L]; [exfalso|exact L].
    destruct (F s ltac:(lia)) as ((F1 & _) & F2). destruct (pk_full _ _ _ _ P s M) as (p & I & C); [lia|].
    rewrite numbered_eq in F2. destruct (in_number ps 1 p I) as (k & K). pose proof (pk_used _ _ _ _ P) as U. rewrite Forall_forall in U.
    apply (F2 k p K (U p I) C). }
  split.
  - intros L. split; [|exact LOW]. split; [exact R1|]. intros x X. pose proof (pk_first _ _ _ _ P). split; [lia|].
    intros k p K _ C. rewrite numbered_eq in K. apply has_number in K. destruct K as (_ & K).
    pose proof (pk_below _ _ _ _ P) as B. rewrite Forall_forall in B. specialize (B p K). unfold covers in C. lia.
  - intros L s F. specialize (LOW s F). destruct F as (_ & F). destruct (F (s + (n - 1)) ltac:(lia)) as ((_ & X) & _). lia.
Qed.
Lemma packed_more h a ps next n p : packed h a ps next -> 1 <= a -> 1 <= n -> used p ->
  first_lba p = round_up a next -> last_lba p = round_up a next + n - 1 -> round_up a next + n <= last_usable h + 1 ->
  packed h a (ps ++ [p]) (round_up a next + n).
Proof.
  intros [P1 P2 P3 P4 P5] A N1 U F L E. destruct (round_up_spec a next A) as (R1 & R2 & R3). rewrite Forall_forall in P4. constructor.
  - rewrite numbered_eq, number_app, <- numbered_eq. rewrite numbered_eq in *. constructor.
    + rewrite <- number_app. apply number_ok.
    + intros k q I UQ. apply in_app_or in I. destruct I as [I|[I|[]]]; [apply (ar_range _ _ P1 k q I UQ)|]. injection I as <- <-. lia.
    + assert (X : forall k q x, In (k, q) (number 1 ps) -> covers q x -> covers p x -> False).
      { intros k q x I C1 C2. apply has_number in I. destruct I as (_ & I). specialize (P4 q I). unfold covers in *. lia. }
      intros j q k r I J UQ UR NE x (C1 & C2). apply in_app_or in I. apply in_app_or in J.
      destruct I as [I|[I|[]]], J as [J|[J|[]]].
      * apply (ar_apart _ _ P1 j q k r I J UQ UR NE x). split; assumption.
      * injection J as <- <-. eapply X; eauto.
      * injection I as <- <-. eapply X; eauto.
      * injection I as <- <-. injection J as <- <-. apply NE. reflexivity.
  - apply Forall_app. split; [exact P2|constructor; [exact U|constructor]].
  - lia.
  - apply Forall_app. split; [apply Forall_forall; intros q I; specialize (P4 q I); lia|constructor; [lia|constructor]].
  - intros s M B. destruct (N.lt_ge_cases s next) as [LT|GE].
    + destruct (P5 s M) as (q & I & C); [lia|]. exists q. split; [apply in_or_app; left; exact I|exact C].
    + exists p. split; [apply in_or_app; right; left; reflexivity|]. specialize (R3 s M GE). unfold covers. lia.
Qed.
Lemma set_partitions_twice m m' g : set_partitions m (set_partitions m' g) = set_partitions m g.
Proof. reflexivity. Qed.
Lemma blocks_pos lb size : 1 <= size -> 1 <= blocks_for size lb.
Proof. intros H. unfold blocks_for. apply N.div_le_lower_bound; destruct lb; cbn [lb_u64]; lia. Qed.
Lemma fill_one oc al w g h ps next : let a := alignment al in let n := blocks_for (w_size w) (c_lb (g_config g)) in
  header_of g h -> usable_ok h -> c_change_partition_count (g_config g) = false -> 128 <= num_parts h -> num_parts h + 1 < 2 ^ 32 ->
  1 <= a -> wish_ok (c_lb (g_config g)) al w -> packed h a ps next -> lenN ps + 1 <= num_parts h ->
  round_up a next + n <= last_usable h + 1 ->
  let p := mkPart (w_type w) (w_guid w) (round_up a next) (round_up a next + n - 1) (w_flags w) (w_name w) in
  ask oc (wished al w) (set_partitions (numbered ps) g) = (Returned (VId (lenN ps + 1)), set_partitions (numbered (ps ++ [p])) g) /\
  packed h a (ps ++ [p]) (round_up a next + n).
Proof.
  intros a n HH HU HC N1 N2 A (W1 & W2 & W3) P L E p. set (g0 := set_partitions (numbered ps) g).
  assert (NB : 1 <= n) by apply blocks_pos, W1.
  destruct (packed_fits h a ps next n P A NB) as (FT & _). specialize (FT E).
  assert (NU : ~ is_in_use (lenN ps + 1) (numbered ps)) by (rewrite (packed_in_use _ _ _ _ P); lia).
  destruct (C60_added_partial oc (w_name w) (w_size w) (w_type w) (w_flags w) al (w_guid w) g0 h (lenN ps + 1) (round_up a next) HH HU
    (pk_arranged _ _ _ _ P) HC N1 N2 W1 A W3 ltac:(lia) NU (proj1 FT)) as (id & start & m' & EQ & SI & SS & PL).
  change (g_partitions g0) with (numbered ps) in *. change (c_lb (g_config g0)) with (c_lb (g_config g)) in *. fold a n in SS, PL.
  assert (ES : start = round_up a next) by (apply N.le_antisymm; [apply SS, FT|apply FT, SS]). subst start.
  assert (EI : id = lenN ps + 1).
  { apply N.le_antisymm; [apply SI; split; [lia|exact NU]|]. destruct SI as ((I1 & I2) & _).
    rewrite (packed_in_use _ _ _ _ P) in I2. lia. }
  subst id. split.
  - cbn [ask wished]. rewrite EQ. cbn [replied fst snd]. unfold replied. cbn [fst snd]. f_equal.
    unfold g0. rewrite set_partitions_twice. f_equal. destruct PL as (MO & PL). apply pmap_ext; [exact MO|rewrite numbered_eq; apply number_ok|].
    intros k q. rewrite PL. rewrite (numbered_eq (ps ++ [p])), number_app, <- numbered_eq. unfold has. rewrite in_app_iff. cbn [In].
    fold p. split.
    + intros [(-> & ->)|(_ & I)]; [right; left; f_equal; lia|left; exact I].
    + intros [I|[I|[]]]; [right|left; injection I as <- <-; split; [lia|reflexivity]].
      split; [|exact I]. rewrite numbered_eq in I. apply has_number in I. lia.
  - apply packed_more; auto.
Qed.
Lemma fill_all oc al g h ws : let a := alignment al in let lb := c_lb (g_config g) in
  header_of g h -> usable_ok h -> c_change_partition_count (g_config g) = false -> 128 <= num_parts h -> num_parts h + 1 < 2 ^ 32 ->
  1 <= a -> Forall (wish_ok lb al) ws -> forall ps next, packed h a ps next -> lenN ps + lenN ws <= num_parts h ->
  filled lb a next ws <= last_usable h + 1 ->
  talk oc (map (wished al) ws) (set_partitions (numbered ps) g) =
    (map (fun i => Returned (VId (lenN ps + N.of_nat i))) (seq 1 (length ws)), set_partitions (numbered (ps ++ laid lb a next ws)) g) /\
  packed h a (ps ++ laid lb a next ws) (filled lb a next ws).
Proof.
  intros a lb HH HU HC N1 N2 A F. induction F as [|w ws W F IH]; intros ps next P L E.
  - cbn [map talk length seq laid filled] in *. rewrite app_nil_r. split; [reflexivity|exact P].
  - cbn [map talk length seq laid filled] in *. rewrite lenN_cons in L.
    assert (MONO : forall v x, x <= filled lb a x v).
    { intros v. clear - A. induction v as [|w v IH]; intros x; cbn [filled]; [lia|]. destruct (round_up_spec a x A) as (_ & B & _).
      specialize (IH (round_up a x + blocks_for (w_size w) lb)). lia. }
    pose proof (MONO ws (round_up a next + blocks_for (w_size w) lb)) as ME.
    destruct (fill_one oc al w g h ps next HH HU HC N1 N2 A W P) as (Q1 & Q2); [lia|fold a lb; lia|]. fold a lb in Q1, Q2. rewrite Q1.
    set (p := mkPart _ _ _ _ _ _) in *.
    assert (LP : lenN (ps ++ [p]) = lenN ps + 1) by (rewrite lenN_app; reflexivity).
    destruct (IH _ _ Q2) as (R1 & R2); [rewrite LP; lia|exact E|]. rewrite R1, LP. rewrite <- app_assoc in *. cbn [app] in *.
    split; [|exact R2]. apply f_equal2; [|reflexivity]. apply f_equal2; [reflexivity|].
    rewrite <- (seq_shift (length ws) 1), map_map. apply map_ext. intros i. do 2 f_equal. lia.
Qed.

(** Any number of partitions up to the number of entries, if they fit one after the other: they get the ids 1, 2, ... and lie one
    after the other, each at the first multiple of the alignment. *)
Theorem C99_fill : forall oc al ws g h, let a := alignment al in let lb := c_lb (g_config g) in
  header_of g h -> usable_ok h -> g_partitions g = [] -> 128 <= num_parts h -> num_parts h + 1 < 2 ^ 32 ->
  1 <= a -> Forall (wish_ok lb al) ws -> lenN ws <= num_parts h ->
  filled lb a (first_usable h) ws <= last_usable h + 1 ->
  talk oc (map (wished al) ws) g =
    (map (fun i => Returned (VId (N.of_nat i))) (seq 1 (length ws)),
     set_partitions (numbered (laid lb a (first_usable h) ws)) g) /\
  arranged h (numbered (laid lb a (first_usable h) ws)).
Proof.
  intros oc al ws g h a lb HH HU E0 N1 N2 A F L E.
  assert (P : packed h a [] (first_usable h)).
  { constructor; [apply arranged_nil|constructor|apply N.le_refl|constructor|]. intros s _ B. lia. }
  destruct (fill_all oc al (strict g) h ws HH HU eq_refl N1 N2 A F [] (first_usable h) P L E) as (T & Q). split; [|apply Q].
  assert (ES : set_partitions (numbered []) (strict g) = strict g).
  { unfold strict. change (numbered []) with (@nil (N * partition)). rewrite <- E0. destruct g; reflexivity. }
  rewrite ES in T. cbn [app] in T.
  assert (MW : map (wished al) ws = map Do (map (fun w => OpAdd (w_name w) (w_size w) (w_type w) (w_flags w) al (w_guid w)) ws))
    by (rewrite map_map; reflexivity).
  assert (R : roomy (map (fun w => OpAdd (w_name w) (w_size w) (w_type w) (w_flags w) al (w_guid w)) ws) g h).
  { split; [exact HH|]. rewrite E0. split; [apply map_ok_nil|]. split; [exact N1|]. split.
    - change (lenN (used_in_order [])) with 0. replace (additions _) with (lenN ws); [lia|]. clear.
      induction ws as [|w ws IH]; [reflexivity|]. cbn [map additions]. rewrite lenN_cons, IH. lia.
    - apply Forall_forall. intros o I. apply in_map_iff in I. destruct I as (w & <- & _). exact I. }
  rewrite MW in *. destruct (room_same oc _ g h R) as (c2 & X & _ & C).
  rewrite X, T. cbn [fst snd]. rewrite C; [f_equal; destruct g; reflexivity|].
  apply Forall_forall. intros c I. rewrite map_map in I. apply in_map_iff in I. destruct I as (w & <- & _). exact I.
Qed.
Print Assumptions C99_fill.
(** And if the next one does not fit after these, it is refused. *)
Theorem C99_full : forall oc al ws w g h, let a := alignment al in let lb := c_lb (g_config g) in
  header_of g h -> usable_ok h -> g_partitions g = [] -> 128 <= num_parts h -> num_parts h + 1 < 2 ^ 32 ->
  1 <= a -> Forall (wish_ok lb al) (ws ++ [w]) -> lenN ws <= num_parts h ->
  filled lb a (first_usable h) ws <= last_usable h + 1 -> last_usable h + 1 < filled lb a (first_usable h) (ws ++ [w]) ->
  talk oc (map (wished al) (ws ++ [w])) g =
    (map (fun i => Returned (VId (N.of_nat i))) (seq 1 (length ws)) ++ [Refused GNotEnoughSpace],
     set_partitions (numbered (laid lb a (first_usable h) ws)) g).
Proof.
  intros oc al ws w g h a lb HH HU E0 N1 N2 A F L E X. apply Forall_app in F. destruct F as (F & FW).
  inversion FW as [|w0 l0 (W1 & W2 & W3) _]; subst w0 l0.
  destruct (C99_fill oc al ws g h HH HU E0 N1 N2 A F L E) as (T & AR).
  set (g1 := set_partitions (numbered (laid lb a (first_usable h) ws)) g) in *.
  assert (P : packed h a (laid lb a (first_usable h) ws) (filled lb a (first_usable h) ws)).
  { assert (P0 : packed h a [] (first_usable h)).
    { constructor; [apply arranged_nil|constructor|apply N.le_refl|constructor|]. intros s _ B. lia. }
    apply (fill_all oc al (strict g) h ws HH HU eq_refl N1 N2 A F [] (first_usable h) P0 L E). }
  assert (XF : filled lb a (first_usable h) (ws ++ [w]) = round_up a (filled lb a (first_usable h) ws) + blocks_for (w_size w) lb).
  { clear. generalize (first_usable h). induction ws as [|v ws IH]; intros x; cbn [filled app]; [reflexivity|]. apply IH. }
  rewrite XF in X. destruct (packed_fits _ _ _ _ _ P A (blocks_pos lb (w_size w) W1)) as (_ & NF). specialize (NF X).
  destruct (C28_not_enough_space_partial oc (w_name w) (w_size w) (w_type w) (w_flags w) al (w_guid w) g1 h HH HU AR W1 A W3) as (S1 & S2).
  apply S1 in NF. specialize (S2 NF).
  assert (AK : ask oc (wished al w) g1 = (Refused GNotEnoughSpace, g1)).
  { cbn [ask wished]. unfold replied. rewrite NF, S2. reflexivity. }
  assert (TA : forall cs gx rs gy c, talk oc cs gx = (map (fun i => Returned (VId (N.of_nat i))) rs, gy) ->
     ask oc c gy = (Refused GNotEnoughSpace, gy) ->
     talk oc (cs ++ [c]) gx = (map (fun i => Returned (VId (N.of_nat i))) rs ++ [Refused GNotEnoughSpace], gy)).
  { clear. induction cs as [|c0 cs IH]; intros gx rs gy c T AK; cbn [talk app] in *.
    - injection T as T1 T2. destruct rs; [|discriminate]. subst. rewrite AK. reflexivity.
    - destruct (ask oc c0 gx) as [[v|e|] g1].
      + destruct (talk oc cs g1) as [l g2] eqn:T2. injection T as T1 T3. destruct rs as [|r rs]; [discriminate|]. cbn [map app] in *.
        injection T1 as T1 T4. subst. rewrite (IH g1 rs gy c T2 AK). reflexivity.
      + destruct (talk oc cs g1) as [l g2] eqn:T2. injection T as T1 T3. destruct rs; discriminate.
      + injection T as T1 T3. destruct rs; discriminate. }
  rewrite map_app. apply (TA _ _ _ _ _ T AK).
Qed.
Print Assumptions C99_full.

Lemma filled_plain lb ws : forall x, filled lb 1 x ws = x + blocks_wanted lb ws.
Proof.
  induction ws as [|w ws IH]; intros x; cbn [filled]; [cbn; lia|]. rewrite IH. unfold round_up, blocks_wanted. cbn [map fold_right].
  rewrite N.mul_1_r, N.div_1_r. lia.
Qed.
(** A new disk takes any 128 partitions whose sizes in blocks add up to no more than there are usable blocks. *)
Theorem C99_created : forall oc cfg u rnd d g d' ws,
  fault_free d -> addressable d -> guid_ok (match u with Some u => u | None => rnd end) ->
  create_from_device oc cfg u rnd d = (Ok g, d') -> Forall (wish_ok (c_lb cfg) None) ws -> lenN ws <= 128 ->
  2 * min_array (c_lb cfg) + 3 + blocks_wanted (c_lb cfg) ws <= lenN (data d) / lb_u64 (c_lb cfg) ->
  talk oc (map (wished None) ws) g =
    (map (fun i => Returned (VId (N.of_nat i))) (seq 1 (length ws)),
     set_partitions (numbered (laid (c_lb cfg) 1 (2 + min_array (c_lb cfg)) ws)) g).
Proof.
  intros oc cfg u rnd d g d' ws HF HA GO E F L S.
  destruct (C43_create oc cfg u rnd d HF HA GO) as (A & B).
  destruct (N.le_gt_cases (2 * min_array (c_lb cfg) + 4) (lenN (data d) / lb_u64 (c_lb cfg))) as [LL|LL].
  2: { destruct (B LL) as (e & E1 & _). congruence. }
  destruct (A LL) as (ga & h & E1 & H1 & H2 & H3 & H4 & H5 & H6 & H7 & H8 & H9 & Ha & Hb & Hc & Hd & He & _).
  rewrite E in E1. injection E1 as EG ED. subst ga d'. clear A B.
  destruct (C43_created_tidy oc cfg u rnd d g d HF HA GO E) as (h' & T & _).
  assert (h' = h) by (eapply header_of_fun; [apply T|exact H1]). subst h'.
  rewrite <- Hd, <- H5. apply C99_fill; auto; rewrite ?H9; try lia.
  - apply T.
  - discriminate.
  - rewrite H5. exact F.
  - cbn [alignment]. rewrite filled_plain, Hd, He, H5. unfold last_whole_block. lia.
Qed.
Print Assumptions C99_created.
(** 27 usable blocks of 512 bytes: partitions of 10, 1 and 16 blocks fill them; aligned to 4 blocks the last no longer fits. *)
Definition wish_of (n : N) : wish := mkWish [120] (n * 512 - 1) (mkType linux_fs OsLinux) 0 other_guid.
Example C99_case :
  Forall (wish_ok Lb512 None) (map wish_of [10; 1; 16]) /\ filled Lb512 1 34 (map wish_of [10; 1; 16]) = 61 /\
  map (fun p => (first_lba p, last_lba p)) (laid Lb512 1 34 (map wish_of [10; 1; 16])) = [(34, 43); (44, 44); (45, 60)] /\
  talk true (map (wished None) (map wish_of [10; 1; 16])) (wide_disk []) =
    ([Returned (VId 1); Returned (VId 2); Returned (VId 3)], set_partitions (numbered (laid Lb512 1 34 (map wish_of [10; 1; 16]))) (wide_disk [])) /\
  map (fun p => (first_lba p, last_lba p)) (laid Lb512 4 34 (map wish_of [10; 1])) = [(36, 45); (48, 48)] /\
  filled Lb512 4 34 (map wish_of [10; 1; 16]) = 68.
Proof. split; [repeat constructor; discriminate|]. vm_compute. repeat split; reflexivity. Qed.
(** Three blocks aligned to 8 do not start before block 56 while block 50 is taken; with less on the disk, two blocks aligned to 4 do. *)
Example C99_monotone_case :
  (forall k p, has [(1, part_at 40 44)] k p -> used p -> has two_parts k p) /\ (4 | 8) /\
  (exists g1, add_partition true [120] 1025 (mkType linux_fs OsLinux) 0 (Some 8) sample_guid (wide_disk two_parts) = (Ok 2, g1) /\
    pm_get 2 (g_partitions g1) = Some (mkPart (mkType linux_fs OsLinux) sample_guid 56 58 0 [120])) /\
  exists g2, add_partition true [121] 1000 (mkType linux_fs OsLinux) 0 (Some 4) sample_guid (wide_disk [(1, part_at 40 44)]) = (Ok 2, g2) /\
    pm_get 2 (g_partitions g2) = Some (mkPart (mkType linux_fs OsLinux) sample_guid 36 37 0 [121]).
Proof.
  split; [intros k p [E|[]] _; left; exact E|]. split; [exists 2; reflexivity|].
  split; eexists; (split; [vm_compute; reflexivity|vm_compute; reflexivity]).
Qed.
