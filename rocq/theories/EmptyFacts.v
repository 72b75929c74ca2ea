(** EmptyFacts.v - when the count of empty entries overflows. *)
From Coq Require Import FinFun.
From Verif Require Export SpecCount OpenFacts SpecFacts.
Open Scope list_scope.
Open Scope N_scope.

(** Is there an empty entry at [p]? *)
Definition void_at (l : list byte) (p : N) : bool := (p + 128 <=? lenN l) && bytes_eqb (slice p 128 l) (zeros 128).
Fixpoint voids (n : nat) (p : N) (l : list byte) : N :=
  match n with O => 0 | Datatypes.S n => (if void_at l p then 1 else 0) + voids n (p + 128) l end.
Lemma voids_past n : forall p l, lenN l < p + 128 -> voids n p l = 0.
Proof.
  induction n as [|n IH]; intros p l H; [reflexivity|]. cbn [voids]. unfold void_at.
  replace (p + 128 <=? lenN l) with false by (symmetry; apply N.leb_gt; lia). cbn [andb]. rewrite IH by lia. reflexivity.
Qed.
Lemma read_entries_panics n : forall i empty parts d, healthy d -> empty < modulus 31 ->
  (fst (read_entries true n i empty parts d) = Panic <-> modulus 31 <= empty + voids n (pos d) (data d)).
Proof.
  induction n as [|n IH]; intros i empty parts d Hd He.
  - cbn. split; [discriminate|lia].
  - cbn [read_entries]. unfold bind at 1.
    destruct (N.le_gt_cases (pos d + 128) (dev_len d)) as [G|G].
    + rewrite read_exact_ok by auto. cbn [voids]. unfold void_at.
      replace (pos d + 128 <=? lenN (data d)) with true by (symmetry; apply N.leb_le; exact G). cbn [andb].
      destruct (bytes_eqb (slice (pos d) 128 (data d)) (zeros 128)).
      * unfold bind at 1, addw. destruct (N.ltb_spec (empty + 1) (modulus 31)) as [L|L]; cbn [lift].
        -- rewrite IH; [|apply healthy_set_pos; exact Hd|exact L]. cbn [set_pos pos data]. split; lia.
        -- cbn. split; [intros _; lia|reflexivity].
      * destruct (parse_entry_total (slice (pos d) 128 (data d))) as (p & EP & _).
        { pose proof (slice_length (pos d) 128 (data d)). unfold dev_len, lenN in *. lia. }
        unfold bind at 1. rewrite EP. cbn [lift].
        rewrite IH; [|apply healthy_set_pos; exact Hd|exact He]. cbn [set_pos pos data]. split; lia.
    + destruct (read_exact_eof 128 d Hd) as (p & ->); [lia|exact G|]. cbn [fst]. rewrite voids_past by exact G.
      split; [discriminate|lia].
Qed.
Lemma nodup_firstn {A} n : forall l : list A, NoDup l -> NoDup (firstn n l).
Proof.
  induction n as [|n IH]; intros l H; [constructor|]. destruct H as [|x l NI ND]; [constructor|]. cbn [firstn].
  constructor; [|apply IH, ND]. intros X. apply NI. rewrite <- (firstn_skipn n l). apply in_or_app. left. exact X.
Qed.
(** The count and lists of different numbers. *)
Definition void_no (p : N) (l : list byte) (i : nat) : bool := void_at l (p + 128 * N.of_nat i).
Lemma voids_filter n : forall p l, voids n p l = lenN (filter (void_no p l) (seq 0 n)).
Proof.
  induction n as [|n IH]; intros p l; [reflexivity|]. cbn [voids seq filter].
  rewrite <- seq_shift. rewrite IH. assert (E0 : void_no p l 0 = void_at l p) by (unfold void_no; f_equal; lia). rewrite E0.
  assert (X : lenN (filter (void_no (p + 128) l) (seq 0 n)) = lenN (filter (void_no p l) (map Datatypes.S (seq 0 n)))).
  { generalize (seq 0 n). intros s. induction s as [|x s IHs]; [reflexivity|]. cbn [map filter].
    assert (E : void_no (p + 128) l x = void_no p l (Datatypes.S x)) by (unfold void_no; f_equal; lia). rewrite E.
    destruct (void_no p l (Datatypes.S x)); unfold lenN in *; cbn [length]; lia. }
  rewrite X. destruct (void_at l p); unfold lenN; cbn [length]; lia.
Qed.
Lemma void_no_iff lb h l i : i < num_parts h -> (void_no (array_at lb h) l (N.to_nat i) = true <-> empty_entry lb h l i).
Proof.
  intros I. unfold void_no, void_at, empty_entry. rewrite N2Nat.id, andb_true_iff, N.leb_le, bytes_eqb_eq.
  change (zeros 128) with (repeat x00 128). split.
  - intros (A & B). split; [exact I|]. split; [lia|exact B].
  - intros (_ & A & B). split; [lia|exact B].
Qed.
Lemma empty_entries_iff lb h l n :
  empty_entries lb h l n <-> n <= voids (N.to_nat (num_parts h)) (array_at lb h) l.
Proof.
  rewrite voids_filter. set (s := filter (void_no (array_at lb h) l) (seq 0 (N.to_nat (num_parts h)))).
  assert (ND : NoDup s) by (apply NoDup_filter, seq_NoDup).
  split.
  - intros (is & D & L & F). rewrite Forall_forall in F.
    assert (X : (length (map N.to_nat is) <= length s)%nat).
    { apply NoDup_incl_length.
      - apply FinFun.Injective_map_NoDup; [|exact D]. intros a b E. apply N2Nat.inj, E.
      - intros x H. apply in_map_iff in H. destruct H as (i & <- & H). specialize (F i H).
        apply filter_In. split; [|apply (void_no_iff lb h l i (proj1 F)); exact F]. apply in_seq.
        destruct F as (F & _). lia. }
    rewrite map_length in X. unfold lenN in *. lia.
  - intros L. exists (map N.of_nat (firstn (N.to_nat n) s)).
    assert (LL : length (firstn (N.to_nat n) s) = N.to_nat n) by (apply firstn_length_le; unfold lenN in L; lia).
    split; [|split].
    + apply FinFun.Injective_map_NoDup; [intros a b E; apply Nat2N.inj, E|].
      apply nodup_firstn, ND.
    + unfold lenN. rewrite map_length, LL. lia.
    + apply Forall_forall. intros i H. apply in_map_iff in H. destruct H as (x & <- & H).
      assert (In x s) by (rewrite <- (firstn_skipn (N.to_nat n) s); apply in_or_app; left; exact H).
      apply filter_In in H0. destruct H0 as (A & B). apply in_seq in A. apply void_no_iff; [lia|]. rewrite Nat2N.id. exact B.
Qed.
(** When reading a table panics. *)
Lemma read_partitions_panics oc h lb d : healthy d -> dev_len d < modulus 64 ->
  (fst (file_read_partitions oc h lb d) = Panic <->
   array_at lb h < 2 ^ 64 /\ (part_size h <> 128 \/ oc = true /\ empty_entries lb h (data d) (2 ^ 31))).
Proof.
  intros F A. rewrite <- two64. unfold file_read_partitions at 1, checked_mul64. unfold array_at at 1.
  destruct (N.ltb_spec (part_start h * lb_u64 lb) (modulus 64)) as [L|L].
  2:{ cbn. split; [discriminate|lia]. }
  cbn [ok_or]. unfold bind at 1, lift at 1. unfold bind at 1. rewrite seek_start_ok by exact F.
  destruct (N.eqb_spec (part_size h) 128) as [P|P]; cbn [negb].
  2:{ cbn. tauto. }
  set (d1 := set_pos d (part_start h * lb_u64 lb)). assert (F1 : healthy d1) by (apply healthy_set_pos; exact F).
  assert (Q : fst (read_entries oc (N.to_nat (num_parts h)) 0 0 [] d1) = Panic <->
    oc = true /\ empty_entries lb h (data d) (2 ^ 31)).
  { destruct oc.
    - rewrite read_entries_panics; [|exact F1|reflexivity]. rewrite empty_entries_iff. cbn [d1 set_pos pos data].
      change (part_start h * lb_u64 lb) with (array_at lb h). change (modulus 31) with (2 ^ 31). split; [intros X; split; [reflexivity|lia]|lia].
    - split; [|intros (X & _); discriminate]. intros X. exfalso.
      exact (calm_read_entries false (N.to_nat (num_parts h)) 0 0 [] (or_introl eq_refl) d1 X). }
  assert (Z : part_size h <> 128 <-> False) by tauto. rewrite Z.
  unfold bind at 1. destruct (read_entries oc (N.to_nat (num_parts h)) 0 0 [] d1) as [[t|e|] d2]; cbn [fst] in Q.
  - assert (C : calm (seek_start (part_start h * lb_u64 lb) ;;
      (let* pt_len := lift (ok_or (if num_parts h * part_size h <? modulus 64 then Some (num_parts h * part_size h) else None)
                         (IoOther "partitions - size")) in
       let* table := read_exact pt_len in
       if crc32 table =? crc32_parts h then ret t else throw (IoOther "partition table CRC mismatch")))).
    { auto 20 with calm. }
    split; [intros X; exfalso; apply (C d2); exact X|]. intros (_ & [[]|X]). apply Q in X. discriminate.
  - cbn [fst]. split; [discriminate|]. intros (_ & [[]|X]). apply Q in X. discriminate.
  - cbn [fst]. split; [intros _; split; [exact L|right; apply Q; reflexivity]|reflexivity].
Qed.
