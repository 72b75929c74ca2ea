(** ReportFacts.v - how calls change what an open disk says about its headers (C91). *)
From Verif Require Export SpecReport HistoryFacts.
Open Scope list_scope.
Open Scope N_scope.

Lemma lossy_reports r : reports (omap_err lossy_clone r) r.
Proof.
  destruct r as [h|e|]; cbn; [reflexivity| |reflexivity]. exists e. split; [reflexivity|].
  destruct e as [io| | | | | | |]; cbn; try reflexivity. destruct io; reflexivity.
Qed.
Lemma lossy_valid (r : outcome hdr_err header) h : omap_err lossy_clone r = Ok h <-> r = Ok h.
Proof. destruct r; cbn; split; intros E; try discriminate E; exact E. Qed.

Definition replaced (r r' : outcome hdr_err header) : Prop := r' = r \/ valid r'.
Lemma replaced_trans a b c : replaced a b -> replaced b c -> replaced a c.
Proof. intros [->|V] [->|V']; unfold replaced; auto. Qed.
(** From [g] to [g'] headers at most become valid, and the backup stays if it is to be left alone. *)
Record renewed (g g' : gdisk) : Prop := mkRenewed {
  rn_ro : c_readonly_backup (g_config g') = c_readonly_backup (g_config g);
  rn_primary : replaced (g_primary g) (g_primary g');
  rn_backup : replaced (g_backup g) (g_backup g');
  rn_keep : c_readonly_backup (g_config g) = true -> g_backup g' = g_backup g
}.
Lemma renewed_refl g : renewed g g.
Proof. constructor; auto; left; reflexivity. Qed.
Lemma renewed_trans a b c : renewed a b -> renewed b c -> renewed a c.
Proof.
  intros [A1 A2 A3 A4] [B1 B2 B3 B4]. constructor; [congruence|eapply replaced_trans; eauto|eapply replaced_trans; eauto|].
  intros R. rewrite B4 by congruence. auto.
Qed.
Lemma renewed_same g g' : g_config g' = g_config g -> g_primary g' = g_primary g -> g_backup g' = g_backup g -> renewed g g'.
Proof. intros A B C. constructor; [rewrite A; reflexivity|left; exact B|left; exact C|intros _; exact C]. Qed.
Lemma rn_bind {E A B} (m : M gdisk E A) (k : A -> M gdisk E B) :
  always renewed m -> (forall a, always renewed (k a)) -> always renewed (bind m k).
Proof. apply always_bind. apply renewed_trans. Qed.
Lemma rn_ret {E A} (a : A) : always renewed (@ret gdisk E A a).
Proof. intros g. apply renewed_refl. Qed.
Lemma rn_throw {E A} (e : E) : always renewed (@throw gdisk E A e).
Proof. intros g. apply renewed_refl. Qed.
Lemma rn_lift {E A} (o : outcome E A) : always renewed (@lift gdisk E A o).
Proof. intros g. apply renewed_refl. Qed.
Lemma rn_query {E A} (f : gdisk -> outcome E A) : always renewed (fun g => (f g, g)).
Proof. intros g. apply renewed_refl. Qed.
Lemma rn_check id : always renewed (check_count id).
Proof. intros g. apply renewed_refl. Qed.
Lemma rn_device {E A} (m : M dev E A) : always renewed (on_device m).
Proof. intros g. unfold on_device. destruct (m (g_device g)) as [r d]. apply renewed_same; reflexivity. Qed.
(** Laying out the headers anew: however it ends they are renewed, and if it succeeds they are valid. *)
Lemma init_renewed oc g : let '(r, g') := init_headers oc g in
  renewed g g' /\ (r = Ok tt -> valid (g_primary g') /\ (c_readonly_backup (g_config g) = false -> valid (g_backup g'))).
Proof.
  unfold init_headers, bind, on_device, map_err.
  destruct (find_backup_lba (c_lb (g_config g)) (g_device g)) as [[n|e|] d]; cbn [fst snd];
    try (split; [apply renewed_same; reflexivity|intros E; discriminate E]).
  cbn zeta. destruct (build oc _ _) as [h1|e|]; try (split; [apply renewed_same; reflexivity|intros E; discriminate E]).
  cbn [g_config set_primary set_device]. destruct (c_readonly_backup (g_config g)) eqn:R.
  - split; [constructor; [reflexivity|right; exists h1; reflexivity|left; reflexivity|reflexivity]|].
    intros _. split; [exists h1; reflexivity|intros E; discriminate E].
  - destruct (build oc _ _) as [h2|e|].
    + split; [constructor; [reflexivity|right; exists h1; reflexivity|right; exists h2; reflexivity|intros E; cbn in R; congruence]|].
      intros _. split; [exists h1; reflexivity|intros _; exists h2; reflexivity].
    + split; [|intros E; discriminate E]. constructor; [reflexivity|right; exists h1; reflexivity|left; reflexivity|reflexivity].
    + split; [|intros E; discriminate E]. constructor; [reflexivity|right; exists h1; reflexivity|left; reflexivity|reflexivity].
Qed.
Lemma rn_init oc : always renewed (init_headers oc).
Proof. intros g. pose proof (init_renewed oc g) as X. destruct (init_headers oc g) as [r g']. apply X. Qed.
Lemma rn_parts {E} m : always renewed (fun g => (@Ok E unit tt, set_partitions m g)).
Proof. intros g. apply renewed_same; reflexivity. Qed.
Lemma rn_insert oc id p c : always renewed (insert_partition oc id p c).
Proof.
  unfold insert_partition. apply rn_bind; [intros g; apply renewed_same; reflexivity|]. intros _.
  apply rn_bind; [destruct c; [apply rn_init|apply rn_ret]|]. intros _. apply rn_ret.
Qed.
Lemma rn_add oc nm size ty fl al rnd : always renewed (add_partition oc nm size ty fl al rnd).
Proof.
  intros g. unfold add_partition. destruct (size =? 0); [apply renewed_refl|]. cbn zeta.
  apply (rn_bind (fun g => (find_free_sectors oc g, g))); [apply rn_query|]. intros s.
  induction s as [|[a l] s IH]; cbn [add_in_sections]; [apply rn_throw|].
  apply rn_bind; [apply rn_lift|]. intros off. apply rn_bind; [apply rn_lift|]. intros need.
  destruct (need <=? l); [|exact IH]. apply rn_bind; [apply rn_lift|]. intros start.
  apply rn_bind; [apply rn_query|]. intros next.
  apply rn_bind; [destruct next; [apply rn_ret|apply rn_query]|]. intros id.
  apply rn_bind; [apply rn_lift|]. intros e. apply rn_bind; [apply rn_lift|]. intros last.
  apply rn_bind; [apply rn_check|]. intros c. apply rn_insert.
Qed.
Lemma rn_add_at oc nm id first len ty fl rnd : always renewed (add_partition_at oc nm id first len ty fl rnd).
Proof.
  intros g. unfold add_partition_at. destruct (len =? 0); [apply renewed_refl|].
  destruct (id =? 0); [apply renewed_refl|]. match goal with |- context [if ?b then _ else _] => destruct b end; [apply renewed_refl|].
  apply (rn_bind (fun g => (find_free_sectors oc g, g))); [apply rn_query|]. intros s.
  induction s as [|[a l] s IH]; cbn [add_at_in_sections]; [apply rn_throw|].
  destruct (negb _); [exact IH|]. apply rn_bind; [apply rn_lift|]. intros e. apply rn_bind; [apply rn_lift|]. intros last.
  apply rn_bind; [apply rn_check|]. intros c. apply rn_insert.
Qed.
Lemma update_renewed oc pp g : let '(r, g') := update_partitions oc pp g in
  renewed g g' /\ (r = Ok tt -> valid (g_primary g') /\ (c_readonly_backup (g_config g) = false -> valid (g_backup g'))).
Proof.
  unfold update_partitions, bind. destruct (pm_get 0 pp); [split; [apply renewed_refl|intros E; discriminate E]|].
  cbn [ret]. unfold ret. destruct (check_count _ g) as [r g1] eqn:C.
  assert (G : g1 = g) by (unfold check_count in C; inversion C; reflexivity). subst g1.
  destruct r as [b|e|]; [|split; [apply renewed_refl|intros E; discriminate E]|split; [apply renewed_refl|intros E; discriminate E]].
  pose proof (init_renewed oc (set_partitions pp g)) as X. destruct (init_headers oc (set_partitions pp g)) as [r g'].
  destruct X as (X & Y). split; [|exact Y]. eapply renewed_trans; [|exact X]. apply renewed_same; reflexivity.
Qed.
Lemma write_renewed oc g : let '(r, g') := write_inplace oc g in
  renewed g g' /\ (r = Ok tt -> valid (g_primary g') /\ (c_readonly_backup (g_config g) = false -> valid (g_backup g'))).
Proof.
  unfold write_inplace. destruct (negb _); [split; [apply renewed_refl|intros E; discriminate E]|].
  unfold bind at 1. unfold on_device at 1, map_err at 1.
  destruct (find_backup_lba _ (g_device g)) as [[n|e|] d]; cbn [fst snd];
    try (split; [apply renewed_same; reflexivity|intros E; discriminate E]).
  unfold bind at 1, lift at 1. destruct (the_header (set_device d g)) as [h|e|];
    [|split; [apply renewed_same; reflexivity|intros E; discriminate E]|split; [apply renewed_same; reflexivity|intros E; discriminate E]].
  unfold bind at 1, lift at 1. destruct (build oc _ _) as [ph|e|]; cbn [omap_err];
    [|split; [apply renewed_same; reflexivity|intros E; discriminate E]|split; [apply renewed_same; reflexivity|intros E; discriminate E]].
  unfold bind at 1. cbn [set_device g_config g_partitions g_sync].
  set (g1 := set_primary (Ok ph) (set_device d g)).
  assert (V1 : renewed g g1 /\ valid (g_primary g1)).
  { split; [constructor; [reflexivity|right; exists ph; reflexivity|left; reflexivity|reflexivity]|exists ph; reflexivity]. }
  assert (T : forall bh g2, (bh = None \/ c_readonly_backup (g_config g2) = false) ->
    let '(r, g') := (on_device (write_tables oc (c_lb (g_config g)) ph bh (g_partitions g)) ;;
      (match bh with Some bh => write_backup_of bh | None => ret tt end) ;;
      write_primary_of ph ;; on_device (map_err GIo flush) ;; (if g_sync g then on_device (map_err GIo sync_all) else ret tt)) g2 in
    renewed g2 g').
  { intros bh g2 B.
    assert (PO : always renewed (write_primary_of ph)).
    { intros x. unfold write_primary_of. destruct (write_primary _ _ _) as (r & (h' & d')).
      constructor; [reflexivity|right; exists h'; reflexivity|left; reflexivity|reflexivity]. }
    assert (PR : always renewed (write_primary_of ph ;; on_device (map_err GIo flush) ;; (if g_sync g then on_device (map_err GIo sync_all) else ret tt))).
    { apply rn_bind; [exact PO|]. intros _. apply rn_bind; [apply rn_device|]. intros _. destruct (g_sync g); [apply rn_device|apply rn_ret]. }
    match goal with |- let '(r, g') := ?m g2 in _ => assert (X : renewed g2 (snd (m g2))) end.
    { unfold bind at 1. unfold on_device at 1. destruct (write_tables _ _ _ _ _ (g_device g2)) as [[[]|e|] d2]; try (apply renewed_same; reflexivity).
      destruct bh as [bh|]; [|eapply renewed_trans; [|apply PR]; apply renewed_same; reflexivity].
      destruct B as [B|B]; [discriminate B|].
      unfold bind at 1. unfold write_backup_of. destruct (write_backup _ _ _) as (r & (h' & d')).
      assert (RB : renewed g2 (set_device d' (set_backup (Ok h') (set_device d2 g2)))).
      { constructor; [reflexivity|left; reflexivity|right; exists h'; reflexivity|intros E; congruence]. }
      destruct r as [x|e|]; cbn [omap_err obind]; try exact RB. eapply renewed_trans; [exact RB|]. apply PR. }
    match goal with |- let '(r, g') := ?m g2 in _ => destruct (m g2) as [r g'] end. exact X. }
  destruct V1 as (V1 & V2).
  change (c_readonly_backup (g_config g1)) with (c_readonly_backup (g_config g)).
  destruct (c_readonly_backup (g_config g)) eqn:R.
  - cbn [bind]. unfold bind at 1, ret at 1.
    specialize (T None g1 (or_introl eq_refl)).
    match type of T with let '(r, g') := ?m g1 in _ => destruct (m g1) as [r g'] end.
    split; [eapply renewed_trans; [exact V1|exact T]|]. intros _. split; [|intros E; discriminate E].
    destruct (rn_primary _ _ T) as [->|V]; [exact V2|exact V].
  - unfold bind at 1. unfold bind at 1. unfold lift at 1. destruct (build oc _ _) as [bh|e|]; cbn [omap_err];
      [|split; [exact V1|intros E; discriminate E]|split; [exact V1|intros E; discriminate E]].
    set (g2 := set_backup (Ok bh) g1).
    assert (W1 : renewed g1 g2).
    { constructor; [reflexivity|left; reflexivity|right; exists bh; reflexivity|intros E; cbn in E; congruence]. }
    specialize (T (Some bh) g2 (or_intror R)).
    match type of T with let '(r, g') := ?m g2 in _ => destruct (m g2) as [r g'] end.
    split; [eapply renewed_trans; [exact V1|]; eapply renewed_trans; [exact W1|exact T]|]. intros _. split.
    + destruct (rn_primary _ _ T) as [->|V]; [exact V2|exact V].
    + intros _. destruct (rn_backup _ _ T) as [->|V]; [exists bh; reflexivity|exact V].
Qed.

(** With a fixed number of entries adding leaves the headers alone. *)
Definition still (g g' : gdisk) : Prop :=
  c_change_partition_count (g_config g) = false -> g_config g' = g_config g /\ g_primary g' = g_primary g /\ g_backup g' = g_backup g.
Lemma still_trans a b c : still a b -> still b c -> still a c.
Proof.
  intros X Y F. destruct (X F) as (X1 & X2 & X3). destruct (Y) as (Y1 & Y2 & Y3); [rewrite X1; exact F|].
  repeat split; congruence.
Qed.
Lemma still_refl g : still g g.
Proof. intros _. auto. Qed.
Lemma st_bind {E A B} (m : M gdisk E A) (k : A -> M gdisk E B) : always still m -> (forall a, always still (k a)) -> always still (bind m k).
Proof. apply always_bind. apply still_trans. Qed.
Lemma st_query {E A} (f : gdisk -> outcome E A) : always still (fun g => (f g, g)).
Proof. intros g. apply still_refl. Qed.
Lemma st_insert oc id p : always still (let* c := check_count id in insert_partition oc id p c).
Proof.
  intros g F. unfold bind, check_count. destruct (the_header g) as [h|e|]; cbn [obind]; [|cbn; auto|cbn; auto].
  rewrite F. destruct (num_parts_would_change h id); cbn [negb andb]; [cbn; auto|].
  unfold insert_partition, bind, ret. cbn. auto.
Qed.
Lemma st_add oc nm size ty fl al rnd : always still (add_partition oc nm size ty fl al rnd).
Proof.
  intros g. unfold add_partition. destruct (size =? 0); [apply still_refl|]. cbn zeta.
  apply (st_bind (fun g => (find_free_sectors oc g, g))); [apply st_query|]. intros s.
  induction s as [|[a l] s IH]; cbn [add_in_sections]; [apply (st_query (fun _ => Err GNotEnoughSpace))|].
  apply st_bind; [apply st_query|]. intros off. apply st_bind; [apply st_query|]. intros need.
  destruct (need <=? l); [|exact IH]. apply st_bind; [apply st_query|]. intros start.
  apply st_bind; [apply st_query|]. intros next.
  apply st_bind; [destruct next; apply st_query|]. intros id.
  apply st_bind; [apply st_query|]. intros e. apply st_bind; [apply st_query|]. intros last. apply st_insert.
Qed.
Lemma st_add_at oc nm id first len ty fl rnd : always still (add_partition_at oc nm id first len ty fl rnd).
Proof.
  intros g. unfold add_partition_at. destruct (len =? 0); [apply still_refl|].
  destruct (id =? 0); [apply still_refl|]. match goal with |- context [if ?b then _ else _] => destruct b end; [apply still_refl|].
  apply (st_bind (fun g => (find_free_sectors oc g, g))); [apply st_query|]. intros s.
  induction s as [|[a l] s IH]; cbn [add_at_in_sections]; [apply (st_query (fun _ => Err GNotEnoughSpace))|].
  destruct (negb _); [exact IH|]. apply st_bind; [apply st_query|]. intros e. apply st_bind; [apply st_query|]. intros last. apply st_insert.
Qed.

(** One call. *)
Lemma ask_renewed oc c g : let '(r, g') := ask oc c g in
  renewed g g' /\ (renews c -> forall v, r = Returned v -> valid (g_primary g') /\ (c_readonly_backup (g_config g) = false -> valid (g_backup g'))).
Proof.
  destruct c as [o| | | | | | | | |]; cbn [ask]; try (split; [apply renewed_refl|contradiction]).
  destruct o; cbn [renews]; unfold replied, told; try (split; [apply rn_add || apply rn_add_at|contradiction]);
    try (split; [apply renewed_same; reflexivity|contradiction]).
  - split; [|contradiction]. unfold remove_partition. destruct (pm_get _ _); apply renewed_same; reflexivity.
  - split; [|contradiction]. unfold remove_partition_by_guid. destruct (find _ _) as [(i, p)|]; apply renewed_same; reflexivity.
  - pose proof (update_renewed oc pp g) as X. destruct (update_partitions oc pp g) as [r g']. cbn [fst snd].
    destruct X as (X & Y). split; [exact X|]. intros _ v E. destruct r as [[]| |]; try discriminate E. apply Y. reflexivity.
  - pose proof (write_renewed oc g) as X. destruct (write_inplace oc g) as [r g']. cbn [fst snd].
    destruct X as (X & Y). split; [exact X|]. intros _ v E. destruct r as [[]| |]; try discriminate E. apply Y. reflexivity.
  - split; [|contradiction]. constructor; [reflexivity|left; reflexivity|left; reflexivity|reflexivity].
Qed.
Lemma ask_still oc c g : leaves_headers g c -> let g' := snd (ask oc c g) in
  c_change_partition_count (g_config g') = c_change_partition_count (g_config g) /\ g_primary g' = g_primary g /\ g_backup g' = g_backup g.
Proof.
  intros L. destruct c as [o| | | | | | | | |]; cbn [ask]; try (cbn; auto; fail).
  destruct o; cbn [leaves_headers] in L; unfold replied, told; cbn [snd]; try contradiction; try (cbn; auto; fail).
  - destruct (st_add oc nm size ty fl al rnd g L) as (X & Y & Z). rewrite X. auto.
  - destruct (st_add_at oc nm id first len ty fl rnd g L) as (X & Y & Z). rewrite X. auto.
  - unfold remove_partition. destruct (pm_get _ _); cbn; auto.
  - unfold remove_partition_by_guid. destruct (find _ _) as [(i, p)|]; cbn; auto.
Qed.
Lemma talk_renewed oc cs : forall g, let '(rs, g') := talk oc cs g in
  renewed g g' /\ (forall i c v, nth_error cs i = Some c -> renews c -> nth_error rs i = Some (Returned v) ->
     valid (g_primary g') /\ (c_readonly_backup (g_config g) = false -> valid (g_backup g'))).
Proof.
  induction cs as [|c cs IH]; intros g; cbn [talk]; [split; [apply renewed_refl|intros [|i] c v H; discriminate H]|].
  pose proof (ask_renewed oc c g) as A. destruct (ask oc c g) as [r g1]. destruct A as (A & B).
  specialize (IH g1). destruct (talk oc cs g1) as [l g2]. destruct IH as (C & D).
  assert (K : renewed g g2 /\ (forall i c0 v, nth_error (c :: cs) i = Some c0 -> renews c0 -> nth_error (r :: l) i = Some (Returned v) ->
     valid (g_primary g2) /\ (c_readonly_backup (g_config g) = false -> valid (g_backup g2)))).
  { split; [eapply renewed_trans; eauto|]. intros [|i] c0 v H R V; cbn in H, V.
    - injection H as ->. injection V as ->. destruct (B R v eq_refl) as (B1 & B2). destruct C as [_ C2 C3 _]. split.
      + destruct C2 as [->|C2]; auto.
      + intros O. destruct C3 as [->|C3]; auto.
    - destruct (D i c0 v H R V) as (D1 & D2). split; [exact D1|]. intros O. apply D2. rewrite (rn_ro _ _ A). exact O. }
  destruct r; try exact K. split; [exact A|]. intros [|i] c0 v H R V; cbn in V; [discriminate V|]. destruct i; discriminate V.
Qed.
Lemma talk_still oc cs : forall g, Forall (leaves_headers g) cs -> let g' := snd (talk oc cs g) in g_primary g' = g_primary g /\ g_backup g' = g_backup g.
Proof.
  induction cs as [|c cs IH]; intros g L; cbn [talk]; [cbn; auto|]. inversion L as [|? ? L1 L2]; subst.
  pose proof (ask_still oc c g L1) as A. destruct (ask oc c g) as [r g1]. cbn [snd] in A. destruct A as (A1 & A2 & A3).
  specialize (IH g1). destruct (talk oc cs g1) as [l g2]. cbn [snd] in IH.
  destruct IH as (I1 & I2).
  { eapply Forall_impl; [|exact L2]. intros c' Z. destruct c' as [o| | | | | | | | |]; auto. destruct o; cbn in *; auto; rewrite A1; exact Z. }
  destruct r; cbn; split; congruence.
Qed.
