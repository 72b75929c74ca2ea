(** FilesFacts.v - functions on paths (C93). *)
From Verif Require Export SpecFiles Frame OpenFacts HistoryFacts SessionFacts.
Open Scope list_scope.
Open Scope N_scope.

Lemma on_file_needs {E A} w k p (m : M dev E A) fs : needs w p fs (on_file w k p m fs).
Proof.
  unfold needs, refused, permitted, on_file, open_file. destruct (fs p) as [f|] eqn:F.
  - destruct (f_readable f && (negb w || f_writable f)) eqn:P.
    + destruct (m _) as [r d']. cbn [fst snd]. assert (X : forall why, omap_err Failed r <> Err (CannotOpen why)) by (intros why; destruct r; discriminate).
      apply andb_true_iff in P. destruct P as (P1 & P2).
      split; [|intros (y & Y); destruct (X y Y)]. split; [intros (y & Y); destruct (X y Y)|]. intros N. destruct N.
      exists f. split; [reflexivity|]. split; [exact P1|]. intros ->. exact P2.
    + cbn [fst snd]. split; [|reflexivity]. split; [|intros _; eexists; reflexivity]. intros _ (f' & E1 & E2 & E3). injection E1 as <-.
      rewrite E2 in P. destruct w; [rewrite (E3 eq_refl) in P|]; discriminate P.
  - cbn [fst snd]. split; [|reflexivity]. split; [|intros _; eexists; reflexivity]. intros _ (f' & E1 & _). discriminate E1.
Qed.
Lemma put_back_only p d fs : only_contents_of p fs (put_back p d fs).
Proof.
  intros q. unfold put_back. destruct (String.eqb_spec q p) as [->|N].
  - destruct (fs p) as [f|]; [|reflexivity]. eexists. split; [reflexivity|]. repeat split. intros X. destruct X. reflexivity.
  - destruct (fs q) as [f|]; [|reflexivity]. exists f. repeat split.
Qed.
Lemma only_refl p fs : only_contents_of p fs fs.
Proof. intros q. destruct (fs q) as [f|]; [exists f; repeat split|reflexivity]. Qed.
Lemma on_file_only {E A} w k p (m : M dev E A) fs : only_contents_of p fs (snd (on_file w k p m fs)).
Proof.
  unfold on_file. destruct (open_file w k p fs) as [d|e|]; [|apply only_refl|apply only_refl].
  destruct (m d) as [r d']. apply put_back_only.
Qed.
Lemma open_file_ok w k p fs d : open_file w k p fs = Ok d -> exists f, fs p = Some f /\ data d = f_data f /\ durable d = f_durable f /\
  growable d = f_grows f /\ pos d = 0 /\ faults d = k_faults k /\ eof_moves d = k_eof_moves k.
Proof.
  unfold open_file. destruct (fs p) as [f|]; [|intros E; discriminate E]. destruct (_ && _); [|intros E; discriminate E].
  intros E. injection E as <-. exists f. repeat split.
Qed.
Lemma put_back_same p d fs f : fs p = Some f -> data d = f_data f -> durable d = f_durable f -> same_files fs (put_back p d fs).
Proof.
  intros F A B q. unfold put_back. destruct (String.eqb_spec q p) as [->|N]; [|reflexivity]. rewrite F, A, B. destruct f; reflexivity.
Qed.
Lemma on_file_same {E A} w k p (m : M dev E A) fs : untouched m -> same_files fs (snd (on_file w k p m fs)).
Proof.
  intros U. unfold on_file. destruct (open_file w k p fs) as [d|e|] eqn:O; [|intros q; reflexivity|intros q; reflexivity].
  destruct (open_file_ok _ _ _ _ _ O) as (f & F & A1 & B1 & _). specialize (U d). destruct (m d) as [r d']. cbn [snd] in *.
  destruct U as (U1 & U2 & _). apply (put_back_same p d' fs f F); congruence.
Qed.
Lemma untouched_with_sync m : untouched m -> untouched (with_sync m).
Proof. intros U d. specialize (U d). unfold with_sync, bind, ret. destruct (m d) as [[g|e|] d']; exact U. Qed.
Lemma untouched_create oc cfg u rnd : untouched (create_from_device oc cfg u rnd).
Proof.
  intros d. unfold create_from_device. match goal with |- context [init_headers oc ?g] => pose proof (mo_init oc g) as (U & _) end.
  destruct (init_headers oc _) as [[[]|e|] g']; exact U.
Qed.
Lemma on_file_ok {E A} w k p (m : M dev E A) fs a fs' : on_file w k p m fs = (Ok a, fs') ->
  exists d d', open_file w k p fs = Ok d /\ m d = (Ok a, d') /\ fs' = put_back p d' fs.
Proof.
  unfold on_file. destruct (open_file w k p fs) as [d|e|]; [|intros X; discriminate X|intros X; discriminate X].
  destruct (m d) as [r d'] eqn:R. intros X. destruct r as [b|e|]; cbn in X; inversion X; subst. exists d, d'. auto.
Qed.

(** A disk got from a path. *)
Lemma got_ok oc cfg rnd k p fs g fs' : got oc cfg rnd k p fs g fs' -> exists f, fs p = Some f /\
  data (g_device g) = f_data f /\ durable (g_device g) = f_durable f /\ g_config g = cfg /\ g_sync g = true /\ same_files fs fs'.
Proof.
  intros [E|E].
  - pose proof (on_file_same (c_writable cfg) k p (open_path oc cfg) fs (untouched_with_sync _ (untouched_open oc cfg))) as S.
    unfold config_open in E. rewrite E in S. cbn [snd] in S. apply on_file_ok in E. destruct E as (d & d' & O & R & _).
    destruct (open_file_ok _ _ _ _ _ O) as (f & F & A & B & _). unfold open_path, with_sync, bind, ret in R.
    destruct (open_from_device oc cfg d) as [[x|e|] d1] eqn:OO; try discriminate R. injection R as <- <-.
    destruct (open_config _ _ _ _ _ OO) as (C1 & C2 & (C3 & C4 & _)). exists f. cbn. rewrite C2. split; [exact F|]. split; [congruence|]. split; [congruence|]. split; [congruence|]. split; [reflexivity|exact S].
  - pose proof (on_file_same (c_writable cfg) k p (create_path oc cfg rnd) fs (untouched_with_sync _ (untouched_create oc cfg None rnd))) as S.
    unfold config_create in E. rewrite E in S. cbn [snd] in S. apply on_file_ok in E. destruct E as (d & d' & O & R & _).
    destruct (open_file_ok _ _ _ _ _ O) as (f & F & A & B & _). unfold create_path, with_sync, bind, ret in R.
    destruct (create_from_device oc cfg None rnd d) as [[x|e|] d1] eqn:OO; try discriminate R. injection R as <- <-.
    unfold create_from_device in OO. match type of OO with context [init_headers oc ?g] => pose proof (mo_init oc g) as ((U1 & U2 & _) & C & _) end.
    destruct (init_headers oc _) as [[[]|e|] g']; try discriminate OO. injection OO as <- <-. cbn [snd g_device g_config] in *.
    exists f. cbn. split; [exact F|]. split; [congruence|]. split; [congruence|]. split; [congruence|]. split; [reflexivity|exact S].
Qed.
(** Calls other than writing leave the device. *)
Lemma ask_unwritten oc c g : no_write c -> same_media (g_device g) (g_device (snd (ask oc c g))).
Proof.
  intros K. destruct c as [o| | | | | | | | |]; try apply same_media_refl.
  destruct o; try contradiction; cbn [ask]; unfold replied, told; cbn [snd].
  - apply (mo_add oc nm size ty fl al rnd g).
  - apply (mo_add_at oc nm id first len ty fl rnd g).
  - unfold remove_partition. destruct (pm_get _ _); apply same_media_refl.
  - unfold remove_partition_by_guid. destruct (find _ _) as [(i, p)|]; apply same_media_refl.
  - apply same_media_refl.
  - apply same_media_refl.
  - apply (mo_update_partitions oc pp g).
Qed.
Lemma talk_always (R : gdisk -> Prop) (P : call -> Prop) oc : (forall c g, P c -> R g -> R (snd (ask oc c g))) ->
  forall cs g, Forall P cs -> R g -> R (snd (talk oc cs g)).
Proof.
  intros H. induction cs as [|c cs IH]; intros g F RG; cbn [talk]; [exact RG|]. inversion F as [|? ? F1 F2]; subst.
  pose proof (H c g F1 RG) as X. destruct (ask oc c g) as [r g1]. cbn [snd] in X. specialize (IH g1 F2 X).
  destruct r; [| |exact X]; destruct (talk oc cs g1) as [l g2]; exact IH.
Qed.
Lemma talk_unwritten oc cs g : Forall no_write cs -> same_media (g_device g) (g_device (snd (talk oc cs g))).
Proof.
  intros F. apply (talk_always (fun g' => same_media (g_device g) (g_device g')) no_write oc); [|exact F|apply same_media_refl].
  intros c g1 N S. eapply same_media_trans; [exact S|]. apply ask_unwritten, N.
Qed.

(** Writing without syncing. *)
Definition unsynced_by {A} (m : dev -> A * dev) : Prop := forall d, durable (snd (m d)) = durable d.
Lemma us_untouched {E A} (m : M dev E A) : untouched m -> unsynced_by m.
Proof. intros U d. apply U. Qed.
Lemma us_bind {E A B} (m : M dev E A) (k : A -> M dev E B) : unsynced_by m -> (forall a, unsynced_by (k a)) -> unsynced_by (bind m k).
Proof. intros X Y d. unfold bind. specialize (X d). destruct (m d) as [[a|e|] d1]; cbn [snd] in *; [rewrite Y|..]; exact X. Qed.
Lemma us_write_all bs : unsynced_by (write_all bs).
Proof. intros d. destruct (write_all_prefix bs d) as (k & _ & D). exact D. Qed.
Lemma us_partition_write oc x i start lb : unsynced_by (partition_write oc x i start lb).
Proof.
  unfold partition_write, write_to_device. repeat (apply us_bind; [apply us_untouched; first [apply untouched_lift|apply untouched_seek_start]|intros ?]).
  apply us_write_all.
Qed.
Lemma us_write_primary h lb : unsynced_by (fun d => let (r, hd) := write_primary h lb d in (r, snd hd)).
Proof.
  intros d. unfold write_primary. destruct (_ <=? _); [reflexivity|]. unfold file_write_header.
  pose proof (untouched_partentry_checksum h lb d) as (_ & U & _). destruct (partentry_checksum h lb d) as [[c|e|] d1]; cbn [snd] in *; [|exact U..].
  destruct (hdr_to_bytes _ _) as [(q, b)|e|]; [|exact U..]. destruct ((_ ;; _) b) as [[[]|e|] b']; [|exact U..].
  match goal with |- context [let (_, _) := ?m d1 in _] => assert (X : unsynced_by m) end.
  { apply us_bind; [apply us_untouched, untouched_lift|]. intros a. apply us_bind; [apply us_untouched, untouched_map_err, untouched_seek_start|]. intros z.
    apply us_bind; [|intros []; apply us_untouched, untouched_ret]. intros d2. unfold map_err. pose proof (us_write_all (firstn (N.to_nat (lb_u64 lb)) (arr b' ++ zeros (N.to_nat (lb_u64 lb) - 92))) d2) as Y.
    destruct (write_all _ d2) as [[[]|e|] d3]; exact Y. }
  specialize (X d1). destruct (bind _ _ d1) as [r d2]. cbn [snd] in *. congruence.
Qed.
Lemma us_write_header oc u rnd lb : unsynced_by (write_header oc u rnd lb).
Proof.
  unfold write_header. apply us_bind; [apply us_untouched, untouched_find_backup_lba|]. intros bak.
  apply us_bind; [apply us_untouched, untouched_lift|]. intros h d. pose proof (us_write_primary h lb d) as X. cbv beta in X.
  destruct (write_primary h lb d) as [[x|e|] [h' d']]; exact X.
Qed.
Lemma on_file_unsynced {E A} w k p (m : M dev E A) fs : unsynced_by m -> nothing_synced fs (snd (on_file w k p m fs)).
Proof.
  intros U q f f' F F'. unfold on_file in F'. destruct (open_file w k p fs) as [d|e|] eqn:O; [|cbn [snd] in F'; congruence..].
  destruct (open_file_ok _ _ _ _ _ O) as (f0 & F0 & _ & D & _). specialize (U d). destruct (m d) as [r d']. cbn [snd] in *.
  unfold put_back in F'. destruct (String.eqb_spec q p) as [->|N]; [|congruence]. rewrite F0 in F'. injection F' as <-. cbn. congruence.
Qed.
