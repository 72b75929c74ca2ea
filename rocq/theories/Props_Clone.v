(** Props_Clone.v - configurations and copies of an open disk (C90). *)
From Verif Require Import CloneFacts HistoryFacts SessionFacts Samples Props_Builder Props_Write Props_Count.
Open Scope list_scope.
Open Scope N_scope.

Lemma casked_is {A} (f : config -> A) (pick : csetting -> option A) :
  (forall b s, f (capply b s) = match pick s with Some v => v | None => f b end) ->
  forall ss b v, asked pick ss (f b) v -> f (fold_left capply ss b) = v.
Proof.
  intros H.
  assert (N : forall ss b, Forall (fun x => pick x = None) ss -> f (fold_left capply ss b) = f b).
  { induction ss as [|s ss IH]; intros b FF; [reflexivity|]. inversion FF; subst. cbn.
    rewrite IH by assumption. rewrite H. rewrite H2. reflexivity. }
  intros ss b v [(a & s & c & -> & P & FF)|(FF & ->)].
  - rewrite fold_left_app. cbn [fold_left]. rewrite N by exact FF. rewrite H, P. reflexivity.
  - apply N, FF.
Qed.
(** C90.  A configuration says what it was last asked to say; a new one has blocks of 512 bytes, allows no writing, is content
    with one header, writes both copies and leaves the number of entries alone. *)
Theorem C90_configured : forall ss lb w v r n,
  asked asks_block ss Lb512 lb -> asked asks_writable ss false w -> asked asks_valid ss false v ->
  asked asks_readonly ss false r -> asked asks_count ss false n -> configured ss = mkConfig lb w v r n.
Proof.
  intros ss lb w v r n B W V R C.
  assert (K : forall c, c = mkConfig (c_lb c) (c_writable c) (c_only_valid_headers c) (c_readonly_backup c) (c_change_partition_count c))
    by (intros []; reflexivity).
  rewrite (K (configured ss)). unfold configured. f_equal.
  - apply (casked_is c_lb asks_block); [intros b []; reflexivity|exact B].
  - apply (casked_is c_writable asks_writable); [intros b []; reflexivity|exact W].
  - apply (casked_is c_only_valid_headers asks_valid); [intros b []; reflexivity|exact V].
  - apply (casked_is c_readonly_backup asks_readonly); [intros b []; reflexivity|exact R].
  - apply (casked_is c_change_partition_count asks_count); [intros b []; reflexivity|exact C].
Qed.
Print Assumptions C90_configured.
Lemma ask_read_only oc c g : keeps_device c -> c_writable (g_config g) = false ->
  same_medium (g_device g) (g_device (snd (ask oc c g))) /\ c_writable (g_config (snd (ask oc c g))) = false.
Proof.
  intros K W. unfold ask. destruct c as [o| | | | | | | | |]; try (split; [apply same_media_refl|exact W]).
  destruct o; try contradiction; cbn [replied told fst snd].
  - destruct (mo_add oc nm size ty fl al rnd g) as (X & Y & _). split; [exact X|]. rewrite Y. exact W.
  - destruct (mo_add_at oc nm id first len ty fl rnd g) as (X & Y & _). split; [exact X|]. rewrite Y. exact W.
  - unfold remove_partition. destruct (pm_get _ _); (split; [apply same_media_refl|exact W]).
  - unfold remove_partition_by_guid. destruct (find _ _) as [(i, p)|]; (split; [apply same_media_refl|exact W]).
  - split; [apply same_media_refl|exact W].
  - split; [apply same_media_refl|exact W].
  - destruct (mo_update_partitions oc pp g) as (X & Y & _). split; [exact X|]. rewrite Y. exact W.
  - unfold replied. cbn [snd]. rewrite (proj1 (C14_read_only oc g W)). split; [apply same_media_refl|exact W].
Qed.
(** A disk opened or created with a configuration that was not asked to allow writing, or asked not to, is never written:
    whatever is said to it, every write is refused and the contents of the device stay. *)
Theorem C90_read_only : forall oc oc' ss d g u rnd cs,
  asked asks_writable ss false false -> Forall keeps_device cs ->
  fst (open_from_device oc (configured ss) d) = Ok g \/ fst (create_from_device oc (configured ss) u rnd d) = Ok g ->
  let '(rs, g') := talk oc' cs g in
  data (g_device g') = data d /\ (forall i, nth_error cs i = Some (Do OpWrite) -> forall r, nth_error rs i = Some r -> r = Refused GReadOnly).
Proof.
  intros oc oc' ss d g u rnd cs W K O.
  assert (X : data (g_device g) = data d /\ g_config g = configured ss).
  { destruct O as [O|O].
    - destruct (open_from_device oc (configured ss) d) as (r, d') eqn:E. cbn [fst] in O. subst r.
      destruct (open_config _ _ _ _ _ E) as (A & B & C). rewrite B. split; [apply C|exact A].
    - pose proof (C15_create_does_not_write oc (configured ss) u rnd d) as S.
      destruct (create_from_device oc (configured ss) u rnd d) as (r, d') eqn:E. cbn [fst snd] in O, S. subst r.
      split; [|apply (create_config oc _ u rnd d g d' E)]. rewrite <- (proj1 S). clear S.
      unfold create_from_device in E. destruct (init_headers oc _) as [[[]|e|] g1]; try discriminate E. injection E as -> <-. reflexivity. }
  destruct X as (<- & C).
  assert (WF : c_writable (g_config g) = false).
  { rewrite C. apply (casked_is c_writable asks_writable); [intros b []; reflexivity|exact W]. }
  clear O W C. revert g WF. induction cs as [|c cs IH]; intros g WF; cbn [talk]; [split; [reflexivity|intros [|i] H; discriminate H]|].
  inversion K as [|? ? K1 K2]; subst. destruct (ask_read_only oc' c g K1 WF) as (S & W1).
  assert (R : c = Do OpWrite -> fst (ask oc' c g) = Refused GReadOnly).
  { intros ->. cbn [ask]. rewrite (proj1 (C14_read_only oc' g WF)). reflexivity. }
  destruct (ask oc' c g) as (r, g1). cbn [fst snd] in *. specialize (IH K2 g1 W1). destruct (talk oc' cs g1) as (rs, g2).
  rewrite (proj1 S) in IH.
  assert (Z : forall l i, nth_error (c :: cs) i = Some (Do OpWrite) ->
    (forall i r, nth_error cs i = Some (Do OpWrite) -> nth_error l i = Some r -> r = Refused GReadOnly) ->
    forall r', nth_error (r :: l) i = Some r' -> r' = Refused GReadOnly).
  { intros l [|i] H HL r' H'; cbn in H, H'.
    - injection H as ->. injection H' as <-. apply R. reflexivity.
    - eapply HL; eassumption. }
  destruct r; (split; [apply IH || apply S|]); intros i H; apply (Z _ i H); intros j r' HJ HJ'; try (apply (proj2 IH j HJ r' HJ')).
  destruct j; discriminate HJ'.
Qed.
Print Assumptions C90_read_only.
(** A clone answers every conversation as the original does, and does the same to its device, whatever fails. *)
Theorem C90_clone : forall oc cs g,
  let '(rs, g1) := talk oc cs g in
  let '(rs', g2) := talk oc cs (gdisk_clone g) in
  rs' = rs /\ g_device g2 = g_device g1.
Proof.
  intros oc cs g. destruct (clone_talk oc cs g _ (clone_twin g)) as (X & Y).
  destruct (talk oc cs g) as (rs, g1), (talk oc cs (gdisk_clone g)) as (rs', g2). cbn [fst snd] in *.
  split; [exact X|]. symmetry. apply Y.
Qed.
Print Assumptions C90_clone.
(** So does a copy of the disk on another device ([with_disk_device]) compared with the disk itself after its device was
    replaced by that one ([update_disk_device]), as long as the devices do not fail; only what is known to have reached the
    medium may differ, because the copy does not call sync_all. *)
Theorem C90_other_device : forall oc cs g d w, fault_free d -> Forall sound_call cs ->
  let '(rs, g1) := talk oc cs (snd (update_disk_device d w g)) in
  let '(rs', g2) := talk oc cs (with_disk_device d w g) in
  rs' = rs /\ same_dev (g_device g1) (g_device g2).
Proof.
  intros oc cs g d w F S.
  assert (T : twin unsynced any_sync (snd (update_disk_device d w g)) (with_disk_device d w g)).
  { constructor; [reflexivity|reflexivity|reflexivity|apply lossy_idem|apply lossy_idem| |exact I].
    split; [repeat split|exact F]. }
  destruct (unsynced_talk oc cs _ _ T S) as (X & Y).
  destruct (talk oc cs (snd (update_disk_device d w g))) as (rs, g1), (talk oc cs (with_disk_device d w g)) as (rs', g2). cbn [fst snd] in *.
  split; [exact X|]. apply Y.
Qed.
Print Assumptions C90_other_device.
(** What is lost in a copy: the copy of a disk from a path is not synced. *)
Theorem C90_copy_not_synced_refuted : exists oc g d w,
  let g1 := snd (talk oc [Do OpWrite] (snd (update_disk_device d w g))) in
  let g2 := snd (talk oc [Do OpWrite] (with_disk_device d w g)) in
  fault_free d /\ durable (g_device g1) = data (g_device g1) /\ durable (g_device g2) <> data (g_device g2).
Proof.
  exists true, (set_sync true (mini_disk [(1, sample_part)])), mini_dev, true. cbn zeta. split; [vm_compute; reflexivity|]. split.
  - apply bytes_eqb_eq. vm_compute. reflexivity.
  - apply bytes_eqb_neq. vm_compute. reflexivity.
Qed.
Print Assumptions C90_copy_not_synced_refuted.

(** A conversation with a disk, its clone and its copy: questions, edits, a write, a new device. *)
Definition sample_calls : list call :=
  [AskFree; Do (OpRemove 1); AskTable; Do (OpUpdateGuid None other_guid); Do OpWrite; AskPrimary; AskId;
   Do (OpUpdateDevice mini_dev true); Do OpWrite; AskAlignment].
Example C90_case : Forall sound_call sample_calls /\
  (let rs := fst (talk true sample_calls (mini_disk [(1, sample_part)])) in
   length rs = 10%nat /\ nth_error rs 4 = Some (Returned VUnit) /\ nth_error rs 1 = Some (Returned (VMaybe (Some 1)))) /\
  asked asks_writable [SetWritable true; SetCount true; SetWritable false] false false /\
  asked asks_writable [SetCount true] false false /\
  asked asks_block [SetBlock Lb4096] Lb512 Lb4096.
Proof.
  split; [repeat constructor|]. split; [vm_compute; repeat split|]. split; [|split].
  - left. exists [SetWritable true; SetCount true], (SetWritable false), []. repeat constructor.
  - right. repeat constructor.
  - left. exists [], (SetBlock Lb4096), []. repeat constructor.
Qed.
