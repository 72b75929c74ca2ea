(** Props_Logging.v - logging makes no difference (C92). *)
From Verif Require Import Logging HistoryFacts Samples.
Open Scope list_scope.
Open Scope N_scope.

(** The result [y] with messages suppressed, where [x] is the result with their arguments computed: the same, or a
    refusal where [x] is a panic; the disk as it was in this case. *)
Definition same_or_refusal (oc : bool) (g : gdisk) (x y : outcome gpt_err N * gdisk) : Prop :=
  y = x \/ oc = true /\ x = (Panic, g) /\ y = (Err GPartitionCountWouldChange, g).

Lemma last_ok {E} oc start size : 
  (exists l, (let? e := @addw E oc 64 start size in subw oc 64 e 1) = Ok l) \/
  oc = true /\ (let? e := @addw E oc 64 start size in subw oc 64 e 1) = Panic.
Proof.
  unfold addw, subw. destruct (start + size <? modulus 64); [|destruct oc]; cbn [obind]; auto; destruct (1 <=? _); eauto; destruct oc; eauto.
Qed.
Lemma place_ok oc id start size mk g :
  let computed := (let* e := lift (addw oc 64 start size) in let* last := lift (subw oc 64 e 1) in
    let* changes := check_count id in insert_partition oc id (mk last) changes) g in
  forall k, same_or_refusal oc g computed
    ((log_argument k (let? e := addw oc 64 start size in subw oc 64 e 1) ;; place oc id start size mk) g) /\
  (evaluated k = true ->
   (log_argument k (let? e := addw oc 64 start size in subw oc 64 e 1) ;; place oc id start size mk) g = computed).
Proof.
  cbn zeta. intros k.
  assert (X : (let* e := lift (addw oc 64 start size) in let* last := lift (subw oc 64 e 1) in
    let* changes := check_count id in insert_partition oc id (mk last) changes) g =
    match (let? e := @addw gpt_err oc 64 start size in subw oc 64 e 1) with
    | Ok last => (let* changes := check_count id in insert_partition oc id (mk last) changes) g
    | Err e => (Err e, g) | Panic => (Panic, g) end).
  { unfold bind, lift. destruct (@addw gpt_err oc 64 start size) as [e|x|]; cbn [obind]; [|reflexivity|reflexivity].
    destruct (subw oc 64 e 1); reflexivity. }
  rewrite X. clear X. unfold place, log_argument, same_or_refusal, bind, lift, ret.
  destruct (@last_ok gpt_err oc start size) as [(l & ->)|(O & ->)].
  - assert (Z : forall b : bool, (if b then (fun s : gdisk => match (fun s0 : gdisk => (@Ok gpt_err N l, s0)) s with (Ok _, s') => (Ok tt, s')
       | (Err e, s') => (Err e, s') | (Panic, s') => (Panic, s') end) else (fun s => (@Ok gpt_err unit tt, s))) g = (Ok tt, g)) by (intros []; reflexivity).
    rewrite Z. destruct (check_count id g) as [[c|x|] g1]; auto.
  - destruct (evaluated k); [split; auto|]. split; [|intros X; discriminate X].
    assert (C : check_count id g = (fst (check_count id g), g)) by reflexivity. rewrite C.
    unfold check_count. cbn [fst]. unfold the_header. destruct (try_header g) as [h|e|]; cbn [obind]; auto.
    destruct (_ && _); auto.
Qed.
Definition like (k : logging) (oc : bool) (g : gdisk) (m m' : M gdisk gpt_err N) : Prop :=
  same_or_refusal oc g (m g) (m' g) /\ (k <> Disabled -> m' g = m g).
Lemma like_refl k oc g m : like k oc g m m.
Proof. split; [left; reflexivity|auto]. Qed.
Lemma like_query {A} k oc g (f : gdisk -> outcome gpt_err A) c c' :
  (forall a, like k oc g (c a) (c' a)) -> like k oc g (bind (fun g => (f g, g)) c) (bind (fun g => (f g, g)) c').
Proof. intros X. unfold like, bind. destruct (f g) as [a|e|]; [apply X|apply (like_refl k oc g (throw e))|apply (like_refl k oc g panic)]. Qed.
Lemma like_place k oc id start size mk g : like k oc g
  (let* e := lift (addw oc 64 start size) in let* last := lift (subw oc 64 e 1) in
    let* changes := check_count id in insert_partition oc id (mk last) changes)
  (log_argument k (let? e := addw oc 64 start size in subw oc 64 e 1) ;; place oc id start size mk).
Proof.
  destruct (place_ok oc id start size mk g k) as (X & Y). split; [exact X|]. intros D. apply Y. destruct k; [reflexivity|reflexivity|congruence].
Qed.
(** C92.  Adding a partition gives the same result and leaves the same disk however the crate is built and whatever is logged,
    with one exception: a debug build that panics because the last block of the partition is beyond 2^64 may say
    PartitionCountWouldChange instead if the messages are suppressed.  Nothing is changed in this case. *)
Theorem C92_add : forall k oc nm size ty fl al rnd g,
  same_or_refusal oc g (add_partition oc nm size ty fl al rnd g) (add_partition_logging k oc nm size ty fl al rnd g) /\
  (k <> Disabled -> add_partition_logging k oc nm size ty fl al rnd g = add_partition oc nm size ty fl al rnd g).
Proof.
  intros k oc nm size ty fl al rnd g. unfold add_partition, add_partition_logging.
  destruct (size =? 0); [split; [left; reflexivity|auto]|]. cbn zeta.
  apply (like_query k oc g (find_free_sectors oc)). intros s.
  induction s as [|[a l] s IH]; cbn [add_in_sections add_in_sections_logging]; [apply like_refl|].
  apply like_query. intros off. apply like_query. intros need. destruct (need <=? l); [|exact IH].
  apply like_query. intros start. apply like_query. intros next. destruct next as [i|].
  - apply (like_query k oc g (fun _ => Ok i)). intros id. apply (like_place k oc id start _ (fun last => mkPart ty rnd start last fl nm)).
  - apply like_query. intros id. apply (like_place k oc id start _ (fun last => mkPart ty rnd start last fl nm)).
Qed.
Print Assumptions C92_add.
Theorem C92_add_at : forall k oc nm id first len ty fl rnd g,
  same_or_refusal oc g (add_partition_at oc nm id first len ty fl rnd g) (add_partition_at_logging k oc nm id first len ty fl rnd g) /\
  (k <> Disabled -> add_partition_at_logging k oc nm id first len ty fl rnd g = add_partition_at oc nm id first len ty fl rnd g).
Proof.
  intros k oc nm id first len ty fl rnd g. unfold add_partition_at, add_partition_at_logging.
  destruct (len =? 0); [split; [left; reflexivity|auto]|]. destruct (id =? 0); [split; [left; reflexivity|auto]|].
  match goal with |- context [if ?b then _ else _] => destruct b end; [split; [left; reflexivity|auto]|].
  apply (like_query k oc g (find_free_sectors oc)). intros s.
  induction s as [|[a l] s IH]; cbn [add_at_in_sections add_at_in_sections_logging]; [apply like_refl|].
  destruct (negb _); [exact IH|]. apply (like_place k oc id first len (fun last => mkPart ty rnd first last fl nm)).
Qed.
Print Assumptions C92_add_at.
(** The two other messages with a sum come right before the same sum is used: they make no difference at all. *)
Lemma logged_twice {S E A B} k (o : outcome E A) (c : A -> M S E B) (s : S) :
  (log_argument k o ;; (let* a := lift o in c a)) s = (let* a := lift o in c a) s.
Proof. unfold log_argument, bind, lift, ret. destruct (evaluated k), o; reflexivity. Qed.
Theorem C92_write : forall k oc p i n start lb bytes d,
  write_to_device_logging k oc p i start lb bytes d = write_to_device oc p i start lb bytes d /\
  write_zero_entries_logging k oc i n start lb bytes d = write_zero_entries oc i n start lb bytes d.
Proof.
  intros k oc p i n start lb bytes d. unfold write_to_device_logging, write_to_device, write_zero_entries_logging, write_zero_entries.
  assert (X : forall A B (m : M dev io_err A) (c c' : A -> M dev io_err B) x, (forall a y, c a y = c' a y) -> bind m c x = bind m c' x).
  { intros A B m c c' x H. unfold bind. destruct (m x) as [[a|e|] y]; auto. }
  split; apply X; intros ps x; apply X; intros off y; apply logged_twice.
Qed.
Print Assumptions C92_write.
(** Hence a program that does not panic does the same however it logs.  [run_logging] runs a history of calls with these two. *)
Definition step_logging (k : logging) (oc : bool) (o : op) (g : gdisk) : option gdisk :=
  match o with
  | OpAdd nm size ty fl al rnd => kept (add_partition_logging k oc nm size ty fl al rnd g)
  | OpAddAt nm id first len ty fl rnd => kept (add_partition_at_logging k oc nm id first len ty fl rnd g)
  | _ => step oc o g
  end.
Fixpoint run_logging (k : logging) (oc : bool) (ops : list op) (g : gdisk) : option gdisk :=
  match ops with
  | [] => Some g
  | o :: r => match step_logging k oc o g with Some g' => run_logging k oc r g' | None => None end
  end.
Theorem C92_history : forall k oc ops g,
  (forall g', run oc ops g = Some g' -> run_logging k oc ops g = Some g') /\
  (oc = false -> run_logging k oc ops g = run oc ops g).
Proof.
  intros k oc. assert (S : forall o g, step oc o g = step_logging k oc o g \/ oc = true /\ step oc o g = None).
  { intros o g. destruct o; try (left; reflexivity); cbn [step step_logging].
    - destruct (proj1 (C92_add k oc nm size ty fl al rnd g)) as [->|(O & -> & _)]; [left; reflexivity|right; auto].
    - destruct (proj1 (C92_add_at k oc nm id first len ty fl rnd g)) as [->|(O & -> & _)]; [left; reflexivity|right; auto]. }
  induction ops as [|o ops IH]; intros g; cbn [run run_logging]; [auto|].
  destruct (S o g) as [E|(O & E)].
  - rewrite <- E. destruct (step oc o g) as [g1|]; [apply IH|]. split; [intros g' X; discriminate X|reflexivity].
  - rewrite E. split; [intros g' X; discriminate X|]. intros X. congruence.
Qed.
Print Assumptions C92_history.
(** The exception exists: a table of four entries, a partition placed at the last block number there is. *)
Theorem C92_suppressed_refuted : exists g nm id first len ty fl rnd,
  add_partition_at true nm id first len ty fl rnd g = (Panic, g) /\
  add_partition_at_logging Disabled true nm id first len ty fl rnd g = (Err GPartitionCountWouldChange, g).
Proof.
  exists (mini_disk []), [120], 1, (2 ^ 64 - 1), 1, (mkType linux_fs OsLinux), 0, sample_guid.
  assert (X : forall x : outcome gpt_err N * gdisk, snd x = mini_disk [] -> x = (fst x, mini_disk [])) by (intros (a, b) E; cbn in E; subst b; reflexivity).
  split; (rewrite X; [f_equal; vm_compute; reflexivity|vm_compute; reflexivity]).
Qed.
Print Assumptions C92_suppressed_refuted.
(** An addition that succeeds, however it is logged. *)
Example C92_case : forall k,
  fst (add_partition_logging k true [120] 512 (mkType linux_fs OsLinux) 0 None sample_guid (wide_disk [])) = Ok 1.
Proof. intros []; vm_compute; reflexivity. Qed.
