(** OpenFacts.v - GptConfig::open_from_device. *)
From Verif Require Export WriteFacts.
Open Scope list_scope.
Open Scope N_scope.

(** * Opening never touches the medium *)
Lemma untouched_file_read_header off : untouched (file_read_header off).
Proof. unfold file_read_header. auto 20 with untouched. Qed.
Lemma untouched_stream_position_or_0 : untouched stream_position_or_0.
Proof. unfold stream_position_or_0. auto 20 with untouched. Qed.
Global Hint Resolve untouched_file_read_header untouched_stream_position_or_0 untouched_find_backup_lba : untouched.
Lemma untouched_read_primary_header lb : untouched (read_primary_header lb).
Proof. unfold read_primary_header. auto 20 with untouched. Qed.
Lemma untouched_read_backup_header lb : untouched (read_backup_header lb).
Proof. unfold read_backup_header. auto 20 with untouched. Qed.
Lemma untouched_read_entries oc n : forall i e parts, untouched (read_entries oc n i e parts).
Proof.
  induction n as [|n IH]; intros i e parts; [apply untouched_ret|]. cbn [read_entries].
  apply untouched_bind; [apply untouched_read_exact|intros b].
  destruct (bytes_eqb b (zeros 128)); (apply untouched_bind; [apply untouched_lift|intros; apply IH]).
Qed.
Global Hint Resolve untouched_read_primary_header untouched_read_backup_header untouched_read_entries : untouched.
Lemma untouched_file_read_partitions oc h lb : untouched (file_read_partitions oc h lb).
Proof. unfold file_read_partitions. auto 20 with untouched. Qed.
Global Hint Resolve untouched_file_read_partitions : untouched.

Lemma untouched_open oc cfg : untouched (open_from_device oc cfg).
Proof.
  unfold open_from_device.
  apply untouched_bind; [auto with untouched|intros h1].
  apply untouched_bind; [auto with untouched|intros h2].
  apply untouched_bind.
  - destruct (c_only_valid_headers cfg); [auto 10 with untouched|].
    destruct h1, h2; auto with untouched.
  - intros [a b]. apply untouched_bind; [destruct (or_else a b); auto with untouched|intros h].
    apply untouched_bind; [auto with untouched|intros t]. intros d. apply same_media_refl.
Qed.

(** * Exact result on a fault-free device *)
(** Which header is used, and what the disk remembers of both. *)
Definition select (cfg : config) (h1 h2 : outcome hdr_err header) : outcome gpt_err header :=
  match h1, h2 with
  | Ok a, Ok _ => Ok a
  | Ok a, Err e => if c_only_valid_headers cfg then Err (GHeader e) else Ok a
  | Err e, Ok b => if c_only_valid_headers cfg then Err (GHeader e) else Ok b
  | Err e, Err _ => Err (GHeader e)
  | _, _ => Panic
  end.

Lemma read_backup_at_no_panic lb d : read_backup_at lb d <> Panic.
Proof. unfold read_backup_at. destruct (_ <? _); [discriminate|apply read_header_at_no_panic]. Qed.

Lemma open_ok oc cfg d : healthy d -> dev_len d < modulus 64 ->
  let h1 := read_header_at (lb_u64 (c_lb cfg)) (data d) in
  let h2 := read_backup_at (c_lb cfg) d in
  open_from_device oc cfg d =
  match select cfg h1 h2 with
  | Ok h =>
      match map_err GIo (file_read_partitions oc h (c_lb cfg)) d with
      | (Ok t, d') => (Ok (mkGdisk cfg d' (disk_guid h) h1 h2 t false), d')
      | (Err e, d') => (Err e, d')
      | (Panic, d') => (Panic, d')
      end
  | Err e => (Err e, d)
  | Panic => (Panic, d)
  end.
Proof.
  intros Hd H64 h1 h2.
  pose proof (read_header_at_no_panic (lb_u64 (c_lb cfg)) (data d)) as N1. fold h1 in N1.
  pose proof (read_backup_at_no_panic (c_lb cfg) d) as N2. fold h2 in N2.
  unfold open_from_device.
  assert (E1 : @attempt dev hdr_err gpt_err _ (read_primary_header (c_lb cfg)) d = (Ok h1, d)).
  { unfold attempt. rewrite read_primary_header_ok by auto. fold h1.
    destruct h1 as [a|e|]; auto. congruence. }
  rewrite (bind_ok E1).
  assert (E2 : @attempt dev hdr_err gpt_err _ (read_backup_header (c_lb cfg)) d = (Ok h2, d)).
  { unfold attempt. rewrite read_backup_header_ok by auto. fold h2.
    destruct h2 as [a|e|]; auto. congruence. }
  rewrite (bind_ok E2). unfold select.
  clear E1 E2. 
  destruct h1 as [a|e|]; [| |congruence]; (destruct h2 as [b|e'|]; [| |congruence]);
    destruct (c_only_valid_headers cfg); cbn [lift omap_err]; unfold bind, ret, throw, lift; cbn [or_else];
    try reflexivity;
    destruct (map_err _ _ _) as [[t|x|] d']; reflexivity.
Qed.

Lemma open_ok_128 oc cfg d h : healthy d -> dev_len d < modulus 64 ->
  let h1 := read_header_at (lb_u64 (c_lb cfg)) (data d) in
  let h2 := read_backup_at (c_lb cfg) d in
  select cfg h1 h2 = Ok h -> part_size h = 128 -> counts oc h (dev_len d) ->
  exists p, open_from_device oc cfg d =
    (match read_parts_at h (c_lb cfg) (data d) with
     | Ok t => Ok (mkGdisk cfg (set_pos d p) (disk_guid h) h1 h2 t false)
     | Err e => Err (GIo e)
     | Panic => Panic
     end, set_pos d p).
Proof.
  intros Hd H64 h1 h2 HS HP HN. rewrite open_ok by auto. fold h1 h2. rewrite HS.
  destruct (file_read_partitions_ok oc h (c_lb cfg) d) as (p & E); auto.
  exists p. unfold map_err. rewrite E. destruct (read_parts_at h (c_lb cfg) (data d)); auto.
Qed.

(** * Absence of panics, for every fault schedule *)
Definition calm {S E A} (m : M S E A) : Prop := forall s, fst (m s) <> Panic.
Lemma calm_bind {S E A B} (m : M S E A) (k : A -> M S E B) :
  calm m -> (forall a, calm (k a)) -> calm (bind m k).
Proof.
  intros Hm Hk s. unfold bind. specialize (Hm s). destruct (m s) as [[a|e|] s']; cbn in *.
  - apply Hk.
  - discriminate.
  - auto.
Qed.
(** The same, keeping in mind what the first part can return. *)
Lemma calm_bind_post {S E A B} (P : A -> Prop) (m : M S E A) (k : A -> M S E B) :
  calm m -> (forall s a s', m s = (Ok a, s') -> P a) -> (forall a, P a -> calm (k a)) -> calm (bind m k).
Proof.
  intros Hm HP Hk s. unfold bind. specialize (Hm s). destruct (m s) as [[a|e|] s'] eqn:EM; cbn in *.
  - apply Hk. eapply HP; eauto.
  - discriminate.
  - auto.
Qed.
Lemma calm_ret {S E A} (a : A) : calm (@ret S E A a).
Proof. intros s; discriminate. Qed.
Lemma calm_throw {S E A} (e : E) : calm (@throw S E A e).
Proof. intros s; discriminate. Qed.
Lemma calm_lift {S E A} (o : outcome E A) : o <> Panic -> calm (@lift S E A o).
Proof. intros H s; auto. Qed.
Lemma calm_ok_or {S E A} (o : option A) (e : E) : calm (@lift S E A (ok_or o e)).
Proof. intros s; destruct o; discriminate. Qed.
Lemma calm_map_err {S E F A} (f : E -> F) (m : M S E A) : calm m -> calm (map_err f m).
Proof. intros H s. specialize (H s). unfold map_err. destruct (m s) as [[a|e|] d']; cbn in *; try discriminate; auto. Qed.
Lemma calm_attempt {S E F A} (m : M S E A) : calm m -> calm (@attempt S E F A m).
Proof. intros H s. specialize (H s). unfold attempt. destruct (m s) as [[a|e|] d']; cbn in *; try discriminate; auto. Qed.
Lemma calm_seek_start n : calm (seek_start n).
Proof. intros d. unfold seek_start. destruct (tick d) as [[m|] d']; discriminate. Qed.
Lemma calm_seek_end : calm seek_end.
Proof. intros d. unfold seek_end. destruct (tick d) as [[m|] d']; discriminate. Qed.
Lemma calm_stream_position : calm stream_position.
Proof. intros d. unfold stream_position. destruct (tick d) as [[m|] d']; discriminate. Qed.
Lemma calm_flush : calm flush.
Proof. intros d. unfold flush. destruct (tick d) as [[m|] d']; discriminate. Qed.
Lemma calm_sync : calm sync_all.
Proof. intros d. unfold sync_all. destruct (tick d) as [[m|] d']; discriminate. Qed.
Lemma calm_read_exact n : calm (read_exact n).
Proof.
  intros d. unfold read_exact. destruct (n =? 0); [discriminate|].
  destruct (tick d) as [[m|] d']; [discriminate|]. destruct (_ <=? _); discriminate.
Qed.
Lemma calm_write_all bs : calm (write_all bs).
Proof.
  intros d. unfold write_all. destruct bs; [discriminate|].
  destruct (tick d) as [[m|] d']; [discriminate|]. destruct (_ || _); discriminate.
Qed.
Create HintDb calm.
Global Hint Resolve calm_ret calm_throw calm_ok_or calm_map_err calm_attempt calm_seek_start calm_seek_end
  calm_stream_position calm_flush calm_sync calm_read_exact calm_write_all : calm.
Global Hint Extern 2 (calm (bind _ _)) => apply calm_bind; [|intros] : calm.
Global Hint Extern 3 (calm (if ?b then _ else _)) => destruct b : calm.

Lemma read_exact_length n d b d' : read_exact n d = (Ok b, d') -> lenN b = n.
Proof.
  unfold read_exact. destruct (N.eqb_spec n 0) as [->|]; [intros E; injection E as <- <-; auto|].
  destruct (tick d) as [[m|] d1]; [discriminate|].
  destruct (N.leb_spec (pos d1 + n) (dev_len d1)); [|discriminate].
  intros E; injection E as <- <-. apply slice_length; auto.
Qed.
Lemma map_err_ok_inv {S E F A} (f : E -> F) (m : M S E A) s a s' :
  map_err f m s = (Ok a, s') -> m s = (Ok a, s').
Proof. unfold map_err. destruct (m s) as [[x|e|] s1]; intros H; congruence. Qed.

Lemma calm_file_read_header off : calm (file_read_header off).
Proof.
  unfold file_read_header. apply calm_bind; [auto with calm|intros _].
  apply calm_bind_post with (fun b => lenN b = 92); [auto with calm| |].
  - intros s a s' H. apply map_err_ok_inv in H. eapply read_exact_length; eauto.
  - intros b Hb. apply calm_lift, parse_header_no_panic. unfold lenN in Hb. lia.
Qed.
Lemma calm_find_backup_lba lb : calm (find_backup_lba lb).
Proof. unfold find_backup_lba. auto 20 with calm. Qed.
Lemma calm_stream_position_or_0 : calm stream_position_or_0.
Proof. unfold stream_position_or_0. auto 20 with calm. Qed.
Global Hint Resolve calm_file_read_header calm_find_backup_lba calm_stream_position_or_0 : calm.
Lemma attempt_not_panic {S E F A} (m : M S E A) s a s' : @attempt S E F A m s = (Ok a, s') -> a <> Panic.
Proof. unfold attempt. destruct (m s) as [[x|e|] s1]; intros H; congruence. Qed.
Lemma calm_read_primary_header lb : calm (read_primary_header lb).
Proof.
  unfold read_primary_header. apply calm_bind; [auto with calm|intros p].
  apply calm_bind_post with (fun a => a <> Panic); [auto with calm|intros; eapply attempt_not_panic; eauto|].
  intros a Ha. apply calm_bind; [auto with calm|intros _]. apply calm_lift; auto.
Qed.
Lemma calm_read_backup_header lb : calm (read_backup_header lb).
Proof.
  unfold read_backup_header. apply calm_bind; [auto with calm|intros p].
  apply calm_bind; [auto with calm|intros q]. apply calm_bind; [auto with calm|intros r].
  apply calm_bind_post with (fun a => a <> Panic); [auto with calm|intros; eapply attempt_not_panic; eauto|].
  intros a Ha. apply calm_bind; [auto with calm|intros _]. apply calm_lift; auto.
Qed.
Lemma calm_read_entries oc n : forall i empty parts,
  (oc = false \/ empty + N.of_nat n < modulus 31) -> calm (read_entries oc n i empty parts).
Proof.
  induction n as [|n IH]; intros i empty parts He; [apply calm_ret|]. cbn [read_entries].
  apply calm_bind_post with (fun b => lenN b = 128); [apply calm_read_exact|intros; eapply read_exact_length; eauto|].
  intros b Hb. destruct (bytes_eqb b (zeros 128)).
  - destruct He as [->|He].
    + unfold addw. destruct (_ <? _); cbn [lift]; intros d; unfold bind, lift; apply IH; auto.
    + rewrite addw_ok by lia. intros d; unfold bind, lift. apply IH. right. lia.
  - apply calm_bind; [|intros p; apply IH; destruct He; [auto|right; lia]].
    destruct (parse_entry_total b) as (p & E & _); [unfold lenN in Hb; lia|].
    apply calm_lift. rewrite E. discriminate.
Qed.
Lemma calm_file_read_partitions oc h lb :
  part_size h = 128 -> (oc = false \/ num_parts h < modulus 31) -> calm (file_read_partitions oc h lb).
Proof.
  intros HS HN. unfold file_read_partitions. rewrite HS. cbn [N.eqb negb].
  apply calm_bind; [auto with calm|intros pstart]. apply calm_bind; [auto with calm|intros _].
  change (128 =? 128) with true. cbn [negb].
  apply calm_bind; [|intros; auto 20 with calm].
  apply calm_read_entries. destruct HN; [auto|right; lia].
Qed.

(** Whatever the device and the faults, open does not panic if every header it could use asks for
    128-byte entries and, in a debug build, fewer than 2^31 of them or the device is below 2^38 bytes. *)
Lemma open_calm oc cfg d :
  (forall h, read_header_at (lb_u64 (c_lb cfg)) (data d) = Ok h \/ read_backup_at (c_lb cfg) d = Ok h ->
     part_size h = 128 /\ counts oc h (dev_len d)) ->
  healthy d -> dev_len d < modulus 64 ->
  fst (open_from_device oc cfg d) <> Panic.
Proof.
  intros H Hd H64. rewrite open_ok by auto.
  pose proof (read_header_at_no_panic (lb_u64 (c_lb cfg)) (data d)) as N1.
  pose proof (read_backup_at_no_panic (c_lb cfg) d) as N2.
  destruct (select _ _ _) as [h|e|] eqn:ES; [|discriminate|].
  - assert (X : part_size h = 128 /\ counts oc h (dev_len d)).
    { apply H. unfold select in ES.
      destruct (read_header_at _ _), (read_backup_at _ _); try discriminate;
        try (destruct (c_only_valid_headers cfg); try discriminate); injection ES as ->; auto. }
    destruct X as [X1 X2].
    destruct (file_read_partitions_ok oc h (c_lb cfg) d Hd X1 X2 H64) as (p & E). unfold map_err. rewrite E.
    unfold read_parts_at. repeat (destruct (_ <=? _) || destruct (_ =? _)); cbn; discriminate.
  - unfold select in ES. destruct (read_header_at _ _), (read_backup_at _ _); try discriminate;
      try (destruct (c_only_valid_headers cfg); discriminate); congruence.
Qed.
