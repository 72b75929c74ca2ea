(** Props_Offsets.v - opening a file whose offsets are limited, as those of std::fs::File to 2^63 (C110, continued). *)
From Verif Require Import SpecCalls Samples Props_Moody Props_BadBlock OpenFacts TableFacts MapFacts SpecFacts HeaderFacts.
Open Scope list_scope.
Open Scope N_scope.

(** None of the calls is refused. *)
Fixpoint granted (P : mood unit) {A} (p : prog A) (d : dev) : Prop :=
  match p with
  | Done _ => True
  | Call o k => fst (P _ o d tt) = None /\ let (r, d') := do_io o d in granted P (k r) d'
  end.
Lemma granted_run P {A} (p : prog A) : forall d, fault_free d -> granted P p d ->
  run_moody P p d tt = let (x, d') := run_steps p d in (x, d', tt).
Proof.
  induction p as [x|R o k IH]; intros d F C; cbn [run_moody run_steps granted] in *.
  - rewrite healthy_repaired by exact F. reflexivity.
  - destruct C as (C1 & C2). unfold do_moody. destruct (P R o d tt) as [x []]. cbn [fst] in C1. subst x.
    rewrite healthy_repaired by exact F. destruct (do_io o d) as [r d1] eqn:E. pose proof (do_io_healthy o d r d1 F E) as F1.
    rewrite healthy_repaired by exact F1. apply IH; auto.
Qed.
Lemma granted_pbind P {A B} (p : prog A) (k : A -> prog B) : forall d, granted P p d ->
  (let (x, d') := run_steps p d in granted P (k x) d') -> granted P (pbind p k) d.
Proof.
  induction p as [x|R o h IH]; intros d C K; cbn [pbind granted run_steps] in *; [exact K|].
  destruct C as (C1 & C2). split; [exact C1|]. destruct (do_io o d) as [r d1]. apply IH; auto.
Qed.
Lemma mood_pbind P {A B} (p : prog A) (k : A -> prog B) : forall d, fault_free d ->
  run_moody P (pbind p k) d tt = let '(x, d', _) := run_moody P p d tt in run_moody P (k x) d' tt.
Proof.
  induction p as [x|R o h IH]; intros d F; cbn [pbind run_moody].
  - rewrite healthy_repaired by exact F. reflexivity.
  - destruct (do_moody P o d tt) as [[r d1] []] eqn:E. apply IH.
    unfold do_moody in E. destruct (P R o d tt) as [x []]. destruct (do_io _ _) as [r1 d2]. injection E as <- <-. reflexivity.
Qed.
Section Limit.
Context (lim : N).
Notation G := (granted (offsets_below lim)).
Lemma g_seek n d : n < lim -> G (call_p (OSeek n)) d.
Proof.
  intros H. cbn [call_p granted offsets_below fst]. replace (n <? lim) with true by (symmetry; apply N.ltb_lt; exact H).
  split; [reflexivity|]. destruct (do_io (OSeek n) d). exact I.
Qed.
Lemma g_read n d : G (call_p (ORead n)) d.
Proof. cbn [call_p granted offsets_below fst]. split; [reflexivity|]. destruct (do_io (ORead n) d). exact I. Qed.
Lemma g_entries oc n : forall i e m d, G (entries_calls oc n i e m) d.
Proof.
  induction n as [|n IH]; intros i e m d; cbn [entries_calls]; [exact I|].
  unfold next_p at 1. apply granted_pbind; [apply g_read|].
  cbn [call_p run_steps]. destruct (do_io (ORead 128) d) as [[x|x|] d1]; [|exact I|exact I].
  destruct (bytes_eqb x (zeros 128)); unfold next_p; cbn [pbind].
  - destruct (addw oc 31 e 1); [|exact I|exact I]. apply IH.
  - destruct (fst (parse_entry x)); [|exact I|exact I]. apply IH.
Qed.
Lemma g_table oc h lb d : array_at lb h < lim -> G (table_calls oc h lb) d.
Proof.
  unfold array_at. intros H. unfold table_calls. unfold next_p at 1. cbn [pbind].
  destruct (checked_mul64 (part_start h) (lb_u64 lb)) as [st|] eqn:ES; [|exact I]. cbn [ok_or].
  assert (ST : st < lim).
  { unfold checked_mul64 in ES. destruct (_ <? _) in ES; [injection ES as <-; exact H|discriminate]. }
  unfold next_p at 1. apply granted_pbind; [apply g_seek; exact ST|].
  cbn [call_p run_steps]. destruct (do_io (OSeek st) d) as [[x|x|] d1]; [|exact I|exact I].
  destruct (negb _); [exact I|]. unfold next_p at 1. apply granted_pbind; [apply g_entries|].
  destruct (run_steps _ d1) as [[t|e|] d2]; [|exact I|exact I].
  unfold next_p at 1. apply granted_pbind; [apply g_seek; exact ST|].
  cbn [call_p run_steps]. destruct (do_io (OSeek st) d2) as [[y|y|] d3]; [|exact I|exact I].
  unfold next_p at 1. cbn [pbind]. destruct (ok_or _ _) as [len|e|]; [|exact I|exact I].
  unfold next_p. apply granted_pbind; [apply g_read|].
  cbn [call_p run_steps]. destruct (do_io (ORead len) d3) as [[z|z|] d4]; [|exact I|exact I]. destruct (_ =? _); exact I.
Qed.
Lemma g_header_then off (k : N) d : off < lim -> k < lim ->
  G (do res <- @try_p _ hdr_err _ (header_calls off); do _ <- try_p (call_p (OSeek k)); Done res) d.
Proof.
  intros H K. unfold header_calls, next_p, try_p, err_p, call_p. cbn [pbind granted offsets_below fst].
  replace (off <? lim) with true by (symmetry; apply N.ltb_lt; exact H). split; [reflexivity|].
  destruct (do_io (OSeek off) d) as [[u|u|] d1]; cbn [pbind granted]; [| |exact I]; (split; [reflexivity|]).
  all: match goal with |- context [do_io (ORead 92) ?d] => destruct (do_io (ORead 92) d) as [[bs|e|] d2] end;
    cbn [omap_err pbind granted]; try exact I; [destruct (parse_header bs); cbn [pbind granted]; try exact I|];
    cbn [offsets_below fst]; replace (k <? lim) with true by (symmetry; apply N.ltb_lt; exact K);
    (split; [reflexivity|]); match goal with |- context [do_io ?o ?d] => destruct (do_io o d) as [[?|?|] ?] end; exact I.
Qed.
Lemma g_primary lb d : fault_free d -> pos d < lim -> lb_u64 lb < lim -> G (primary_calls lb) d.
Proof.
  destruct d as [l q gr em fs du]. unfold fault_free. cbn [faults pos]. intros -> HQ HL.
  unfold primary_calls, position_calls, next_p at 1, next_p at 1, try_p at 1, call_p at 1.
  cbn [pbind granted offsets_below fst]. split; [reflexivity|]. cbn [do_io stream_position tick faults pos].
  cbn [pbind]. apply g_header_then; auto.
Qed.
Lemma g_backup lb d : fault_free d -> pos d < lim -> lenN (data d) < lim -> G (backup_calls lb) d.
Proof.
  destruct d as [l q gr em fs du]. unfold fault_free. cbn [faults data pos]. intros -> HQ HL.
  pose proof (lb_pos lb) as LP.
  unfold backup_calls, position_calls, find_backup_calls, next_p at 1 2 3 4 5 6, try_p at 1, err_p at 1 2 3, call_p at 1 2 3 4.
  cbn [pbind granted offsets_below fst].
  split; [reflexivity|]. cbn [do_io stream_position tick faults pos]. cbn [pbind granted]. split; [reflexivity|].
  cbn [do_io stream_position tick faults pos]. cbn [pbind granted omap_err]. split; [reflexivity|].
  cbn [do_io seek_end tick faults pos data dev_len set_pos]. cbn [pbind granted omap_err offsets_below fst].
  replace (q <? lim) with true by (symmetry; apply N.ltb_lt; exact HQ). split; [reflexivity|].
  cbn [do_io seek_start tick faults pos data set_pos]. cbn [pbind granted omap_err].
  unfold dev_len. cbn [data]. destruct (lenN l <? lb_u64 lb * 3) eqn:E3; [exact I|]. apply N.ltb_ge in E3. cbn [pbind].
  destruct (checked_mul64 _ _) as [off|] eqn:EO; [|exact I]. cbn [ok_or pbind].
  apply g_header_then; [|exact HQ].
  unfold checked_mul64 in EO. destruct (_ <? _) in EO; [injection EO as <-|discriminate].
  pose proof (N.mul_div_le (lenN l - lb_u64 lb) (lb_u64 lb)). lia.
Qed.
End Limit.

(** On a file shorter than the limit nothing is noticed of it if the array in use starts below ... *)
Theorem C110_offsets : forall oc cfg lim d r1 r2 h, fault_free d -> addressable d ->
  header_at (data d) (lb_u64 (c_lb cfg)) r1 -> backup_header_at (c_lb cfg) d r2 ->
  r1 = Ok h \/ ((forall h', r1 <> Ok h') /\ r2 = Ok h) ->
  pos d < lim -> lenN (data d) < lim -> lb_u64 (c_lb cfg) < lim -> array_at (c_lb cfg) h < lim ->
  let '(r, d', _) := run_moody (offsets_below lim) (open_calls oc cfg) d tt in (holding d' r, d') = open_from_device oc cfg d.
Proof.
  intros oc cfg lim d r1 r2 h F A H1 H2 HS B0 B1 B2 B3. rewrite C110_open_calls.
  rewrite granted_run; [destruct (run_steps (open_calls oc cfg) d); reflexivity|exact F|].
  rewrite addressable_iff in A.
  pose proof (header_at_fun _ _ _ _ H1 (read_header_at_spec (lb_u64 (c_lb cfg)) (data d))) as E1.
  pose proof (backup_header_fun _ _ _ _ H2 (backup_header_spec (c_lb cfg) d)) as E2.
  assert (T : forall q1 q2, granted (offsets_below lim) (do table <- err_p GIo (table_calls oc h (c_lb cfg));
    Done (Ok (mkGdisk cfg (mkDev [] 0 false false [] []) (disk_guid h) q1 q2 table false))) d).
  { intros q1 q2. unfold next_p, err_p. apply granted_pbind.
    - apply granted_pbind; [apply g_table; auto|]. destruct (run_steps _ d); exact I.
    - destruct (run_steps _ d) as [[t|e|] d1]; exact I. }
  unfold open_calls, next_p at 1, try_p at 1. apply granted_pbind.
  { apply granted_pbind; [apply g_primary; auto|]. destruct (run_steps _ d); exact I. }
  rewrite run_pbind, ip_primary, read_primary_header_ok, <- E1 by exact F. cbn [run_steps].
  destruct r1 as [x1|x1|]; [| |exact I].
  all: unfold next_p at 1, try_p at 1; apply granted_pbind;
    [apply granted_pbind; [apply g_backup; auto|]; destruct (run_steps _ d); exact I|];
    rewrite run_pbind, ip_backup, read_backup_header_ok, <- E2 by auto; cbn [run_steps];
    (destruct r2 as [x2|x2|]; [| |exact I]); destruct (c_only_valid_headers cfg);
    unfold next_p at 1; cbn [pbind omap_err]; try exact I;
    destruct HS as [HS|(HS1 & HS)]; try discriminate HS; try (elim (HS1 _ eq_refl)); injection HS as <-; exact (T _ _).
Qed.
Print Assumptions C110_offsets.
(** ... and a header that places its array beyond it makes opening fail with the device's error, whatever entry size it
    names. *)
Theorem C110_offset_refused : forall oc cfg lim d r1 r2 h, fault_free d -> addressable d -> c_only_valid_headers cfg = false ->
  header_at (data d) (lb_u64 (c_lb cfg)) r1 -> backup_header_at (c_lb cfg) d r2 ->
  r1 = Ok h \/ ((forall h', r1 <> Ok h') /\ r2 = Ok h) ->
  pos d < lim -> lenN (data d) < lim -> lb_u64 (c_lb cfg) < lim -> lim <= array_at (c_lb cfg) h < 2 ^ 64 ->
  run_moody (offsets_below lim) (open_calls oc cfg) d tt = (Err (GIo IoFault), d, tt).
Proof.
  intros oc cfg lim d r1 r2 h F A HV H1 H2 HS B0 B1 B2 B3. rewrite addressable_iff in A.
  pose proof (header_at_fun _ _ _ _ H1 (read_header_at_spec (lb_u64 (c_lb cfg)) (data d))) as E1.
  pose proof (backup_header_fun _ _ _ _ H2 (backup_header_spec (c_lb cfg) d)) as E2.
  pose proof (read_header_at_no_panic (lb_u64 (c_lb cfg)) (data d)) as N1. rewrite <- E1 in N1.
  pose proof (read_backup_at_no_panic (c_lb cfg) d) as N2. rewrite <- E2 in N2.
  assert (T : forall q1 q2, run_moody (offsets_below lim) (do table <- err_p GIo (table_calls oc h (c_lb cfg));
    Done (Ok (mkGdisk cfg (mkDev [] 0 false false [] []) (disk_guid h) q1 q2 table false))) d tt = (Err (GIo IoFault), d, tt)).
  { intros q1 q2. unfold array_at in B3. rewrite <- two64 in B3.
    unfold next_p at 1, err_p, table_calls. unfold next_p at 1. cbn [pbind]. rewrite checked_mul64_ok by lia. cbn [ok_or].
    unfold next_p at 1, call_p at 1. cbn [pbind run_moody]. unfold do_moody. cbn [offsets_below].
    replace (part_start h * lb_u64 (c_lb cfg) <? lim) with false by (symmetry; apply N.ltb_ge; lia).
    destruct d as [l q gr em fs du]. unfold fault_free in F. cbn [faults] in F. subst fs. reflexivity. }
  unfold open_calls, next_p at 1, try_p at 1. rewrite mood_pbind by exact F. rewrite mood_pbind by exact F.
  rewrite granted_run by (auto using g_primary). rewrite ip_primary, read_primary_header_ok, <- E1 by exact F.
  cbn [run_moody]. rewrite healthy_repaired by exact F.
  destruct r1 as [x1|x1|]; [| |elim (N1 eq_refl)].
  all: unfold next_p at 1, try_p at 1; rewrite mood_pbind by exact F; rewrite mood_pbind by exact F;
    rewrite granted_run by (auto using g_backup); rewrite ip_backup, read_backup_header_ok, <- E2 by auto;
    cbn [run_moody]; rewrite healthy_repaired by exact F;
    (destruct r2 as [x2|x2|]; [| |elim (N2 eq_refl)]); rewrite HV;
    unfold next_p at 1; cbn [pbind omap_err];
    destruct HS as [HS|(HS1 & HS)]; try discriminate HS; try (elim (HS1 _ eq_refl)); injection HS as <-; exact (T _ _).
Qed.
Print Assumptions C110_offset_refused.
(** Four blocks with a header that places its array at byte 2^63, with entries of the given size. *)
Definition far_header (size : N) : header := mkHeader EFI_PART 1 0 92 0 0 1 3 3 3 sample_guid (2 ^ 54) 4 size 0.
Definition far_dev (size : N) : dev :=
  match hdr_to_bytes (E := hdr_err) (far_header size) 0 with
  | Ok (_, w) => mkDev (zeros 512 ++ firstn 16 (arr w) ++ le_bytes 4 (crc32 (arr w)) ++ skipn 20 (arr w) ++ zeros 1444) 0 false false [] []
  | _ => mini_dev
  end.
(** Without a limit the array lies behind the end of the device, and an entry size of 64 is a panic (C13); with it both
    are the error of the seek.  A disk that keeps to its device opens as ever. *)
Example C110_offset_cases :
  lenN (data (far_dev 128)) = 2048 /\
  fst (open_from_device true mini_config (far_dev 128)) = Err (GIo IoUnexpectedEof) /\
  fst (open_from_device true mini_config (far_dev 64)) = Panic /\
  fst (fst (run_moody (offsets_below (2 ^ 63)) (open_calls true mini_config) (far_dev 128) tt)) = Err (GIo IoFault) /\
  fst (fst (run_moody (offsets_below (2 ^ 63)) (open_calls true mini_config) (far_dev 64) tt)) = Err (GIo IoFault) /\
  match fst (fst (run_moody (offsets_below (2 ^ 63)) (open_calls true mini_config) mini_saved tt)) with
  | Ok g => g_partitions g
  | _ => []
  end = [(1, part_at 3 3)].
Proof. repeat split; vm_compute; reflexivity. Qed.
