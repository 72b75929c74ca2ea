(** Props_BadBlock.v - opening a disk with bytes that cannot be read (C110, continued). *)
From Verif Require Import SpecCalls Samples Props_Moody OpenFacts TableFacts MapFacts SpecFacts HeaderFacts.
Open Scope list_scope.
Open Scope N_scope.


Definition is_prog {A} (p : prog A) (f : dev -> A * dev) : Prop := forall d, run_steps p d = f d.
Lemma ip_one {R} (o : io R) : is_prog (call_p o) (do_io o).
Proof. intros d. cbn. destruct (do_io o d). reflexivity. Qed.
Lemma ip_done {E A} (o : outcome E A) : is_prog (Done o) (@lift dev E A o).
Proof. intros d. reflexivity. Qed.
Lemma ip_next {E A B} (p : prog (outcome E A)) (k : A -> prog (outcome E B)) m n : is_prog p m ->
  (forall a, is_prog (k a) (n a)) -> is_prog (next_p p k) (bind m n).
Proof.
  intros P K d. unfold next_p, bind. rewrite run_pbind, P. destruct (m d) as [[a|e|] d1]; [apply K|reflexivity|reflexivity].
Qed.
Lemma ip_err {E F A} (f : E -> F) (p : prog (outcome E A)) m : is_prog p m -> is_prog (err_p f p) (map_err f m).
Proof. intros P d. unfold err_p, map_err. rewrite run_pbind, P. destruct (m d) as [[a|e|] d1]; reflexivity. Qed.
Lemma ip_try {E F A} (p : prog (outcome E A)) m : is_prog p m -> is_prog (try_p p) (@attempt dev E F A m).
Proof. intros P d. unfold try_p, attempt. rewrite run_pbind, P. destruct (m d) as [[a|e|] d1]; reflexivity. Qed.

Ltac ip := repeat (first [apply ip_next; [|intros ?]|apply ip_err|apply ip_try|apply ip_done|apply (ip_one (OSeek _))
  |apply (ip_one OSeekEnd)|apply (ip_one OPosition)|apply (ip_one (ORead _))]).
Lemma ip_primary lb : is_prog (primary_calls lb) (read_primary_header lb).
Proof. unfold primary_calls, read_primary_header, position_calls, stream_position_or_0, header_calls, file_read_header. ip. Qed.
Lemma ip_backup lb : is_prog (backup_calls lb) (read_backup_header lb).
Proof.
  unfold backup_calls, read_backup_header, position_calls, stream_position_or_0, header_calls, file_read_header,
    find_backup_calls, find_backup_lba. ip; destruct (_ <? _); ip.
Qed.
Lemma ip_entries oc n : forall i e m, is_prog (entries_calls oc n i e m) (read_entries oc n i e m).
Proof. induction n as [|n IH]; intros i e m; cbn [entries_calls read_entries]; [ip|]. ip. destruct (bytes_eqb _ _); ip; apply IH. Qed.
Lemma ip_table oc h lb : is_prog (table_calls oc h lb) (file_read_partitions oc h lb).
Proof. unfold table_calls, file_read_partitions. ip. destruct (negb _); ip; [apply ip_entries|]. destruct (_ =? _); ip. Qed.

(** The calls written out in SpecCalls.v are those of opening. *)
Theorem C110_open_calls : forall oc cfg, program_of_opening (open_calls oc cfg) (open_from_device oc cfg).
Proof.
  intros oc cfg d. unfold open_calls, open_from_device, next_p, bind.
  rewrite run_pbind, (ip_try (F := gpt_err) _ _ (ip_primary (c_lb cfg)) d).
  destruct (attempt (read_primary_header (c_lb cfg)) d) as [[h1|e|] d1]; [|reflexivity|reflexivity].
  rewrite run_pbind, (ip_try (F := gpt_err) _ _ (ip_backup (c_lb cfg)) d1).
  destruct (attempt (read_backup_header (c_lb cfg)) d1) as [[h2|e|] d2]; [|reflexivity|reflexivity].
  destruct h1 as [a1|e1|], h2 as [a2|e2|], (c_only_valid_headers cfg); cbn [pbind run_steps omap_err lift ret throw or_else];
    unfold lift, ret, throw, panic; cbn [or_else holding]; try reflexivity;
    rewrite run_pbind, (ip_err GIo _ _ (ip_table oc _ (c_lb cfg)) d2);
    match goal with |- context [map_err GIo ?m d2] => destruct (map_err GIo m d2) as [[t|e|] d3] end; reflexivity.
Qed.
Print Assumptions C110_open_calls.

(** * Running over bad bytes *)
Lemma do_io_healthy {R} (o : io R) d r d' : fault_free d -> do_io o d = (r, d') -> fault_free d'.
Proof.
  unfold fault_free. intros F E. destruct d as [l q gr em fs du]. cbn in F. subst fs.
  destruct o as [n| | |n|bs| |]; cbn [do_io] in E;
    unfold seek_start, seek_end, stream_position, read_exact, write_all, flush, sync_all in E.
  all: try (destruct (n =? 0); [injection E as <- <-; reflexivity|]).
  all: try (destruct bs as [|b bs]; [injection E as <- <-; reflexivity|]).
  all: cbn [tick faults data pos growable eof_moves durable set_pos set_data dev_len] in E.
  all: repeat match type of E with context [if ?c then _ else _] => destruct c end; injection E as <- <-; reflexivity.
Qed.
Lemma healthy_repaired d : fault_free d -> repaired d = d.
Proof. destruct d as [l q gr em fs du]. unfold fault_free. cbn. intros ->. reflexivity. Qed.
(** None of the calls touches a bad byte. *)
Fixpoint clear (a b : N) {A} (p : prog A) (d : dev) : Prop :=
  match p with
  | Done _ => True
  | Call o k => fst (bad_bytes a b _ o d tt) = None /\ let (r, d') := do_io o d in clear a b (k r) d'
  end.
Lemma clear_run a b {A} (p : prog A) : forall d, fault_free d -> clear a b p d ->
  run_moody (bad_bytes a b) p d tt = let (x, d') := run_steps p d in (x, d', tt).
Proof.
  induction p as [x|R o k IH]; intros d F C; cbn [run_moody run_steps clear] in *.
  - rewrite healthy_repaired by exact F. reflexivity.
  - destruct C as (C1 & C2). unfold do_moody. destruct (bad_bytes a b R o d tt) as [x []]. cbn [fst] in C1. subst x.
    rewrite healthy_repaired by exact F. destruct (do_io o d) as [r d1] eqn:E. pose proof (do_io_healthy o d r d1 F E) as F1.
    rewrite healthy_repaired by exact F1. apply IH; auto.
Qed.
Lemma clear_pbind a b {A B} (p : prog A) (k : A -> prog B) : forall d, clear a b p d ->
  (let (x, d') := run_steps p d in clear a b (k x) d') -> clear a b (pbind p k) d.
Proof.
  induction p as [x|R o h IH]; intros d C K; cbn [pbind clear run_steps] in *; [exact K|].
  destruct C as (C1 & C2). split; [exact C1|]. destruct (do_io o d) as [r d1]. apply IH; auto.
Qed.
Lemma moody_pbind a b {A B} (p : prog A) (k : A -> prog B) : forall d, fault_free d ->
  run_moody (bad_bytes a b) (pbind p k) d tt =
  let '(x, d', _) := run_moody (bad_bytes a b) p d tt in run_moody (bad_bytes a b) (k x) d' tt.
Proof.
  induction p as [x|R o h IH]; intros d F; cbn [pbind run_moody].
  - rewrite healthy_repaired by exact F. reflexivity.
  - destruct (do_moody (bad_bytes a b) o d tt) as [[r d1] []] eqn:E. apply IH.
    unfold do_moody in E. destruct (bad_bytes a b R o d tt) as [x []]. destruct (do_io _ _) as [r1 d2].
    injection E as <- <-. reflexivity.
Qed.
Lemma clear_position a b d : clear a b position_calls d.
Proof. cbn. destruct (stream_position d) as [r d1]. split; [reflexivity|]. destruct r; exact I. Qed.

Lemma clear_entries a b oc n : forall i e m d, b <= pos d -> fault_free d -> clear a b (entries_calls oc n i e m) d.
Proof.
  induction n as [|n IH]; intros i e m d P F; cbn [entries_calls]; [exact I|].
  unfold next_p at 1. apply clear_pbind.
  - cbn [call_p clear bad_bytes fst]. replace (pos d <? b) with false by (symmetry; apply N.ltb_ge; exact P). cbn [andb].
    split; [reflexivity|]. destruct (do_io (ORead 128) d). exact I.
  - cbn [call_p run_steps do_io]. destruct (read_exact 128 d) as [r d1] eqn:E.
    assert (Q : b <= pos d1 \/ forall x, r <> Ok x).
    { unfold read_exact in E. cbn [N.eqb] in E. destruct d as [l q gr em fs du]. unfold fault_free in F. cbn in F. subst fs.
      cbn [tick faults data pos growable eof_moves durable set_pos dev_len] in E, P. cbn [N.eqb] in E.
      destruct (_ <=? _); injection E as <- <-; [left; cbn; lia|right; discriminate]. }
    destruct Q as [Q|Q]; [|destruct r; [elim (Q _ eq_refl)|exact I|exact I]].
    pose proof (do_io_healthy (ORead 128) d r d1 F E) as F1.
    destruct r as [x|x|]; [|exact I|exact I]. destruct (bytes_eqb x (zeros 128)); unfold next_p; cbn [pbind].
    + destruct (addw oc 31 e 1); [|exact I|exact I]. apply IH; auto.
    + destruct (fst (parse_entry x)); [|exact I|exact I]. apply IH; auto.
Qed.
Lemma clear_seek a b n d : clear a b (call_p (OSeek n)) d.
Proof. cbn. destruct (seek_start n d). split; [reflexivity|exact I]. Qed.
Lemma clear_table a b oc h lb d : fault_free d -> b <= array_at lb h -> clear a b (table_calls oc h lb) d.
Proof.
  intros F HB. unfold array_at in HB. unfold table_calls. unfold next_p at 1. cbn [pbind].
  destruct (checked_mul64 (part_start h) (lb_u64 lb)) as [st|] eqn:ES; [|exact I]. cbn [ok_or].
  assert (ST : st = part_start h * lb_u64 lb).
  { unfold checked_mul64 in ES. destruct (_ <? _) in ES; [injection ES as <-; reflexivity|discriminate]. }
  unfold next_p at 1. apply clear_pbind; [apply clear_seek|].
  cbn [call_p run_steps do_io]. destruct (seek_start st d) as [r d1] eqn:E1. destruct r; [|exact I|exact I].
  pose proof (do_io_healthy (OSeek st) d _ _ F E1) as F1.
  assert (P1 : pos d1 = st). { unfold seek_start in E1. destruct (tick d) as [[m|] d2]; [discriminate|]; injection E1 as _ <-; reflexivity. }
  destruct (negb _); [exact I|]. unfold next_p at 1. apply clear_pbind; [apply clear_entries; [lia|exact F1]|].
  rewrite ip_entries. destruct (read_entries oc (N.to_nat (num_parts h)) 0 0 [] d1) as [[t|e|] d2]; [|exact I|exact I].
  unfold next_p at 1. apply clear_pbind; [apply clear_seek|].
  cbn [call_p run_steps do_io]. destruct (seek_start st d2) as [r d3] eqn:E3. destruct r; [|exact I|exact I].
  assert (P3 : pos d3 = st). { unfold seek_start in E3. destruct (tick d2) as [[m|] d4]; [discriminate|]; injection E3 as _ <-; reflexivity. }
  unfold next_p at 1. cbn [pbind]. destruct (ok_or _ _) as [len|e|]; [|exact I|exact I].
  unfold next_p. apply clear_pbind.
  - cbn [call_p clear bad_bytes fst]. replace (pos d3 <? b) with false by (symmetry; apply N.ltb_ge; lia). cbn [andb].
    split; [reflexivity|]. destruct (do_io (ORead len) d3). exact I.
  - cbn [call_p run_steps]. destruct (do_io (ORead len) d3) as [[x|x|] d4]; [|exact I|exact I]. destruct (_ =? _); exact I.
Qed.
Lemma clear_backup a b lb d : fault_free d -> b <= last_whole_block lb d * lb_u64 lb -> clear a b (backup_calls lb) d.
Proof.
  destruct d as [l q gr em fs du]. unfold fault_free, last_whole_block. cbn [faults data]. intros -> HB.
  pose proof (lb_pos lb) as LP.
  unfold backup_calls, position_calls, find_backup_calls, header_calls, next_p, try_p, err_p, call_p.
  cbn [pbind clear run_steps do_io bad_bytes fst].
  split; [reflexivity|]. cbn [stream_position tick faults]. cbn [pbind clear]. split; [reflexivity|].
  cbn [do_io stream_position tick faults pos]. cbn [pbind clear omap_err]. split; [reflexivity|].
  cbn [do_io seek_end tick faults pos data dev_len set_pos]. cbn [pbind clear omap_err]. split; [reflexivity|].
  cbn [do_io seek_start tick faults pos data set_pos]. cbn [pbind clear omap_err].
  unfold dev_len. cbn [data]. destruct (lenN l <? lb_u64 lb * 3) eqn:E3; [exact I|]. apply N.ltb_ge in E3. cbn [pbind].
  destruct (checked_mul64 _ _) as [off|] eqn:EO; [|exact I]. cbn [ok_or pbind clear].
  assert (OF : b <= off).
  { unfold checked_mul64 in EO. destruct (_ <? _) in EO; [injection EO as <-|discriminate].
    replace ((lenN l - lb_u64 lb) / lb_u64 lb) with (lenN l / lb_u64 lb - 1); [exact HB|].
    replace (lenN l) with ((lenN l - lb_u64 lb) + 1 * lb_u64 lb) at 1 by lia. rewrite N.div_add by lia. lia. }
  split; [reflexivity|]. cbn [do_io seek_start tick faults pos data set_pos]. cbn [pbind clear bad_bytes fst pos set_pos].
  replace (off <? b) with false by (symmetry; apply N.ltb_ge; exact OF). split; [reflexivity|].
  match goal with |- context [do_io (ORead 92) ?d] => destruct (do_io (ORead 92) d) as [[bs|e|] d1] end;
    cbn [omap_err pbind clear]; try exact I; [destruct (parse_header bs); cbn [pbind clear]; try exact I|];
    (split; [reflexivity|]); match goal with |- context [do_io ?o ?d] => destruct (do_io o d) as [[?|?|] ?] end; exact I.
Qed.
Lemma bad_primary a b lb d : fault_free d -> a < lb_u64 lb + 92 -> lb_u64 lb < b ->
  run_moody (bad_bytes a b) (primary_calls lb) d tt = (Err (HIo IoFault), d, tt).
Proof.
  destruct d as [l q gr em fs du]. unfold fault_free. cbn [faults]. intros -> HA HB.
  unfold primary_calls, position_calls, header_calls, next_p, try_p, err_p, call_p.
  cbn [pbind run_moody do_moody bad_bytes do_io repaired with_faults stream_position tick faults pos data growable eof_moves durable].
  cbn [pbind run_moody do_moody bad_bytes do_io repaired with_faults seek_start tick faults pos data growable eof_moves durable set_pos].
  cbn [pbind run_moody do_moody bad_bytes]. unfold do_moody, bad_bytes. cbn [pos].
  replace (lb_u64 lb <? b) with true by (symmetry; apply N.ltb_lt; exact HB).
  replace (a <? lb_u64 lb + 92) with true by (symmetry; apply N.ltb_lt; exact HA). reflexivity.
Qed.
(** Whatever bytes before the backup copies cannot be read, some of the primary header among them: unless both headers
    must be valid, the disk opens, with what the backup copies say. *)
Theorem C110_bad_primary : forall oc cfg a b d hb, fault_free d -> addressable d -> c_only_valid_headers cfg = false ->
  backup_header_at (c_lb cfg) d (Ok hb) -> part_size hb = 128 -> countable oc hb (data d) ->
  a < lb_u64 (c_lb cfg) + 92 -> lb_u64 (c_lb cfg) < b ->
  b <= last_whole_block (c_lb cfg) d * lb_u64 (c_lb cfg) -> b <= array_at (c_lb cfg) hb ->
  let '(r, d', _) := run_moody (bad_bytes a b) (open_calls oc cfg) d tt in
  opened_with cfg d (Err (HIo IoFault)) (Ok hb) hb (holding d' r).
Proof.
  intros oc cfg a b d hb F A HV HB HP Hn Ha Hb Hl Ht. rewrite addressable_iff in A. rewrite countable_iff in Hn.
  pose proof (backup_header_fun _ _ _ _ HB (backup_header_spec (c_lb cfg) d)) as EB.
  unfold open_calls, next_p at 1, try_p at 1. rewrite moody_pbind by exact F. rewrite moody_pbind by exact F.
  rewrite bad_primary by auto. cbn [run_moody]. rewrite healthy_repaired by exact F.
  unfold next_p at 1, try_p at 1. rewrite moody_pbind by exact F. rewrite moody_pbind by exact F.
  rewrite clear_run by (auto using clear_backup). rewrite ip_backup, read_backup_header_ok, <- EB by auto.
  cbn [run_moody]. rewrite healthy_repaired by exact F. rewrite HV. unfold next_p at 1. cbn [pbind].
  unfold next_p at 1. cbn [pbind or_else]. unfold next_p, err_p. rewrite moody_pbind by exact F. rewrite moody_pbind by exact F.
  rewrite clear_run by (auto using clear_table). rewrite ip_table.
  destruct (file_read_partitions_ok oc hb (c_lb cfg) d) as (q & E); auto. rewrite E.
  pose proof (read_parts_spec hb (c_lb cfg) (data d) HP A) as R.
  destruct (read_parts_at hb (c_lb cfg) (data d)) as [t|e|]; cbn [run_moody omap_err holding]; [|exact R|exact R].
  destruct R as (R1 & R2). unfold opened_with. cbn [g_config g_guid g_primary g_backup g_device g_sync g_partitions set_device].
  split; [exact R1|]. split; [exact R2|]. repeat split; auto.
Qed.
Print Assumptions C110_bad_primary.
Lemma moody_healthy a b {A} (p : prog A) : forall d, fault_free (snd (fst (run_moody (bad_bytes a b) p d tt))).
Proof.
  induction p as [x|R o h IH]; intros d; cbn [run_moody]; [reflexivity|].
  destruct (do_moody (bad_bytes a b) o d tt) as [[r d1] []]. apply IH.
Qed.
Lemma good_seek a b n d : fault_free d -> run_moody (bad_bytes a b) (call_p (OSeek n)) d tt = (Ok n, set_pos d n, tt).
Proof. destruct d as [l q gr em fs du]. unfold fault_free. cbn [faults]. intros ->. reflexivity. Qed.
Lemma bad_read a b n d : 0 < n -> pos d < b -> a < pos d + n ->
  exists d', run_moody (bad_bytes a b) (call_p (ORead n)) d tt = (Err IoFault, d', tt).
Proof.
  intros Hn HB HA. unfold call_p. cbn [run_moody]. unfold do_moody. cbn [bad_bytes].
  replace (pos d <? b) with true by (symmetry; apply N.ltb_lt; exact HB).
  replace (a <? pos d + n) with true by (symmetry; apply N.ltb_lt; exact HA). cbn [andb do_io]. unfold read_exact.
  replace (n =? 0) with false by (symmetry; apply N.eqb_neq; lia). cbn [with_faults tick faults]. eexists. reflexivity.
Qed.
Lemma bad_table a b oc h lb d x : fault_free d -> 0 < array_len h ->
  a < array_at lb h + array_len h -> array_at lb h < b ->
  fst (fst (run_moody (bad_bytes a b) (table_calls oc h lb) d tt)) <> Ok x.
Proof.
  unfold array_at, array_len. intros F HL HA HB. unfold table_calls. unfold next_p at 1. cbn [pbind].
  destruct (checked_mul64 (part_start h) (lb_u64 lb)) as [st|] eqn:ES; [|discriminate]. cbn [ok_or].
  assert (ST : st = part_start h * lb_u64 lb).
  { unfold checked_mul64 in ES. destruct (_ <? _) in ES; [injection ES as <-; reflexivity|discriminate]. }
  unfold next_p at 1. rewrite moody_pbind by exact F.
  pose proof (moody_healthy a b (call_p (OSeek st)) d) as F1.
  destruct (run_moody (bad_bytes a b) (call_p (OSeek st)) d tt) as [[[u|u|] d1] []]; [|discriminate|discriminate].
  cbn [fst snd] in F1. destruct (negb _); [discriminate|].
  unfold next_p at 1. rewrite moody_pbind by exact F1.
  pose proof (moody_healthy a b (entries_calls oc (N.to_nat (num_parts h)) 0 0 []) d1) as F2.
  destruct (run_moody (bad_bytes a b) (entries_calls _ _ _ _ _) d1 tt) as [[[t|t|] d2] []]; [|discriminate|discriminate].
  cbn [fst snd] in F2. unfold next_p at 1. rewrite moody_pbind by exact F2. rewrite good_seek by exact F2.
  unfold next_p at 1. cbn [pbind]. destruct (checked_mul64 (num_parts h) (part_size h)) as [len|] eqn:EL; [|discriminate].
  assert (LN : len = num_parts h * part_size h).
  { unfold checked_mul64 in EL. destruct (_ <? _) in EL; [injection EL as <-; reflexivity|discriminate]. }
  cbn [ok_or]. unfold next_p. rewrite moody_pbind by (destruct d2; exact F2).
  destruct (bad_read a b len (set_pos d2 st)) as (d3 & ->); [lia|cbn; lia|cbn; lia|]. discriminate.
Qed.
(** Of an array there is no second copy for a disk whose primary header is valid: if the header in use can be read but not
    all of its array, the disk does not open, although the backup array may be in good order.  (So it is with an array
    whose checksum is wrong, C22.) *)
Theorem C110_bad_array : forall oc cfg a b d h g, fault_free d ->
  header_at (data d) (lb_u64 (c_lb cfg)) (Ok h) -> lb_u64 (c_lb cfg) + 92 <= a -> 0 < array_len h ->
  a < array_at (c_lb cfg) h + array_len h -> array_at (c_lb cfg) h < b ->
  fst (fst (run_moody (bad_bytes a b) (open_calls oc cfg) d tt)) <> Ok g.
Proof.
  intros oc cfg a b d h g F H1 Hc HL HA HB.
  pose proof (header_at_fun _ _ _ _ H1 (read_header_at_spec (lb_u64 (c_lb cfg)) (data d))) as EP.
  assert (C : clear a b (primary_calls (c_lb cfg)) d).
  { destruct d as [l q gr em fs du]. unfold fault_free in F. cbn [faults] in F. subst fs.
    unfold primary_calls, position_calls, header_calls, next_p, try_p, err_p, call_p.
    cbn [pbind clear bad_bytes fst do_io stream_position tick faults pos]. split; [reflexivity|].
    cbn [pbind clear]. split; [reflexivity|]. cbn [do_io seek_start tick faults pos data set_pos].
    cbn [pbind clear bad_bytes fst pos set_pos].
    replace (a <? lb_u64 (c_lb cfg) + 92) with false by (symmetry; apply N.ltb_ge; exact Hc). rewrite andb_false_r.
    split; [reflexivity|].
    match goal with |- context [do_io (ORead 92) ?d] => destruct (do_io (ORead 92) d) as [[bs|e|] d1] end;
      cbn [omap_err pbind clear]; try exact I; [destruct (parse_header bs); cbn [pbind clear]; try exact I|];
      (split; [reflexivity|]); match goal with |- context [do_io ?o ?d] => destruct (do_io o d) as [[?|?|] ?] end; exact I. }
  unfold open_calls, next_p at 1, try_p at 1. rewrite moody_pbind by exact F. rewrite moody_pbind by exact F.
  rewrite clear_run by (auto; exact C). rewrite ip_primary, read_primary_header_ok, <- EP by auto.
  cbn [run_moody]. rewrite healthy_repaired by exact F.
  unfold next_p at 1. rewrite moody_pbind by exact F.
  pose proof (moody_healthy a b (@try_p _ gpt_err _ (backup_calls (c_lb cfg))) d) as F1.
  destruct (run_moody (bad_bytes a b) (try_p (backup_calls (c_lb cfg))) d tt) as [[[h2|e|] d1] []]; [|discriminate|discriminate].
  cbn [fst snd] in F1.
  assert (T : forall h2, fst (fst (run_moody (bad_bytes a b) (do table <- err_p GIo (table_calls oc h (c_lb cfg));
    Done (Ok (mkGdisk cfg (mkDev [] 0 false false [] []) (disk_guid h) (Ok h) h2 table false))) d1 tt)) <> Ok g).
  { intros h2'. unfold next_p, err_p. rewrite moody_pbind by exact F1. rewrite moody_pbind by exact F1.
    pose proof (fun x => bad_table a b oc h (c_lb cfg) d1 x F1 HL HA HB) as N.
    destruct (run_moody (bad_bytes a b) (table_calls oc h (c_lb cfg)) d1 tt) as [[[t|e|] d2] []];
      cbn [run_moody omap_err fst] in *; [elim (N t eq_refl)|discriminate|discriminate]. }
  destruct (c_only_valid_headers cfg), h2 as [h2|e|]; try discriminate; exact (T _).
Qed.
Print Assumptions C110_bad_array.
(** Six blocks with one partition.  Bad bytes in block 1: opened by the backup copies.  In block 2, the primary array: not
    opened.  In block 3, where the partition is: nothing is noticed. *)
Example C110_bad_cases :
  match fst (fst (run_moody (bad_bytes 500 600) (open_calls true mini_config) mini_saved tt)) with
  | Ok g => Some (g_primary g, g_partitions g)
  | _ => None
  end = Some (Err (HIo IoFault), [(1, part_at 3 3)]) /\
  fst (fst (run_moody (bad_bytes 1300 1301) (open_calls true mini_config) mini_saved tt)) = Err (GIo IoFault) /\
  match fst (fst (run_moody (bad_bytes 1536 2048) (open_calls true mini_config) mini_saved tt)) with
  | Ok g => Some (match g_primary g with Ok h => num_parts h | _ => 0 end, g_partitions g)
  | _ => None
  end = Some (4, [(1, part_at 3 3)]).
Proof. repeat split; vm_compute; reflexivity. Qed.

(** * Bad bytes that are not met *)
Lemma not_met a b n d : b <= pos d \/ pos d + n <= a -> fst (bad_bytes a b _ (ORead n) d tt) = None.
Proof.
  intros H. cbn [bad_bytes fst]. destruct H as [H|H].
  - replace (pos d <? b) with false by (symmetry; apply N.ltb_ge; exact H). reflexivity.
  - replace (a <? pos d + n) with false by (symmetry; apply N.ltb_ge; exact H). rewrite andb_false_r. reflexivity.
Qed.
Lemma clear_read a b n d : b <= pos d \/ pos d + n <= a -> clear a b (call_p (ORead n)) d.
Proof. intros H. cbn [call_p clear]. split; [apply not_met; exact H|]. destruct (do_io (ORead n) d). exact I. Qed.
Lemma read_moves n d x d' : 0 < n -> fault_free d -> read_exact n d = (Ok x, d') -> pos d' = pos d + n /\ fault_free d'.
Proof.
  unfold read_exact, fault_free. intros Hn F. destruct d as [l q gr em fs du]. cbn [faults] in F. subst fs.
  replace (n =? 0) with false by (symmetry; apply N.eqb_neq; lia). cbn [tick faults pos].
  destruct (_ <=? _); [|discriminate]. intros E. injection E as _ <-. auto.
Qed.
Lemma clear_entries_around a b oc n : forall i e m d, b <= pos d \/ pos d + 128 * N.of_nat n <= a -> fault_free d ->
  clear a b (entries_calls oc n i e m) d.
Proof.
  induction n as [|n IH]; intros i e m d P F; cbn [entries_calls]; [exact I|].
  unfold next_p at 1. apply clear_pbind; [apply clear_read; lia|].
  cbn [call_p run_steps do_io]. destruct (read_exact 128 d) as [[x|x|] d1] eqn:E; [|exact I|exact I].
  destruct (read_moves 128 d x d1) as (Q & F1); [lia|exact F|exact E|].
  destruct (bytes_eqb x (zeros 128)); unfold next_p; cbn [pbind].
  - destruct (addw oc 31 e 1); [|exact I|exact I]. apply IH; [lia|exact F1].
  - destruct (fst (parse_entry x)); [|exact I|exact I]. apply IH; [lia|exact F1].
Qed.
Lemma clear_table_around a b oc h lb d : fault_free d -> part_size h = 128 ->
  b <= array_at lb h \/ array_at lb h + array_len h <= a -> clear a b (table_calls oc h lb) d.
Proof.
  unfold array_at, array_len. intros F HP HB. rewrite HP in HB. unfold table_calls. unfold next_p at 1. cbn [pbind].
  destruct (checked_mul64 (part_start h) (lb_u64 lb)) as [st|] eqn:ES; [|exact I]. cbn [ok_or].
  assert (ST : st = part_start h * lb_u64 lb).
  { unfold checked_mul64 in ES. destruct (_ <? _) in ES; [injection ES as <-; reflexivity|discriminate]. }
  unfold next_p at 1. apply clear_pbind; [apply clear_seek|].
  cbn [call_p run_steps do_io]. destruct (seek_start st d) as [r d1] eqn:E1. destruct r; [|exact I|exact I].
  pose proof (do_io_healthy (OSeek st) d _ _ F E1) as F1.
  assert (P1 : pos d1 = st). { unfold seek_start in E1. destruct (tick d) as [[m|] d2]; [discriminate|]; injection E1 as _ <-; reflexivity. }
  destruct (negb _); [exact I|]. unfold next_p at 1. apply clear_pbind; [apply clear_entries_around; [rewrite N2Nat.id; lia|exact F1]|].
  rewrite ip_entries. destruct (read_entries oc (N.to_nat (num_parts h)) 0 0 [] d1) as [[t|e|] d2]; [|exact I|exact I].
  unfold next_p at 1. apply clear_pbind; [apply clear_seek|].
  cbn [call_p run_steps do_io]. destruct (seek_start st d2) as [r d3] eqn:E3. destruct r; [|exact I|exact I].
  assert (P3 : pos d3 = st). { unfold seek_start in E3. destruct (tick d2) as [[m|] d4]; [discriminate|]; injection E3 as _ <-; reflexivity. }
  unfold next_p at 1. cbn [pbind]. rewrite HP. destruct (checked_mul64 (num_parts h) 128) as [len|] eqn:EL; [|exact I].
  assert (LN : len = num_parts h * 128).
  { unfold checked_mul64 in EL. destruct (_ <? _) in EL; [injection EL as <-; reflexivity|discriminate]. }
  cbn [ok_or]. unfold next_p. apply clear_pbind; [apply clear_read; lia|].
  cbn [call_p run_steps]. destruct (do_io (ORead len) d3) as [[x|x|] d4]; [|exact I|exact I]. destruct (_ =? _); exact I.
Qed.
Lemma clear_header_then a b off (k : N) d : fault_free d -> b <= off \/ off + 92 <= a ->
  clear a b (do res <- @try_p _ hdr_err _ (header_calls off); do _ <- try_p (call_p (OSeek k)); Done res) d.
Proof.
  destruct d as [l q gr em fs du]. unfold fault_free. cbn [faults]. intros -> H.
  unfold header_calls, next_p, try_p, err_p, call_p. cbn [pbind clear bad_bytes fst]. split; [reflexivity|].
  cbn [do_io seek_start tick faults set_pos pos data]. cbn [pbind clear]. split; [apply not_met; exact H|].
  match goal with |- context [do_io (ORead 92) ?d] => destruct (do_io (ORead 92) d) as [[bs|e|] d1] end;
    cbn [omap_err pbind clear]; try exact I; [destruct (parse_header bs); cbn [pbind clear]; try exact I|];
    (split; [reflexivity|]); match goal with |- context [do_io ?o ?d] => destruct (do_io o d) as [[?|?|] ?] end; exact I.
Qed.
Lemma clear_primary_around a b lb d : fault_free d -> b <= lb_u64 lb \/ lb_u64 lb + 92 <= a -> clear a b (primary_calls lb) d.
Proof.
  destruct d as [l q gr em fs du]. unfold fault_free. cbn [faults]. intros -> H.
  unfold primary_calls, position_calls, next_p at 1, next_p at 1, try_p at 1, call_p at 1.
  cbn [pbind clear bad_bytes fst]. split; [reflexivity|]. cbn [do_io stream_position tick faults pos].
  cbn [pbind]. apply clear_header_then; [reflexivity|exact H].
Qed.
Lemma clear_backup_around a b lb d : fault_free d ->
  b <= last_whole_block lb d * lb_u64 lb \/ last_whole_block lb d * lb_u64 lb + 92 <= a -> clear a b (backup_calls lb) d.
Proof.
  destruct d as [l q gr em fs du]. unfold fault_free, last_whole_block. cbn [faults data]. intros -> HB.
  pose proof (lb_pos lb) as LP.
  unfold backup_calls, position_calls, find_backup_calls, next_p at 1 2 3 4 5 6, try_p at 1, err_p at 1 2 3, call_p at 1 2 3 4.
  cbn [pbind clear run_steps do_io bad_bytes fst].
  split; [reflexivity|]. cbn [stream_position tick faults]. cbn [pbind clear]. split; [reflexivity|].
  cbn [do_io stream_position tick faults pos]. cbn [pbind clear omap_err]. split; [reflexivity|].
  cbn [do_io seek_end tick faults pos data dev_len set_pos]. cbn [pbind clear omap_err]. split; [reflexivity|].
  cbn [do_io seek_start tick faults pos data set_pos]. cbn [pbind clear omap_err].
  unfold dev_len. cbn [data]. destruct (lenN l <? lb_u64 lb * 3) eqn:E3; [exact I|]. apply N.ltb_ge in E3. cbn [pbind].
  destruct (checked_mul64 _ _) as [off|] eqn:EO; [|exact I]. cbn [ok_or pbind].
  apply clear_header_then; [reflexivity|].
  unfold checked_mul64 in EO. destruct (_ <? _) in EO; [injection EO as <-|discriminate].
  replace ((lenN l - lb_u64 lb) / lb_u64 lb) with (lenN l / lb_u64 lb - 1); [exact HB|].
  replace (lenN l) with ((lenN l - lb_u64 lb) + 1 * lb_u64 lb) at 1 by lia. rewrite N.div_add by lia. lia.
Qed.
(** Bad bytes in neither header nor the array in use, say in a partition, make no difference to opening. *)
Theorem C110_not_noticed : forall oc cfg a b d r1 r2 h, fault_free d -> addressable d ->
  header_at (data d) (lb_u64 (c_lb cfg)) r1 -> backup_header_at (c_lb cfg) d r2 ->
  r1 = Ok h \/ ((forall h', r1 <> Ok h') /\ r2 = Ok h) -> part_size h = 128 ->
  b <= lb_u64 (c_lb cfg) \/ lb_u64 (c_lb cfg) + 92 <= a ->
  b <= last_whole_block (c_lb cfg) d * lb_u64 (c_lb cfg) \/ last_whole_block (c_lb cfg) d * lb_u64 (c_lb cfg) + 92 <= a ->
  b <= array_at (c_lb cfg) h \/ array_at (c_lb cfg) h + array_len h <= a ->
  let '(r, d', _) := run_moody (bad_bytes a b) (open_calls oc cfg) d tt in (holding d' r, d') = open_from_device oc cfg d.
Proof.
  intros oc cfg a b d r1 r2 h F A H1 H2 HS HP B1 B2 B3. rewrite C110_open_calls.
  rewrite clear_run; [destruct (run_steps (open_calls oc cfg) d); reflexivity|exact F|].
  rewrite addressable_iff in A.
  pose proof (header_at_fun _ _ _ _ H1 (read_header_at_spec (lb_u64 (c_lb cfg)) (data d))) as E1.
  pose proof (backup_header_fun _ _ _ _ H2 (backup_header_spec (c_lb cfg) d)) as E2.
  assert (T : forall q1 q2, clear a b (do table <- err_p GIo (table_calls oc h (c_lb cfg));
    Done (Ok (mkGdisk cfg (mkDev [] 0 false false [] []) (disk_guid h) q1 q2 table false))) d).
  { intros q1 q2. unfold next_p, err_p. apply clear_pbind.
    - apply clear_pbind; [apply clear_table_around; auto|]. destruct (run_steps _ d); exact I.
    - destruct (run_steps _ d) as [[t|e|] d1]; exact I. }
  unfold open_calls, next_p at 1, try_p at 1. apply clear_pbind.
  { apply clear_pbind; [apply clear_primary_around; auto|]. destruct (run_steps _ d); exact I. }
  rewrite run_pbind, ip_primary, read_primary_header_ok, <- E1 by exact F. cbn [run_steps].
  destruct r1 as [x1|x1|]; [| |exact I].
  all: unfold next_p at 1, try_p at 1; apply clear_pbind;
    [apply clear_pbind; [apply clear_backup_around; auto|]; destruct (run_steps _ d); exact I|];
    rewrite run_pbind, ip_backup, read_backup_header_ok, <- E2 by auto; cbn [run_steps];
    (destruct r2 as [x2|x2|]; [| |exact I]); destruct (c_only_valid_headers cfg);
    unfold next_p at 1; cbn [pbind omap_err]; try exact I;
    destruct HS as [HS|(HS1 & HS)]; try discriminate HS; try (elim (HS1 _ eq_refl)); injection HS as <-; exact (T _ _).
Qed.
Print Assumptions C110_not_noticed.
(** If both headers must be valid, bad bytes in the primary one make opening fail with the device's error, whatever else is
    bad. *)
Theorem C110_bad_primary_refused : forall oc cfg a b d, fault_free d -> c_only_valid_headers cfg = true ->
  a < lb_u64 (c_lb cfg) + 92 -> lb_u64 (c_lb cfg) < b ->
  fst (fst (run_moody (bad_bytes a b) (open_calls oc cfg) d tt)) = Err (GHeader (HIo IoFault)).
Proof.
  intros oc cfg a b d F HV Ha Hb.
  unfold open_calls, next_p at 1, try_p at 1. rewrite moody_pbind by exact F. rewrite moody_pbind by exact F.
  rewrite bad_primary by auto. cbn [run_moody]. rewrite healthy_repaired by exact F.
  unfold next_p at 1, try_p at 1. rewrite moody_pbind by exact F. rewrite moody_pbind by exact F.
  destruct (run_moody (bad_bytes a b) (backup_calls (c_lb cfg)) d tt) as [[r d1] []] eqn:E.
  destruct (C110_programs _ _ _ _ _ _ _ _ _ E) as (fs & X). rewrite ip_backup in X.
  pose proof (calm_read_backup_header (c_lb cfg) (with_faults fs d)) as C. rewrite X in C. cbn [fst] in C.
  cbn [run_moody]. rewrite HV. destruct r as [h2|e|]; [reflexivity|reflexivity|congruence].
Qed.
Print Assumptions C110_bad_primary_refused.
(** As above, but both headers are asked for. *)
Example C110_bad_strict :
  fst (fst (run_moody (bad_bytes 500 600) (open_calls true (cset_only_valid_headers true mini_config)) mini_saved tt)) =
  Err (GHeader (HIo IoFault)).
Proof. vm_compute. reflexivity. Qed.
Lemma ip_find lb : is_prog (find_backup_calls lb) (find_backup_lba lb).
Proof. unfold find_backup_calls, find_backup_lba. ip. destruct (_ <? _); ip. Qed.
Lemma clear_find a b lb d : clear a b (find_backup_calls lb) d.
Proof.
  unfold find_backup_calls, next_p, err_p, call_p. cbn [pbind clear bad_bytes fst]. split; [reflexivity|].
  destruct (do_io OPosition d) as [[x|x|] d1]; cbn [omap_err pbind clear]; try exact I. split; [reflexivity|].
  destruct (do_io OSeekEnd d1) as [[y|y|] d2]; cbn [omap_err pbind clear]; try exact I. split; [reflexivity|].
  destruct (do_io (OSeek x) d2) as [[z|z|] d3]; cbn [omap_err pbind clear]; try exact I. destruct (_ <? _); exact I.
Qed.
Lemma bad_backup a b lb d : fault_free d -> addressable d -> 3 * lb_u64 lb <= lenN (data d) ->
  a < last_whole_block lb d * lb_u64 lb + 92 -> last_whole_block lb d * lb_u64 lb < b ->
  run_moody (bad_bytes a b) (backup_calls lb) d tt = (Err (HIo IoFault), d, tt).
Proof.
  rewrite addressable_iff. intros F A H3 HA HB. pose proof (lb_pos lb) as LP. unfold dev_len in A.
  assert (EB : (lenN (data d) - lb_u64 lb) / lb_u64 lb = last_whole_block lb d).
  { unfold last_whole_block. replace (lenN (data d)) with ((lenN (data d) - lb_u64 lb) + 1 * lb_u64 lb) at 2 by lia.
    rewrite N.div_add by lia. lia. }
  assert (OF : last_whole_block lb d * lb_u64 lb < modulus 64).
  { rewrite <- EB. pose proof (N.mul_div_le (lenN (data d) - lb_u64 lb) (lb_u64 lb)). lia. }
  unfold backup_calls, next_p at 1. rewrite moody_pbind by exact F. rewrite clear_run by (auto using clear_position).
  replace (run_steps position_calls d) with (@Ok hdr_err N (pos d), d)
    by (destruct d as [l q gr em fs du]; unfold fault_free in F; cbn [faults] in F; subst fs; reflexivity).
  unfold next_p at 1. rewrite moody_pbind by exact F. rewrite clear_run by (auto using clear_find).
  rewrite ip_find, find_backup_lba_ok by exact F. unfold dev_len.
  replace (lenN (data d) <? lb_u64 lb * 3) with false by (symmetry; apply N.ltb_ge; lia). rewrite EB.
  unfold next_p at 1. cbn [pbind]. rewrite checked_mul64_ok by exact OF. cbn [ok_or].
  generalize dependent (last_whole_block lb d * lb_u64 lb). intros off HA HB _.
  destruct d as [l q gr em fs du]. unfold fault_free in F. cbn [faults] in F. subst fs.
  unfold header_calls, next_p, try_p, err_p, call_p.
  cbn [pbind run_moody do_moody bad_bytes do_io repaired with_faults seek_start tick faults pos data growable eof_moves durable set_pos].
  cbn [pbind run_moody]. unfold do_moody, bad_bytes. cbn [pos].
  replace (off <? b) with true by (symmetry; apply N.ltb_lt; exact HB).
  replace (a <? off + 92) with true by (symmetry; apply N.ltb_lt; exact HA). reflexivity.
Qed.
(** Bad bytes in the backup header that meet neither the primary one nor its array: the disk opens as usual, and keeps the
    error in place of the backup header. *)
Theorem C110_bad_backup : forall oc cfg a b d h, fault_free d -> addressable d -> c_only_valid_headers cfg = false ->
  3 * lb_u64 (c_lb cfg) <= lenN (data d) ->
  header_at (data d) (lb_u64 (c_lb cfg)) (Ok h) -> part_size h = 128 -> countable oc h (data d) ->
  a < last_whole_block (c_lb cfg) d * lb_u64 (c_lb cfg) + 92 -> last_whole_block (c_lb cfg) d * lb_u64 (c_lb cfg) < b ->
  lb_u64 (c_lb cfg) + 92 <= a -> b <= array_at (c_lb cfg) h \/ array_at (c_lb cfg) h + array_len h <= a ->
  let '(r, d', _) := run_moody (bad_bytes a b) (open_calls oc cfg) d tt in
  opened_with cfg d (Ok h) (Err (HIo IoFault)) h (holding d' r).
Proof.
  intros oc cfg a b d h F A HV H3 H1 HP Hn Ha Hb Hl Ht. pose proof A as A'. rewrite addressable_iff in A.
  rewrite countable_iff in Hn.
  pose proof (header_at_fun _ _ _ _ H1 (read_header_at_spec (lb_u64 (c_lb cfg)) (data d))) as E1.
  unfold open_calls, next_p at 1, try_p at 1. rewrite moody_pbind by exact F. rewrite moody_pbind by exact F.
  rewrite clear_run by (auto using clear_primary_around). rewrite ip_primary, read_primary_header_ok, <- E1 by exact F.
  cbn [run_moody]. rewrite healthy_repaired by exact F.
  unfold next_p at 1, try_p at 1. rewrite moody_pbind by exact F. rewrite moody_pbind by exact F.
  rewrite bad_backup by auto. cbn [run_moody]. rewrite healthy_repaired by exact F. rewrite HV. unfold next_p at 1. cbn [pbind].
  unfold next_p at 1. cbn [pbind or_else]. unfold next_p, err_p. rewrite moody_pbind by exact F. rewrite moody_pbind by exact F.
  rewrite clear_run by (auto using clear_table_around). rewrite ip_table.
  destruct (file_read_partitions_ok oc h (c_lb cfg) d) as (q & E); auto. rewrite E.
  pose proof (read_parts_spec h (c_lb cfg) (data d) HP A) as R.
  destruct (read_parts_at h (c_lb cfg) (data d)) as [t|e|]; cbn [run_moody omap_err holding]; [|exact R|exact R].
  destruct R as (R1 & R2). unfold opened_with. cbn [g_config g_guid g_primary g_backup g_device g_sync g_partitions set_device].
  split; [exact R1|]. split; [exact R2|]. repeat split; auto.
Qed.
Print Assumptions C110_bad_backup.
Example C110_bad_backup_case :
  match fst (fst (run_moody (bad_bytes 2600 3072) (open_calls true mini_config) mini_saved tt)) with
  | Ok g => Some (match g_primary g with Ok h => num_parts h | _ => 0 end, g_backup g, g_partitions g)
  | _ => None
  end = Some (4, Err (HIo IoFault), [(1, part_at 3 3)]).
Proof. vm_compute. reflexivity. Qed.
