(** Props_Workflow.v - the program in the documentation of the crate, from an empty device to an opened disk (C100). *)
From Verif Require Import SpecPacking SpecUefi SpecMbr MbrFacts WriteFacts UefiFacts Props_Mbr Props_Write Props_Build Props_Uefi Props_Packing Samples.
Open Scope list_scope.
Open Scope N_scope.

(** Values that the Rust types allow. *)
Definition wish_typed (w : wish) : Prop :=
  guid_ok (guid (w_type w)) /\ guid_ok (w_guid w) /\ w_flags w < 2 ^ 64 /\ Forall char_ok (w_name w).

Lemma numbered_snd (ps : list partition) : map snd (numbered ps) = ps.
Proof.
  unfold numbered. generalize 1%nat. induction ps as [|p ps IH]; intros k; [reflexivity|]. cbn. f_equal. apply IH.
Qed.
Lemma numbered_used ps : Forall used ps -> used_in_order (numbered ps) = ps.
Proof.
  intros F. unfold used_in_order. rewrite numbered_snd. induction F as [|p ps U F IH]; [reflexivity|].
  cbn [filter]. unfold used_dec at 1. destruct (list_eq_dec _ _ _) as [E|E]; [contradiction|]. cbn [negb]. f_equal. exact IH.
Qed.
Lemma laid_length lb a ws : forall x, length (laid lb a x ws) = length ws.
Proof. induction ws as [|w ws IH]; intros x; cbn [laid length]; [reflexivity|]. f_equal. apply IH. Qed.
Lemma laid_used lb al a ws : Forall (wish_ok lb al) ws -> forall x, Forall used (laid lb a x ws).
Proof.
  intros F. induction F as [|w ws (W1 & W2 & W3) F IH]; intros x; cbn [laid]; constructor; [exact W2|apply IH].
Qed.
Lemma laid_typed lb a ws : Forall wish_typed ws -> forall x, Forall (fun p =>
  guid_ok (guid (part_type p)) /\ guid_ok (part_guid p) /\ flags p < 2 ^ 64 /\ Forall char_ok (name p)) (laid lb a x ws).
Proof.
  intros F. induction F as [|w ws W F IH]; intros x; cbn [laid]; constructor; [exact W|apply IH].
Qed.
Lemma has_numbered ps p : In p ps -> exists k, has (numbered ps) k p.
Proof.
  intros I. rewrite <- numbered_snd in I. apply in_map_iff in I. destruct I as ((k & q) & E & I). cbn in E. subst q. exists k. exact I.
Qed.

Theorem C100_workflow : forall oc oc' cfg cfg' u rnd al n ws d,
  let lb := c_lb cfg in let L := lb_u64 lb in let t := min_array lb in let blocks := lenN (data d) / L in
  let id := match u with Some u => u | None => rnd end in
  let ps := laid lb (alignment al) (2 + t) ws in
  fault_free d -> addressable d -> n < 2 ^ 32 -> guid_ok id ->
  c_writable cfg = true -> c_readonly_backup cfg = false -> c_lb cfg' = lb ->
  1 <= alignment al -> Forall (wish_ok lb al) ws -> Forall wish_typed ws -> lenN ws <= 128 ->
  2 * t + 4 <= blocks -> filled lb (alignment al) (2 + t) ws + t + 1 <= blocks ->
  exists d1 g g1 g2 dev dev' g3 hp hb qs,
    overwrite_lba0 (mbr_with_lb_size n) d = (Ok 512, d1) /\
    create_from_device oc cfg u rnd d1 = (Ok g, d1) /\
    talk oc (map (wished al) ws) g = (map (fun i => Returned (VId (N.of_nat i))) (seq 1 (length ws)), g1) /\
    write oc g1 = (Ok dev, g2) /\
    open_from_device oc' cfg' dev = (Ok g3, dev') /\
    (* the device as a reader of the published format sees it *)
    lenN (data dev) = lenN (data d) /\ uefi_disk lb (data dev) (blocks - 1) /\
    mbr_bytes (range 0 512 (data dev)) (mbr_with_lb_size n) /\
    (forall i, (2 + t) * L <= i < (blocks - 1 - t) * L -> byte_no (data dev) i = byte_no (data d) i) /\
    (* and as this library does *)
    g_guid g3 = id /\ g_primary g3 = Ok hp /\ g_backup g3 = Ok hb /\
    g_partitions g3 = numbered qs /\ Forall2 same_entry ps qs.
Proof.
  intros oc oc' cfg cfg' u rnd al n ws d lb L t blocks id ps HF HA Hn GO CW CR C' A1 F FT LW B1 B2.
  destruct (C48_covers n Hn) as (MO & _). assert (WM := proj1 (mbr_ok_iff _) MO).
  assert (LF : lenN (flat_mbr (mbr_with_lb_size n)) = 512) by (unfold lenN; rewrite (flat_mbr_length _ WM); reflexivity).
  pose proof (lb_pos lb) as LP. fold L in LP.
  assert (DL : blocks * L <= lenN (data d)) by (rewrite N.mul_comm; apply N.mul_div_le; lia).
  assert (T1 : 1 <= t) by (unfold t; destruct lb; vm_compute; discriminate).
  assert (L5 : 512 <= L) by (unfold L; destruct lb; cbn; lia).
  assert (LD : 512 <= lenN (data d)) by nia.
  set (d1 := set_data d (store 0 (flat_mbr (mbr_with_lb_size n)) (data d)) (pos d)).
  assert (E1 : overwrite_lba0 (mbr_with_lb_size n) d = (Ok 512, d1)).
  { rewrite (overwrite_eq _ d WM). unfold bind, map_err. rewrite write_at_ok by (auto; unfold dev_len; lia). reflexivity. }
  assert (LE1 : lenN (data d1) = lenN (data d)) by (apply store_lenN_in; lia).
  assert (HF1 : fault_free d1) by exact HF.
  assert (HA1 : addressable d1) by (unfold addressable; rewrite LE1; exact HA).
  destruct (C43_create oc cfg u rnd d1 HF1 HA1 GO) as (A & _). fold lb L in A. rewrite LE1 in A. fold blocks t in A.
  destruct (A B1) as (g & h & E2 & H1 & H2 & H3 & H4 & H5 & H6 & H7 & H8 & H9 & Ha & Hb & Hc & Hd & He & _). clear A.
  destruct (C43_created_tidy oc cfg u rnd d1 g d1 HF1 HA1 GO E2) as (h' & T & _).
  assert (h' = h) by (eapply header_of_fun; [apply T|exact H1]). subst h'.
  assert (LWB : last_whole_block lb d1 = blocks - 1) by (unfold last_whole_block; rewrite LE1; reflexivity).
  rewrite LWB in *.
  destruct (C99_fill oc al ws g h H1 (ti_usable _ _ T) H3) as (TK & AR); rewrite ?H9, ?H5; try lia; auto.
  { fold lb. rewrite Hd, He. fold lb t. lia. }
  rewrite H5, Hd in TK, AR. fold lb t ps in TK, AR.
  set (g1 := set_partitions (numbered ps) g) in *.
  assert (HU : Forall used ps) by (apply (laid_used lb al), F).
  assert (UI : used_in_order (numbered ps) = ps) by apply numbered_used, HU.
  assert (TD : tidy g1 h).
  { constructor; [apply T|exact H1|apply T|apply T|exact AR]. }
  assert (RD : ready g1 h).
  { constructor; [cbn; rewrite H5; exact CW|exact H1|apply T|apply T| |].
    - cbn [g1 set_partitions g_partitions]. rewrite UI, H9. unfold lenN, ps. rewrite laid_length. exact LW.
    - cbn [g1 set_partitions g_partitions]. rewrite UI. apply Forall_forall. intros p I.
      pose proof (proj1 (Forall_forall _ _) (laid_typed lb (alignment al) ws FT (2 + t)) p I) as (Y1 & Y2 & Y3 & Y4).
      destruct (has_numbered ps p I) as (k & K). pose proof (ar_range _ _ AR k p K (proj1 (Forall_forall _ _) HU p I)) as (R1 & R2 & R3).
      destruct (ti_usable _ _ T) as (_ & _ & U3). constructor; auto; lia. }
  assert (HF2 : fault_free (g_device g1)) by (cbn; rewrite H2; exact HF1).
  assert (BA : backup_at h = last_whole_block (c_lb (g_config g1)) (g_device g1)).
  { cbn [g1 set_partitions g_config g_device]. rewrite H5, H2. fold lb. rewrite LWB. unfold backup_at. rewrite Ha, Hb. lia. }
  assert (CR1 : c_readonly_backup (g_config g1) = false) by (cbn; rewrite H5; exact CR).
  assert (CB1 : c_lb (g_config g1) = lb) by (cbn; rewrite H5; reflexivity).
  destruct (C76_written oc g1 h TD RD HF2 CR1 BA) as (g2 & W & UD).
  destruct (C17_write_then_open oc oc' g1 h cfg' RD HF2 CR1 BA) as (g2' & hp & hb & g3 & W' & O & HH & P1 & P2 & P3 & P4 & P5 & qs & P6 & P7).
  { rewrite CB1. exact C'. }
  rewrite W in W'. injection W' as EW. subst g2'.
  assert (W2 : snd (write_inplace oc g1) = g2) by (rewrite W; reflexivity).
  pose proof (C16_write_frame oc g1 h (ti_header _ _ TD) (ti_size _ _ TD) (ti_layout _ _ TD)) as FR. rewrite W2 in FR.
  assert (US : forall i, i < L \/ (2 + t) * L <= i < (blocks - 1 - t) * L -> byte_no (data (g_device g2)) i = byte_no (data d1) i).
  { intros i Hi. pose proof (C16_usable_area_preserved oc g1 h i (ti_header _ _ TD) (ti_size _ _ TD) (ti_layout _ _ TD)) as X.
    rewrite W2, CB1 in X. fold L in X. cbn zeta in X. rewrite Hd, He in X. fold lb t in X.
    replace (blocks - 1 - t - 1 + 1) with (blocks - 1 - t) in X by lia. destruct X as (X & _); [tauto|].
    rewrite X. cbn [g1 set_partitions g_device]. rewrite H2. reflexivity. }
  exists d1, g, g1, g2, (g_device g2), (snd (open_from_device oc' cfg' (g_device g2))), g3, hp, hb, qs.
  split; [exact E1|]. split; [exact E2|]. split; [exact TK|].
  split. { unfold write, bind. rewrite W. reflexivity. }
  split. { rewrite <- O. destruct (open_from_device oc' cfg' (g_device g2)); reflexivity. }
  assert (LE2 : lenN (data (g_device g2)) = lenN (data d)).
  { rewrite <- LE1, <- H2. apply FR. }
  split; [exact LE2|].
  split. { rewrite CB1 in UD. cbn [g1 set_partitions g_device] in UD. rewrite H2, LWB in UD. exact UD. }
  split.
  { destruct (C45_success (mbr_with_lb_size n) (repeat x00 440) (repeat x00 4) d MO eq_refl eq_refl) as (S & _).
    destruct (S 512 d1 E1) as (_ & _ & MB).
    replace (range 0 512 (data (g_device g2))) with (range 0 512 (data d1)); [exact MB|].
    rewrite !range_slice. apply slice_eq_byte_at. intros i Hi. symmetry. apply US. left. lia. }
  split.
  { intros i Hi. rewrite US by (right; exact Hi).
    destruct (C45_only_its_bytes (mbr_with_lb_size n) (repeat x00 440) (repeat x00 4) d MO eq_refl eq_refl) as ((_ & S) & _).
    rewrite E1 in S. cbn [snd] in S. apply S; [nia|]. unfold between. nia. }
  split; [rewrite P5; exact H8|]. split; [exact P3|]. split; [exact P4|]. split; [exact P6|].
  cbn [g1 set_partitions g_partitions] in P7. rewrite UI in P7. exact P7.
Qed.
Print Assumptions C100_workflow.
(** The program of the documentation (src/lib.rs:35-65): 64 KiB, 12 KiB and 18 KiB. *)
Definition doc_config : config := mkConfig Lb512 true false false false.
Definition doc_wishes : list wish :=
  [mkWish [116; 101; 115; 116; 49] (1024 * 12) (mkType linux_fs OsLinux) 0 sample_guid;
   mkWish [116; 101; 115; 116; 50] (1024 * 18) (mkType linux_fs OsLinux) 0 sample_guid].
Definition doc_dev : dev := mkDev (repeat x00 (N.to_nat 65536)) 0 true true [] [].
Example C100_case :
  fault_free doc_dev /\ addressable doc_dev /\ 65536 / 512 - 1 < 2 ^ 32 /\ guid_ok sample_guid /\
  Forall (wish_ok Lb512 None) doc_wishes /\ Forall wish_typed doc_wishes /\ lenN doc_wishes <= 128 /\
  2 * min_array Lb512 + 4 <= 65536 / 512 /\
  filled Lb512 (alignment None) (2 + min_array Lb512) doc_wishes = 94 /\
  filled Lb512 (alignment None) (2 + min_array Lb512) doc_wishes + min_array Lb512 + 1 <= 65536 / 512 /\
  map (fun p => (first_lba p, last_lba p)) (laid Lb512 1 34 doc_wishes) = [(34, 57); (58, 93)].
Proof.
  assert (LD : lenN (data doc_dev) = 65536) by (unfold lenN, doc_dev; cbn [data]; rewrite repeat_length; apply N2Nat.id).
  split; [reflexivity|]. split; [unfold addressable; rewrite LD; reflexivity|]. split; [reflexivity|]. split; [reflexivity|].
  split; [repeat constructor; discriminate|].
  split; [repeat constructor; cbn; lia|].
  vm_compute. repeat split; discriminate.
Qed.
