(** FixtureUefi.v - the image of the crate's tests is a valid GPT by the UEFI definition. *)
From Verif Require Import UefiFacts Fixture.
Open Scope list_scope.
Open Scope N_scope.

Definition zero_b (l : list byte) : bool := forallb (Byte.eqb x00) l.
Lemma zero_b_ok l : zero_b l = true -> all_zero l.
Proof.
  unfold zero_b, all_zero. rewrite forallb_forall, Forall_forall. intros H x I. apply Byte.byte_dec_bl, H, I.
Qed.
Lemma all_zero_range off n l : all_zero l -> all_zero (range off n l).
Proof.
  unfold all_zero, range. rewrite !Forall_forall. intros H x I. apply H.
  rewrite <- (firstn_skipn (N.to_nat off) l). apply in_or_app. right.
  rewrite <- (firstn_skipn (N.to_nat n)). apply in_or_app. left. exact I.
Qed.
Section Image.
(** An image with two used entries; the rest of the array is zero. *)
Variables (l : list byte) (last : N).
Let lb := Lb512.
Hypothesis R : all_zero (range 256 (128 * 128 - 256) (array_bytes lb l 1)).
Hypothesis C : entry_count lb l 1 = 128.
Lemma rest_unused i : 2 <= i -> i < 128 -> ~ entry_used (array_entry lb l 1 i).
Proof.
  intros H1 H2 U. apply U. unfold array_entry. apply all_zero_range.
  replace (range (128 * i) 128 (array_bytes lb l 1)) with (range (128 * i - 256) 128 (range 256 (128 * 128 - 256) (array_bytes lb l 1)));
    [apply all_zero_range; exact R|].
  rewrite range_in by lia. f_equal. lia.
Qed.
Lemma used_0_1 i : i < entry_count lb l 1 -> entry_used (array_entry lb l 1 i) -> i = 0 \/ i = 1.
Proof.
  intros H U. rewrite C in H. destruct (N.lt_ge_cases i 2) as [L|L]; [lia|]. exfalso. eapply rest_unused; eauto.
Qed.
End Image.
Lemma fixture_copy_1 : uefi_copy Lb512 fixture_data 1 71.
Proof.
  constructor.
  - repeat split; vm_compute; congruence.
  - split; vm_compute; reflexivity.
  - vm_compute; reflexivity.
  - apply zero_b_ok. vm_compute. reflexivity.
  - vm_compute; reflexivity.
  - vm_compute; reflexivity.
  - vm_compute; congruence.
  - vm_compute; reflexivity.
Qed.
Lemma fixture_copy_71 : uefi_copy Lb512 fixture_data 71 1.
Proof.
  constructor.
  - repeat split; vm_compute; congruence.
  - split; vm_compute; reflexivity.
  - vm_compute; reflexivity.
  - apply zero_b_ok. vm_compute. reflexivity.
  - vm_compute; reflexivity.
  - vm_compute; reflexivity.
  - vm_compute; congruence.
  - vm_compute; reflexivity.
Qed.
Lemma fixture_rest : all_zero (range 256 (128 * 128 - 256) (array_bytes Lb512 fixture_data 1)).
Proof. apply zero_b_ok. vm_compute. reflexivity. Qed.
Lemma fixture_arrays : array_bytes Lb512 fixture_data 1 = array_bytes Lb512 fixture_data 71.
Proof. apply bytes_eqb_eq. vm_compute. reflexivity. Qed.
Lemma fixture_count : entry_count Lb512 fixture_data 1 = 128.
Proof. vm_compute. reflexivity. Qed.
Lemma fixture_len : lenN fixture_data = 36864.
Proof. vm_compute. reflexivity. Qed.
Lemma fixture_numbers : usable_from Lb512 fixture_data 1 = 34 /\ usable_to Lb512 fixture_data 1 = 38 /\
  usable_from Lb512 fixture_data 71 = 34 /\ usable_to Lb512 fixture_data 71 = 38 /\
  array_start Lb512 fixture_data 1 = 2 /\ array_start Lb512 fixture_data 71 = 39 /\ entry_count Lb512 fixture_data 71 = 128.
Proof. repeat split; vm_compute; reflexivity. Qed.
Lemma fixture_extents : entry_first (array_entry Lb512 fixture_data 1 0) = 34 /\ entry_last (array_entry Lb512 fixture_data 1 0) = 34 /\
  entry_first (array_entry Lb512 fixture_data 1 1) = 35 /\ entry_last (array_entry Lb512 fixture_data 1 1) = 38.
Proof. repeat split; vm_compute; reflexivity. Qed.
Lemma fixture_uefi : uefi_disk Lb512 fixture_data 71.
Proof.
  destruct fixture_numbers as (A1 & A2 & A3 & A4 & A5 & A6 & A7). pose proof fixture_count as A8.
  destruct fixture_extents as (X1 & X2 & X3 & X4).
  pose proof (used_0_1 fixture_data fixture_rest A8) as U.
  constructor.
  - rewrite fixture_len. reflexivity.
  - exact fixture_copy_1.
  - exact fixture_copy_71.
  - rewrite A1, A2, A3, A4. auto.
  - vm_compute. reflexivity.
  - rewrite A8, A7. reflexivity.
  - exact fixture_arrays.
  - rewrite A1, A2, A5, A6, A7, A8. change (lb_u64 Lb512) with 512. lia.
  - intros i Hi e He. subst e. destruct (U i Hi He) as [-> | ->]; rewrite ?X1, ?X2, ?X3, ?X4, A1, A2; lia.
  - intros i j Hij Hj e e' He He'. subst e e'.
    destruct (U i ltac:(lia) He) as [-> | ->], (U j Hj He') as [-> | ->]; try lia; rewrite ?X1, ?X2, ?X3, ?X4; lia.
Qed.
