(** Fixture.v - the image /repo/tests/fixtures/gpt-disk.img (36864 bytes), which the crate's own
    tests open: non-zero segments, everything else zero.  Opening it through the model is a check of
    the model itself (header layout, CRC-32, GUID byte order, entry layout). *)
From Verif Require Import Disk Mbr.
Import ListNotations.
Open Scope N_scope.

Definition blocks (n : nat) : list byte := concat (repeat (zeros 512) n).
Definition fixture_data : list byte :=
  store 448 [x02; x00; xee; xff; xff; xff; x01; x00; x00; x00; x47] (
  store 510 [x55; xaa] (
  store 512 [x45; x46; x49; x20; x50; x41; x52; x54; x00; x00; x01; x00; x5c; x00; x00; x00; x99; x66; xf0; x55; x00; x00; x00; x00; x01; x00; x00; x00; x00; x00; x00; x00; x47; x00; x00; x00; x00; x00; x00; x00; x22; x00; x00; x00; x00; x00; x00; x00; x26; x00; x00; x00; x00; x00; x00; x00; xfa; x2b; x6a; x1b; x2b; xe9; x4c; x18; xa8; xa7; xed; x06; x10; xd5; x48; x21; x02; x00; x00; x00; x00; x00; x00; x00; x80; x00; x00; x00; x80; x00; x00; x00; x1b; x60; xad; x5f] (
  store 1024 [xaf; x3d; xc6; x0f; x83; x84; x72; x47; x8e; x79; x3d; x69; xd8; x47; x7d; xe4; x50; xab; x8e; xf3; x6f; x07; x45; xcb; x97; xf8; xb1; xb7; xe5; xaf; x07; x8f; x22; x00; x00; x00; x00; x00; x00; x00; x22] (
  store 1152 [xaf; x3d; xc6; x0f; x83; x84; x72; x47; x8e; x79; x3d; x69; xd8; x47; x7d; xe4; xaf; x35; xee; x8e; x93; x4a; x4f; x2c; xaa; x7a; x5f; xb1; x93; xac; x6f; xf7; x23; x00; x00; x00; x00; x00; x00; x00; x26] (
  store 19968 [xaf; x3d; xc6; x0f; x83; x84; x72; x47; x8e; x79; x3d; x69; xd8; x47; x7d; xe4; x50; xab; x8e; xf3; x6f; x07; x45; xcb; x97; xf8; xb1; xb7; xe5; xaf; x07; x8f; x22; x00; x00; x00; x00; x00; x00; x00; x22] (
  store 20096 [xaf; x3d; xc6; x0f; x83; x84; x72; x47; x8e; x79; x3d; x69; xd8; x47; x7d; xe4; xaf; x35; xee; x8e; x93; x4a; x4f; x2c; xaa; x7a; x5f; xb1; x93; xac; x6f; xf7; x23; x00; x00; x00; x00; x00; x00; x00; x26] (
  store 36352 [x45; x46; x49; x20; x50; x41; x52; x54; x00; x00; x01; x00; x5c; x00; x00; x00; x1b; xa4; xdf; x7d; x00; x00; x00; x00; x47; x00; x00; x00; x00; x00; x00; x00; x01; x00; x00; x00; x00; x00; x00; x00; x22; x00; x00; x00; x00; x00; x00; x00; x26; x00; x00; x00; x00; x00; x00; x00; xfa; x2b; x6a; x1b; x2b; xe9; x4c; x18; xa8; xa7; xed; x06; x10; xd5; x48; x21; x27; x00; x00; x00; x00; x00; x00; x00; x80; x00; x00; x00; x80; x00; x00; x00; x1b; x60; xad; x5f] (
  blocks 72)))))))).
Definition fixture : dev := mkDev fixture_data 0 true true [] fixture_data.

(** What the crate's tests see (tests/gpt.rs, header tests). *)
Definition hdr_of (r : outcome hdr_err header) : option (N * N * N * N * N) :=
  match r with
  | Ok h => Some (current_lba h, backup_lba h, first_usable h, last_usable h, part_start h)
  | _ => None
  end.
Example fixture_opens :
  match open_from_device true config_default fixture with
  | (Ok g, d) =>
      (hdr_of (g_primary g), hdr_of (g_backup g),
       map (fun p => (fst p, first_lba (snd p), last_lba (snd p), is_used (snd p))) (g_partitions g))
  | _ => (None, None, [])
  end
  = (Some (1, 71, 34, 38, 2), Some (71, 1, 34, 38, 39),
     [(1, 34, 34, true); (2, 35, 38, true)]).
Proof. vm_compute. reflexivity. Qed.
Example fixture_free :
  match open_from_device true config_default fixture with
  | (Ok g, d) => find_free_sectors (E := gpt_err) true g
  | _ => Panic
  end = Ok [].
Proof. vm_compute. reflexivity. Qed.
(** Rewriting the image unchanged stores the same bytes, checksums included (computed here, by the virtual
    machine; no theorem rests on it). *)
Definition rewrites_itself (d : dev) : bool :=
match open_from_device true (cset_writable true config_default) d with
  | (Ok g, _) =>
      match write_inplace true g with
      | (Ok _, g') => bytes_eqb (data (g_device g')) (data d)
      | _ => false
      end
  | _ => false
  end.
Check (@eq_refl bool true <: rewrites_itself fixture = true).
