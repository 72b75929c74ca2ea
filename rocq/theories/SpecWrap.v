(** SpecWrap.v - free space and placements computed modulo 2^64, as in a build without overflow checks. *)
From Verif Require Export SpecQuery.
Open Scope list_scope.
Open Scope N_scope.

(** The edges (C65) as 64-bit numbers: the block before block 0 is the last one, the one after the last is block 0. *)
Definition wrapped_edges (h : header) (m : pmap) : list N :=
  (first_usable h + (2 ^ 64 - 1)) mod 2 ^ 64 ::
  flat_map (fun p => [first_lba p; last_lba p]) (used_in_order m) ++ [(last_usable h + 1) mod 2 ^ 64].
(** What is reported for two neighbouring edges: the blocks in between, and nearly all blocks if both are 0 or both are
    the last block. *)
Inductive pair_report : N -> N -> list (N * N) -> Prop :=
| pair_zeros : pair_report 0 0 [(1, 2 ^ 64 - 1)]
| pair_tops : pair_report (2 ^ 64 - 1) (2 ^ 64 - 1) [(0, 2 ^ 64 - 1)]
| pair_blocks a b : a + 1 < b -> pair_report a b [(a + 1, b - a - 1)]
| pair_next a b : b = a + 1 -> pair_report a b []
| pair_same a : a <> 0 -> a <> 2 ^ 64 - 1 -> pair_report a a [].
(** The report for a list of edges, taken two by two. *)
Inductive pairs_report : list N -> list (N * N) -> Prop :=
| pairs_nil : pairs_report [] []
| pairs_pair a b l s r : pair_report a b s -> pairs_report l r -> pairs_report (a :: b :: l) (s ++ r).

(** The first multiple of [al] from [start] on is [off] blocks away. *)
Definition steps_up (al start off : N) : Prop := smallest (fun k => (start + k) mod al = 0) off.
(** [n] blocks and the [off] blocks before them are taken to fit in [len]. *)
Definition taken_to_fit (al n : N) (s : N * N) : Prop :=
  exists off, steps_up al (fst s) off /\ (off + n) mod 2 ^ 64 <= snd s.
