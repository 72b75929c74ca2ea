(** SpecPacking.v - vocabulary of C99: filling an empty disk. *)
From Verif Require Export SpecClone.
Open Scope list_scope.
Open Scope N_scope.

(** A partition somebody wants: what [add_partition] is given except for the alignment, and the random GUID it draws. *)
Record wish := mkWish { w_name : list N; w_size : N; w_type : ptype; w_flags : N; w_guid : uuid }.
Definition wished (al : option N) (w : wish) : call :=
  Do (OpAdd (w_name w) (w_size w) (w_type w) (w_flags w) al (w_guid w)).
(** Not empty, not of the type that means unused, and small enough for the computation of its place. *)
Definition wish_ok (lb : lbsize) (al : option N) (w : wish) : Prop :=
  1 <= w_size w /\ guid (w_type w) <> repeat x00 16 /\ alignment al + blocks_for (w_size w) lb < 2 ^ 64.

(** The first multiple of [a] from [x] on. *)
Definition round_up (a x : N) : N := (x + (a - 1)) / a * a.
(** The partitions placed one after the other from block [next] on, and the block after the last of them. *)
Fixpoint laid (lb : lbsize) (a next : N) (ws : list wish) : list partition :=
  match ws with
  | [] => []
  | w :: ws =>
      let s := round_up a next in
      let n := blocks_for (w_size w) lb in
      mkPart (w_type w) (w_guid w) s (s + n - 1) (w_flags w) (w_name w) :: laid lb a (s + n) ws
  end.
Fixpoint filled (lb : lbsize) (a next : N) (ws : list wish) : N :=
  match ws with
  | [] => next
  | w :: ws => filled lb a (round_up a next + blocks_for (w_size w) lb) ws
  end.
(** The blocks wanted altogether. *)
Definition blocks_wanted (lb : lbsize) (ws : list wish) : N :=
  fold_right N.add 0 (map (fun w => blocks_for (w_size w) lb) ws).
