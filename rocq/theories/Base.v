(** Base.v - vocabulary shared by the whole model: results, machine arithmetic, bytes. *)
From Coq Require Export Arith NArith List Bool.
From Coq.Strings Require Export Byte.
From Coq Require Export Lia.
Export ListNotations.
Open Scope N_scope.

(** [Result<A, E>] with a third case for a Rust panic (assert!, expect, unwrap, slice or
    arithmetic panic). *)
Inductive outcome (E A : Type) : Type :=
| Ok (a : A)
| Err (e : E)
| Panic.
Arguments Ok {E A} a.
Arguments Err {E A} e.
Arguments Panic {E A}.

(** A function taking [&mut S] and returning [Result<A, E>]: the new state is kept even
    when the result is an error or a panic, because partial effects remain visible. *)
Definition M (S E A : Type) : Type := S -> outcome E A * S.

Definition ret {S E A} (a : A) : M S E A := fun s => (Ok a, s).
Definition throw {S E A} (e : E) : M S E A := fun s => (Err e, s).
Definition panic {S E A} : M S E A := fun s => (Panic, s).
(** The [?] operator and sequencing. *)
Definition bind {S E A B} (m : M S E A) (k : A -> M S E B) : M S E B := fun s =>
  match m s with
  | (Ok a, s') => k a s'
  | (Err e, s') => (Err e, s')
  | (Panic, s') => (Panic, s')
  end.
Definition lift {S E A} (o : outcome E A) : M S E A := fun s => (o, s).
(** [From<E1> for E2], applied by [?]. *)
Definition map_err {S E F A} (f : E -> F) (m : M S E A) : M S F A := fun s =>
  match m s with
  | (Ok a, s') => (Ok a, s')
  | (Err e, s') => (Err (f e), s')
  | (Panic, s') => (Panic, s')
  end.
(** Run [m] and hand its Result to the caller as a value ([let r = f(..);] without [?]). *)
Definition attempt {S E F A} (m : M S E A) : M S F (outcome E A) := fun s =>
  match m s with
  | (Panic, s') => (Panic, s')
  | (r, s') => (Ok r, s')
  end.

Notation "'let*' x := m 'in' k" := (bind m (fun x => k))
  (at level 200, x pattern, m at level 100, k at level 200, right associativity).
Notation "m ;; k" := (bind m (fun _ => k)) (at level 60, right associativity).

(** Pure code that may fail or panic. *)
Definition obind {E A B} (o : outcome E A) (k : A -> outcome E B) : outcome E B :=
  match o with Ok a => k a | Err e => Err e | Panic => Panic end.
Notation "'let?' x := o 'in' k" := (obind o (fun x => k))
  (at level 200, x pattern, o at level 100, k at level 200, right associativity).
Definition omap_err {E F A} (f : E -> F) (o : outcome E A) : outcome F A :=
  match o with Ok a => Ok a | Err e => Err (f e) | Panic => Panic end.
(** [option::ok_or] *)
Definition ok_or {E A} (o : option A) (e : E) : outcome E A :=
  match o with Some a => Ok a | None => Err e end.

(** Machine words. [oc] is the overflow-checks profile flag: [true] (debug) panics,
    [false] (release) wraps. *)
Definition modulus (w : N) : N := 2 ^ w.
Definition addw {E} (oc : bool) (w a b : N) : outcome E N :=
  if a + b <? modulus w then Ok (a + b)
  else if oc then Panic else Ok ((a + b) mod modulus w).
Definition subw {E} (oc : bool) (w a b : N) : outcome E N :=
  if b <=? a then Ok (a - b)
  else if oc then Panic else Ok ((a + modulus w - b) mod modulus w).
Definition mulw {E} (oc : bool) (w a b : N) : outcome E N :=
  if a * b <? modulus w then Ok (a * b)
  else if oc then Panic else Ok ((a * b) mod modulus w).
(** [%]: panics on a zero divisor in every profile. *)
Definition remw {E} (a b : N) : outcome E N :=
  if b =? 0 then Panic else Ok (a mod b).
(** [checked_add], [checked_sub], [checked_mul] on u64. *)
Definition checked_add64 (a b : N) : option N :=
  if a + b <? modulus 64 then Some (a + b) else None.
Definition checked_sub64 (a b : N) : option N :=
  if b <=? a then Some (a - b) else None.
Definition checked_mul64 (a b : N) : option N :=
  if a * b <? modulus 64 then Some (a * b) else None.

(** Bytes and fixed-width little/big endian integers ([to_le_bytes], [read_le_uN], ...). *)
Definition byte_of_N (v : N) : byte :=
  match Byte.of_N (v mod 256) with Some b => b | None => x00 end.
Fixpoint le_bytes (n : nat) (v : N) : list byte :=
  match n with
  | O => []
  | S n' => byte_of_N v :: le_bytes n' (v / 256)
  end.
Fixpoint le_val (l : list byte) : N :=
  match l with
  | [] => 0
  | b :: r => Byte.to_N b + 256 * le_val r
  end.
Definition be_bytes (n : nat) (v : N) : list byte := rev (le_bytes n v).
Definition be_val (l : list byte) : N := le_val (rev l).

Definition zeros (n : nat) : list byte := repeat x00 n.

Fixpoint bytes_eqb (a b : list byte) : bool :=
  match a, b with
  | [], [] => true
  | x :: a', y :: b' => Byte.eqb x y && bytes_eqb a' b'
  | _, _ => false
  end.

Definition lenN {A} (l : list A) : N := N.of_nat (length l).

(** simple_bytes [Bytes] / [BytesArray] used for reading: the state is what remains after
    the cursor; every read panics when fewer bytes remain. *)
Definition rd_bytes {E} (n : nat) : M (list byte) E (list byte) := fun r =>
  if (n <=? length r)%nat then (Ok (firstn n r), skipn n r) else (Panic, r).
Definition rd_le {E} (n : nat) : M (list byte) E N :=
  let* b := rd_bytes n in ret (le_val b).

(** simple_bytes [BytesArray] used for writing: a fixed array and a cursor; a write that
    does not fit panics, a seek past the end panics. *)
Record warr := mkWarr { arr : list byte; wpos : nat }.
Definition splice (p : nat) (bs l : list byte) : list byte :=
  firstn p l ++ bs ++ skipn (p + length bs) l.
Definition wr_bytes {E} (bs : list byte) : M warr E unit := fun w =>
  if (wpos w + length bs <=? length (arr w))%nat
  then (Ok tt, mkWarr (splice (wpos w) bs (arr w)) (wpos w + length bs))
  else (Panic, w).
Definition wr_le {E} (n : nat) (v : N) : M warr E unit := wr_bytes (le_bytes n v).
Definition wr_position {E} : M warr E nat := fun w => (Ok (wpos w), w).
Definition wr_seek {E} (p : nat) : M warr E unit := fun w =>
  if (p <=? length (arr w))%nat then (Ok tt, mkWarr (arr w) p) else (Panic, w).
