(** SpecCrc.v - vocabulary of the properties of the checksum (C78-C81): polynomials over the field of two
    elements, and bits that were flipped.  Nothing here refers to how the checksum is computed. *)
From Verif Require Export Spec.
Open Scope list_scope.
Open Scope N_scope.

(** A polynomial is a number: bit [i] is the coefficient of x^i.  The sum of two is [N.lxor]. *)
Fixpoint times_pos (q : positive) (g : N) : N :=
  match q with
  | xH => g
  | xO q => 2 * times_pos q g
  | xI q => N.lxor g (2 * times_pos q g)
  end.
Definition times (q g : N) : N := match q with N0 => 0 | Npos q => times_pos q g end.
(** The generator of CRC-32: x^32 + x^26 + x^23 + x^22 + x^16 + x^12 + x^11 + x^10 + x^8 + x^7 + x^5 + x^4 + x^2 +
    x + 1. *)
Definition generator : N := 0x104C11DB7.
Definition congruent (a b : N) : Prop := exists q, N.lxor a b = times q generator.
(** The number of [w] bits read in the opposite order. *)
Fixpoint mirror (w : nat) (n : N) : N :=
  match w with O => 0 | S w => 2 ^ N.of_nat w * (n mod 2) + mirror w (n / 2) end.
(** The message as a polynomial: the lowest bit of the first byte has the highest power. *)
Definition message (l : list byte) : N := mirror (8 * length l) (number_le l).
Definition ones : N := 0xFFFFFFFF.
(** CRC-32 as published (CRC-32/ISO-HDLC): the message, shifted by 32 bits, its first 32 bits inverted, is divided
    by the generator; the remainder, mirrored and inverted, is the checksum. *)
Definition dividend (l : list byte) : N := N.lxor (message l * 2 ^ 32) (ones * 2 ^ (8 * lenN l)).
Definition checksum_of (l : list byte) (c : N) : Prop :=
  exists r, r < 2 ^ 32 /\ congruent (dividend l) r /\ c = N.lxor (mirror 32 r) ones.

(** Bit [i] of a list of bytes; lowest bit of each byte first. *)
Definition bit_at (l : list byte) (i : N) : bool :=
  match byte_no l (i / 8) with Some b => N.testbit (Byte.to_N b) (i mod 8) | None => false end.
(** Exactly the bits listed differ. *)
Definition flipped (ps : list N) (l l' : list byte) : Prop :=
  lenN l' = lenN l /\ NoDup ps /\ forall i, bit_at l' i <> bit_at l i <-> In i ps.
