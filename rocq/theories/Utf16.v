(** Utf16.v - Rust [str::encode_utf16] and [String::from_utf16_lossy] on lists of Unicode
    scalar values (used at src/partition.rs:88 and :298). *)
From Verif Require Export Base.

(** A [char]: a Unicode scalar value. *)
Definition is_scalar (c : N) : bool :=
  (c <? 0xD800) || ((0xE000 <=? c) && (c <? 0x110000)).
Definition is_high (u : N) : bool := (0xD800 <=? u) && (u <? 0xDC00).
Definition is_low (u : N) : bool := (0xDC00 <=? u) && (u <? 0xE000).
Definition replacement : N := 0xFFFD.

Definition utf16_char (c : N) : list N :=
  if c <? 0x10000 then [c]
  else [0xD800 + (c - 0x10000) / 0x400; 0xDC00 + (c - 0x10000) mod 0x400].
Definition encode_utf16 (s : list N) : list N := flat_map utf16_char s.

(** [char::decode_utf16] with [unwrap_or(REPLACEMENT_CHARACTER)]: an unpaired surrogate gives
    U+FFFD and the following unit is decoded afresh. *)
Fixpoint decode_utf16_lossy (l : list N) : list N :=
  match l with
  | [] => []
  | u :: r =>
      if is_high u then
        match r with
        | v :: r' =>
            if is_low v
            then (0x10000 + (u - 0xD800) * 0x400 + (v - 0xDC00)) :: decode_utf16_lossy r'
            else replacement :: decode_utf16_lossy r
        | [] => [replacement]
        end
      else if is_low u then replacement :: decode_utf16_lossy r
      else u :: decode_utf16_lossy r
  end.
