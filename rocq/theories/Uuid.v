(** Uuid.v - crate uuid 1.5: the 16 bytes of a [Uuid] in network order, [as_fields],
    [from_fields], [Uuid::try_parse]/[FromStr]; and [parse_uuid] (src/header/mod.rs:240-256). *)
From Coq.Strings Require Export Ascii.
From Verif Require Export Device.

(** A [uuid::Uuid] is its 16 bytes ([wf_uuid] states the length). *)
Definition uuid := list byte.
Definition wf_uuid (u : uuid) : Prop := length u = 16%nat.
Definition uuid_nil : uuid := zeros 16.
Definition uuid_eqb (a b : uuid) : bool := bytes_eqb a b.

(** [Uuid::as_fields]: (d1 : u32, d2 : u16, d3 : u16, d4 : [u8; 8]), big endian. *)
Definition uuid_d1 (u : uuid) : N := be_val (firstn 4 u).
Definition uuid_d2 (u : uuid) : N := be_val (firstn 2 (skipn 4 u)).
Definition uuid_d3 (u : uuid) : N := be_val (firstn 2 (skipn 6 u)).
Definition uuid_d4 (u : uuid) : list byte := skipn 8 u.
(** [Uuid::from_fields] *)
Definition uuid_from_fields (d1 d2 d3 : N) (d4 : list byte) : uuid :=
  be_bytes 4 d1 ++ be_bytes 2 d2 ++ be_bytes 2 d3 ++ d4.

(** [parse_uuid] (src/header/mod.rs:241-256): first three fields little endian. *)
Definition parse_uuid : M (list byte) io_err uuid := fun r =>
  if (length r <? 16)%nat then (Err IoUnexpectedEof, r) else
  (let* d1 := rd_le 4 in
   let* d2 := rd_le 2 in
   let* d3 := rd_le 2 in
   let* d4 := rd_bytes 8 in
   ret (uuid_from_fields d1 d2 d3 d4)) r.

(** The on-disk form written by src/partition.rs:68-80 and src/header/mod.rs:227-230. *)
Definition uuid_le_bytes (u : uuid) : list byte :=
  le_bytes 4 (uuid_d1 u) ++ le_bytes 2 (uuid_d2 u) ++ le_bytes 2 (uuid_d3 u) ++ uuid_d4 u.

(** [Uuid::try_parse] (uuid-1.5.0 src/parser.rs): 32 hex digits; or hyphenated 8-4-4-4-12,
    optionally in braces or after "urn:uuid:".  Hex digits of either case. *)
Definition hex_digit (a : Ascii.ascii) : option N :=
  let n := Ascii.N_of_ascii a in
  if (48 <=? n) && (n <=? 57) then Some (n - 48)
  else if (65 <=? n) && (n <=? 70) then Some (n - 55)
  else if (97 <=? n) && (n <=? 102) then Some (n - 87)
  else None.
Fixpoint hex_pairs (l : list Ascii.ascii) : option (list byte) :=
  match l with
  | [] => Some []
  | [_] => None
  | h :: l' :: r =>
      match hex_digit h, hex_digit l', hex_pairs r with
      | Some a, Some b, Some bs => Some (byte_of_N (16 * a + b) :: bs)
      | _, _, _ => None
      end
  end.
Definition is_hyphen (o : option Ascii.ascii) : bool :=
  match o with Some c => Ascii.eqb c "-"%char | None => false end.
Definition parse_hyphenated (s : list Ascii.ascii) : option uuid :=
  if (length s =? 36)%nat
     && is_hyphen (nth_error s 8) && is_hyphen (nth_error s 13)
     && is_hyphen (nth_error s 18) && is_hyphen (nth_error s 23)
  then hex_pairs (firstn 8 s ++ firstn 4 (skipn 9 s) ++ firstn 4 (skipn 14 s)
                  ++ firstn 4 (skipn 19 s) ++ skipn 24 s)
  else None.
Definition urn_prefix : list Ascii.ascii := list_ascii_of_string "urn:uuid:".
Fixpoint ascii_list_eqb (a b : list Ascii.ascii) : bool :=
  match a, b with
  | [], [] => true
  | x :: a', y :: b' => Ascii.eqb x y && ascii_list_eqb a' b'
  | _, _ => false
  end.
Definition uuid_try_parse (str : string) : option uuid :=
  let s := list_ascii_of_string str in
  match length s with
  | 32%nat => hex_pairs s
  | 36%nat => parse_hyphenated s
  | 38%nat =>
      match s with
      | o :: r => if Ascii.eqb o "{"%char && Ascii.eqb (last r " "%char) "}"%char
                  then parse_hyphenated (removelast r) else None
      | [] => None
      end
  | 45%nat => if ascii_list_eqb (firstn 9 s) urn_prefix
              then parse_hyphenated (skipn 9 s) else None
  | _ => None
  end.
