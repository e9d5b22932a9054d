(** CLIXML string escaping: _serialize_string and _deserialize_string of src/psrpcore/types/_serializer.py.
    A Python str is the list of its code points (below 0x110000, lone surrogates allowed). *)
From Verif Require Import Base.

(** One upper-case hexadecimal digit, as written by binascii.hexlify(..).upper(). *)
Definition hexdig (d : N) : N := if (d <? 10)%N then (48 + d)%N else (55 + d)%N.
Definition hex4 (u : N) : list N :=
  [hexdig (u / 4096); hexdig (u / 256 mod 16); hexdig (u / 16 mod 16); hexdig (u mod 16)].
(** The f-string _x{i}_, _serializer.py:610. *)
Definition esc_unit (u : N) : list N := [0x5F; 0x78]%N ++ hex4 u ++ [0x5F]%N.

(** str.encode("utf-16-be", errors="surrogatepass") as code units: one character. *)
Definition utf16 (c : N) : list N :=
  if (c <? 0x10000)%N then [c]
  else [0xD800 + (c - 0x10000) / 1024; 0xDC00 + (c - 0x10000) mod 1024]%N.

(** _STRING_SERIAL_ESCAPE_ESCAPE, (?i)_(x), replaced by _x005F_ and the group, _serializer.py:71,615. *)
Definition is_x (c : N) : bool := ((c =? 0x78) || (c =? 0x58))%N.
Fixpoint esc_underscore (s : list N) : list N :=
  match s with
  | [] => []
  | a :: r =>
    match r with
    | c :: t => if ((a =? 0x5F)%N && is_x c)%bool
                then [0x5F; 0x78; 0x30; 0x30; 0x35; 0x46; 0x5F]%N ++ c :: esc_underscore t
                else a :: esc_underscore r
    | [] => [a]
    end
  end.

(** _STRING_SERIAL_ESCAPE, _serializer.py:74. *)
Definition in_range (lo hi c : N) : bool := ((lo <=? c) && (c <=? hi))%N.
Definition must_escape (c : N) : bool :=
  (in_range 0 0x1F c || in_range 0x7F 0x9F c || in_range 0xD800 0xD8FF c || in_range 0xDC00 0xDFFF c
   || in_range 0x10000 0x10FFFF c)%bool.
(** rplcr, _serializer.py:604-610. *)
Definition esc_char (c : N) : list N := if must_escape c then flat_map esc_unit (utf16 c) else [c].
(** _serialize_string, _serializer.py:588-618. *)
Definition serialize_string (s : list N) : list N := flat_map esc_char (esc_underscore s).

(** str.encode("utf-16-be") without an error handler: surrogates raise, _serializer.py:483. *)
Definition is_surrogate (c : N) : bool := in_range 0xD800 0xDFFF c.
Definition unit_bytes (u : N) : list N := [u / 256; u mod 256]%N.
Definition encode_utf16be (s : list N) : result (list N) :=
  if existsb is_surrogate s then Err UnicodeError else Ok (flat_map unit_bytes (flat_map utf16 s)).

(** _STRING_DESERIAL_FIND, _serializer.py:78, tried at the start of a byte string: the two bytes of rplcr,
    _serializer.py:470-479. *)
Definition hex_val (b : N) : option N :=
  if in_range 48 57 b then Some (b - 48)%N
  else if in_range 65 70 b then Some (b - 55)%N
  else if in_range 97 102 b then Some (b - 87)%N
  else None.
Definition match_escape (l : list N) : option (N * N) :=
  match l with
  | z0 :: u0 :: z1 :: x :: z2 :: a :: z3 :: b :: z4 :: c :: z5 :: d :: z6 :: u1 :: _ =>
    if ((z0 =? 0) && (u0 =? 0x5F) && (z1 =? 0) && (x =? 0x78) && (z2 =? 0) && (z3 =? 0) && (z4 =? 0)
        && (z5 =? 0) && (z6 =? 0) && (u1 =? 0x5F))%N then
      match hex_val a, hex_val b, hex_val c, hex_val d with
      | Some p, Some q, Some r, Some s => Some (p * 16 + q, r * 16 + s)%N
      | _, _, _, _ => None
      end
    else None
  | _ => None
  end.
(** re.sub: leftmost, non-overlapping, at any byte offset; [skip] counts matched bytes still to be dropped. *)
Fixpoint sub_escapes (skip : nat) (l : list N) : list N :=
  match l with
  | [] => []
  | b :: t =>
    match skip with
    | S k => sub_escapes k t
    | O => match match_escape l with
           | Some (hi, lo) => hi :: lo :: sub_escapes 13 t
           | None => b :: sub_escapes 0 t
           end
    end
  end.

(** bytes.decode("utf-16-be", errors="surrogatepass"): pairs are joined, lone surrogates kept; an odd trailing
    byte raises. *)
Definition join_pair (h l : N) : N := (0x10000 + (h - 0xD800) * 1024 + (l - 0xDC00))%N.
Definition is_high (u : N) : bool := in_range 0xD800 0xDBFF u.
Definition is_low (u : N) : bool := in_range 0xDC00 0xDFFF u.
Fixpoint join_units (us : list N) : list N :=
  match us with
  | [] => []
  | h :: r =>
    match r with
    | l :: t => if is_high h && is_low l then join_pair h l :: join_units t else h :: join_units r
    | [] => [h]
    end
  end.
Fixpoint units_of_bytes (l : list N) : option (list N) :=
  match l with
  | [] => Some []
  | a :: r =>
    match r with
    | b :: t => match units_of_bytes t with Some us => Some ((a * 256 + b)%N :: us) | None => None end
    | [] => None
    end
  end.
Definition decode_utf16be (l : list N) : result (list N) :=
  match units_of_bytes l with Some us => Ok (join_units us) | None => Err UnicodeError end.

(** _deserialize_string, _serializer.py:451-486. *)
Definition deserialize_string (s : list N) : result (list N) :=
  let! b := encode_utf16be s in decode_utf16be (sub_escapes 0 b).
