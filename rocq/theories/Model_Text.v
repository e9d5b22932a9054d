(** Text forms with a fixed alphabet: base64 (binary data) and GUIDs. *)
From Verif Require Import Base Model_Strings Model_Scalars.

(** ** base64.b64encode / b64decode, used at _serializer.py:703 and 998 for PSByteArray and for the key exchange and
    SecureString text, _client.py:186, _server.py:400, _events.py:430,894, _crypto.py:120,142 *)
Definition b64_char (v : N) : N :=
  (if v <? 26 then 65 + v else if v <? 52 then 71 + v else if v <? 62 then v - 4 else if v =? 62 then 43 else 47)%N.
Fixpoint b64_encode (l : list N) : list N :=
  match l with
  | a :: b :: c :: t =>
    b64_char (a / 4) :: b64_char (a mod 4 * 16 + b / 16) :: b64_char (b mod 16 * 4 + c / 64) :: b64_char (c mod 64)
    :: b64_encode t
  | [a; b] => [b64_char (a / 4); b64_char (a mod 4 * 16 + b / 16); b64_char (b mod 16 * 4); 61]
  | [a] => [b64_char (a / 4); b64_char (a mod 4 * 16); 61; 61]
  | [] => []
  end%N.
Definition b64_val (c : N) : option N :=
  (if (65 <=? c) && (c <=? 90) then Some (c - 65)
   else if (97 <=? c) && (c <=? 122) then Some (c - 71)
   else if (48 <=? c) && (c <=? 57) then Some (c + 4)
   else if c =? 43 then Some 62 else if c =? 47 then Some 63 else None)%N.
(** binascii.a2b_base64 in its default, non-strict mode: [quad] is the position in the current group, [left] the bits
    left over from the previous character, [pads] the padding characters seen in a row.  Characters outside the alphabet
    are skipped; binascii.Error is a ValueError. *)
Fixpoint b64_dec (quad : nat) (left : N) (pads : nat) (s : list N) : result (list N) :=
  match s with
  | [] => match quad with O => Ok [] | _ => Err ValueError end
  | c :: t =>
    if (c =? 61)%N then
      if Nat.leb 2 quad then
        if Nat.leb 4 (quad + S pads) then Ok [] else b64_dec quad left (S pads) t
      else b64_dec quad left pads t
    else match b64_val c with
         | None => b64_dec quad left pads t
         | Some v =>
           match quad with
           | 0 => b64_dec 1 v 0 t
           | 1 => let! r := b64_dec 2 (v mod 16)%N 0 t in Ok ((left * 4 + v / 16)%N :: r)
           | 2 => let! r := b64_dec 3 (v mod 4)%N 0 t in Ok ((left * 16 + v / 4)%N :: r)
           | _ => let! r := b64_dec 0 0%N 0 t in Ok ((left * 64 + v)%N :: r)
           end
         end
  end.
(** b64decode(str) encodes the text as ASCII first; failing that is a ValueError. *)
Definition b64_decode (s : list N) : result (list N) :=
  if forallb (fun c => c <? 128)%N s then b64_dec 0 0%N 0 s else Err ValueError.

(** ** GUID text: str(uuid.UUID) and uuid.UUID(text), used by PSGuid (_primitive.py:881-913; written by
    _serializer.py:773, read by ps_type(element.text), _serializer.py:1025) *)
Definition hex_lower (d : N) : N := (if d <? 10 then 48 + d else 87 + d)%N.
(** "%032x" *)
Fixpoint hex_digits (w : nat) (n : N) : list N :=
  match w with O => [] | S k => hex_digits k (n / 16) ++ [hex_lower (n mod 16)] end.
Definition write_guid (n : N) : list N :=
  let h := hex_digits 32 n in
  slice 0 8 h ++ [45]%N ++ slice 8 12 h ++ [45]%N ++ slice 12 16 h ++ [45]%N ++ slice 16 20 h ++ [45]%N ++ slice 20 32 h.
(** str.replace(word, ""): from the left, occurrences that do not overlap.  [skip] counts the characters of the present one still
    to be dropped. *)
Fixpoint begins (w s : list N) : bool :=
  match w, s with [], _ => true | c :: w', d :: s' => (c =? d)%N && begins w' s' | _ :: _, [] => false end.
Fixpoint without (w : list N) (skip : nat) (s : list N) : list N :=
  match s with
  | [] => []
  | c :: t => match skip with
              | S k => without w k t
              | O => if begins w s then without w (length w - 1) t else c :: without w 0 t
              end
  end.
(** str.strip("{}") *)
Fixpoint strip_braces (s : list N) : list N :=
  match s with c :: t => if ((c =? 123) || (c =? 125))%N then strip_braces t else s | [] => [] end.
(** int(text, 16), PyLong_FromString: blanks around, a plus sign, "0x" and an underscore behind it, digits with single underscores
    between them.  The minus sign is left out: there is none in the only text it is called with. *)
Fixpoint hex_number (acc : N) (s : list N) : option N :=
  match s with
  | [] => Some acc
  | c :: t =>
    match hex_val c with
    | Some d => hex_number (acc * 16 + d)%N t
    | None => if (c =? 95)%N then
                match t with
                | d :: t' => match hex_val d with Some v => hex_number (acc * 16 + v)%N t' | None => None end
                | [] => None
                end
              else None
    end
  end.
Definition hex_prefix (s : list N) : list N :=
  match s with
  | z :: x :: t => if ((z =? 48) && ((x =? 120) || (x =? 88)))%N
                   then match t with u :: t' => if (u =? 95)%N then t' else t | [] => [] end else s
  | _ => s
  end.
Definition hex_int (s : list N) : option N :=
  let t := rev (skip_spaces (rev (skip_spaces (map to_ascii s)))) in
  let t := hex_prefix (match t with c :: t' => if (c =? 43)%N then t' else t | [] => [] end) in
  match t with c :: t' => match hex_val c with Some d => hex_number d t' | None => None end | [] => None end.
(** uuid.UUID(hex): "urn:" and "uuid:" anywhere, braces at the ends and hyphens anywhere are dropped; of the rest int(.., 16) must
    make something, and it must have 32 characters, whatever they are. *)
Definition read_guid (s : list N) : result N :=
  let s := without [117; 117; 105; 100; 58]%N 0 (without [117; 114; 110; 58]%N 0 s) in
  let h := filter (fun c => negb (c =? 45)%N) (rev (strip_braces (rev (strip_braces s)))) in
  if Nat.eqb (length h) 32 then match hex_int h with Some n => Ok n | None => Err ValueError end
  else Err ValueError.
