(** UTF-8 as Python has it: [ElementTree.tostring(element, encoding="utf-8")] (_base.py:390-399) writes text through
    a codec with the error handler xmlcharrefreplace, [data.decode()] (_base.py:428) reads it strictly.  Both are
    CPython's, not in /repo. *)
From Coq Require Import String.
From Verif Require Import Base Model_Scalars Model_Clixml.
Local Open Scope list_scope.
Local Open Scope N_scope.

(** One code point. *)
Definition utf8_char (c : N) : list N :=
  if c <? 0x80 then [c]
  else if c <? 0x800 then [0xC0 + c / 64; 0x80 + c mod 64]
  else if (0xD800 <=? c) && (c <=? 0xDFFF) then tx "&#" ++ dec c ++ tx ";"        (* xmlcharrefreplace *)
  else if c <? 0x10000 then [0xE0 + c / 4096; 0x80 + c / 64 mod 64; 0x80 + c mod 64]
  else [0xF0 + c / 262144; 0x80 + c / 4096 mod 64; 0x80 + c / 64 mod 64; 0x80 + c mod 64].
Definition utf8_encode (s : list N) : list N := flat_map utf8_char s.

(** A byte that continues a character. *)
Definition tail_byte (b : N) : bool := (0x80 <=? b) && (b <? 0xC0).
(** Strict decoding: no overlong forms, no surrogates, nothing above U+10FFFF, no cut-off characters. *)
Fixpoint utf8_decode (l : list N) : result (list N) :=
  match l with
  | [] => Ok []
  | b :: t =>
    if b <? 0x80 then let! r := utf8_decode t in Ok (b :: r)
    else if (b <? 0xC2) || (0xF4 <? b) then Err UnicodeError
    else
    match t with
    | [] => Err UnicodeError
    | b1 :: t1 =>
      if negb (tail_byte b1) then Err UnicodeError
      else if b <? 0xE0 then
        let! r := utf8_decode t1 in Ok (((b - 0xC0) * 64 + (b1 - 0x80)) :: r)
      else
      match t1 with
      | [] => Err UnicodeError
      | b2 :: t2 =>
        if negb (tail_byte b2) then Err UnicodeError
        else if b <? 0xF0 then
          let c := (b - 0xE0) * 4096 + (b1 - 0x80) * 64 + (b2 - 0x80) in
          if (c <? 0x800) || ((0xD800 <=? c) && (c <=? 0xDFFF)) then Err UnicodeError
          else let! r := utf8_decode t2 in Ok (c :: r)
        else
        match t2 with
        | [] => Err UnicodeError
        | b3 :: t3 =>
          if negb (tail_byte b3) then Err UnicodeError
          else
            let c := (b - 0xF0) * 262144 + (b1 - 0x80) * 4096 + (b2 - 0x80) * 64 + (b3 - 0x80) in
            if (c <? 0x10000) || (0x10FFFF <? c) then Err UnicodeError
            else let! r := utf8_decode t3 in Ok (c :: r)
        end
      end
    end
  end.
