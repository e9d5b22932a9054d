(** Texts of integers (C71).  Nothing here parses. *)
From Verif Require Import Base.
Local Open Scope N_scope.

(** The decimal digits of Unicode 14 (general category Nd): each row of ten is given by the code point of its zero.  By script:
    ASCII, Arabic, Indic (Devanagari to Sinhala), Thai, Lao, Tibetan, Myanmar, Khmer, Mongolian, and so on up to the styled
    digits of mathematics and the segmented ones of legacy computing. *)
Definition rows : list N :=
  [0x30; 0x660; 0x6F0; 0x7C0; 0x966; 0x9E6; 0xA66; 0xAE6; 0xB66; 0xBE6; 0xC66; 0xCE6; 0xD66; 0xDE6; 0xE50; 0xED0; 0xF20; 0x1040; 0x1090;
   0x17E0; 0x1810; 0x1946; 0x19D0; 0x1A80; 0x1A90; 0x1B50; 0x1BB0; 0x1C40; 0x1C50; 0xA620; 0xA8D0; 0xA900; 0xA9D0; 0xA9F0; 0xAA50; 0xABF0;
   0xFF10; 0x104A0; 0x10D30; 0x11066; 0x110F0; 0x11136; 0x111D0; 0x112F0; 0x11450; 0x114D0; 0x11650; 0x116C0; 0x11730; 0x118E0;
   0x11950; 0x11C50; 0x11D50; 0x11DA0; 0x16A60; 0x16AC0; 0x16B50; 0x1D7CE; 0x1D7D8; 0x1D7E2; 0x1D7EC; 0x1D7F6; 0x1E140; 0x1E2F0;
   0x1E950; 0x1FBF0].
Definition digit (c d : N) : Prop := d < 10 /\ exists z, In z rows /\ c = z + d.
(** One or more digits, with at most one underscore between two of them. *)
Inductive numeral : list N -> N -> Prop :=
| numeral_one c d : digit c d -> numeral [c] d
| numeral_next s n c d : numeral s n -> digit c d -> numeral (s ++ [c]) (10 * n + d)
| numeral_under s n c d : numeral s n -> digit c d -> numeral (s ++ [0x5F; c]) (10 * n + d).
(** White space: tab to carriage return and the space, and the wider ones of Unicode. *)
Definition blank (c : N) : Prop :=
  9 <= c <= 13 \/ 0x2000 <= c <= 0x200A \/ In c [0x20; 0x85; 0xA0; 0x1680; 0x2028; 0x2029; 0x202F; 0x205F; 0x3000].
(** What Python takes for the integer [z]. *)
Definition int_text (s : list N) (z : Z) : Prop :=
  exists before sign number after n, s = before ++ sign ++ number ++ after /\ Forall blank before /\ Forall blank after
  /\ numeral number n
  /\ ((sign = [] \/ sign = [0x2B]) /\ z = Z.of_N n \/ sign = [0x2D] /\ z = (- Z.of_N n)%Z).
(** What XML Schema takes for it (xs:integer, with the white space collapsed around it), as MS-PSRP 2.2.5.1 asks for. *)
Inductive plain_numeral : list N -> N -> Prop :=
| plain_one c d : d < 10 -> c = 0x30 + d -> plain_numeral [c] d
| plain_next s n c d : plain_numeral s n -> d < 10 -> c = 0x30 + d -> plain_numeral (s ++ [c]) (10 * n + d).
Definition xml_blank (c : N) : Prop := In c [9; 10; 13; 32].
Definition xs_integer (s : list N) (z : Z) : Prop :=
  exists before sign number after n, s = before ++ sign ++ number ++ after /\ Forall xml_blank before /\ Forall xml_blank after
  /\ plain_numeral number n
  /\ ((sign = [] \/ sign = [0x2B]) /\ z = Z.of_N n \/ sign = [0x2D] /\ z = (- Z.of_N n)%Z).
