(** Texts of byte arrays: base64 (C76).  Nothing here parses. *)
From Verif Require Import Base.
From Verif Require Import Spec_Numeral.
Local Open Scope N_scope.

(** The alphabet: capital letters, small letters, digits, plus and slash. *)
Definition sextet (c v : N) : Prop :=
  v < 26 /\ c = 0x41 + v \/ 26 <= v < 52 /\ c = 0x61 + (v - 26) \/ 52 <= v < 62 /\ c = 0x30 + (v - 52)
  \/ v = 62 /\ c = 0x2B \/ v = 63 /\ c = 0x2F.
Definition pad : N := 0x3D.
Definition junk (c : N) : Prop := c < 0x80 /\ c <> pad /\ forall v, ~ sextet c v.
(** What may stand before a character of a group: junk, and padding characters as many as there may be. *)
Definition litter (most : option nat) (s : list N) : Prop :=
  Forall (fun c => c = pad \/ junk c) s
  /\ match most with Some k => (length (filter (fun c => (c =? pad)%N) s) <= k)%nat | None => True end.
(** What Python takes for the bytes [l].  Groups of four characters are three bytes.  At the end two characters and two padding
    characters are one byte, three characters and one padding character are two; whatever comes then counts no more. *)
Inductive b64_text : list N -> list N -> Prop :=
| b64_end j : litter None j -> b64_text j []
| b64_four j1 c1 v1 j2 c2 v2 j3 c3 v3 j4 c4 v4 s l :
    litter None j1 -> sextet c1 v1 -> litter None j2 -> sextet c2 v2 -> litter (Some 1%nat) j3 -> sextet c3 v3 -> litter (Some 0%nat) j4 ->
    sextet c4 v4 -> b64_text s l ->
    b64_text (j1 ++ c1 :: j2 ++ c2 :: j3 ++ c3 :: j4 ++ c4 :: s) (4 * v1 + v2 / 16 :: 16 * (v2 mod 16) + v3 / 4 :: 64 * (v3 mod 4) + v4 :: l)
| b64_two j1 c1 v1 j2 c2 v2 j3 rest :
    litter None j1 -> sextet c1 v1 -> litter None j2 -> sextet c2 v2 -> litter (Some 1%nat) j3 -> In pad j3 -> Forall (fun c => c < 0x80) rest ->
    b64_text (j1 ++ c1 :: j2 ++ c2 :: j3 ++ pad :: rest) [4 * v1 + v2 / 16]
| b64_three j1 c1 v1 j2 c2 v2 j3 c3 v3 j4 rest :
    litter None j1 -> sextet c1 v1 -> litter None j2 -> sextet c2 v2 -> litter (Some 1%nat) j3 -> sextet c3 v3 -> litter (Some 0%nat) j4 ->
    Forall (fun c => c < 0x80) rest ->
    b64_text (j1 ++ c1 :: j2 ++ c2 :: j3 ++ c3 :: j4 ++ pad :: rest) [4 * v1 + v2 / 16; 16 * (v2 mod 16) + v3 / 4].

(** xs:base64Binary: XML white space anywhere, nothing else between, nothing behind, and no bits that are not used. *)
Inductive coded : list N -> list N -> Prop :=
| coded_end : coded [] []
| coded_four c1 v1 c2 v2 c3 v3 c4 v4 s l : sextet c1 v1 -> sextet c2 v2 -> sextet c3 v3 -> sextet c4 v4 -> coded s l ->
    coded (c1 :: c2 :: c3 :: c4 :: s) (4 * v1 + v2 / 16 :: 16 * (v2 mod 16) + v3 / 4 :: 64 * (v3 mod 4) + v4 :: l)
| coded_two c1 v1 c2 v2 : sextet c1 v1 -> sextet c2 v2 -> v2 mod 16 = 0 -> coded [c1; c2; pad; pad] [4 * v1 + v2 / 16]
| coded_three c1 v1 c2 v2 c3 v3 : sextet c1 v1 -> sextet c2 v2 -> sextet c3 v3 -> v3 mod 4 = 0 ->
    coded [c1; c2; c3; pad] [4 * v1 + v2 / 16; 16 * (v2 mod 16) + v3 / 4].
Inductive unspaced : list N -> list N -> Prop :=
| unspaced_end : unspaced [] []
| unspaced_blank c s t : xml_blank c -> unspaced s t -> unspaced (c :: s) t
| unspaced_dark c s t : ~ xml_blank c -> unspaced s t -> unspaced (c :: s) (c :: t).
Definition xs_base64 (s l : list N) : Prop := exists t, unspaced s t /\ coded t l.
