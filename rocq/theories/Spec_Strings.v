(** Vocabulary for the string properties, independent of the model's escaping code. *)
From Verif Require Import Base.

(** A Python string: any code points. *)
Definition pystr (s : list N) : Prop := Forall (fun c => (c < 0x110000)%N) s.
(** Valid Unicode: no lone surrogates. *)
Definition no_surrogates (s : list N) : Prop := Forall (fun c => ~ (0xD800 <= c <= 0xDFFF)%N) s.

(** Characters an escaped string must not contain. *)
Definition forbidden (c : N) : Prop :=
  (c < 0x20 \/ 0x7F <= c <= 0x9F \/ 0xD800 <= c <= 0xDFFF \/ 0x10000 <= c)%N.

(** Eight consecutive characters whose UTF-16 bytes, read one byte off, look like an escape sequence. *)
Definition hex_high (c : N) : Prop :=
  exists d, c = (d * 256)%N /\ (48 <= d <= 57 \/ 65 <= d <= 70 \/ 97 <= d <= 102)%N.
Definition misread_run (s : list N) : Prop :=
  exists pre c0 a b c d c7 post,
    s = pre ++ [c0; 0x5F00; 0x7800; a; b; c; d; c7]%N ++ post
    /\ (c0 mod 256 = 0)%N /\ hex_high a /\ hex_high b /\ hex_high c /\ hex_high d /\ (c7 / 256 = 0x5F)%N.
