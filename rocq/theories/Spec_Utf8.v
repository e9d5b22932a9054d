(** UTF-8 (RFC 3629, section 3), independent of the model. *)
From Verif Require Import Base.
Local Open Scope list_scope.
Local Open Scope N_scope.

(** Unicode scalar values. *)
Definition scalar (c : N) : Prop := c < 0x110000 /\ ~ 0xD800 <= c <= 0xDFFF.
(** The bits of the character in groups of six, the shortest form. *)
Inductive utf8_form : N -> list N -> Prop :=
| Utf1 a : a < 0x80 -> utf8_form a [a]
| Utf2 a b : a < 32 -> b < 64 -> 0x80 <= a * 64 + b -> utf8_form (a * 64 + b) [192 + a; 128 + b]
| Utf3 a b c : a < 16 -> b < 64 -> c < 64 -> 0x800 <= (a * 64 + b) * 64 + c -> utf8_form ((a * 64 + b) * 64 + c) [224 + a; 128 + b; 128 + c]
| Utf4 a b c d : a < 8 -> b < 64 -> c < 64 -> d < 64 -> 0x10000 <= ((a * 64 + b) * 64 + c) * 64 + d ->
    utf8_form (((a * 64 + b) * 64 + c) * 64 + d) [240 + a; 128 + b; 128 + c; 128 + d].
Definition utf8_text (s bytes : list N) : Prop := exists parts, bytes = concat parts /\ Forall2 utf8_form s parts.
