(** What the bytes of secure strings and exchanged keys are, written from [MS-PSRP] 2.2.2.3, 2.2.2.4, 2.2.5.1.24 and the
    definition of cipher block chaining. *)
From Verif Require Import Base.

(** A 32-bit number, least significant byte first. *)
Definition dword (n : N) : list N := [n mod 256; n / 256 mod 256; n / 65536 mod 256; n / 16777216 mod 256]%N.
(** The number a sequence of bytes, least significant first, stands for. *)
Fixpoint number (l : list N) : N := match l with [] => 0%N | b :: t => (b + 256 * number t)%N end.
(** A public key: type 6, version 2, algorithm CALG_RSA_KEYX, "RSA1", 2048 bits, the exponent, the modulus. *)
Definition public_blob (e : N) (modulus : list N) : list N :=
  [6; 2; 0; 0]%N ++ dword 0xa400 ++ [82; 83; 65; 49]%N ++ dword 2048 ++ dword e ++ modulus.
(** An encrypted session key: type 1, version 2, algorithm CALG_AES_256, wrapped with CALG_RSA_KEYX, the cipher text in
    reverse. *)
Definition key_blob (c : list N) : list N := [1; 2; 0; 0]%N ++ dword 0x6610 ++ dword 0xa400 ++ rev c.

(** The bytes of a character, UTF-16 with the low byte first. *)
Definition word (u : N) : list N := [u mod 256; u / 256]%N.
Definition char_bytes (c : N) : list N :=
  if (c <? 65536)%N then word c
  else word (55296 + (c - 65536) / 1024) ++ word (56320 + (c - 65536) mod 1024).
(** Plain text with its padding: between 1 and 16 bytes, each the number of them. *)
Definition padded (l p : list N) : Prop := exists k, 1 <= k <= 16 /\ p = l ++ repeat (N.of_nat k) k.
(** Bytes of two blocks, one by one. *)
Definition xored (a b r : list N) : Prop :=
  length r = 16 /\ forall i, i < 16 -> nth i r 0%N = N.lxor (nth i a 0%N) (nth i b 0%N).
(** Each cipher block is the encryption of its plain block and the cipher block before it, zeros before the first. *)
Definition chained (E : list N -> list N) (ps cs : list (list N)) : Prop :=
  length cs = length ps
  /\ forall i p c, nth_error ps i = Some p -> nth_error cs i = Some c ->
     exists x, xored p (match i with O => repeat 0%N 16 | S j => nth j cs [] end) x /\ c = E x.
