(** Floats and their texts (C85).  Nothing here parses, writes or rounds. *)
From Verif Require Import Base Model_Decimal Model_Float Spec_Numeral Spec_Decimal.
Local Open Scope N_scope.

(** A number of units of 2^-1074 that 53 bits are enough for; a double, if it is not too large: it is less than 2^1024. *)
Definition grid (u : N) : Prop := exists m s, u = m * 2 ^ s /\ m < 2 ^ 53.
Definition is_double (v : float_value) : Prop := match v with FNum _ u => grid u /\ u < 2 ^ (1024 + 1074) | _ => True end.
Definition dist (a b : N) : N := (a - b) + (b - a).
(** The last of the 53 bits (or of those there are below 2^53 units) is 0. *)
Definition even_last (u : N) : Prop := exists m s, u = m * 2 ^ s /\ m < 2 ^ 53 /\ N.Even m /\ (s = 0 \/ 2 ^ 52 <= m).
(** [u] is the nearest to [p/q], the even one of two. *)
Definition nearest (p q u : N) : Prop :=
  grid u /\ forall y, grid y -> dist (q * u) p <= dist (q * y) p /\ (dist (q * u) p = dist (q * y) p -> y = u \/ even_last u).
(** What a number that is said becomes: the nearest number of 53 bits, infinity if that is too large. *)
Definition becomes (said : decimal_value) (v : float_value) : Prop :=
  match said with
  | Fin neg n e => exists u, nearest (n * 10 ^ Z.to_N e * 2 ^ 1074) (10 ^ Z.to_N (- e)) u
                   /\ (u < 2 ^ (1024 + 1074) /\ v = FNum neg u \/ 2 ^ (1024 + 1074) <= u /\ v = FInf neg)
  | Infinite neg => v = FInf neg
  | NotNumber _ _ _ => v = FNan
  end.
(** [between s t]: [s] is [t] with underscores, each between two digits. *)
Inductive between : list N -> list N -> Prop :=
| between_nil : between [] []
| between_char c s t : c <> 0x5F -> between s t -> between (c :: s) (c :: t)
| between_under c x d y s t : digit c x -> digit d y -> between (d :: s) t -> between (c :: 0x5F :: d :: s) (c :: t).
Inductive float_spells : list N -> decimal_value -> Prop :=
| float_number sign neg m n k x e : sign_text sign neg -> mantissa m n k -> exponent x e ->
    float_spells (sign ++ m ++ x) (Fin neg n (e - Z.of_nat k))
| float_infinity sign neg w : sign_text sign neg -> word w [0x49; 0x4E; 0x46] \/ word w [0x49; 0x4E; 0x46; 0x49; 0x4E; 0x49; 0x54; 0x59] ->
    float_spells (sign ++ w) (Infinite neg)
| float_nan sign neg w : sign_text sign neg -> word w [0x4E; 0x41; 0x4E] -> float_spells (sign ++ w) (NotNumber false neg 0).
(** What Python takes for [said]. *)
Definition float_text (s : list N) (said : decimal_value) : Prop :=
  exists before core bare after, s = before ++ core ++ after /\ Forall blank before /\ Forall blank after
  /\ between core bare /\ float_spells bare said.
(** What XML Schema takes for it: xs:double, as MS-PSRP 2.2.5.1.14 and 15 ask for. *)
Definition xs_mantissa (s : list N) (n : N) (k : nat) : Prop :=
  s <> [] /\ plain_row s n /\ k = 0%nat
  \/ exists whole fraction, s = whole ++ [0x2E] ++ fraction /\ whole ++ fraction <> [] /\ plain_row (whole ++ fraction) n /\ k = length fraction.
Definition xs_exponent (s : list N) (e : Z) : Prop :=
  s = [] /\ e = 0%Z
  \/ exists mark sign down ds n, s = mark :: sign ++ ds /\ letter mark 0x45 /\ sign_text sign down /\ ds <> [] /\ plain_row ds n
     /\ e = (if down then - Z.of_N n else Z.of_N n)%Z.
Definition xs_double (s : list N) (said : decimal_value) : Prop :=
  exists before t after, s = before ++ t ++ after /\ Forall xml_blank before /\ Forall xml_blank after
  /\ ((exists sign neg m n k x e, t = sign ++ m ++ x /\ sign_text sign neg /\ xs_mantissa m n k /\ xs_exponent x e /\ said = Fin neg n (e - Z.of_nat k))
      \/ (exists sign neg, t = sign ++ [0x49; 0x4E; 0x46] /\ sign_text sign neg /\ said = Infinite neg)
      \/ t = [0x4E; 0x61; 0x4E] /\ said = NotNumber false false 0).
(** What System.Single holds: 24 bits, in units of 2^-149. *)
Definition dotnet_single (v : float_value) : Prop :=
  match v with FNum _ u => exists m s, u = m * 2 ^ s * 2 ^ (1074 - 149) /\ m < 2 ^ 24 /\ s <= 253 | _ => True end.
