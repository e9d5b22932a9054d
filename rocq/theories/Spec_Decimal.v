(** Texts of decimals (C84).  Nothing here parses or writes; the digits are those of [Spec_Numeral]. *)
From Verif Require Import Base Model_Decimal Spec_Numeral.
Local Open Scope N_scope.

(** Digits of any script, none of them or more, and their number. *)
Inductive digit_row : list N -> N -> Prop :=
| row_none : digit_row [] 0
| row_more s n c d : digit_row s n -> digit c d -> digit_row (s ++ [c]) (10 * n + d).
Definition sign_text (s : list N) (neg : bool) : Prop := neg = false /\ (s = [] \/ s = [0x2B]) \/ neg = true /\ s = [0x2D].
(** A capital or its small letter. *)
Definition letter (c capital : N) : Prop := c = capital \/ c = capital + 32.
Definition word (s capitals : list N) : Prop := Forall2 letter s capitals.
(** [s] has the digits of [n], the last [k] of them behind the point. *)
Definition mantissa (s : list N) (n : N) (k : nat) : Prop :=
  s <> [] /\ digit_row s n /\ k = 0%nat
  \/ exists whole fraction, s = whole ++ [0x2E] ++ fraction /\ whole ++ fraction <> [] /\ digit_row (whole ++ fraction) n
     /\ k = length fraction.
Definition exponent (s : list N) (e : Z) : Prop :=
  s = [] /\ e = 0%Z
  \/ exists mark sign down ds n, s = mark :: sign ++ ds /\ letter mark 0x45 /\ sign_text sign down /\ ds <> [] /\ digit_row ds n
     /\ e = (if down then - Z.of_N n else Z.of_N n)%Z.
Inductive spells : list N -> decimal_value -> Prop :=
| spell_number sign neg m n k x e : sign_text sign neg -> mantissa m n k -> exponent x e ->
    spells (sign ++ m ++ x) (Fin neg n (e - Z.of_nat k))
| spell_infinity sign neg w : sign_text sign neg -> word w [0x49; 0x4E; 0x46] \/ word w [0x49; 0x4E; 0x46; 0x49; 0x4E; 0x49; 0x54; 0x59] ->
    spells (sign ++ w) (Infinite neg)
| spell_nan sign neg w ds n : sign_text sign neg -> word w [0x4E; 0x41; 0x4E] -> digit_row ds n -> spells (sign ++ w ++ ds) (NotNumber false neg n)
| spell_snan sign neg w ds n : sign_text sign neg -> word w [0x53; 0x4E; 0x41; 0x4E] -> digit_row ds n ->
    spells (sign ++ w ++ ds) (NotNumber true neg n).
(** White space of Unicode and the four separators of ASCII. *)
Definition any_blank (c : N) : Prop := blank c \/ 28 <= c <= 31.
(** [interspersed s t]: [s] is [t] with underscores put in at will. *)
Inductive interspersed : list N -> list N -> Prop :=
| inter_nil : interspersed [] []
| inter_char c s t : c <> 0x5F -> interspersed s t -> interspersed (c :: s) (c :: t)
| inter_under s t : interspersed s t -> interspersed (0x5F :: s) t.
(** What Python takes for [v]. *)
Definition decimal_text (s : list N) (v : decimal_value) : Prop :=
  exists before core bare after, s = before ++ core ++ after /\ Forall any_blank before /\ Forall any_blank after
  /\ interspersed core bare /\ spells bare v.
(** What a Decimal can hold: the leading digit is worth at most 10^(10^18-1), the last one at least 10^-(2*10^18-3). *)
Definition holds (v : decimal_value) : Prop :=
  match v with
  | Fin _ m e => (-1999999999999999997 <= e <= 999999999999999999)%Z
                 /\ (m < 10 ^ Z.to_N (10 ^ 18 - e))
  | _ => True
  end.
(** What XML Schema takes for the number (neg) n * 10^-k: xs:decimal, as MS-PSRP 2.2.5.1.16 asks for. *)
Inductive plain_row : list N -> N -> Prop :=
| plain_none : plain_row [] 0
| plain_more s n d : plain_row s n -> d < 10 -> plain_row (s ++ [0x30 + d]) (10 * n + d).
Definition xs_decimal (s : list N) (neg : bool) (n : N) (k : nat) : Prop :=
  exists before sign m after, s = before ++ sign ++ m ++ after /\ Forall xml_blank before /\ Forall xml_blank after
  /\ sign_text sign neg
  /\ (m <> [] /\ plain_row m n /\ k = 0%nat
      \/ exists whole fraction, m = whole ++ [0x2E] ++ fraction /\ whole ++ fraction <> [] /\ plain_row (whole ++ fraction) n
         /\ k = length fraction).
(** What System.Decimal holds: 96 bits and at most 28 places. *)
Definition dotnet_decimal (v : decimal_value) : Prop :=
  exists neg m k, v = Fin neg m (- Z.of_nat k) /\ m < 2 ^ 96 /\ (k <= 28)%nat.
(** The number needs no power of ten to be written: no zeros are left out on the right, and it has at most six places or is
    worth at least 10^-6. *)
Definition written_out (m : N) (e : Z) : Prop := (-6 <= e <= 0)%Z \/ (e < -6)%Z /\ 10 ^ Z.to_N (-6 - e) <= m.
