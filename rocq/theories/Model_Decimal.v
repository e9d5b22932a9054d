(** Decimals and their texts: PSDecimal, src/psrpcore/types/_primitive.py:813-830, a decimal.Decimal whose __str__ is that of
    Decimal; written in src/psrpcore/types/_serializer.py:720-753 and read at lines 1009-1025.  decimal.Decimal is CPython's
    C module on a 64-bit machine with the default context, which traps InvalidOperation.  Simplified: a coefficient or payload
    of more than 10^18 digits, which fits no memory, is not refused. *)
From Verif Require Import Base Model_Scalars.

(** Decimal.as_tuple(): the sign, the coefficient and the exponent.  A payload of no digits is 0. *)
Inductive decimal_value :=
| Fin (neg : bool) (m : N) (e : Z)
| Infinite (neg : bool)
| NotNumber (signal neg : bool) (payload : N).

(** Decimal.__str__, to-scientific-string: the sign, the digits with a point if there is room for one, an exponent if not. *)
Definition sign_of (neg : bool) : list N := if neg then [45]%N else [].
(** "%+d" *)
Definition signed (z : Z) : list N := (if (z <? 0)%Z then 45%N else 43%N) :: dec (Z.abs_N z).
Definition point_place (m : N) (e : Z) : Z :=
  let left_digits := (e + Z.of_nat (length (dec m)))%Z in
  if ((e <=? 0) && (left_digits >? -6))%Z then left_digits else 1%Z.
Definition digits_text (ds : list N) (place : Z) : list N :=
  if (place <=? 0)%Z then [48; 46]%N ++ repeat 48%N (Z.to_nat (- place)) ++ ds
  else if (place >=? Z.of_nat (length ds))%Z then ds ++ repeat 48%N (Z.to_nat place - length ds)
  else firstn (Z.to_nat place) ds ++ [46]%N ++ skipn (Z.to_nat place) ds.
(** str(value).upper(), _serializer.py:753: Infinity, NaN and sNaN in capitals. *)
Definition write_decimal (v : decimal_value) : list N :=
  match v with
  | Fin neg m e =>
    let left_digits := (e + Z.of_nat (length (dec m)))%Z in
    let place := point_place m e in
    sign_of neg ++ digits_text (dec m) place
    ++ (if (left_digits =? place)%Z then [] else [69%N] ++ signed (left_digits - place))
  | Infinite neg => sign_of neg ++ [73; 78; 70; 73; 78; 73; 84; 89]%N
  | NotNumber signal neg p =>
    sign_of neg ++ (if signal then [83]%N else []) ++ [78; 65; 78]%N ++ (if (p =? 0)%N then [] else dec p)
  end.

(** Decimal(text): str.strip(), no underscores, digits of any script as ASCII ones; mpd_qset_string looks at no case. *)
Definition text_space (c : N) : bool := (ascii_space (to_ascii c) || (28 <=? c) && (c <=? 31))%N.
Definition upper (c : N) : N := if ((97 <=? c) && (c <=? 122))%N then (c - 32)%N else c.
Definition plainly (c : N) : N := upper (to_ascii c).
Definition tidy (s : list N) : list N :=
  map plainly (filter (fun c => negb (c =? 95)%N) (rstrip text_space (lstrip text_space s))).
Definition take_sign (s : list N) : bool * list N :=
  match s with c :: t => if (c =? 45)%N then (true, t) else if (c =? 43)%N then (false, t) else (false, s) | [] => (false, []) end.
(** One or more digits and nothing else. *)
Definition all_digits (s : list N) : bool := match s with [] => false | _ => forallb is_digit s end.
Definition parse_finite (neg : bool) (s : list N) : option decimal_value :=
  let '(i, r) := span_digits s in
  let '(f, r) := match r with c :: t => if (c =? 46)%N then span_digits t else ([], r) | [] => ([], []) end in
  match i ++ f with
  | [] => None
  | _ =>
    let m := digits_val (i ++ f) in
    let e := (- Z.of_nat (length f))%Z in
    match r with
    | [] => Some (Fin neg m e)
    | c :: t =>
      if (c =? 69)%N then
        let '(down, ds) := take_sign t in
        if all_digits ds
        then Some (Fin neg m ((if down then - Z.of_N (digits_val ds) else Z.of_N (digits_val ds)) + e)%Z) else None
      else None
    end
  end.
(** [s] without [p] at its start. *)
Fixpoint after_word (p s : list N) : option (list N) :=
  match p, s with
  | [], _ => Some s
  | a :: p', c :: s' => if (a =? c)%N then after_word p' s' else None
  | _ :: _, [] => None
  end.
Definition parse_unsigned (neg : bool) (s : list N) : option decimal_value :=
  match after_word [73; 78; 70]%N s with
  | Some [] => Some (Infinite neg)
  | Some t => match after_word [73; 78; 73; 84; 89]%N t with Some [] => Some (Infinite neg) | _ => None end
  | None =>
    match after_word [83; 78; 65; 78]%N s with
    | Some t => if forallb is_digit t then Some (NotNumber true neg (digits_val t)) else None
    | None =>
      match after_word [78; 65; 78]%N s with
      | Some t => if forallb is_digit t then Some (NotNumber false neg (digits_val t)) else None
      | None => parse_finite neg s
      end
    end
  end.
Definition parse_decimal (s : list N) : option decimal_value :=
  let '(neg, t) := take_sign (tidy s) in parse_unsigned neg t.
(** The exponents there are: MAX_EMAX, and the exponent of the smallest subnormal number.  A number outside of them would have
    to be changed to be kept, and is refused instead. *)
Definition kept (v : decimal_value) : bool :=
  match v with
  | Fin _ m e => ((e + Z.of_nat (length (dec m)) - 1 <=? 999999999999999999) && (-1999999999999999997 <=? e))%Z
  | _ => true
  end.
(** PSDecimal(element.text), lines 1009-1025: an element without text has None there, which Decimal refuses with TypeError;
    a text that is no decimal raises decimal.InvalidOperation, which is no ValueError. *)
Inductive reading := Taken (v : decimal_value) | InvalidOperation | NoText.
Definition read_decimal (s : list N) : reading :=
  match s with
  | [] => NoText
  | _ => match parse_decimal s with Some v => if kept v then Taken v else InvalidOperation | None => InvalidOperation end
  end.
