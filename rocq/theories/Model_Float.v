(** Floats and their texts: PSSingle and PSDouble, src/psrpcore/types/_primitive.py:768-810, both Python floats whose __str__ is
    float.__str__; written in src/psrpcore/types/_serializer.py:720-753 and read at lines 1009-1025.  A Python float is an IEEE
    double.  Its size is given in units of 2^-1074, the smallest one: a natural number.  NaNs are not told apart, as in CPython's
    texts. *)
From Verif Require Import Base Model_Scalars Model_Decimal.
Local Open Scope N_scope.

Inductive float_value := FNum (neg : bool) (u : N) | FInf (neg : bool) | FNan.
Definition unit_places : N := 1074.
(** From here on there are no finite doubles: 2^53 * 2^971. *)
Definition unit_limit : N := 2 ^ 2098.

(** _Py_dg_strtod rounds correctly.  [p/q] units to the nearest double, to the even one of two: 53 bits are kept, or fewer below
    2^53 units. *)
Definition half_even (p q : N) : N :=
  let m := p / q in
  match 2 * (p mod q) ?= q with Lt => m | Gt => m + 1 | Eq => if N.even m then m else m + 1 end.
Definition shift_of (p q : N) : N := N.log2 (p / q) - 52.
Definition round_units (p q : N) : N := half_even p (q * 2 ^ shift_of p q) * 2 ^ shift_of p q.
(** [n * 10^e], in units, as a fraction. *)
Definition scaled (n : N) (e : Z) : N * N :=
  if (0 <=? e)%Z then (n * 10 ^ Z.to_N e * 2 ^ unit_places, 1) else (n * 2 ^ unit_places, 10 ^ Z.to_N (- e)).
Definition to_units (n : N) (e : Z) : N := round_units (fst (scaled n e)) (snd (scaled n e)).
Definition to_float (neg : bool) (n : N) (e : Z) : float_value :=
  if to_units n e <? unit_limit then FNum neg (to_units n e) else FInf neg.

(** float(text), PyFloat_FromString: white space around is dropped, underscores are allowed between digits only; then
    PyOS_string_to_double, whose numbers look like those of Decimal. *)
Fixpoint no_under (before : bool) (s : list N) : option (list N) :=
  match s with
  | [] => Some []
  | c :: t =>
    if (c =? 95) then
      match t with
      | d :: _ => if (before && is_digit d)%bool then no_under false t else None
      | [] => None
      end
    else match no_under (is_digit c) t with Some r => Some (c :: r) | None => None end
  end.
Definition float_unsigned (neg : bool) (s : list N) : option float_value :=
  match after_word [73; 78; 70] s with
  | Some [] => Some (FInf neg)
  | Some t => match after_word [73; 78; 73; 84; 89] t with Some [] => Some (FInf neg) | _ => None end
  | None =>
    match after_word [78; 65; 78] s with
    | Some [] => Some FNan
    | Some _ => None
    | None => match parse_finite neg s with Some (Fin _ n e) => Some (to_float neg n e) | _ => None end
    end
  end.
Definition parse_float (s : list N) : option float_value :=
  match no_under false (rev (skip_spaces (rev (skip_spaces (map to_ascii s))))) with
  | Some r => let '(neg, t) := take_sign (map upper r) in float_unsigned neg t
  | None => None
  end.
(** PSDouble(element.text): without text float(None) is a TypeError. *)
Definition read_float (s : list N) : result float_value :=
  match s with [] => Err TypeError | _ => match parse_float s with Some v => Ok v | None => Err ValueError end end.

(** float.__repr__, dtoa in mode 0: the fewest digits that are read back as the same float, and of these the nearest.
    [first_place u]: the number has so many digits before the point.  It is guessed from the number of bits, log10(2) being a
    little more than 0.30, and then put right. *)
Definition ten_below (k : Z) (u : N) : bool :=
  if (0 <=? k)%Z then (10 ^ Z.to_N k * 2 ^ unit_places <=? u) else (2 ^ unit_places <=? u * 10 ^ Z.to_N (- k)).
Fixpoint places_down (fuel : nat) (k : Z) (u : N) : Z :=
  match fuel with S f => if ten_below (k - 1) u then k else places_down f (k - 1) u | O => k end.
Fixpoint places_up (fuel : nat) (k : Z) (u : N) : Z :=
  match fuel with S f => if ten_below k u then places_up f (k + 1) u else k | O => k end.
Definition first_place (u : N) : Z :=
  let guess := ((Z.of_N (N.log2 u) - 1074) * 30102999 / 100000000)%Z in
  let fuel := (N.to_nat (N.size u) + 2000)%nat in places_up fuel (places_down fuel guess u) u.
(** Without zeros at the end, which there are when nines have been rounded up. *)
Fixpoint unzeroed (fuel : nat) (n : N) (e : Z) : N * Z :=
  match fuel with S f => if n mod 10 =? 0 then unzeroed f (n / 10) (e + 1)%Z else (n, e) | O => (n, e) end.
Definition closest_at (place : Z) (u : N) (places : nat) : option (N * Z) :=
  let e := (place - Z.of_nat places)%Z in
  let '(p, q) := if (0 <=? e)%Z then (u, 2 ^ unit_places * 10 ^ Z.to_N e) else (u * 10 ^ Z.to_N (- e), 2 ^ unit_places) in
  let low := p / q in
  let near := half_even p q in
  let far := if near =? low then low + 1 else low in
  let reads_back r := to_units (fst r) (snd r) =? u in
  if reads_back (unzeroed places near e) then Some (unzeroed places near e)
  else if reads_back (unzeroed places far e) then Some (unzeroed places far e) else None.
Definition closest (u : N) (places : nat) : option (N * Z) := closest_at (first_place u) u places.
Fixpoint shortest (fuel places : nat) (u : N) : N * Z :=
  match fuel with
  | S f => match closest u places with Some r => r | None => shortest f (S places) u end
  | O => (u * 5 ^ unit_places, (- Z.of_N unit_places)%Z)  (* never: seventeen digits are enough *)
  end.
(** Format code r: an exponent of two digits or more outside of 1e-4 and 1e16, else at least one digit on either side. *)
Definition repr_text (ds : list N) (place : Z) : list N :=
  if ((-4 <? place) && (place <=? 16))%Z then
    if (place <=? 0)%Z then [48; 46] ++ repeat 48 (Z.to_nat (- place)) ++ ds
    else if (place >=? Z.of_nat (length ds))%Z then ds ++ repeat 48 (Z.to_nat place - length ds) ++ [46; 48]
    else firstn (Z.to_nat place) ds ++ [46] ++ skipn (Z.to_nat place) ds
  else firstn 1 ds ++ (match skipn 1 ds with [] => [] | t => [46] ++ t end)
       ++ [69; if (place - 1 <? 0)%Z then 45 else 43] ++ dec_pad 2 (Z.abs_N (place - 1)).
(** str(value).upper(), _serializer.py:753 *)
Definition write_float (v : float_value) : list N :=
  match v with
  | FNum neg u =>
    sign_of neg ++ (if u =? 0 then [48; 46; 48]
                    else let '(n, e) := shortest 17 1 u in repr_text (dec n) (e + Z.of_nat (length (dec n))))
  | FInf neg => sign_of neg ++ [73; 78; 70]
  | FNan => [78; 65; 78]
  end.
