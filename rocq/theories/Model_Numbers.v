(** Expressions over integers of fixed width and plain integers: the operator methods of PSIntegerBase,
    src/psrpcore/types/_primitive.py:155-203, and what CPython does around them.

    PSIntegerBase has no reflected methods (__radd__ and so on): with a plain int on the left the inherited ones of int
    answer, with a plain int.  Simplified: bools are plain ints; the value of a float is not followed beyond what int()
    makes of it, and neither are its errors; exponents below -2^53 are left out (Err OutOfFuel); memory is not limited. *)
From Verif Require Import Base Model_Scalars.
Local Open Scope Z_scope.

Inductive num := Plain (z : Z) | Typed (t : int_type) (z : Z) | Fl.
Inductive unary := UAbs | UNeg | UPos | UInvert.
Inductive binary := BAnd | BAdd | BFloorDiv | BLshift | BMod | BMul | BOr | BPow | BRshift | BSub | BXor.
Definition num_val (n : num) : option Z := match n with Plain z | Typed _ z => Some z | Fl => None end.
Definition unary_op (o : unary) : int_op := match o with UAbs => OAbs | UNeg => ONeg | UPos => OPos | UInvert => OInvert end.
(** int.__pow__: a negative exponent gives a float; [inr k]: one that int() makes [k]. *)
Definition int_power (x y : Z) : result (Z + Z) :=
  if 0 <=? y then let! z := raw_op x (OPow (Z.to_N y)) in Ok (inl z)
  else if x =? 0 then Err RuntimeError        (* ZeroDivisionError *)
  else if y <? - 2 ^ 53 then Err OutOfFuel
  else Ok (inr (if x =? 1 then 1 else if x =? -1 then (if Z.even y then 1 else -1) else 0)).
(** The methods of int that super() finds. *)
Definition int_result (o : binary) (x y : Z) : result (Z + Z) :=
  let whole q := let! z := raw_op x q in Ok (inl z) in
  match o with
  | BAnd => whole (OAnd y) | BAdd => whole (OAdd y) | BFloorDiv => whole (OFloorDiv y) | BLshift => whole (OLshift y)
  | BMod => whole (OMod y) | BMul => whole (OMul y) | BOr => whole (OOr y) | BPow => int_power x y
  | BRshift => whole (ORshift y) | BSub => whole (OSub y) | BXor => whole (OXor y)
  end.
Definition bitwise (o : binary) : bool := match o with BAnd | BOr | BXor | BLshift | BRshift => true | _ => false end.
(** Lines 155-156, 171-172, 183-184, 189-190: type(self)(super().__abs__()) and so on. *)
Definition apply1 (o : unary) (a : num) : result num :=
  match a with
  | Typed t x => let! r := raw_op x (unary_op o) in let! z := new_int t (AInt r) in Ok (Typed t z)
  | Plain x => let! r := raw_op x (unary_op o) in Ok (Plain r)
  | Fl => match o with UInvert => Err TypeError | _ => Ok Fl end
  end.
(** Lines 158-203: type(self)(super().__add__(x)) and so on.  super().__add__ of a float is NotImplemented, which
    type(self)() refuses. *)
Definition apply2 (o : binary) (a b : num) : result num :=
  match a, num_val b with
  | Typed t x, Some y => let! r := int_result o x y in let! z := new_int t (AInt (match r with inl z | inr z => z end)) in Ok (Typed t z)
  | Typed t x, None => Err TypeError
  | Plain x, Some y => let! r := int_result o x y in Ok (match r with inl z => Plain z | inr _ => Fl end)
  | _, _ => if bitwise o then Err TypeError else Ok Fl
  end.
(** divmod, lines 164-166: the remainder is a plain int. *)
Definition divide (a : num) (y : Z) : result (num * num) :=
  match a with
  | Typed t x => let! q := raw_op x (ODivMod y) in let! r := raw_op x (OMod y) in let! z := new_int t (AInt q) in Ok (Typed t z, Plain r)
  | Plain x => let! q := raw_op x (ODivMod y) in let! r := raw_op x (OMod y) in Ok (Plain q, Plain r)
  | Fl => Ok (Fl, Fl)
  end.
(** An expression, evaluated from the left. *)
Inductive expr := ENum (n : num) | EUn (o : unary) (e : expr) | EBin (o : binary) (l r : expr).
Fixpoint eval (e : expr) : result num :=
  match e with
  | ENum n => Ok n
  | EUn o e => let! a := eval e in apply1 o a
  | EBin o l r => let! a := eval l in let! b := eval r in apply2 o a b
  end.
(** sum(l): start with a plain 0. *)
Fixpoint sum_from (a : num) (l : list num) : result num :=
  match l with [] => Ok a | b :: t => let! c := apply2 BAdd a b in sum_from c t end.
Definition sum_of (l : list num) : result num := sum_from (Plain 0) l.
