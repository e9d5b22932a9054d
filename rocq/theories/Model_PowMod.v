(** Powers with a modulus: PSIntegerBase.__pow__ with two operands, src/psrpcore/types/_primitive.py:192-194, on ints. *)
From Verif Require Import Base Model_Scalars.

(** int.__pow__ finds the inverse of [a] by Euclid's algorithm; here it is looked for among the numbers below [c]. *)
Definition inverse_mod (a c : Z) : option Z :=
  find (fun i => ((a * i) mod c =? 1 mod c)%Z) (map Z.of_nat (seq 0 (Z.to_nat c))).
(** int.__pow__(z, n, m): the sign of the result is that of the modulus. *)
Definition pow_mod (z n m : Z) : result Z :=
  if (m =? 0)%Z then Err ValueError
  else let! a := (if (n <? 0)%Z then match inverse_mod z (Z.abs m) with Some i => Ok i | None => Err ValueError end else Ok z) in
       let r := ((a ^ Z.abs n) mod Z.abs m)%Z in
       Ok (if ((m <? 0) && negb (r =? 0))%Z%bool then (r - Z.abs m)%Z else r).
Definition int_pow_mod (t : int_type) (z n m : Z) : result Z := let! r := pow_mod z n m in new_int t (AInt r).
