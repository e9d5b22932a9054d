(** Operators on members of enumerations.  PSEnumBase derives from PSIntegerBase first (src/psrpcore/types/_enum.py:74), so the
    methods are those of src/psrpcore/types/_primitive.py:155-203, and the type(self)(...) in them looks a member up by its value.
    A member is its name and its value.  Division by zero, negative shifts and left out operands are as in Model_Scalars.v;
    divmod gives the member for the quotient, its remainder is an int of Python and is left out here. *)
From Verif Require Import Base Model_Scalars Model_EnumClass.

Definition member := (list N * Z)%type.
Definition member_op (c : enum_class) (m : member) (o : int_op) : result member :=
  let! r := raw_op (snd m) o in
  let! n := of_value c r in
  Ok (n, r).
(** One operator after the other, on what came of the last one. *)
Fixpoint member_ops (c : enum_class) (m : member) (os : list int_op) : result member :=
  match os with [] => Ok m | o :: rest => let! m' := member_op c m o in member_ops c m' rest end.
