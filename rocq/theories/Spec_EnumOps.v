(** Operators on members of enumerations (C88). *)
From Verif Require Import Base Model_Scalars Spec_Scalars Spec_EnumClass.

(** What a row of operators comes to on integers, where only values of [l] may be met on the way. *)
Inductive comes_to (l : list (list N * Z)) : Z -> list int_op -> Z -> Prop :=
| comes_nil z : comes_to l z [] z
| comes_cons z o os w r : op_means z o w -> In w (map snd l) -> comes_to l w os r -> comes_to l z (o :: os) r.
