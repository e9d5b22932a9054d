(** Classes of enumerations (C87). *)
From Verif Require Import Base Model_Scalars Model_EnumClass Spec_Scalars Spec_Numeral.

(** What a declaration says, where integers of type [t] are asked for. *)
Definition says (t : int_type) (a : int_arg) (z : Z) : Prop :=
  match a with ANone => z = 0%Z | AEnum v => z = v | AInt v => z = v /\ fits t z | AText s => int_text s z /\ fits t z end.
Definition asked_for (kw : option (option int_type)) (t : int_type) : Prop := kw = Some (Some t) \/ kw = None /\ t = TInt32.
(** [n] is the first name with the value [z]. *)
Definition first_name (l : list (list N * Z)) (n : list N) (z : Z) : Prop :=
  exists before after, l = before ++ (n, z) :: after /\ ~ In z (map snd before).
