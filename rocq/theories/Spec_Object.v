(** What object properties have to satisfy, said without the model's lookup helpers. *)
From Verif Require Import Base Model_Object.

Section S.
  Context {V T : Type}.
  Definition names (ps : list (prop V T)) : list name := map p_name ps.
  (** At most one property per name in each list. *)
  Definition distinct (o : obj V T) : Prop := NoDup (names (o_adapted o)) /\ NoDup (names (o_extended o)).
  (** A name the class itself does not answer. *)
  Definition not_class (o : obj V T) (k : name) : Prop := o_class o k = None.
  (** The name an operation is about. *)
  Definition op_name (x : op V T) : name :=
    match x with OSet k _ => k | OAddNote k _ _ _ => k | OAddAlias k _ _ _ => k end.
  (** Property [p] is the one a name stands for: extended if there is one, else adapted. *)
  Definition stands_for (o : obj V T) (k : name) (p : prop V T) : Prop :=
    p_name p = k /\ ~ In k (map fst (o_dict o)) /\
    (In p (o_extended o) \/ (~ In k (names (o_extended o)) /\ In p (o_adapted o))).
  (** The type declared for a name: values written to it are cast to that type. *)
  Definition declared (o : obj V T) (k : name) (ty : option T) : Prop :=
    (exists w, stands_for o k (mkProp k (Note ty w))) \/
    (ty = None /\ (In k (map fst (o_dict o)) \/ (~ In k (names (o_extended o)) /\ ~ In k (names (o_adapted o))))).
  (** Reading [j] goes through [k]: directly or along aliases. *)
  Inductive reaches (o : obj V T) : name -> name -> Prop :=
  | reach_self k : reaches o k k
  | reach_alias j ty t k : not_class o j -> stands_for o j (mkProp j (Alias ty t)) -> reaches o t k -> reaches o j k.
End S.
