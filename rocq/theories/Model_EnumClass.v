(** Classes of enumerations: PSEnumMeta.__prepare__ and __new__, src/psrpcore/types/_enum.py:31-70, on top of Python's EnumMeta.
    A member is declared with what PSIntegerBase may be given; tuples and auto() are left out, and flags (PSFlagBase), whose
    combinations are no members. *)
From Verif Require Import Base Model_Scalars.

Record enum_class := { en_base : int_type; en_declared : list (list N * Z); en_members : list (list N * Z) }.
Definition name_in (n : list N) (l : list (list N * int_arg)) : bool := existsb (fun x => list_eqb N.eqb (fst x) n) l.
(** A name is used again: _EnumDict.__setitem__ *)
Fixpoint reused (body : list (list N * int_arg)) : bool :=
  match body with [] => false | (n, _) :: t => name_in n t || reused t end.
(** Lines 53-58, once for each member: base_type(val). *)
Fixpoint cast_all (t : int_type) (body : list (list N * int_arg)) : result (list (list N * Z)) :=
  match body with
  | [] => Ok []
  | (n, a) :: rest => let! z := new_int t a in let! r := cast_all t rest in Ok ((n, z) :: r)
  end.
(** EnumMeta: a value that is there makes the new name an alias. *)
Fixpoint without_aliases (seen : list Z) (l : list (list N * Z)) : list (list N * Z) :=
  match l with
  | [] => []
  | (n, z) :: t => if existsb (Z.eqb z) seen then without_aliases seen t else (n, z) :: without_aliases (z :: seen) t
  end.
(** Lines 49-51: the base_type given, [None] if there is none, [Some None] if it is no integer type; PSInt otherwise. *)
Definition base_type (kw : option (option int_type)) : result int_type :=
  match kw with None => Ok TInt32 | Some (Some t) => Ok t | Some None => Err TypeError end.
Definition make_enum (kw : option (option int_type)) (body : list (list N * int_arg)) : result enum_class :=
  if reused body then Err TypeError
  else let! t := base_type kw in
       let! l := cast_all t body in
       Ok {| en_base := t; en_declared := l; en_members := without_aliases [] l |}.
(** class Child(Parent, base_type=...): only a class without members can be derived from, and its base type is not looked at. *)
Definition derive_enum (parent : enum_class) (kw : option (option int_type)) (body : list (list N * int_arg)) : result enum_class :=
  match en_members parent with [] => make_enum kw body | _ => Err TypeError end.
(** cls(value) and cls[name], the name of the member that is found; line 1068 of _serializer.py uses the former. *)
Definition of_value (c : enum_class) (z : Z) : result (list N) :=
  match find (fun x => (snd x =? z)%Z) (en_members c) with Some (n, _) => Ok n | None => Err ValueError end.
Definition of_name (c : enum_class) (n : list N) : result (list N) :=
  match find (fun x => list_eqb N.eqb (fst x) n) (en_declared c) with Some (_, z) => of_value c z | None => Err KeyError end.
