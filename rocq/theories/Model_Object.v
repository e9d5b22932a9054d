(** PSObject properties: src/psrpcore/types/_base.py.  Values and property types are abstract; a name is its code
    points. *)
From Verif Require Import Base.

Definition name := list N.
Definition name_eqb (a b : name) : bool := list_eqb N.eqb a b.

Section Object.
  Variable V : Type.                        (* values *)
  Variable T : Type.                        (* ps_type classes *)
  Variable cast : T -> V -> result V.       (* value if isinstance(value, t) else t(value) *)
  Variable none : V.                        (* None *)

  (** PSNoteProperty and PSAliasProperty, lines 422-490.  A note holds None for _UnsetValue.  Script properties
      (arbitrary callables) are left out. *)
  Inductive prop_kind := Note (ty : option T) (v : option V) | Alias (ty : option T) (target : name).
  Record prop := mkProp { p_name : name; p_kind : prop_kind }.

  (** An instance: its raw __dict__, the two property lists, and what the class (methods, Python properties)
      answers for a name. *)
  Record obj := mkObj {
    o_dict : list (name * V);
    o_class : name -> option V;
    o_adapted : list prop;
    o_extended : list prop }.

  (** _cast, lines 369-375: None is never cast; a None result of Note None stands for _UnsetValue. *)
  Variable is_none : V -> bool.
  Definition cast_opt (ty : option T) (v : V) : result V :=
    match ty with
    | Some t => if is_none v then Ok v else cast t v
    | None => Ok v
    end.

  Fixpoint dict_get (d : list (name * V)) (k : name) : option V :=
    match d with [] => None | (n, v) :: t => if name_eqb n k then Some v else dict_get t k end.
  Fixpoint dict_set (d : list (name * V)) (k : name) (v : V) : list (name * V) :=
    match d with
    | [] => [(k, v)]
    | (n, w) :: t => if name_eqb n k then (n, v) :: t else (n, w) :: dict_set t k v
    end.

  (** The first property with a name (write side, lines 652-657) and the last one (read side, lines 669-673). *)
  Fixpoint find_first (k : name) (ps : list prop) : option prop :=
    match ps with [] => None | p :: t => if name_eqb (p_name p) k then Some p else find_first k t end.
  Fixpoint find_last (k : name) (ps : list prop) : option prop :=
    match ps with
    | [] => None
    | p :: t => match find_last k t with
                | Some q => Some q
                | None => if name_eqb (p_name p) k then Some p else None
                end
    end.
  Fixpoint update_first (k : name) (q : prop) (ps : list prop) : list prop :=
    match ps with
    | [] => []
    | p :: t => if name_eqb (p_name p) k then q :: t else p :: update_first k q t
    end.

  (** set_value, lines 342-367: an alias has a getter and no setter. *)
  Definition set_value (p : prop) (v : V) : result prop :=
    match p_kind p with
    | Note ty _ => let! w := cast_opt ty v in Ok (mkProp (p_name p) (Note ty (Some w)))
    | Alias _ _ => Err ValueError
    end.

  (** __setattr__, lines 639-661.  Setting a name that the class answers with a data descriptor is not modelled. *)
  Definition setattr (o : obj) (k : name) (v : V) : result obj :=
    match dict_get (o_dict o) k with
    | Some _ => Ok (mkObj (dict_set (o_dict o) k v) (o_class o) (o_adapted o) (o_extended o))
    | None =>
      match find_first k (o_extended o) with
      | Some p => let! q := set_value p v in
                  Ok (mkObj (o_dict o) (o_class o) (o_adapted o) (update_first k q (o_extended o)))
      | None =>
        match find_first k (o_adapted o) with
        | Some p => let! q := set_value p v in
                    Ok (mkObj (o_dict o) (o_class o) (update_first k q (o_adapted o)) (o_extended o))
        | None => Ok (mkObj (dict_set (o_dict o) k v) (o_class o) (o_adapted o) (o_extended o))
        end
      end
    end.

  (** __getattribute__, lines 663-692 (not for __dict__): instance and class attributes first, then extended, then
      adapted properties.  (Python lets a data descriptor of the class come before the instance's attribute: not
      modelled.)  [fuel] bounds alias chains: Python raises RecursionError on a cycle. *)
  Definition find_property (o : obj) (k : name) : option prop :=
    match find_last k (o_extended o) with Some p => Some p | None => find_last k (o_adapted o) end.
  Fixpoint getattr (fuel : nat) (o : obj) (k : name) : result V :=
    match fuel with
    | O => Err RuntimeError
    | S f =>
      match dict_get (o_dict o) k with
      | Some v => Ok v
      | None =>
        match o_class o k with
        | Some v => Ok v
        | None =>
          match find_property o k with
          | None => Err AttributeError
          | Some p => match p_kind p with
                      | Note _ (Some v) => Ok v
                      | Note _ None => Ok none
                      | Alias ty t => let! v := getattr f o t in cast_opt ty v
                      end
          end
        end
      end
    end.

  (** add_member, lines 836-879. *)
  Definition has_name (k : name) (ps : list prop) : bool := existsb (fun p => name_eqb (p_name p) k) ps.
  (** The index the dict comprehension of line 867 keeps: the last one. *)
  Fixpoint last_index (k : name) (ps : list prop) (i : nat) : option nat :=
    match ps with
    | [] => None
    | p :: t => match last_index k t (S i) with
                | Some j => Some j
                | None => if name_eqb (p_name p) k then Some i else None
                end
    end.
  Definition pop_at {A} (i : nat) (l : list A) : list A := firstn i l ++ skipn (S i) l.
  Definition insert_at {A} (i : nat) (x : A) (l : list A) : list A := firstn i l ++ x :: skipn i l.
  Definition add_member (o : obj) (p : prop) (force : bool) : result obj :=
    let k := p_name p in
    if has_name k (o_adapted o) || has_name k (o_extended o) then
      if negb force then Err RuntimeError
      else match last_index k (o_extended o) 0 with
           | Some i => Ok (mkObj (o_dict o) (o_class o) (o_adapted o) (insert_at i p (pop_at i (o_extended o))))
           | None => Ok (mkObj (o_dict o) (o_class o) (o_adapted o)
                               (insert_at (length (o_extended o)) p (o_extended o)))
           end
    else Ok (mkObj (o_dict o) (o_class o) (o_adapted o) (insert_at (length (o_extended o)) p (o_extended o))).
  (** add_note_property, lines 904-924: the value is cast when the property is created (line 264). *)
  Definition new_note (k : name) (ty : option T) (v : V) : result prop :=
    let! w := cast_opt ty v in Ok (mkProp k (Note ty (Some w))).

  (** Operations on one object; a failing one leaves it as it was. *)
  Inductive op :=
  | OSet (k : name) (v : V)
  | OAddNote (k : name) (ty : option T) (v : V) (force : bool)
  | OAddAlias (k : name) (ty : option T) (target : name) (force : bool).
  Definition apply (o : obj) (x : op) : result obj :=
    match x with
    | OSet k v => setattr o k v
    | OAddNote k ty v force => let! p := new_note k ty v in add_member o p force
    | OAddAlias k ty t force => add_member o (mkProp k (Alias ty t)) force
    end.
  Definition step (o : obj) (x : op) : obj := match apply o x with Ok o' => o' | Err _ => o end.
  Definition run (o : obj) (xs : list op) : obj := fold_left step xs o.
End Object.
Arguments Note {V T}. Arguments Alias {V T}. Arguments mkProp {V T}. Arguments p_name {V T}. Arguments p_kind {V T}.
Arguments mkObj {V T}. Arguments o_dict {V T}. Arguments o_class {V T}. Arguments o_adapted {V T}. Arguments o_extended {V T}.
Arguments OSet {V T}. Arguments OAddNote {V T}. Arguments OAddAlias {V T}.
Arguments has_name {V T}. Arguments find_first {V T}. Arguments find_last {V T}. Arguments update_first {V T}.
Arguments last_index {V T}. Arguments dict_get {V}. Arguments dict_set {V}. Arguments find_property {V T}.
