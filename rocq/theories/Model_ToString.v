(** The text of an object: PSObjectMeta.to_string, src/psrpcore/types/_base.py:138-167, PSObject.__str__ and __repr__,
    lines 719-731, and the ToString element, types/_serializer.py:934-943. *)
From Verif Require Import Base Model_Object.

(** What the code of a __str__ method may do: end, go on with super().__str__(), ask self.PSObject.to_string, or look at
    self.PSObject._to_string.  What it is given back may be an exception, which it may catch. *)
Inductive code :=
| CEnd (r : result (list N))
| CSuper (next : result (list N) -> code)
| CMeta (next : result (option (list N)) -> code)
| CExplicit (next : option (list N) -> code).
(** A class of type(instance).__mro__: whether it is PSObject, and "__str__" of its __dict__. *)
Record layer := mkLayer { y_ps : bool; y_str : option code }.
(** An instance: its class's __mro__ and the text set on its PSObjectMeta, line 135.  A new instance has none: set_instance,
    lines 168-190, copies the names, the properties and rehydrate only. *)
Record thing := mkThing { t_mro : list layer; t_explicit : option (list N) }.
Definition new_thing (mro : list layer) (class_text : option (list N)) : thing := mkThing mro None.
(** The setter, lines 161-167. *)
Definition set_text (o : thing) (t : list N) : thing := mkThing (t_mro o) (Some t).

(** PSObject.__str__, lines 719-724: the property is read twice. *)
Definition ps_code : code :=
  CMeta (fun r => match r with
    | Err e => CEnd (Err e)
    | Ok None => CSuper CEnd
    | Ok (Some _) => CMeta (fun r => CEnd match r with Ok (Some t) => Ok t | Ok None => Err TypeError | Err e => Err e end)
    end).
(** The loop of lines 152-157: is there a __str__ before PSObject? *)
Fixpoint own_text (l : list layer) : bool :=
  match l with
  | [] => false
  | y :: t => if y_ps y then false else match y_str y with Some _ => true | None => own_text t end
  end.
(** The next __str__ in an mro, and what is behind it. *)
Fixpoint next_str (l : list layer) : option (code * list layer) :=
  match l with
  | [] => None
  | y :: t => match y_str y with Some c => Some (c, t) | None => next_str t end
  end.
Section Run.
  Variable super : result (list N).
  Variable meta : result (option (list N)).
  Variable explicit : option (list N).
  Fixpoint run (c : code) : result (list N) :=
    match c with
    | CEnd r => r
    | CSuper k => run (k super)
    | CMeta k => run (k meta)
    | CExplicit k => run (k explicit)
    end.
End Run.
(** str(instance) from the layers [l] on, and the property, lines 139-159.  [fuel] bounds the depth of calls: Python raises
    RecursionError, a RuntimeError. *)
Fixpoint str_from (fuel : nat) (o : thing) (l : list layer) : result (list N) :=
  match fuel with
  | O => Err RuntimeError
  | S f =>
    match next_str l with
    | None => Err AttributeError
    | Some (c, rest) =>
      run (str_from f o rest)
          match t_explicit o with
          | Some t => Ok (Some t)
          | None => if own_text (t_mro o) then let! t := str_from f o (t_mro o) in Ok (Some t) else Ok None
          end
          (t_explicit o) c
    end
  end.
Definition str_of (fuel : nat) (o : thing) : result (list N) := str_from fuel o (t_mro o).
Definition to_string (fuel : nat) (o : thing) : result (option (list N)) :=
  match t_explicit o with
  | Some t => Ok (Some t)
  | None => if own_text (t_mro o) then let! t := str_of fuel o in Ok (Some t) else Ok None
  end.
(** Lines 939-943 of the serializer, for an object that is no enumeration, container or primitive. *)
Definition sent_text (fuel : nat) (o : thing) : result (option (list N)) :=
  let! s := to_string fuel o in
  Ok match s with Some (c :: t) => Some (c :: t) | _ => None end.
(** Lines 1075-1149 of the serializer: a new instance of some class, with the text of the ToString element if there is one. *)
Definition received (mro : list layer) (s : option (list N)) : thing :=
  match s with Some t => set_text (new_thing mro None) t | None => new_thing mro None end.

(** PSObject.__repr__, lines 726-731: [shows] are the names with the repr of their values. *)
Definition repr_entries (adapted extended : list (name * list N)) : list (name * list N) :=
  fold_left (fun d p => dict_set d (fst p) (snd p)) extended
    (fold_left (fun d p => dict_set d (fst p) (snd p)) adapted []).
Fixpoint joined (l : list (name * list N)) : list N :=
  match l with
  | [] => []
  | [(k, v)] => k ++ [61%N] ++ v
  | (k, v) :: t => k ++ [61%N] ++ v ++ [44; 32]%N ++ joined t
  end.
Definition repr_of (class : list N) (adapted extended : list (name * list N)) : list N :=
  class ++ [40%N] ++ joined (repr_entries adapted extended) ++ [41%N].
