(** FromPSObjectForRemoting inside documents: src/psrpcore/types/_serializer.py:1168-1173, around Model_Clixml.read_object.

    A class that has the method transforms the object just read, and the result takes its place, also in the table of
    references.  The class is the one of the fresh instance that was filled.  An Obj element whose content is another
    object (no serializer writes that) keeps the inner object, whose class is not known here: no method is called for it. *)
From Coq Require Import String.
From Verif Require Import Base Model_Scalars Model_Strings Model_Object Model_Clixml.
Local Open Scope list_scope.

(** [f d a]: what the method of a class returns for the object at [a]. *)
Definition from_hooks := cls -> option (dst -> N -> result (value * dst)).
Section Hooked.
  Variable hooks : from_hooks.
  Variable reg : registry.
  Section Element.
    Variable go : dst -> xml -> result (value * dst).
    (** type(value) after the children, lines 1059-1146. *)
    Definition class_read (d : dst) (attrs : list (attr * list N)) (kids : list xml) : option cls :=
      let rid := attr_get AtRefId attrs in
      match read_names d kids with
      | Err _ => None
      | Ok rn =>
        let '(v0, c0, en, original, d1) := rehydrate reg (snd rn) (fst rn) rid in
        match read_children go rid en (mkL d1 v0 c0 None None None) kids with Ok l => l_cls l | Err _ => None end
      end.
    (** Lines 1168-1175. *)
    Definition transform (rid : option (list N)) (c : option cls) (r : value * dst) : result (value * dst) :=
      match c, fst r with
      | Some c, VRef a =>
        match hooks c with
        | Some f => let! q := f (snd r) a in Ok (fst q, update_ref (snd q) rid (fst q))
        | None => Ok r
        end
      | _, _ => Ok r
      end.
    Definition read_hooked (d : dst) (attrs : list (attr * list N)) (kids : list xml) : result (value * dst) :=
      let! r := read_object reg go d attrs kids in
      transform (attr_get AtRefId attrs) (class_read d attrs kids) r.
  End Element.
  (** deserialize, lines 970-1175, as in Model_Clixml.v. *)
  Fixpoint hdeser (fuel : nat) (d : dst) (x : xml) : result (value * dst) :=
    match fuel with
    | 0 => Err OutOfFuel
    | S f =>
      match x_tag x with
      | TgObj => read_hooked (hdeser f) d (x_attrs x) (x_kids x)
      | _ => deser reg (S f) d x
      end
    end.
  Definition hdeserialize (d : dst) (x : xml) : result (value * dst) := hdeser (height x) d x.
  Fixpoint hread_values (d : dst) (xs : list xml) : result (list value * dst) :=
    match xs with
    | [] => Ok ([], d)
    | x :: t => let! r := hdeserialize d x in let! r' := hread_values (snd r) t in Ok (fst r :: fst r', snd r')
    end.
End Hooked.
(** A method that makes one new object out of the one it is given, as those of ErrorRecord and InformationalRecord do
    (types/_complex.py:814-835, 937-960). *)
Definition makes_new (g : gobj -> result gobj) (d : dst) (a : N) : result (value * dst) :=
  match aget a (d_heap d) with
  | Some o => let! o' := g o in let (b, d') := alloc d o' in Ok (VRef b, d')
  | None => Err RuntimeError
  end.
(** A method that also changes the object's exception: ErrorRecord.FromPSObjectForRemoting adds the invocation info to it
    as a note property, types/_complex.py:837-840.  Both are looked up among the extended properties, where the serializer
    puts them (lines 868-871); an exception that is no object has no PSObject to add to. *)
Definition notes_exception (g : gobj -> result gobj) (d : dst) (a : N) : result (value * dst) :=
  match aget a (d_heap d) with
  | Some o =>
    match sget (tx "Exception") (g_extended o), sget (tx "InvocationInfo") (g_extended o) with
    | Some (VRef e), Some i => makes_new g (modify d e (add_extended (tx "SerializedRemoteInvocationInfo") i)) a
    | _, _ => Err AttributeError
    end
  | None => Err RuntimeError
  end.
