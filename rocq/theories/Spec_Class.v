(** What classes and instances have to satisfy, said without the model's helpers. *)
From Verif Require Import Base Model_Object Model_Class.

(** ** Callables *)
(** A signature as Python allows it: the kinds in order, and no parameter without default after one with a default among
    the positional ones. *)
Definition positional (p : param) : Prop := pa_kind p = PositionalOnly \/ pa_kind p = PositionalOrKeyword.
Definition signature (ps : list param) : Prop :=
  exists pos star kwonly rest,
    ps = pos ++ star ++ kwonly ++ rest
    /\ Forall positional pos /\ (star = [] \/ exists b, star = [mkParam VarPositional b])
    /\ Forall (fun p => pa_kind p = KeywordOnly) kwonly /\ (rest = [] \/ exists b, rest = [mkParam VarKeyword b])
    /\ (forall l p q r, pos = l ++ p :: q :: r -> pa_default p = true -> pa_default q = true).
(** Calling with [n] positional arguments: there is room for them, and every parameter left out has a default. *)
Definition takes (n : nat) (ps : list param) : Prop :=
  exists pos star kwonly rest,
    ps = pos ++ star ++ kwonly ++ rest
    /\ Forall positional pos /\ (star = [] \/ exists b, star = [mkParam VarPositional b])
    /\ Forall (fun p => pa_kind p = KeywordOnly) kwonly /\ (rest = [] \/ exists b, rest = [mkParam VarKeyword b])
    /\ (n <= length pos \/ star <> [])
    /\ Forall (fun p => pa_default p = true) (skipn n pos) /\ Forall (fun p => pa_default p = true) kwonly.
Definition keyword_required (ps : list param) : Prop := exists p, In p ps /\ pa_kind p = KeywordOnly /\ pa_default p = false.

Section S.
  Context {V T : Type}.
  Notation world := (world V T).
  (** ** Who holds what *)
  Inductive thing := ThObject (o : nat) | ThMeta (a : nat) | ThNames (a : nat) | ThList (a : nat) | ThInfo (a : nat).
  Inductive in_meta (w : world) (a : nat) : thing -> Prop :=
  | im_meta : in_meta w a (ThMeta a)
  | im_names m : nth_error (w_metas w) a = Some m -> in_meta w a (ThNames (m_names m))
  | im_list m l : nth_error (w_metas w) a = Some m -> l = m_adapted m \/ l = m_extended m -> in_meta w a (ThList l)
  | im_info m l x i : nth_error (w_metas w) a = Some m -> l = m_adapted m \/ l = m_extended m ->
      nth_error (w_lists w) l = Some x -> In i x -> in_meta w a (ThInfo i).
  (** The things an instance, or a class, is made of. *)
  Definition of_object (w : world) (o : nat) (x : thing) : Prop :=
    exists ob, nth_error (w_objects w) o = Some ob /\ (x = ThObject o \/ in_meta w (ob_meta ob) x).
  Definition of_class (w : world) (x : thing) : Prop :=
    exists c k a, nth_error (w_classes w) c = Some k /\ c_meta k = Some a /\ in_meta w a x.
  (** No address dangles. *)
  Definition sound (w : world) : Prop :=
    Forall (fun ob => ob_meta ob < length (w_metas w) /\ ob_class ob < length (w_classes w)) (w_objects w)
    /\ Forall (fun k => (forall a, c_meta k = Some a -> a < length (w_metas w))
                        /\ Forall (fun c => c < length (w_classes w)) (c_mro k)) (w_classes w)
    /\ Forall (fun m => m_names m < length (w_names w) /\ m_adapted m < length (w_lists w)
                        /\ m_extended m < length (w_lists w)) (w_metas w)
    /\ Forall (Forall (fun i => i < length (w_infos w))) (w_lists w).
  (** Instances share nothing with each other nor with classes. *)
  Definition apart (w : world) : Prop :=
    sound w
    /\ (forall o1 o2 x, of_object w o1 x -> of_object w o2 x -> o1 = o2)
    /\ (forall o x, of_object w o x -> ~ of_class w x).
  (** What can be seen of an instance: its attributes, its type names, the names of its properties. *)
  Definition type_names (w : world) (o : nat) (l : list name) : Prop :=
    exists ob m, nth_error (w_objects w) o = Some ob /\ nth_error (w_metas w) (ob_meta ob) = Some m
                 /\ nth_error (w_names w) (m_names m) = Some l.
  (** The properties in a list. *)
  Definition contents (w : world) (l : nat) (ps : list (info V T)) : Prop :=
    exists x, nth_error (w_lists w) l = Some x /\ Forall2 (fun i p => nth_error (w_infos w) i = Some p) x ps.
  Definition properties (w : world) (o : nat) (ads exs : list (info V T)) : Prop :=
    exists ob m, nth_error (w_objects w) o = Some ob /\ nth_error (w_metas w) (ob_meta ob) = Some m
                 /\ contents w (m_adapted m) ads /\ contents w (m_extended m) exs.
  (** The same of a class: the PSObjectMeta found on the first ancestor that has one. *)
  Inductive found (w : world) : list nat -> nat -> Prop :=
  | found_here c k a t : nth_error (w_classes w) c = Some k -> c_meta k = Some a -> found w (c :: t) a
  | found_later c k a t : nth_error (w_classes w) c = Some k -> c_meta k = None -> found w t a -> found w (c :: t) a.
  Definition class_has (w : world) (c : nat) (m : meta) : Prop :=
    exists k a, nth_error (w_classes w) c = Some k /\ found w (c_mro k) a /\ nth_error (w_metas w) a = Some m.
  Definition class_looks (w : world) (c : nat) (l : list name) (ads exs : list (info V T)) : Prop :=
    exists m, class_has w c m /\ nth_error (w_names w) (m_names m) = Some l
              /\ contents w (m_adapted m) ads /\ contents w (m_extended m) exs.

  (** ** Programs that keep to the rules *)
  Notation op := (op V T).
  (** The property objects and lists a program puts into classes and instances are its own: not taken out of an instance,
      and a property object given to an instance is not given to anything else. *)
  Definition no_object (w : world) (x : thing) : Prop := forall o, ~ of_object w o x.
  Definition list_free (w : world) (a : option nat) : Prop :=
    forall l, a = Some l -> l < length (w_lists w) /\ no_object w (ThList l)
      /\ forall x i, nth_error (w_lists w) l = Some x -> In i x -> no_object w (ThInfo i).
  Definition clean (w : world) (x : op) : Prop :=
    match x with
    | PList l => Forall (fun i => i < length (w_infos w)) l
    | PClass bases _ d =>
      Forall (fun c => c < length (w_classes w)) bases
      /\ match d with
         | None => True
         | Some d => list_free w (d_adapted d) /\ list_free w (d_extended d)
                     /\ forall l, d_names d = Some l -> l < length (w_names w) /\ no_object w (ThNames l)
         end
    | PAttach (TObject o) a _ => ~ of_class w (ThInfo a) /\ forall o', o' <> o -> ~ of_object w o' (ThInfo a)
    | PAttach (TClass _) a _ => no_object w (ThInfo a)
    | _ => True
    end.
  (** The instances an operation is about. *)
  Definition touches (w : world) (x : op) (o : nat) : Prop :=
    match x with
    | PWrite o' _ _ | PAttach (TObject o') _ _ | PRename o' _ => o' = o
    | PGetter a _ | PSetter a _ => of_object w o (ThInfo a)
    | _ => False
    end.
  (** The classes an operation is about: those whose lists it is given, or whose extended list it adds to, or whose
      property object it edits. *)
  Definition uses_list (w : world) (c : nat) (l : nat) : Prop :=
    exists m, class_has w c m /\ (l = m_adapted m \/ l = m_extended m).
  Definition touches_class (w : world) (x : op) (c : nat) : Prop :=
    match x with
    | PAttach (TClass c') _ _ => exists m, class_has w c' m /\ uses_list w c (m_extended m)
    | PClass _ _ (Some d) =>
      (exists l, (d_adapted d = Some l \/ d_extended d = Some l) /\ uses_list w c l)
      \/ (exists m, class_has w c m /\ d_names d = Some (m_names m))
    | PGetter a _ | PSetter a _ => exists l y, uses_list w c l /\ nth_error (w_lists w) l = Some y /\ In a y
    | _ => False
    end.
  (** Along a program, with [go] doing one operation. *)
  Fixpoint always (go : world -> op -> world) (P : world -> op -> Prop) (w : world) (xs : list op) : Prop :=
    match xs with [] => True | x :: t => P w x /\ always go P (go w x) t end.

  (** ** Constructors *)
  (** The names of the properties of two lists in order, each once. *)
  Inductive parameters : list name -> list name -> Prop :=
  | par_nil : parameters [] []
  | par_new l ps k : parameters l ps -> ~ In k l -> parameters (l ++ [k]) (ps ++ [k])
  | par_old l ps k : parameters l ps -> In k l -> parameters (l ++ [k]) ps.
  (** The value a call gives to a parameter: by position or by keyword. *)
  Definition gives (ps : list name) (args : list V) (kw : list (name * V)) (k : name) (v : V) : Prop :=
    (exists i, nth_error ps i = Some k /\ nth_error args i = Some v) \/ In (k, v) kw.
  (** The property a name stands for: the extended one if there is one. *)
  Definition decides (ads exs : list (info V T)) (k : name) (p : info V T) : Prop :=
    i_name p = k /\ (In p exs \/ (In p ads /\ ~ In k (map i_name exs))).
  (** No ancestor of the class answers a name: no method, no class attribute. *)
  Definition unanswered (w : world) (c : nat) (k : name) : Prop :=
    forall cl a x, nth_error (w_classes w) c = Some cl -> In a (c_mro cl) -> nth_error (w_classes w) a = Some x ->
    c_attrs x k = None.
  (** A property that just holds a value. *)
  Definition plain (p : info V T) : Prop := i_getter p = None /\ i_setter p = None.
  (** A property as a constructor call made it: nothing was assigned to its getter or setter afterwards. *)
  Definition made (cast : T -> V -> result V) (is_none : V -> bool) (p : info V T) : Prop :=
    (exists k v mandatory ty, note_property V T cast is_none k v mandatory ty = Ok p)
    \/ (exists k t ty, p = alias_property k t ty)
    \/ (exists k g s mandatory ty, script_property k g s mandatory ty = Ok p).
  (** A call the constructor accepts: no more positional values than parameters, none given twice, no unknown name, every
      mandatory parameter given, every value accepted by the type of its property ([casts]). *)
  Definition accepted (casts : option T -> V -> Prop) (ads exs : list (info V T)) (ps : list name) (args : list V)
      (kw : list (name * V)) : Prop :=
    length args <= length ps
    /\ (forall i k, nth_error ps i = Some k -> i < length args -> ~ In k (map fst kw))
    /\ (forall k, In k (map fst kw) -> In k ps)
    /\ (forall k p, decides ads exs k p -> i_mandatory p = true -> exists v, gives ps args kw k v)
    /\ (forall k v p, gives ps args kw k v -> decides ads exs k p -> casts (i_type p) v).

  (** ** Type names *)
  (** The type names of what a question is about; of classes and instances, the first name only. *)
  Inductive asked (w : world) : wanted -> name -> Prop :=
  | ask_name n : asked w (WName n) n
  | ask_object o l n : type_names w o (n :: l) -> asked w (WTarget (TObject o)) n
  | ask_class c m l n : class_has w c m -> nth_error (w_names w) (m_names m) = Some (n :: l) -> asked w (WTarget (TClass c)) n.
  (** The list a declaration is given, if any. *)
  Definition given_names (w : world) (a : option nat) (l : list name) : Prop :=
    match a with None => l = [] | Some i => nth_error (w_names w) i = Some l end.
  Definition given_properties (w : world) (a : option nat) (ps : list (info V T)) : Prop :=
    match a with None => ps = [] | Some i => contents w i ps end.
  (** The lists a declaration is given are three different ones and not those of a class it is based on. *)
  Definition own_lists (d : decl) (m : meta) : Prop :=
    d_names d <> Some (m_names m)
    /\ (forall i, d_adapted d = Some i -> i <> m_adapted m /\ i <> m_extended m /\ d_extended d <> Some i)
    /\ (forall i, d_extended d = Some i -> i <> m_adapted m /\ i <> m_extended m).
  (** Questions that can be answered: those about a class or an instance with at least one type name, or a string; anything
      else is ignored. *)
  Definition answerable (w : world) (x : wanted) : Prop := x = WOther \/ exists n, asked w x n.
End S.
(** The name without one prefix "Deserialized.". *)
Definition prefix : name := [68; 101; 115; 101; 114; 105; 97; 108; 105; 122; 101; 100; 46]%N.
Definition bare (n b : name) : Prop := n = prefix ++ b \/ (n = b /\ ~ exists t, n = prefix ++ t).
Definition matches (ignore : bool) (n x : name) : Prop :=
  if ignore then exists b, bare n b /\ bare x b else n = x.
