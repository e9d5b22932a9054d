(** Documents of any depth (C82): the parts are read one after the other, and what has been read stays as it is. *)
From Coq Require Import String.
From Verif Require Import Base Model_Scalars Model_Object Model_Clixml Model_FromHook Spec_Clixml Spec_Read Spec_FromHook.
Local Open Scope list_scope.

(** No Obj element around another object or a reference: no serializer writes that. *)
Definition straight (x : xml) : Prop :=
  forall z y, part_of z x -> x_tag z = TgObj -> In y (x_kids z) -> x_tag y <> TgObj /\ x_tag y <> TgRef.
(** Objects made before the one given to a method stay as they are. *)
Definition sparing (f : dst -> N -> result (value * dst)) : Prop :=
  forall d a v d', f d a = Ok (v, d') -> (d_next d <= d_next d')%N /\ forall b, (b < a)%N -> (b < d_next d)%N -> aget b (d_heap d') = aget b (d_heap d).
(** Only the object at [a] is changed. *)
Definition filling (a : N) (d d' : dst) : Prop :=
  d_refs d' = d_refs d /\ d_tns d' = d_tns d /\ d_next d' = d_next d /\ forall b, b <> a -> aget b (d_heap d') = aget b (d_heap d).
(** The elements are read one after the other, each with what those before it left; in between only [a] changes. *)
Inductive one_by_one (read : dst -> xml -> result (value * dst)) (a : N) : dst -> list xml -> list value -> dst -> Prop :=
| ObNil d : one_by_one read a d [] [] d
| ObCons d x v d1 d2 l vs d' : read d x = Ok (v, d1) -> filling a d1 d2 -> one_by_one read a d2 l vs d' ->
    one_by_one read a d (x :: l) (v :: vs) d'.
(** Properties given in turn. *)
Inductive all_given : list (name * value) -> list (name * value) -> list (name * value) -> Prop :=
| GvNil e : all_given e [] e
| GvCons e e1 e2 n v l : put_prop n v e e1 -> all_given e1 l e2 -> all_given e ((n, v) :: l) e2.
Definition its_name (name_of : list N -> name -> Prop) (x : xml) (n : name) : Prop := exists s, named s x /\ name_of s n.
(** The reader at the start of an element's content: the object at [a] is there under the element's number, the type
    names under theirs, and everything else is as before. *)
Record begun (rid : option (list N)) (tn : option (list N * list name)) (a : N) (d d0 : dst) : Prop := {
  be_next : (d_next d <= a < d_next d0)%N;
  be_heap : forall b, (b < d_next d)%N -> aget b (d_heap d0) = aget b (d_heap d);
  be_own : forall k, rid = Some k -> sget k (d_refs d0) = Some (VRef a);
  be_refs : forall k, rid <> Some k -> sget k (d_refs d0) = sget k (d_refs d);
  be_name : forall r ns, tn = Some (r, ns) -> sget r (d_tns d0) = Some ns;
  be_names : forall r, (forall ns, tn <> Some (r, ns)) -> sget r (d_tns d0) = sget r (d_tns d) }.
(** The text of an object: a ToString element, or none. *)
Inductive says (name_of : list N -> name -> Prop) : list xml -> option (list N) -> Prop :=
| SaNone : says name_of [] None
| SaText b s k t : name_of s t -> says name_of [Elem TgToString b s k] (Some t).
(** Entries given in turn: a key and a value each. *)
Inductive all_entered : list (value * value) -> list (value * value) -> list (value * value) -> Prop :=
| EnNil e : all_entered e [] e
| EnCons e e1 e2 k v l : put_entry k v e e1 -> all_entered e1 l e2 -> all_entered e ((k, v) :: l) e2.
Definition its_key (x k : xml) : Prop := first_named (tx "Key") (x_kids x) k.
Definition its_value (x v : xml) : Prop := first_named (tx "Value") (x_kids x) v.
(** What a fresh object has: the type names and declared properties of its class, or prefixed names. *)
Definition names_read (reg : registry) (ns : list name) : list name := match registered reg ns with Some c => c_names c | None => map (fun n => tx "Deserialized." ++ n) ns end.
Definition declared (reg : registry) (pick : cls -> list name) (ns : list name) : list (name * value) :=
  match registered reg ns with Some c => map (fun n => (n, VNull)) (pick c) | None => [] end.
Definition loose_key (x : xml) : Prop := forall k, its_key x k -> x_tag k <> TgObj /\ x_tag k <> TgRef.

(** *** Elements as serializers write them: the type names, both groups of properties, the content, the text *)
Inductive typed_by (d : dst) : list xml -> list name -> option (list N * list name) -> Prop :=
| TyNone : typed_by d [] [] None
| TyHere r u ts ns : type_texts ts ns -> ns <> [] -> typed_by d [Elem TgTN [(AtRefId, r)] u ts] ns (Some (r, ns))
| TyAgain r u l ns : sget r (d_tns d) = Some ns -> typed_by d [Elem TgTNRef [(AtRefId, r)] u l] ns None.
Inductive in_group (t : tag) : list xml -> list xml -> Prop :=
| GrNone : in_group t [] []
| GrSome b u l : in_group t [Elem t b u l] l.
Definition its_kind (r : option cls) : option ckind := match r with Some c => Some (c_kind c) | None => None end.
Definition own_names (r : option cls) : list name := match r with Some c => c_names c | None => [] end.
Definition own_props (pick : cls -> list name) (r : option cls) : list (name * value) :=
  match r with Some c => map (fun n => (n, VNull)) (pick c) | None => [] end.
(** What an object has before anything is read into it. *)
Inductive empty_body (r : option cls) : body -> Prop :=
| EbPlain : its_kind r = None \/ its_kind r = Some CPlain -> empty_body r BPlain
| EbList k : its_kind r = Some (CList k) -> empty_body r (BList k [])
| EbQueue : its_kind r = Some CQueue -> empty_body r (BQueue [])
| EbTable : its_kind r = Some CDict -> empty_body r (BDict [])
| EbPrim p : its_kind r = Some (CPrim p) -> empty_body r (BPrim p).
(** Some elements are made into objects of another class than the one the type names name: a list of a class that is no
    list is an ordinary one. *)
Inductive made_as (r : option cls) (fits : ckind -> Prop) (other : cls) : cls -> Prop :=
| MaOwn c : r = Some c -> fits (c_kind c) -> made_as r fits other c
| MaOther : (forall c, r = Some c -> ~ fits (c_kind c)) -> made_as r fits other other.
(** The content of an element with the type names [ns], read into the object at [a]: its class (if it has one of its own),
    its body, the type names of the class. *)
Inductive content_read (read : dst -> xml -> result (value * dst)) (reg : registry) (ns : list name) (a : N) :
  list xml -> option cls -> dst -> body -> list name -> dst -> Prop :=
| CtNone b d : empty_body (registered reg ns) b -> content_read read reg ns a [] (registered reg ns) d b (own_names (registered reg ns)) d
| CtPrim x p d fresh : names_read reg ns <> [] -> (forall d, read d x = Ok (VPrim p, d)) -> content_read read reg ns a [x] None d (BPrim p) fresh d
| CtList k b u l c k' vs d d' : made_as (registered reg ns) (fun z => exists k, z = CList k) (mkC (CList k) (list_names k) [] []) c -> c_kind c = CList k' ->
    one_by_one read a d l vs d' -> content_read read reg ns a [Elem (TgList k) b u l] (Some c) d (BList k' vs) (c_names c) d'
| CtQueue b u l c vs d d' : made_as (registered reg ns) (fun z => z = CQueue) (mkC CQueue queue_names [] []) c ->
    one_by_one read a d l vs d' -> content_read read reg ns a [Elem TgQUE b u l] (Some c) d (BQueue vs) (c_names c) d'
| CtTable b u l c xk xv ks vs e d d' : made_as (registered reg ns) (fun z => z = CDict) (mkC CDict table_names [] []) c ->
    Forall2 its_key l xk -> Forall2 its_value l xv -> Forall2 (fun x k => forall d, read d x = Ok (k, d)) xk ks -> one_by_one read a d xv vs d' -> all_entered [] (combine ks vs) e ->
    content_read read reg ns a [Elem TgDCT b u l] (Some c) d (BDict e) (c_names c) d'.
(** The content itself: nothing, a value, a list, a queue, or a table whose keys are no objects. *)
Definition value_tag (t : tag) : Prop :=
  match t with TgObj | TgRef | TgNil | TgB | TgTN | TgTNRef | TgProps | TgMS | TgToString | TgList _ | TgQUE | TgDCT => False | _ => True end.
Inductive proper_content (reg : registry) (ns : list name) : list xml -> Prop :=
| PcNone : proper_content reg ns []
| PcPrim x : names_read reg ns <> [] -> value_tag (x_tag x) -> proper_content reg ns [x]
| PcList k b u l : Forall straight l -> proper_content reg ns [Elem (TgList k) b u l]
| PcQueue b u l : Forall straight l -> proper_content reg ns [Elem TgQUE b u l]
| PcTable b u l : Forall (fun x => straight x /\ loose_key x) l -> proper_content reg ns [Elem TgDCT b u l].
(** The type names of the document, if there are any. *)
Definition names_kept (reg : registry) (ns fresh : list name) : list name := match names_read reg ns with [] => fresh | l => l end.
