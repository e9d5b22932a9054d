(** Vocabulary for documents of any writer (C63). *)
From Coq Require Import String.
From Verif Require Import Base Model_Scalars Model_Object Model_Clixml Spec_Clixml.
Local Open Scope list_scope.

(** The exceptions that reading may raise: RuntimeError stands for UnboundLocalError. *)
Definition ordinary : list err := [ValueError; KeyError; TypeError; AttributeError; OverflowError; UnicodeError; RuntimeError].
Definition raises {A} (es : list err) (r : result A) : Prop := match r with Ok _ => True | Err e => In e es end.

(** Elements that are no value. *)
Definition no_value (t : tag) : Prop :=
  match t with TgTN | TgT | TgTNRef | TgProps | TgMS | TgList _ | TgQUE | TgDCT | TgEn | TgOther _ => True | _ => False end.
(** Values other than objects. *)
Definition flat (x : xml) : Prop := x_tag x <> TgObj.
Definition list_names (k : list_kind) : list name :=
  map tx match k with
  | LStack => ["System.Collections.Stack"; "System.Object"]
  | LList => ["System.Collections.ArrayList"; "System.Object"]
  | LIE => ["System.Collections.IEnumerable"; "System.Object"]
  end%string.
Definition queue_names : list name := [tx "System.Collections.Queue"; tx "System.Object"].
Definition table_names : list name := [tx "System.Collections.Hashtable"; tx "System.Object"].
Definition named (n : list N) (x : xml) : Prop := attr_get AtN (x_attrs x) = Some n.
Definition first_named (n : list N) (l : list xml) (x : xml) : Prop :=
  exists pre post, l = pre ++ x :: post /\ named n x /\ Forall (fun y => ~ named n y) pre.

(** The type names in a TN element are the texts of its T elements, whatever else is there. *)
Inductive type_texts : list xml -> list name -> Prop :=
| TtNil : type_texts [] []
| TtName a n k l ns : type_texts l ns -> type_texts (Elem TgT a n k :: l) (n :: ns)
| TtOther x l ns : x_tag x <> TgT -> type_texts l ns -> type_texts (x :: l) ns.

(** A dictionary keeps the first of equal keys at its place, with the last value; two secrets are never equal. *)
Definition same_key (k l : value) : Prop := equal_keys k l /\ forall s, k <> VPrim (PSecure s).
Inductive put_entry (k v : value) : list (value * value) -> list (value * value) -> Prop :=
| PutNew e : Forall (fun x => ~ same_key (fst x) k) e -> put_entry k v e (e ++ [(k, v)])
| PutOver pre k' w post : Forall (fun x => ~ same_key (fst x) k) pre -> same_key k' k ->
    put_entry k v (pre ++ (k', w) :: post) (pre ++ (k', v) :: post).
Inductive entries (read : xml -> value -> Prop) : list (value * value) -> list xml -> list (value * value) -> Prop :=
| EntNil e : entries read e [] e
| EntCons e e1 e2 x l xk xv k v : first_named (tx "Key") (x_kids x) xk -> first_named (tx "Value") (x_kids x) xv ->
    read xk k -> read xv v -> put_entry k v e e1 -> entries read e1 l e2 -> entries read e (x :: l) e2.
(** So do properties. *)
Inductive put_prop (n : name) (v : value) : list (name * value) -> list (name * value) -> Prop :=
| PropNew e : ~ In n (map fst e) -> put_prop n v e (e ++ [(n, v)])
| PropOver pre w post : ~ In n (map fst pre) -> put_prop n v (pre ++ (n, w) :: post) (pre ++ (n, v) :: post).
(** [name_of s n]: the attribute N=[s] names the property [n] (C13: escaped characters). *)
Inductive props (name_of : list N -> name -> Prop) (read : xml -> value -> Prop) :
  list (name * value) -> list xml -> list (name * value) -> Prop :=
| PrNil e : props name_of read e [] e
| PrCons e e1 e2 x l s n v : named s x -> name_of s n -> read x v -> put_prop n v e e1 -> props name_of read e1 l e2 ->
    props name_of read e (x :: l) e2.
