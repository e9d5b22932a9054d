(** Reading documents with objects whose classes transform themselves (C81). *)
From Coq Require Import String.
From Verif Require Import Base Model_Scalars Model_Object Model_Clixml Model_FromHook Spec_Clixml Spec_Read.
Local Open Scope list_scope.

(** Elements within an element. *)
Inductive part_of : xml -> xml -> Prop :=
| PartSelf x : part_of x x
| PartKid x y z : In y (x_kids x) -> part_of z y -> part_of z x.
(** A method that leaves the reader's tables alone, keeps what is in the heap within the heap and returns something there. *)
Definition all_there (d : dst) : Prop :=
  (forall a, (a < d_next d)%N -> exists o, aget a (d_heap d) = Some o)
  /\ (forall a o b, aget a (d_heap d) = Some o -> mentions o (VRef b) -> (b < d_next d)%N)
  /\ (forall r a, sget r (d_refs d) = Some (VRef a) -> (a < d_next d)%N).
Definition discreet (f : dst -> N -> result (value * dst)) : Prop :=
  forall d a v d', f d a = Ok (v, d') -> d_refs d' = d_refs d /\ d_tns d' = d_tns d.
Definition obliging (f : dst -> N -> result (value * dst)) : Prop :=
  forall d a v d', all_there d -> (a < d_next d)%N -> f d a = Ok (v, d') ->
  all_there d' /\ (d_next d <= d_next d')%N /\ forall b, v = VRef b -> (b < d_next d')%N.
Definition calm (f : dst -> N -> result (value * dst)) : Prop := forall d a, raises ordinary (f d a).
(** No method for the classes these type names may stand for; the collections of Python have none. *)
Definition no_method (hooks : from_hooks) (reg : registry) (ns : list name) : Prop :=
  forall n r c, ns = n :: r -> reg n = Some c -> hooks c = None.
Definition plain_collections (hooks : from_hooks) : Prop :=
  hooks cls_dict = None /\ hooks cls_queue = None /\ forall k, hooks (cls_list k) = None.
(** In an element: the type names it gives in a TN element. *)
Definition gives_names (x : xml) (ns : list name) : Prop :=
  exists t, In t (x_kids x) /\ x_tag t = TgTN /\ type_texts (x_kids t) ns.
