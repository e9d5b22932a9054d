(** Vocabulary for the texts of objects (C72). *)
From Verif Require Import Base Model_Object Model_ToString.

(** Classes without a text of their own. *)
Definition silent (l : list layer) : Prop := Forall (fun y => y_ps y = false /\ y_str y = None) l.
(** A method that answers without asking anybody. *)
Inductive answers (explicit : option (list N)) : code -> result (list N) -> Prop :=
| AnsEnd r : answers explicit (CEnd r) r
| AnsLook k r : answers explicit (k explicit) r -> answers explicit (CExplicit k) r.
(** Classes whose first text of their own is [c]: methods defined below PSObject. *)
Definition tells (l : list layer) (c : code) (rest : list layer) : Prop :=
  exists pre, l = pre ++ mkLayer false (Some c) :: rest /\ silent pre.
(** A class derived from PSObject without text of its own, [post] being the bases behind PSObject. *)
Definition plain_class (l post : list layer) : Prop :=
  exists pre, l = pre ++ mkLayer true (Some ps_code) :: post /\ silent pre.
(** A method that hands exceptions on. *)
Definition hands_on {A} (k : result A -> code) : Prop := forall e, k (Err e) = CEnd (Err e).

(** Names in the order they first come in. *)
Inductive firsts : list name -> list name -> Prop :=
| FNil : firsts [] []
| FNew l n m : firsts l m -> ~ In n m -> firsts (l ++ [n]) (m ++ [n])
| FOld l n m : firsts l m -> In n m -> firsts (l ++ [n]) m.
(** The last value given to a name. *)
Definition last_value (l : list (name * list N)) (n : name) (v : list N) : Prop :=
  exists pre post, l = pre ++ (n, v) :: post /\ ~ In n (map fst post).
(** k=v, k=v *)
Inductive listed : list (name * list N) -> list N -> Prop :=
| LiNil : listed [] []
| LiOne k v : listed [(k, v)] (k ++ [61%N] ++ v)
| LiMore k v l t : l <> [] -> listed l t -> listed ((k, v) :: l) (k ++ [61%N] ++ v ++ [44; 32]%N ++ t).
