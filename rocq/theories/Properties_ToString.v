(** C72: the text of an object. *)
From Coq Require Import String.
From Verif Require Import Base Model_Scalars Model_Object Model_Class Model_ToString Spec_ToString Proofs_Object Proofs_ToString.
Local Open Scope list_scope.

(** A text that was set is the text, whatever the class; str() shows it when the class has no text of its own. *)
Theorem C72_explicit : forall o t fuel, to_string fuel (set_text o t) = Ok (Some t)
  /\ (forall post, plain_class (t_mro o) post -> str_of (S fuel) (set_text o t) = Ok t).
Proof. intros o t fuel. split; [reflexivity|]. intros post H. apply (str_explicit _ _ post); [exact H|reflexivity]. Qed.
Print Assumptions C72_explicit.
(** Otherwise it is what the first method below PSObject says, and so is str(). *)
Theorem C72_own : forall o c rest r fuel, tells (t_mro o) c rest -> answers (t_explicit o) c r ->
  str_of (S fuel) o = r
  /\ (t_explicit o = None -> to_string (S fuel) o = match r with Ok t => Ok (Some t) | Err e => Err e end).
Proof.
  intros o c rest r fuel T A. pose proof (str_tells fuel o _ c rest r T A) as H. split; [exact H|]. intros E. unfold to_string.
  rewrite E, (tells_own _ _ _ T). unfold str_of. rewrite H. destruct r; reflexivity.
Qed.
Print Assumptions C72_own.
(** Without either there is no text to send, and str() is the base's. *)
Theorem C72_base : forall o post fuel, plain_class (t_mro o) post -> t_explicit o = None ->
  to_string fuel o = Ok None /\ forall c rest r, tells post c rest -> answers None c r -> str_of (S (S fuel)) o = r.
Proof.
  intros o post fuel P E. split; [unfold to_string; now rewrite E, (plain_own _ _ P)|]. intros c rest r T A. now apply (str_base fuel o post c rest).
Qed.
Print Assumptions C72_base.
(** The text is sent, unless it is empty; whoever receives it shows it, when their class has no text of its own, and in any
    case sends on the same text. *)
Theorem C72_travels : forall o t fuel, to_string fuel o = Ok (Some t) -> t <> [] -> sent_text fuel o = Ok (Some t)
  /\ forall mro fuel', sent_text fuel' (received mro (Some t)) = Ok (Some t)
     /\ forall post, plain_class mro post -> str_of (S fuel') (received mro (Some t)) = Ok t.
Proof.
  intros o t fuel H N. split; [unfold sent_text; rewrite H; destruct t; [now elim N|reflexivity]|]. intros mro fuel'. split.
  - unfold sent_text. cbn. destruct t; [now elim N|reflexivity].
  - intros post P. apply (C72_explicit (new_thing mro None)) with (post := post). exact P.
Qed.
Print Assumptions C72_travels.
(** repr(): every name once, in the order they were declared, with the last value, an extended property counting after the
    adapted ones. *)
Theorem C72_repr : forall class adapted extended, exists entries text,
  repr_of class adapted extended = class ++ [40%N] ++ text ++ [41%N] /\ listed entries text
  /\ NoDup (map fst entries) /\ firsts (map fst (adapted ++ extended)) (map fst entries)
  /\ forall n v, In (n, v) entries <-> last_value (adapted ++ extended) n v.
Proof.
  intros class a e. exists (repr_entries a e), (joined (repr_entries a e)). split; [reflexivity|]. split; [apply joined_listed|].
  rewrite entries_put. pose proof (put_firsts (a ++ e)) as F. split; [eapply firsts_nodup; exact F|]. split; [exact F|]. apply put_last.
Qed.
Print Assumptions C72_repr.

(** *** False of the code *)
(** A method that goes on with super().__str__(), as overriding methods do, or that asks for the text to be sent, never
    comes back unless a text was set: both str() and the serializer raise RecursionError, whatever the limit. *)
Theorem C72_super : forall o k rest post, t_explicit o = None -> tells (t_mro o) (CSuper k) rest -> plain_class rest post -> hands_on k ->
  forall fuel, str_of fuel o = Err RuntimeError /\ sent_text fuel o = Err RuntimeError.
Proof.
  intros o k rest post E T P K fuel. pose proof (str_super o k rest post T P E K fuel) as H. split; [exact H|].
  unfold sent_text, to_string. now rewrite E, (tells_own _ _ _ T), H.
Qed.
Print Assumptions C72_super.
Theorem C72_asking : forall o k rest, t_explicit o = None -> tells (t_mro o) (CMeta k) rest -> hands_on k ->
  forall fuel, str_of fuel o = Err RuntimeError /\ sent_text fuel o = Err RuntimeError.
Proof.
  intros o k rest E T K fuel. pose proof (str_meta o k rest T E K fuel) as H. split; [exact H|].
  unfold sent_text, to_string. now rewrite E, (tells_own _ _ _ T), H.
Qed.
Print Assumptions C72_asking.

(** *** Examples *)
Definition object_layer : layer := mkLayer false (Some (CEnd (Ok (text "<object>")))).
Definition ps_layer : layer := mkLayer true (Some ps_code).
(** ErrorCategoryInfo, types/_complex.py:722-726; PSIntegerBase, types/_primitive.py:151-153. *)
Definition category_layer : layer := mkLayer false (Some (CEnd (Ok (text "NotSpecified (:) [], ")))).
Definition integer_layer (digits : string) : layer :=
  mkLayer false (Some (CExplicit (fun e => CEnd (Ok match e with Some t => t | None => text digits end)))).
(** class Loud(PSObject): def __str__(self): return super().__str__() + "!" *)
Definition loud : result (list N) -> code := fun r => match r with Ok t => CEnd (Ok (t ++ text "!")) | Err e => CEnd (Err e) end.
Definition loud_layer : layer := mkLayer false (Some (CSuper loud)).
Definition none_layer : layer := mkLayer false None.

Theorem C72_super_refuted : exists mro, forall fuel, str_of fuel (new_thing mro None) = Err RuntimeError.
Proof.
  exists [none_layer; loud_layer; ps_layer; object_layer]. intros fuel.
  apply (C72_super (new_thing [none_layer; loud_layer; ps_layer; object_layer] None) loud [ps_layer; object_layer] [object_layer]).
  - reflexivity.
  - exists [none_layer]. split; [reflexivity|]. apply Forall_cons; [split; reflexivity|apply Forall_nil].
  - exists []. split; [reflexivity|apply Forall_nil].
  - intros e. reflexivity.
Qed.
Print Assumptions C72_super_refuted.
(** str() of an object whose class has a text of its own is not the text that was set, or that was received. *)
Theorem C72_shown_refuted : exists mro t, sent_text 5 (set_text (new_thing mro None) t) = Ok (Some t)
  /\ str_of 5 (set_text (new_thing mro None) t) <> Ok t /\ str_of 5 (received mro (Some t)) <> Ok t.
Proof.
  exists [category_layer; ps_layer; object_layer], (text "InvalidOperation: (x:String) [], y"). split; [reflexivity|]. split; vm_compute; intros H; discriminate H.
Qed.
Print Assumptions C72_shown_refuted.
(** An empty text is not sent: the receiver's object shows something else. *)
Theorem C72_empty_refuted : exists mro t s, str_of 5 (set_text (new_thing mro None) t) = Ok t /\ sent_text 5 (set_text (new_thing mro None) t) = Ok s
  /\ str_of 5 (received mro s) <> Ok t.
Proof.
  exists [ps_layer; object_layer], [], None. split; [reflexivity|]. split; [reflexivity|]. vm_compute. intros H. discriminate H.
Qed.
Print Assumptions C72_empty_refuted.
(** A text set on a class is not the text of its instances. *)
Theorem C72_class_refuted : exists mro t, str_of 5 (new_thing mro (Some t)) <> Ok t /\ to_string 5 (new_thing mro (Some t)) = Ok None.
Proof. exists [ps_layer; object_layer], (text "x"). split; [vm_compute; intros H; discriminate H|reflexivity]. Qed.
Print Assumptions C72_class_refuted.
Example C72_example : let five := new_thing [none_layer; integer_layer "5"; ps_layer; object_layer] None in
  tells (t_mro five) (CExplicit (fun e => CEnd (Ok match e with Some t => t | None => text "5" end))) [ps_layer; object_layer]
  /\ str_of 1 five = Ok (text "5") /\ to_string 1 five = Ok (Some (text "5"))
  /\ str_of 1 (set_text five (text "Friday")) = Ok (text "Friday")
  /\ plain_class [none_layer; ps_layer; object_layer] [object_layer]
  /\ str_of 2 (new_thing [none_layer; ps_layer; object_layer] None) = Ok (text "<object>")
  /\ str_of 3 (set_text (new_thing [loud_layer; ps_layer; object_layer] None) (text "hi")) = Ok (text "hi!")
  /\ repr_of (text "T") [(text "a", text "1"); (text "b", text "2"); (text "b", text "3")] [(text "c", text "4"); (text "a", text "5")] = text "T(a=5, b=3, c=4)".
Proof.
  cbv zeta. split; [exists [none_layer]; split; [reflexivity|apply Forall_cons; [split; reflexivity|apply Forall_nil]]|].
  split; [vm_compute; reflexivity|]. split; [vm_compute; reflexivity|]. split; [vm_compute; reflexivity|].
  split; [exists [none_layer]; split; [reflexivity|apply Forall_cons; [split; reflexivity|apply Forall_nil]]|].
  split; [vm_compute; reflexivity|]. split; vm_compute; reflexivity.
Qed.
