(** C86: which class stands for which message. *)
From Coq Require Import String.
From Verif Require Import Base BaseFacts Model_Scalars Model_Text Model_Clixml Model_Messages Model_Registry Spec_Registry Proofs_Registry.
Local Open Scope list_scope.

(** Whatever classes have been declared, a message becomes an event of the class that was registered last for its type, with the
    object and the identifiers it came with. *)
Theorem C86_serves : forall (O P : Type) ds k (object : O) pool (pipeline : P) e x,
  create_event (after none_yet ds) k object pool pipeline = Ok (e, x) <-> serves ds k e /\ x = (k, object, pool, pipeline).
Proof.
  intros O P ds k object pool pipeline e x. unfold create_event. rewrite <- serves_iff. destruct (kind_event (after none_yet ds) k) as [e'|].
  - split; [intros E; injection E as -> <-; auto|intros [E ->]; injection E as ->; reflexivity].
  - split; [discriminate|intros [E _]; discriminate E].
Qed.
Print Assumptions C86_serves.
Theorem C86_unserved : forall (O P : Type) ds k (object : O) pool (pipeline : P), (forall e, ~ serves ds k e) ->
  create_event (after none_yet ds) k object pool pipeline = Err KeyError.
Proof.
  intros O P ds k object pool pipeline H. unfold create_event. destruct (kind_event (after none_yet ds) k) as [e|] eqn:E; [|reflexivity].
  apply serves_iff in E. now apply H in E.
Qed.
Print Assumptions C86_unserved.
(** A message class is sent under the type it was declared with last, any other class has none. *)
Theorem C86_message : forall ds c, (forall k, get_message_id (after none_yet ds) c = Ok k <-> class_for ds c k)
  /\ ((forall k, ~ class_for ds c k) -> get_message_id (after none_yet ds) c = Err KeyError).
Proof.
  intros ds c. unfold get_message_id. split.
  - intros k. rewrite <- class_iff. destruct (class_kind (after none_yet ds) c); (split; [intros E|intros E]; try discriminate E; injection E as ->; reflexivity).
  - intros H. destruct (class_kind (after none_yet ds) c) as [k|] eqn:E; [|reflexivity]. apply class_iff in E. now apply H in E.
Qed.
Print Assumptions C86_message.
(** In the package every type of message has the event class that is named after it, whose object is of a class that is sent under
    that very type; only input and output are anything. *)
Theorem C86_package : forall k, exists e, serves package k e /\ ev_name e = tx (member_name k ++ "Event")
  /\ match ev_arg e with Some c => class_for package c k | None => k = KPipelineInput \/ k = KPipelineOutput end.
Proof.
  intros k. assert (exists e, kind_event (after none_yet package) k = Some e /\ ev_name e = tx (member_name k ++ "Event")
    /\ match ev_arg e with Some c => class_kind (after none_yet package) c = Some k | None => k = KPipelineInput \/ k = KPipelineOutput end) as (e & S & N0 & A).
  { destruct k; (eexists; split; [vm_compute; reflexivity|]; split; [reflexivity|]; vm_compute; auto). }
  exists e. split; [now apply serves_iff|]. split; [exact N0|]. destruct (ev_arg e); [now apply class_iff|exact A].
Qed.
Print Assumptions C86_package.
(** No class of events is for two types, and none of the 31 types is without one whatever else is declared. *)
Theorem C86_one : forall k k' e, serves package k e -> serves package k' e -> k = k'.
Proof.
  intros k k' e S S'. destruct (C86_package k) as (x & X & NX & _), (C86_package k') as (y & Y & NY & _).
  apply serves_iff in S, S', X, Y. assert (x = e) as -> by congruence. assert (y = e) as -> by congruence. rewrite NX in NY. clear - NY.
  destruct k; destruct k'; solve [reflexivity | discriminate NY].
Qed.
Print Assumptions C86_one.
Theorem C86_stays : forall ds k, exists e, serves (package ++ ds) k e.
Proof.
  intros ds k. assert (kind_event (after none_yet (package ++ ds)) k <> None) as H.
  { rewrite after_app. apply event_stays. destruct (C86_package k) as (e & S & _). apply serves_iff in S. congruence. }
  destruct (kind_event (after none_yet (package ++ ds)) k) as [e|] eqn:E; [|contradiction]. exists e. now apply serves_iff.
Qed.
Print Assumptions C86_stays.
(** RegisterEvent raises KeyError, and nothing else, for an object of an undeclared class and for an event of anything that
    pretends to be in the module. *)
Theorem C86_raised : forall ds e, (exists x, perform (after none_yet ds) (Register e) = Err x) <->
  match ev_arg e with
  | Some c => forall k, ~ class_for ds c k
  | None => (exists a b, tx "psrpcore._events" = a ++ ev_module e ++ b) /\ ev_name e <> tx "PipelineInputEvent" /\ ev_name e <> tx "PipelineOutputEvent"
  end.
Proof.
  intros ds e. cbn [perform]. unfold message_id. destruct (ev_arg e) as [c|].
  - destruct (class_kind (after none_yet ds) c) as [k|] eqn:E; cbn [bind].
    + apply class_iff in E. split; [intros [x X]; discriminate X|intros H; now apply H in E].
    + split; [intros _ k H; apply class_iff in H; congruence|eauto].
  - fold events_module. rewrite <- within_iff. destruct (within (ev_module e) events_module); [|split; [intros [x X]; discriminate X|intros [H _]; discriminate H]].
    destruct (same_text (ev_name e) (tx "PipelineInputEvent")) eqn:S1; [|destruct (same_text (ev_name e) (tx "PipelineOutputEvent")) eqn:S2]; cbn [bind].
    + apply same_text_iff in S1. split; [intros [x X]; discriminate X|intros (_ & H & _); contradiction].
    + apply same_text_iff in S2. split; [intros [x X]; discriminate X|intros (_ & _ & H); contradiction].
    + split; [|eauto]. intros _. split; [reflexivity|]. split; intros H; apply same_text_iff in H; congruence.
Qed.
Print Assumptions C86_raised.
Theorem C86_keyerror : forall ds e x, perform (after none_yet ds) (Register e) = Err x -> x = KeyError.
Proof.
  intros ds e x. cbn [perform]. unfold message_id. destruct (ev_arg e) as [c|].
  - destruct (class_kind (after none_yet ds) c); cbn [bind]; congruence.
  - destruct (within (ev_module e) events_module), (same_text (ev_name e) (tx "PipelineInputEvent")), (same_text (ev_name e) (tx "PipelineOutputEvent")); cbn [bind]; congruence.
Qed.
Print Assumptions C86_keyerror.
(** The claim that a class which is registered without an error is used is false: an event of anything from another module is left
    out without a word. *)
Theorem C86_silent_refuted : exists e, ev_arg e = None /\ ev_name e = tx "PipelineOutputEvent" /\ ev_module e = tx "plugin"
  /\ perform (after none_yet package) (Register e) = Ok (after none_yet package) /\ forall k, ~ serves (package ++ [Register e]) k e.
Proof.
  exists {| ev_module := tx "plugin"; ev_name := tx "PipelineOutputEvent"; ev_arg := None |}.
  repeat (split; [vm_compute; reflexivity|]). intros k S. apply serves_iff in S. destruct k; vm_compute in S; discriminate S.
Qed.
Print Assumptions C86_silent_refuted.
(** Whether a module is that of the package is asked for with "in": one that is called core or events is. *)
Theorem C86_module_refuted : exists e e', ev_module e = tx "events" /\ ev_module e' = tx "events"
  /\ serves (package ++ [Register e]) KPipelineOutput e /\ perform (after none_yet package) (Register e') = Err KeyError.
Proof.
  exists {| ev_module := tx "events"; ev_name := tx "PipelineOutputEvent"; ev_arg := None |}, {| ev_module := tx "events"; ev_name := tx "MyOutputEvent"; ev_arg := None |}.
  split; [reflexivity|]. split; [reflexivity|]. split; [apply serves_iff|]; vm_compute; reflexivity.
Qed.
Print Assumptions C86_module_refuted.

(** A program of its own class for progress records: it is used from then on, and output stays as it was. *)
Definition my_progress : event_class := {| ev_module := tx "plugin"; ev_name := tx "MyProgress"; ev_arg := Some (tx "MyRecord") |}.
Example C86_ex : (forall k, ~ class_for package (tx "MyRecord") k)
  /\ perform (after none_yet package) (Register my_progress) = Err KeyError
  /\ serves (package ++ [Declare (tx "MyRecord") KProgressRecord; Register my_progress]) KProgressRecord my_progress
  /\ get_message_id (after none_yet (package ++ [Declare (tx "MyRecord") KProgressRecord])) (tx "MyRecord") = Ok KProgressRecord
  /\ serves (package ++ [Declare (tx "MyRecord") KProgressRecord; Register my_progress]) KPipelineOutput
       {| ev_module := tx "psrpcore._events"; ev_name := tx "PipelineOutputEvent"; ev_arg := None |}.
Proof.
  split; [intros k H; apply class_iff in H; vm_compute in H; discriminate H|]. split; [vm_compute; reflexivity|].
  split; [apply serves_iff; vm_compute; reflexivity|]. split; [vm_compute; reflexivity|]. apply serves_iff. vm_compute. reflexivity.
Qed.
