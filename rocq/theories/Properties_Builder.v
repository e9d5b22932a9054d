(** Pipelines built call by call. *)
From Verif Require Import Base Model_Scalars Model_Command Model_Builder Spec_Command Spec_Builder Proofs_Command Proofs_Builder Properties_Command.

(** C67: whatever calls were made, in whatever order and on however many pipelines and commands, a pipeline holds exactly
    the commands added to it, in order, each as it was made and with what was done to it since: parameters in the order
    they were given, the last word on ending the statement, the last accepted redirection of every stream. *)
Theorem C67_holds : forall V (vtrue : V) h p, program h ->
  Forall2 (fun a c => exists w cs, nth_error (creations h) a = Some w /\ story vtrue h a cs /\ made_by w cs c)
    (added h p) (commands (run vtrue b_empty (rev h)) p).
Proof. exact @history_holds. Qed.
Print Assumptions C67_holds.
(** There is one story of every command. *)
Theorem C67_story : forall V (vtrue : V) h a cs cs', story vtrue h a cs -> story vtrue h a cs' -> cs = cs'.
Proof. intros V vtrue h a cs cs' A B. exact (story_unique vtrue h a cs A cs' B). Qed.
Print Assumptions C67_story.
(** Exactly these calls are refused: a parameter when there is no command, a scope for a Command object, a redirection to
    somewhere else than none, Output or Null. *)
Theorem C67_refused : forall V (vtrue : V) h o e, program (o :: h) ->
  (refused h o e <-> do_op vtrue (run vtrue b_empty (rev h)) o = Err e).
Proof. exact @refusals. Qed.
Print Assumptions C67_refused.
(** A refused call changes no pipeline. *)
Theorem C67_refused_nothing : forall V (vtrue : V) h o e p, program (o :: h) -> refused h o e ->
  commands (run vtrue b_empty (rev (o :: h))) p = commands (run vtrue b_empty (rev h)) p.
Proof.
  intros V vtrue h o e p G R. rewrite (after_cons vtrue). unfold step. now rewrite (proj1 (refusals vtrue h o e G) R).
Qed.
Print Assumptions C67_refused_nothing.
(** A call leaves every other pipeline alone, as long as the command it is about is not in there too. *)
Theorem C67_others : forall V (vtrue : V) h o p, program (o :: h) -> on_pipeline o <> Some p ->
  (forall a, about h o a -> ~ In a (added h p)) ->
  commands (run vtrue b_empty (rev (o :: h))) p = commands (run vtrue b_empty (rev h)) p.
Proof. exact @other_pipeline. Qed.
Print Assumptions C67_others.
(** So for a caller that passes names and scripts only, calls on one pipeline never touch another. *)
Theorem C67_texts : forall V (vtrue : V) h o p q, program (o :: h) -> texts_only h -> on_pipeline o = Some q -> q <> p ->
  commands (run vtrue b_empty (rev (o :: h))) p = commands (run vtrue b_empty (rev h)) p.
Proof. exact @texts_isolated. Qed.
Print Assumptions C67_texts.
(** In the usual way of writing, each command with its parameters behind it and add_statement any number of times, the
    pipeline gains exactly these commands, and nothing else changes. *)
Theorem C67_usual : forall V (vtrue : V) h p ks, program h ->
  let s := run vtrue b_empty (rev h) in
  exists cs, Forall2 plain ks cs
  /\ commands (run vtrue s (flat_map (written p) ks)) p = commands s p ++ cs
  /\ forall q, q <> p -> commands (run vtrue s (flat_map (written p) ks)) q = commands s q.
Proof.
  intros V vtrue h p ks G s. exists (map block_command ks). split.
  - clear. induction ks; constructor; [reflexivity|assumption].
  - apply blocks_run. now apply reachable_places.
Qed.
Print Assumptions C67_usual.
(** And the server sees them: the same work in the same order, statements ending where they were said to end and at the
    last command. *)
Theorem C67_server : forall V H A O (vtrue : V) h p their (ps : powershell V H A O), program h -> added h p <> [] ->
  ps_commands ps = commands (run vtrue b_empty (rev h)) p ->
  exists m ps' front last, to_create their ps = Ok m /\ from_create m = Ok ps'
  /\ ps_commands ps = front ++ [last] /\ length (ps_commands ps) = length (added h p)
  /\ Forall2 same_work (ps_commands ps) (ps_commands ps')
  /\ map c_eos (ps_commands ps') = map c_eos front ++ [true].
Proof.
  intros V H A O vtrue h p their ps G N E. pose proof (history_holds vtrue h p G) as F. rewrite <- E in F.
  assert (length (ps_commands ps) = length (added h p)) as L by (clear - F; induction F; cbn; congruence).
  destruct (exists_last (l := ps_commands ps)) as (front & last & S1).
  { intros Z. rewrite Z in L. destruct (added h p); [congruence|discriminate L]. }
  destruct (C37_pipeline V H A O their ps front last S1) as (m & ps' & last' & M1 & M2 & M3 & M4 & _).
  exists m, ps', front, last. repeat (split; [assumption|]). rewrite S1, M4. split.
  - apply Forall2_app.
    + clear. induction front; constructor; [repeat split|assumption].
    + constructor; [|constructor]. unfold ends_here, seen_by in M3. cbn in M3. unfold same_work. tauto.
  - rewrite map_app, map_map. cbn [map]. destruct M3 as (-> & _). f_equal.
Qed.
Print Assumptions C67_server.
(** But Command objects are shared, not copied: the same object in two pipelines, and a call on one of them changes the
    other, here a parameter and the end of a statement. *)
Theorem C67_shared_refuted : exists (h : list (op nat)) o o' p q,
  program (o' :: o :: h) /\ on_pipeline o = Some q /\ on_pipeline o' = Some q /\ p <> q
  /\ map c_params (commands (run 1 b_empty (rev h)) p) = [[]]
  /\ map c_params (commands (run 1 b_empty (rev (o :: h))) p) = [[(None, 7)]]
  /\ map c_eos (commands (run 1 b_empty (rev h)) p) = [false]
  /\ map c_eos (commands (run 1 b_empty (rev (o' :: o :: h))) p) = [true].
Proof.
  exists [PObject 2 0 None; PObject 1 0 None; CNew [65]%N false None], (PArgument 2 7), (PStatement 2), 1, 2.
  split; [|repeat split; try discriminate; vm_compute; reflexivity].
  cbn. repeat split; intros a E; try discriminate E; injection E as <-; lia.
Qed.
Print Assumptions C67_shared_refuted.
(** Nor can one object be two commands of a pipeline: a parameter meant for the second is a parameter of the first. *)
Theorem C67_twice_refuted : exists (h : list (op nat)) p, program h
  /\ added h p = [0; 0] /\ map c_params (commands (run 1 b_empty (rev h)) p) = [[(None, 7); (None, 8)]; [(None, 7); (None, 8)]].
Proof.
  exists [PArgument 1 8; PObject 1 0 None; PArgument 1 7; PObject 1 0 None; CNew [65]%N false None], 1.
  split; [|split; vm_compute; reflexivity].
  cbn. repeat split; intros a E; try discriminate E; injection E as <-; lia.
Qed.
Print Assumptions C67_twice_refuted.

(** Two pipelines being built at the same time, a Command object among it. *)
Definition build_ops : list (op nat) :=
  [PCommand 1 [65] None; PParameter 1 (Some [80]) None; CNew [66] true (Some true); PStatement 1; PArgument 1 5%nat;
   PScript 2 [83] None; PParameters 2 [([81], 6%nat); ([82], 7%nat)]; CRedirect 1 MError 1; PObject 1 1 None; PArgument 1 9%nat;
   CRedirect 1 MWarning 3; CRedirectAll 1 8]%N.
Example C67_example :
  let h := rev build_ops in
  program h /\ added h 1 = [0; 1] /\ added h 2 = [2]
  /\ commands (run 1 b_empty (rev h)) 1 =
     [mkCmd [65] false None [(Some [80], 1%nat); (None, 5%nat)] true false 0 0 0 0 0 0 0;
      mkCmd [66] true (Some true) [(None, 9%nat)] false false 2 1 8 8 8 8 8]%N
  /\ commands (run 1 b_empty (rev h)) 2 = [mkCmd [83] true None [(Some [81], 6%nat); (Some [82], 7%nat)] false false 0 0 0 0 0 0 0]%N.
Proof.
  split; [|vm_compute; repeat split; reflexivity].
  cbn. repeat split; intros a E; try discriminate E; injection E as <-; lia.
Qed.
Example C67_story_example : story 1 (rev build_ops) 0 [Given (Some [80]%N) 1; Ended true; Given None 5].
Proof.
  cbn [rev build_ops app]. 
  do 3 (apply story_other; [|cbn; intros E; try discriminate E; try (destruct E as ([|? [|? [|]]] & E); discriminate E)]).
  do 4 (apply story_other; [|cbn; intros E; try discriminate E; try contradiction; try (destruct E as ([|? [|? [|]]] & E); discriminate E)]).
  change [Given (Some [80]%N) 1; Ended true; Given None 5] with ([Given (Some [80]%N) 1; Ended true] ++ changes 1 (PArgument 1 5)).
  apply story_this; [|exists []; reflexivity].
  change [Given (Some [80]%N) 1; Ended true] with ([Given (Some [80]%N) 1] ++ changes 1 (PStatement 1)).
  apply story_this; [|exists []; reflexivity].
  apply story_other; [|cbn; tauto].
  change [Given (Some [80]%N) 1] with ([] ++ changes 1 (PParameter 1 (Some [80]%N) None)).
  apply story_this; [|exists []; reflexivity].
  apply story_other; [constructor|cbn; tauto].
Qed.
Example C67_refused_example :
  refused [PCommand 2 [65]%N None] (PArgument 1 5) ValueError
  /\ do_op 1 (run 1 b_empty (rev [PCommand 2 [65]%N None])) (PArgument 1 5) = Err ValueError
  /\ do_op 1 (run 1 b_empty (rev [PCommand 2 [65]%N None])) (PParameters 1 []) = Ok (run 1 b_empty [PCommand 2 [65]%N None])
  /\ refused (V := nat) [CNew [65]%N false None] (PObject 1 0 (Some true)) TypeError.
Proof. repeat split; try (constructor; reflexivity); vm_compute; reflexivity. Qed.
Example C67_others_example :
  let h := [PCommand 1 [65]%N None; PCommand 2 [66]%N None] in
  program (PArgument 2 7 :: h) /\ on_pipeline (PArgument 2 7) <> Some 1 /\ (forall a, about h (PArgument 2 7) a -> ~ In a (added h 1))
  /\ texts_only h /\ map c_params (commands (run 1 b_empty (rev (PArgument 2 7 :: h))) 2) = [[(None, 7)]].
Proof.
  cbn. repeat split; try discriminate; try (intros a E; discriminate E).
  - intros a ([|x [|]] & E) [<-|[]]; discriminate E.
  - constructor; [exact I|]. constructor; [exact I|constructor].
Qed.
Example C67_usual_example :
  let ks := [mkBlock [65] false None [(Some [80], 4%nat); (None, 5%nat)] 2%nat; mkBlock [83] true (Some false) [] 0%nat]%N in
  commands (run 1 b_empty (flat_map (written 3) ks)) 3
  = [mkCmd [65] false None [(Some [80], 4%nat); (None, 5%nat)] true false 0 0 0 0 0 0 0; mkCmd [83] true (Some false) [] false false 0 0 0 0 0 0 0]%N.
Proof. vm_compute. reflexivity. Qed.
Example C67_server_example : exists m ps',
  to_create None (ex_ps (commands (run 1 b_empty (rev (rev build_ops))) 1)) = Ok m /\ from_create m = Ok ps'
  /\ map c_params (ps_commands ps') = [[(Some [80]%N, 1); (None, 5)]; [(None, 9)]] /\ map c_eos (ps_commands ps') = [true; true].
Proof. do 2 eexists. split; [vm_compute; reflexivity|]. split; [vm_compute; reflexivity|]. split; vm_compute; reflexivity. Qed.
