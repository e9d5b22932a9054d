(** C70: what the caller says to a pipeline is what the server is told. *)
From Coq Require Import String.
From Verif Require Import Base BaseFacts Model_Scalars Model_Object Model_Clixml Model_Xml Model_Command Model_Messages Model_Builder Model_Pipeline Model_Journey.
From Verif Require Import Spec_Strings Spec_Scalars Spec_Clixml Spec_Xml Spec_Command Spec_Messages Spec_HostWire Spec_Builder Spec_Pipeline Spec_Journey.
From Verif Require Import Proofs_Command Proofs_HostWire2 Proofs_HostWire3 Proofs_Builder Proofs_Pipeline Proofs_Journey Properties_Pipeline.
Local Open Scope list_scope.

(** Whatever calls are made, on however many pipelines, in whatever order: a pipeline with a command is sent, and from any bytes
    sent for it the server makes one with exactly the commands that were added, in order, each with the parameters it was
    given, the last word on ending its statement and on unclaimed results, and the last accepted redirection of each
    stream the server's version knows; with the options of the constructor; the values being the caller's object graph.  The
    apartment state is the caller's, or the pool's when none was given, unless the one given has the value 0. *)
Theorem C70_travels : forall reg lx show g rank n their h p pool nobody o,
  usual reg lx -> flags_known reg lx show -> good_graph reg lx g -> legible_graph g -> closed g -> ranked g rank -> free_from g n ->
  program h -> Forall (call_sendable reg lx g) h -> added h p <> [] -> options_sendable reg lx g pool nobody o ->
  let it := client_pipeline pool nobody o (commands (run (VBool true) b_empty (rev h)) p) in
  (exists fuel data, pipeline_data show fuel g n their it = Ok data)
  /\ forall fuel data, pipeline_data show fuel g n their it = Ok data ->
     exists q g' R asked, read_pipeline reg data = Ok (q, g') /\ same_graph reg (heap_lines g) g' R
     /\ journey R (match their with Some v => v | None => pv20 end) h p asked nobody o q
     /\ ((forall e, o_apartment o = Some e -> e_val e <> 0%Z) -> asked = meant pool o).
Proof.
  intros reg lx show g rank n their h p pool nobody o U K G L C RK F P A N O it.
  pose proof (pipeline_fine reg lx g h p nobody pool o P A N O) as Q.
  destruct (C66_arrives reg lx show g rank n their it U K G L C RK F Q) as [W X]. split; [exact W|].
  intros fuel data E. destruct (X fuel data E) as (q & g' & R & E' & Y & S). exists q, g', R, (chosen pool (o_apartment o)).
  split; [exact E'|]. split; [exact S|]. split; [eapply whole_reached; [exact P|reflexivity|exact Y]|].
  intros Z. unfold chosen, meant. destruct (o_apartment o) as [e|]; [|reflexivity]. specialize (Z e eq_refl). unfold truthy.
  destruct (Z.eqb_spec (e_val e) 0); [contradiction|reflexivity].
Qed.
Print Assumptions C70_travels.
(** There is one way a command can be treated by a history, so the server can hold only one thing of its text, kind, ending
    and redirections. *)
Theorem C70_determined : forall R R' pv h l a c c', command_reached R pv h l a c -> command_reached R' pv h l a c' ->
  c_text c = c_text c' /\ c_script c = c_script c' /\ c_local c = c_local c' /\ c_eos c = c_eos c' /\ c_unclaimed c = c_unclaimed c'
  /\ map fst (c_params c) = map fst (c_params c') /\ forall s, setting s c = setting s c'.
Proof.
  intros R R' pv h l a c c' (w & cs & W & S & A1 & A2 & A3 & A4 & A5 & A6 & A7 & A8 & _) (w' & cs' & W' & S' & B1 & B2 & B3 & B4 & B5 & B6 & B7 & B8 & _).
  rewrite W in W'. injection W' as <-. rewrite <- (story_unique _ _ _ _ S _ S') in *. clear S S'.
  assert (forall (f : change (V := value) -> option bool) b b', finally f cs b -> finally f cs b' -> b = b') as FU.
  { intros f b b' Z Z'. pose proof (last_of_unique (fun x => f x <> None) cs) as LU.
    destruct Z as [(x & X & Y)|(X & ->)], Z' as [(x' & X' & Y')|(X' & ->)]; [|exfalso|exfalso|reflexivity].
    - rewrite (LU x x' X X') in Y. congruence.
    - destruct X as (u & v & -> & N & _). apply Forall_app in X' as [_ X']. inversion X'; contradiction.
    - destruct X' as (u & v & -> & N & _). apply Forall_app in X as [_ X]. inversion X; contradiction. }
  split; [congruence|]. split; [congruence|]. split; [congruence|]. split; [destruct l; [congruence|eapply FU; eassumption]|].
  split; [eapply FU; eassumption|]. split.
  - clear - A4 B4. revert A4 B4. generalize (c_params c), (c_params c'). induction (given cs) as [|x t IH]; intros u v A B; inversion A; inversion B; subst; [reflexivity|].
    cbn [map]. f_equal; [|auto]. match goal with H : same_param R _ _, K : same_param R' _ _ |- _ => destruct H as [-> _]; destruct K as [-> _] end. reflexivity.
  - intros s. assert (carried pv s \/ ~ carried pv s) as [D|D] by (unfold carried; destruct s; match goal with |- ?b = true \/ _ => destruct b; [left; reflexivity|right; discriminate] end).
    + eapply goes_to_unique; [apply A7|apply B7]; exact D.
    + now rewrite A8, B8.
Qed.
Print Assumptions C70_determined.

(** ** Examples *)
Definition trip_ops : list (op value) :=
  [PCommand 1 (tx "Get-Item") None; PParameter 1 (Some (tx "Name")) (Some (VRef 1)); PScript 2 (tx "exit") (Some true);
   PParameter 1 (Some (tx "Force")) None; PStatement 1; CRedirect 0 MError 1; CRedirect 0 MError 8; PScript 1 (tx "1 + 1") None;
   PArgument 1 (VRef 1); CRedirectAll 2 3; PParameter 3 None None]%N.
Definition trip_options (asked : option member) : options :=
  mkOptions false asked (Some (tx "h")) None false true (ex_member streams 3) true.
Lemma trip_fine : program (rev trip_ops) /\ Forall (call_sendable pipe_reg pipe_lex pipe_heap) (rev trip_ops) /\ added (rev trip_ops) 1 = [0; 2].
Proof.
  split; [|split].
  - cbn. repeat split; intros a E; try discriminate E; injection E as <-; lia.
  - assert (can_send pipe_reg pipe_lex pipe_heap (VRef 1)) as V1.
    { split; [exact I|]. split; [exact I|]. intros a E. injection E as <-. eexists. reflexivity. }
    cbn [rev trip_ops app].
    repeat (apply Forall_cons; [|]); try apply Forall_nil; cbn [call_sendable opt_all]; try exact I; try exact V1;
      try (split; [apply ascii_ok; reflexivity|first [exact V1|exact I]]); try (split; exact I).
    all: split; [apply ascii_ok; reflexivity|];
      match goal with |- attr_ok ?s => let t := eval vm_compute in s in change s with t end;
      repeat (apply Forall_cons; [apply tame_char; lia|]); apply Forall_nil.
  - reflexivity.
Qed.
Lemma trip_member z : In z [0; 1; 2]%Z -> can_send pipe_reg pipe_lex pipe_heap (VEnum (ex_member apartment z)).
Proof.
  intros H. destruct (pipe_member apartment z false [0; 1; 2]%Z) as [A B]; [cbn; tauto|reflexivity|now right|cbn in *; lia|].
  split; [exact A|]. split; [exact B|]. intros a E. discriminate.
Qed.
Lemma trip_sendable asked : (forall e, asked = Some e -> exists z, In z [0; 1; 2]%Z /\ e = ex_member apartment z) ->
  options_sendable pipe_reg pipe_lex pipe_heap (ex_member apartment 2) VNull (trip_options asked).
Proof.
  intros H. split; cbn [trip_options o_history o_host o_streams o_apartment opt_all].
  - apply ascii_ok. reflexivity.
  - exact I.
  - split; [exact I|]. split; [exact I|]. intros a E. discriminate.
  - apply trip_member. cbn. tauto.
  - destruct asked as [e|]; [|exact I]. destruct (H e eq_refl) as (z & Z & ->). now apply trip_member.
  - destruct (pipe_member streams 3 true [1; 2; 4; 8]%Z) as [A B]; [cbn; tauto|reflexivity|now left|cbn; lia|].
    split; [exact A|]. split; [exact B|]. intros a E. discriminate.
Qed.
Definition trip (asked : option member) : pipeline :=
  client_pipeline (ex_member apartment 2) VNull (trip_options asked) (commands (run (VBool true) b_empty (rev (rev trip_ops))) 1).
(** Two statements that share an object; a refused redirection and a parameter for an empty pipeline leave no trace. *)
Example C70_example :
  (program (rev trip_ops) /\ Forall (call_sendable pipe_reg pipe_lex pipe_heap) (rev trip_ops) /\ added (rev trip_ops) 1 = [0; 2])
  /\ options_sendable pipe_reg pipe_lex pipe_heap (ex_member apartment 2) VNull (trip_options (Some (ex_member apartment 1)))
  /\ exists data q g', pipeline_data pipe_show 30 pipe_heap 2 (Some (mkV 2 2 None None)) (trip (Some (ex_member apartment 1))) = Ok data
     /\ read_pipeline pipe_reg data = Ok (q, g')
     /\ ps_apartment q = Some (ex_member apartment 1)
     /\ exists a, ps_commands q =
        [mkCmd (tx "Get-Item") false None [(Some (tx "Name"), VRef a); (Some (tx "Force"), VBool true)] true false 2 1 8 0 0 0 0;
         mkCmd (tx "1 + 1") true None [(None, VRef a)] true false 0 0 0 0 0 0 0]%N
        /\ option_map g_extended (aget a g') = Some [(tx "size", VPrim (PInt TInt32 7)); (tx "self", VRef a)].
Proof.
  split; [exact trip_fine|]. split; [apply trip_sendable; intros e E; injection E as <-; exists 1%Z; cbn; auto|].
  eexists _, _, _. split; [vm_compute; reflexivity|]. split; [vm_compute; reflexivity|]. split; [vm_compute; reflexivity|].
  eexists. split; vm_compute; reflexivity.
Qed.

(** ** What does not arrive *)
(** ApartmentState.STA has the value 0, so "apartment_state or runspace_pool.apartment_state" takes it for none: a pipeline
    asked to run in a single-threaded apartment is sent with the state of the pool. *)
Theorem C70_sta_refuted : exists (sta unknown : member) data q g',
  e_val sta = 0%Z /\ e_val unknown = 2%Z
  /\ options_sendable pipe_reg pipe_lex pipe_heap unknown VNull (trip_options (Some sta))
  /\ pipeline_data pipe_show 30 pipe_heap 2 None
       (client_pipeline unknown VNull (trip_options (Some sta)) (commands (run (VBool true) b_empty trip_ops) 1)) = Ok data
  /\ read_pipeline pipe_reg data = Ok (q, g') /\ ps_apartment q = Some unknown
  /\ meant unknown (trip_options (Some sta)) = sta /\ ps_apartment q <> Some (meant unknown (trip_options (Some sta))).
Proof.
  exists (ex_member apartment 0), (ex_member apartment 2). eexists _, _, _. split; [reflexivity|]. split; [reflexivity|].
  split; [apply trip_sendable; intros e E; injection E as <-; exists 0%Z; cbn; auto|].
  split; [vm_compute; reflexivity|]. split; [vm_compute; reflexivity|]. split; [vm_compute; reflexivity|]. split; [reflexivity|].
  vm_compute. discriminate.
Qed.
Print Assumptions C70_sta_refuted.
