(** C37 (command lists) and C38 (redirections). *)
From Verif Require Import Base BaseFacts Model_Scalars Spec_Scalars Proofs_Scalars Model_Command Spec_Command Proofs_Command.

Definition ex_cmd (t : N) (eos : bool) : command nat :=
  mkCmd [t]%N true (Some false) [(Some [97]%N, 1); (None, 2)] eos true 2 1 1 8 0 1 8.
Definition ex_ps (cs : list (command nat)) : powershell nat nat nat nat :=
  mkPS true (Some 1) cs (Some [120]%N) 7 false true 3 true.

(** ** C37 *)
(** Whatever version the peer speaks, it rebuilds every setting of the pipeline and the same commands in the same
    statements with the same parameters; of each command it sees the redirections its version knows.  The last
    command ends its statement. *)
Theorem C37_pipeline : forall V H A O their (p : powershell V H A O) front last,
  ps_commands p = front ++ [last] ->
  let pv := match their with Some v => v | None => pv20 end in
  exists m p' last', to_create their p = Ok m /\ from_create m = Ok p'
  /\ ends_here (seen_by pv last) last' /\ ps_commands p' = map (seen_by pv) front ++ [last']
  /\ ps_history_add p' = ps_history_add p /\ ps_apartment p' = ps_apartment p /\ ps_history p' = ps_history p
  /\ ps_host p' = ps_host p /\ ps_nested p' = ps_nested p /\ ps_no_input p' = ps_no_input p
  /\ ps_streams p' = ps_streams p /\ ps_redirect p' = ps_redirect p.
Proof.
  intros V H A O their p front last E pv. destruct (create_roundtrip their p front last E) as (m & M1 & M2).
  exists m. eexists. exists (end_statement (seen_by pv last)). split; [exact M1|]. split; [exact M2|].
  repeat split.
Qed.
Print Assumptions C37_pipeline.
(** With a peer of 2.3 or later nothing at all is lost. *)
Theorem C37_pipeline_23 : forall V H A O pv (p : powershell V H A O) front last,
  version_ge pv pv23 = true -> ps_commands p = front ++ [last] ->
  exists m p' last', to_create (Some pv) p = Ok m /\ from_create m = Ok p'
  /\ ends_here last last' /\ ps_commands p' = front ++ [last'].
Proof.
  intros V H A O pv p front last G E. destruct (C37_pipeline V H A O (Some pv) p front last E) as (m & p' & l' & M1 & M2 & M3 & M4 & _).
  assert (forall c : command V, seen_by pv c = c) as S.
  { intros c. unfold seen_by. rewrite (version_ge_23_22 pv G), G. now destruct c. }
  exists m, p', l'. cbv zeta in *. rewrite S in M3. rewrite (map_ext _ (fun c => c)), map_id in M4 by auto. auto.
Qed.
Print Assumptions C37_pipeline_23.
(** The versions in question are 2.2 and 2.3: a version counts as at least that exactly when it is not before it. *)
Theorem C37_versions : forall v, version_wf v ->
  (version_ge v pv22 = true <-> ~ version_before v (mkV 2 2 None None))
  /\ (version_ge v pv23 = true <-> ~ version_before v (mkV 2 3 None None)).
Proof.
  intros v W. assert (forall a b, version_ge a b = negb (version_lt a b)) as G by reflexivity.
  split; rewrite G, negb_true_iff, <- not_true_iff_false; (rewrite version_lt_iff; [reflexivity|exact W|discriminate || (intros H; exact H)]).
Qed.
Print Assumptions C37_versions.
(** An empty pipeline is refused. *)
Theorem C37_empty : forall V H A O their (p : powershell V H A O),
  ps_commands p = [] -> to_create their p = Err ValueError.
Proof. intros V H A O their p E. unfold to_create. now rewrite E. Qed.
Print Assumptions C37_empty.
(** A peer that has not said its version is taken for the oldest one, 2.0: it gets no field that came later. *)
Theorem C37_unknown_peer : forall V H A O (p : powershell V H A O),
  to_create None p = to_create (Some (mkV 2 0 None None)) p
  /\ forall m w, to_create None p = Ok m -> In w (concat (cp_cmds m :: match cp_extra m with Some e => e | None => [] end)) ->
     w_err w = None /\ w_warn w = None /\ w_verb w = None /\ w_dbg w = None /\ w_info w = None.
Proof. exact @unknown_peer. Qed.
Print Assumptions C37_unknown_peer.
(** Commands built by the constructor, parameters and redirections end no statement: a pipeline of such commands is sent
    and read as one statement, and only its last command ends one. *)
Theorem C37_one_statement : forall V H A O their (p : powershell V H A O) front last,
  Forall built (front ++ [last]) -> ps_commands p = front ++ [last] ->
  exists m p', to_create their p = Ok m /\ cp_extra m = None /\ length (cp_cmds m) = length (ps_commands p)
  /\ from_create m = Ok p' /\ map c_eos (ps_commands p') = repeat false (length front) ++ [true].
Proof. exact @one_statement. Qed.
Print Assumptions C37_one_statement.
Example C37_one_statement_example : exists m p',
  Forall built (ps_commands (ex_ps [new_command [65]%N false None; add_parameter (new_command [66]%N true None) None 7]))
  /\ to_create None (ex_ps [new_command [65]%N false None; add_parameter (new_command [66]%N true None) None 7]) = Ok m
  /\ from_create m = Ok p' /\ map c_eos (ps_commands p') = [false; true] /\ length (cp_cmds m) = 2.
Proof.
  do 2 eexists. split; [|split; [vm_compute; reflexivity|split; [vm_compute; reflexivity|split; reflexivity]]].
  constructor; [|constructor; [|constructor]]; repeat constructor.
Qed.
Example C37_example :
  exists m, to_create (Some pv23) (ex_ps [ex_cmd 65 false; ex_cmd 66 true; ex_cmd 67 false]) = Ok m
  /\ from_create m = Ok (ex_ps [ex_cmd 65 false; ex_cmd 66 true; ex_cmd 67 true])
  /\ version_ge pv23 pv23 = true.
Proof. eexists. split; [vm_compute; reflexivity|]. split; vm_compute; reflexivity. Qed.
Example C37_example_old :
  exists m p', to_create None (ex_ps [ex_cmd 65 false; ex_cmd 66 true]) = Ok m /\ from_create m = Ok p'
  /\ map c_eos (ps_commands p') = [false; true] /\ map c_err (ps_commands p') = [0; 0]%N
  /\ map c_to (ps_commands p') = [1; 1]%N.
Proof. eexists. eexists. split; [vm_compute; reflexivity|]. repeat split; vm_compute; reflexivity. Qed.

(** ** C38 *)
(** For every stream the peer's version has a field for, the peer reads the target of the last accepted call; for any
    other stream it reads "not redirected"; no setting other than redirections is touched. *)
Theorem C38_fields : forall V text script local (ps : list (option (list N) * V)) their xs s t,
  let pv := match their with Some v => v | None => pv20 end in
  let c := fold_left (fun c p => add_parameter c (fst p) (snd p)) ps (new_command text script local) in
  let got := from_wire (to_wire their (fold_left do_call xs c)) in
  goes_to s xs t ->
  (carried pv s -> setting s got = t) /\ (~ carried pv s -> setting s got = 0%N)
  /\ c_text got = text /\ c_script got = script /\ c_local got = local /\ c_params got = ps /\ c_unclaimed got = false.
Proof. exact @redirect_fields. Qed.
Print Assumptions C38_fields.
(** The older pair of fields says "errors to Output" or "not redirected" to every peer, as the last accepted error
    call asked, unless that call asked for Null. *)
Theorem C38_error_pair_partial : forall V text script local their xs t,
  let got := from_wire (to_wire their (fold_left do_call xs (@new_command V text script local))) in
  goes_to SError xs t -> t <> 8%N ->
  (t = 1%N -> c_my got = 2%N /\ c_to got = 1%N) /\ (t = 0%N -> c_my got = 0%N /\ c_to got = 0%N).
Proof. exact @redirect_pair. Qed.
Print Assumptions C38_error_pair_partial.
(** After Null the pair says what the last call before it said: a peer that only knows the pair sends errors to Output
    although the redirection was changed. *)
Theorem C38_error_pair_refuted : exists xs,
  goes_to SError xs 8
  /\ (let got := from_wire (to_wire (Some (mkV 2 1 None None)) (fold_left do_call xs (@new_command nat [65]%N false None))) in
      c_my got = 2%N /\ c_to got = 1%N).
Proof.
  exists [One SError 1; One SError 8]%N. split; [|vm_compute; split; reflexivity].
  left. exists (One SError 8). split; [|reflexivity]. exists [One SError 1], []. repeat split; [|constructor].
  right; right; reflexivity.
Qed.
Print Assumptions C38_error_pair_refuted.
(** The targets that are accepted. *)
Theorem C38_targets : forall V (c : command V) t,
  (is_ok (redirect_error c t) = true <-> target_ok t) /\ (is_ok (redirect_warning c t) = true <-> target_ok t)
  /\ (is_ok (redirect_verbose c t) = true <-> target_ok t) /\ (is_ok (redirect_debug c t) = true <-> target_ok t)
  /\ (is_ok (redirect_information c t) = true <-> target_ok t) /\ (is_ok (redirect_all c t) = true <-> target_ok t).
Proof. exact @redirect_targets. Qed.
Print Assumptions C38_targets.
(** Any other target is refused with a ValueError. *)
Theorem C38_refused : forall V (c : command V) t, ~ target_ok t ->
  redirect_error c t = Err ValueError /\ redirect_warning c t = Err ValueError /\ redirect_verbose c t = Err ValueError
  /\ redirect_debug c t = Err ValueError /\ redirect_information c t = Err ValueError /\ redirect_all c t = Err ValueError.
Proof. exact @redirect_refused. Qed.
Print Assumptions C38_refused.
Example C38_refused_example : ~ target_ok 2 /\ redirect_error (ex_cmd 65 false) 2 = Err ValueError.
Proof. split; [intros [A | [A | A]]; discriminate A | reflexivity]. Qed.
Example C38_example :
  let xs := [One SError 1; One SWarning 3; All 8; One SDebug 0; One SError 0]%N in
  let c := fold_left do_call xs (@new_command nat [65]%N false None) in
  let got := from_wire (to_wire (Some pv22) c) in
  goes_to SVerbose xs 8 /\ goes_to SError xs 0 /\ carried pv22 SVerbose /\ ~ carried pv22 SInformation
  /\ (c_err got, c_warn got, c_verb got, c_dbg got, c_info got) = (0, 8, 8, 0, 0)%N /\ c_my got = 0%N.
Proof.
  assert (forall P : Prop, ~ (False /\ P)) by tauto.
  split; [|split; [|split; [reflexivity|split; [vm_compute; discriminate|split; reflexivity]]]].
  - left. exists (All 8). split; auto. exists [One SError 1; One SWarning 3]%N, [One SDebug 0; One SError 0]%N.
    repeat split; [right; right; reflexivity|]. repeat constructor; intros [A _]; discriminate A.
  - left. exists (One SError 0). split; auto. exists [One SError 1; One SWarning 3; All 8; One SDebug 0]%N, [].
    repeat split; [left; reflexivity|constructor].
Qed.
