(** Commands and pipelines as sent to the peer: src/psrpcore/_command.py, _pipeline.py.  Parameter values, host
    information and stream options are abstract: this file models what is packed where, not how a value is spelled. *)
From Verif Require Import Base Model_Scalars.

(** PipelineResultTypes, types/_complex.py:407-415. *)
Definition R_none : N := 0.
Definition R_output : N := 1.
Definition R_error : N := 2.
Definition R_null : N := 8.

(** ProtocolVersion, _payload.py:79-82. *)
Definition pv20 : version := mkV 2 0 None None.
Definition pv22 : version := mkV 2 2 None None.
Definition pv23 : version := mkV 2 3 None None.

Section Command.
  Variable V : Type.

  (** Command, _command.py:33-52. *)
  Record command := mkCmd {
    c_text : list N; c_script : bool; c_local : option bool;
    c_params : list (option (list N) * V);
    c_eos : bool;                        (* end_of_statement *)
    c_unclaimed : bool;                  (* merge_unclaimed *)
    c_my : N; c_to : N; c_err : N; c_warn : N; c_verb : N; c_dbg : N; c_info : N }.
  Definition new_command text script local : command :=
    mkCmd text script local [] false false R_none R_none R_none R_none R_none R_none R_none.
  Definition set_merge (c : command) my to e w v d i : command :=
    mkCmd (c_text c) (c_script c) (c_local c) (c_params c) (c_eos c) (c_unclaimed c) my to e w v d i.

  (** add_parameter, lines 105-112 (add_argument passes no name). *)
  Definition add_parameter (c : command) (n : option (list N)) (v : V) : command :=
    mkCmd (c_text c) (c_script c) (c_local c) (c_params c ++ [(n, v)]) (c_eos c) (c_unclaimed c)
          (c_my c) (c_to c) (c_err c) (c_warn c) (c_verb c) (c_dbg c) (c_info c).

  (** _validate_redirection_to, lines 190-195. *)
  Definition valid_target (s : N) : bool := (s =? R_none)%N || (s =? R_output)%N || (s =? R_null)%N.
  (** redirect_error, lines 142-156. *)
  Definition redirect_error (c : command) (s : N) : result command :=
    if negb (valid_target s) then Err ValueError
    else
      let '(my, to) := if (s =? R_none)%N then (R_none, R_none)
                       else if negb (s =? R_null)%N then (R_error, s) else (c_my c, c_to c) in
      Ok (set_merge c my to s (c_warn c) (c_verb c) (c_dbg c) (c_info c)).
  (** redirect_warning/verbose/debug/information, lines 158-188. *)
  Definition redirect_warning (c : command) (s : N) : result command :=
    if negb (valid_target s) then Err ValueError
    else Ok (set_merge c (c_my c) (c_to c) (c_err c) s (c_verb c) (c_dbg c) (c_info c)).
  Definition redirect_verbose (c : command) (s : N) : result command :=
    if negb (valid_target s) then Err ValueError
    else Ok (set_merge c (c_my c) (c_to c) (c_err c) (c_warn c) s (c_dbg c) (c_info c)).
  Definition redirect_debug (c : command) (s : N) : result command :=
    if negb (valid_target s) then Err ValueError
    else Ok (set_merge c (c_my c) (c_to c) (c_err c) (c_warn c) (c_verb c) s (c_info c)).
  Definition redirect_information (c : command) (s : N) : result command :=
    if negb (valid_target s) then Err ValueError
    else Ok (set_merge c (c_my c) (c_to c) (c_err c) (c_warn c) (c_verb c) (c_dbg c) s).
  (** redirect_all, lines 124-140. *)
  Definition redirect_all (c : command) (s : N) : result command :=
    let! c := redirect_error c s in
    let! c := redirect_warning c s in
    let! c := redirect_verbose c s in
    let! c := redirect_debug c s in
    redirect_information c s.

  (** The object a command is sent as: the note properties of lines 244-262, absent ones None. *)
  Record wire_command := mkWire {
    w_cmd : list N; w_args : list (option (list N) * V); w_script : bool; w_local : option bool;
    w_my : N; w_to : N; w_prev : N;
    w_err : option N; w_warn : option N; w_verb : option N; w_dbg : option N; w_info : option N }.

  (** ToPSObjectForRemoting, lines 225-264.  [their] is the protocol version of the peer when one is known. *)
  Definition to_wire (their : option version) (c : command) : wire_command :=
    let pv := match their with Some v => v | None => pv20 end in
    let when (b : bool) (x : N) := if b then Some x else None in
    mkWire (c_text c) (c_params c) (c_script c) (c_local c) (c_my c) (c_to c)
           (if c_unclaimed c then N.lor R_output R_error else R_none)
           (when (version_ge pv pv22) (c_err c)) (when (version_ge pv pv22) (c_warn c))
           (when (version_ge pv pv22) (c_verb c)) (when (version_ge pv pv22) (c_dbg c))
           (when (version_ge pv pv23) (c_info c)).
  (** FromPSObjectForRemoting, lines 197-223. *)
  Definition from_wire (w : wire_command) : command :=
    let given (x : option N) := match x with Some v => v | None => R_none end in
    mkCmd (w_cmd w) (w_script w) (w_local w) (w_args w) false
          (w_prev w =? N.lor R_output R_error)%N
          (w_my w) (w_to w) (given (w_err w)) (given (w_warn w)) (given (w_verb w)) (given (w_dbg w)) (given (w_info w)).

  (** PowerShell, _pipeline.py:41-60; [H] host information, [A] apartment state, [O] stream options. *)
  Variables H A O : Type.
  Record powershell := mkPS {
    ps_history_add : bool; ps_apartment : option A; ps_commands : list command; ps_history : option (list N);
    ps_host : H; ps_nested : bool; ps_no_input : bool; ps_streams : O; ps_redirect : bool }.
  (** CreatePipeline with its inner PowerShell object, _pipeline.py:122-142. *)
  Record create_pipeline := mkCP {
    cp_no_input : bool; cp_apartment : option A; cp_streams : O; cp_history_add : bool; cp_host : H;
    cp_nested : bool;
    cp_cmds : list wire_command; cp_inner_nested : bool; cp_history : option (list N); cp_redirect : bool;
    cp_extra : option (list (list wire_command)) }.

  (** The loop of _pipeline.py:113-117: [done] the closed lists, [cur] the last one. *)
  Fixpoint split_statements (done : list (list command)) (cur : list command) (cs : list command) : list (list command) :=
    match cs with
    | [] => done ++ [cur]
    | c :: t => if c_eos c then split_statements (done ++ [cur ++ [c]]) [] t
                else split_statements done (cur ++ [c]) t
    end.
  (** ToPSObjectForRemoting, _pipeline.py:104-142. *)
  Definition to_create (their : option version) (p : powershell) : result create_pipeline :=
    match ps_commands p with
    | [] => Err ValueError
    | _ =>
      let extra := map (map (to_wire their)) (split_statements [] [] (ps_commands p)) in
      Ok (mkCP (ps_no_input p) (ps_apartment p) (ps_streams p) (ps_history_add p) (ps_host p) (ps_nested p)
               (hd [] extra) (ps_nested p) (ps_history p) (ps_redirect p)
               (if (1 <? length extra)%nat then Some extra else None))
    end.
  Definition end_statement (c : command) : command :=
    mkCmd (c_text c) (c_script c) (c_local c) (c_params c) true (c_unclaimed c)
          (c_my c) (c_to c) (c_err c) (c_warn c) (c_verb c) (c_dbg c) (c_info c).
  (** pipeline.commands[-1].end_of_statement = True. *)
  Fixpoint mark_last (cs : list command) : result (list command) :=
    match cs with
    | [] => Err IndexError
    | [c] => Ok [end_statement c]
    | c :: t => let! r := mark_last t in Ok (c :: r)
    end.
  Fixpoint read_statements (acc : list command) (ss : list (list wire_command)) : result (list command) :=
    match ss with
    | [] => Ok acc
    | s :: t => let! acc := mark_last (acc ++ map from_wire s) in read_statements acc t
    end.
  (** FromPSObjectForRemoting, _pipeline.py:70-102. *)
  Definition from_create (m : create_pipeline) : result powershell :=
    let! cs := read_statements [] (match cp_extra m with Some e => e | None => [cp_cmds m] end) in
    Ok (mkPS (cp_history_add m) (cp_apartment m) cs (cp_history m) (cp_host m) (cp_nested m) (cp_no_input m)
             (cp_streams m) (cp_redirect m)).
End Command.
Arguments mkCmd {V}. Arguments c_text {V}. Arguments c_script {V}. Arguments c_local {V}. Arguments c_params {V}.
Arguments c_eos {V}. Arguments c_unclaimed {V}. Arguments c_my {V}. Arguments c_to {V}. Arguments c_err {V}.
Arguments c_warn {V}. Arguments c_verb {V}. Arguments c_dbg {V}. Arguments c_info {V}. Arguments new_command {V}.
Arguments set_merge {V}. Arguments add_parameter {V}. Arguments to_wire {V}. Arguments from_wire {V}.
Arguments redirect_error {V}. Arguments redirect_warning {V}. Arguments redirect_verbose {V}.
Arguments redirect_debug {V}. Arguments redirect_information {V}. Arguments redirect_all {V}.
Arguments end_statement {V}. Arguments mark_last {V}. Arguments split_statements {V}. Arguments read_statements {V}.
Arguments mkPS {V H A O}. Arguments ps_commands {V H A O}. Arguments ps_history_add {V H A O}. Arguments ps_apartment {V H A O}.
Arguments ps_history {V H A O}. Arguments ps_host {V H A O}. Arguments ps_nested {V H A O}. Arguments ps_no_input {V H A O}.
Arguments ps_streams {V H A O}. Arguments ps_redirect {V H A O}.
Arguments to_create {V H A O}. Arguments from_create {V H A O}. Arguments cp_extra {V H A O}. Arguments cp_cmds {V H A O}.
Arguments w_err {V}. Arguments w_warn {V}. Arguments w_verb {V}. Arguments w_dbg {V}. Arguments w_info {V}. Arguments w_my {V}. Arguments w_to {V}.
