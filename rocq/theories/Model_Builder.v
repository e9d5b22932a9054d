(** Building pipelines call by call: ClientPowerShell of src/psrpcore/_client.py:568-693 and Command of
    _command.py:33-188.  Commands are mutable Python objects that several pipelines may list, so there is one store of
    all commands, a command being known by its place in the order they were made; a pipeline lists such places.
    Pipelines are known by a number of the caller's.  Every method also returns self, which is not shown. *)
From Verif Require Import Base Model_Scalars Model_Command.

(** Which redirect_... method, _command.py:142-188. *)
Inductive method := MError | MWarning | MVerbose | MDebug | MInformation.

Section Builder.
  Variable V : Type.
  Variable vtrue : V.                     (* True, the default of add_parameter's value *)
  Record store := mkB { b_made : list (command V); b_lists : list (nat * list nat) }.
  Definition b_empty : store := mkB [] [].

  Inductive op :=
  (* Command(name, is_script, use_local_scope), and what is done to a command directly *)
  | CNew (text : list N) (script : bool) (local : option bool)
  | CParameter (a : nat) (n : option (list N)) (v : option V)
  | CArgument (a : nat) (v : V)
  | CParameters (a : nat) (l : list (list N * V))
  | CRedirect (a : nat) (m : method) (to : N)
  | CRedirectAll (a : nat) (to : N)
  | CEnd (a : nat) (b : bool)             (* cmd.end_of_statement = b *)
  | CUnclaimed (a : nat) (b : bool)       (* cmd.merge_unclaimed = b *)
  (* ClientPowerShell *)
  | PCommand (p : nat) (text : list N) (local : option bool)
  | PObject (p : nat) (a : nat) (local : option bool)
  | PScript (p : nat) (text : list N) (local : option bool)
  | PParameter (p : nat) (n : option (list N)) (v : option V)
  | PArgument (p : nat) (v : V)
  | PParameters (p : nat) (l : list (list N * V))
  | PStatement (p : nat).

  Fixpoint list_of (p : nat) (l : list (nat * list nat)) : list nat :=
    match l with [] => [] | (q, x) :: t => if q =? p then x else list_of p t end.
  Fixpoint put_list (p : nat) (x : list nat) (l : list (nat * list nat)) : list (nat * list nat) :=
    match l with [] => [(p, x)] | (q, y) :: t => if q =? p then (q, x) :: t else (q, y) :: put_list p x t end.
  (** self.metadata.commands *)
  Definition places (s : store) (p : nat) : list nat := list_of p (b_lists s).
  Definition commands (s : store) (p : nat) : list (command V) :=
    flat_map (fun a => match nth_error (b_made s) a with Some c => [c] | None => [] end) (places s p).
  (** Command(...), _command.py:33-52. *)
  Definition make (s : store) text script local : store * nat :=
    (mkB (b_made s ++ [new_command text script local]) (b_lists s), length (b_made s)).
  (** self.metadata.commands.append(cmdlet), _client.py:606. *)
  Definition append (s : store) (p a : nat) : store := mkB (b_made s) (put_list p (places s p ++ [a]) (b_lists s)).
  Fixpoint replace (a : nat) (c : command V) (l : list (command V)) : list (command V) :=
    match l, a with [], _ => [] | _ :: t, O => c :: t | d :: t, S a' => d :: replace a' c t end.
  (** A method of one command. *)
  Definition on (s : store) (a : nat) (f : command V -> result (command V)) : result store :=
    match nth_error (b_made s) a with
    | None => Err KeyError                (* no such command: not a Python program *)
    | Some c => let! c := f c in Ok (mkB (replace a c (b_made s)) (b_lists s))
    end.
  Fixpoint last_place (l : list nat) : option nat :=
    match l with [] => None | [a] => Some a | _ :: t => last_place t end.
  Definition set_end (b : bool) (c : command V) : command V :=
    mkCmd (c_text c) (c_script c) (c_local c) (c_params c) b (c_unclaimed c)
          (c_my c) (c_to c) (c_err c) (c_warn c) (c_verb c) (c_dbg c) (c_info c).
  Definition set_unclaimed (b : bool) (c : command V) : command V :=
    mkCmd (c_text c) (c_script c) (c_local c) (c_params c) (c_eos c) b
          (c_my c) (c_to c) (c_err c) (c_warn c) (c_verb c) (c_dbg c) (c_info c).
  (** Command.add_parameter, _command.py:105-112. *)
  Definition c_parameter (s : store) (a : nat) (n : option (list N)) (v : option V) : result store :=
    on s a (fun c => Ok (add_parameter c n (match v with Some x => x | None => vtrue end))).
  (** Command.add_parameters, _command.py:114-122. *)
  Fixpoint c_parameters (s : store) (a : nat) (l : list (list N * V)) : result store :=
    match l with [] => Ok s | (n, v) :: t => let! s := c_parameter s a (Some n) (Some v) in c_parameters s a t end.
  Definition redirect (c : command V) (m : method) (to : N) : result (command V) :=
    match m with
    | MError => redirect_error c to | MWarning => redirect_warning c to | MVerbose => redirect_verbose c to
    | MDebug => redirect_debug c to | MInformation => redirect_information c to
    end.
  (** ClientPowerShell.add_parameter, _client.py:609-636. *)
  Definition p_parameter (s : store) (p : nat) (n : option (list N)) (v : option V) : result store :=
    match last_place (places s p) with
    | None => Err ValueError
    | Some a => c_parameter s a n v
    end.
  (** ClientPowerShell.add_parameters, _client.py:638-656. *)
  Fixpoint p_parameters (s : store) (p : nat) (l : list (list N * V)) : result store :=
    match l with [] => Ok s | (n, v) :: t => let! s := p_parameter s p (Some n) (Some v) in p_parameters s p t end.
  (** ClientPowerShell.add_command with a Command, _client.py:603-607. *)
  Definition p_object (s : store) (p a : nat) (local : option bool) : result store :=
    match local with
    | Some _ => Err TypeError
    | None => match nth_error (b_made s) a with Some _ => Ok (append s p a) | None => Err KeyError end
    end.
  Definition do_op (s : store) (o : op) : result store :=
    match o with
    | CNew text script local => Ok (fst (make s text script local))
    | CParameter a n v => c_parameter s a n v
    | CArgument a v => c_parameter s a None (Some v)                             (* _command.py:98-103 *)
    | CParameters a l => c_parameters s a l
    | CRedirect a m to => on s a (fun c => redirect c m to)
    | CRedirectAll a to => on s a (fun c => redirect_all c to)
    | CEnd a b => on s a (fun c => Ok (set_end b c))
    | CUnclaimed a b => on s a (fun c => Ok (set_unclaimed b c))
    | PCommand p text local =>                                                   (* _client.py:600-601 *)
      let '(s, a) := make s text false local in Ok (append s p a)
    | PObject p a local => p_object s p a local
    | PScript p text local =>                                                    (* _client.py:658-677 *)
      let '(s, a) := make s text true local in p_object s p a None
    | PParameter p n v => p_parameter s p n v
    | PArgument p v => p_parameter s p None (Some v)                             (* _client.py:568-582 *)
    | PParameters p l => p_parameters s p l
    | PStatement p =>                                                            (* _client.py:679-693 *)
      match last_place (places s p) with
      | None => Ok s
      | Some a => on s a (fun c => Ok (set_end true c))
      end
    end.
  (** A call that raises leaves the store as it is: nothing was written before the exception. *)
  Definition step (s : store) (o : op) : store := match do_op s o with Ok s' => s' | Err _ => s end.
  Definition run (s : store) (os : list op) : store := fold_left step os s.
End Builder.
Arguments mkB {V}. Arguments b_made {V}. Arguments b_lists {V}. Arguments b_empty {V}.
Arguments CNew {V}. Arguments CParameter {V}. Arguments CArgument {V}. Arguments CParameters {V}. Arguments CRedirect {V}.
Arguments CRedirectAll {V}. Arguments CEnd {V}. Arguments CUnclaimed {V}. Arguments PCommand {V}. Arguments PObject {V}.
Arguments PScript {V}. Arguments PParameter {V}. Arguments PArgument {V}. Arguments PParameters {V}. Arguments PStatement {V}.
Arguments places {V}. Arguments commands {V}. Arguments make {V}. Arguments append {V}. Arguments replace {V}. Arguments on {V}.
Arguments set_end {V}. Arguments set_unclaimed {V}. Arguments c_parameter {V}. Arguments c_parameters {V}. Arguments redirect {V}.
Arguments p_parameter {V}. Arguments p_parameters {V}. Arguments p_object {V}. Arguments do_op {V}. Arguments step {V}. Arguments run {V}.
