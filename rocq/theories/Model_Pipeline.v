(** A pipeline as the objects handed to the serializer and back: src/psrpcore/_command.py:197-264, _pipeline.py:70-142,
    _payload.py:292-299 (dict_to_psobject), and the message around it.

    The hooks run while the document is written; here the objects they return are placed in the heap beforehand, at
    addresses from [n] on, which comes to the same since no two of them are the same Python object.  The pipeline object
    itself gets the type name System.Object of its class (_serializer.py:687); the model writes it without, as
    Model_Messages.v does for every message.  Apartment state, stream options and redirections are enumeration members; a
    pipeline without apartment state is not modelled, the client always sets one (_client.py:558). *)
From Coq Require Import String.
From Verif Require Import Base Model_Scalars Model_Object Model_Clixml Model_Xml Model_Command Model_Messages.
Local Open Scope list_scope.

(** What the hooks build: values of the caller, Python lists, and PSObjects with note properties and a ToString text,
    empty when there is none. *)
Inductive tree := TVal (v : value) | TList (l : list tree) | TObj (s : list N) (ps : list (string * tree)).

(** Placing children first; the next free address, the new objects and the value that stands for the tree.  A Python
    list is written with the type names of PSList (_serializer.py:827), a PSObject of dict_to_psobject without any. *)
Definition list_object (vs : list value) : gobj :=
  mkG (BList LList vs) [tx "System.Collections.ArrayList"; tx "System.Object"] None [] [].
Definition note_object (s : list N) (ps : list (name * value)) : gobj :=
  mkG BPlain [] (match s with [] => None | _ => Some s end) [] ps.
Fixpoint place (t : tree) (n : N) : N * heap * value :=
  match t with
  | TVal v => (n, [], v)
  | TList l =>
    let '(n1, h, vs) :=
      (fix all (l : list tree) (n : N) : N * heap * list value :=
         match l with
         | [] => (n, [], [])
         | t :: l' => let '(n1, h, v) := place t n in let '(n2, h', vs) := all l' n1 in (n2, h ++ h', v :: vs)
         end) l n in
    ((n1 + 1)%N, h ++ [(n1, list_object vs)], VRef n1)
  | TObj s ps =>
    let '(n1, h, vs) :=
      (fix all (l : list (string * tree)) (n : N) : N * heap * list (name * value) :=
         match l with
         | [] => (n, [], [])
         | (k, t) :: l' => let '(n1, h, v) := place t n in let '(n2, h', vs) := all l' n1 in (n2, h ++ h', (tx k, v) :: vs)
         end) ps n in
    ((n1 + 1)%N, h ++ [(n1, note_object s vs)], VRef n1)
  end.

Definition t_text (s : text) : tree := TVal (VPrim (PStr KString s)).
Definition t_opt {A} (f : A -> value) (x : option A) : tree := TVal (match x with Some a => f a | None => VNull end).
(** PipelineResultTypes, types/_complex.py:385-415; [show n] the text of _serialize_enum_to_string (_serializer.py:571). *)
Definition flag_names : list name :=
  [tx "System.Management.Automation.Runspaces.PipelineResultTypes"; tx "System.Enum"; tx "System.ValueType"; tx "System.Object"].
Definition flag (show : N -> list N) (n : N) : member := mkE flag_names TInt32 (Z.of_N n) (show n).

(** Command.ToPSObjectForRemoting, _command.py:244-264, with __str__ (line 60) as ToString (_serializer.py:688). *)
Definition arg_tree (p : option text * value) : tree :=
  TObj [] [("N", t_opt (fun s => VPrim (PStr KString s)) (fst p)); ("V", TVal (snd p))]%string.
Definition command_tree (show : N -> list N) (w : wire_command value) : tree :=
  let f n := TVal (VEnum (flag show n)) in
  let may (k : string) (x : option N) := match x with Some n => [(k, f n)] | None => [] end in
  TObj (w_cmd value w)
    ([("Cmd", t_text (w_cmd value w)); ("Args", TList (map arg_tree (w_args value w))); ("IsScript", TVal (VBool (w_script value w)));
      ("UseLocalScope", t_opt VBool (w_local value w)); ("MergeMyResult", f (w_my w)); ("MergeToResult", f (w_to w));
      ("MergePreviousResults", f (w_prev value w))]%string
     ++ may "MergeError"%string (w_err w) ++ may "MergeWarning"%string (w_warn w) ++ may "MergeVerbose"%string (w_verb w)
     ++ may "MergeDebug"%string (w_dbg w) ++ may "MergeInformation"%string (w_info w)).

(** The inner object and the message of PowerShell.ToPSObjectForRemoting, _pipeline.py:122-142. *)
Notation pipeline := (powershell value value member member).
Notation creation := (create_pipeline value value member member).
Definition statement_tree (show : N -> list N) (ws : list (wire_command value)) : tree := TList (map (command_tree show) ws).
Definition shell_tree (show : N -> list N) (m : creation) : tree :=
  TObj []
    ([("Cmds", statement_tree show (cp_cmds m)); ("IsNested", TVal (VBool (cp_inner_nested _ _ _ _ m)));
      ("History", t_opt (fun s => VPrim (PStr KString s)) (cp_history _ _ _ _ m));
      ("RedirectShellErrorOutputPipe", TVal (VBool (cp_redirect _ _ _ _ m)))]%string
     ++ match cp_extra m with
        | Some e => [("ExtraCmds", TList (map (fun s => TObj [] [("Cmds", statement_tree show s)]) e))]%string
        | None => []
        end).
Definition create_message (m : creation) (shell : value) : result message :=
  match cp_apartment _ _ _ _ m with
  | Some ap => Ok (WCreatePipeline (cp_no_input _ _ _ _ m) ap (cp_streams _ _ _ _ m) (cp_history_add _ _ _ _ m) (cp_host _ _ _ _ m) shell (cp_nested _ _ _ _ m))
  | None => Err TypeError
  end.
(** The bytes of CREATE_PIPELINE for a pipeline whose parameter values are in [h], with [n] and up free. *)
Definition pipeline_data (show : N -> list N) (fuel : nat) (h : heap) (n : N) (their : option version) (p : pipeline) : result (list N) :=
  let! m := to_create their p in
  let '(n1, k, v) := place (shell_tree show m) n in
  let! w := create_message m v in
  message_data fuel (h ++ k) n1 w.

(** ** Reading *)
Fixpoint each {A B} (f : A -> result B) (l : list A) : result (list B) :=
  match l with [] => Ok [] | x :: t => let! y := f x in let! r := each f t in Ok (y :: r) end.
(** for x in v *)
Definition items (h : heap) (v : value) : result (list value) :=
  match v with
  | VRef a => match aget a h with Some o => match g_body o with BList _ l => Ok l | _ => Err TypeError end | None => Err TypeError end
  | _ => Err TypeError
  end.
Definition as_flag (v : value) : result N := let! e := as_member v in Ok (Z.to_N (e_val e)).
(** Command.FromPSObjectForRemoting, _command.py:197-223; what it makes of the fields is Model_Command.from_wire. *)
Definition read_arg (h : heap) (v : value) : result (option text * value) :=
  let! n := need h v "N" in let! n := as_opt as_text n in let! x := need h v "V" in Ok (n, x).
Definition read_wire (h : heap) (v : value) : result (wire_command value) :=
  let get {A} (n : string) (f : value -> result A) : result A := let! x := need h v n in f x in
  let! cmd := get "Cmd"%string as_text in
  let! script := get "IsScript"%string as_bool in
  let! local := get "UseLocalScope"%string (as_opt as_bool) in
  let! args := get "Args"%string (items h) in
  let! args := each (read_arg h) args in
  let! prev := get "MergePreviousResults"%string as_flag in
  let! my := get "MergeMyResult"%string as_flag in
  let! to := get "MergeToResult"%string as_flag in
  let! e := as_opt as_flag (maybe h v "MergeError") in
  let! w := as_opt as_flag (maybe h v "MergeWarning") in
  let! b := as_opt as_flag (maybe h v "MergeVerbose") in
  let! d := as_opt as_flag (maybe h v "MergeDebug") in
  let! i := as_opt as_flag (maybe h v "MergeInformation") in
  Ok (mkWire value cmd args script local my to prev e w b d i).
Definition read_statement (h : heap) (v : value) : result (list (wire_command value)) :=
  let! l := items h v in each (read_wire h) l.
(** PowerShell.FromPSObjectForRemoting, _pipeline.py:70-102; the inner IsNested is not looked at. *)
Definition read_creation (h : heap) (m : message) : result creation :=
  match m with
  | WCreatePipeline no_input ap streams history_add host shell nested =>
    let! hist := need h shell "History" in
    let! hist := as_opt as_text hist in
    let! redirect := need h shell "RedirectShellErrorOutputPipe" in
    let! redirect := as_bool redirect in
    let! extra :=
      match maybe h shell "ExtraCmds" with
      | VNull => Ok None
      | x => let! l := items h x in
             let! l := each (fun s => let! c := need h s "Cmds" in read_statement h c) l in Ok (Some l)
      end in
    let! cmds := match extra with
                 | None => let! c := need h shell "Cmds" in read_statement h c
                 | Some _ => Ok []
                 end in
    Ok (mkCP _ _ _ _ no_input (Some ap) streams history_add host nested cmds nested hist redirect extra)
  | _ => Err TypeError
  end.
(** What the server makes of the bytes. *)
Definition read_pipeline (reg : registry) (data : list N) : result (pipeline * heap) :=
  let! r := read_message reg KCreatePipeline data in
  let! m := read_creation (snd r) (fst r) in
  let! p := from_create m in
  Ok (p, snd r).
