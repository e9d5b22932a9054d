(** Pipelines that reach the server (C66).  Nothing here places objects, writes or reads. *)
From Coq Require Import String.
From Verif Require Import Base Model_Scalars Model_Object Model_Clixml Model_Command Spec_Strings Spec_Scalars Spec_Clixml Spec_Xml Spec_Command Spec_Messages.
Local Open Scope list_scope.

(** The same command; [R] matches the objects among its parameter values, as in C21. *)
Definition same_param (R : N -> N -> Prop) (p q : option (list N) * value) : Prop := fst q = fst p /\ same_value R (snd p) (snd q).
Definition same_command (R : N -> N -> Prop) (c c' : command value) : Prop :=
  c_text c' = c_text c /\ c_script c' = c_script c /\ c_local c' = c_local c /\ Forall2 (same_param R) (c_params c) (c_params c')
  /\ c_eos c' = c_eos c /\ c_unclaimed c' = c_unclaimed c /\ c_my c' = c_my c /\ c_to c' = c_to c /\ c_err c' = c_err c
  /\ c_warn c' = c_warn c /\ c_verb c' = c_verb c /\ c_dbg c' = c_dbg c /\ c_info c' = c_info c.
(** What a peer of version [pv] is to make of the pipeline [p]: every setting and the same commands in the same statements
    with the same parameters, with the redirections its version knows; the last command ends its statement. *)
Definition arrives (R : N -> N -> Prop) (pv : version) (p p' : powershell value value member member) : Prop :=
  (exists front last last', ps_commands p = front ++ [last] /\ ends_here (seen_by pv last) last'
     /\ Forall2 (same_command R) (map (seen_by pv) front ++ [last']) (ps_commands p'))
  /\ ps_history_add p' = ps_history_add p /\ ps_apartment p' = ps_apartment p /\ ps_history p' = ps_history p
  /\ same_value R (ps_host p) (ps_host p') /\ ps_nested p' = ps_nested p /\ ps_no_input p' = ps_no_input p
  /\ ps_streams p' = ps_streams p /\ ps_redirect p' = ps_redirect p.

(** ** Pipelines inside the claim *)
Definition can_send (reg : registry) (lx : lexicon) (h : heap) (v : value) : Prop := good_value reg lx v /\ safe_value v /\ here h v.
Definition can_say (s : list N) : Prop := good_str s /\ safe_str s.
Definition opt_all {A} (P : A -> Prop) (x : option A) : Prop := match x with Some a => P a | None => True end.
(** The text of a command is also written as it is (ToString): it may hold any character XML knows. *)
Definition flags_of (c : command value) : list N := [c_my c; c_to c; c_err c; c_warn c; c_verb c; c_dbg c; c_info c].
Definition good_command (reg : registry) (lx : lexicon) (h : heap) (c : command value) : Prop :=
  good_str (c_text c) /\ attr_ok (c_text c)
  /\ Forall (fun p => opt_all can_say (fst p) /\ can_send reg lx h (snd p)) (c_params c)
  /\ Forall (fun n => n < 16)%N (flags_of c).
Record good_pipeline (reg : registry) (lx : lexicon) (h : heap) (p : powershell value value member member) : Prop := {
  gp_some : ps_commands p <> [];
  gp_commands : Forall (good_command reg lx h) (ps_commands p);
  gp_history : opt_all can_say (ps_history p);
  gp_host : can_send reg lx h (ps_host p);
  gp_apartment : exists e, ps_apartment p = Some e /\ can_send reg lx h (VEnum e);
  gp_streams : can_send reg lx h (VEnum (ps_streams p)) }.
(** PipelineResultTypes is registered, whatever text its members have. *)
Definition flags_known (reg : registry) (lx : lexicon) (show : N -> list N) : Prop :=
  forall n, (n < 16)%N ->
    let e := mkE [tx "System.Management.Automation.Runspaces.PipelineResultTypes"; tx "System.Enum"; tx "System.ValueType"; tx "System.Object"]
                 TInt32 (Z.of_N n) (show n) in
    good_member reg lx e /\ safe_value (VEnum e).
(** Addresses from [n] on are free. *)
Definition free_from (h : heap) (n : N) : Prop := forall a o, aget a h = Some o -> (a < n)%N.

(** ** What any receiver sees, by the names of MS-PSRP 2.2.3.11 (the pipeline), 2.2.3.12 (a command), 2.2.3.13 (a parameter) *)
(** An object with exactly these note properties, in this order. *)
Definition bag (h : heap) (v : value) (ps : list (name * value)) : Prop :=
  exists a o, v = VRef a /\ aget a h = Some o /\ g_body o = BPlain /\ g_adapted o = [] /\ g_extended o = ps.
(** A list whose elements are, one by one, what [P] says. *)
Definition listed {A} (h : heap) (P : A -> value -> Prop) (l : list A) (v : value) : Prop :=
  exists a o k vs, v = VRef a /\ aget a h = Some o /\ g_body o = BList k vs /\ Forall2 P l vs.
Definition a_text (s : list N) : value := VPrim (PStr KString s).
Definition or_null {A} (f : A -> value) (x : option A) : value := match x with Some a => f a | None => VNull end.
Definition a_flag (n : N) (v : value) : Prop :=
  exists e, v = VEnum e /\ e_val e = Z.of_N n
  /\ e_names e = [tx "System.Management.Automation.Runspaces.PipelineResultTypes"; tx "System.Enum"; tx "System.ValueType"; tx "System.Object"].
Definition flags_sent (pv : version) (c : command value) : list (string * N) :=
  [("MergeMyResult", c_my c); ("MergeToResult", c_to c); ("MergePreviousResults", if c_unclaimed c then 3%N else 0%N)]%string
  ++ (if version_ge pv pv22
      then [("MergeError", c_err c); ("MergeWarning", c_warn c); ("MergeVerbose", c_verb c); ("MergeDebug", c_dbg c)]%string else [])
  ++ (if version_ge pv pv23 then [("MergeInformation", c_info c)]%string else []).
Definition parameter_sent (R : N -> N -> Prop) (h : heap) (p : option (list N) * value) (v : value) : Prop :=
  exists x, bag h v [(tx "N", or_null a_text (fst p)); (tx "V", x)] /\ same_value R (snd p) x.
Definition command_sent (R : N -> N -> Prop) (h : heap) (pv : version) (c : command value) (v : value) : Prop :=
  exists args flags,
    bag h v ([(tx "Cmd", a_text (c_text c)); (tx "Args", args); (tx "IsScript", VBool (c_script c));
              (tx "UseLocalScope", or_null VBool (c_local c))] ++ flags)
    /\ listed h (parameter_sent R h) (c_params c) args
    /\ Forall2 (fun p e => fst e = tx (fst p) /\ a_flag (snd p) (snd e)) (flags_sent pv c) flags.
Definition statement_sent (R : N -> N -> Prop) (h : heap) (pv : version) : list (command value) -> value -> Prop := listed h (command_sent R h pv).
(** The commands in statements: every statement but the last ends with the only command in it that ends one; the last has
    none, and is empty when the last command of all ends a statement. *)
Definition statements_of (cs : list (command value)) (ss : list (list (command value))) : Prop :=
  concat ss = cs
  /\ exists front last, ss = front ++ [last] /\ Forall (fun c => c_eos c = false) last
     /\ Forall (fun s => exists a c, s = a ++ [c] /\ Forall (fun c => c_eos c = false) a /\ c_eos c = true) front.
(** Cmds is the first statement; only with several is there an ExtraCmds, with all of them. *)
Definition pipeline_sent (R : N -> N -> Prop) (h : heap) (pv : version) (p : powershell value value member member) (shell : value) : Prop :=
  exists first rest cmds extra, statements_of (ps_commands p) (first :: rest)
  /\ bag h shell ([(tx "Cmds", cmds); (tx "IsNested", VBool (ps_nested p)); (tx "History", or_null a_text (ps_history p));
                   (tx "RedirectShellErrorOutputPipe", VBool (ps_redirect p))] ++ extra)
  /\ statement_sent R h pv first cmds
  /\ (rest = [] -> extra = [])
  /\ (rest <> [] -> exists e, extra = [(tx "ExtraCmds", e)]
      /\ listed h (fun s v => exists c, bag h v [(tx "Cmds", c)] /\ statement_sent R h pv s c) (first :: rest) e).
