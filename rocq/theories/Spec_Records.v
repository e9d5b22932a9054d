(** What becomes of error, informational and progress records on their way to the peer (C56, C57). *)
From Coq Require Import String.
From Verif Require Import Base Model_Scalars Model_Strings Model_Clixml Model_Xml Model_Records Spec_Strings Spec_Clixml Spec_Xml.
Local Open Scope string_scope.
Local Open Scope list_scope.

(** ** What the Python types guarantee: enumerations hold their members. *)
Definition below (n : Z) (o : option Z) : Prop := match o with Some z => (0 <= z < n)%Z | None => True end.
Definition typed_invocation (i : invocation) : Prop :=
  below 2 (iv_origin i) /\ match iv_command i with Some c => forall v, mc_visibility c = Some v -> below 2 v | None => True end.
Definition typed_error (r : error) : Prop :=
  (forall c, er_category r = Some c -> below 32 (ca_category c)) /\ (forall i, er_invocation r = Some i -> typed_invocation i).

(** ** What can be sent and read *)
(** The text of a position can be computed: its end has a column and, unless that is before the line, what is needed to cut
    the text out is there. *)
Definition has_text (e : extent) : Prop :=
  exists c, po_column (ex_end e) = Some c
  /\ ((c < 1)%Z
      \/ po_text (ex_start e) <> None
         /\ (po_line (ex_start e) = po_line (ex_end e) /\ po_column (ex_start e) <> None
             \/ po_line (ex_start e) <> po_line (ex_end e) /\ po_text (ex_end e) <> None)).
(** The text a record shows: the one set by hand, the message of the details, or that of the exception. *)
Definition shows (r : error) (s : list N) : Prop :=
  er_string r = Some s
  \/ er_string r = None /\ s <> [] /\ (exists d, er_details r = Some d /\ de_message d = Some s)
  \/ er_string r = None /\ (forall d m, er_details r = Some d -> de_message d = Some m -> m = [])
     /\ exists x, er_exception r = Some x /\ x_message x = Some (Some s).
Definition sendable (r : error) : Prop :=
  (exists c z, er_category r = Some c /\ ca_category c = Some z)
  /\ (exists s, shows r s)
  /\ (forall i e, er_invocation r = Some i -> iv_position i = Some e -> has_text e).
(** The invocation can be read back: it has an origin, and a command with a type also has a visibility. *)
Definition readable_invocation (i : invocation) : Prop :=
  iv_origin i <> None
  /\ forall c, iv_command i = Some c -> mc_type c <> Some None -> mc_visibility c <> Some None.
Definition readable (r : error) : Prop :=
  er_exception r <> None /\ (er_extended r = true -> forall i, er_invocation r = Some i -> readable_invocation i).

(** ** What arrives *)
Definition some_or {A} (d : A) (o : option A) : option A := match o with Some x => Some x | None => Some d end.
(** The position without the text of its lines; the end takes the file of the start. *)
Definition bare (e : extent) : extent :=
  mkExtent (mkPosition (po_file (ex_start e)) (po_line (ex_start e)) (po_column (ex_start e)) (Some []))
           (mkPosition (po_file (ex_start e)) (po_line (ex_end e)) (po_column (ex_end e)) (Some [])).
Definition plain (o : option (list N)) : list N := match o with Some s => s | None => [] end.
(** The position made up for an invocation that had none: the whole line. *)
Definition guessed (i : invocation) : extent :=
  let start := mkPosition (Some (plain (iv_script i))) (iv_line_number i) (iv_offset i) (Some (plain (iv_line i))) in
  mkExtent start (if Nat.eqb (length (plain (iv_line i))) 0 then start
                  else mkPosition (Some (plain (iv_script i))) (iv_line_number i) (Some (Z.of_nat (length (plain (iv_line i)) + 1)))
                                  (Some (plain (iv_line i)))).
Definition arriving_command (c : command_info) : option command_info :=
  match mc_type c with
  | Some None => None
  | ty => Some (mkInfo (some_or (Some 32%Z) ty) (some_or (Some []) (mc_name c)) (some_or (Some []) (mc_definition c))
                       (some_or (Some 0%Z) (mc_visibility c)))
  end.
(** The directory of a path: a path with a slash is one of POSIX, any other one of Windows. *)
Definition directory (posix nt : list N -> list N) (s : list N) : list N := if existsb (N.eqb 47) s then posix s else nt s.
Section Arrival.
  Variable dirname : list N -> list N.
  Definition arriving_invocation (i : invocation) : invocation :=
    let from_script := match iv_position i with None => true | _ => false end in
    {| iv_bound := some_or [] (iv_bound i); iv_origin := iv_origin i;
       iv_position := Some (match iv_position i with Some e => bare e | None => guessed i end);
       iv_expecting := iv_expecting i; iv_history := iv_history i; iv_name := iv_name i; iv_line := Some (plain (iv_line i));
       iv_command := match iv_command i with Some c => arriving_command c | None => None end;
       iv_offset := iv_offset i; iv_length := iv_length i; iv_pipeline_position := iv_pipeline_position i; iv_message := None;
       iv_command_path := Some (if from_script then plain (iv_script i) else []);
       iv_script_root := Some (if from_script then dirname (plain (iv_script i)) else []);
       iv_line_number := iv_line_number i; iv_script := iv_script i; iv_unbound := some_or [] (iv_unbound i) |}.
  Definition sent_invocation (extended : bool) (i : option invocation) : option invocation :=
    match i with Some i => if extended then Some (arriving_invocation i) else None | None => None end.
  (** Empty text is not told from none. *)
  Definition non_empty (o : option (list N)) : option (list N) := match o with Some [] => None | _ => o end.
  Definition arriving_details (d : option details) : option details :=
    match d with
    | Some d => match non_empty (de_message d), non_empty (de_action d) with None, None => None | _, _ => Some d end
    | None => None
    end.
  (** The categories by number (MS-PSRP 2.2.3.9; .NET System.Management.Automation.ErrorCategory). *)
  Definition error_categories : list (Z * string) :=
    [(0%Z, "NotSpecified"); (1%Z, "OpenError"); (2%Z, "CloseError"); (3%Z, "DeviceError");
     (4%Z, "DeadlockDetected"); (5%Z, "InvalidArgument"); (6%Z, "InvalidData"); (7%Z, "InvalidOperation");
     (8%Z, "InvalidResult"); (9%Z, "InvalidType"); (10%Z, "MetadataError"); (11%Z, "NotImplemented");
     (12%Z, "NotInstalled"); (13%Z, "ObjectNotFound"); (14%Z, "OperationStopped"); (15%Z, "OperationTimeout");
     (16%Z, "SyntaxError"); (17%Z, "ParserError"); (18%Z, "PermissionDenied"); (19%Z, "ResourceBusy");
     (20%Z, "ResourceExists"); (21%Z, "ResourceUnavailable"); (22%Z, "ReadError"); (23%Z, "WriteError");
     (24%Z, "FromStdErr"); (25%Z, "SecurityError"); (26%Z, "ProtocolError"); (27%Z, "ConnectionError");
     (28%Z, "AuthenticationError"); (29%Z, "LimitsExceeded"); (30%Z, "QuotaExceeded"); (31%Z, "NotEnabled")]%string.
  (** "Category (target name:target type) [activity], reason" *)
  Definition spelled (c : category) (s : list N) : Prop :=
    exists z n, ca_category c = Some z /\ In (z, n) error_categories
    /\ s = tx n ++ tx " (" ++ plain (ca_target_name c) ++ tx ":" ++ plain (ca_target_type c) ++ tx ") [" ++ plain (ca_activity c)
           ++ tx "], " ++ plain (ca_reason c).
  (** The record that arrives, field by field. *)
  Record arrives (r r' : error) : Prop := {
    arr_exception : forall x, er_exception r = Some x -> er_exception r' = Some (mkExc (x_id x) (x_message x) (Some (er_invocation r)));
    arr_category : forall c, er_category r = Some c ->
      exists s, spelled c s /\ er_category r' = Some (mkCategory (ca_category c) (ca_activity c) (ca_reason c) (ca_target_name c)
                                                                 (ca_target_type c) (Some s));
    arr_target : er_target r' = er_target r;
    arr_id : er_id r' = er_id r;
    arr_details : er_details r' = arriving_details (er_details r);
    arr_trace : er_trace r' = non_empty (er_trace r);
    arr_invocation : er_invocation r' = sent_invocation (er_extended r) (er_invocation r);
    arr_iteration : er_iteration r' = match sent_invocation (er_extended r) (er_invocation r) with
                                      | Some _ => er_iteration r | None => None end;
    arr_extended : er_extended r' = match sent_invocation (er_extended r) (er_invocation r) with Some _ => true | None => false end;
    arr_string : er_string r' = None;
    arr_notes : er_notes r' = [] }.
  (** The same for debug, verbose and warning records. *)
  Definition arriving_informational (r : informational) : informational :=
    mkInformational (in_message r) (sent_invocation (in_extended r) (in_invocation r))
      match sent_invocation (in_extended r) (in_invocation r) with Some _ => in_iteration r | None => None end
      match sent_invocation (in_extended r) (in_invocation r) with Some _ => true | None => false end None [].
End Arrival.

(** ** The form on the wire, [MS-PSRP] 2.2.3.15 and 2.2.3.15.1 *)
(** A value left out by the object has a default. *)
Definition if_missing {A} (d : A) (o : option (option A)) : option A := match o with Some v => v | None => Some d end.
(** The properties an invocation is flattened to, by name. *)
Record carries (ps : props) (i : invocation) : Prop := {
  cr_bound : lookup ps "InvocationInfo_BoundParameters" = Some (r_dict (iv_bound i));
  cr_origin : lookup ps "InvocationInfo_CommandOrigin" = Some (r_int (iv_origin i));
  cr_expecting : lookup ps "InvocationInfo_ExpectingInput" = Some (r_bool (iv_expecting i));
  cr_history : lookup ps "InvocationInfo_HistoryId" = Some (r_int (iv_history i));
  cr_name : lookup ps "InvocationInfo_InvocationName" = Some (r_text (iv_name i));
  cr_line : lookup ps "InvocationInfo_Line" = Some (r_text (iv_line i));
  cr_offset : lookup ps "InvocationInfo_OffsetInLine" = Some (r_int (iv_offset i));
  cr_length : lookup ps "InvocationInfo_PipelineLength" = Some (r_int (iv_length i));
  cr_pos : lookup ps "InvocationInfo_PipelinePosition" = Some (r_int (iv_pipeline_position i));
  cr_number : lookup ps "InvocationInfo_ScriptLineNumber" = Some (r_int (iv_line_number i));
  cr_script : lookup ps "InvocationInfo_ScriptName" = Some (r_text (iv_script i));
  cr_unbound : lookup ps "InvocationInfo_UnboundArguments" = Some (r_list (iv_unbound i));
  cr_root : lookup ps "InvocationInfo_PSScriptRoot" = Some (r_text (iv_script_root i));
  cr_path : lookup ps "InvocationInfo_PSCommandPath" = Some (r_text (iv_command_path i));
  cr_message : lookup ps "InvocationInfo_PositionMessage" = Some (r_text (iv_message i));
  cr_iteration : lookup ps "InvocationInfo_PipelineIterationInfo" = Some (RList []);
  cr_se : lookup ps "SerializeExtent" = Some (RBool (match iv_position i with Some _ => true | None => false end));
  cr_extent : forall e, iv_position i = Some e ->
    lookup ps "ScriptExtent_File" = Some (r_text (po_file (ex_start e)))
    /\ lookup ps "ScriptExtent_StartLineNumber" = Some (r_int (po_line (ex_start e)))
    /\ lookup ps "ScriptExtent_StartColumnNumber" = Some (r_int (po_column (ex_start e)))
    /\ lookup ps "ScriptExtent_EndLineNumber" = Some (r_int (po_line (ex_end e)))
    /\ lookup ps "ScriptExtent_EndColumnNumber" = Some (r_int (po_column (ex_end e)));
  cr_no_command : iv_command i = None -> lookup ps "CommandInfo_CommandType" = None;
  cr_command : forall c, iv_command i = Some c ->
    lookup ps "CommandInfo_CommandType" = Some (r_int (if_missing 32%Z (mc_type c)))
    /\ lookup ps "CommandInfo_Definition" = Some (r_text (if_missing [] (mc_definition c)))
    /\ lookup ps "CommandInfo_Name" = Some (r_text (if_missing [] (mc_name c)))
    /\ lookup ps "CommandInfo_Visibility" = Some (r_int (if_missing 0%Z (mc_visibility c))) }.

Definition extent_names : list string :=
  ["ScriptExtent_File"; "ScriptExtent_StartLineNumber"; "ScriptExtent_StartColumnNumber"; "ScriptExtent_EndLineNumber";
   "ScriptExtent_EndColumnNumber"]%string.
Definition command_names : list string :=
  ["CommandInfo_CommandType"; "CommandInfo_Definition"; "CommandInfo_Name"; "CommandInfo_Visibility"]%string.
Definition invocation_names (i : invocation) : list string :=
  (["InvocationInfo_BoundParameters"; "InvocationInfo_CommandOrigin"; "InvocationInfo_ExpectingInput"; "InvocationInfo_InvocationName";
   "InvocationInfo_Line"; "InvocationInfo_OffsetInLine"; "InvocationInfo_HistoryId"; "InvocationInfo_PipelineIterationInfo";
   "InvocationInfo_PipelineLength"; "InvocationInfo_PipelinePosition"; "InvocationInfo_PSScriptRoot"; "InvocationInfo_PSCommandPath";
   "InvocationInfo_PositionMessage"; "InvocationInfo_ScriptLineNumber"; "InvocationInfo_ScriptName"; "InvocationInfo_UnboundArguments"]
   ++ match iv_position i with Some _ => extent_names | None => [] end ++ ["SerializeExtent"]
   ++ match iv_command i with Some _ => command_names | None => [] end).
Definition extended_names (flag last : string) (on : bool) (i : option invocation) : list string :=
  match on, i with true, Some i => flag :: invocation_names i ++ [last] | _, _ => [flag] end.
Definition error_names (r : error) : list string :=
  (["Exception"; "TargetObject"; "FullyQualifiedErrorId"; "InvocationInfo"; "ErrorCategory_Category"; "ErrorCategory_Activity";
    "ErrorCategory_Reason"; "ErrorCategory_TargetName"; "ErrorCategory_TargetType"; "ErrorCategory_Message"]
   ++ match er_details r with Some _ => ["ErrorDetails_Message"; "ErrorDetails_RecommendedAction"] | None => [] end
   ++ match er_trace r with Some (_ :: _) => ["ErrorDetails_ScriptStackTrace"] | _ => [] end
   ++ extended_names "SerializeExtendedInfo" "PipelineIterationInfo" (er_extended r) (er_invocation r)).
Definition informational_names (r : informational) : list string :=
  ("InformationalRecord_Message" :: extended_names "InformationalRecord_SerializeInvocationInfo" "InformationalRecord_PipelineIterationInfo"
                                      (in_extended r) (in_invocation r)).
(** The properties of an error record, by name; the message of the category is the spelled out category. *)
Record holds (ps : props) (r : error) (c : category) (m : list N) : Prop := {
  ho_exception : lookup ps "Exception" = Some (r_exc (er_exception r));
  ho_target : lookup ps "TargetObject" = Some (r_val (er_target r));
  ho_id : lookup ps "FullyQualifiedErrorId" = Some (r_text (er_id r));
  ho_inv : lookup ps "InvocationInfo" = Some (r_inv (er_invocation r));
  ho_category : lookup ps "ErrorCategory_Category" = Some (r_int (ca_category c));
  ho_activity : lookup ps "ErrorCategory_Activity" = Some (r_text (ca_activity c));
  ho_reason : lookup ps "ErrorCategory_Reason" = Some (r_text (ca_reason c));
  ho_tname : lookup ps "ErrorCategory_TargetName" = Some (r_text (ca_target_name c));
  ho_ttype : lookup ps "ErrorCategory_TargetType" = Some (r_text (ca_target_type c));
  ho_message : lookup ps "ErrorCategory_Message" = Some (RText m);
  ho_dm : lookup ps "ErrorDetails_Message" = match er_details r with Some d => Some (r_text (de_message d)) | None => None end;
  ho_da : lookup ps "ErrorDetails_RecommendedAction" = match er_details r with Some d => Some (r_text (de_action d)) | None => None end;
  ho_trace : lookup ps "ErrorDetails_ScriptStackTrace" = match non_empty (er_trace r) with Some t => Some (RText t) | None => None end;
  ho_se : lookup ps "SerializeExtendedInfo"
          = Some (RBool match er_extended r, er_invocation r with true, Some _ => true | _, _ => false end);
  ho_extended : forall i, er_extended r = true -> er_invocation r = Some i ->
    carries ps i /\ lookup ps "PipelineIterationInfo" = Some (r_list (er_iteration r)) }.
Record holds_informational (ps : props) (r : informational) : Prop := {
  hi_message : lookup ps "InformationalRecord_Message" = Some (r_text (in_message r));
  hi_se : lookup ps "InformationalRecord_SerializeInvocationInfo"
          = Some (RBool match in_extended r, in_invocation r with true, Some _ => true | _, _ => false end);
  hi_extended : forall i, in_extended r = true -> in_invocation r = Some i ->
    carries ps i /\ lookup ps "InformationalRecord_PipelineIterationInfo" = Some (r_list (in_iteration r)) }.

(** ** Records nothing happens to on the way *)
Definition complete_invocation (i : invocation) : Prop :=
  iv_bound i <> None /\ iv_unbound i <> None /\ iv_line i <> None /\ iv_message i = None
  /\ iv_command_path i = Some [] /\ iv_script_root i = Some []
  /\ (exists e, iv_position i = Some e /\ po_file (ex_end e) = po_file (ex_start e)
                /\ po_text (ex_start e) = Some [] /\ po_text (ex_end e) = Some [])
  /\ (forall c, iv_command i = Some c ->
        mc_type c <> None /\ mc_type c <> Some None /\ mc_name c <> None /\ mc_definition c <> None /\ mc_visibility c <> None).
Definition settled (r : error) : Prop :=
  (forall d, er_details r = Some d -> non_empty (de_message d) <> None \/ non_empty (de_action d) <> None)
  /\ er_trace r <> Some []
  /\ match er_invocation r with
     | Some i => er_extended r = true /\ complete_invocation i
     | None => er_extended r = false /\ er_iteration r = None
     end
  /\ er_string r = None /\ er_notes r = []
  /\ (forall x, er_exception r = Some x -> x_remote x = Some (er_invocation r))
  /\ (forall c, er_category r = Some c -> exists s, spelled c s /\ ca_string c = Some s).

(** ** The text of a position *)
(** Columns count from 1; the end is the column behind the last character. *)
Definition between (l : list N) (b e : Z) : list N := firstn (Z.to_nat (e - b)) (skipn (Z.to_nat (b - 1)) l).
(** What is cut out instead: one character more on one line; of several lines, all but the first character from the start on,
    and what comes after the end. *)
Definition cut_out (e : extent) (s : list N) : Prop :=
  (exists c, po_column (ex_end e) = Some c /\ (c < 1)%Z /\ s = [])
  \/ (exists b c l, po_column (ex_start e) = Some b /\ po_column (ex_end e) = Some c /\ (1 <= b)%Z /\ (1 <= c)%Z
       /\ po_line (ex_start e) = po_line (ex_end e) /\ po_text (ex_start e) = Some l /\ s = between l b (c + 1))
  \/ (exists b c l k, po_column (ex_start e) = Some b /\ po_column (ex_end e) = Some c /\ (1 <= b)%Z /\ (1 <= c)%Z
       /\ po_line (ex_start e) <> po_line (ex_end e) /\ po_text (ex_start e) = Some l /\ po_text (ex_end e) = Some k
       /\ s = skipn (Z.to_nat b) l ++ tx "..." ++ skipn (Z.to_nat c) k).

(** ** Progress records *)
Definition int32 (o : option Z) : Prop := match o with Some z => (-2147483648 <= z <= 2147483647)%Z | None => False end.
Definition progress_ok (p : progress_record) : Prop :=
  int32 (pg_id p) /\ int32 (pg_parent p) /\ int32 (pg_percent p) /\ int32 (pg_seconds p)
  /\ (pg_type p = Some 0%Z \/ pg_type p = Some 1%Z)
  /\ (exists s, pg_activity p = Some s /\ s <> [] /\ good_str s) /\ (exists s, pg_status p = Some s /\ s <> [] /\ good_str s)
  /\ (forall s, pg_operation p = Some s -> s <> [] /\ good_str s).
(** No character XML cannot carry. *)
Definition progress_safe (p : progress_record) : Prop :=
  forall s, pg_activity p = Some s \/ pg_status p = Some s \/ pg_operation p = Some s -> safe_str s.
(** The element: PR with one child for each part, in this order, [MS-PSRP] 2.2.5.2.8 and 2.2.3.13. *)
Definition child (p : progress_record) : list (string * list N) :=
  let text o := match o with Some s => serialize_string s | None => [] end in
  let number o := match o with Some z => str_int z | None => [] end in
  [("AV", text (pg_activity p)); ("AI", number (pg_id p));
   match pg_operation p with Some s => ("S", serialize_string s) | None => ("Nil", []) end;
   ("PI", number (pg_parent p)); ("PC", number (pg_percent p));
   ("T", if match pg_type p with Some z => Z.eqb z 1 | None => false end then tx "Completed" else tx "Processing");
   ("SR", number (pg_seconds p)); ("SD", text (pg_status p))]%string.
(** An element without the child [k], or with an empty one. *)
Definition lacks (kids : list node) (k : string) : Prop :=
  forall n a t c, In (Node n a t c) kids -> n = tx k -> t = [].
