(** Error and informational records: ScriptExtent, InvocationInfo, ErrorRecord and InformationalRecord of
    src/psrpcore/types/_complex.py:419-965 with their ToPSObjectForRemoting / FromPSObjectForRemoting, and ProgressRecord
    elements (types/_serializer.py:794-815, 406-448).

    The properties of the object that is written are a list of names and plain values; the serializer in between is taken
    as the identity on them (Model_RecordWire.v has it).  User values are opaque numbers.  A value of another type than
    the property declares raises here where Python casts it. *)
From Coq Require Import String.
From Verif Require Import Base Model_Scalars Model_Strings Model_Text Model_Object Model_Clixml Model_Xml.
Local Open Scope list_scope.

(** ** Positions, lines 419-525 *)
(** ScriptPosition, lines 419-454. *)
Record position := mkPosition { po_file : option (list N); po_line : option Z; po_column : option Z; po_text : option (list N) }.
(** ScriptExtent, lines 457-508. *)
Record extent := mkExtent { ex_start : position; ex_end : position }.
(** s[i:] for an int that may be negative, and s[i:j] for two that are not. *)
Definition slice_from (s : list N) (i : Z) : list N :=
  if (i <? 0)%Z then skipn (length s - Z.to_nat (- i)) s else skipn (Z.to_nat i) s.
Definition slice (s : list N) (i j : Z) : list N := firstn (Z.to_nat j - Z.to_nat i) (skipn (Z.to_nat i) s).
(** Arithmetic, comparison and indexing of None raise. *)
Definition given {A} (o : option A) : result A := match o with Some x => Ok x | None => Err TypeError end.
Definition opt_eqb {A} (eqb : A -> A -> bool) (a b : option A) : bool :=
  match a, b with Some x, Some y => eqb x y | None, None => true | _, _ => false end.
(** ScriptExtent._text, lines 494-508. *)
Definition extent_text (e : extent) : result (list N) :=
  let s := ex_start e in let t := ex_end e in
  let! c := given (po_column t) in
  if (c <? 1)%Z then Ok [] else
  if opt_eqb Z.eqb (po_line s) (po_line t) then
    let! l := given (po_text s) in let! b := given (po_column s) in Ok (slice l (Z.max (b - 1) 0) c)
  else
    let! l := given (po_text s) in let! k := given (po_text t) in
    Ok (match po_column s with Some b => slice_from l b | None => l end ++ tx "..." ++ slice_from k c).

(** ** InvocationInfo, lines 538-693 *)
(** MyCommand: an object with some of these attributes; [None] is a missing attribute, [Some None] the value None. *)
Record command_info := mkInfo {
  mc_type : option (option Z); mc_name : option (option (list N)); mc_definition : option (option (list N));
  mc_visibility : option (option Z) }.
Record invocation := mkInv {
  iv_bound : option (list (N * N)); iv_origin : option Z; iv_position : option extent; iv_expecting : option bool;
  iv_history : option Z; iv_name : option (list N); iv_line : option (list N); iv_command : option command_info;
  iv_offset : option Z; iv_length : option Z; iv_pipeline_position : option Z; iv_message : option (list N);
  iv_command_path : option (list N); iv_script_root : option (list N); iv_line_number : option Z;
  iv_script : option (list N); iv_unbound : option (list N) }.

(** Property values on the wire. *)
(** An exception: what is said of it by [x_id], its Message attribute if it has one, and the note property
    SerializedRemoteInvocationInfo if it has that. *)
Record exception := mkExc { x_id : N; x_message : option (option (list N)); x_remote : option (option invocation) }.
Inductive rv :=
| RNull | RText (s : list N) | RInt (z : Z) | RBool (b : bool) | RDict (d : list (N * N)) | RList (l : list N)
| RVal (n : N) | RInv (i : invocation) | RExc (x : exception).
Definition props := list (string * rv).
(** bool(value) *)
Definition truthy (v : rv) : bool :=
  match v with
  | RNull => false | RText s => match s with [] => false | _ => true end | RInt z => negb (z =? 0)%Z | RBool b => b
  | RDict d => match d with [] => false | _ => true end | RList l => match l with [] => false | _ => true end
  | _ => true
  end.
Definition r_text (o : option (list N)) : rv := match o with Some s => RText s | None => RNull end.
Definition r_int (o : option Z) : rv := match o with Some z => RInt z | None => RNull end.
Definition r_bool (o : option bool) : rv := match o with Some b => RBool b | None => RNull end.
Definition r_dict (o : option (list (N * N))) : rv := match o with Some d => RDict d | None => RNull end.
Definition r_list (o : option (list N)) : rv := match o with Some l => RList l | None => RNull end.
Definition r_inv (o : option invocation) : rv := match o with Some i => RInv i | None => RNull end.
(** Casts to the property's type; None passes. *)
Definition c_text (v : rv) : result (option (list N)) :=
  match v with RNull => Ok None | RText s => Ok (Some s) | _ => Err TypeError end.
Definition c_int (v : rv) : result (option Z) := match v with RNull => Ok None | RInt z => Ok (Some z) | _ => Err TypeError end.
Definition c_bool (v : rv) : result (option bool) :=
  match v with RNull => Ok None | RBool b => Ok (Some b) | _ => Err TypeError end.
Definition c_dict (v : rv) : result (option (list (N * N))) :=
  match v with RNull => Ok None | RDict d => Ok (Some d) | _ => Err TypeError end.
Definition c_list (v : rv) : result (option (list N)) :=
  match v with RNull => Ok None | RList l => Ok (Some l) | _ => Err TypeError end.
Definition c_inv (v : rv) : result (option invocation) :=
  match v with RNull => Ok None | RInv i => Ok (Some i) | _ => Err TypeError end.
(** An enumeration called with a value: one of [0 .. n-1], types/_enum.py:74-105. *)
Definition c_enum (n : Z) (v : rv) : result Z :=
  match v with RInt z => if ((0 <=? z) && (z <? n))%Z then Ok z else Err ValueError | _ => Err ValueError end.
(** A flag enumeration takes any int, types/_enum.py:108-175. *)
Definition c_flags (v : rv) : result Z := match v with RInt z => Ok z | _ => Err ValueError end.

(** obj.Name: the properties read from the wire, then those the class declares, which are None. *)
Fixpoint lookup (ps : props) (k : string) : option rv :=
  match ps with [] => None | (n, v) :: t => if String.eqb n k then Some v else lookup t k end.
Definition attribute (declared : list string) (ps : props) (k : string) : result rv :=
  match lookup ps k with
  | Some v => Ok v
  | None => if existsb (String.eqb k) declared then Ok RNull else Err AttributeError
  end.
(** getattr(obj, name, None) *)
Definition attribute_or_none (ps : props) (k : string) : rv := match lookup ps k with Some v => v | None => RNull end.

Section Records.
  (** posixpath.dirname of a path with a slash, ntpath.dirname of one without. *)
  Variables posix_dirname nt_dirname : list N -> list N.

  (** _script_extent_to_ps_object, lines 527-535: File is that of the start. *)
  Definition extent_props (e : extent) : props :=
    [("ScriptExtent_File", r_text (po_file (ex_start e))); ("ScriptExtent_StartLineNumber", r_int (po_line (ex_start e)));
     ("ScriptExtent_StartColumnNumber", r_int (po_column (ex_start e))); ("ScriptExtent_EndLineNumber", r_int (po_line (ex_end e)));
     ("ScriptExtent_EndColumnNumber", r_int (po_column (ex_end e)))]%string.
  (** getattr(my_command, name, default) *)
  Definition or_missing {A} (o : option (option A)) (d : A) : option A := match o with Some v => v | None => Some d end.
  Definition command_props (c : command_info) : props :=
    [("CommandInfo_CommandType", r_int (or_missing (mc_type c) 32)); ("CommandInfo_Definition", r_text (or_missing (mc_definition c) []));
     ("CommandInfo_Name", r_text (or_missing (mc_name c) [])); ("CommandInfo_Visibility", r_int (or_missing (mc_visibility c) 0%Z))]%string%Z.
  (** _invocation_info_to_ps_object, lines 649-691. *)
  Definition invocation_props (i : invocation) : props :=
    [("InvocationInfo_BoundParameters", r_dict (iv_bound i)); ("InvocationInfo_CommandOrigin", r_int (iv_origin i));
     ("InvocationInfo_ExpectingInput", r_bool (iv_expecting i)); ("InvocationInfo_InvocationName", r_text (iv_name i));
     ("InvocationInfo_Line", r_text (iv_line i)); ("InvocationInfo_OffsetInLine", r_int (iv_offset i));
     ("InvocationInfo_HistoryId", r_int (iv_history i)); ("InvocationInfo_PipelineIterationInfo", RList []);
     ("InvocationInfo_PipelineLength", r_int (iv_length i)); ("InvocationInfo_PipelinePosition", r_int (iv_pipeline_position i));
     ("InvocationInfo_PSScriptRoot", r_text (iv_script_root i)); ("InvocationInfo_PSCommandPath", r_text (iv_command_path i));
     ("InvocationInfo_PositionMessage", r_text (iv_message i)); ("InvocationInfo_ScriptLineNumber", r_int (iv_line_number i));
     ("InvocationInfo_ScriptName", r_text (iv_script i)); ("InvocationInfo_UnboundArguments", r_list (iv_unbound i))]%string
    ++ match iv_position i with
       | Some e => extent_props e ++ [("SerializeExtent"%string, RBool true)]
       | None => [("SerializeExtent"%string, RBool false)]
       end
    ++ match iv_command i with Some c => command_props c | None => [] end.

  (** _script_extent_from_ps_object, lines 511-524. *)
  Definition read_extent (declared : list string) (ps : props) : result extent :=
    let get := attribute declared ps in
    let! f := get "ScriptExtent_File"%string in let! a := get "ScriptExtent_StartLineNumber"%string in
    let! b := get "ScriptExtent_EndLineNumber"%string in let! c := get "ScriptExtent_StartColumnNumber"%string in
    let! d := get "ScriptExtent_EndColumnNumber"%string in
    let! f := c_text f in let! a := c_int a in let! c := c_int c in let! b := c_int b in let! d := c_int d in
    Ok (mkExtent (mkPosition f a c (Some [])) (mkPosition f b d (Some []))).
  (** value or "" *)
  Definition or_empty (v : rv) : rv := if truthy v then v else RText [].
  (** _invocation_info_from_ps_object, lines 593-646. *)
  Definition read_invocation (declared : list string) (ps : props) : result invocation :=
    let get := attribute declared ps in
    let! line := c_text (or_empty (attribute_or_none ps "InvocationInfo_Line"%string)) in
    let line := match line with Some l => l | None => [] end in
    let! se := get "SerializeExtent"%string in
    let! triple :=
      if truthy se then let! e := read_extent declared ps in Ok (e, [], [])
      else
        let! name := get "InvocationInfo_ScriptName"%string in let! name := c_text (or_empty name) in
        let name := match name with Some n => n | None => [] end in
        let! ln := get "InvocationInfo_ScriptLineNumber"%string in let! off := get "InvocationInfo_OffsetInLine"%string in
        let! ln := c_int ln in let! off := c_int off in
        let start := mkPosition (Some name) ln off (Some line) in
        let stop := match line with [] => start | _ => mkPosition (Some name) ln (Some (Z.of_nat (length line) + 1)%Z) (Some line) end in
        Ok (mkExtent start stop, name, if existsb (N.eqb 47) name then posix_dirname name else nt_dirname name) in
    let '(position, path, root) := triple in
    let! command :=
      match attribute_or_none ps "CommandInfo_CommandType"%string with
      | RNull => Ok None
      | ty =>
        let! ty := c_flags ty in let! n := get "CommandInfo_Name"%string in let! d := get "CommandInfo_Definition"%string in
        let! v := get "CommandInfo_Visibility"%string in let! v := c_enum 2 v in
        let! n := c_text n in let! d := c_text d in Ok (Some (mkInfo (Some (Some ty)) (Some n) (Some d) (Some (Some v))))
      end in
    let! bound := c_dict (attribute_or_none ps "InvocationInfo_BoundParameters"%string) in
    let! origin := get "InvocationInfo_CommandOrigin"%string in let! origin := c_enum 2 origin in
    let! expecting := get "InvocationInfo_ExpectingInput"%string in let! history := get "InvocationInfo_HistoryId"%string in
    let! name := get "InvocationInfo_InvocationName"%string in let! off := get "InvocationInfo_OffsetInLine"%string in
    let! len := get "InvocationInfo_PipelineLength"%string in let! pos := get "InvocationInfo_PipelinePosition"%string in
    let! ln := get "InvocationInfo_ScriptLineNumber"%string in let! script := get "InvocationInfo_ScriptName"%string in
    let! unbound := c_list (attribute_or_none ps "InvocationInfo_UnboundArguments"%string) in
    let! expecting := c_bool expecting in let! history := c_int history in let! name := c_text name in let! off := c_int off in
    let! len := c_int len in let! pos := c_int pos in let! ln := c_int ln in let! script := c_text script in
    Ok (mkInv (Some (match bound with Some d => d | None => [] end)) (Some origin) (Some position) expecting history name
              (Some line) command off len pos None (Some path) (Some root) ln script
              (Some (match unbound with Some l => l | None => [] end))).

  (** ** ErrorRecord, lines 696-893 *)
  (** ErrorCategory, lines 307-352: the names by number. *)
  Definition category_names : list string :=
    ["NotSpecified"; "OpenError"; "CloseError"; "DeviceError"; "DeadlockDetected"; "InvalidArgument"; "InvalidData"; "InvalidOperation";
     "InvalidResult"; "InvalidType"; "MetadataError"; "NotImplemented"; "NotInstalled"; "ObjectNotFound"; "OperationStopped";
     "OperationTimeout"; "SyntaxError"; "ParserError"; "PermissionDenied"; "ResourceBusy"; "ResourceExists"; "ResourceUnavailable";
     "ReadError"; "WriteError"; "FromStdErr"; "SecurityError"; "ProtocolError"; "ConnectionError"; "AuthenticationError";
     "LimitsExceeded"; "QuotaExceeded"; "NotEnabled"]%string.
  (** ErrorCategoryInfo, lines 696-731; [ca_string] is an explicit to_string. *)
  Record category := mkCategory {
    ca_category : option Z; ca_activity : option (list N); ca_reason : option (list N); ca_target_name : option (list N);
    ca_target_type : option (list N); ca_string : option (list N) }.
  (** ErrorDetails, lines 734-762. *)
  Record details := mkDetails { de_message : option (list N); de_action : option (list N) }.
  (** ErrorRecord; [er_string] is an explicit to_string, [er_notes] note properties the caller has added. *)
  Record error := mkError {
    er_exception : option exception; er_category : option category; er_target : option N; er_id : option (list N);
    er_invocation : option invocation; er_details : option details; er_iteration : option (list N); er_trace : option (list N);
    er_extended : bool; er_string : option (list N); er_notes : list (string * N) }.

  Definition or_nothing (o : option (list N)) : list N := match o with Some s => s | None => [] end.
  (** ErrorCategoryInfo.__str__, lines 727-731: an explicit to_string is not looked at. *)
  Definition category_text (c : category) : result (list N) :=
    match ca_category c with
    | None => Err AttributeError
    | Some z =>
      match nth_error category_names (Z.to_nat z) with
      | None => Err ValueError
      | Some n => Ok (tx n ++ tx " (" ++ or_nothing (ca_target_name c) ++ tx ":" ++ or_nothing (ca_target_type c) ++ tx ") ["
                      ++ or_nothing (ca_activity c) ++ tx "], " ++ or_nothing (ca_reason c))
      end
    end.
  (** ErrorRecord.__str__, lines 816-821, through PSObjectMeta.to_string, types/_base.py:139-159. *)
  Definition exception_message (x : option exception) : result (list N) :=
    match x with
    | None => Err AttributeError
    | Some x => match x_message x with None => Err AttributeError | Some None => Err TypeError | Some (Some s) => Ok s end
    end.
  Definition error_string (r : error) : result (list N) :=
    match er_string r with
    | Some s => Ok s
    | None =>
      match er_details r with
      | Some (mkDetails (Some (c :: t)) _) => Ok (c :: t)
      | _ => exception_message (er_exception r)
      end
    end.
  Definition r_exc (o : option exception) : rv := match o with Some x => RExc x | None => RNull end.
  Definition r_val (o : option N) : rv := match o with Some n => RVal n | None => RNull end.
  (** The InvocationInfo goes as an object of its own, too; the text of its position is computed for that. *)
  Definition writable (i : option invocation) : result unit :=
    match i with
    | Some i => match iv_position i with Some e => let! _ := extent_text e in Ok tt | None => Ok tt end
    | None => Ok tt
    end.
  (** ErrorRecord.ToPSObjectForRemoting, lines 861-893, and what the serializer does of it (types/_serializer.py:683-692):
      the text of the object and its properties. *)
  Definition write_error (r : error) : result (list N * props) :=
    match er_category r with
    | None => Err AttributeError
    | Some c =>
      let! m := category_text c in
      let! s := error_string r in
      let! _ := writable (er_invocation r) in
      Ok (s,
        [("Exception", r_exc (er_exception r)); ("TargetObject", r_val (er_target r)); ("FullyQualifiedErrorId", r_text (er_id r));
         ("InvocationInfo", r_inv (er_invocation r)); ("ErrorCategory_Category", r_int (ca_category c));
         ("ErrorCategory_Activity", r_text (ca_activity c)); ("ErrorCategory_Reason", r_text (ca_reason c));
         ("ErrorCategory_TargetName", r_text (ca_target_name c)); ("ErrorCategory_TargetType", r_text (ca_target_type c));
         ("ErrorCategory_Message", RText m)]%string
        ++ match er_details r with
           | Some d => [("ErrorDetails_Message", r_text (de_message d)); ("ErrorDetails_RecommendedAction", r_text (de_action d))]%string
           | None => []
           end
        ++ (if truthy (r_text (er_trace r)) then [("ErrorDetails_ScriptStackTrace"%string, r_text (er_trace r))] else [])
        ++ match er_extended r, er_invocation r with
           | true, Some i => [("SerializeExtendedInfo"%string, RBool true)] ++ invocation_props i
                             ++ [("PipelineIterationInfo"%string, r_list (er_iteration r))]
           | _, _ => [("SerializeExtendedInfo"%string, RBool false)]
           end)
    end.
  Definition c_exc (v : rv) : result (option exception) :=
    match v with RNull => Ok None | RExc x => Ok (Some x) | _ => Err TypeError end.
  Definition c_val (v : rv) : result (option N) := match v with RNull => Ok None | RVal n => Ok (Some n) | _ => Err TypeError end.
  Definition c_true (v : rv) : result bool := match v with RBool b => Ok b | _ => Err TypeError end.
  (** The properties the class declares, lines 765-779. *)
  Definition error_declared : list string :=
    ["Exception"; "CategoryInfo"; "TargetObject"; "FullyQualifiedErrorId"; "InvocationInfo"; "ErrorDetails"; "PipelineIterationInfo";
     "ScriptStackTrace"]%string.
  (** ErrorRecord.FromPSObjectForRemoting, lines 823-859.  [declared] is empty when the object read is not an ErrorRecord
      already (_events.py:727-731). *)
  Definition read_error (declared : list string) (ps : props) : result error :=
    let get := attribute declared ps in
    let! c := get "ErrorCategory_Category"%string in let! c := c_enum 32 c in
    let! a := get "ErrorCategory_Activity"%string in let! r := get "ErrorCategory_Reason"%string in
    let! n := get "ErrorCategory_TargetName"%string in let! t := get "ErrorCategory_TargetType"%string in
    let! a := c_text a in let! r := c_text r in let! n := c_text n in let! t := c_text t in
    let! m := get "ErrorCategory_Message"%string in let! m := c_text m in
    let dm := attribute_or_none ps "ErrorDetails_Message"%string in
    let da := attribute_or_none ps "ErrorDetails_RecommendedAction"%string in
    let! details :=
      if truthy dm || truthy da then let! dm := c_text dm in let! da := c_text da in Ok (Some (mkDetails dm da)) else Ok None in
    let! x := get "Exception"%string in let! i := get "InvocationInfo"%string in
    let! x := match x with RExc x => Ok x | _ => Err ValueError end in let! i := c_inv i in
    let x := mkExc (x_id x) (x_message x) (Some i) in
    let! se := get "SerializeExtendedInfo"%string in
    let! got :=
      if truthy se then
        let! it := get "PipelineIterationInfo"%string in let! i := read_invocation declared ps in
        let! it := c_list it in Ok (it, Some i)
      else Ok (None, None) in
    let '(it, i) := got in
    let! o := get "TargetObject"%string in let! id := get "FullyQualifiedErrorId"%string in
    let! o := c_val o in let! id := c_text id in
    let! tr := c_text (attribute_or_none ps "ErrorDetails_ScriptStackTrace"%string) in
    let! se := c_true se in
    Ok (mkError (Some x) (Some (mkCategory (Some c) a r n t m)) o id i details it tr se None []).

  (** ** InformationalRecord (debug, verbose and warning records), lines 896-965 *)
  Record informational := mkInformational {
    in_message : option (list N); in_invocation : option invocation; in_iteration : option (list N); in_extended : bool;
    in_string : option (list N); in_notes : list (string * N) }.
  Definition write_informational (r : informational) : result (option (list N) * props) :=
    Ok (in_string r,
      [("InformationalRecord_Message"%string, r_text (in_message r))]
      ++ match in_extended r, in_invocation r with
         | true, Some i => [("InformationalRecord_SerializeInvocationInfo"%string, RBool true)] ++ invocation_props i
                           ++ [("InformationalRecord_PipelineIterationInfo"%string, r_list (in_iteration r))]
         | _, _ => [("InformationalRecord_SerializeInvocationInfo"%string, RBool false)]
         end).
  Definition informational_declared : list string := ["Message"; "InvocationInfo"; "PipelineIterationInfo"]%string.
  Definition read_informational (declared : list string) (ps : props) : result informational :=
    let get := attribute declared ps in
    let! se := get "InformationalRecord_SerializeInvocationInfo"%string in
    let! got :=
      if truthy se then
        let! it := get "InformationalRecord_PipelineIterationInfo"%string in let! i := read_invocation declared ps in
        let! it := c_list it in Ok (it, Some i)
      else Ok (None, None) in
    let '(it, i) := got in
    let! m := get "InformationalRecord_Message"%string in let! m := c_text m in
    let! se := c_true se in
    Ok (mkInformational m i it se None []).
End Records.

(** ** Progress records as elements of their own *)
(** ProgressRecord, lines 1007-1045: Activity, ActivityId, ...; the type is 0 (Processing) or 1 (Completed), lines 121-134. *)
Record progress_record := mkPR {
  pg_activity : option (list N); pg_id : option Z; pg_operation : option (list N); pg_parent : option Z;
  pg_percent : option Z; pg_type : option Z; pg_seconds : option Z; pg_status : option (list N) }.
Definition type_names_of_progress : list string := ["Processing"; "Completed"]%string.
(** str(value) *)
Definition str_opt_int (o : option Z) : list N := match o with Some z => str_int z | None => tx "None" end.
Definition leaf (n : string) (s : list N) : node := Node (tx n) [] s [].
(** types/_serializer.py:794-809; a record with added properties goes into an Obj, as other values do. *)
Definition write_progress (p : progress_record) : result node :=
  let! a := given (pg_activity p) in
  let! t := match pg_type p with
            | None => Err AttributeError
            | Some z => match nth_error type_names_of_progress (Z.to_nat z) with Some n => Ok (tx n) | None => Err ValueError end
            end in
  let! s := given (pg_status p) in
  Ok (Node (tx "PR") [] []
    [leaf "AV" (serialize_string a); leaf "AI" (str_opt_int (pg_id p));
     match pg_operation p with None => leaf "Nil" [] | Some o => leaf "S" (serialize_string o) end;
     leaf "PI" (str_opt_int (pg_parent p)); leaf "PC" (str_opt_int (pg_percent p)); leaf "T" (serialize_string t);
     leaf "SR" (str_opt_int (pg_seconds p)); leaf "SD" (serialize_string s)]).
(** element.find(tag).text; a missing element or empty text is skipped, types/_serializer.py:433-435. *)
Fixpoint find_text (k : list N) (l : list node) : option (list N) :=
  match l with
  | [] => None
  | Node n _ t _ :: r => if name_eqb n k then match t with [] => None | _ => Some t end else find_text k r
  end.
Definition read_opt {A} (f : list N -> result A) (o : option (list N)) : result (option A) :=
  match o with None => Ok None | Some t => let! x := f t in Ok (Some x) end.
(** ProgressRecordType[name] *)
Definition progress_type (t : list N) : result Z :=
  let! s := deserialize_string t in
  if name_eqb s (tx "Processing") then Ok 0%Z else if name_eqb s (tx "Completed") then Ok 1%Z else Err KeyError.
(** A keyword argument of type PSInt, and one left out for which the class has a default. *)
Definition int32_arg (o : option Z) (d : Z) : result (option Z) :=
  match o with None => Ok (Some d) | Some z => let! z := new_int TInt32 (AInt z) in Ok (Some z) end.
(** _deserialize_progress_record, types/_serializer.py:406-448, with ProgressRecord.__init__: three arguments are
    mandatory. *)
Definition read_progress (x : node) : result progress_record :=
  let 'Node _ _ _ kids := x in
  let find k := find_text (tx k) kids in
  let! a := read_opt deserialize_string (find "AV"%string) in let! i := read_opt parse_int (find "AI"%string) in
  let! o := read_opt deserialize_string (find "S"%string) in let! pi := read_opt parse_int (find "PI"%string) in
  let! pc := read_opt parse_int (find "PC"%string) in let! t := read_opt progress_type (find "T"%string) in
  let! sr := read_opt parse_int (find "SR"%string) in let! sd := read_opt deserialize_string (find "SD"%string) in
  match a, i, sd with
  | Some a, Some i, Some sd =>
    let! i := new_int TInt32 (AInt i) in let! pi := int32_arg pi (-1)%Z in let! pc := int32_arg pc (-1)%Z in
    let! sr := int32_arg sr (-1)%Z in
    Ok (mkPR (Some a) (Some i) o pi pc (Some (match t with Some t => t | None => 0%Z end)) sr (Some sd))
  | _, _, _ => Err TypeError
  end.
