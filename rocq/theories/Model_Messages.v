(** PSRP messages as CLIXML: the message classes of src/psrpcore/types/_psrp.py, the data prepare_message makes of
    them (_base.py:375-399) and what _process_message (_base.py:426-456) and the events of _events.py read back.

    Parts of a message that are objects (HostInfo, PowerShell, ErrorRecord, lists, user values) are values in a heap,
    in the form their ToPSObjectForRemoting has given them (Model_Host.v, Model_Command.v).  An accessor that meets a
    value of another type than its class declares hands it on unchecked in Python; here that is [Err TypeError].
    None and a falsy object are not told apart where the code only asks for truth (me, ExceptionAsErrorRecord,
    TimeZone). *)
From Coq Require Import String.
From Verif Require Import Base Model_Scalars Model_Strings Model_Text Model_Object Model_Clixml Model_Xml Model_Utf8.
Local Open Scope list_scope.

(** PSRPMessageType, types/_psrp.py:46-83. *)
Inductive mkind :=
| KSessionCapability | KInitRunspacePool | KPublicKey | KEncryptedSessionKey | KPublicKeyRequest | KConnectRunspacePool
| KSetMaxRunspaces | KSetMinRunspaces | KRunspaceAvailability | KRunspacePoolState | KCreatePipeline
| KGetAvailableRunspaces | KUserEvent | KApplicationPrivateData | KGetCommandMetadata | KRunspacePoolInitData
| KResetRunspaceState | KRunspacePoolHostCall | KRunspacePoolHostResponse | KPipelineInput | KEndOfPipelineInput
| KPipelineOutput | KErrorRecord | KPipelineState | KDebugRecord | KVerboseRecord | KWarningRecord | KProgressRecord
| KInformationRecord | KPipelineHostCall | KPipelineHostResponse.
Definition code (k : mkind) : N :=
  match k with
  | KSessionCapability => 0x00010002 | KInitRunspacePool => 0x00010004 | KPublicKey => 0x00010005
  | KEncryptedSessionKey => 0x00010006 | KPublicKeyRequest => 0x00010007 | KConnectRunspacePool => 0x00010008
  | KSetMaxRunspaces => 0x00021002 | KSetMinRunspaces => 0x00021003 | KRunspaceAvailability => 0x00021004
  | KRunspacePoolState => 0x00021005 | KCreatePipeline => 0x00021006 | KGetAvailableRunspaces => 0x00021007
  | KUserEvent => 0x00021008 | KApplicationPrivateData => 0x00021009 | KGetCommandMetadata => 0x0002100A
  | KRunspacePoolInitData => 0x0002100B | KResetRunspaceState => 0x0002100C | KRunspacePoolHostCall => 0x00021100
  | KRunspacePoolHostResponse => 0x00021101 | KPipelineInput => 0x00041002 | KEndOfPipelineInput => 0x00041003
  | KPipelineOutput => 0x00041004 | KErrorRecord => 0x00041005 | KPipelineState => 0x00041006
  | KDebugRecord => 0x00041007 | KVerboseRecord => 0x00041008 | KWarningRecord => 0x00041009
  | KProgressRecord => 0x00041010 | KInformationRecord => 0x00041011 | KPipelineHostCall => 0x00041100
  | KPipelineHostResponse => 0x00041101
  end%N.
Definition kinds : list mkind :=
  [KSessionCapability; KInitRunspacePool; KPublicKey; KEncryptedSessionKey; KPublicKeyRequest; KConnectRunspacePool;
   KSetMaxRunspaces; KSetMinRunspaces; KRunspaceAvailability; KRunspacePoolState; KCreatePipeline;
   KGetAvailableRunspaces; KUserEvent; KApplicationPrivateData; KGetCommandMetadata; KRunspacePoolInitData;
   KResetRunspaceState; KRunspacePoolHostCall; KRunspacePoolHostResponse; KPipelineInput; KEndOfPipelineInput;
   KPipelineOutput; KErrorRecord; KPipelineState; KDebugRecord; KVerboseRecord; KWarningRecord; KProgressRecord;
   KInformationRecord; KPipelineHostCall; KPipelineHostResponse].
(** PSRPMessageType(value) *)
Definition kind_of_code (n : N) : option mkind := find (fun k => (code k =? n)%N) kinds.

(** The four records that are sent as they are: ErrorRecordMsg, DebugRecordMsg, VerboseRecordMsg, WarningRecordMsg. *)
Inductive rec_kind := RecError | RecDebug | RecVerbose | RecWarning.
Definition text := list N.
(** One constructor for each class, its arguments in the order in which they are written. *)
Inductive message :=
| WSessionCapability (ps proto ser : version) (tz : list N)                                             (* 117-155 *)
| WInitRunspacePool (mn mx : Z) (thread apartment : member) (host args : value)                         (* 158-183 *)
| WPublicKey (key : list N)                                                                             (* 186-201 *)
| WEncryptedSessionKey (key : list N)                                                                   (* 204-225 *)
| WPublicKeyRequest                                                                                     (* 228-235 *)
| WSetMaxRunspaces (n ci : Z)                                                                           (* 238-254 *)
| WSetMinRunspaces (n ci : Z)                                                                           (* 257-273 *)
| WRunspaceAvailability (r : bool + Z) (ci : Z)                                                         (* 276-295 *)
| WRunspacePoolState (s : Z) (error : value)                                                            (* 298-329 *)
| WCreatePipeline (no_input : bool) (apartment options : member) (history : bool) (host powershell : value) (nested : bool) (* 332-362 *)
| WGetAvailableRunspaces (ci : Z)                                                                       (* 365-380 *)
| WUserEvent (id : option Z) (source : option text) (time : option datetime) (sender args data : value)
             (computer : option text) (runspace : option N)                                             (* 383-447 *)
| WApplicationPrivateData (data : value)                                                                (* 450-467 *)
| WGetCommandMetadata (names : value) (types : member) (namespace args : value)                         (* 470-494 *)
| WHostCall (pipeline : bool) (ci : Z) (mi : member) (mp : value)                                       (* 497-516, 740-752 *)
| WHostResponse (pipeline : bool) (ci : Z) (mi : member) (mr me : value)                                (* 519-558, 755-767 *)
| WPipelineInput (v : value)                                                                            (* 561-568 *)
| WEndOfPipelineInput                                                                                   (* 571-578 *)
| WPipelineOutput (v : option value)      (* 581-589; None is prepare_message(None), sent without data *)
| WRecord (k : rec_kind) (v : value)                                                                    (* 592-598, 635-661 *)
| WPipelineState (s : Z) (error : value)                                                                (* 601-632 *)
| WProgressRecord (activity : option text) (id : option Z) (status operation : option text)
                  (parent percent : option Z) (type : option member) (seconds : option Z)               (* 664-698 *)
| WInformationRecord (data : value) (source : option text) (time : option datetime) (tags : value)
                     (user computer : option text) (process native managed : option Z)                  (* 701-737 *)
| WConnectRunspacePool (mn mx : option Z)                                                               (* 770-809 *)
| WRunspacePoolInitData (mn mx : Z)                                                                     (* 812-831 *)
| WResetRunspaceState (ci : Z).                                                                         (* 834-849 *)
Definition kind (m : message) : mkind :=
  match m with
  | WSessionCapability _ _ _ _ => KSessionCapability | WInitRunspacePool _ _ _ _ _ _ => KInitRunspacePool
  | WPublicKey _ => KPublicKey | WEncryptedSessionKey _ => KEncryptedSessionKey | WPublicKeyRequest => KPublicKeyRequest
  | WSetMaxRunspaces _ _ => KSetMaxRunspaces | WSetMinRunspaces _ _ => KSetMinRunspaces
  | WRunspaceAvailability _ _ => KRunspaceAvailability | WRunspacePoolState _ _ => KRunspacePoolState
  | WCreatePipeline _ _ _ _ _ _ _ => KCreatePipeline | WGetAvailableRunspaces _ => KGetAvailableRunspaces
  | WUserEvent _ _ _ _ _ _ _ _ => KUserEvent | WApplicationPrivateData _ => KApplicationPrivateData
  | WGetCommandMetadata _ _ _ _ => KGetCommandMetadata
  | WHostCall b _ _ _ => if b then KPipelineHostCall else KRunspacePoolHostCall
  | WHostResponse b _ _ _ _ => if b then KPipelineHostResponse else KRunspacePoolHostResponse
  | WPipelineInput _ => KPipelineInput | WEndOfPipelineInput => KEndOfPipelineInput | WPipelineOutput _ => KPipelineOutput
  | WRecord RecError _ => KErrorRecord | WRecord RecDebug _ => KDebugRecord | WRecord RecVerbose _ => KVerboseRecord
  | WRecord RecWarning _ => KWarningRecord
  | WPipelineState _ _ => KPipelineState | WProgressRecord _ _ _ _ _ _ _ _ => KProgressRecord
  | WInformationRecord _ _ _ _ _ _ _ _ _ => KInformationRecord | WConnectRunspacePool _ _ => KConnectRunspacePool
  | WRunspacePoolInitData _ _ => KRunspacePoolInitData | WResetRunspaceState _ => KResetRunspaceState
  end.

(** ** Writing *)
(** A property declared with ps_type=PSInt and the like casts what it is given, _base.py:369-375. *)
Definition int_value (t : int_type) (z : Z) : result value := let! n := new_int t (AInt z) in Ok (VPrim (PInt t n)).
Definition opt_int (t : int_type) (z : option Z) : result value := match z with Some n => int_value t n | None => Ok VNull end.
Definition opt {A} (f : A -> prim) (x : option A) : value := match x with Some a => VPrim (f a) | None => VNull end.
Definition opt_text : option text -> value := opt (PStr KString).
Definition opt_member (e : option member) : value := match e with Some m => VEnum m | None => VNull end.
Definition unless_null (n : name) (v : value) : list (name * value) := match v with VNull => [] | _ => [(n, v)] end.
(** What is handed to the serializer: nothing (no data), a value, or a new object without type names. *)
Inductive shape := Nothing | One (v : value) | Props (l : list (name * value)).
(** [if instance.MinRunspaces: add_note_property(obj, ..., PSInt)], 797-803. *)
Definition count_prop (n : name) (z : option Z) : result (list (name * value)) :=
  match z with
  | None => Ok []
  | Some c => if (c =? 0)%Z then Ok [] else let! v := int_value TInt32 c in Ok [(n, v)]
  end.
Definition message_shape (m : message) : result shape :=
  match m with
  | WSessionCapability ps proto ser tz =>
    Ok (Props ([(tx "PSVersion", VPrim (PVer ps)); (tx "protocolversion", VPrim (PVer proto)); (tx "SerializationVersion", VPrim (PVer ser))]
               ++ match tz with [] => [] | _ => [(tx "TimeZone", VPrim (PBytes tz))] end))
  | WInitRunspacePool mn mx thread apartment host args =>
    let! a := int_value TInt32 mn in let! b := int_value TInt32 mx in
    Ok (Props [(tx "MinRunspaces", a); (tx "MaxRunspaces", b); (tx "PSThreadOptions", VEnum thread); (tx "ApartmentState", VEnum apartment);
               (tx "HostInfo", host); (tx "ApplicationArguments", args)])
  | WPublicKey k => Ok (Props [(tx "PublicKey", VPrim (PStr KString (b64_encode k)))])
  | WEncryptedSessionKey k => Ok (Props [(tx "EncryptedSessionKey", VPrim (PStr KString (b64_encode k)))])
  | WPublicKeyRequest => Ok (One (VPrim (PStr KString [])))
  | WSetMaxRunspaces n ci =>
    let! a := int_value TInt32 n in let! b := int_value TInt64 ci in Ok (Props [(tx "MaxRunspaces", a); (tx "ci", b)])
  | WSetMinRunspaces n ci =>
    let! a := int_value TInt32 n in let! b := int_value TInt64 ci in Ok (Props [(tx "MinRunspaces", a); (tx "ci", b)])
  | WRunspaceAvailability r ci =>
    let! b := int_value TInt64 ci in
    Ok (Props [(tx "SetMinMaxRunspacesResponse", match r with inl x => VBool x | inr n => VPrim (PPlainInt n) end); (tx "ci", b)])
  | WRunspacePoolState s e =>
    let! a := int_value TInt32 s in Ok (Props ((tx "RunspaceState", a) :: unless_null (tx "ExceptionAsErrorRecord") e))
  | WCreatePipeline no_input apartment options history host powershell nested =>
    Ok (Props [(tx "NoInput", VBool no_input); (tx "ApartmentState", VEnum apartment); (tx "RemoteStreamOptions", VEnum options);
               (tx "AddToHistory", VBool history); (tx "HostInfo", host); (tx "PowerShell", powershell); (tx "IsNested", VBool nested)])
  | WGetAvailableRunspaces ci => let! b := int_value TInt64 ci in Ok (Props [(tx "ci", b)])
  | WUserEvent id source time sender args data computer runspace =>
    let! a := opt_int TInt32 id in
    Ok (Props [(tx "PSEventArgs.EventIdentifier", a); (tx "PSEventArgs.SourceIdentifier", opt_text source);
               (tx "PSEventArgs.TimeGenerated", opt PDate time); (tx "PSEventArgs.Sender", sender); (tx "PSEventArgs.SourceArgs", args);
               (tx "PSEventArgs.MessageData", data); (tx "PSEventArgs.ComputerName", opt_text computer);
               (tx "PSEventArgs.RunspaceId", opt PGuid runspace)])
  | WApplicationPrivateData d => Ok (Props [(tx "ApplicationPrivateData", d)])
  | WGetCommandMetadata names types namespace args =>
    Ok (Props [(tx "Name", names); (tx "CommandType", VEnum types); (tx "Namespace", namespace); (tx "ArgumentList", args)])
  | WHostCall _ ci mi mp =>
    let! b := int_value TInt64 ci in Ok (Props [(tx "ci", b); (tx "mi", VEnum mi); (tx "mp", mp)])
  | WHostResponse _ ci mi mr me =>
    let! b := int_value TInt64 ci in
    Ok (Props ([(tx "ci", b); (tx "mi", VEnum mi)] ++ unless_null (tx "mr") mr ++ unless_null (tx "me") me))
  | WPipelineInput v => Ok (One v)
  | WEndOfPipelineInput => Ok Nothing
  | WPipelineOutput None => Ok Nothing
  | WPipelineOutput (Some v) => Ok (One v)
  | WRecord _ v => Ok (One v)
  | WPipelineState s e =>
    let! a := int_value TInt32 s in Ok (Props ((tx "PipelineState", a) :: unless_null (tx "ExceptionAsErrorRecord") e))
  | WProgressRecord activity id status operation parent percent type seconds =>
    let! a := opt_int TInt32 id in let! b := opt_int TInt32 parent in let! c := opt_int TInt32 percent in let! d := opt_int TInt32 seconds in
    Ok (Props [(tx "Activity", opt_text activity); (tx "ActivityId", a); (tx "StatusDescription", opt_text status);
               (tx "CurrentOperation", opt_text operation); (tx "ParentActivityId", b); (tx "PercentComplete", c);
               (tx "Type", opt_member type); (tx "SecondsRemaining", d)])
  | WInformationRecord data source time tags user computer process native managed =>
    let! a := opt_int TUInt32 process in let! b := opt_int TUInt32 native in let! c := opt_int TUInt32 managed in
    Ok (Props [(tx "MessageData", data); (tx "Source", opt_text source); (tx "TimeGenerated", opt PDate time); (tx "Tags", tags);
               (tx "User", opt_text user); (tx "Computer", opt_text computer); (tx "ProcessId", a); (tx "NativeThreadId", b);
               (tx "ManagedThreadId", c)])
  | WConnectRunspacePool mn mx =>
    let! a := count_prop (tx "MinRunspaces") mn in let! b := count_prop (tx "MaxRunspaces") mx in
    Ok (match a ++ b with [] => One (VPrim (PStr KString [])) | l => Props l end)
  | WRunspacePoolInitData mn mx =>
    let! a := int_value TInt32 mn in let! b := int_value TInt32 mx in Ok (Props [(tx "MinRunspaces", a); (tx "MaxRunspaces", b)])
  | WResetRunspaceState ci => let! b := int_value TInt64 ci in Ok (Props [(tx "ci", b)])
  end.
(** The b_data of prepare_message, _base.py:375-399.  [h] holds the objects the message mentions, [a] is the address of
    the new object; the serializer starts anew for each message. *)
Definition value_data (fuel : nat) (h : heap) (v : value) : result (list N) :=
  let! r := ser fuel (s_init h) v in Ok (utf8_encode (print (raw (fst r)))).
Definition message_data (fuel : nat) (h : heap) (a : N) (m : message) : result (list N) :=
  let! s := message_shape m in
  match s with
  | Nothing => Ok []
  | One v => value_data fuel h v
  | Props l => value_data fuel ((a, mkG BPlain [] None [] l) :: h) (VRef a)
  end.

(** ** Reading *)
(** getattr: extended properties hide adapted ones.  Numbers, strings and None have no such properties. *)
Definition prop (h : heap) (v : value) (n : name) : option value :=
  match v with
  | VRef a => match aget a h with
              | Some o => match sget n (g_extended o) with Some x => Some x | None => sget n (g_adapted o) end
              | None => None
              end
  | _ => None
  end.
Definition need (h : heap) (v : value) (n : string) : result value :=
  match prop h v (tx n) with Some x => Ok x | None => Err AttributeError end.
(** getattr(obj, n, None) *)
Definition maybe (h : heap) (v : value) (n : string) : value := match prop h v (tx n) with Some x => x | None => VNull end.
Definition as_int (v : value) : result Z := match v with VPrim (PInt _ z) => Ok z | _ => Err TypeError end.
Definition as_bool (v : value) : result bool := match v with VBool b => Ok b | _ => Err TypeError end.
Definition as_ver (v : value) : result version := match v with VPrim (PVer x) => Ok x | _ => Err TypeError end.
Definition as_text (v : value) : result text := match v with VPrim (PStr _ s) => Ok s | _ => Err TypeError end.
Definition as_bytes (v : value) : result (list N) := match v with VPrim (PBytes l) => Ok l | _ => Err TypeError end.
Definition as_date (v : value) : result datetime := match v with VPrim (PDate d) => Ok d | _ => Err TypeError end.
Definition as_guid (v : value) : result N := match v with VPrim (PGuid n) => Ok n | _ => Err TypeError end.
Definition as_member (v : value) : result member := match v with VEnum e => Ok e | _ => Err TypeError end.
Definition as_opt {A} (f : value -> result A) (v : value) : result (option A) :=
  match v with VNull => Ok None | _ => let! x := f v in Ok (Some x) end.
(** RunspacePoolState(value) and PSInvocationState(value). *)
Definition as_state (last : Z) (v : value) : result Z :=
  let! z := as_int v in if ((0 <=? z) && (z <=? last))%Z then Ok z else Err ValueError.
(** base64.b64decode, _events.py:436,851. *)
Definition as_key (v : value) : result (list N) := let! s := as_text v in b64_decode s.
(** _events.py:910-913, 939, 962: a bool or a count. *)
Definition as_availability (v : value) : result (bool + Z) :=
  match v with VBool b => Ok (inl b) | _ => let! z := as_int v in Ok (inr z) end.
(** The event of a message of a kind and what its accessors give, _events.py:287-1260. *)
Definition read_event (h : heap) (k : mkind) (v : value) : result message :=
  let get {A} (n : string) (f : value -> result A) : result A := let! x := need h v n in f x in
  match k with
  | KSessionCapability =>
    let! a := get "PSVersion"%string as_ver in let! b := get "protocolversion"%string as_ver in
    let! c := get "SerializationVersion"%string as_ver in let! d := as_opt as_bytes (maybe h v "TimeZone") in
    Ok (WSessionCapability a b c (match d with Some l => l | None => [] end))
  | KInitRunspacePool =>
    let! a := get "MinRunspaces"%string as_int in let! b := get "MaxRunspaces"%string as_int in
    let! c := get "PSThreadOptions"%string as_member in let! d := get "ApartmentState"%string as_member in
    let! e := need h v "HostInfo" in let! f := need h v "ApplicationArguments" in Ok (WInitRunspacePool a b c d e f)
  | KPublicKey => let! a := get "PublicKey"%string as_key in Ok (WPublicKey a)
  | KEncryptedSessionKey => let! a := get "EncryptedSessionKey"%string as_key in Ok (WEncryptedSessionKey a)
  | KPublicKeyRequest => Ok WPublicKeyRequest
  | KSetMaxRunspaces => let! a := get "MaxRunspaces"%string as_int in let! b := get "ci"%string as_int in Ok (WSetMaxRunspaces a b)
  | KSetMinRunspaces => let! a := get "MinRunspaces"%string as_int in let! b := get "ci"%string as_int in Ok (WSetMinRunspaces a b)
  | KRunspaceAvailability =>
    let! a := get "SetMinMaxRunspacesResponse"%string as_availability in let! b := get "ci"%string as_int in Ok (WRunspaceAvailability a b)
  | KRunspacePoolState =>
    let! a := get "RunspaceState"%string (as_state 8) in Ok (WRunspacePoolState a (maybe h v "ExceptionAsErrorRecord"))
  | KCreatePipeline =>
    let! a := get "NoInput"%string as_bool in let! b := get "ApartmentState"%string as_member in
    let! c := get "RemoteStreamOptions"%string as_member in let! d := get "AddToHistory"%string as_bool in
    let! e := need h v "HostInfo" in let! f := need h v "PowerShell" in let! g := get "IsNested"%string as_bool in
    Ok (WCreatePipeline a b c d e f g)
  | KGetAvailableRunspaces => let! a := get "ci"%string as_int in Ok (WGetAvailableRunspaces a)
  | KUserEvent =>
    let! a := get "PSEventArgs.EventIdentifier"%string (as_opt as_int) in let! b := get "PSEventArgs.SourceIdentifier"%string (as_opt as_text) in
    let! c := get "PSEventArgs.TimeGenerated"%string (as_opt as_date) in let! d := need h v "PSEventArgs.Sender" in
    let! e := need h v "PSEventArgs.SourceArgs" in let! f := need h v "PSEventArgs.MessageData" in
    let! g := get "PSEventArgs.ComputerName"%string (as_opt as_text) in let! i := get "PSEventArgs.RunspaceId"%string (as_opt as_guid) in
    Ok (WUserEvent a b c d e f g i)
  | KApplicationPrivateData => let! a := need h v "ApplicationPrivateData" in Ok (WApplicationPrivateData a)
  | KGetCommandMetadata =>
    let! a := need h v "Name" in let! b := get "CommandType"%string as_member in let! c := need h v "Namespace" in
    let! d := need h v "ArgumentList" in Ok (WGetCommandMetadata a b c d)
  | KRunspacePoolHostCall | KPipelineHostCall =>
    let! a := get "ci"%string as_int in let! b := get "mi"%string as_member in let! c := need h v "mp" in
    Ok (WHostCall (match k with KPipelineHostCall => true | _ => false end) a b c)
  | KRunspacePoolHostResponse | KPipelineHostResponse =>
    let! a := get "ci"%string as_int in let! b := get "mi"%string as_member in
    Ok (WHostResponse (match k with KPipelineHostResponse => true | _ => false end) a b (maybe h v "mr") (maybe h v "me"))
  | KPipelineInput => Ok (WPipelineInput v)
  | KEndOfPipelineInput => Ok WEndOfPipelineInput
  | KPipelineOutput => Ok (WPipelineOutput (Some v))
  | KErrorRecord => Ok (WRecord RecError v)
  | KDebugRecord => Ok (WRecord RecDebug v)
  | KVerboseRecord => Ok (WRecord RecVerbose v)
  | KWarningRecord => Ok (WRecord RecWarning v)
  | KPipelineState =>
    let! a := get "PipelineState"%string (as_state 6) in Ok (WPipelineState a (maybe h v "ExceptionAsErrorRecord"))
  | KProgressRecord =>
    let! a := get "Activity"%string (as_opt as_text) in let! b := get "ActivityId"%string (as_opt as_int) in
    let! c := get "StatusDescription"%string (as_opt as_text) in let! d := get "CurrentOperation"%string (as_opt as_text) in
    let! e := get "ParentActivityId"%string (as_opt as_int) in let! f := get "PercentComplete"%string (as_opt as_int) in
    let! g := get "Type"%string (as_opt as_member) in let! i := get "SecondsRemaining"%string (as_opt as_int) in
    Ok (WProgressRecord a b c d e f g i)
  | KInformationRecord =>
    let! a := need h v "MessageData" in let! b := get "Source"%string (as_opt as_text) in
    let! c := get "TimeGenerated"%string (as_opt as_date) in let! d := need h v "Tags" in let! e := get "User"%string (as_opt as_text) in
    let! f := get "Computer"%string (as_opt as_text) in let! g := get "ProcessId"%string (as_opt as_int) in
    let! i := get "NativeThreadId"%string (as_opt as_int) in let! j := get "ManagedThreadId"%string (as_opt as_int) in
    Ok (WInformationRecord a b c d e f g i j)
  | KConnectRunspacePool =>
    let! a := as_opt as_int (maybe h v "MinRunspaces") in let! b := as_opt as_int (maybe h v "MaxRunspaces") in
    Ok (WConnectRunspacePool a b)
  | KRunspacePoolInitData => let! a := get "MinRunspaces"%string as_int in let! b := get "MaxRunspaces"%string as_int in Ok (WRunspacePoolInitData a b)
  | KResetRunspaceState => let! a := get "ci"%string as_int in Ok (WResetRunspaceState a)
  end.
(** _process_message up to the event, _base.py:426-456; the heap of the objects that were read. *)
Definition read_message (reg : registry) (k : mkind) (data : list N) : result (message * heap) :=
  let! s := utf8_decode data in
  match k, data with
  | KEndOfPipelineInput, _ => Ok (WEndOfPipelineInput, [])
  | KPipelineOutput, [] => Ok (WPipelineOutput None, [])
  | _, _ =>
    let! x := parse s in
    let! r := deserialize reg d_init (cook x) in
    let! m := read_event (d_heap (snd r)) k (fst r) in
    Ok (m, d_heap (snd r))
  end.
