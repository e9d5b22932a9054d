(** Which class stands for which message: the registry of message classes that PSMessageType fills (types/_psrp.py:84-114), the
    registry of event classes that RegisterEvent fills (_events.py:253-277) and PSRPEvent.create, which looks into the latter
    (_events.py:240-250).  A class is told by its qualified name, which is enough inside of one module; an event class carries the
    first type argument of its first generic base, [None] for typing.Any, as a subclass without arguments inherits it. *)
From Coq Require Import String.
From Verif Require Import Base Model_Scalars Model_Text Model_Clixml Model_Messages.
Local Open Scope list_scope.

Record event_class := { ev_module : list N; ev_name : list N; ev_arg : option (list N) }.
(** A class statement under one of the two decorators. *)
Inductive declaration := Declare (c : list N) (k : mkind) | Register (e : event_class).
(** The two dictionaries, the newest entry first. *)
Record registries := { classes : list (list N * mkind); events : list (mkind * event_class) }.
Definition same_text (a b : list N) : bool := list_eqb N.eqb a b.
Definition class_kind (r : registries) (c : list N) : option mkind := option_map snd (find (fun x => same_text (fst x) c) (classes r)).
Definition kind_event (r : registries) (k : mkind) : option event_class := option_map snd (find (fun x => (code (fst x) =? code k)%N) (events r)).
(** [a in b] for strings *)
Fixpoint within (a b : list N) : bool := begins a b || match b with [] => false | _ :: t => within a t end.
Definition events_module : list N := tx "psrpcore._events".

(** RegisterEvent, lines 262-275: [Ok None] is a class that is left out. *)
Definition message_id (r : registries) (e : event_class) : result (option mkind) :=
  match ev_arg e with
  | Some c => match class_kind r c with Some k => Ok (Some k) | None => Err KeyError end
  | None =>
    if within (ev_module e) events_module then
      if same_text (ev_name e) (tx "PipelineInputEvent") then Ok (Some KPipelineInput)
      else if same_text (ev_name e) (tx "PipelineOutputEvent") then Ok (Some KPipelineOutput)
      else Err KeyError
    else Ok None
  end.
Definition perform (r : registries) (d : declaration) : result registries :=
  match d with
  | Declare c k => Ok {| classes := (c, k) :: classes r; events := events r |}
  | Register e =>
    let! i := message_id r e in
    match i with Some k => Ok {| classes := classes r; events := (k, e) :: events r |} | None => Ok r end
  end.
(** One declaration after the other; one that raises changes nothing. *)
Definition after (r : registries) (ds : list declaration) : registries :=
  fold_left (fun r d => match perform r d with Ok r' => r' | Err _ => r end) ds r.
Definition none_yet : registries := {| classes := []; events := [] |}.
(** PSRPEvent.create and PSRPMessageType.get_message_id *)
Definition create_event {O P : Type} (r : registries) (k : mkind) (object : O) (pool : N) (pipeline : P) : result (event_class * (mkind * O * N * P)) :=
  match kind_event r k with Some e => Ok (e, (k, object, pool, pipeline)) | None => Err KeyError end.
Definition get_message_id (r : registries) (c : list N) : result mkind := match class_kind r c with Some k => Ok k | None => Err KeyError end.

(** The classes of types/_psrp.py:117-850, in their order. *)
Definition message_classes : list declaration :=
  [Declare (tx "SessionCapability") KSessionCapability; Declare (tx "InitRunspacePool") KInitRunspacePool; Declare (tx "PublicKey") KPublicKey;
   Declare (tx "EncryptedSessionKey") KEncryptedSessionKey; Declare (tx "PublicKeyRequest") KPublicKeyRequest; Declare (tx "SetMaxRunspaces") KSetMaxRunspaces;
   Declare (tx "SetMinRunspaces") KSetMinRunspaces; Declare (tx "RunspaceAvailability") KRunspaceAvailability; Declare (tx "RunspacePoolStateMsg") KRunspacePoolState;
   Declare (tx "CreatePipeline") KCreatePipeline; Declare (tx "GetAvailableRunspaces") KGetAvailableRunspaces; Declare (tx "UserEvent") KUserEvent;
   Declare (tx "ApplicationPrivateData") KApplicationPrivateData; Declare (tx "GetCommandMetadata") KGetCommandMetadata;
   Declare (tx "RunspacePoolHostCall") KRunspacePoolHostCall; Declare (tx "RunspacePoolHostResponse") KRunspacePoolHostResponse;
   Declare (tx "PipelineInput") KPipelineInput; Declare (tx "EndOfPipelineInput") KEndOfPipelineInput; Declare (tx "PipelineOutput") KPipelineOutput;
   Declare (tx "ErrorRecordMsg") KErrorRecord; Declare (tx "PipelineState") KPipelineState; Declare (tx "DebugRecordMsg") KDebugRecord;
   Declare (tx "VerboseRecordMsg") KVerboseRecord; Declare (tx "WarningRecordMsg") KWarningRecord; Declare (tx "ProgressRecordMsg") KProgressRecord;
   Declare (tx "InformationRecordMsg") KInformationRecord; Declare (tx "PipelineHostCall") KPipelineHostCall; Declare (tx "PipelineHostResponse") KPipelineHostResponse;
   Declare (tx "ConnectRunspacePool") KConnectRunspacePool; Declare (tx "RunspacePoolInitData") KRunspacePoolInitData; Declare (tx "ResetRunspaceState") KResetRunspaceState].
(** The classes of _events.py:280-1374, in their order. *)
Definition own (n : string) (arg : option (list N)) : declaration := Register {| ev_module := events_module; ev_name := tx n; ev_arg := arg |}.
Definition event_classes : list declaration :=
  [own "ApplicationPrivateDataEvent" (Some (tx "ApplicationPrivateData")); own "ConnectRunspacePoolEvent" (Some (tx "ConnectRunspacePool"));
   own "CreatePipelineEvent" (Some (tx "CreatePipeline")); own "DebugRecordEvent" (Some (tx "DebugRecordMsg"));
   own "EncryptedSessionKeyEvent" (Some (tx "EncryptedSessionKey")); own "EndOfPipelineInputEvent" (Some (tx "EndOfPipelineInput"));
   own "ErrorRecordEvent" (Some (tx "ErrorRecordMsg")); own "GetAvailableRunspacesEvent" (Some (tx "GetAvailableRunspaces"));
   own "GetCommandMetadataEvent" (Some (tx "GetCommandMetadata")); own "InformationRecordEvent" (Some (tx "InformationRecordMsg"));
   own "InitRunspacePoolEvent" (Some (tx "InitRunspacePool")); own "PipelineHostCallEvent" (Some (tx "PipelineHostCall"));
   own "PipelineHostResponseEvent" (Some (tx "PipelineHostResponse")); own "PipelineInputEvent" None; own "PipelineOutputEvent" None;
   own "PipelineStateEvent" (Some (tx "PipelineState")); own "ProgressRecordEvent" (Some (tx "ProgressRecordMsg")); own "PublicKeyEvent" (Some (tx "PublicKey"));
   own "PublicKeyRequestEvent" (Some (tx "PublicKeyRequest")); own "ResetRunspaceStateEvent" (Some (tx "ResetRunspaceState"));
   own "RunspaceAvailabilityEvent" (Some (tx "RunspaceAvailability")); own "RunspacePoolHostCallEvent" (Some (tx "RunspacePoolHostCall"));
   own "RunspacePoolHostResponseEvent" (Some (tx "RunspacePoolHostResponse")); own "RunspacePoolInitDataEvent" (Some (tx "RunspacePoolInitData"));
   own "RunspacePoolStateEvent" (Some (tx "RunspacePoolStateMsg")); own "SessionCapabilityEvent" (Some (tx "SessionCapability"));
   own "SetMaxRunspacesEvent" (Some (tx "SetMaxRunspaces")); own "SetMinRunspacesEvent" (Some (tx "SetMinRunspaces"));
   own "UserEventEvent" (Some (tx "UserEvent")); own "VerboseRecordEvent" (Some (tx "VerboseRecordMsg")); own "WarningRecordEvent" (Some (tx "WarningRecordMsg"))].
Definition package : list declaration := message_classes ++ event_classes.
