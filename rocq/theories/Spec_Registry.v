(** Which class stands for which message (C86).  Nothing here keeps a dictionary. *)
From Coq Require Import String.
From Verif Require Import Base Model_Clixml Model_Messages Model_Registry.
Local Open Scope list_scope.

(** After the declarations [ds] the class [c] is one for messages [k]: the last word on it. *)
Definition class_for (ds : list declaration) (c : list N) (k : mkind) : Prop :=
  exists before after, ds = before ++ Declare c k :: after /\ forall k', ~ In (Declare c k') after.
(** What an event class is for, where [ds] has been declared. *)
Definition meant (ds : list declaration) (e : event_class) (k : mkind) : Prop :=
  match ev_arg e with
  | Some c => class_for ds c k
  | None => (exists a b, tx "psrpcore._events" = a ++ ev_module e ++ b)
            /\ (ev_name e = tx "PipelineInputEvent" /\ k = KPipelineInput \/ ev_name e = tx "PipelineOutputEvent" /\ k = KPipelineOutput)
  end.
(** [e] is the last event class for messages [k]. *)
Definition serves (ds : list declaration) (k : mkind) (e : event_class) : Prop :=
  exists before after, ds = before ++ Register e :: after /\ meant before e k
  /\ forall b e' a, after = b ++ Register e' :: a -> ~ meant (before ++ Register e :: b) e' k.
(** The names that PSRPMessageType gives its members. *)
Definition member_name (k : mkind) : string :=
  match k with
  | KSessionCapability => "SessionCapability" | KInitRunspacePool => "InitRunspacePool" | KPublicKey => "PublicKey"
  | KEncryptedSessionKey => "EncryptedSessionKey" | KPublicKeyRequest => "PublicKeyRequest" | KConnectRunspacePool => "ConnectRunspacePool"
  | KSetMaxRunspaces => "SetMaxRunspaces" | KSetMinRunspaces => "SetMinRunspaces" | KRunspaceAvailability => "RunspaceAvailability"
  | KRunspacePoolState => "RunspacePoolState" | KCreatePipeline => "CreatePipeline" | KGetAvailableRunspaces => "GetAvailableRunspaces"
  | KUserEvent => "UserEvent" | KApplicationPrivateData => "ApplicationPrivateData" | KGetCommandMetadata => "GetCommandMetadata"
  | KRunspacePoolInitData => "RunspacePoolInitData" | KResetRunspaceState => "ResetRunspaceState" | KRunspacePoolHostCall => "RunspacePoolHostCall"
  | KRunspacePoolHostResponse => "RunspacePoolHostResponse" | KPipelineInput => "PipelineInput" | KEndOfPipelineInput => "EndOfPipelineInput"
  | KPipelineOutput => "PipelineOutput" | KErrorRecord => "ErrorRecord" | KPipelineState => "PipelineState" | KDebugRecord => "DebugRecord"
  | KVerboseRecord => "VerboseRecord" | KWarningRecord => "WarningRecord" | KProgressRecord => "ProgressRecord"
  | KInformationRecord => "InformationRecord" | KPipelineHostCall => "PipelineHostCall" | KPipelineHostResponse => "PipelineHostResponse"
  end.
