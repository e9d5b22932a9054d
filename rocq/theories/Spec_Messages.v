(** Vocabulary for messages on the wire (C54): the fields of each message by the names MS-PSRP 2.2.2 gives them, and
    when two messages are the same.  Nothing here runs the model. *)
From Coq Require Import String.
From Verif Require Import Base Model_Scalars Model_Object Model_Clixml Model_Messages Spec_Scalars Spec_Clixml Spec_Xml.
Local Open Scope list_scope.

(** ** The same message *)
(** The objects and user values in a message, and the message without them. *)
Definition values (m : message) : list value :=
  match m with
  | WInitRunspacePool _ _ _ _ v w => [v; w] | WRunspacePoolState _ v => [v] | WCreatePipeline _ _ _ _ v w _ => [v; w]
  | WUserEvent _ _ _ u v w _ _ => [u; v; w] | WApplicationPrivateData v => [v] | WGetCommandMetadata u _ v w => [u; v; w]
  | WHostCall _ _ _ v => [v] | WHostResponse _ _ _ v w => [v; w] | WPipelineInput v => [v] | WPipelineOutput (Some v) => [v]
  | WRecord _ v => [v] | WPipelineState _ v => [v] | WInformationRecord v _ _ w _ _ _ _ _ => [v; w]
  | _ => []
  end.
Definition skeleton (m : message) : message :=
  match m with
  | WInitRunspacePool a b c d _ _ => WInitRunspacePool a b c d VNull VNull
  | WRunspacePoolState s _ => WRunspacePoolState s VNull
  | WCreatePipeline a b c d _ _ g => WCreatePipeline a b c d VNull VNull g
  | WUserEvent a b c _ _ _ g i => WUserEvent a b c VNull VNull VNull g i
  | WApplicationPrivateData _ => WApplicationPrivateData VNull
  | WGetCommandMetadata _ b _ _ => WGetCommandMetadata VNull b VNull VNull
  | WHostCall p a b _ => WHostCall p a b VNull | WHostResponse p a b _ _ => WHostResponse p a b VNull VNull
  | WPipelineInput _ => WPipelineInput VNull | WPipelineOutput (Some _) => WPipelineOutput (Some VNull)
  | WRecord k _ => WRecord k VNull | WPipelineState s _ => WPipelineState s VNull
  | WInformationRecord _ b c _ e f g i j => WInformationRecord VNull b c VNull e f g i j
  | m => m
  end.
(** [R] matches the objects of the two heaps, as for CLIXML (C21). *)
Definition same_message (R : N -> N -> Prop) (m m' : message) : Prop :=
  skeleton m' = skeleton m /\ Forall2 (same_value R) (values m) (values m').

(** ** Fields *)
Definition i32 (z : Z) : value := VPrim (PInt TInt32 z).
Definition i64 (z : Z) : value := VPrim (PInt TInt64 z).
Definition str (s : list N) : value := VPrim (PStr KString s).
Definition or_null {A} (f : A -> value) (x : option A) : value := match x with Some a => f a | None => VNull end.
(** Base64 (RFC 4648, section 4). *)
Definition letter64 (i : N) : N :=
  (if i <? 26 then 65 + i else if i <? 52 then 71 + i else if i <? 62 then i - 4 else if i =? 62 then 43 else 47)%N.
Fixpoint base64 (l : list N) : list N :=
  match l with
  | a :: b :: c :: t =>
    let n := (a * 65536 + b * 256 + c)%N in
    [letter64 (n / 262144); letter64 (n / 4096 mod 64); letter64 (n / 64 mod 64); letter64 (n mod 64)]%N ++ base64 t
  | [a; b] => let n := (a * 1024 + b * 4)%N in [letter64 (n / 4096); letter64 (n / 64 mod 64); letter64 (n mod 64); 61]%N
  | [a] => let n := (a * 16)%N in [letter64 (n / 64); letter64 (n mod 64); 61; 61]%N
  | [] => []
  end.
(** Every field of a message as a value of the type the protocol gives it; VNull for a missing optional one. *)
Definition fields (m : message) : list value :=
  match m with
  | WSessionCapability a b c d => [VPrim (PVer a); VPrim (PVer b); VPrim (PVer c); match d with [] => VNull | _ => VPrim (PBytes d) end]
  | WInitRunspacePool a b c d e f => [i32 a; i32 b; VEnum c; VEnum d; e; f]
  | WPublicKey k | WEncryptedSessionKey k => [str (base64 k)]
  | WPublicKeyRequest => [str []]
  | WSetMaxRunspaces n c | WSetMinRunspaces n c => [i32 n; i64 c]
  | WRunspaceAvailability r c => [match r with inl b => VBool b | inr n => VPrim (PPlainInt n) end; i64 c]
  | WRunspacePoolState s e | WPipelineState s e => [i32 s; e]
  | WCreatePipeline a b c d e f g => [VBool a; VEnum b; VEnum c; VBool d; e; f; VBool g]
  | WGetAvailableRunspaces c | WResetRunspaceState c => [i64 c]
  | WUserEvent a b c d e f g i =>
    [or_null i32 a; or_null str b; or_null (fun t => VPrim (PDate t)) c; d; e; f; or_null str g; or_null (fun n => VPrim (PGuid n)) i]
  | WApplicationPrivateData v => [v]
  | WGetCommandMetadata a b c d => [a; VEnum b; c; d]
  | WHostCall _ a b c => [i64 a; VEnum b; c]
  | WHostResponse _ a b c d => [i64 a; VEnum b; c; d]
  | WPipelineInput v | WRecord _ v | WPipelineOutput (Some v) => [v]
  | WEndOfPipelineInput | WPipelineOutput None => []
  | WProgressRecord a b c d e f g i =>
    [or_null str a; or_null i32 b; or_null str c; or_null str d; or_null i32 e; or_null i32 f; or_null VEnum g; or_null i32 i]
  | WInformationRecord a b c d e f g i j =>
    let u32 z := VPrim (PInt TUInt32 z) in
    [a; or_null str b; or_null (fun t => VPrim (PDate t)) c; d; or_null str e; or_null str f; or_null u32 g; or_null u32 i; or_null u32 j]
  | WConnectRunspacePool a b => [or_null i32 a; or_null i32 b]
  | WRunspacePoolInitData a b => [i32 a; i32 b]
  end.
(** Their names, in the order of [fields]; none for a message that is a bare value. *)
Definition field_names (k : mkind) : list string :=
  match k with
  | KSessionCapability => ["PSVersion"; "protocolversion"; "SerializationVersion"; "TimeZone"]
  | KInitRunspacePool => ["MinRunspaces"; "MaxRunspaces"; "PSThreadOptions"; "ApartmentState"; "HostInfo"; "ApplicationArguments"]
  | KPublicKey => ["PublicKey"]
  | KEncryptedSessionKey => ["EncryptedSessionKey"]
  | KSetMaxRunspaces => ["MaxRunspaces"; "ci"]
  | KSetMinRunspaces => ["MinRunspaces"; "ci"]
  | KRunspaceAvailability => ["SetMinMaxRunspacesResponse"; "ci"]
  | KRunspacePoolState => ["RunspaceState"; "ExceptionAsErrorRecord"]
  | KCreatePipeline => ["NoInput"; "ApartmentState"; "RemoteStreamOptions"; "AddToHistory"; "HostInfo"; "PowerShell"; "IsNested"]
  | KGetAvailableRunspaces | KResetRunspaceState => ["ci"]
  | KUserEvent => ["PSEventArgs.EventIdentifier"; "PSEventArgs.SourceIdentifier"; "PSEventArgs.TimeGenerated"; "PSEventArgs.Sender";
                   "PSEventArgs.SourceArgs"; "PSEventArgs.MessageData"; "PSEventArgs.ComputerName"; "PSEventArgs.RunspaceId"]
  | KApplicationPrivateData => ["ApplicationPrivateData"]
  | KGetCommandMetadata => ["Name"; "CommandType"; "Namespace"; "ArgumentList"]
  | KRunspacePoolHostCall | KPipelineHostCall => ["ci"; "mi"; "mp"]
  | KRunspacePoolHostResponse | KPipelineHostResponse => ["ci"; "mi"; "mr"; "me"]
  | KPipelineState => ["PipelineState"; "ExceptionAsErrorRecord"]
  | KProgressRecord => ["Activity"; "ActivityId"; "StatusDescription"; "CurrentOperation"; "ParentActivityId"; "PercentComplete"; "Type";
                        "SecondsRemaining"]
  | KInformationRecord => ["MessageData"; "Source"; "TimeGenerated"; "Tags"; "User"; "Computer"; "ProcessId"; "NativeThreadId"; "ManagedThreadId"]
  | KConnectRunspacePool | KRunspacePoolInitData => ["MinRunspaces"; "MaxRunspaces"]
  | KPublicKeyRequest | KPipelineInput | KEndOfPipelineInput | KPipelineOutput | KErrorRecord | KDebugRecord | KVerboseRecord | KWarningRecord => []
  end%string.
(** Fields that are left out when they are missing; any other missing field is written as null. *)
Definition optional (k : mkind) (n : string) : bool :=
  match k with
  | KSessionCapability => (n =? "TimeZone")%string
  | KRunspacePoolState | KPipelineState => (n =? "ExceptionAsErrorRecord")%string
  | KRunspacePoolHostResponse | KPipelineHostResponse => (n =? "mr")%string || (n =? "me")%string
  | KConnectRunspacePool => true
  | _ => false
  end.
Fixpoint written (k : mkind) (ns : list string) (vs : list value) : list (name * value) :=
  match ns, vs with
  | n :: ns', v :: vs' => (if optional k n && match v with VNull => true | _ => false end then [] else [(tx n, v)]) ++ written k ns' vs'
  | _, _ => []
  end.

(** ** Messages inside the claim *)
(** Values the enumerations of states have; a count of 0 in ConnectRunspacePool is not sent (refuted). *)
Definition in_range (m : message) : Prop :=
  match m with
  | WRunspacePoolState s _ => (0 <= s <= 8)%Z
  | WPipelineState s _ => (0 <= s <= 6)%Z
  | WConnectRunspacePool a b => a <> Some 0%Z /\ b <> Some 0%Z
  | WPublicKey k | WEncryptedSessionKey k => bytes_ok k
  | _ => True
  end.
Definition good_message (reg : registry) (lx : lexicon) (m : message) : Prop :=
  Forall (good_value reg lx) (fields m) /\ Forall safe_value (fields m) /\ in_range m.
(** The integers that must fit their type for the message to be made at all. *)
Definition counts (m : message) : list (int_type * Z) :=
  let some t := fun z => match z with Some n => [(t, n)] | None => [] end in
  match m with
  | WInitRunspacePool a b _ _ _ _ | WRunspacePoolInitData a b => [(TInt32, a); (TInt32, b)]
  | WSetMaxRunspaces n c | WSetMinRunspaces n c => [(TInt32, n); (TInt64, c)]
  | WRunspaceAvailability _ c | WGetAvailableRunspaces c | WResetRunspaceState c => [(TInt64, c)]
  | WHostCall _ c _ _ | WHostResponse _ c _ _ _ => [(TInt64, c)]
  | WRunspacePoolState s _ | WPipelineState s _ => [(TInt32, s)]
  | WUserEvent a _ _ _ _ _ _ _ => some TInt32 a
  | WProgressRecord _ a _ _ b c _ d => some TInt32 a ++ some TInt32 b ++ some TInt32 c ++ some TInt32 d
  | WInformationRecord _ _ _ _ _ _ a b c => some TUInt32 a ++ some TUInt32 b ++ some TUInt32 c
  | WConnectRunspacePool a b => some TInt32 a ++ some TInt32 b
  | _ => []
  end.
Definition counts_fit (m : message) : Prop := Forall (fun p => fits (fst p) (snd p)) (counts m).
(** No dangling references. *)
Definition here (h : heap) (v : value) : Prop := forall a, v = VRef a -> exists o, aget a h = Some o.
(** The kinds of message in the order of their codes (MS-PSRP 2.2.1 lists them by code). *)
Definition by_code : list mkind :=
  [KSessionCapability; KInitRunspacePool; KPublicKey; KEncryptedSessionKey; KPublicKeyRequest; KConnectRunspacePool;
   KSetMaxRunspaces; KSetMinRunspaces; KRunspaceAvailability; KRunspacePoolState; KCreatePipeline;
   KGetAvailableRunspaces; KUserEvent; KApplicationPrivateData; KGetCommandMetadata; KRunspacePoolInitData;
   KResetRunspaceState; KRunspacePoolHostCall; KRunspacePoolHostResponse; KPipelineInput; KEndOfPipelineInput;
   KPipelineOutput; KErrorRecord; KPipelineState; KDebugRecord; KVerboseRecord; KWarningRecord; KProgressRecord;
   KInformationRecord; KPipelineHostCall; KPipelineHostResponse].
