(** C52: what every successful operation and every processed message does - the messages queued, with their target, the
    state of the pool and the state of the pipelines - as a table. *)
From Verif Require Import Base Model_Scalars Model_Transport Model_Command Model_Host Model_Pool Spec_Pool.

(** What is queued: target pipeline, stream and content. *)
Definition post := (option N * stream * body)%type.
Definition to_pool (b : body) : post := (None, SDefault, b).
Definition to_pipe (x : pipe) (b : body) : post := (Some (pl_pid x), SDefault, b).
Definition prompt (pid : option N) (b : body) : post := (pid, SPrompt, b).
(** The messages queued, the state the pool is in afterwards, the pipeline whose state is set. *)
Record effect := mkEff { e_posts : list post; e_state : pool_state; e_pipe : option (nat * pipe_state) }.
Definition is_pipe (p : pool) (h : nat) (x : pipe) : Prop := nth_error (p_heap p) h = Some x.
Definition creates (k : pipe_kind) (d : N) : body :=
  match k with PowerShellPipe => MCreatePipeline d | MetadataPipe => MGetCommandMetadata d end.
(** Values as messages: None goes out as output without content, whatever the operation. *)
Definition value_body (v : uval) (f : N -> body) (b : body) : Prop :=
  (v = UNone /\ b = MPipelineOutput None) \/ exists t, v = UVal (Good t) /\ b = f t.
Definition opt_value (v : option payload) (t : option N) : Prop :=
  (v = None /\ t = None) \/ exists n, v = Some (Good n) /\ t = Some n.
Definition tell (pid : option N) (pipe pool : body) : body := match pid with Some _ => pipe | None => pool end.

Inductive client_effect (p : pool) : client_op -> option Z -> effect -> Prop :=
| CeBeginClose : client_effect p CBeginClose None (mkEff [] Closing None)
| CeClose : p_table p = [] -> client_effect p CClose None (mkEff [] Closed None)
| CeBeginDisconnect : client_effect p CBeginDisconnect None (mkEff [] Disconnecting None)
| CeDisconnect : client_effect p CDisconnect None (mkEff [] Disconnected None)
| CeReconnect : client_effect p CReconnect None (mkEff [] Opened None)
| CeOpen c : p_state p = BeforeOpen -> p_config p = Good c ->
    client_effect p COpen None
      (mkEff [to_pool (MSessionCapability (p_our p)); to_pool (MInitRunspacePool (p_min p) (p_max p) c)] Opening None)
| CeOpened o : o = COpen \/ o = CConnect -> p_state p = Opened -> client_effect p o None (mkEff [] Opened None)
| CeConnect : p_state p = BeforeOpen \/ p_state p = Disconnected ->
    client_effect p CConnect None
      (mkEff [to_pool (MSessionCapability (p_our p)); to_pool (MConnectRunspacePool None None)] Connecting None)
| CeAvailable : client_effect p CGetAvailable (Some (p_ci p)) (mkEff [to_pool (MGetAvailableRunspaces (p_ci p))] (p_state p) None)
| CeKey k : p_keyreq p = false -> client_effect p (CExchangeKey k) None (mkEff [to_pool (MPublicKey (Some k))] (p_state p) None)
| CeKeyAgain k : p_keyreq p = true -> client_effect p (CExchangeKey k) None (mkEff [] (p_state p) None)
| CeResponse o ci rv er mi pid mr me : o = CHostResponse ci rv er \/ (exists h, o = CPipeHostResponse h ci rv er) ->
    zget ci (p_events p) = Some (EHost mi pid) -> opt_value rv mr -> opt_value er me ->
    client_effect p o None
      (mkEff [prompt pid (tell pid (MPipelineHostResponse ci mi mr me) (MRunspacePoolHostResponse ci mi mr me))] (p_state p) None)
| CeReset : client_effect p CReset (Some (p_ci p)) (mkEff [to_pool (MResetRunspaceState (p_ci p))] (p_state p) None)
| CeLimit o v f : (o = CSetMax v /\ f = MSetMaxRunspaces /\ v <> p_max p) \/ (o = CSetMin v /\ f = MSetMinRunspaces /\ v <> p_min p) ->
    p_state p <> BeforeOpen -> client_effect p o (Some (p_ci p)) (mkEff [to_pool (f v (p_ci p))] (p_state p) None)
| CeLimitHere o v x : (o = CSetMax v /\ x = p_max p) \/ (o = CSetMin v /\ x = p_min p) -> p_state p = BeforeOpen \/ v = x ->
    client_effect p o None (mkEff [] (p_state p) None)
| CeNew pid k m : client_effect p (CNewPipe pid k m) None (mkEff [] (p_state p) None)
| CeMeta h m : client_effect p (CSetMeta h m) None (mkEff [] (p_state p) None)
| CeStart h x d : is_pipe p h x -> pl_meta x = Some (Good d) ->
    client_effect p (CStart h) None (mkEff [to_pipe x (creates (pl_kind x) d)] (p_state p) (Some (h, Running)))
| CeStartEmpty h x : is_pipe p h x -> pl_meta x = None ->
    client_effect p (CStart h) None (mkEff [to_pipe x (MPipelineOutput None)] (p_state p) (Some (h, Running)))
| CeSend h x v b : is_pipe p h x -> pl_state x = Running -> value_body v MPipelineInput b ->
    client_effect p (CSend h v) None (mkEff [to_pipe x b] (p_state p) None)
| CeSendEof h x : is_pipe p h x -> pl_state x = Running ->
    client_effect p (CSendEof h) None (mkEff [to_pipe x MEndOfPipelineInput] (p_state p) None)
| CeBeginStop h : client_effect p (CBeginStop h) None (mkEff [] (p_state p) (Some (h, Stopping)))
| CePipeClose h : client_effect p (CPipeClose h) None (mkEff [] (p_state p) None).

(** The server says every state except the three of a disconnection. *)
Definition says (p : pool) (s : pool_state) : list post :=
  match s with Disconnecting | Disconnected | Connecting => [] | _ => [to_pool (MRunspacePoolState s None)] end.
Inductive server_effect (p : pool) : server_op -> option Z -> effect -> Prop :=
| SeBeginClose : server_effect p SBeginClose None (mkEff (says p Closing) Closing None)
| SeClose : p_table p = [] -> server_effect p SClose None (mkEff (says p Closed) Closed None)
| SeBeginDisconnect : server_effect p SBeginDisconnect None (mkEff [] Disconnecting None)
| SeDisconnect : server_effect p SDisconnect None (mkEff [] Disconnected None)
| SeReconnect : server_effect p SReconnect None (mkEff (says p Opened) Opened None)
| SeConnected : p_state p = Opened -> server_effect p SConnect None (mkEff [] Opened None)
| SeConnect : p_state p = Disconnected -> server_effect p SConnect None (mkEff [] Connecting None)
| SeEvent t : p_state p = Opened -> server_effect p (SSendEvent (Good t)) None (mkEff [to_pool (MUserEvent t)] Opened None)
| SeBroken t : server_effect p (SSetBroken (Good t)) None (mkEff [to_pool (MRunspacePoolState Broken (Some t))] Broken None)
| SeCall o pid mi t ci : o = SHostCall mi (Good t) pid \/ (exists h x, o = SPipeHostCall h mi (Good t) /\ is_pipe p h x
      /\ pl_state x = Running /\ pid = Some (pl_pid x)) -> p_state p = Opened ->
    (ci = if is_void mi then -100 else p_ci p)%Z ->
    server_effect p o (Some ci) (mkEff [prompt pid (tell pid (MPipelineHostCall ci mi t) (MRunspacePoolHostCall ci mi t))] Opened None)
| SeKey : p_keyreq p = false -> server_effect p SRequestKey None (mkEff [to_pool MPublicKeyRequest] (p_state p) None)
| SeKeyAgain : p_keyreq p = true -> server_effect p SRequestKey None (mkEff [] (p_state p) None)
| SeAnswer ci r : server_effect p (SAvailability ci r) None (mkEff [to_pool (MRunspaceAvailability ci r)] (p_state p) None)
| SeNew pid : server_effect p (SNewPipe pid) None (mkEff [] (p_state p) None)
| SePipeState o h x s why : is_pipe p h x ->
    (o = SComplete h /\ s = Completed /\ why = None) \/ (o = SStart h /\ s = Running /\ why = None)
    \/ (o = SStop h /\ pl_state x <> Stopped /\ s = Stopped /\ why = Some 0%N) \/ (o = SBeginStop h /\ s = Stopping /\ why = None) ->
    server_effect p o None (mkEff [to_pipe x (MPipelineState s why)] (p_state p) (Some (h, s)))
| SeStopped h x : is_pipe p h x -> pl_state x = Stopped -> server_effect p (SStop h) None (mkEff [] (p_state p) None)
| SeOutput h x v b : is_pipe p h x -> pl_state x = Running -> value_body v (fun t => MPipelineOutput (Some t)) b ->
    server_effect p (SWriteOutput h v) None (mkEff [to_pipe x b] (p_state p) None)
| SeRecord h x k t : is_pipe p h x -> pl_state x = Running ->
    server_effect p (SWrite h k (Good t)) None (mkEff [to_pipe x (MRecord k t)] (p_state p) None)
| SeInformation h x t : is_pipe p h x -> pl_state x = Running ->
    server_effect p (SWriteInformation h (Good t)) None (mkEff [to_pipe x (MInformationRecord t)] (p_state p) None)
| SePipeClose h : server_effect p (SPipeClose h) None (mkEff [] (p_state p) None).

(** What processing a message does. *)
Definition no_effect (p : pool) : effect := mkEff [] (p_state p) None.
Inductive client_reaction (k : N) (p : pool) (m : omsg) : effect -> Prop :=
| CrState s why : o_body m = MRunspacePoolState s why -> client_reaction k p m (mkEff [] s None)
| CrPrivate d : o_body m = MApplicationPrivateData d -> p_state p = Connecting -> client_reaction k p m (mkEff [] Opened None)
| CrPipe s why pid h : o_body m = MPipelineState s why -> o_pid m = Some pid -> aget pid (p_table p) = Some h ->
    client_reaction k p m (mkEff [] (p_state p) (Some (h, s)))
| CrKey : o_body m = MPublicKeyRequest -> p_keyreq p = false -> client_reaction k p m (mkEff [to_pool (MPublicKey (Some k))] (p_state p) None)
| CrOther : (match o_body m with
             | MRunspacePoolState _ _ | MPipelineState _ _ => False
             | MApplicationPrivateData _ => p_state p <> Connecting
             | MPublicKeyRequest => p_keyreq p = true
             | _ => True
             end) -> client_reaction k p m (no_effect p).
Inductive server_reaction (p : pool) (m : omsg) : effect -> Prop :=
| SrCapability c : o_body m = MSessionCapability c -> p_state p <> Connecting ->
    server_reaction p m (mkEff [to_pool (MSessionCapability (p_our p))] (p_state p) None)
| SrInit mn mx c d : o_body m = MInitRunspacePool mn mx c -> p_private p = Good d ->
    server_reaction p m (mkEff [to_pool (MApplicationPrivateData d); to_pool (MRunspacePoolState Opened None)] Opened None)
| SrConnect mn mx d : o_body m = MConnectRunspacePool mn mx -> p_private p = Good d ->
    server_reaction p m (mkEff [to_pool (MRunspacePoolInitData (or_else mn (p_min p)) (or_else mx (p_max p)));
                                to_pool (MApplicationPrivateData d); to_pool (MRunspacePoolState Opened None)] Opened None)
| SrKey k : o_body m = MPublicKey (Some k) -> server_reaction p m (mkEff [to_pool (MEncryptedSessionKey k (p_session p))] (p_state p) None)
| SrOther : (match o_body m with
             | MInitRunspacePool _ _ _ | MConnectRunspacePool _ _ | MPublicKey _ => False
             | MSessionCapability _ => p_state p = Connecting /\ p_rpid p = o_rpid m
             | _ => True
             end) -> server_reaction p m (no_effect p).

(** The messages [l] were queued: nothing before them is touched, they carry the id of the pool and consecutive object
    ids. *)
Definition posted (p p' : pool) (l : list post) : Prop :=
  exists ms, p_out p' = p_out p ++ ms /\ map (fun m => (o_pid m, o_stream m, o_body m)) ms = l
    /\ Forall (fun m => o_rpid m = p_rpid p) ms
    /\ map o_oid ms = map (fun i => (p_fc p + N.of_nat i)%N) (seq 0 (length l)).
(** The pipelines there were keep their ids and states, except for the one named. *)
Definition pipes_kept (p p' : pool) (c : option (nat * pipe_state)) : Prop :=
  forall h x, is_pipe p h x -> exists x', is_pipe p' h x' /\ pl_pid x' = pl_pid x /\ pl_kind x' = pl_kind x
    /\ pl_state x' = match c with Some (h', s) => if Nat.eqb h h' then s else pl_state x | None => pl_state x end.
Definition happened (p p' : pool) (e : effect) : Prop :=
  posted p p' (e_posts e) /\ p_state p' = e_state e /\ pipes_kept p p' (e_pipe e).
(** Object ids go on from the number of messages queued. *)
Definition counted (p p' : pool) : Prop := (p_fc p' + N.of_nat (length (p_out p)) = p_fc p + N.of_nat (length (p_out p')))%N.

(** ** Whole histories *)
(** Which side sends which message ([MS-PSRP] 2.2.2). *)
Definition client_sends (b : body) : Prop :=
  match b with
  | MSessionCapability _ | MInitRunspacePool _ _ _ | MConnectRunspacePool _ _ | MPublicKey _ | MSetMaxRunspaces _ _
  | MSetMinRunspaces _ _ | MGetAvailableRunspaces _ | MResetRunspaceState _ | MRunspacePoolHostResponse _ _ _ _
  | MPipelineHostResponse _ _ _ _ | MCreatePipeline _ | MGetCommandMetadata _ | MPipelineInput _ | MEndOfPipelineInput => True
  | _ => False
  end.
Definition server_sends (b : body) : Prop :=
  match b with
  | MSessionCapability _ | MPublicKeyRequest | MEncryptedSessionKey _ _ | MRunspaceAvailability _ _ | MApplicationPrivateData _
  | MRunspacePoolState _ _ | MRunspacePoolInitData _ _ | MRunspacePoolHostCall _ _ _ | MPipelineHostCall _ _ _ | MUserEvent _
  | MPipelineOutput _ | MRecord _ _ | MInformationRecord _ | MPipelineState _ _ => True
  | _ => False
  end.
(** Messages that belong to a pipeline carry its id, the others carry none. *)
Definition of_pipe (b : body) : bool :=
  match b with
  | MCreatePipeline _ | MGetCommandMetadata _ | MPipelineInput _ | MEndOfPipelineInput | MPipelineHostResponse _ _ _ _
  | MPipelineHostCall _ _ _ | MPipelineOutput _ | MRecord _ _ | MInformationRecord _ | MPipelineState _ _ => true
  | _ => false
  end.
Definition addressed (m : omsg) : Prop := if of_pipe (o_body m) then o_pid m <> None else o_pid m = None.
Definition is_prompt (b : body) : bool :=
  match b with
  | MPipelineHostResponse _ _ _ _ | MPipelineHostCall _ _ _ | MRunspacePoolHostResponse _ _ _ _ | MRunspacePoolHostCall _ _ _ => true
  | _ => false
  end.
Definition sends_none (a : client_act) : bool := match a with COp (CSend _ UNone) => true | _ => false end.

(** ** C53: the order of the messages of one pipeline *)
Fixpoint last_pipe_state (pid : N) (l : list omsg) : option pipe_state :=
  match l with
  | [] => None
  | m :: t => match last_pipe_state pid t with
              | Some s => Some s
              | None => match o_body m, o_pid m with
                        | MPipelineState s _, Some q => if (q =? pid)%N then Some s else None
                        | _, _ => None
                        end
              end
  end.
Definition pipe_data (b : body) : bool :=
  match b with MPipelineOutput _ | MRecord _ _ | MInformationRecord _ | MPipelineHostCall _ _ _ => true | _ => false end.
(** Data of a pipeline is sent only while the state announced last for it is Running. *)
Definition data_while_running (l : list omsg) : Prop :=
  forall l1 m l2, l = l1 ++ m :: l2 -> pipe_data (o_body m) = true ->
  exists pid, o_pid m = Some pid /\ last_pipe_state pid l1 = Some Running.
(** host_call is called on the pool only for the pool. *)
Definition own_calls (a : server_act) : Prop := match a with SOp (SHostCall _ _ (Some _)) => False | _ => True end.
Definition new_ids (l : list server_act) : list N := flat_map (fun a => match a with SOp (SNewPipe pid) => [pid] | _ => [] end) l.

Definition pipe_input (b : body) : bool := match b with MPipelineInput _ | MEndOfPipelineInput => true | _ => false end.
Definition asked_for (pid : N) (l : list omsg) : Prop :=
  exists m d, In m l /\ o_pid m = Some pid /\ (o_body m = MCreatePipeline d \/ o_body m = MGetCommandMetadata d).
(** Input of a pipeline comes after the message that creates it. *)
Definition input_after_creation (l : list omsg) : Prop :=
  forall l1 m l2, l = l1 ++ m :: l2 -> pipe_input (o_body m) = true -> exists pid, o_pid m = Some pid /\ asked_for pid l1.
(** The server speaks of the states of those pipelines only that the client has asked for. *)
Definition solicited (start : pool) (l : list client_act) : Prop :=
  forall l2 m k l1 s why pid, l = l2 ++ CRecv m k :: l1 -> o_body m = MPipelineState s why -> o_pid m = Some pid ->
  asked_for pid (p_out (fst (client_run start l1))).
