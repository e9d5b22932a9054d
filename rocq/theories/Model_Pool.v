(** Runspace pools and pipelines: the RunspacePool and Pipeline classes of src/psrpcore/_base.py, the client of
    src/psrpcore/_client.py and the server of src/psrpcore/_server.py, at the level of messages.

    What is abstract here:
    - A value given by the user that has to be serialized is a [payload]: [Good t] is a value whose serialization is
      the token [t], [Bad e] a value for which the serializer raises [e].
    - A message is a [body] with the fields that the receiving code reads; other content is a token.
    - The send buffer is kept as the list of all messages ever appended to it.  That data_to_send and next_event carry
      this list to the peer unchanged and in order is the subject of Model_Transport and its theorems.
    - RSA is symbolic: an encrypted session key is the pair of the public key and the session key. *)
From Verif Require Import Base Model_Scalars Model_Transport Model_Command Model_Host.

(** class RunspacePoolState, types/_psrp/enums.py. *)
Inductive pool_state :=
| BeforeOpen | Opening | Opened | Closed | Closing | Broken | Disconnecting | Disconnected | Connecting.
(** class PSInvocationState. *)
Inductive pipe_state := NotStarted | Running | Stopping | Stopped | Completed | Failed | PDisconnected.
Definition pool_state_eq_dec (a b : pool_state) : {a = b} + {a <> b}.
Proof. decide equality. Defined.
Definition pipe_state_eq_dec (a b : pipe_state) : {a = b} + {a <> b}.
Proof. decide equality. Defined.
(** [self.state == x] and [self.state in xs]. *)
Definition ps_is (a b : pool_state) : bool := if pool_state_eq_dec a b then true else false.
Definition ps_in (a : pool_state) (l : list pool_state) : bool := existsb (ps_is a) l.
Definition is_is (a b : pipe_state) : bool := if pipe_state_eq_dec a b then true else false.
Definition is_in (a : pipe_state) (l : list pipe_state) : bool := existsb (is_is a) l.

(** The exceptions the serializer raises for a value it cannot serialize; none of them is one of this library's state
    errors. *)
Inductive ser_err := SerMissingCipher | SerValue | SerType | SerAttribute | SerUnicode | SerOverflow | SerRuntime.
Definition raised (e : ser_err) : err :=
  match e with
  | SerMissingCipher => MissingCipher | SerValue => ValueError | SerType => TypeError | SerAttribute => AttributeError
  | SerUnicode => UnicodeError | SerOverflow => OverflowError | SerRuntime => RuntimeError
  end.
Inductive payload := Good (t : N) | Bad (e : ser_err).
(** A value for pipeline input or output: None, or anything else. *)
Inductive uval := UNone | UVal (v : payload).
(** The value of a RunspaceAvailability message, and the argument of runspace_availability_response. *)
Inductive response := RBool (b : bool) | RInt (n : Z) | ROther.
(** SessionCapability: PSVersion, protocolversion, SerializationVersion. *)
Record capability := mkCap { cap_ps : version; cap_proto : version; cap_ser : version }.

Inductive record_kind := KError | KDebug | KVerbose | KWarning | KProgress.
Inductive limit := LMin | LMax.
Inductive pipe_kind := PowerShellPipe | MetadataPipe.

(** The message classes of types/_psrp/messages.py that the modelled code sends or reacts to.  [MBad e] is any message
    whose deserialization or decoding raises [e]; [MPublicKey None] holds a blob that is not a public key. *)
Inductive body :=
| MSessionCapability (c : capability)
| MInitRunspacePool (mn mx : Z) (cfg : N)
| MConnectRunspacePool (mn mx : option Z)
| MPublicKey (k : option N)
| MPublicKeyRequest
| MEncryptedSessionKey (pub key : N)
| MSetMaxRunspaces (n ci : Z)
| MSetMinRunspaces (n ci : Z)
| MGetAvailableRunspaces (ci : Z)
| MResetRunspaceState (ci : Z)
| MRunspaceAvailability (ci : Z) (r : response)
| MApplicationPrivateData (d : N)
| MRunspacePoolState (s : pool_state) (reason : option N)
| MRunspacePoolInitData (mn mx : Z)
| MRunspacePoolHostCall (ci : Z) (mi : N) (mp : N)
| MPipelineHostCall (ci : Z) (mi : N) (mp : N)
| MRunspacePoolHostResponse (ci : Z) (mi : N) (mr me : option N)
| MPipelineHostResponse (ci : Z) (mi : N) (mr me : option N)
| MUserEvent (d : N)
| MCreatePipeline (d : N)
| MGetCommandMetadata (d : N)
| MPipelineInput (d : N)
| MEndOfPipelineInput
| MPipelineOutput (d : option N)
| MRecord (k : record_kind) (d : N)
| MInformationRecord (d : N)
| MPipelineState (s : pipe_state) (reason : option N)
| MBad (e : err).

(** A message in the send buffer: class PSRPMessage, _payload.py:97-128. *)
Record omsg := mkO { o_oid : N; o_rpid : N; o_pid : option N; o_stream : stream; o_body : body }.

(** What the pool remembers of an event with a call id: a host call (client), or a request (server). *)
Inductive pending := EHost (mi : N) (pid : option N) | EMax (n : Z) | EMin (n : Z) | EReset | EAvail.

(** class Pipeline, _base.py:483-582.  [pl_kind] is the client's [_message_type], _client.py:453,566,729. *)
Record pipe := mkPipe { pl_pid : N; pl_state : pipe_state; pl_meta : option payload; pl_kind : pipe_kind }.

(** The attributes of RunspacePool, _base.py:100-148, of ClientRunspacePool (p_xkey is _exchange_key) and of
    ServerRunspacePool (p_session is _session_key).  Pipelines are objects: [p_heap] holds all pipelines ever made for
    this pool, in order, and [p_table] (pipeline_table) refers to them.  [p_config] stands for application_arguments,
    host, apartment_state and thread_options; [p_key] for the key registered in the cipher. *)
Record pool := mkPool {
  p_rpid : N;
  p_our : capability;
  p_their : option capability;
  p_state : pool_state;
  p_heap : list pipe;
  p_table : list (N * nat);
  p_handlers : list (Z * option (limit * Z));
  p_events : list (Z * pending);
  p_ci : Z;
  p_fc : N;
  p_keyreq : bool;
  p_key : option N;
  p_min : Z;
  p_max : Z;
  p_out : list omsg;
  p_private : payload;
  p_config : payload;
  p_xkey : option N;
  p_session : N }.
Definition set_rpid (v : N) (p : pool) : pool :=
  mkPool v (p_our p) (p_their p) (p_state p) (p_heap p) (p_table p) (p_handlers p) (p_events p) (p_ci p) (p_fc p) (p_keyreq p) (p_key p) (p_min p) (p_max p) (p_out p) (p_private p) (p_config p) (p_xkey p) (p_session p).
Definition set_our (v : capability) (p : pool) : pool :=
  mkPool (p_rpid p) v (p_their p) (p_state p) (p_heap p) (p_table p) (p_handlers p) (p_events p) (p_ci p) (p_fc p) (p_keyreq p) (p_key p) (p_min p) (p_max p) (p_out p) (p_private p) (p_config p) (p_xkey p) (p_session p).
Definition set_their (v : option capability) (p : pool) : pool :=
  mkPool (p_rpid p) (p_our p) v (p_state p) (p_heap p) (p_table p) (p_handlers p) (p_events p) (p_ci p) (p_fc p) (p_keyreq p) (p_key p) (p_min p) (p_max p) (p_out p) (p_private p) (p_config p) (p_xkey p) (p_session p).
Definition set_state (v : pool_state) (p : pool) : pool :=
  mkPool (p_rpid p) (p_our p) (p_their p) v (p_heap p) (p_table p) (p_handlers p) (p_events p) (p_ci p) (p_fc p) (p_keyreq p) (p_key p) (p_min p) (p_max p) (p_out p) (p_private p) (p_config p) (p_xkey p) (p_session p).
Definition set_heap (v : list pipe) (p : pool) : pool :=
  mkPool (p_rpid p) (p_our p) (p_their p) (p_state p) v (p_table p) (p_handlers p) (p_events p) (p_ci p) (p_fc p) (p_keyreq p) (p_key p) (p_min p) (p_max p) (p_out p) (p_private p) (p_config p) (p_xkey p) (p_session p).
Definition set_table (v : list (N * nat)) (p : pool) : pool :=
  mkPool (p_rpid p) (p_our p) (p_their p) (p_state p) (p_heap p) v (p_handlers p) (p_events p) (p_ci p) (p_fc p) (p_keyreq p) (p_key p) (p_min p) (p_max p) (p_out p) (p_private p) (p_config p) (p_xkey p) (p_session p).
Definition set_handlers (v : list (Z * option (limit * Z))) (p : pool) : pool :=
  mkPool (p_rpid p) (p_our p) (p_their p) (p_state p) (p_heap p) (p_table p) v (p_events p) (p_ci p) (p_fc p) (p_keyreq p) (p_key p) (p_min p) (p_max p) (p_out p) (p_private p) (p_config p) (p_xkey p) (p_session p).
Definition set_events (v : list (Z * pending)) (p : pool) : pool :=
  mkPool (p_rpid p) (p_our p) (p_their p) (p_state p) (p_heap p) (p_table p) (p_handlers p) v (p_ci p) (p_fc p) (p_keyreq p) (p_key p) (p_min p) (p_max p) (p_out p) (p_private p) (p_config p) (p_xkey p) (p_session p).
Definition set_ci (v : Z) (p : pool) : pool :=
  mkPool (p_rpid p) (p_our p) (p_their p) (p_state p) (p_heap p) (p_table p) (p_handlers p) (p_events p) v (p_fc p) (p_keyreq p) (p_key p) (p_min p) (p_max p) (p_out p) (p_private p) (p_config p) (p_xkey p) (p_session p).
Definition set_fc (v : N) (p : pool) : pool :=
  mkPool (p_rpid p) (p_our p) (p_their p) (p_state p) (p_heap p) (p_table p) (p_handlers p) (p_events p) (p_ci p) v (p_keyreq p) (p_key p) (p_min p) (p_max p) (p_out p) (p_private p) (p_config p) (p_xkey p) (p_session p).
Definition set_keyreq (v : bool) (p : pool) : pool :=
  mkPool (p_rpid p) (p_our p) (p_their p) (p_state p) (p_heap p) (p_table p) (p_handlers p) (p_events p) (p_ci p) (p_fc p) v (p_key p) (p_min p) (p_max p) (p_out p) (p_private p) (p_config p) (p_xkey p) (p_session p).
Definition set_key (v : option N) (p : pool) : pool :=
  mkPool (p_rpid p) (p_our p) (p_their p) (p_state p) (p_heap p) (p_table p) (p_handlers p) (p_events p) (p_ci p) (p_fc p) (p_keyreq p) v (p_min p) (p_max p) (p_out p) (p_private p) (p_config p) (p_xkey p) (p_session p).
Definition set_min (v : Z) (p : pool) : pool :=
  mkPool (p_rpid p) (p_our p) (p_their p) (p_state p) (p_heap p) (p_table p) (p_handlers p) (p_events p) (p_ci p) (p_fc p) (p_keyreq p) (p_key p) v (p_max p) (p_out p) (p_private p) (p_config p) (p_xkey p) (p_session p).
Definition set_max (v : Z) (p : pool) : pool :=
  mkPool (p_rpid p) (p_our p) (p_their p) (p_state p) (p_heap p) (p_table p) (p_handlers p) (p_events p) (p_ci p) (p_fc p) (p_keyreq p) (p_key p) (p_min p) v (p_out p) (p_private p) (p_config p) (p_xkey p) (p_session p).
Definition set_out (v : list omsg) (p : pool) : pool :=
  mkPool (p_rpid p) (p_our p) (p_their p) (p_state p) (p_heap p) (p_table p) (p_handlers p) (p_events p) (p_ci p) (p_fc p) (p_keyreq p) (p_key p) (p_min p) (p_max p) v (p_private p) (p_config p) (p_xkey p) (p_session p).
Definition set_private (v : payload) (p : pool) : pool :=
  mkPool (p_rpid p) (p_our p) (p_their p) (p_state p) (p_heap p) (p_table p) (p_handlers p) (p_events p) (p_ci p) (p_fc p) (p_keyreq p) (p_key p) (p_min p) (p_max p) (p_out p) v (p_config p) (p_xkey p) (p_session p).
Definition set_config (v : payload) (p : pool) : pool :=
  mkPool (p_rpid p) (p_our p) (p_their p) (p_state p) (p_heap p) (p_table p) (p_handlers p) (p_events p) (p_ci p) (p_fc p) (p_keyreq p) (p_key p) (p_min p) (p_max p) (p_out p) (p_private p) v (p_xkey p) (p_session p).
Definition set_xkey (v : option N) (p : pool) : pool :=
  mkPool (p_rpid p) (p_our p) (p_their p) (p_state p) (p_heap p) (p_table p) (p_handlers p) (p_events p) (p_ci p) (p_fc p) (p_keyreq p) (p_key p) (p_min p) (p_max p) (p_out p) (p_private p) (p_config p) v (p_session p).
Definition set_session (v : N) (p : pool) : pool :=
  mkPool (p_rpid p) (p_our p) (p_their p) (p_state p) (p_heap p) (p_table p) (p_handlers p) (p_events p) (p_ci p) (p_fc p) (p_keyreq p) (p_key p) (p_min p) (p_max p) (p_out p) (p_private p) (p_config p) (p_xkey p) v.

(** Python dicts with int keys. *)
Section ZDict.
  Context {V : Type}.
  Fixpoint zget (k : Z) (m : list (Z * V)) : option V :=
    match m with
    | [] => None
    | (k', v) :: t => if (k =? k')%Z then Some v else zget k t
    end.
  Fixpoint zset (k : Z) (v : V) (m : list (Z * V)) : list (Z * V) :=
    match m with
    | [] => [(k, v)]
    | (k', v') :: t => if (k =? k')%Z then (k', v) :: t else (k', v') :: zset k v t
    end.
  Fixpoint zdel (k : Z) (m : list (Z * V)) : list (Z * V) :=
    match m with
    | [] => []
    | (k', v') :: t => if (k =? k')%Z then t else (k', v') :: zdel k t
    end.
End ZDict.

(** Running a step and going on when it did not raise. *)
Definition bnd {A B} (r : pool * result A) (f : pool -> A -> pool * result B) : pool * result B :=
  match r with (p, Err e) => (p, Err e) | (p, Ok a) => f p a end.
Notation "'do!' p ',' x ':=' a 'in' b" := (bnd a (fun p x => b))
  (at level 200, p name, x name, a at level 100, b at level 200).
Definition ok (p : pool) : pool * result unit := (p, Ok tt).

(** [_ci_counter], _base.py:164-171. *)
Definition next_ci (p : pool) : pool * Z := (set_ci (p_ci p + 1)%Z p, p_ci p).

(** prepare_message, _base.py:357-417: nothing is changed when the serializer raises. *)
Definition prepare (p : pool) (b : result body) (pid : option N) (st : stream) : pool * result unit :=
  match b with
  | Err e => (p, Err e)
  | Ok b => ok (set_out (p_out p ++ [mkO (p_fc p) (p_rpid p) pid st b]) (set_fc (p_fc p + 1)%N p))
  end.
Definition with_token (v : payload) (f : N -> body) : result body :=
  match v with Good t => Ok (f t) | Bad e => Err (raised e) end.
Definition opt_token (v : option payload) : result (option N) :=
  match v with None => Ok None | Some (Good t) => Ok (Some t) | Some (Bad e) => Err (raised e) end.
(** prepare_message with message None becomes a PipelineOutput message without data, lines 377-379. *)
Definition user_body (v : uval) (f : N -> body) : result body :=
  match v with UNone => Ok (MPipelineOutput None) | UVal v => with_token v f end.

(** ** Operations common to both sides, _base.py:182-225; [chg] is the _change_state of the side. *)
Section Common.
  Variable chg : pool -> pool_state -> pool * result unit.
  Definition begin_close (p : pool) := chg p Closing.
  Definition close (p : pool) : pool * result unit :=
    match p_table p with
    | _ :: _ => (p, Err PSRPCoreError)
    | [] => if ps_in (p_state p) [Closed; Closing; Opened] then chg p Closed else (p, Err InvalidPoolState)
    end.
  Definition begin_disconnect (p : pool) := chg p Disconnecting.
  Definition disconnect (p : pool) : pool * result unit :=
    if ps_in (p_state p) [Opened; Disconnecting; Disconnected] then chg p Disconnected else (p, Err InvalidPoolState).
  Definition reconnect (p : pool) : pool * result unit :=
    if ps_in (p_state p) [Disconnected; Opened] then chg p Opened else (p, Err InvalidPoolState).
End Common.

(** Pipeline objects: [on_pipe p h f] runs a method on the pipeline object [h].  There is no such object for a number
    that was never handed out; the error value for it stands for a call that cannot be written in Python. *)
Definition on_pipe {A} (p : pool) (h : nat) (f : pipe -> pool * result A) : pool * result A :=
  match nth_error (p_heap p) h with Some x => f x | None => (p, Err OutOfFuel) end.
Fixpoint set_nth {A} (n : nat) (x : A) (l : list A) : list A :=
  match l, n with
  | [], _ => []
  | _ :: t, O => x :: t
  | a :: t, S k => a :: set_nth k x t
  end.
Definition put_pipe (h : nat) (x : pipe) (p : pool) : pool := set_heap (set_nth h x (p_heap p)) p.
Definition with_state (s : pipe_state) (x : pipe) : pipe := mkPipe (pl_pid x) s (pl_meta x) (pl_kind x).
Definition with_meta (m : option payload) (x : pipe) : pipe := mkPipe (pl_pid x) (pl_state x) m (pl_kind x).

(** Pipeline.__init__, _base.py:514-529: registers itself under its id. *)
Definition new_pipe (pid : N) (meta : option payload) (kind : pipe_kind) (p : pool) : pool :=
  set_table (aset pid (length (p_heap p)) (p_table p))
    (set_heap (p_heap p ++ [mkPipe pid NotStarted meta kind]) p).
(** Pipeline.close, _base.py:539-554. *)
Definition pipe_close (p : pool) (h : nat) : pool * result unit :=
  on_pipe p h (fun x =>
    if is_in (pl_state x) [NotStarted; Stopped; Stopping; Completed; Failed]
    then ok (set_table (adel (pl_pid x) (p_table p)) p) else (p, Err InvalidPipelineState)).

(** ** Client, _client.py *)
(** RunspacePool._change_state, _base.py:419-425, which the client does not override. *)
Definition client_chg (p : pool) (s : pool_state) : pool * result unit := ok (set_state s p).
(** Pipeline._change_state, _base.py:576-582. *)
Definition client_pipe_chg (p : pool) (h : nat) (x : pipe) (s : pipe_state) : pool * result unit :=
  ok (put_pipe h (with_state s x) p).

(** open, lines 116-139. *)
Definition c_open (p : pool) : pool * result unit :=
  if ps_is (p_state p) Opened then ok p else
  if negb (ps_is (p_state p) BeforeOpen) then (p, Err InvalidPoolState) else
  do! p, _ := client_chg p Opening in
  do! p, _ := prepare p (Ok (MSessionCapability (p_our p))) None SDefault in
  prepare p (with_token (p_config p) (MInitRunspacePool (p_min p) (p_max p))) None SDefault.
(** connect, lines 141-153. *)
Definition c_connect (p : pool) : pool * result unit :=
  if ps_is (p_state p) Opened then ok p else
  if negb (ps_is (p_state p) BeforeOpen) && negb (ps_is (p_state p) Disconnected) then (p, Err InvalidPoolState) else
  do! p, _ := client_chg p Connecting in
  do! p, _ := prepare p (Ok (MSessionCapability (p_our p))) None SDefault in
  prepare p (Ok (MConnectRunspacePool None None)) None SDefault.
(** A request with a call id: the id is taken, the handler recorded, the message queued. *)
Definition c_request (p : pool) (hd : option (limit * Z)) (mk : Z -> body) : pool * result (option Z) :=
  let '(p, ci) := next_ci p in
  do! p, _ := prepare (set_handlers (zset ci hd (p_handlers p)) p) (Ok (mk ci)) None SDefault in (p, Ok (Some ci)).
(** get_available_runspaces, lines 155-172. *)
Definition c_get_available (p : pool) : pool * result (option Z) :=
  if negb (ps_is (p_state p) Opened) then (p, Err InvalidPoolState) else c_request p None MGetAvailableRunspaces.
(** exchange_key, lines 174-189; [fresh] is the key pair that create_keypair makes. *)
Definition c_exchange_key (fresh : N) (p : pool) : pool * result unit :=
  if p_keyreq p then ok p else
  if negb (ps_is (p_state p) Opened) then (p, Err InvalidPoolState) else
  do! p, _ := prepare (set_xkey (Some fresh) p) (Ok (MPublicKey (Some fresh))) None SDefault in
  ok (set_keyreq true p).
(** host_response, lines 191-233. *)
Definition c_host_response (p : pool) (ci : Z) (rv er : option payload) : pool * result unit :=
  if negb (ps_is (p_state p) Opened) then (p, Err InvalidPoolState) else
  match zget ci (p_events p) with
  | None => (p, Err KeyError)
  | Some (EHost mi pid) =>
    let b := let! mr := opt_token rv in let! me := opt_token er in
             Ok (match pid with
                 | Some _ => MPipelineHostResponse ci mi mr me
                 | None => MRunspacePoolHostResponse ci mi mr me
                 end) in
    do! p, _ := prepare p b pid SPrompt in ok (set_events (zdel ci (p_events p)) p)
  | Some _ => (p, Err AttributeError)
  end.
(** The version the peer announced, or 2.0. *)
Definition their_version (p : pool) : version :=
  match p_their p with Some c => cap_proto c | None => pv20 end.
(** reset_runspace_state, lines 235-257. *)
Definition c_reset (p : pool) : pool * result (option Z) :=
  if version_lt (their_version p) pv23 then (p, Err InvalidProtocolVersion) else
  if negb (ps_is (p_state p) Opened) then (p, Err InvalidPoolState) else c_request p None MResetRunspaceState.
(** set_max_runspaces, lines 259-284, and set_min_runspaces, lines 286-311. *)
Definition c_set_max (p : pool) (v : Z) : pool * result (option Z) :=
  if ps_is (p_state p) BeforeOpen || (p_max p =? v)%Z then (set_max v p, Ok None)
  else c_request p (Some (LMax, v)) (MSetMaxRunspaces v).
Definition c_set_min (p : pool) (v : Z) : pool * result (option Z) :=
  if ps_is (p_state p) BeforeOpen || (p_min p =? v)%Z then (set_min v p, Ok None)
  else c_request p (Some (LMin, v)) (MSetMinRunspaces v).

(** _ClientPipeline, lines 439-515; ClientPowerShell and ClientGetCommandMetadata set the message type. *)
Definition c_start (p : pool) (h : nat) : pool * result unit :=
  on_pipe p h (fun x =>
    if negb (is_in (pl_state x) [NotStarted; Stopped; Completed]) then (p, Err InvalidPipelineState) else
    let b := match pl_meta x with
             | None => Ok (MPipelineOutput None)
             | Some m => with_token m (match pl_kind x with PowerShellPipe => MCreatePipeline | MetadataPipe => MGetCommandMetadata end)
             end in
    do! p, _ := prepare p b (Some (pl_pid x)) SDefault in ok (put_pipe h (with_state Running x) p)).
Definition c_send (p : pool) (h : nat) (v : uval) : pool * result unit :=
  on_pipe p h (fun x =>
    if negb (is_is (pl_state x) Running) then (p, Err InvalidPipelineState) else
    prepare p (user_body v MPipelineInput) (Some (pl_pid x)) SDefault).
Definition c_send_eof (p : pool) (h : nat) : pool * result unit :=
  on_pipe p h (fun x =>
    if negb (is_is (pl_state x) Running) then (p, Err InvalidPipelineState) else
    prepare p (Ok MEndOfPipelineInput) (Some (pl_pid x)) SDefault).
Definition c_pipe_host_response (p : pool) (h : nat) (ci : Z) (rv er : option payload) : pool * result unit :=
  on_pipe p h (fun x =>
    if negb (is_is (pl_state x) Running) then (p, Err InvalidPipelineState) else c_host_response p ci rv er).
(** Pipeline.begin_stop, _base.py:531-537. *)
Definition c_begin_stop (p : pool) (h : nat) : pool * result unit :=
  on_pipe p h (fun x =>
    if negb (is_in (pl_state x) [Running; Stopping]) then (p, Err InvalidPipelineState) else client_pipe_chg p h x Stopping).
(** add_command and the other methods that change the metadata of a pipeline (Model_Command). *)
Definition c_set_meta (p : pool) (h : nat) (m : payload) : pool * result unit :=
  on_pipe p h (fun x => ok (put_pipe h (with_meta (Some m) x) p)).

(** The public methods of a client pool and its pipelines. *)
Inductive client_op :=
| CBeginClose | CClose | CBeginDisconnect | CDisconnect | CReconnect
| COpen | CConnect | CGetAvailable | CExchangeKey (fresh : N)
| CHostResponse (ci : Z) (rv er : option payload) | CReset | CSetMax (v : Z) | CSetMin (v : Z)
| CNewPipe (pid : N) (kind : pipe_kind) (meta : payload) | CSetMeta (h : nat) (meta : payload)
| CStart (h : nat) | CSend (h : nat) (v : uval) | CSendEof (h : nat)
| CPipeHostResponse (h : nat) (ci : Z) (rv er : option payload)
| CBeginStop (h : nat) | CPipeClose (h : nat).
Definition no_ci (r : pool * result unit) : pool * result (option Z) := do! p, _ := r in (p, Ok None).
Definition client_step (p : pool) (o : client_op) : pool * result (option Z) :=
  match o with
  | CBeginClose => no_ci (begin_close client_chg p)
  | CClose => no_ci (close client_chg p)
  | CBeginDisconnect => no_ci (begin_disconnect client_chg p)
  | CDisconnect => no_ci (disconnect client_chg p)
  | CReconnect => no_ci (reconnect client_chg p)
  | COpen => no_ci (c_open p)
  | CConnect => no_ci (c_connect p)
  | CGetAvailable => c_get_available p
  | CExchangeKey k => no_ci (c_exchange_key k p)
  | CHostResponse ci rv er => no_ci (c_host_response p ci rv er)
  | CReset => c_reset p
  | CSetMax v => c_set_max p v
  | CSetMin v => c_set_min p v
  | CNewPipe pid kind meta => (new_pipe pid (Some meta) kind p, Ok None)
  | CSetMeta h m => no_ci (c_set_meta p h m)
  | CStart h => no_ci (c_start p h)
  | CSend h v => no_ci (c_send p h v)
  | CSendEof h => no_ci (c_send_eof p h)
  | CPipeHostResponse h ci rv er => no_ci (c_pipe_host_response p h ci rv er)
  | CBeginStop h => no_ci (c_begin_stop p h)
  | CPipeClose h => no_ci (pipe_close p h)
  end.

(** The client's _process_* methods, _client.py:313-436 and _base.py:471-480, as called by _process_message
    (_base.py:427-469).  [fresh] is the key pair made if this message starts the key exchange. *)
Definition client_process (fresh : N) (p : pool) (m : omsg) : pool * result unit :=
  match o_body m with
  | MBad e => (p, Err e)
  | MSessionCapability c => ok (set_their (Some c) p)
  | MApplicationPrivateData d =>
    let p := set_private (Good d) p in
    if ps_is (p_state p) Connecting then client_chg p Opened else ok p
  | MEncryptedSessionKey pub key =>
    match p_xkey p with
    | None => (p, Err AttributeError)
    | Some k => if (k =? pub)%N then ok (set_key (Some key) p) else (p, Err ValueError)
    end
  | MPipelineHostCall ci mi _ | MRunspacePoolHostCall ci mi _ =>
    if negb (ci =? -100)%Z then ok (set_events (zset ci (EHost mi (o_pid m)) (p_events p)) p) else ok p
  | MPipelineState s _ =>
    match o_pid m with
    | None => (p, Err KeyError)
    | Some pid =>
      match aget pid (p_table p) with
      | None => (p, Err KeyError)
      | Some h => on_pipe p h (fun x => ok (put_pipe h (with_state s x) p))
      end
    end
  | MPublicKeyRequest => c_exchange_key fresh p
  | MRunspaceAvailability ci r =>
    match zget ci (p_handlers p) with
    | None => (p, Err KeyError)
    | Some hd =>
      let p := set_handlers (zdel ci (p_handlers p)) p in
      match hd with
      | None => ok p
      | Some (l, v) =>
        match r with
        | RBool true => ok (match l with LMin => set_min v p | LMax => set_max v p end)
        | RBool false => ok p
        | _ => (p, Err AttributeError)                    (* GetRunspaceAvailabilityEvent has no .success *)
        end
      end
    end
  | MRunspacePoolInitData mn mx => ok (set_max mx (set_min mn p))
  | MRunspacePoolState s _ => client_chg p s
  | _ => ok p
  end.

(** ** Server, _server.py *)
(** ServerRunspacePool._change_state, lines 296-315: the state is set before the message is built. *)
Definition server_chg_err (p : pool) (s : pool_state) (error : option payload) : pool * result unit :=
  let p := set_state s p in
  if ps_in s [Disconnected; Disconnecting; Connecting] then ok p else
  prepare p (let! r := opt_token error in Ok (MRunspacePoolState s r)) None SDefault.
Definition server_chg (p : pool) (s : pool_state) : pool * result unit := server_chg_err p s None.
(** ServerPipeline._change_state, lines 764-778: the message is built first.  [reason] is the error record of stop. *)
Definition server_pipe_chg (p : pool) (h : nat) (x : pipe) (s : pipe_state) (reason : option N) : pool * result unit :=
  do! p, _ := prepare p (Ok (MPipelineState s reason)) (Some (pl_pid x)) SDefault in ok (put_pipe h (with_state s x) p).

(** connect, lines 100-118. *)
Definition s_connect (p : pool) : pool * result unit :=
  if ps_is (p_state p) Opened then ok p else
  if negb (ps_is (p_state p) Disconnected) then (p, Err InvalidPoolState) else
  server_chg (set_fc 1%N (set_ci 1%Z p)) Connecting.
(** send_event, lines 120-165. *)
Definition s_send_event (p : pool) (v : payload) : pool * result unit :=
  if negb (ps_is (p_state p) Opened) then (p, Err InvalidPoolState) else prepare p (with_token v MUserEvent) None SDefault.
(** set_broken, lines 167-184. *)
Definition s_set_broken (p : pool) (error : payload) : pool * result unit :=
  if negb (ps_in (p_state p) [Broken; Opened]) then (p, Err InvalidPoolState) else server_chg_err p Broken (Some error).
(** host_call, lines 186-220. *)
Definition s_host_call (p : pool) (mi : N) (params : payload) (pid : option N) : pool * result (option Z) :=
  if negb (ps_is (p_state p) Opened) then (p, Err InvalidPoolState) else
  let '(p, ci) := if is_void mi then (p, (-100)%Z) else next_ci p in
  let b := with_token params (match pid with Some _ => MPipelineHostCall ci mi | None => MRunspacePoolHostCall ci mi end) in
  do! p, _ := prepare p b pid SPrompt in (p, Ok (Some ci)).
(** request_key, lines 222-240. *)
Definition s_request_key (p : pool) : pool * result unit :=
  if p_keyreq p then ok p else
  if negb (ps_is (p_state p) Opened) then (p, Err InvalidPoolState) else
  do! p, _ := prepare p (Ok MPublicKeyRequest) None SDefault in ok (set_keyreq true p).
(** runspace_availability_response, lines 242-285; a Python bool is also an int. *)
Definition s_availability (p : pool) (ci : Z) (r : response) : pool * result unit :=
  match zget ci (p_events p) with
  | None => (p, Err PSRPCoreError)
  | Some ev =>
    if (match ev, r with
        | (EMax _ | EMin _ | EReset), RBool _ => false
        | (EMax _ | EMin _ | EReset), _ => true
        | EAvail, ROther => true
        | _, _ => false
        end) then (p, Err PSRPCoreError) else
    let hd := zget ci (p_handlers p) in
    let p := set_handlers (zdel ci (p_handlers p)) (set_events (zdel ci (p_events p)) p) in
    let p := match hd, r with
             | Some (Some (LMax, v)), RBool true => set_max v p
             | Some (Some (LMin, v)), RBool true => set_min v p
             | _, _ => p
             end in
    prepare p (Ok (MRunspaceAvailability ci r)) None SDefault
  end.
(** receive_data, lines 287-294. *)
Definition server_receive (p : pool) : pool :=
  if ps_is (p_state p) BeforeOpen then set_state Opening p else p.

(** ServerPipeline, lines 446-762. *)
Definition s_complete (p : pool) (h : nat) : pool * result unit :=
  on_pipe p h (fun x => server_pipe_chg p h x Completed None).
Definition s_start (p : pool) (h : nat) : pool * result unit :=
  on_pipe p h (fun x =>
    if negb (is_in (pl_state x) [NotStarted; Stopped; Completed]) then (p, Err InvalidPipelineState) else
    server_pipe_chg p h x Running None).
(** The token 0 stands for the error record built by stop. *)
Definition s_stop (p : pool) (h : nat) : pool * result unit :=
  on_pipe p h (fun x =>
    if is_is (pl_state x) Stopped then ok p else
    if negb (is_in (pl_state x) [Running; Stopping]) then (p, Err InvalidPipelineState) else
    server_pipe_chg p h x Stopped (Some 0%N)).
Definition s_begin_stop (p : pool) (h : nat) : pool * result unit :=
  on_pipe p h (fun x =>
    if negb (is_in (pl_state x) [Running; Stopping]) then (p, Err InvalidPipelineState) else
    server_pipe_chg p h x Stopping None).
Definition s_pipe_host_call (p : pool) (h : nat) (mi : N) (params : payload) : pool * result (option Z) :=
  on_pipe p h (fun x =>
    if negb (is_is (pl_state x) Running) then (p, Err InvalidPipelineState) else
    s_host_call p mi params (Some (pl_pid x))).
Definition s_write_output (p : pool) (h : nat) (v : uval) : pool * result unit :=
  on_pipe p h (fun x =>
    if negb (is_is (pl_state x) Running) then (p, Err InvalidPipelineState) else
    prepare p (user_body v (fun t => MPipelineOutput (Some t))) (Some (pl_pid x)) SDefault).
(** write_error, write_debug, write_verbose, write_warning, write_progress, lines 545-693. *)
Definition s_write (p : pool) (h : nat) (k : record_kind) (v : payload) : pool * result unit :=
  on_pipe p h (fun x =>
    if negb (is_is (pl_state x) Running) then (p, Err InvalidPipelineState) else
    prepare p (with_token v (MRecord k)) (Some (pl_pid x)) SDefault).
(** write_information, lines 695-762: the version is checked first. *)
Definition s_write_information (p : pool) (h : nat) (v : payload) : pool * result unit :=
  on_pipe p h (fun x =>
    if version_lt (their_version p) pv23 then (p, Err InvalidProtocolVersion) else
    if negb (is_is (pl_state x) Running) then (p, Err InvalidPipelineState) else
    prepare p (with_token v MInformationRecord) (Some (pl_pid x)) SDefault).

Inductive server_op :=
| SBeginClose | SClose | SBeginDisconnect | SDisconnect | SReconnect
| SConnect | SSendEvent (v : payload) | SSetBroken (error : payload)
| SHostCall (mi : N) (params : payload) (pid : option N) | SRequestKey | SAvailability (ci : Z) (r : response)
| SNewPipe (pid : N) | SComplete (h : nat) | SStart (h : nat) | SStop (h : nat) | SBeginStop (h : nat)
| SPipeHostCall (h : nat) (mi : N) (params : payload) | SWriteOutput (h : nat) (v : uval)
| SWrite (h : nat) (k : record_kind) (v : payload) | SWriteInformation (h : nat) (v : payload) | SPipeClose (h : nat).
Definition server_step (p : pool) (o : server_op) : pool * result (option Z) :=
  match o with
  | SBeginClose => no_ci (begin_close server_chg p)
  | SClose => no_ci (close server_chg p)
  | SBeginDisconnect => no_ci (begin_disconnect server_chg p)
  | SDisconnect => no_ci (disconnect server_chg p)
  | SReconnect => no_ci (reconnect server_chg p)
  | SConnect => no_ci (s_connect p)
  | SSendEvent v => no_ci (s_send_event p v)
  | SSetBroken e => no_ci (s_set_broken p e)
  | SHostCall mi ps pid => s_host_call p mi ps pid
  | SRequestKey => no_ci (s_request_key p)
  | SAvailability ci r => no_ci (s_availability p ci r)
  | SNewPipe pid => (new_pipe pid None PowerShellPipe p, Ok None)
  | SComplete h => no_ci (s_complete p h)
  | SStart h => no_ci (s_start p h)
  | SStop h => no_ci (s_stop p h)
  | SBeginStop h => no_ci (s_begin_stop p h)
  | SPipeHostCall h mi ps => s_pipe_host_call p h mi ps
  | SWriteOutput h v => no_ci (s_write_output p h v)
  | SWrite h k v => no_ci (s_write p h k v)
  | SWriteInformation h v => no_ci (s_write_information p h v)
  | SPipeClose h => no_ci (pipe_close p h)
  end.

(** [event.max_runspaces or self.max_runspaces]. *)
Definition or_else (v : option Z) (d : Z) : Z :=
  match v with Some n => if (n =? 0)%Z then d else n | None => d end.
(** A request with a call id arrives: the event and the handler are stored under it. *)
Definition s_track (p : pool) (ci : Z) (ev : pending) (hd : option (limit * Z)) : pool * result unit :=
  ok (set_handlers (zset ci hd (p_handlers p)) (set_events (zset ci ev (p_events p)) p)).
(** _process_CreatePipeline and _process_GetCommandMetadata, lines 335-342, 357-364. *)
Definition s_metadata (p : pool) (pid : option N) (d : N) : pool * result unit :=
  match pid with
  | None => (p, Err PSRPCoreError)
  | Some pid =>
    match aget pid (p_table p) with
    | None => (p, Err PSRPCoreError)
    | Some h => on_pipe p h (fun x => ok (put_pipe h (with_meta (Some (Good d)) x) p))
    end
  end.
(** The server's _process_* methods, _server.py:317-443. *)
Definition server_process (p : pool) (m : omsg) : pool * result unit :=
  match o_body m with
  | MBad e => (p, Err e)
  | MConnectRunspacePool mn mx =>
    let p := set_min (or_else mn (p_min p)) (set_max (or_else mx (p_max p)) p) in
    do! p, _ := prepare p (Ok (MRunspacePoolInitData (p_min p) (p_max p))) None SDefault in
    do! p, _ := prepare p (with_token (p_private p) MApplicationPrivateData) None SDefault in
    server_chg p Opened
  | MCreatePipeline d | MGetCommandMetadata d => s_metadata p (o_pid m) d
  | MGetAvailableRunspaces ci => s_track p ci EAvail None
  | MResetRunspaceState ci => s_track p ci EReset None
  | MSetMaxRunspaces n ci => s_track p ci (EMax n) (Some (LMax, n))
  | MSetMinRunspaces n ci => s_track p ci (EMin n) (Some (LMin, n))
  | MInitRunspacePool mn mx cfg =>
    let p := set_min mn (set_max mx (set_config (Good cfg) p)) in
    do! p, _ := prepare p (with_token (p_private p) MApplicationPrivateData) None SDefault in
    server_chg p Opened
  | MPublicKey k =>
    let p := set_keyreq true p in
    match k with
    | None => (p, Err ValueError)
    | Some k => prepare p (Ok (MEncryptedSessionKey k (p_session p))) None SDefault
    end
  | MSessionCapability c =>
    let p := set_their (Some c) p in
    if ps_is (p_state p) Connecting then
      if negb (p_rpid p =? o_rpid m)%N then (p, Err PSRPCoreError) else ok p
    else
      do! p, _ := prepare p (Ok (MSessionCapability (p_our p))) None SDefault in ok (set_rpid (o_rpid m) p)
  | _ => ok p
  end.

(** ** New pools *)
(** our_capability, _base.py:116-120. *)
Definition our_cap : capability := mkCap (mkV 2 0 None None) pv23 (mkV 1 1 (Some 0) (Some 1))%N.
(** ClientRunspacePool.__init__, _client.py:94-114. *)
Definition client_init (rpid : N) (mn mx : Z) (cfg : payload) : pool :=
  mkPool rpid our_cap None BeforeOpen [] [] [] [] 1 1 false None mn mx [] (Good 0%N) cfg None 0.
(** ServerRunspacePool.__init__, _server.py:79-98: the id is EMPTY_UUID (0), the session key is registered. *)
Definition server_init (session : N) (private : payload) : pool :=
  mkPool 0 our_cap None BeforeOpen [] [] [] [] 1 1 false (Some session) 0 0 [] private (Good 0%N) None session.

(** ** Histories of one pool *)
Inductive client_act := COp (o : client_op) | CRecv (m : omsg) (fresh : N).
Definition client_act_step (p : pool) (a : client_act) : pool :=
  match a with COp o => fst (client_step p o) | CRecv m k => fst (client_process k p m) end.
Inductive server_act := SOp (o : server_op) | SRecv (m : omsg) | SData.
Definition server_act_step (p : pool) (a : server_act) : pool :=
  match a with SOp o => fst (server_step p o) | SRecv m => fst (server_process p m) | SData => server_receive p end.

(** ** A client and a server joined by an in-order connection
    [y_ca] of the messages the client ever queued have arrived at the server and [y_cd] of them have been processed by
    its next_event; [y_sa] and [y_sd] are the same for the other direction. *)
Record sys := mkSys { y_c : pool; y_s : pool; y_ca : nat; y_cd : nat; y_sa : nat; y_sd : nat }.
Inductive action :=
| AClient (o : client_op) | AServer (o : server_op)
| AToServer (k : nat)                   (* data_to_send of the client, receive_data of the server: k more messages *)
| AToClient (k : nat)
| AServerNext                           (* next_event of the server *)
| AClientNext (fresh : N).              (* next_event of the client *)
(** The receiver sees an EMPTY pipeline id as no pipeline, _payload.py: unpack_message. *)
Definition arriving (m : omsg) : omsg :=
  match o_pid m with
  | Some 0%N => mkO (o_oid m) (o_rpid m) None (o_stream m) (o_body m)
  | _ => m
  end.
Definition act (y : sys) (a : action) : sys :=
  match a with
  | AClient o => mkSys (fst (client_step (y_c y) o)) (y_s y) (y_ca y) (y_cd y) (y_sa y) (y_sd y)
  | AServer o => mkSys (y_c y) (fst (server_step (y_s y) o)) (y_ca y) (y_cd y) (y_sa y) (y_sd y)
  | AToServer k =>
    mkSys (y_c y) (server_receive (y_s y)) (Nat.min (y_ca y + k) (length (p_out (y_c y)))) (y_cd y) (y_sa y) (y_sd y)
  | AToClient k =>
    mkSys (y_c y) (y_s y) (y_ca y) (y_cd y) (Nat.min (y_sa y + k) (length (p_out (y_s y)))) (y_sd y)
  | AServerNext =>
    if Nat.ltb (y_cd y) (y_ca y) then
      match nth_error (p_out (y_c y)) (y_cd y) with
      | Some m => mkSys (y_c y) (fst (server_process (y_s y) (arriving m))) (y_ca y) (S (y_cd y)) (y_sa y) (y_sd y)
      | None => y
      end
    else y
  | AClientNext k =>
    if Nat.ltb (y_sd y) (y_sa y) then
      match nth_error (p_out (y_s y)) (y_sd y) with
      | Some m => mkSys (fst (client_process k (y_c y) (arriving m))) (y_s y) (y_ca y) (y_cd y) (y_sa y) (S (y_sd y))
      | None => y
      end
    else y
  end.
Definition sys_init (rpid : N) (mn mx : Z) (cfg : payload) (session : N) (private : payload) : sys :=
  mkSys (client_init rpid mn mx cfg) (server_init session private) 0 0 0 0.
