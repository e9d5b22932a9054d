(** Client and server down to the bytes: the pools of Model_Pool whose messages are made of Model_Messages, cut up and put
    together by Model_Transport.  What is new here is only how these parts hang together in src/psrpcore/_base.py. *)
From Coq Require Import String.
From Verif Require Import Base Model_Scalars Model_Strings Model_Text Model_Object Model_Clixml Model_Xml Model_Utf8 Model_Messages.
From Verif Require Import Model_Payload Model_Transport Model_Command Model_Host Model_Pool.
Local Open Scope list_scope.

(** RunspacePoolState and PSInvocationState by number, types/_complex.py:192-234. *)
Definition pool_state_of (z : Z) : pool_state :=
  match z with
  | 0 => BeforeOpen | 1 => Opening | 2 => Opened | 3 => Closed | 4 => Closing | 5 => Broken | 6 => Disconnecting
  | 7 => Disconnected | _ => Connecting
  end%Z.
Definition pipe_state_of (z : Z) : pipe_state :=
  match z with
  | 0 => NotStarted | 1 => Running | 2 => Stopping | 3 => Stopped | 4 => Completed | 5 => Failed | _ => PDisconnected
  end%Z.
(** How the content that the pools only hand on is called: [rd_msg] and [rd_val] name a message and a value by what can be
    seen of them, [rd_key] the public key in a blob, [rd_sealed] the public key and the session key of an encrypted one. *)
Record reading := mkReading {
  rd_msg : heap -> message -> N; rd_val : heap -> value -> N; rd_key : list N -> option N; rd_sealed : list N -> N * N }.
Section Reading.
  Variable rd : reading.
  Definition unless_none (h : heap) (v : value) : option N := match v with VNull => None | _ => Some (rd_val rd h v) end.
  (** What the pools read of a message: the attributes the _process_* methods of _client.py:313-427 and _server.py:317-443
      use. *)
  Definition body_of (h : heap) (m : message) : body :=
    match m with
    | WSessionCapability ps proto ser _ => MSessionCapability (mkCap ps proto ser)
    | WInitRunspacePool mn mx _ _ _ _ => MInitRunspacePool mn mx (rd_msg rd h m)
    | WPublicKey k => MPublicKey (rd_key rd k)
    | WEncryptedSessionKey k => MEncryptedSessionKey (fst (rd_sealed rd k)) (snd (rd_sealed rd k))
    | WPublicKeyRequest => MPublicKeyRequest
    | WSetMaxRunspaces n ci => MSetMaxRunspaces n ci
    | WSetMinRunspaces n ci => MSetMinRunspaces n ci
    | WRunspaceAvailability r ci => MRunspaceAvailability ci (match r with inl b => RBool b | inr n => RInt n end)
    | WRunspacePoolState s e => MRunspacePoolState (pool_state_of s) (unless_none h e)
    | WCreatePipeline _ _ _ _ _ _ _ => MCreatePipeline (rd_msg rd h m)
    | WGetAvailableRunspaces ci => MGetAvailableRunspaces ci
    | WUserEvent _ _ _ _ _ _ _ _ => MUserEvent (rd_msg rd h m)
    | WApplicationPrivateData v => MApplicationPrivateData (rd_val rd h v)
    | WGetCommandMetadata _ _ _ _ => MGetCommandMetadata (rd_msg rd h m)
    | WHostCall true ci mi mp => MPipelineHostCall ci (Z.to_N (e_val mi)) (rd_val rd h mp)
    | WHostCall false ci mi mp => MRunspacePoolHostCall ci (Z.to_N (e_val mi)) (rd_val rd h mp)
    | WHostResponse true ci mi mr me => MPipelineHostResponse ci (Z.to_N (e_val mi)) (unless_none h mr) (unless_none h me)
    | WHostResponse false ci mi mr me => MRunspacePoolHostResponse ci (Z.to_N (e_val mi)) (unless_none h mr) (unless_none h me)
    | WPipelineInput v => MPipelineInput (rd_val rd h v)
    | WEndOfPipelineInput => MEndOfPipelineInput
    | WPipelineOutput v => MPipelineOutput (match v with Some v => Some (rd_val rd h v) | None => None end)
    | WRecord k v => MRecord (match k with RecError => KError | RecDebug => KDebug | RecVerbose => KVerbose | RecWarning => KWarning end)
                             (rd_val rd h v)
    | WPipelineState s e => MPipelineState (pipe_state_of s) (unless_none h e)
    | WProgressRecord _ _ _ _ _ _ _ _ => MRecord KProgress (rd_msg rd h m)
    | WInformationRecord _ _ _ _ _ _ _ _ _ => MInformationRecord (rd_msg rd h m)
    | WConnectRunspacePool mn mx => MConnectRunspacePool mn mx
    | WRunspacePoolInitData mn mx => MRunspacePoolInitData mn mx
    | WResetRunspaceState ci => MResetRunspaceState ci
    end.
  (** _process_message, _base.py:426-456: what arrives, as the pools see it. *)
  Definition read_body (reg : registry) (x : RMsg) : body :=
    match kind_of_code (r_type x) with
    | None => MBad ValueError
    | Some k => match read_message reg k (r_data x) with Ok (m, h) => body_of h m | Err e => MBad e end
    end.
End Reading.

(** The message an entry of the send buffer was made from: its class with all attributes, the objects in it, the address
    of the new object, and the depth of the recursion. *)
Record concrete := mkConcrete { k_fuel : nat; k_heap : heap; k_addr : N; k_msg : message }.
Definition encode (c : concrete) : result (list N) := message_data (k_fuel c) (k_heap c) (k_addr c) (k_msg c).
(** The tail of prepare_message, _base.py:401-417, for an entry of [p_out]. *)
Definition packed (client : bool) (real : omsg -> concrete) (m : omsg) : list QMsg :=
  match encode (real m) with
  | Ok d => [mkQ (o_oid m) (o_pid m) (o_stream m) (create_message client (code (kind (k_msg (real m)))) d (o_rpid m) (o_pid m)) 0]
  | Err _ => []
  end.

(** One side: its pool, its _send_buffer and what it has received. *)
Record side := mkSide { e_pool : pool; e_queue : list QMsg; e_rx : Receiver }.
(** The pool has gone on: what it has added to the send buffer is queued. *)
Definition go_on (client : bool) (real : omsg -> concrete) (e : side) (p : pool) : side :=
  mkSide p (e_queue e ++ flat_map (packed client real) (skipn (length (p_out (e_pool e))) (p_out p))) (e_rx e).
(** data_to_send; the object ids are counted by the pool. *)
Definition side_send (e : side) (amount : option Z) : side * result (option Payload) :=
  let '(s, r) := data_to_send (mkS (p_fc (e_pool e)) (e_queue e)) amount in (mkSide (e_pool e) (s_queue s) (e_rx e), r).
(** next_event: [process] is the _process_message of the side. *)
Definition side_next (client : bool) (real : omsg -> concrete) (rd : reading) (reg : registry)
  (process : pool -> omsg -> pool * result unit) (e : side) : side :=
  match next_message (e_rx e) with
  | (r, Ok (Some (oid, x))) =>
    go_on client real (mkSide (e_pool e) (e_queue e) r)
      (fst (process (e_pool e) (mkO oid (r_rpid x) (r_pid x) SDefault (read_body rd reg x))))
  | (r, _) => mkSide (e_pool e) (e_queue e) r
  end.

(** Both sides and the payloads under way. *)
Record bsys := mkB { b_c : side; b_s : side; b_cw : list Payload; b_sw : list Payload }.
Inductive baction :=
| BClient (o : client_op) | BServer (o : server_op)
| BClientSend (amount : option Z) | BServerSend (amount : option Z)       (* data_to_send; the payload goes on its way *)
| BToServer | BToClient                                                   (* receive_data of the oldest payload under way *)
| BServerNext | BClientNext (fresh : N).                                  (* next_event *)
Section Steps.
  Variables (rd : reading) (reg : registry) (rc rs : omsg -> concrete).
  Definition bact (z : bsys) (a : baction) : bsys :=
    match a with
    | BClient o => mkB (go_on true rc (b_c z) (fst (client_step (e_pool (b_c z)) o))) (b_s z) (b_cw z) (b_sw z)
    | BServer o => mkB (b_c z) (go_on false rs (b_s z) (fst (server_step (e_pool (b_s z)) o))) (b_cw z) (b_sw z)
    | BClientSend n =>
      let '(e, r) := side_send (b_c z) n in
      mkB e (b_s z) (b_cw z ++ match r with Ok (Some p) => [p] | _ => [] end) (b_sw z)
    | BServerSend n =>
      let '(e, r) := side_send (b_s z) n in
      mkB (b_c z) e (b_cw z) (b_sw z ++ match r with Ok (Some p) => [p] | _ => [] end)
    | BToServer =>
      match b_cw z with
      | [] => z
      | p :: t => mkB (b_c z) (mkSide (server_receive (e_pool (b_s z))) (e_queue (b_s z)) (receive_data (e_rx (b_s z)) (p_data p))) t (b_sw z)
      end
    | BToClient =>
      match b_sw z with
      | [] => z
      | p :: t => mkB (mkSide (e_pool (b_c z)) (e_queue (b_c z)) (receive_data (e_rx (b_c z)) (p_data p))) (b_s z) (b_cw z) t
      end
    | BServerNext => mkB (b_c z) (side_next false rs rd reg server_process (b_s z)) (b_cw z) (b_sw z)
    | BClientNext k => mkB (side_next true rc rd reg (client_process k) (b_c z)) (b_s z) (b_cw z) (b_sw z)
    end.
End Steps.
Definition bsys_init (rpid : N) (mn mx : Z) (cfg : payload) (session : N) (private : payload) : bsys :=
  mkB (mkSide (client_init rpid mn mx cfg) [] receiver_init) (mkSide (server_init session private) [] receiver_init) [] [].
