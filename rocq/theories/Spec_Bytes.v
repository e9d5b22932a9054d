(** Vocabulary for client and server exchanging bytes (C55). *)
From Coq Require Import String.
From Verif Require Import Base Model_Scalars Model_Object Model_Clixml Model_Messages Spec_Scalars Spec_Clixml Spec_Xml Spec_Messages.
From Verif Require Import Model_Payload Model_Transport Model_Command Model_Host Model_Pool Model_Bytes Spec_Transport Spec_Sys.
Local Open Scope list_scope.

(** A reading that sees no more than what survives the wire: messages and values that are the same up to the identity of
    the objects in them have the same name. *)
Definition stable (reg : registry) (rd : reading) : Prop :=
  forall h h' R, same_graph reg h h' R ->
    (forall m m', same_message R m m' -> rd_msg rd h m = rd_msg rd h' m')
    /\ (forall v v', same_value R v v' -> rd_val rd h v = rd_val rd h' v').
(** [c] is the message behind an entry of the send buffer: it says what the pool takes it to say, is one that can be
    written and read (C54), and fits the wire format. *)
Definition realised (reg : registry) (lx : lexicon) (rd : reading) (m : omsg) (c : concrete) : Prop :=
  body_of rd (k_heap c) (k_msg c) = o_body m
  /\ good_graph reg lx (k_heap c) /\ safe_graph (k_heap c) /\ closed (k_heap c) /\ aget (k_addr c) (k_heap c) = None
  /\ good_message reg lx (k_msg c) /\ Forall (here (k_heap c)) (values (k_msg c))
  /\ (exists d, encode c = Ok d /\ (N.of_nat (length d) < 2 ^ 32 - 40)%N)
  /\ (o_rpid m < 2 ^ 128)%N /\ match o_pid m with Some p => (p < 2 ^ 128)%N | None => True end.
Definition all_realised (reg : registry) (lx : lexicon) (rd : reading) (rc rs : omsg -> concrete) (z : bsys) : Prop :=
  Forall (fun m => realised reg lx rd m (rc m)) (p_out (e_pool (b_c z)))
  /\ Forall (fun m => realised reg lx rd m (rs m)) (p_out (e_pool (b_s z))).
(** All runs: any operations with any arguments, any sizes of payloads, any order of sending, receiving and next_event. *)
Definition brun (rd : reading) (reg : registry) (rc rs : omsg -> concrete) (z : bsys) (l : list baction) : bsys :=
  fold_left (bact rd reg rc rs) l z.
(** The server does not take over a pool again: its object ids start anew then (C52). *)
Definition no_bconnect (a : baction) : Prop := a <> BServer SConnect.
(** What an action is at the level of messages: an operation is itself, anything else hands messages over. *)
Definition mirrors (a : baction) (l : list action) : Prop :=
  match a with
  | BClient o => l = [AClient o]
  | BServer o => l = [AServer o]
  | _ => Forall delivery l
  end.
Definition bdelivery (a : baction) : Prop := match a with BClient _ | BServer _ => False | _ => True end.
(** Counters of 64 bits do not run over. *)
Definition not_too_long (l : list baction) (z : bsys) : Prop :=
  (N.of_nat (length l + length (p_out (e_pool (b_c z))) + length (p_out (e_pool (b_s z)))) < 2 ^ 64)%N.
(** Nothing is queued, nothing under way, nothing received but not yet handed out. *)
Definition silent (z : bsys) : Prop :=
  e_queue (b_c z) = [] /\ e_queue (b_s z) = [] /\ b_cw z = [] /\ b_sw z = []
  /\ (exists r, next_message (e_rx (b_s z)) = (r, Ok None)) /\ (exists r, next_message (e_rx (b_c z)) = (r, Ok None)).

(** ** What the pools see of a message *)
(** The message types of the bodies, [MS-PSRP] 2.2.1. *)
Definition body_code (b : body) : option N :=
  match b with
  | MSessionCapability _ => Some 0x00010002 | MInitRunspacePool _ _ _ => Some 0x00010004 | MPublicKey _ => Some 0x00010005
  | MEncryptedSessionKey _ _ => Some 0x00010006 | MPublicKeyRequest => Some 0x00010007 | MConnectRunspacePool _ _ => Some 0x00010008
  | MSetMaxRunspaces _ _ => Some 0x00021002 | MSetMinRunspaces _ _ => Some 0x00021003 | MRunspaceAvailability _ _ => Some 0x00021004
  | MRunspacePoolState _ _ => Some 0x00021005 | MCreatePipeline _ => Some 0x00021006 | MGetAvailableRunspaces _ => Some 0x00021007
  | MUserEvent _ => Some 0x00021008 | MApplicationPrivateData _ => Some 0x00021009 | MGetCommandMetadata _ => Some 0x0002100A
  | MRunspacePoolInitData _ _ => Some 0x0002100B | MResetRunspaceState _ => Some 0x0002100C | MRunspacePoolHostCall _ _ _ => Some 0x00021100
  | MRunspacePoolHostResponse _ _ _ _ => Some 0x00021101 | MPipelineInput _ => Some 0x00041002 | MEndOfPipelineInput => Some 0x00041003
  | MPipelineOutput _ => Some 0x00041004 | MRecord KError _ => Some 0x00041005 | MPipelineState _ _ => Some 0x00041006
  | MRecord KDebug _ => Some 0x00041007 | MRecord KVerbose _ => Some 0x00041008 | MRecord KWarning _ => Some 0x00041009
  | MRecord KProgress _ => Some 0x00041010 | MInformationRecord _ => Some 0x00041011 | MPipelineHostCall _ _ _ => Some 0x00041100
  | MPipelineHostResponse _ _ _ _ => Some 0x00041101
  | MBad _ => None
  end%N.
(** The states by number, [MS-PSRP] 2.2.3.4 and 2.2.3.5. *)
Definition pool_number (s : pool_state) : Z :=
  match s with
  | BeforeOpen => 0 | Opening => 1 | Opened => 2 | Closed => 3 | Closing => 4 | Broken => 5 | Disconnecting => 6 | Disconnected => 7
  | Connecting => 8
  end%Z.
Definition pipe_number (s : pipe_state) : Z :=
  match s with NotStarted => 0 | Running => 1 | Stopping => 2 | Stopped => 3 | Completed => 4 | Failed => 5 | PDisconnected => 6 end%Z.
(** The numbers a message gives by name, and those the pools see: call id, method, limits, counts, state. *)
Record numbers := mkNumbers {
  nu_call : option Z; nu_method : option Z; nu_min : option Z; nu_max : option Z; nu_count : option Z; nu_answer : option bool;
  nu_state : option Z }.
Definition none_of : numbers := mkNumbers None None None None None None None.
Definition numbers_of_message (m : message) : numbers :=
  match m with
  | WInitRunspacePool mn mx _ _ _ _ | WRunspacePoolInitData mn mx => mkNumbers None None (Some mn) (Some mx) None None None
  | WConnectRunspacePool mn mx => mkNumbers None None mn mx None None None
  | WSetMaxRunspaces n ci | WSetMinRunspaces n ci => mkNumbers (Some ci) None None None (Some n) None None
  | WGetAvailableRunspaces ci | WResetRunspaceState ci => mkNumbers (Some ci) None None None None None None
  | WRunspaceAvailability (inl b) ci => mkNumbers (Some ci) None None None None (Some b) None
  | WRunspaceAvailability (inr n) ci => mkNumbers (Some ci) None None None (Some n) None None
  | WHostCall _ ci mi _ | WHostResponse _ ci mi _ _ => mkNumbers (Some ci) (Some (e_val mi)) None None None None None
  | WRunspacePoolState s _ | WPipelineState s _ => mkNumbers None None None None None None (Some s)
  | _ => none_of
  end.
Definition numbers_of_body (b : body) : numbers :=
  match b with
  | MInitRunspacePool mn mx _ | MRunspacePoolInitData mn mx => mkNumbers None None (Some mn) (Some mx) None None None
  | MConnectRunspacePool mn mx => mkNumbers None None mn mx None None None
  | MSetMaxRunspaces n ci | MSetMinRunspaces n ci => mkNumbers (Some ci) None None None (Some n) None None
  | MGetAvailableRunspaces ci | MResetRunspaceState ci => mkNumbers (Some ci) None None None None None None
  | MRunspaceAvailability ci r =>
    mkNumbers (Some ci) None None None (match r with RInt n => Some n | _ => None end) (match r with RBool b => Some b | _ => None end) None
  | MRunspacePoolHostCall ci mi _ | MPipelineHostCall ci mi _ | MRunspacePoolHostResponse ci mi _ _ | MPipelineHostResponse ci mi _ _ =>
    mkNumbers (Some ci) (Some (Z.of_N mi)) None None None None None
  | MRunspacePoolState s _ => mkNumbers None None None None None None (Some (pool_number s))
  | MPipelineState s _ => mkNumbers None None None None None None (Some (pipe_number s))
  | _ => none_of
  end.
(** The values of a message that are handed on, by the names they have. *)
Definition named (rd : reading) (h : heap) (v : value) : option N := match v with VNull => None | _ => Some (rd_val rd h v) end.
Definition contents_of_message (rd : reading) (h : heap) (m : message) : list (option N) :=
  match m with
  | WApplicationPrivateData v | WPipelineInput v | WRecord _ v | WHostCall _ _ _ v => [Some (rd_val rd h v)]
  | WPipelineOutput v => [match v with Some v => Some (rd_val rd h v) | None => None end]
  | WHostResponse _ _ _ r e => [named rd h r; named rd h e]
  | WRunspacePoolState _ e | WPipelineState _ e => [named rd h e]
  | WPublicKey k => [rd_key rd k]
  | WEncryptedSessionKey k => [Some (fst (rd_sealed rd k)); Some (snd (rd_sealed rd k))]
  | WInitRunspacePool _ _ _ _ _ _ | WCreatePipeline _ _ _ _ _ _ _ | WUserEvent _ _ _ _ _ _ _ _ | WGetCommandMetadata _ _ _ _
  | WProgressRecord _ _ _ _ _ _ _ _ | WInformationRecord _ _ _ _ _ _ _ _ _ => [Some (rd_msg rd h m)]
  | _ => []
  end.
Definition contents_of_body (b : body) : list (option N) :=
  match b with
  | MInitRunspacePool _ _ d | MApplicationPrivateData d | MRunspacePoolHostCall _ _ d | MPipelineHostCall _ _ d | MUserEvent d | MCreatePipeline d
  | MGetCommandMetadata d | MPipelineInput d | MRecord _ d | MInformationRecord d => [Some d]
  | MPublicKey d | MRunspacePoolState _ d | MPipelineState _ d | MPipelineOutput d => [d]
  | MRunspacePoolHostResponse _ _ r e | MPipelineHostResponse _ _ r e => [r; e]
  | MEncryptedSessionKey k s => [Some k; Some s]
  | _ => []
  end.
(** The states and methods of the protocol. *)
Definition known_numbers (m : message) : Prop :=
  match m with
  | WRunspacePoolState s _ => (0 <= s <= 8)%Z
  | WPipelineState s _ => (0 <= s <= 6)%Z
  | WHostCall _ _ mi _ | WHostResponse _ _ mi _ _ => (0 <= e_val mi)%Z
  | _ => True
  end.
