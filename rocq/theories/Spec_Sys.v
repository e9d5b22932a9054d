(** What the properties of a client and a server joined by an in-order connection say. *)
From Verif Require Import Base Model_Scalars Model_Transport Model_Command Model_Host Model_Pool Spec_Pool.

(** Messages of the client processed by the server and under way to it; the same for the server's messages. *)
Definition cdone (y : sys) : list omsg := firstn (y_cd y) (p_out (y_c y)).
Definition cway (y : sys) : list omsg := skipn (y_cd y) (p_out (y_c y)).
Definition sdone (y : sys) : list omsg := firstn (y_sd y) (p_out (y_s y)).
Definition sway (y : sys) : list omsg := skipn (y_sd y) (p_out (y_s y)).
(** All runs: any operations with any arguments on both sides, any deliveries. *)
Definition run (y : sys) (l : list action) : sys := fold_left act l y.

(** ** C30 *)
Definition handshake (b : body) : Prop :=
  match b with MInitRunspacePool _ _ _ | MConnectRunspacePool _ _ => True | _ => False end.
Definition tells_limits (b : body) : Prop :=
  match b with MRunspaceAvailability _ _ | MRunspacePoolInitData _ _ => True | _ => False end.

(** ** C31 *)
Fixpoint last_state (l : list omsg) : option pool_state :=
  match l with
  | [] => None
  | m :: t => match last_state t with
              | Some s => Some s
              | None => match o_body m with MRunspacePoolState s _ => Some s | _ => None end
              end
  end.
(** The states that are not announced. *)
Definition quiet (s : pool_state) : Prop := s = Disconnecting \/ s = Disconnected \/ s = Connecting.
Definition sets_state (o : client_op) : bool :=
  match o with
  | CBeginClose | CClose | CBeginDisconnect | CDisconnect | CReconnect | COpen | CConnect => true
  | _ => false
  end.
Definition no_client_state_op (a : action) : Prop :=
  match a with AClient o => sets_state o = false | _ => True end.
(** set_broken with an error that can be serialized. *)
Definition good_broken (o : server_op) : Prop := match o with SSetBroken v => good v | _ => True end.
Definition good_act (a : server_act) : Prop := match a with SOp o => good_broken o | _ => True end.
Definition good_action (a : action) : Prop := match a with AServer o => good_broken o | _ => True end.

(** ** C32 *)
Definition delivery (a : action) : Prop := match a with AClient _ | AServer _ => False | _ => True end.
Definition quiescent (y : sys) : Prop := y_cd y = length (p_out (y_c y)) /\ y_sd y = length (p_out (y_s y)).

(** ** C34 *)
(** The id and the method of a call, and of a response. *)
Definition call_of (b : body) : option (Z * N) :=
  match b with MRunspacePoolHostCall ci mi _ | MPipelineHostCall ci mi _ => Some (ci, mi) | _ => None end.
Definition response_of (b : body) : option (Z * N) :=
  match b with MRunspacePoolHostResponse ci mi _ _ | MPipelineHostResponse ci mi _ _ => Some (ci, mi) | _ => None end.
Definition response_ids (l : list omsg) : list Z :=
  flat_map (fun m => match response_of (o_body m) with Some (ci, _) => [ci] | None => [] end) l.
Definition no_connect (a : action) : Prop := a <> AServer SConnect.

(** ** C35 *)
Definition count (f : body -> bool) (l : list omsg) : nat := length (filter (fun m => f (o_body m)) l).
Definition is_public_key (b : body) : bool := match b with MPublicKey _ => true | _ => false end.
Definition is_key_request (b : body) : bool := match b with MPublicKeyRequest => true | _ => false end.
Definition is_session_key (b : body) : bool := match b with MEncryptedSessionKey _ _ => true | _ => false end.
