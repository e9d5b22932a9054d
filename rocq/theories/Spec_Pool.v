(** What the pool properties say, written down without the functions of the model: tables of allowed states, and what
    a history of calls, results and messages implies. *)
From Verif Require Import Base Model_Scalars Model_Transport Model_Command Model_Host Model_Pool.

(** ** C27: in which states each operation is allowed *)
Definition state_error (e : err) : Prop := e = InvalidPoolState \/ e = InvalidPipelineState \/ e = InvalidProtocolVersion.
Definition any_state : list pool_state :=
  [BeforeOpen; Opening; Opened; Closed; Closing; Broken; Disconnecting; Disconnected; Connecting].
Definition client_pool_states (o : client_op) : list pool_state :=
  match o with
  | COpen => [BeforeOpen; Opened]
  | CConnect => [BeforeOpen; Opened; Disconnected]
  | CClose => [Opened; Closed; Closing]
  | CDisconnect => [Opened; Disconnecting; Disconnected]
  | CReconnect => [Opened; Disconnected]
  | CGetAvailable | CExchangeKey _ | CHostResponse _ _ _ | CReset | CPipeHostResponse _ _ _ _ => [Opened]
  | _ => any_state
  end.
Definition server_pool_states (o : server_op) : list pool_state :=
  match o with
  | SConnect => [Opened; Disconnected]
  | SClose => [Opened; Closed; Closing]
  | SDisconnect => [Opened; Disconnecting; Disconnected]
  | SReconnect => [Opened; Disconnected]
  | SSetBroken _ => [Opened; Broken]
  | SSendEvent _ | SHostCall _ _ _ | SRequestKey | SPipeHostCall _ _ _ => [Opened]
  | _ => any_state
  end.
(** The pipeline an operation is called on, with the states that allow it. *)
Definition closable : list pipe_state := [NotStarted; Stopping; Stopped; Completed; Failed].
Definition any_pipe : list pipe_state := [NotStarted; Running; Stopping; Stopped; Completed; Failed; PDisconnected].
Definition client_pipe_states (o : client_op) : option (nat * list pipe_state) :=
  match o with
  | CStart h => Some (h, [NotStarted; Stopped; Completed])
  | CSend h _ | CSendEof h | CPipeHostResponse h _ _ _ => Some (h, [Running])
  | CBeginStop h => Some (h, [Running; Stopping])
  | CPipeClose h => Some (h, closable)
  | CSetMeta h _ => Some (h, any_pipe)
  | _ => None
  end.
Definition server_pipe_states (o : server_op) : option (nat * list pipe_state) :=
  match o with
  | SStart h => Some (h, [NotStarted; Stopped; Completed])
  | SStop h => Some (h, [Running; Stopping; Stopped])
  | SBeginStop h => Some (h, [Running; Stopping])
  | SPipeHostCall h _ _ | SWriteOutput h _ | SWrite h _ _ | SWriteInformation h _ => Some (h, [Running])
  | SComplete h => Some (h, any_pipe)
  | SPipeClose h => Some (h, closable)
  | _ => None
  end.
(** The pipeline the operation is called on exists. *)
Definition handle_ok (p : pool) (t : option (nat * list pipe_state)) : Prop :=
  match t with Some (h, _) => nth_error (p_heap p) h <> None | None => True end.
Definition pipe_allowed (p : pool) (t : option (nat * list pipe_state)) : Prop :=
  match t with
  | Some (h, l) => exists x, nth_error (p_heap p) h = Some x /\ In (pl_state x) l
  | None => True
  end.
(** Version 2.3 or later has been announced by the peer. *)
Definition announced_23 (p : pool) : Prop :=
  exists c, p_their p = Some c /\ version_ge (cap_proto c) pv23 = true.
(** What an operation needs besides the states. *)
Definition good (v : payload) : Prop := match v with Good _ => True | Bad _ => False end.
Definition good_opt (v : option payload) : Prop := match v with Some v => good v | None => True end.
Definition good_u (v : uval) : Prop := match v with UVal v => good v | UNone => True end.
Definition client_other_needs (p : pool) (o : client_op) : Prop :=
  match o with
  | COpen => p_state p = BeforeOpen -> good (p_config p)
  | CClose => p_table p = []
  | CReset => announced_23 p
  | CHostResponse ci rv er | CPipeHostResponse _ ci rv er =>
    (exists mi pid, zget ci (p_events p) = Some (EHost mi pid)) /\ good_opt rv /\ good_opt er
  | CStart h => forall x v, nth_error (p_heap p) h = Some x -> pl_meta x = Some v -> good v
  | CSend _ v => good_u v
  | _ => True
  end.
Definition server_other_needs (p : pool) (o : server_op) : Prop :=
  match o with
  | SClose => p_table p = []
  | SSendEvent v | SSetBroken v | SHostCall _ v _ | SPipeHostCall _ _ v | SWrite _ _ v => good v
  | SWriteOutput _ v => good_u v
  | SWriteInformation _ v => announced_23 p /\ good v
  | SAvailability ci r =>
    match zget ci (p_events p), r with
    | Some (EMax _ | EMin _ | EReset), RBool _ => True
    | Some EAvail, (RBool _ | RInt _) => True
    | Some (EHost _ _), _ => True
    | _, _ => False
    end
  | _ => True
  end.

(** Reasons for which an operation is not stopped by the pool state: the key exchange already ran, open pipelines are
    reported first, and so is the missing version. *)
Definition client_excused (p : pool) (o : client_op) : Prop :=
  match o with
  | CExchangeKey _ => p_keyreq p = true
  | CClose => p_table p <> []
  | CReset => ~ announced_23 p
  | _ => False
  end.
Definition server_excused (p : pool) (o : server_op) : Prop :=
  match o with
  | SRequestKey => p_keyreq p = true
  | SClose => p_table p <> []
  | _ => False
  end.

(** ** Histories: what was called or received, and what came back *)
Definition client_result (p : pool) (a : client_act) : result (option Z) :=
  match a with
  | COp o => snd (client_step p o)
  | CRecv m k => match snd (client_process k p m) with Ok _ => Ok None | Err e => Err e end
  end.
Definition server_result (p : pool) (a : server_act) : result (option Z) :=
  match a with
  | SOp o => snd (server_step p o)
  | SRecv m => match snd (server_process p m) with Ok _ => Ok None | Err e => Err e end
  | SData => Ok None
  end.
(** The history of a run, the most recent entry first, together with the pool it ends in. *)
Fixpoint client_run (p : pool) (l : list client_act) : pool * list (client_act * result (option Z)) :=
  match l with
  | [] => (p, [])
  | a :: t => let '(p', h) := client_run p t in (client_act_step p' a, (a, client_result p' a) :: h)
  end.
Fixpoint server_run (p : pool) (l : list server_act) : pool * list (server_act * result (option Z)) :=
  match l with
  | [] => (p, [])
  | a :: t => let '(p', h) := server_run p t in (server_act_step p' a, (a, server_result p' a) :: h)
  end.
Definition client_hist := list (client_act * result (option Z)).
Definition server_hist := list (server_act * result (option Z)).

(** ** C28: the call ids handed out; -100 marks a call without an id *)
Definition id_of {A} (e : A * result (option Z)) : list Z :=
  match snd e with Ok (Some ci) => if (ci =? -100)%Z then [] else [ci] | _ => [] end.
Definition ids {A} (h : list (A * result (option Z))) : list Z := flat_map id_of h.

Definition is_connect (a : server_act) : bool := match a with SOp SConnect => true | _ => false end.

(** ** C29: the limits that a history implies *)
Definition limit_eqb (a b : limit) : bool := match a, b with LMin, LMin | LMax, LMax => true | _, _ => false end.
Definition asks (o : client_op) : option (limit * Z) :=
  match o with CSetMax v => Some (LMax, v) | CSetMin v => Some (LMin, v) | _ => None end.
(** The request that call id [ci] stands for, if it was made and has not been answered since: [Some (Some (l, v))] for a
    limit, [Some None] for another kind of request. *)
Fixpoint outstanding (ci : Z) (h : client_hist) : option (option (limit * Z)) :=
  match h with
  | [] => None
  | (COp o, Ok (Some c)) :: t => if (c =? ci)%Z then Some (asks o) else outstanding ci t
  | (CRecv m _, _) :: t =>
    match o_body m with
    | MRunspaceAvailability c _ => if (c =? ci)%Z then None else outstanding ci t
    | _ => outstanding ci t
    end
  | _ :: t => outstanding ci t
  end.
Fixpoint limit_now (l : limit) (first : Z) (h : client_hist) : Z :=
  match h with
  | [] => first
  | (COp o, Ok None) :: t =>
    match asks o with
    | Some (l', v) => if limit_eqb l l' then v else limit_now l first t
    | None => limit_now l first t
    end
  | (CRecv m _, _) :: t =>
    match o_body m with
    | MRunspacePoolInitData mn mx => match l with LMin => mn | LMax => mx end
    | MRunspaceAvailability c (RBool true) =>
      match outstanding c t with
      | Some (Some (l', v)) => if limit_eqb l l' then v else limit_now l first t
      | _ => limit_now l first t
      end
    | _ => limit_now l first t
    end
  | _ :: t => limit_now l first t
  end.

(** ** C33: pipelines made and closed *)
Definition made_by_client (h : client_hist) : list N :=
  flat_map (fun e => match fst e with COp (CNewPipe pid _ _) => [pid] | _ => [] end) (rev h).
Definition made_by_server (h : server_hist) : list N :=
  flat_map (fun e => match fst e with SOp (SNewPipe pid) => [pid] | _ => [] end) (rev h).
Definition client_closed (n : nat) (h : client_hist) : Prop := exists r, In (COp (CPipeClose n), Ok r) h.
Definition server_closed (n : nat) (h : server_hist) : Prop := exists r, In (SOp (SPipeClose n), Ok r) h.

(** What the pipeline table should be when pipeline ids do not repeat: [made] are the ids of all pipelines made, in order,
    and [closed] says which have been closed. *)
Definition table_ok (p : pool) (made : list N) (closed : nat -> Prop) : Prop :=
  map pl_pid (p_heap p) = made /\ NoDup (akeys (p_table p))
  /\ forall pid h, aget pid (p_table p) = Some h <-> nth_error made h = Some pid /\ ~ closed h.

(** ** C34: host calls that wait for an answer *)
Fixpoint waiting (ci : Z) (h : client_hist) : option (N * option N) :=
  match h with
  | [] => None
  | (CRecv m _, _) :: t =>
    match o_body m with
    | MPipelineHostCall c mi _ | MRunspacePoolHostCall c mi _ =>
      if (c =? ci)%Z && negb (c =? -100)%Z then Some (mi, o_pid m) else waiting ci t
    | _ => waiting ci t
    end
  | (COp (CHostResponse c _ _), Ok _) :: t | (COp (CPipeHostResponse _ c _ _), Ok _) :: t =>
    if (c =? ci)%Z then None else waiting ci t
  | _ :: t => waiting ci t
  end.

(** The answer to a host call. *)
Definition response_body (ci : Z) (mi : N) (pid : option N) (mr me : option N) : body :=
  match pid with Some _ => MPipelineHostResponse ci mi mr me | None => MRunspacePoolHostResponse ci mi mr me end.

(** ** C36: the last version announced *)
Fixpoint announced {A} (recv : A -> option omsg) (h : list (A * result (option Z))) : option capability :=
  match h with
  | [] => None
  | (a, _) :: t =>
    match recv a with
    | Some m => match o_body m with MSessionCapability c => Some c | _ => announced recv t end
    | None => announced recv t
    end
  end.
Definition client_recv (a : client_act) : option omsg := match a with CRecv m _ => Some m | _ => None end.
Definition server_recv (a : server_act) : option omsg := match a with SRecv m => Some m | _ => None end.
