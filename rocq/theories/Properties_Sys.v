(** C30 (limits agree), C31 (the client tracks the state), C32 (open handshake), C34 (host calls, both sides joined),
    C35 (key exchange). *)
From Verif Require Import Base BaseFacts Model_Scalars Model_Transport Model_Command Model_Host Model_Pool Spec_Pool Spec_Sys
  Proofs_Sys3 Proofs_Sys4 Proofs_Sys5 Proofs_Sys6 Proofs_Sys7.

Definition ex_sys : sys := sys_init 7 1 5 (Good 3) 99 (Good 4).
(** Deliver and process everything that was sent so far, up to [n] messages each way. *)
Definition to_server (n : nat) : list action := AToServer n :: repeat AServerNext n.
Definition to_client (n : nat) : list action := AToClient n :: repeat (AClientNext 55) n.
Definition ex_opened : list action := AClient COpen :: to_server 2 ++ to_client 3.

(** ** C30 *)
(** In every run of both sides, with any operations on either side: once the server has processed an opening or
    connecting message, no such message is under way to it and no answer is under way to the client, the limits are the
    same on both sides - also while requests are outstanding. *)
Theorem C30_limits_agree : forall rpid mn mx cfg session private l,
  let y := run (sys_init rpid mn mx cfg session private) l in
  (exists m, In m (cdone y) /\ handshake (o_body m)) ->
  (forall m, In m (cway y) -> ~ handshake (o_body m)) ->
  (forall m, In m (sway y) -> ~ tells_limits (o_body m)) ->
  p_min (y_c y) = p_min (y_s y) /\ p_max (y_c y) = p_max (y_s y).
Proof. exact C30_agree. Qed.
Print Assumptions C30_limits_agree.
(** Four requests answered out of order, one refused, then a disconnect and a new connection. *)
Definition ex_limits : list action :=
  ex_opened ++ [AClient (CSetMax 20); AClient (CSetMin 3); AClient (CSetMax 30); AClient (CSetMin 4)] ++ to_server 4
  ++ [AServer (SAvailability 3 (RBool true)); AServer (SAvailability 2 (RBool true)); AServer (SAvailability 4 (RBool false));
      AServer (SAvailability 1 (RBool true))] ++ to_client 4
  ++ [AServer SDisconnect; AClient CDisconnect; AServer SConnect; AClient CConnect] ++ to_server 2 ++ to_client 3.
Example C30_example :
  let y := run ex_sys ex_limits in
  (exists m, In m (cdone y) /\ handshake (o_body m)) /\ cway y = [] /\ sway y = []
  /\ p_min (y_c y) = 3%Z /\ p_max (y_c y) = 20%Z /\ p_state (y_c y) = Opened.
Proof. vm_compute. split; [eexists; split; [right; left; reflexivity|exact I]|auto 6]. Qed.

(** ** C31 *)
(** Over any stretch [l2] of a run in which the client itself does not open, connect, disconnect or close, has
    processed at least one state message, and none is under way: the client is in the state the server announced last. *)
Theorem C31_client_tracks : forall rpid mn mx cfg session private l1 l2,
  let y1 := run (sys_init rpid mn mx cfg session private) l1 in
  let y := run y1 l2 in
  Forall no_client_state_op l2 ->
  last_state (skipn (y_sd y1) (sdone y)) <> None -> last_state (sway y) = None ->
  last_state (p_out (y_s y)) = Some (p_state (y_c y)).
Proof. exact C31_tracks. Qed.
Print Assumptions C31_client_tracks.
(** A server's state is the one it announced last, or one of the three that are not announced, or it has announced
    nothing yet and waits for the first message; whatever messages arrive, as long as set_broken is not given an error
    that cannot be serialized. *)
Theorem C31_server_announces_partial : forall session private l, Forall good_act l ->
  let p := fst (server_run (server_init session private) l) in
  quiet (p_state p) \/ last_state (p_out p) = Some (p_state p)
  \/ (last_state (p_out p) = None /\ (p_state p = BeforeOpen \/ p_state p = Opening)).
Proof. intros session private l G. exact (proj1 (server_tracked session private l G)). Qed.
Print Assumptions C31_server_announces_partial.
(** Both together: the two states are the same. *)
Theorem C31_same_state_partial : forall rpid mn mx cfg session private l1 l2,
  let y1 := run (sys_init rpid mn mx cfg session private) l1 in
  let y := run y1 l2 in
  Forall no_client_state_op l2 -> Forall good_action (l1 ++ l2) ->
  last_state (skipn (y_sd y1) (sdone y)) <> None -> last_state (sway y) = None -> ~ quiet (p_state (y_s y)) ->
  p_state (y_c y) = p_state (y_s y).
Proof. exact C31_equal. Qed.
Print Assumptions C31_same_state_partial.
(** Two changes that are not announced: to Opening, when the first data arrives, and to Broken, when the error given
    cannot be serialized; after the second the client stays Opened. *)
Theorem C31_unannounced_refuted :
  (exists p, p_state p = BeforeOpen /\ p_state (server_receive p) = Opening /\ p_out (server_receive p) = p_out p)
  /\ (exists l, let y := run ex_sys l in
      quiescent y /\ p_state (y_s y) = Broken /\ p_state (y_c y) = Opened).
Proof.
  split.
  - exists (server_init 99 (Good 4)). vm_compute. auto.
  - exists (ex_opened ++ [AServer (SSetBroken (Bad SerValue))]). vm_compute. auto.
Qed.
Print Assumptions C31_unannounced_refuted.
Example C31_example :
  let l2 := [AServer SBeginClose; AClient (CSetMax 20)] ++ to_client 1 ++ [AServer SClose] ++ to_client 1 in
  let y1 := run ex_sys ex_opened in
  let y := run y1 l2 in
  Forall no_client_state_op l2 /\ last_state (skipn (y_sd y1) (sdone y)) = Some Closed /\ last_state (sway y) = None
  /\ p_state (y_c y) = Closed /\ p_state (y_c (run y1 (firstn 4 l2))) = Closing.
Proof. cbv zeta. split; [repeat constructor|]. vm_compute. auto. Qed.

(** ** C32 *)
(** After open on a fresh client, whatever the order in which messages are delivered and processed: when everything has
    been processed both sides are Opened, with the client's id and limits on both sides, each holding the other's
    capability, the client holding the server's private data and the server the client's arguments. *)
Theorem C32_outcome : forall rpid mn mx cfg session private l, Forall delivery l ->
  let y := run (act (sys_init rpid mn mx (Good cfg) session (Good private)) (AClient COpen)) l in
  quiescent y ->
  p_state (y_c y) = Opened /\ p_state (y_s y) = Opened
  /\ p_rpid (y_s y) = rpid /\ p_rpid (y_c y) = rpid
  /\ (p_min (y_s y), p_max (y_s y)) = (mn, mx) /\ (p_min (y_c y), p_max (y_c y)) = (mn, mx)
  /\ p_their (y_c y) = Some (p_our (y_s y)) /\ p_their (y_s y) = Some (p_our (y_c y))
  /\ p_private (y_c y) = Good private /\ p_config (y_s y) = Good cfg.
Proof. exact h_outcome. Qed.
Print Assumptions C32_outcome.
(** And no schedule gets stuck: from wherever it is, some further deliveries lead to that outcome. *)
Theorem C32_progress : forall rpid mn mx cfg session private l, Forall delivery l ->
  let y := run (act (sys_init rpid mn mx (Good cfg) session (Good private)) (AClient COpen)) l in
  exists l', Forall delivery l' /\ quiescent (run y l').
Proof. exact h_progress. Qed.
Print Assumptions C32_progress.
Example C32_example :
  let l := [AToServer 1; AServerNext; AToClient 5; AClientNext 0; AServerNext; AToServer 1; AClientNext 0; AServerNext;
            AToClient 1; AClientNext 0; AToClient 9; AClientNext 0; AClientNext 0] in
  let y := run (act (sys_init 7 1 5 (Good 3) 99 (Good 4)) (AClient COpen)) l in
  Forall delivery l /\ quiescent y /\ length (p_out (y_s y)) = 3%nat.
Proof. cbv zeta. split; [repeat constructor|]. vm_compute. auto. Qed.

(** ** C34 *)
(** Every response a client ever sent has the id, the method and the pipeline of a call that it had received from the
    server, and never the id -100. *)
Theorem C34_right_caller : forall rpid mn mx cfg session private l,
  let y := run (sys_init rpid mn mx cfg session private) l in
  forall m ci mi, In m (p_out (y_c y)) -> response_of (o_body m) = Some (ci, mi) ->
  exists m', In m' (sdone y) /\ call_of (o_body m') = Some (ci, mi) /\ o_pid (arriving m') = o_pid m /\ ci <> (-100)%Z.
Proof. exact C34_matches. Qed.
Print Assumptions C34_right_caller.
(** No two responses carry the same id, as long as the server does not use connect. *)
Theorem C34_at_most_once_partial : forall rpid mn mx cfg session private l, Forall no_connect l ->
  NoDup (response_ids (p_out (y_c (run (sys_init rpid mn mx cfg session private) l)))).
Proof. exact C34_once. Qed.
Print Assumptions C34_at_most_once_partial.
(** After connect ids start again from 1: a call that waited is replaced by a later one, and cannot be answered. *)
Definition ex_reuse : list action :=
  ex_opened ++ [AServer (SHostCall 11 (Good 8) None)] ++ to_client 1
  ++ [AServer SDisconnect; AClient CDisconnect; AServer SConnect; AClient CConnect] ++ to_server 2 ++ to_client 3
  ++ [AServer (SHostCall 12 (Good 9) None)] ++ to_client 1
  ++ [AClient (CHostResponse 1 (Some (Good 5)) None); AClient (CHostResponse 1 (Some (Good 6)) None)].
Theorem C34_reused_id_refuted : exists l, let y := run ex_sys l in
  map (fun m => call_of (o_body m)) (filter (fun m => match call_of (o_body m) with Some _ => true | None => false end) (sdone y))
    = [Some (1%Z, 11%N); Some (1%Z, 12%N)]
  /\ map (fun m => response_of (o_body m))
       (filter (fun m => match response_of (o_body m) with Some _ => true | None => false end) (p_out (y_c y)))
    = [Some (1%Z, 12%N)]
  /\ p_events (y_c y) = [].
Proof. exists ex_reuse. vm_compute. auto. Qed.
Print Assumptions C34_reused_id_refuted.
Example C34_joined_example :
  let y := run ex_sys (ex_opened ++ [AServer (SHostCall 11 (Good 8) None); AServer (SHostCall 12 (Good 8) (Some 20%N));
                AServer (SHostCall 14 (Good 8) None)] ++ to_client 3
                ++ [AClient (CHostResponse 2 (Some (Good 5)) None); AClient (CHostResponse 1 None (Some (Good 6)));
                    AClient (CHostResponse 2 (Some (Good 5)) None)]) in
  response_ids (p_out (y_c y)) = [2; 1]%Z.
Proof. vm_compute. auto. Qed.

(** ** C35 *)
(** Against any peer: at most one public key is ever sent by a client, at most one request by a server. *)
Theorem C35_one_public_key : forall rpid mn mx cfg l,
  (count is_public_key (p_out (fst (client_run (client_init rpid mn mx cfg) l))) <= 1)%nat.
Proof. exact C35_client. Qed.
Print Assumptions C35_one_public_key.
Theorem C35_one_request : forall session private l,
  (count is_key_request (p_out (fst (server_run (server_init session private) l))) <= 1)%nat.
Proof. exact C35_server. Qed.
Print Assumptions C35_one_request.
(** Against each other: at most one answer, which was encrypted for the client's key and holds the session key; once it
    is processed the client holds that key, before that none. *)
Theorem C35_same_key : forall rpid mn mx cfg session private l,
  let y := run (sys_init rpid mn mx cfg session private) l in
  (count is_public_key (p_out (y_c y)) <= 1 /\ count is_session_key (p_out (y_s y)) <= 1)%nat
  /\ p_key (y_s y) = Some session
  /\ (p_key (y_c y) = None \/ p_key (y_c y) = Some session)
  /\ (forall m, In m (sdone y) -> is_session_key (o_body m) = true -> p_key (y_c y) = Some session)
  /\ (forall m pub key, In m (p_out (y_s y)) -> o_body m = MEncryptedSessionKey pub key -> p_xkey (y_c y) = Some pub /\ key = session).
Proof. exact C35_joined. Qed.
Print Assumptions C35_same_key.
(** A request that reaches the client while it is not Opened is lost, and the server never sends another. *)
Theorem C35_lost_request_refuted : exists l, let y := run ex_sys l in
  quiescent y /\ p_state (y_c y) = Opened /\ p_state (y_s y) = Opened
  /\ count is_key_request (p_out (y_s y)) = 1%nat /\ count is_public_key (p_out (y_c y)) = 0%nat
  /\ server_step (y_s y) SRequestKey = (y_s y, Ok None).
Proof.
  exists (ex_opened ++ [AClient CDisconnect; AServer SRequestKey] ++ to_client 1 ++ [AClient CReconnect]).
  vm_compute. auto 8.
Qed.
Print Assumptions C35_lost_request_refuted.
Example C35_example :
  let y := run ex_sys (ex_opened ++ [AServer SRequestKey; AClient (CExchangeKey 42); AServer SRequestKey; AClient (CExchangeKey 43)]
                ++ to_server 2 ++ to_client 2) in
  quiescent y /\ p_key (y_c y) = Some 99%N /\ count is_public_key (p_out (y_c y)) = 1%nat /\ count is_session_key (sdone y) = 1%nat.
Proof. vm_compute. auto. Qed.
