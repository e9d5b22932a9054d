(** C52 (what every operation and every processed message does), C53 (the order of the messages of a pipeline), and that
    a server which has a public key asks for none (C35). *)
From Verif Require Import Base BaseFacts Model_Scalars Model_Transport Model_Command Model_Host Model_Pool Spec_Pool Spec_Effects
  Proofs_Pool Proofs_Pool2 Proofs_Effects Proofs_Effects2 Properties_Pool.
Local Open Scope N_scope.

(** ** C52: one step *)
(** A successful operation queues exactly the messages of the table, with their targets and streams, the pool's id and the
    next object ids; the pool and its pipelines go to the states of the table. *)
Theorem C52_client_operations : forall p o p' r,
  client_step p o = (p', Ok r) -> exists e, client_effect p o r e /\ happened p p' e /\ counted p p'.
Proof.
  intros p o p' r H. destruct (client_effects p o p' r H) as (e & A & B). exists e. split; [exact A|]. split; [exact B|].
  pose proof (client_counts p o) as C. now rewrite H in C.
Qed.
Print Assumptions C52_client_operations.
Theorem C52_server_operations : forall p o p' r,
  server_step p o = (p', Ok r) -> exists e, server_effect p o r e /\ happened p p' e /\ (o <> SConnect -> counted p p').
Proof.
  intros p o p' r H. destruct (server_effects p o p' r H) as (e & A & B). exists e. split; [exact A|]. split; [exact B|].
  intros N. pose proof (server_counts p o N) as C. now rewrite H in C.
Qed.
Print Assumptions C52_server_operations.
Theorem C52_client_messages : forall k p m p' r,
  client_process k p m = (p', Ok r) -> exists e, client_reaction k p m e /\ happened p p' e /\ counted p p'.
Proof.
  intros k p m p' r H. destruct (client_reacts k p m p' r H) as (e & A & B). exists e. split; [exact A|]. split; [exact B|].
  pose proof (client_process_counts k p m) as C. now rewrite H in C.
Qed.
Print Assumptions C52_client_messages.
Theorem C52_server_messages : forall p m p' r,
  server_process p m = (p', Ok r) -> exists e, server_reaction p m e /\ happened p p' e /\ counted p p'.
Proof.
  intros p m p' r H. destruct (server_reacts p m p' r H) as (e & A & B). exists e. split; [exact A|]. split; [exact B|].
  pose proof (server_process_counts p m) as C. now rewrite H in C.
Qed.
Print Assumptions C52_server_messages.
(** The tables leave no choice: what an operation or a message does is fixed by the pool, the arguments and the message. *)
Lemma value_body_unique v f a b : value_body v f a -> value_body v f b -> a = b.
Proof. intros [[A B]|(t & A & B)] [[C D]|(u & C & D)]; congruence. Qed.
Lemma opt_value_unique v a b : opt_value v a -> opt_value v b -> a = b.
Proof. intros [[A B]|(t & A & B)] [[C D]|(u & C & D)]; congruence. Qed.
Ltac facts :=
  repeat match goal with
         | A : exists _, _ |- _ => destruct A
         | A : _ /\ _ |- _ => destruct A
         | A : _ \/ _ |- _ => destruct A
         | A : is_pipe _ _ _ |- _ => unfold is_pipe in A
         end; subst; try discriminate; try congruence.
Ltac injs :=
  repeat match goal with
         | A : ?o _ = ?o _ |- _ => injection A; clear A; intros; subst
         | A : ?o _ _ = ?o _ _ |- _ => injection A; clear A; intros; subst
         | A : ?o _ _ _ = ?o _ _ _ |- _ => injection A; clear A; intros; subst
         | A : ?o _ _ _ _ = ?o _ _ _ _ |- _ => injection A; clear A; intros; subst
         end.
Ltac same :=
  repeat match goal with
         | A : _ = ?o, B : _ = ?o |- _ => is_var o; subst o
         | A : value_body ?v ?f ?a, B : value_body ?v ?f ?b |- _ => pose proof (value_body_unique v f a b A B); subst a || subst b; clear A
         | A : opt_value ?v ?a, B : opt_value ?v ?b |- _ => pose proof (opt_value_unique v a b A B); subst a || subst b; clear A
         end.
Theorem C52_client_table_unique : forall p o r1 e1 r2 e2, client_effect p o r1 e1 -> client_effect p o r2 e2 -> r1 = r2 /\ e1 = e2.
Proof.
  intros p o r1 e1 r2 e2 A B. destruct A; inversion B; subst; facts; injs; same; split; congruence.
Qed.
Print Assumptions C52_client_table_unique.
Theorem C52_server_table_unique : forall p o r1 e1 r2 e2, server_effect p o r1 e1 -> server_effect p o r2 e2 -> r1 = r2 /\ e1 = e2.
Proof.
  intros p o r1 e1 r2 e2 A B. destruct A; inversion B; subst; facts; injs; same; split; congruence.
Qed.
Print Assumptions C52_server_table_unique.
Theorem C52_reactions_unique : forall k p m,
  (forall e1 e2, client_reaction k p m e1 -> client_reaction k p m e2 -> e1 = e2)
  /\ (forall e1 e2, server_reaction p m e1 -> server_reaction p m e2 -> e1 = e2).
Proof.
  intros k p m. split; intros e1 e2 A B; destruct A; inversion B; subst;
    repeat match goal with E : o_body _ = _, M : match o_body _ with _ => _ end |- _ => rewrite E in M end; try contradiction; facts.
Qed.
Print Assumptions C52_reactions_unique.
Definition ex_busy_client : pool :=
  fst (client_run ex_client
    ([COp (CSetMax 9); CRecv (ex_from (Some 20) (MPipelineHostCall 3 12 0)) 0; COp (CStart 0);
      COp (CNewPipe 20 PowerShellPipe (Good 5))] ++ ex_opening)%list).
Example C52_client_example :
  (exists p', client_step ex_busy_client (CSend 0 (UVal (Good 8))) = (p', Ok None)
     /\ length (p_out p') = 5%nat /\ nth_error (p_out p') 4 = Some (mkO 5 7 (Some 20) SDefault (MPipelineInput 8)))
  /\ (exists p', client_step ex_busy_client (CHostResponse 3 (Some (Good 1)) None) = (p', Ok None)
     /\ nth_error (p_out p') 4 = Some (mkO 5 7 (Some 20) SPrompt (MPipelineHostResponse 3 12 (Some 1) None)))
  /\ (exists p', client_process 6 ex_busy_client (ex_from (Some 20) (MPipelineState Completed None)) = (p', Ok tt)
     /\ map pl_state (p_heap p') = [Completed]).
Proof. split; [|split]; eexists; split; [vm_compute; reflexivity| |vm_compute; reflexivity| |vm_compute; reflexivity|]; vm_compute; auto. Qed.
Definition ex_busy_server : pool :=
  fst (server_run ex_server ([SOp (SStart 0); SOp (SNewPipe 20)] ++
      [SRecv (ex_from None (MInitRunspacePool 1 5 3)); SRecv (ex_from None (MSessionCapability ex_cap)); SData])%list).
Example C52_server_example :
  (exists p', server_step ex_busy_server (SPipeHostCall 0 12 (Good 8)) = (p', Ok (Some 1%Z))
     /\ length (p_out p') = 5%nat /\ nth_error (p_out p') 4 = Some (mkO 5 7 (Some 20) SPrompt (MPipelineHostCall 1 12 8)))
  /\ (exists p', server_process ex_busy_server (ex_from None (MPublicKey (Some 3))) = (p', Ok tt)
     /\ nth_error (p_out p') 4 = Some (mkO 5 7 None SDefault (MEncryptedSessionKey 3 99))).
Proof. split; eexists; split; [vm_compute; reflexivity| |vm_compute; reflexivity|]; vm_compute; auto. Qed.

(** ** C52: whole histories *)
(** The messages a client has ever queued carry the ids 1, 2, 3, ... in this order and the id of its pool; messages of
    a pipeline name one and the others none; host responses are on the prompt stream and nothing else is; and all of them
    are messages a client sends, if it never sends None as input. *)
Theorem C52_client_history : forall rpid mn mx cfg l,
  let p := fst (client_run (client_init rpid mn mx cfg) l) in
  map o_oid (p_out p) = map (fun i => 1 + N.of_nat i) (seq 0 (length (p_out p)))
  /\ Forall (fun m => o_rpid m = rpid /\ addressed m /\ o_stream m = if is_prompt (o_body m) then SPrompt else SDefault) (p_out p)
  /\ (existsb sends_none l = false -> Forall (fun m => client_sends (o_body m)) (p_out p)).
Proof.
  intros rpid mn mx cfg l p. destruct (client_history rpid mn mx cfg l) as (_ & _ & [A _] & B & C).
  split; [exact A|]. split; [exact B|exact C].
Qed.
Print Assumptions C52_client_history.
Example C52_client_history_example :
  map (fun m => (o_oid m, o_pid m, o_stream m)) (p_out ex_busy_client)
  = [(1, None, SDefault); (2, None, SDefault); (3, Some 20, SDefault); (4, None, SDefault)].
Proof. vm_compute. reflexivity. Qed.
(** ClientPowerShell.send(None) queues a PIPELINE_OUTPUT, which only servers send. *)
Theorem C52_client_sends_refuted : exists rpid mn mx cfg l m,
  In m (p_out (fst (client_run (client_init rpid mn mx cfg) l))) /\ server_sends (o_body m) /\ ~ client_sends (o_body m).
Proof.
  exists 7, 1%Z, 5%Z, (Good 3), (COp (CSend 0 UNone) :: COp (CStart 0) :: COp (CNewPipe 20 PowerShellPipe (Good 5)) :: ex_opening),
    (mkO 4 7 (Some 20) SDefault (MPipelineOutput None)).
  split; [vm_compute; auto 6|]. split; [exact I|intros []].
Qed.
Print Assumptions C52_client_sends_refuted.
(** A server's messages; connect starts its object ids again, so they count only before it. *)
Theorem C52_server_history : forall session private l,
  let p := fst (server_run (server_init session private) l) in
  Forall (fun m => addressed m /\ o_stream m = (if is_prompt (o_body m) then SPrompt else SDefault) /\ server_sends (o_body m)) (p_out p)
  /\ (existsb is_connect l = false -> map o_oid (p_out p) = map (fun i => 1 + N.of_nat i) (seq 0 (length (p_out p)))).
Proof.
  intros session private l p. destruct (server_history session private l) as [A B]. split; [exact A|]. intros N. exact (proj1 (B N)).
Qed.
Print Assumptions C52_server_history.
Example C52_server_history_example :
  map (fun m => (o_oid m, o_pid m, o_stream m)) (p_out ex_busy_server)
  = [(1, None, SDefault); (2, None, SDefault); (3, None, SDefault); (4, Some 20, SDefault)].
Proof. vm_compute. reflexivity. Qed.
(** After connect the object ids start again at 1, so two messages of one server share an id. *)
Theorem C52_server_numbers_refuted : exists session private l i j a b,
  let p := fst (server_run (server_init session private) l) in
  i <> j /\ nth_error (p_out p) i = Some a /\ nth_error (p_out p) j = Some b /\ o_oid a = o_oid b.
Proof.
  exists 99, (Good 4), ([SRecv (ex_from None (MConnectRunspacePool None None)); SOp SConnect; SOp SDisconnect; SOp SBeginDisconnect;
    SRecv (ex_from None (MInitRunspacePool 1 5 3)); SRecv (ex_from None (MSessionCapability ex_cap)); SData]).
  exists 0%nat, 3%nat. eexists _, _. cbv zeta. split; [discriminate|]. split; [vm_compute; reflexivity|]. split; [vm_compute; reflexivity|].
  vm_compute; reflexivity.
Qed.
Print Assumptions C52_server_numbers_refuted.
(** The server answers the client's SESSION_CAPABILITY before it has taken over the id of the pool, so that the first
    message of every session names another pool than the client's. *)
Theorem C52_server_pool_id_refuted : exists session private m p' a b,
  server_process (server_receive (server_init session private)) m = (p', Ok tt)
  /\ p_out p' = [a] /\ o_rpid a <> o_rpid m
  /\ (exists p'', server_process p' (mkO 2 (o_rpid m) None SDefault (MInitRunspacePool 1 5 3)) = (p'', Ok tt)
      /\ In b (p_out p'') /\ o_rpid b = o_rpid m).
Proof.
  exists 99, (Good 4), (ex_from None (MSessionCapability ex_cap)). eexists _, _, _. split; [vm_compute; reflexivity|].
  split; [vm_compute; reflexivity|]. split; [vm_compute; discriminate|].
  eexists. split; [vm_compute; reflexivity|]. split; [vm_compute; right; left; reflexivity|]. vm_compute. reflexivity.
Qed.
Print Assumptions C52_server_pool_id_refuted.

(** ** C53 *)
(** For pipelines with different ids, whose host calls are made through the pipeline, a server sends output, records and
    host calls of a pipeline only while the state it announced last for it is Running - in every history. *)
Theorem C53_data_while_running : forall session private l,
  NoDup (new_ids l) -> Forall own_calls l -> data_while_running (p_out (fst (server_run (server_init session private) l))).
Proof. intros session private l N O. exact (proj2 (proj2 (proj2 (server_ordered session private l N O)))). Qed.
Print Assumptions C53_data_while_running.
(** The state it announced last is also the state the pipeline is in. *)
Theorem C53_announced_state : forall session private l h x,
  NoDup (new_ids l) -> Forall own_calls l -> nth_error (p_heap (fst (server_run (server_init session private) l))) h = Some x ->
  match last_pipe_state (pl_pid x) (p_out (fst (server_run (server_init session private) l))) with
  | Some s => s = pl_state x
  | None => pl_state x = NotStarted
  end.
Proof.
  intros session private l h x N O E. destruct (server_ordered session private l N O) as (_ & F & _). rewrite Forall_forall in F.
  exact (F x (nth_error_In _ _ E)).
Qed.
Print Assumptions C53_announced_state.
Definition ex_server_work : list server_act :=
  ([SOp (SComplete 0); SOp (SWriteOutput 0 (UVal (Good 1))); SOp (SWrite 1 KWarning (Good 2)); SOp (SPipeHostCall 0 12 (Good 8));
    SOp (SStart 1); SOp (SNewPipe 21); SOp (SStart 0); SOp (SNewPipe 20)] ++
   [SRecv (ex_from None (MInitRunspacePool 1 5 3)); SRecv (ex_from None (MSessionCapability ex_cap)); SData])%list.
Example C53_example : NoDup (new_ids ex_server_work) /\ Forall own_calls ex_server_work
  /\ length (filter (fun m => pipe_data (o_body m)) (p_out (fst (server_run ex_server ex_server_work)))) = 3%nat
  /\ last_pipe_state 20 (p_out (fst (server_run ex_server ex_server_work))) = Some Completed.
Proof.
  split; [vm_compute; repeat constructor; cbn; intuition discriminate|]. split; [repeat constructor|]. split; vm_compute; reflexivity.
Qed.
(** Both conditions are needed: with two pipelines of one id, and with host_call called on the pool for a pipeline, data
    goes out for a pipeline that was announced to be over. *)
Theorem C53_same_id_refuted : exists session private l,
  Forall own_calls l /\ ~ data_while_running (p_out (fst (server_run (server_init session private) l))).
Proof.
  exists 99, (Good 4), ([SOp (SWriteOutput 1 (UVal (Good 1))); SOp (SComplete 0); SOp (SStart 1); SOp (SNewPipe 20);
    SOp (SStart 0); SOp (SNewPipe 20); SRecv (ex_from None (MInitRunspacePool 1 5 3)); SRecv (ex_from None (MSessionCapability ex_cap)); SData]).
  split; [repeat constructor|]. intros D. specialize (D (firstn 6 (p_out (fst (server_run ex_server ([SOp (SWriteOutput 1 (UVal (Good 1))); SOp (SComplete 0); SOp (SStart 1); SOp (SNewPipe 20);
    SOp (SStart 0); SOp (SNewPipe 20); SRecv (ex_from None (MInitRunspacePool 1 5 3)); SRecv (ex_from None (MSessionCapability ex_cap)); SData])))))
    (mkO 7 7 (Some 20) SDefault (MPipelineOutput (Some 1))) [] ltac:(vm_compute; reflexivity) eq_refl).
  destruct D as (pid & P & L). injection P as <-. vm_compute in L. discriminate.
Qed.
Print Assumptions C53_same_id_refuted.
Theorem C53_pool_call_refuted : exists session private l,
  NoDup (new_ids l) /\ ~ data_while_running (p_out (fst (server_run (server_init session private) l))).
Proof.
  exists 99, (Good 4), ([SOp (SHostCall 12 (Good 1) (Some 20)); SOp (SNewPipe 20);
    SRecv (ex_from None (MInitRunspacePool 1 5 3)); SRecv (ex_from None (MSessionCapability ex_cap)); SData]).
  split; [vm_compute; repeat constructor; cbn; auto|]. intros D.
  specialize (D (firstn 3 (p_out (fst (server_run ex_server ([SOp (SHostCall 12 (Good 1) (Some 20)); SOp (SNewPipe 20);
    SRecv (ex_from None (MInitRunspacePool 1 5 3)); SRecv (ex_from None (MSessionCapability ex_cap)); SData])))))
    (mkO 4 7 (Some 20) SPrompt (MPipelineHostCall 1 12 1)) [] ltac:(vm_compute; reflexivity) eq_refl).
  destruct D as (pid & P & L). injection P as <-. vm_compute in L. discriminate.
Qed.
Print Assumptions C53_pool_call_refuted.
(** A client sends input, and the end of the input, only after the message that creates the pipeline, if the server tells
    it the states of pipelines it has asked for only. *)
Theorem C53_input_after_creation : forall rpid mn mx cfg l,
  solicited (client_init rpid mn mx cfg) l -> input_after_creation (p_out (fst (client_run (client_init rpid mn mx cfg) l))).
Proof. intros rpid mn mx cfg l S. exact (proj2 (proj2 (proj2 (client_ordered rpid mn mx cfg l S)))). Qed.
Print Assumptions C53_input_after_creation.
Definition ex_client_work : list client_act :=
  ([COp (CSendEof 0); COp (CSend 0 (UVal (Good 6))); COp (CStart 0);
    COp (CNewPipe 20 PowerShellPipe (Good 5))] ++ ex_opening)%list.
Lemma no_states_solicited start l : Forall (fun a => match a with CRecv m _ => match o_body m with MPipelineState _ _ => False | _ => True end | _ => True end) l ->
  solicited start l.
Proof.
  intros F l2 m k l1 s w pid E B P. rewrite E in F. apply Forall_app in F. destruct F as [_ F]. inversion F as [|? ? X _]; subst.
  cbn in X. now rewrite B in X.
Qed.
Example C53_client_example : solicited ex_client ex_client_work
  /\ length (filter (fun m => pipe_input (o_body m)) (p_out (fst (client_run ex_client ex_client_work)))) = 2%nat.
Proof. split; [apply no_states_solicited; repeat constructor|vm_compute; reflexivity]. Qed.
(** A server that announces Running for a pipeline nobody asked for makes the client accept input for it. *)
Theorem C53_unsolicited_refuted : exists rpid mn mx cfg l,
  ~ input_after_creation (p_out (fst (client_run (client_init rpid mn mx cfg) l))).
Proof.
  exists 7, 1%Z, 5%Z, (Good 3), (COp (CSend 0 (UVal (Good 6))) :: CRecv (ex_from (Some 20) (MPipelineState Running None)) 0
    :: COp (CNewPipe 20 PowerShellPipe (Good 5)) :: ex_opening). intros D.
  match type of D with input_after_creation ?l => let v := eval vm_compute in l in assert (l = v) as E by (vm_compute; reflexivity); rewrite E in D; clear E end.
  match type of D with input_after_creation (?a :: ?b :: [?c]) => destruct (D [a; b] c [] eq_refl eq_refl) as (pid & P & m & d & I & Q & _) end.
  injection P as <-. destruct I as [<-|[<-|[]]]; discriminate.
Qed.
Print Assumptions C53_unsolicited_refuted.
(** Nothing keeps a client from sending input after the end of the input. *)
Theorem C53_input_after_end_refuted : exists rpid mn mx cfg l l1 a l2 b pid v,
  p_out (fst (client_run (client_init rpid mn mx cfg) l)) = l1 ++ a :: l2 ++ [b]
  /\ o_body a = MEndOfPipelineInput /\ o_body b = MPipelineInput v /\ o_pid a = Some pid /\ o_pid b = Some pid
  /\ solicited (client_init rpid mn mx cfg) l.
Proof.
  exists 7, 1%Z, 5%Z, (Good 3), (COp (CSend 0 (UVal (Good 7))) :: ex_client_work).
  exists (firstn 4 (p_out (fst (client_run ex_client ex_client_work)))).
  eexists _, [], _, _, _. split; [vm_compute; reflexivity|]. split; [vm_compute; reflexivity|]. split; [vm_compute; reflexivity|].
  split; [vm_compute; reflexivity|]. split; [vm_compute; reflexivity|]. apply no_states_solicited. repeat constructor.
Qed.
Print Assumptions C53_input_after_end_refuted.

(** ** C35: a server that was given a public key asks for none *)
Lemma keyreq_op p o : p_keyreq p = true -> p_keyreq (fst (server_step p o)) = true.
Proof. intros K. destruct o; unf; pstep; splitm; try assumption; try reflexivity; congruence. Qed.
Lemma keyreq_recv p m : p_keyreq p = true -> p_keyreq (fst (server_process p m)) = true.
Proof. intros K. unfold server_process. destruct (o_body m); unf; pstep; splitm; try assumption; try reflexivity; congruence. Qed.
Theorem C35_given_key_not_requested : forall session private l m key k,
  In (SRecv m) l -> o_body m = MPublicKey key -> key = Some k ->
  let p := fst (server_run (server_init session private) l) in server_step p SRequestKey = (p, Ok None).
Proof.
  intros session private l m key k I B ->. cbv zeta.
  assert (p_keyreq (fst (server_run (server_init session private) l)) = true) as K.
  { induction l as [|a l IH]; [destruct I|]. cbn [server_run]. destruct (server_run (server_init session private) l) as [p h]. cbn [fst] in *.
    destruct I as [->|I].
    - cbn [server_act_step]. unfold server_process. rewrite B. unf. pstep. reflexivity.
    - specialize (IH I). destruct a as [o|x|]; cbn [server_act_step]; [now apply keyreq_op|now apply keyreq_recv|].
      unfold server_receive. destruct (ps_is (p_state p) BeforeOpen); exact IH. }
  unf. pstep. now rewrite K.
Qed.
Print Assumptions C35_given_key_not_requested.
Example C35_given_key_example :
  let p := fst (server_run ex_server (SRecv (ex_from None (MPublicKey (Some 3))) :: [SRecv (ex_from None (MInitRunspacePool 1 5 3)); SRecv (ex_from None (MSessionCapability ex_cap)); SData])) in
  p_state p = Opened /\ server_step p SRequestKey = (p, Ok None).
Proof. vm_compute. auto. Qed.
