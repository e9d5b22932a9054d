(** C27 (rejected operations), C28 (call ids), C29 (runspace limits), C33 (pipelines), C34 (host calls, client side),
    C36 (version gates). *)
From Verif Require Import Base BaseFacts Model_Scalars Model_Transport Model_Command Model_Host Spec_Host Model_Pool Spec_Pool
  Proofs_Pool Proofs_Pool2 Proofs_Pool3.
Local Open Scope Z_scope.

Definition ex_cap : capability := mkCap (mkV 2 0 None None) pv23 (mkV 1 1 (Some 0) (Some 1))%N.
Definition ex_client : pool := client_init 7 1 5 (Good 3).
Definition ex_server : pool := server_init 99 (Good 4).
(** Messages as they arrive from a peer. *)
Definition ex_from (pid : option N) (b : body) : omsg := mkO 1 7 pid SDefault b.
(** A client that has opened its pool against a peer with protocol version 2.3; the history is read from the right. *)
Definition ex_opening : list client_act :=
  [CRecv (ex_from None (MRunspacePoolState Opened None)) 0; CRecv (ex_from None (MApplicationPrivateData 4)) 0;
   CRecv (ex_from None (MSessionCapability ex_cap)) 0; COp COpen].
Definition ex_server_opening : list server_act :=
  [SRecv (ex_from None (MInitRunspacePool 1 5 3)); SRecv (ex_from None (MSessionCapability ex_cap)); SData].

(** ** C27 *)
(** An operation that raises because of the state or the version changes nothing at all. *)
Theorem C27_client_no_effect : forall p o e, snd (client_step p o) = Err e -> state_error e ->
  fst (client_step p o) = p.
Proof.
  intros p o e H S. destruct (client_step p o) as [p' r] eqn:E. cbn in *. subst r.
  destruct (client_err_unchanged _ _ _ _ E) as [A|(_ & _ & se & _ & ->)]; auto. elim (raised_not_state _ S).
Qed.
Print Assumptions C27_client_no_effect.
Theorem C27_server_no_effect : forall p o e, snd (server_step p o) = Err e -> state_error e ->
  fst (server_step p o) = p.
Proof.
  intros p o e H S. destruct (server_step p o) as [p' r] eqn:E. cbn in *. subst r.
  destruct (server_err_unchanged _ _ _ _ E) as [A|[(v & se & _ & _ & -> & _)|(se & _ & -> & _)]]; auto;
    elim (raised_not_state _ S).
Qed.
Print Assumptions C27_server_no_effect.
(** Which error is raised when, and that an operation whose needs are met succeeds. *)
Theorem C27_client_states : forall p o, handle_ok p (client_pipe_states o) ->
  (snd (client_step p o) = Err InvalidProtocolVersion <-> o = CReset /\ ~ announced_23 p)
  /\ (snd (client_step p o) = Err InvalidPipelineState <-> ~ pipe_allowed p (client_pipe_states o))
  /\ (snd (client_step p o) = Err InvalidPoolState <->
      pipe_allowed p (client_pipe_states o) /\ ~ In (p_state p) (client_pool_states o) /\ ~ client_excused p o)
  /\ (pipe_allowed p (client_pipe_states o) -> In (p_state p) (client_pool_states o) -> client_other_needs p o ->
      is_ok (snd (client_step p o)) = true).
Proof.
  intros p o V. destruct (client_rejections p o V) as (A & B & C). repeat (split; [assumption|]). apply client_accepts.
Qed.
Print Assumptions C27_client_states.
Theorem C27_server_states : forall p o, handle_ok p (server_pipe_states o) ->
  (snd (server_step p o) = Err InvalidProtocolVersion <-> (exists h v, o = SWriteInformation h v) /\ ~ announced_23 p)
  /\ (snd (server_step p o) = Err InvalidPipelineState <->
      ~ pipe_allowed p (server_pipe_states o) /\ ~ ((exists h v, o = SWriteInformation h v) /\ ~ announced_23 p))
  /\ (snd (server_step p o) = Err InvalidPoolState <->
      pipe_allowed p (server_pipe_states o) /\ ~ In (p_state p) (server_pool_states o) /\ ~ server_excused p o)
  /\ (pipe_allowed p (server_pipe_states o) -> In (p_state p) (server_pool_states o) -> server_other_needs p o ->
      is_ok (snd (server_step p o)) = true).
Proof.
  intros p o V. destruct (server_rejections p o V) as (A & B & C). repeat (split; [assumption|]). apply server_accepts.
Qed.
Print Assumptions C27_server_states.
(** Whatever the error, the only operations that change something before they raise are open with arguments that
    cannot be serialized, a host call with such arguments (a call id is used up) and set_broken with such an error. *)
Theorem C27_client_failed : forall p o e, snd (client_step p o) = Err e ->
  fst (client_step p o) = p \/ (o = COpen /\ p_state p = BeforeOpen /\ exists se, p_config p = Bad se /\ e = raised se).
Proof.
  intros p o e H. destruct (client_step p o) as [p' r] eqn:E. cbn in *. subst r. eapply client_err_unchanged; eauto.
Qed.
Print Assumptions C27_client_failed.
Theorem C27_server_failed : forall p o e, snd (server_step p o) = Err e ->
  fst (server_step p o) = p
  \/ (exists v se, ((exists mi pid, o = SHostCall mi v pid) \/ (exists h mi, o = SPipeHostCall h mi v)) /\ v = Bad se
      /\ e = raised se /\ fst (server_step p o) = set_ci (p_ci p + 1) p)
  \/ (exists se, o = SSetBroken (Bad se) /\ e = raised se /\ fst (server_step p o) = set_state Broken p).
Proof.
  intros p o e H. destruct (server_step p o) as [p' r] eqn:E. cbn in *. subst r. eapply server_err_unchanged; eauto.
Qed.
Print Assumptions C27_server_failed.
(** The exception is real: an open that fails to serialize leaves the pool Opening with one message queued, and it
    cannot be opened again; set_broken with an unserializable error changes the state without telling the client. *)
Theorem C27_failed_open_refuted : exists p,
  p_state p = BeforeOpen /\ snd (client_step p COpen) = Err ValueError
  /\ p_state (fst (client_step p COpen)) = Opening /\ length (p_out (fst (client_step p COpen))) = 1%nat
  /\ snd (client_step (fst (client_step p COpen)) COpen) = Err InvalidPoolState.
Proof. exists (client_init 7 1 5 (Bad SerValue)). vm_compute. auto. Qed.
Print Assumptions C27_failed_open_refuted.
Example C27_example :
  let p := fst (client_run ex_client (COp (CNewPipe 20 PowerShellPipe (Good 1)) :: ex_opening)) in
  handle_ok p (client_pipe_states (CStart 0)) /\ pipe_allowed p (client_pipe_states (CStart 0))
  /\ In (p_state p) (client_pool_states CGetAvailable) /\ snd (client_step p CReconnect) = Ok None
  /\ snd (client_step p (CSend 0 UNone)) = Err InvalidPipelineState /\ snd (client_step p CClose) = Err PSRPCoreError
  /\ snd (client_step ex_client CGetAvailable) = Err InvalidPoolState.
Proof.
  cbv zeta. split; [vm_compute; discriminate|]. split; [eexists; split; [vm_compute; reflexivity|vm_compute; auto]|].
  vm_compute. auto.
Qed.

(** ** C28 *)
(** Every id a client hands out is new, whatever it does and whatever messages arrive. *)
Theorem C28_client_ids : forall rpid mn mx cfg l, NoDup (ids (snd (client_run (client_init rpid mn mx cfg) l))).
Proof.
  intros rpid mn mx cfg l. assert (P : 1 <= p_ci (client_init rpid mn mx cfg)) by (cbn; lia).
  pose proof (client_ids _ l P) as H. destruct (client_run _ l) as [p' h]. apply H.
Qed.
Print Assumptions C28_client_ids.
(** Ids are handed out in increasing order from any state a pool can be in, and never repeat one handed out earlier. *)
Theorem C28_client_fresh : forall rpid mn mx cfg l o ci,
  let '(p, h) := client_run (client_init rpid mn mx cfg) l in
  snd (client_step p o) = Ok (Some ci) -> ~ In ci (ids h) /\ (forall i, In i (ids h) -> i < ci).
Proof.
  intros rpid mn mx cfg l o ci. assert (P : 1 <= p_ci (client_init rpid mn mx cfg)) by (cbn; lia).
  pose proof (client_ids _ l P) as H. destruct (client_run _ l) as [p h]. destruct H as (A & B & C). intros E.
  pose proof (client_ci p o) as D. rewrite E in D. destruct D as [-> _].
  split; [intros I|intros i I]; apply B in I; lia.
Qed.
Print Assumptions C28_client_fresh.
(** The same holds for a server as long as connect is not called. *)
Theorem C28_server_ids_partial : forall session private l, existsb is_connect l = false ->
  NoDup (ids (snd (server_run (server_init session private) l))).
Proof.
  intros session private l X. assert (P : 1 <= p_ci (server_init session private)) by (cbn; lia).
  pose proof (server_ids _ l P X) as H. destruct (server_run _ l) as [p' h]. apply H.
Qed.
Print Assumptions C28_server_ids_partial.
(** connect starts the counter again: an id of a host call that may still be unanswered is handed out a second time.
    (The history is read from the right.) *)
Theorem C28_server_connect_refuted : exists session private l,
  ids (snd (server_run (server_init session private) l)) = [1; 2; 1].
Proof.
  exists 99%N, (Good 4%N),
    ([SOp (SHostCall 11 (Good 0) None); SRecv (ex_from None (MConnectRunspacePool None None)); SOp SConnect; SOp SDisconnect;
      SOp (SHostCall 11 (Good 0) None); SOp (SHostCall 11 (Good 0) None)] ++ ex_server_opening)%list.
  vm_compute. reflexivity.
Qed.
Print Assumptions C28_server_connect_refuted.
Example C28_example :
  ids (snd (client_run ex_client
    ([COp (CSetMax 9); COp CClose; COp CGetAvailable; COp (CSetMin 0); COp (CPipeClose 4)] ++ ex_opening)%list)) = [3; 2; 1]
  /\ ids (snd (server_run ex_server
    ([SOp (SHostCall 11 (Good 0) None); SOp (SHostCall 11 (Bad SerValue) None); SOp (SHostCall 14 (Good 0) None);
      SOp (SHostCall 11 (Good 0) None)] ++ ex_server_opening)%list)) = [3; 1].
Proof. vm_compute. auto. Qed.

(** ** C29 *)
(** At every moment of every history the limits are what [limit_now] says - the value of the latest accepted change -
    and the requests still open are those that [outstanding] finds. *)
Theorem C29_limits : forall rpid mn mx cfg l,
  let '(p, h) := client_run (client_init rpid mn mx cfg) l in
  (forall ci, zget ci (p_handlers p) = outstanding ci h)
  /\ p_min p = limit_now LMin mn h /\ p_max p = limit_now LMax mx h.
Proof.
  intros rpid mn mx cfg l. pose proof (outstanding_spec rpid mn mx cfg l) as H.
  destruct (client_run _ l) as [p h]. tauto.
Qed.
Print Assumptions C29_limits.
(** A second answer with the same id, or an answer nobody asked for, raises and changes nothing. *)
Theorem C29_answered_once : forall rpid mn mx cfg l k m ci r,
  let '(p, h) := client_run (client_init rpid mn mx cfg) l in
  o_body m = MRunspaceAvailability ci r -> outstanding ci h = None -> client_process k p m = (p, Err KeyError).
Proof.
  intros rpid mn mx cfg l k m ci r. pose proof (outstanding_spec rpid mn mx cfg l) as H.
  destruct (client_run _ l) as [p h]. intros B O. eapply answer_unknown; eauto. destruct H as (_ & H & _). rewrite H. auto.
Qed.
Print Assumptions C29_answered_once.
(** The limit is set directly, without asking the server, exactly before opening or when it already has that value. *)
Theorem C29_direct : forall p v,
  (snd (client_step p (CSetMax v)) = Ok None <-> p_state p = BeforeOpen \/ p_max p = v)
  /\ (snd (client_step p (CSetMin v)) = Ok None <-> p_state p = BeforeOpen \/ p_min p = v).
Proof. exact direct_set. Qed.
Print Assumptions C29_direct.
(** Three requests outstanding, answered out of order, one refused, one answered twice. *)
Example C29_example :
  let h := ([CRecv (ex_from None (MRunspaceAvailability 1 (RBool true))) 0;
             CRecv (ex_from None (MRunspaceAvailability 3 (RBool true))) 0;
             CRecv (ex_from None (MRunspaceAvailability 2 (RBool false))) 0;
             CRecv (ex_from None (MRunspaceAvailability 3 (RBool true))) 0;
             COp (CSetMax 30); COp (CSetMin 4); COp (CSetMax 20)] ++ ex_opening)%list in
  let p := fst (client_run ex_client h) in
  p_max p = 20 /\ p_min p = 1 /\ outstanding 3 (snd (client_run ex_client h)) = None
  /\ limit_now LMax 5 (snd (client_run ex_client (tl h))) = 30.
Proof. vm_compute. auto. Qed.

(** ** C33 *)
(** As long as no two pipelines were given the same id, the table holds exactly the pipelines made and not closed. *)
Theorem C33_client_table_partial : forall rpid mn mx cfg l,
  let '(p, h) := client_run (client_init rpid mn mx cfg) l in
  NoDup (made_by_client h) -> table_ok p (made_by_client h) (fun n => client_closed n h).
Proof.
  intros rpid mn mx cfg l. pose proof (client_table_ok rpid mn mx cfg l) as H.
  destruct (client_run _ l) as [p h]. intros D. apply H, D.
Qed.
Print Assumptions C33_client_table_partial.
Theorem C33_server_table_partial : forall session private l,
  let '(p, h) := server_run (server_init session private) l in
  NoDup (made_by_server h) -> table_ok p (made_by_server h) (fun n => server_closed n h).
Proof.
  intros session private l. pose proof (server_table_ok session private l) as H.
  destruct (server_run _ l) as [p h]. intros D. apply H, D.
Qed.
Print Assumptions C33_server_table_partial.
(** A pool with a pipeline in its table cannot be closed: the call raises and changes nothing. *)
Theorem C33_no_close : forall p, p_table p <> [] ->
  client_step p CClose = (p, Err PSRPCoreError) /\ server_step p SClose = (p, Err PSRPCoreError).
Proof.
  intros p H. unfold client_step, server_step, close. destruct (p_table p) eqn:E; [congruence|]. auto.
Qed.
Print Assumptions C33_no_close.
(** A method of one pipeline, a method of the pool, or a message for another pipeline leaves a pipeline as it was. *)
Theorem C33_others : forall p h x, nth_error (p_heap p) h = Some x ->
  (forall o, (forall l, client_pipe_states o <> Some (h, l)) -> nth_error (p_heap (fst (client_step p o))) h = Some x)
  /\ (forall o, (forall l, server_pipe_states o <> Some (h, l)) -> nth_error (p_heap (fst (server_step p o))) h = Some x)
  /\ (forall k m, (forall pid, o_pid m = Some pid -> aget pid (p_table p) <> Some h) ->
      nth_error (p_heap (fst (client_process k p m))) h = Some x)
  /\ (forall m, (forall pid, o_pid m = Some pid -> aget pid (p_table p) <> Some h) ->
      nth_error (p_heap (fst (server_process p m))) h = Some x).
Proof.
  intros p h x N. repeat split; intros.
  - apply client_others; auto.
  - apply server_others; auto.
  - apply client_recv_others; auto.
  - apply server_recv_others; auto.
Qed.
Print Assumptions C33_others.
(** Two pipelines with one id: the second takes the place of the first, and closing the first removes the second, so
    that the pool can be closed while the second runs. *)
Theorem C33_duplicate_refuted : exists l,
  let '(p, h) := client_run (client_init 7 1 5 (Good 3)) l in
  ~ client_closed 1 h /\ nth_error (p_heap p) 1 = Some (mkPipe 20 Running (Some (Good 1)) PowerShellPipe)%N
  /\ p_table p = [] /\ snd (client_step p CClose) = Ok None.
Proof.
  exists ([COp (CPipeClose 0); COp (CStart 1); COp (CNewPipe 20 PowerShellPipe (Good 1));
           COp (CNewPipe 20 PowerShellPipe (Good 1))] ++ ex_opening)%list.
  vm_compute. split; [|auto]. intros [r H]. repeat (destruct H as [H|H]; [discriminate|]). exact H.
Qed.
Print Assumptions C33_duplicate_refuted.
Example C33_example :
  let '(p, h) := client_run ex_client
    ([CRecv (ex_from (Some 21%N) (MPipelineState Completed None)) 0; COp (CPipeClose 0); COp (CStart 1);
      COp (CNewPipe 21 PowerShellPipe (Good 1)); COp (CNewPipe 20 MetadataPipe (Good 1))] ++ ex_opening)%list in
  made_by_client h = [20; 21]%N /\ p_table p = [(21%N, 1%nat)] /\ client_closed 0 h.
Proof. vm_compute. split; [auto|]. split; [auto|]. eexists. right. left. reflexivity. Qed.

(** ** C34, client *)
(** When a response is asked for, in any history: without a waiting call nothing happens and KeyError is raised; with
    one, exactly one message goes out, with the id, the method and the pipeline of the call, and the call no longer
    waits; if the values cannot be serialized nothing changes at all, so the call still waits. *)
Theorem C34_response : forall rpid mn mx cfg l ci rv er,
  let '(p, h) := client_run (client_init rpid mn mx cfg) l in
  p_state p = Opened ->
  match waiting ci h with
  | None => client_step p (CHostResponse ci rv er) = (p, Err KeyError)
  | Some (mi, pid) =>
    match opt_token rv, opt_token er with
    | Ok mr, Ok me =>
      let '(p', r) := client_step p (CHostResponse ci rv er) in
      r = Ok None
      /\ p_out p' = (p_out p ++ [mkO (p_fc p) (p_rpid p) pid SPrompt (response_body ci mi pid mr me)])%list
      /\ waiting ci ((COp (CHostResponse ci rv er), r) :: h) = None
      /\ client_step p' (CHostResponse ci rv er) = (p', Err KeyError)
    | _, _ => exists se, client_step p (CHostResponse ci rv er) = (p, Err (raised se))
    end
  end.
Proof.
  intros rpid mn mx cfg l ci rv er. pose proof (waiting_spec rpid mn mx cfg l) as H.
  destruct (client_run _ l) as [p h]. destruct H as [D W]. intros S. specialize (W ci).
  destruct (waiting ci h) as [[mi pid]|].
  - pose proof (respond_spec p ci rv er mi pid S W) as R. destruct (opt_token rv); auto. destruct (opt_token er); auto.
    rewrite R. split; [reflexivity|]. split; [reflexivity|]. split; [cbn; rewrite Z.eqb_refl; auto|].
    apply respond_unknown; [exact S|]. cbn. rewrite zget_zdel, Z.eqb_refl; auto.
  - apply respond_unknown; auto.
Qed.
Print Assumptions C34_response.
(** The method of a pipeline does the same when the pipeline runs. *)
Theorem C34_response_pipeline : forall p h x ci rv er, nth_error (p_heap p) h = Some x -> pl_state x = Running ->
  client_step p (CPipeHostResponse h ci rv er) = client_step p (CHostResponse ci rv er).
Proof. exact respond_pipe. Qed.
Print Assumptions C34_response_pipeline.
(** The server's side of a call: a void method is sent with id -100, any other with a new one, for the given pipeline;
    the client never tracks id -100. *)
Theorem C34_call : forall p mi t pid, p_state p = Opened ->
  let ci := if is_void mi then -100 else p_ci p in
  let '(p', r) := server_step p (SHostCall mi (Good t) pid) in
  r = Ok (Some ci)
  /\ p_out p' = (p_out p ++ [mkO (p_fc p) (p_rpid p) pid SPrompt
       (match pid with Some _ => MPipelineHostCall ci mi t | None => MRunspacePoolHostCall ci mi t end)])%list
  /\ p_ci p' = if is_void mi then p_ci p else p_ci p + 1.
Proof.
  intros p mi t pid S. unfold server_step, s_host_call. rewrite S. change (negb (ps_is Opened Opened)) with false.
  destruct (is_void mi), pid; cbn; auto.
Qed.
Print Assumptions C34_call.
(** The void methods are those that neither get, read nor prompt. *)
Theorem C34_void_methods : forall m n, method_name m = Some n -> (is_void m = true <-> has_answer n = false).
Proof.
  assert (forallb (fun i => match method_name (N.of_nat i) with Some n => Bool.eqb (is_void (N.of_nat i)) (negb (has_answer n)) | None => true end)
            (seq 0 57) = true) as T by (vm_compute; reflexivity).
  intros m n E. rewrite forallb_forall in T. specialize (T (N.to_nat m)). rewrite N2Nat.id, E in T.
  assert (In (N.to_nat m) (seq 0 57)) as I.
  { apply in_seq. unfold method_name in E. destruct m as [|q]; [discriminate|]. assert (N.to_nat (Npos q) - 1 < 56)%nat; [|lia].
    change 56%nat with (length method_names). apply nth_error_Some. intros X. rewrite X in E. discriminate. }
  specialize (T I). apply eqb_prop in T. rewrite T, negb_true_iff. reflexivity.
Qed.
Print Assumptions C34_void_methods.
Example C34_void_example : exists n k, method_name 14 = Some n /\ is_void 14 = true /\ method_name 46 = Some k /\ is_void 46 = false.
Proof. eexists _, _. repeat (split; [vm_compute; reflexivity|]). vm_compute; reflexivity. Qed.
Theorem C34_void_untracked : forall k p m mi t,
  o_body m = MPipelineHostCall (-100) mi t \/ o_body m = MRunspacePoolHostCall (-100) mi t -> client_process k p m = (p, Ok tt).
Proof. intros k p m mi t [E|E]; unfold client_process; rewrite E; reflexivity. Qed.
Print Assumptions C34_void_untracked.
Example C34_example :
  let '(p, h) := client_run ex_client
    ([COp (CHostResponse 2 (Some (Bad SerValue)) None); COp (CHostResponse 1 (Some (Good 8)) None);
      CRecv (ex_from (Some 20%N) (MPipelineHostCall 2 12 0)) 0; CRecv (ex_from None (MRunspacePoolHostCall (-100) 14 0)) 0;
      CRecv (ex_from None (MRunspacePoolHostCall 1 11 0)) 0] ++ ex_opening)%list in
  p_state p = Opened /\ waiting 1 h = None /\ waiting 2 h = Some (12%N, Some 20%N) /\ waiting (-100) h = None
  /\ length (p_events p) = 1%nat.
Proof. vm_compute. auto 6. Qed.

(** ** C36 *)
(** In every history, without an announcement of version 2.3 or later, both operations raise and change nothing - so
    they queue nothing; the latest announcement counts. *)
Theorem C36_reset : forall rpid mn mx cfg l,
  let '(p, h) := client_run (client_init rpid mn mx cfg) l in
  (forall c, announced client_recv h = Some c -> version_ge (cap_proto c) pv23 = false) ->
  client_step p CReset = (p, Err InvalidProtocolVersion).
Proof.
  intros rpid mn mx cfg l. pose proof (client_announced rpid mn mx cfg l) as H.
  destruct (client_run _ l) as [p h]. intros N.
  assert (A : ~ announced_23 p) by (intros (c & E & V); rewrite H in E; rewrite (N _ E) in V; discriminate).
  destruct (client_rejections p CReset I) as [[_ B] _]. specialize (B (conj eq_refl A)).
  pose proof (C27_client_no_effect p CReset _ B) as C. destruct (client_step p CReset) as [p' r]. cbn in *. subst r.
  rewrite C; auto. right. right. reflexivity.
Qed.
Print Assumptions C36_reset.
Theorem C36_information : forall session private l h v,
  let '(p, hist) := server_run (server_init session private) l in
  (forall c, announced server_recv hist = Some c -> version_ge (cap_proto c) pv23 = false) ->
  nth_error (p_heap p) h <> None ->
  server_step p (SWriteInformation h v) = (p, Err InvalidProtocolVersion).
Proof.
  intros session private l h v. pose proof (server_announced session private l) as H.
  destruct (server_run _ l) as [p hist]. intros N X.
  assert (A : ~ announced_23 p) by (intros (c & E & V); rewrite H in E; rewrite (N _ E) in V; discriminate).
  destruct (server_rejections p (SWriteInformation h v) X) as [[_ B] _].
  specialize (B (conj (ex_intro _ h (ex_intro _ v eq_refl)) A)).
  pose proof (C27_server_no_effect p (SWriteInformation h v) _ B) as C. destruct (server_step p _) as [p' r]. cbn in *. subst r.
  rewrite C; auto. right. right. reflexivity.
Qed.
Print Assumptions C36_information.
Example C36_example :
  let old := mkCap (mkV 2 0 None None) (mkV 2 2 None None) (mkV 1 1 (Some 0) (Some 1))%N in
  let '(p, h) := server_run ex_server
     ([SOp (SStart 0); SOp (SNewPipe 20)] ++
      [SRecv (ex_from None (MInitRunspacePool 1 5 3)); SRecv (ex_from None (MSessionCapability old)); SData])%list in
  announced server_recv h = Some old /\ version_ge (cap_proto old) pv23 = false /\ nth_error (p_heap p) 0 <> None
  /\ is_ok (snd (server_step p (SWrite 0 KDebug (Good 1)))) = true.
Proof. vm_compute. split; [auto|]. split; [auto|]. split; [discriminate|auto]. Qed.
