(** Proofs about one pool: state checks, call ids, limits, pipelines, host calls, versions. *)
From Verif Require Import Base BaseFacts Model_Scalars Model_Transport Model_Command Model_Host Model_Pool Spec_Pool.

(** ** Tools *)
Lemma ps_is_spec : forall a b, ps_is a b = true <-> a = b.
Proof. intros a b. unfold ps_is. destruct (pool_state_eq_dec a b); split; auto; discriminate. Qed.
Lemma ps_is_false : forall a b, ps_is a b = false <-> a <> b.
Proof. intros a b. unfold ps_is. destruct (pool_state_eq_dec a b); split; auto; try discriminate; contradiction. Qed.
Lemma is_is_spec : forall a b, is_is a b = true <-> a = b.
Proof. intros a b. unfold is_is. destruct (pipe_state_eq_dec a b); split; auto; discriminate. Qed.
Lemma is_is_false : forall a b, is_is a b = false <-> a <> b.
Proof. intros a b. unfold is_is. destruct (pipe_state_eq_dec a b); split; auto; try discriminate; contradiction. Qed.
Lemma ps_in_spec : forall a l, ps_in a l = true <-> In a l.
Proof.
  intros a l. unfold ps_in. rewrite existsb_exists. split.
  - intros (x & A & B). apply ps_is_spec in B. subst. auto.
  - intros A. exists a. split; auto. apply ps_is_spec. auto.
Qed.
Lemma is_in_spec : forall a l, is_in a l = true <-> In a l.
Proof.
  intros a l. unfold is_in. rewrite existsb_exists. split.
  - intros (x & A & B). apply is_is_spec in B. subst. auto.
  - intros A. exists a. split; auto. apply is_is_spec. auto.
Qed.

(** Unfold the operations, not prepare's parts. *)
Ltac unf :=
  unfold client_step, server_step, no_ci, c_pipe_host_response, s_pipe_host_call, begin_close, close, begin_disconnect, disconnect, reconnect,
    c_open, c_connect, c_get_available, c_exchange_key, c_host_response, c_reset, c_set_max, c_set_min, c_request,
    c_start, c_send, c_send_eof, c_pipe_host_response, c_begin_stop, c_set_meta, pipe_close,
    s_connect, s_send_event, s_set_broken, s_host_call, s_request_key, s_availability,
    s_complete, s_start, s_stop, s_begin_stop, s_pipe_host_call, s_write_output, s_write, s_write_information,
    s_track, s_metadata, on_pipe,
    client_chg, client_pipe_chg, server_chg, server_chg_err, server_pipe_chg, next_ci, bnd, ok, prepare, user_body, with_token, opt_token, bind in *.
Ltac pstep := cbn -[ps_is ps_in is_is is_in zset zdel zget aset adel aget set_nth nth_error version_lt app is_void length] in *.
(** Split every match. *)
Ltac splitm :=
  repeat match goal with
  | |- context [match ?x with _ => _ end] =>
      lazymatch x with
      | context [match _ with _ => _ end] => fail
      | _ => destruct x eqn:?
      end; pstep
  end.
Ltac hsplitm H :=
  repeat (match type of H with
  | context [match ?x with _ => _ end] =>
      lazymatch x with
      | context [match _ with _ => _ end] => fail
      | _ => destruct x eqn:?
      end
  end; pstep).


(** ** C27 *)
Lemma client_err_unchanged : forall p o p' e, client_step p o = (p', Err e) ->
  p' = p \/ (o = COpen /\ p_state p = BeforeOpen /\ exists se, p_config p = Bad se /\ e = raised se).
Proof.
  intros p o p' e H. destruct p; destruct o; unf; pstep.
  all: try (hsplitm H; try discriminate H; try (injection H as <- <-); auto; fail).
  hsplitm H; try discriminate H; injection H as <- <-; auto.
  match goal with A : negb _ = false |- _ => apply negb_false_iff, ps_is_spec in A end.
  right. repeat split; eauto.
Qed.
Lemma raised_not_state : forall e, ~ state_error (raised e).
Proof. intros []; intros [?|[?|?]]; discriminate. Qed.

Lemma server_err_unchanged : forall p o p' e, server_step p o = (p', Err e) ->
  p' = p
  \/ (exists v se, ((exists mi pid, o = SHostCall mi v pid) \/ (exists h mi, o = SPipeHostCall h mi v)) /\ v = Bad se
      /\ e = raised se /\ p' = set_ci (p_ci p + 1)%Z p)
  \/ (exists se, o = SSetBroken (Bad se) /\ e = raised se /\ p' = set_state Broken p).
Proof.
  intros p o p' e H. destruct p; destruct o; unf; pstep.
  all: try (hsplitm H; try discriminate H; try (injection H as <- <-); auto; fail).
  all: hsplitm H; try discriminate H; try (injection H as <- <-); auto.
  all: repeat match goal with A : (_, _) = (_, _) |- _ => injection A as <- <- end; auto.
  all: first [solve [right; right; eexists; repeat split]
             |solve [right; left; eexists; eexists; split; [left; eexists; eexists; reflexivity|repeat split]]
             |solve [right; left; eexists; eexists; split; [right; eexists; eexists; reflexivity|repeat split]]].
Qed.

Ltac boolp :=
  repeat match goal with
  | A : negb _ = true |- _ => apply negb_true_iff in A
  | A : negb _ = false |- _ => apply negb_false_iff in A
  | A : _ && _ = true |- _ => apply andb_prop in A; destruct A
  | A : _ && _ = false |- _ => apply andb_false_iff in A; destruct A
  | A : ps_is _ _ = true |- _ => apply ps_is_spec in A
  | A : ps_is _ _ = false |- _ => apply ps_is_false in A
  | A : is_is _ _ = true |- _ => apply is_is_spec in A
  | A : is_is _ _ = false |- _ => apply is_is_false in A
  | A : ps_in ?a ?l = true |- _ => apply (ps_in_spec a l) in A
  | A : is_in ?a ?l = true |- _ => apply (is_in_spec a l) in A
  | A : ps_in ?a ?l = false |- _ => assert (~ In a l) by (rewrite <- ps_in_spec, A; discriminate); clear A
  | A : is_in ?a ?l = false |- _ => assert (~ In a l) by (rewrite <- is_in_spec, A; discriminate); clear A
  end.
Lemma pipe_allowed_none : forall p, pipe_allowed p None.
Proof. intros; exact I. Qed.

(** The checks are made in the order: version, pipeline state, pipelines left (close), pool state. *)
Definition client_checks (p : pool) (o : client_op) : result unit :=
  if (match o with CReset => version_lt (their_version p) pv23 | _ => false end) then Err InvalidProtocolVersion else
  if (match client_pipe_states o with
      | Some (h, l) => match nth_error (p_heap p) h with Some x => negb (is_in (pl_state x) l) | None => false end
      | None => false
      end) then Err InvalidPipelineState else
  if (match o with CClose => match p_table p with [] => false | _ => true end | _ => false end) then Err PSRPCoreError else
  if (match o with CExchangeKey _ => p_keyreq p | _ => false end) then Ok tt else
  if negb (ps_in (p_state p) (client_pool_states o)) then Err InvalidPoolState else Ok tt.
Lemma all_states : forall s, ps_in s any_state = true.
Proof. intros []; reflexivity. Qed.
Lemma all_pipes : forall s, is_in s any_pipe = true.
Proof. intros []; reflexivity. Qed.
Ltac pcomp := cbn -[zset zdel zget aset adel aget set_nth nth_error version_lt app is_void length] in *.
Ltac leaf :=
  match goal with
  | |- _ = _ => reflexivity || congruence
  | |- forall e, _ = Err e -> ~ state_error e =>
    intros ? E; first [discriminate E | injection E as <-; first [apply raised_not_state | intros [A|[A|A]]; discriminate A]]
  end.
Ltac checks V :=
  match goal with
  | h : nat |- context [nth_error ?l ?h] =>
    destruct (nth_error l h) as [[xpid xst xmeta xkind]|] eqn:HN; [|exfalso; apply V; reflexivity]; destruct xst
  | _ => idtac
  end.
Lemma client_checks_spec : forall p o, handle_ok p (client_pipe_states o) ->
  match client_checks p o with
  | Err e => client_step p o = (p, Err e)
  | Ok _ => forall e, snd (client_step p o) = Err e -> ~ state_error e
  end.
Proof.
  intros p o V. unfold client_checks. destruct p as [rpid our their st heap tab hds evs ci fc kr key mn mx out priv cfg xk sess].
  destruct o; destruct st; unf; pcomp; checks V; pcomp; splitm; leaf.
Qed.

Definition server_checks (p : pool) (o : server_op) : result unit :=
  if (match o with SWriteInformation _ _ => version_lt (their_version p) pv23 | _ => false end) then Err InvalidProtocolVersion else
  if (match server_pipe_states o with
      | Some (h, l) => match nth_error (p_heap p) h with Some x => negb (is_in (pl_state x) l) | None => false end
      | None => false
      end) then Err InvalidPipelineState else
  if (match o with SClose => match p_table p with [] => false | _ => true end | _ => false end) then Err PSRPCoreError else
  if (match o with SRequestKey => p_keyreq p | _ => false end) then Ok tt else
  if negb (ps_in (p_state p) (server_pool_states o)) then Err InvalidPoolState else Ok tt.
Lemma server_checks_spec : forall p o, handle_ok p (server_pipe_states o) ->
  match server_checks p o with
  | Err e => server_step p o = (p, Err e)
  | Ok _ => forall e, snd (server_step p o) = Err e -> ~ state_error e
  end.
Proof.
  intros p o V. unfold server_checks. destruct p as [rpid our their st heap tab hds evs ci fc kr key mn mx out priv cfg xk sess].
  destruct o; destruct st; unf; pcomp; checks V; pcomp; splitm; leaf.
Qed.

Lemma announced_23_lt : forall p, version_lt (their_version p) pv23 = true <-> ~ announced_23 p.
Proof.
  intros p. unfold announced_23, their_version. destruct (p_their p) as [c|].
  - unfold version_ge, version_lt. split.
    + intros A (c' & B & C). injection B as <-. rewrite A in C. discriminate.
    + intros A. destruct (tuple_lt (version_tuple (cap_proto c)) (version_tuple pv23)) eqn:E; auto.
      exfalso. apply A. exists c. split; auto. rewrite E. reflexivity.
  - split; [|reflexivity]. intros _ (c & B & _). discriminate.
Qed.
Lemma pipe_allowed_dec : forall p t, handle_ok p t ->
  (match t with
   | Some (h, l) => match nth_error (p_heap p) h with Some x => negb (is_in (pl_state x) l) | None => false end
   | None => false
   end = true <-> ~ pipe_allowed p t).
Proof.
  intros p [[h l]|] V; cbn in *; [|split; [discriminate|tauto]].
  destruct (nth_error (p_heap p) h) as [x|]; [|contradiction].
  rewrite negb_true_iff. split.
  - intros A (y & B & C). injection B as <-. apply is_in_spec in C. congruence.
  - intros A. destruct (is_in (pl_state x) l) eqn:E; auto. exfalso. apply A. exists x. split; auto. apply is_in_spec; auto.
Qed.
Lemma pipe_allowed_dec' : forall p t, handle_ok p t ->
  (match t with
   | Some (h, l) => match nth_error (p_heap p) h with Some x => negb (is_in (pl_state x) l) | None => false end
   | None => false
   end = false <-> pipe_allowed p t).
Proof.
  intros p [[h l]|] V; cbn in *; [|split; [tauto|reflexivity]].
  destruct (nth_error (p_heap p) h) as [x|]; [|contradiction].
  rewrite negb_false_iff. rewrite is_in_spec. split; [eauto|]. intros (y & B & C). congruence.
Qed.
Lemma ps_in_dec : forall s l, negb (ps_in s l) = true <-> ~ In s l.
Proof. intros. rewrite <- ps_in_spec, negb_true_iff. destruct (ps_in s l); split; congruence. Qed.

Lemma client_rejections : forall p o, handle_ok p (client_pipe_states o) ->
  (snd (client_step p o) = Err InvalidProtocolVersion <-> o = CReset /\ ~ announced_23 p)
  /\ (snd (client_step p o) = Err InvalidPipelineState <-> ~ pipe_allowed p (client_pipe_states o))
  /\ (snd (client_step p o) = Err InvalidPoolState <->
      pipe_allowed p (client_pipe_states o) /\ ~ In (p_state p) (client_pool_states o) /\ ~ client_excused p o).
Proof.
  intros p o V. pose proof (client_checks_spec p o V) as S. unfold client_checks in S.
  pose proof (pipe_allowed_dec p _ V) as D. pose proof (pipe_allowed_dec' p _ V) as D'.
  set (b := match client_pipe_states o with Some _ => _ | None => _ end) in *. clearbody b.
  destruct (match o with CReset => version_lt (their_version p) pv23 | _ => false end) eqn:E1.
  { rewrite S. cbn [snd]. assert (o = CReset /\ ~ announced_23 p) as [-> N] by (destruct o; try discriminate; rewrite <- announced_23_lt; auto).
    cbn. repeat split; try discriminate; auto; try tauto. }
  assert (N1 : ~ (o = CReset /\ ~ announced_23 p)) by (intros [-> N]; apply announced_23_lt in N; congruence).
  destruct b.
  { rewrite S. cbn [snd]. destruct D as [D _]. specialize (D eq_refl). repeat split; try discriminate; try tauto. }
  destruct D' as [D' _]. specialize (D' eq_refl).
  destruct (match o with CClose => match p_table p with [] => false | _ => true end | _ => false end) eqn:E2.
  { rewrite S. cbn [snd]. assert (o = CClose /\ p_table p <> []) as [-> N] by (destruct o; try discriminate; split; auto; destruct (p_table p); discriminate).
    cbn. repeat split; try discriminate; try tauto. }
  destruct (match o with CExchangeKey _ => p_keyreq p | _ => false end) eqn:E3.
  { assert (client_excused p o) by (destruct o; try discriminate; auto).
    unfold state_error in S. split; [|split]; (split; [intros X; exfalso; apply S in X; apply X; auto|tauto]). }
  assert (N2 : ~ client_excused p o).
  { destruct o; cbn; auto; try congruence; try tauto. destruct (p_table p); [auto|discriminate]. }
  destruct (negb (ps_in (p_state p) (client_pool_states o))) eqn:E4.
  { apply ps_in_dec in E4. rewrite S. cbn [snd]. repeat split; try discriminate; try tauto. }
  assert (N3 : In (p_state p) (client_pool_states o)) by (apply ps_in_spec; apply negb_false_iff; auto).
  unfold state_error in S. split; [|split]; (split; [intros X; exfalso; apply S in X; apply X; auto|tauto]).
Qed.
Lemma server_rejections : forall p o, handle_ok p (server_pipe_states o) ->
  (snd (server_step p o) = Err InvalidProtocolVersion <-> (exists h v, o = SWriteInformation h v) /\ ~ announced_23 p)
  /\ (snd (server_step p o) = Err InvalidPipelineState <->
      ~ pipe_allowed p (server_pipe_states o) /\ ~ ((exists h v, o = SWriteInformation h v) /\ ~ announced_23 p))
  /\ (snd (server_step p o) = Err InvalidPoolState <->
      pipe_allowed p (server_pipe_states o) /\ ~ In (p_state p) (server_pool_states o) /\ ~ server_excused p o).
Proof.
  intros p o V. pose proof (server_checks_spec p o V) as S. unfold server_checks in S.
  pose proof (pipe_allowed_dec p _ V) as D. pose proof (pipe_allowed_dec' p _ V) as D'.
  set (b := match server_pipe_states o with Some _ => _ | None => _ end) in *. clearbody b.
  destruct (match o with SWriteInformation _ _ => version_lt (their_version p) pv23 | _ => false end) eqn:E1.
  { rewrite S. cbn [snd]. assert ((exists h v, o = SWriteInformation h v) /\ ~ announced_23 p) as [(h & v & ->) N] by (destruct o; try discriminate; rewrite <- announced_23_lt; eauto).
    split; [|split]; [split; eauto|split; [discriminate|]|split; [discriminate|]]; try (intros (A & B); exfalso; eauto; fail).
    intros (_ & B & _). exfalso. apply B. apply ps_in_spec. apply all_states. }
  assert (N1 : ~ ((exists h v, o = SWriteInformation h v) /\ ~ announced_23 p)) by (intros [(h & v & ->) N]; apply announced_23_lt in N; congruence).
  destruct b.
  { rewrite S. cbn [snd]. destruct D as [D _]. specialize (D eq_refl). repeat split; try discriminate; try tauto. }
  destruct D' as [D' _]. specialize (D' eq_refl).
  destruct (match o with SClose => match p_table p with [] => false | _ => true end | _ => false end) eqn:E2.
  { rewrite S. cbn [snd]. assert (o = SClose /\ p_table p <> []) as [-> N] by (destruct o; try discriminate; split; auto; destruct (p_table p); discriminate).
    cbn. split; [split; [discriminate|tauto]|]. split; [split; [discriminate|tauto]|split; [discriminate|tauto]]. }
  destruct (match o with SRequestKey => p_keyreq p | _ => false end) eqn:E3.
  { assert (server_excused p o) by (destruct o; try discriminate; auto).
    unfold state_error in S. split; [|split]; (split; [intros X; exfalso; apply S in X; apply X; auto|tauto]). }
  assert (N2 : ~ server_excused p o).
  { destruct o; cbn; auto; try congruence; try tauto. destruct (p_table p); [auto|discriminate]. }
  destruct (negb (ps_in (p_state p) (server_pool_states o))) eqn:E4.
  { apply ps_in_dec in E4. rewrite S. cbn [snd]. split; [split; [discriminate|tauto]|]. split; [split; [discriminate|tauto]|]. tauto. }
  assert (N3 : In (p_state p) (server_pool_states o)) by (apply ps_in_spec; apply negb_false_iff; auto).
  unfold state_error in S. split; [|split]; (split; [intros X; exfalso; apply S in X; apply X; auto|tauto]).
Qed.

Lemma not_lt_23 : forall p, announced_23 p -> version_lt (their_version p) pv23 = false.
Proof. intros p H. destruct (version_lt (their_version p) pv23) eqn:E; auto. apply announced_23_lt in E. contradiction. Qed.
(** Everything allowed succeeds. *)
Ltac accept V A S N :=
  match type of A with
  | exists x, nth_error _ _ = Some x /\ _ => destruct A as ([xpid xst xmeta xkind] & HN & A); cbn [pl_state] in A; rewrite HN
  | _ => idtac
  end.
Lemma client_accepts : forall p o,
  pipe_allowed p (client_pipe_states o) -> In (p_state p) (client_pool_states o) -> client_other_needs p o ->
  is_ok (snd (client_step p o)) = true.
Proof.
  intros p o A S N.
  assert (R : o = CReset -> version_lt (their_version p) pv23 = false) by (intros ->; apply not_lt_23; exact N).
  destruct p as [rpid our their st heap tab hds evs ci fc kr key mn mx out priv cfg xk sess].
  destruct o; cbn [client_pipe_states client_pool_states client_other_needs pipe_allowed p_heap p_state p_config p_table p_events] in *;
    unf; pcomp; accept V A S N; pcomp.
  all: try (specialize (R eq_refl); rewrite R).
  all: try (destruct N as ((mi & pid & E) & G1 & G2); rewrite E; destruct rv as [[]|]; destruct er as [[]|]; pcomp; try contradiction).
  all: repeat match goal with H : _ \/ _ |- _ => destruct H as [<-|H] | H : False |- _ => destruct H end; pcomp.
  all: try (rewrite N; pcomp).
  all: try (destruct v as [|[]]; pcomp; contradiction || reflexivity).
  all: try (destruct xmeta as [[]|]; pcomp; try reflexivity; try (exfalso; exact (N _ _ HN eq_refl))).
  all: try (destruct cfg; pcomp; try contradiction; try (exfalso; exact (N eq_refl)); reflexivity).
  all: try reflexivity.
  all: splitm; reflexivity.
Qed.
Lemma server_accepts : forall p o,
  pipe_allowed p (server_pipe_states o) -> In (p_state p) (server_pool_states o) -> server_other_needs p o ->
  is_ok (snd (server_step p o)) = true.
Proof.
  intros p o A S N.
  assert (R : forall h v, o = SWriteInformation h v -> version_lt (their_version p) pv23 = false) by (intros h v ->; apply not_lt_23; apply N).
  destruct p as [rpid our their st heap tab hds evs ci fc kr key mn mx out priv cfg xk sess].
  destruct o; cbn [server_pipe_states server_pool_states server_other_needs pipe_allowed p_heap p_state p_config p_table p_events] in *;
    unf; pcomp; accept V A S N; pcomp.
  all: try (specialize (R _ _ eq_refl); rewrite R; destruct N as [_ N]).
  all: repeat match goal with H : _ \/ _ |- _ => destruct H as [<-|H] | H : False |- _ => destruct H end; pcomp.
  all: try (rewrite N; pcomp).
  all: try (destruct v as [|[]]; pcomp; contradiction || reflexivity).
  all: try (destruct v as []; pcomp; try contradiction; splitm; reflexivity).
  all: try (destruct params as []; pcomp; try contradiction; splitm; reflexivity).
  all: try (destruct error as []; pcomp; try contradiction; splitm; reflexivity).
  all: try reflexivity.
  all: try (splitm; reflexivity).
  all: splitm; try contradiction; try discriminate; reflexivity.
Qed.
