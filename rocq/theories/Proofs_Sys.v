(** Proofs about a client and a server joined by an in-order connection. *)
From Verif Require Import Base BaseFacts Model_Scalars Model_Transport Model_Command Model_Host Model_Pool Spec_Pool
  Proofs_Pool Proofs_Pool2 Proofs_Pool3.
Local Open Scope Z_scope.

Definition bodies (l : list omsg) : list body := map o_body l.
(** The requests with a call id, as (id, what was asked for). *)
Definition req_of (b : body) : option (Z * option (limit * Z)) :=
  match b with
  | MSetMaxRunspaces n ci => Some (ci, Some (LMax, n))
  | MSetMinRunspaces n ci => Some (ci, Some (LMin, n))
  | MGetAvailableRunspaces ci | MResetRunspaceState ci => Some (ci, None)
  | _ => None
  end.
Definition is_init (b : body) : bool := match b with MInitRunspacePool _ _ _ => true | _ => false end.
Definition is_conn (b : body) : bool := match b with MConnectRunspacePool _ _ => true | _ => false end.
(** Neither a request nor a handshake message. *)
Definition cplain (b : body) : Prop := req_of b = None /\ is_init b = false /\ is_conn b = false.
Definition ans_of (b : body) : option (Z * response) :=
  match b with MRunspaceAvailability ci r => Some (ci, r) | _ => None end.
Definition is_idata (b : body) : bool := match b with MRunspacePoolInitData _ _ => true | _ => false end.
Definition splain (b : body) : Prop := ans_of b = None /\ is_idata b = false.
Definition not_before (b : body) : Prop := forall r, b <> MRunspacePoolState BeforeOpen r.

Ltac newm :=
  first [ exists []; split; [cbn; rewrite ?app_nil_r; reflexivity|]
        | eexists [_]; split; [cbn; reflexivity|]
        | eexists [_; _]; split; [cbn; rewrite <- ?app_assoc; reflexivity|]
        | eexists [_; _; _]; split; [cbn; rewrite <- ?app_assoc; reflexivity|] ].
Ltac fplain := cbn; repeat (apply Forall_cons; [repeat split; try discriminate|]); try apply Forall_nil.

(** What a client operation sends. *)
Lemma client_sends : forall p o, let p' := fst (client_step p o) in
  exists new, p_out p' = p_out p ++ new /\
  ( (Forall cplain (bodies new) /\ p_handlers p' = p_handlers p /\ p_ci p' = p_ci p)
    \/ (exists b h, bodies new = [b] /\ req_of b = Some (p_ci p, h) /\ p_handlers p' = zset (p_ci p) h (p_handlers p)
        /\ p_ci p' = p_ci p + 1 /\ p_state p <> BeforeOpen)
    \/ (exists b cfg, bodies new = [b; MInitRunspacePool (p_min p) (p_max p) cfg] /\ cplain b /\ p_state p = BeforeOpen
        /\ p_handlers p' = p_handlers p /\ p_ci p' = p_ci p /\ p_min p' = p_min p /\ p_max p' = p_max p /\ p_state p' = Opening)
    \/ (exists b, bodies new = [b; MConnectRunspacePool None None] /\ cplain b
        /\ p_handlers p' = p_handlers p /\ p_ci p' = p_ci p /\ p_min p' = p_min p /\ p_max p' = p_max p /\ p_state p' = Connecting)).
Proof.
  intros p o. popen p; destruct o; unf; pstep; splitm; newm.
  all: try (left; split; [fplain|split; reflexivity]; fail).
  all: boolp.
  all: try (right; right; left; eexists; eexists; split; [reflexivity|]; split; [repeat split|]; repeat split; auto; fail).
  all: try (right; right; right; eexists; split; [reflexivity|]; split; repeat split; auto; fail).
  all: try (right; left; eexists; eexists; split; [reflexivity|]; split; [reflexivity|]; repeat split; congruence).
  all: right; left; eexists; eexists; split; [reflexivity|]; split; [reflexivity|]; repeat split.
  all: match goal with A : _ || _ = false |- _ => apply orb_false_iff in A; destruct A; boolp; auto end.
Qed.
(** When an operation of the client can leave the state or the limits. *)
Lemma client_state_keep : forall p o, p_state (fst (client_step p o)) = BeforeOpen -> p_state p = BeforeOpen.
Proof. intros p o. brute p o; intros; boolp; auto; discriminate. Qed.
Lemma client_sends_state : forall p o, p_state (fst (client_step p o)) = BeforeOpen ->
  exists new, p_out (fst (client_step p o)) = p_out p ++ new /\ Forall cplain (bodies new).
Proof.
  intros p o. brute p o; intros; boolp; subst; try discriminate; newm; try fplain.
  all: try (match goal with A : _ || _ = false |- _ => apply orb_false_iff in A; destruct A as [A _]; discriminate A end).
  all: match goal with A : negb _ = false |- _ => discriminate A | _ => idtac end.
Qed.
Lemma client_limits_keep : forall p o, p_state p <> BeforeOpen ->
  p_min (fst (client_step p o)) = p_min p /\ p_max (fst (client_step p o)) = p_max p.
Proof.
  intros p o. brute p o; intros; boolp; auto.
  all: match goal with A : _ || _ = true |- _ => apply orb_prop in A; destruct A as [A|A] end; boolp; try congruence; split; lia.
Qed.
Lemma client_recv_sends : forall k p m, let p' := fst (client_process k p m) in
  exists new, p_out p' = p_out p ++ new /\ Forall cplain (bodies new)
  /\ (p_state p' = BeforeOpen -> p_state p = BeforeOpen \/ exists r, o_body m = MRunspacePoolState BeforeOpen r).
Proof.
  intros k p m. unfold client_process.
  popen p. destruct m as [oid mrpid mpid mstream []]; cbn [o_body o_pid o_rpid o_stream] in *; unf; pstep; splitm; newm; (split; [fplain|]); auto.
  all: try discriminate. intros ->. eauto.
Qed.

(** What the server sends. *)
Lemma server_sends : forall p o, let p' := fst (server_step p o) in
  exists new, p_out p' = p_out p ++ new /\ Forall not_before (bodies new) /\
  ( (Forall splain (bodies new) /\ p_handlers p' = p_handlers p /\ p_events p' = p_events p
     /\ p_min p' = p_min p /\ p_max p' = p_max p)
    \/ (exists ci r ev, bodies new = [MRunspaceAvailability ci r] /\ zget ci (p_events p) = Some ev
        /\ (match ev with EMax _ | EMin _ => exists b, r = RBool b | _ => True end)
        /\ p_handlers p' = zdel ci (p_handlers p) /\ p_events p' = zdel ci (p_events p)
        /\ (p_min p', p_max p') =
           match zget ci (p_handlers p), r with
           | Some (Some (LMax, v)), RBool true => (p_min p, v)
           | Some (Some (LMin, v)), RBool true => (v, p_max p)
           | _, _ => (p_min p, p_max p)
           end)).
Proof.
  intros p o. popen p; destruct o; unf; pstep; splitm; pairs; newm; (split; [fplain|]).
  all: try (left; split; [fplain|repeat split]; fail).
  all: right; eexists; eexists; eexists; split; [reflexivity|]; split; [eassumption|]; cbn; try rewrite Heqo; cbn; repeat split; eauto.
  all: repeat match goal with A : zget _ _ = _ |- context [zget _ _] => rewrite A end; auto.
Qed.
Definition ev_of (b : body) : pending :=
  match b with MSetMaxRunspaces n _ => EMax n | MSetMinRunspaces n _ => EMin n | MResetRunspaceState _ => EReset | _ => EAvail end.
Lemma server_recv_sends : forall p m, let p' := fst (server_process p m) in
  exists new, p_out p' = p_out p ++ new /\ Forall not_before (bodies new) /\
  match o_body m with
  | MConnectRunspacePool a b =>
    p_handlers p' = p_handlers p /\ p_events p' = p_events p
    /\ p_min p' = or_else a (p_min p) /\ p_max p' = or_else b (p_max p)
    /\ exists rest, bodies new = MRunspacePoolInitData (p_min p') (p_max p') :: rest /\ Forall splain rest
  | MInitRunspacePool a b _ =>
    p_handlers p' = p_handlers p /\ p_events p' = p_events p /\ p_min p' = a /\ p_max p' = b /\ Forall splain (bodies new)
  | b =>
    p_min p' = p_min p /\ p_max p' = p_max p /\
    match req_of b with
    | Some (ci, h) => p_handlers p' = zset ci h (p_handlers p) /\ p_events p' = zset ci (ev_of b) (p_events p) /\ new = []
    | None => p_handlers p' = p_handlers p /\ p_events p' = p_events p /\ Forall splain (bodies new)
    end
  end.
Proof.
  intros p m. unfold server_process. popen p. destruct m as [oid mrpid mpid mstream []]; destruct priv as [pr|pr];
    cbn -[zset]; unf; pcomp; splitm; newm; (split; [fplain|]); repeat split; auto.
  all: try (eexists; split; [reflexivity|]).
  all: try (fplain; fail).
Qed.
