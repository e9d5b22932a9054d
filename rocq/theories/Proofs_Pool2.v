(** Proofs about histories of one pool. *)
From Verif Require Import Base BaseFacts Model_Scalars Model_Transport Model_Command Model_Host Model_Pool Spec_Pool Proofs_Pool.
Local Open Scope Z_scope.

(** ** Dictionaries with int keys *)
Section ZDictFacts.
  Context {V : Type}.
  Implicit Types m : list (Z * V).
  Definition zkeys m := map fst m.
  Lemma zget_zset k k' v m : zget k (zset k' v m) = if (k =? k')%Z then Some v else zget k m.
  Proof.
    induction m as [|[a b] t IH]; cbn.
    - destruct (Z.eqb_spec k k'); auto.
    - destruct (Z.eqb_spec k' a) as [->|N]; cbn.
      + destruct (Z.eqb_spec k a); auto.
      + rewrite IH. destruct (Z.eqb_spec k a) as [->|]; auto. destruct (Z.eqb_spec a k'); congruence.
  Qed.
  Lemma zget_None m k : zget k m = None <-> ~ In k (zkeys m).
  Proof.
    induction m as [|[a b] t IH]; cbn; [tauto|].
    destruct (Z.eqb_spec k a) as [->|N]; [split; [discriminate|tauto]|]. rewrite IH. split; [intros A [B|B]; [congruence|tauto]|tauto].
  Qed.
  Lemma zget_zdel k k' m : NoDup (zkeys m) -> zget k (zdel k' m) = if (k =? k')%Z then None else zget k m.
  Proof.
    induction m as [|[a b] t IH]; cbn; intros D.
    - destruct (k =? k'); auto.
    - inversion D; subst. destruct (Z.eqb_spec k' a) as [->|N]; cbn.
      + destruct (Z.eqb_spec k a) as [->|]; auto. apply zget_None; auto.
      + destruct (Z.eqb_spec k a) as [->|]; [destruct (Z.eqb_spec a k'); congruence|]. auto.
  Qed.
  Lemma In_zkeys_zset k k' v m : In k (zkeys (zset k' v m)) <-> k = k' \/ In k (zkeys m).
  Proof.
    induction m as [|[a b] t IH]; cbn; [intuition|].
    destruct (Z.eqb_spec k' a) as [->|N]; cbn; [intuition|]. rewrite IH. intuition.
  Qed.
  Lemma NoDup_zset k v m : NoDup (zkeys m) -> NoDup (zkeys (zset k v m)).
  Proof.
    induction m as [|[a b] t IH]; cbn; intros D; [constructor; [easy|constructor]|].
    inversion D; subst. destruct (Z.eqb_spec k a) as [->|N]; cbn; constructor; auto.
    fold (zkeys (zset k v t)). rewrite In_zkeys_zset. intros [A|A]; [congruence|contradiction].
  Qed.
  Lemma In_zkeys_zdel k k' m : In k (zkeys (zdel k' m)) -> In k (zkeys m).
  Proof. induction m as [|[a b] t IH]; cbn; auto. destruct (k' =? a); cbn; intuition. Qed.
  Lemma NoDup_zdel k m : NoDup (zkeys m) -> NoDup (zkeys (zdel k m)).
  Proof.
    induction m as [|[a b] t IH]; cbn; intros D; auto. inversion D; subst.
    destruct (k =? a); cbn; auto. constructor; auto. intros A. apply In_zkeys_zdel in A. contradiction.
  Qed.
End ZDictFacts.

Ltac popen p := destruct p as [rpid our their st heap tab hds evs ci0 fc kr key mn mx out priv cfg xk sess].
Ltac brute p o := popen p; destruct o; unf; pstep; splitm.

(** ** What an operation does to each part of a client pool *)
Lemma client_ci : forall p o, match snd (client_step p o) with
  | Ok (Some ci) => ci = p_ci p /\ p_ci (fst (client_step p o)) = p_ci p + 1
  | _ => p_ci (fst (client_step p o)) = p_ci p
  end.
Proof. intros p o. brute p o; auto; try discriminate. Qed.
Lemma client_handlers : forall p o, p_handlers (fst (client_step p o)) =
  match snd (client_step p o) with Ok (Some ci) => zset ci (asks o) (p_handlers p) | _ => p_handlers p end.
Proof. intros p o. brute p o; auto. Qed.
Lemma client_limits : forall p o,
  (p_min (fst (client_step p o)), p_max (fst (client_step p o))) =
  match snd (client_step p o), asks o with
  | Ok None, Some (LMin, v) => (v, p_max p)
  | Ok None, Some (LMax, v) => (p_min p, v)
  | _, _ => (p_min p, p_max p)
  end.
Proof. intros p o. brute p o; auto. Qed.
Definition answers (o : client_op) : option Z :=
  match o with CHostResponse ci _ _ | CPipeHostResponse _ ci _ _ => Some ci | _ => None end.
Lemma client_events : forall p o, p_events (fst (client_step p o)) =
  match snd (client_step p o), answers o with Ok _, Some ci => zdel ci (p_events p) | _, _ => p_events p end.
Proof. intros p o. brute p o; auto. Qed.
Lemma client_their : forall p o, p_their (fst (client_step p o)) = p_their p.
Proof. intros p o. brute p o; auto. Qed.

Ltac brutem p m := popen p; destruct m as [oid mrpid mpid mstream []]; match goal with x : payload |- _ => match goal with |- context [mkPool _ _ _ _ _ _ _ _ _ _ _ _ _ _ _ x _ _ _] => destruct x as [pr|pr] end end; cbn [o_body o_pid o_rpid o_stream] in *; try solve [cbn; auto]; unf; pstep; splitm.
Lemma client_recv_ci : forall k p m, p_ci (fst (client_process k p m)) = p_ci p.
Proof. intros k p m. unfold client_process. brutem p m; auto. Qed.

(** ** C28 *)
Lemma ids_bound_nodup : forall (l : list Z) n, (forall i, In i l -> 1 <= i < n) -> NoDup l -> ~ In n l.
Proof. intros l n H _ A. apply H in A. lia. Qed.
Lemma client_ids : forall p l, 1 <= p_ci p ->
  let '(p', h) := client_run p l in
  p_ci p <= p_ci p' /\ (forall i, In i (ids h) -> p_ci p <= i < p_ci p') /\ NoDup (ids h).
Proof.
  intros p l P. induction l as [|a t IH]; cbn [client_run].
  - cbn. repeat split; try lia; try easy. constructor.
  - destruct (client_run p t) as [p' h]. destruct IH as (A & B & C). cbn [ids flat_map]. fold (ids h).
    destruct a as [o|m k]; cbn [client_act_step client_result id_of snd].
    + pose proof (client_ci p' o) as D.
      destruct (snd (client_step p' o)) as [[ci|]|e] eqn:E; unfold id_of; cbn [snd app].
      * destruct D as [-> D]. assert (p_ci p' =? -100 = false) as -> by lia. cbn [app]. rewrite D. split; [lia|]. split.
        -- intros i [<-|I]; [lia|]. apply B in I. lia.
        -- constructor; auto. intros I. apply B in I. lia.
      * rewrite D. auto.
      * rewrite D. auto.
    + rewrite client_recv_ci. destruct (snd (client_process k p' m)); cbn; auto.
Qed.

Lemma server_ci : forall p o, o <> SConnect -> match snd (server_step p o) with
  | Ok (Some ci) => (ci = -100 /\ p_ci (fst (server_step p o)) = p_ci p) \/ (ci = p_ci p /\ p_ci (fst (server_step p o)) = p_ci p + 1)
  | _ => p_ci (fst (server_step p o)) = p_ci p \/ p_ci (fst (server_step p o)) = p_ci p + 1
  end.
Proof.
  intros p o N. brute p o; auto; try congruence.
  all: repeat match goal with A : (_, _) = (_, _) |- _ => injection A as <- <- end; cbn; auto.
Qed.
Lemma server_recv_ci : forall p m, p_ci (fst (server_process p m)) = p_ci p.
Proof. intros p m. unfold server_process. brutem p m; auto. Qed.
Lemma server_ids : forall p l, 1 <= p_ci p -> existsb is_connect l = false ->
  let '(p', h) := server_run p l in
  p_ci p <= p_ci p' /\ (forall i, In i (ids h) -> p_ci p <= i < p_ci p') /\ NoDup (ids h).
Proof.
  intros p l P. induction l as [|a t IH]; cbn [server_run existsb]; intros X.
  - cbn. repeat split; try lia; try easy. constructor.
  - apply orb_false_iff in X. destruct X as [X1 X2]. specialize (IH X2).
    destruct (server_run p t) as [p' h]. destruct IH as (A & B & C). cbn [ids flat_map]. fold (ids h).
    destruct a as [o|m|]; cbn [server_act_step server_result id_of snd].
    + assert (N : o <> SConnect) by (intros ->; discriminate). pose proof (server_ci p' o N) as D.
      destruct (snd (server_step p' o)) as [[ci|]|e] eqn:E; unfold id_of; cbn [snd app].
      * destruct D as [[-> D]|[-> D]]; rewrite D; [cbn; auto|]. assert (p_ci p' =? -100 = false) as -> by lia. cbn [app]. split; [lia|]. split.
        -- intros i [<-|I]; [lia|]. apply B in I. lia.
        -- constructor; auto. intros I. apply B in I. lia.
      * split; [lia|]. split; auto. intros i I. apply B in I. lia.
      * split; [lia|]. split; auto. intros i I. apply B in I. lia.
    + rewrite server_recv_ci. destruct (snd (server_process p' m)); cbn; auto.
    + unfold server_receive. destruct (ps_is (p_state p') BeforeOpen); cbn; auto.
Qed.

(** ** C29 *)
Lemma client_recv_handlers : forall k p m, p_handlers (fst (client_process k p m)) =
  match o_body m with
  | MRunspaceAvailability ci _ => match zget ci (p_handlers p) with Some _ => zdel ci (p_handlers p) | None => p_handlers p end
  | _ => p_handlers p
  end.
Proof. intros k p m. unfold client_process. brutem p m; auto. Qed.
Lemma client_recv_limits : forall k p m,
  (p_min (fst (client_process k p m)), p_max (fst (client_process k p m))) =
  match o_body m with
  | MRunspacePoolInitData mn mx => (mn, mx)
  | MRunspaceAvailability ci (RBool true) =>
    match zget ci (p_handlers p) with
    | Some (Some (LMin, v)) => (v, p_max p)
    | Some (Some (LMax, v)) => (p_min p, v)
    | _ => (p_min p, p_max p)
    end
  | _ => (p_min p, p_max p)
  end.
Proof. intros k p m. unfold client_process. brutem p m; auto. Qed.
Lemma zdel_absent : forall V k (m : list (Z * V)), zget k m = None -> zdel k m = m.
Proof. intros V k m. induction m as [|[a b] t IH]; cbn; auto. destruct (k =? a); [discriminate|]. intros H. rewrite IH; auto. Qed.
Lemma outstanding_spec : forall rpid mn mx cfg l,
  let '(p, h) := client_run (client_init rpid mn mx cfg) l in
  NoDup (zkeys (p_handlers p)) /\ (forall ci, zget ci (p_handlers p) = outstanding ci h)
  /\ p_min p = limit_now LMin mn h /\ p_max p = limit_now LMax mx h.
Proof.
  intros rpid mn mx cfg l. induction l as [|a t IH]; cbn [client_run].
  - cbn. repeat split; auto. constructor.
  - destruct (client_run _ t) as [p h]. destruct IH as (D & O & L1 & L2).
    destruct a as [o|m k]; cbn [client_act_step client_result].
    + pose proof (client_limits p o) as LL. rewrite (client_handlers p o).
      destruct (snd (client_step p o)) as [[ci|]|e] eqn:E; cbn [outstanding limit_now].
      * injection LL as -> ->. split; [apply NoDup_zset; auto|]. split; [|auto].
        intros c. rewrite zget_zset, Z.eqb_sym, O. reflexivity.
      * split; auto. split; auto. destruct (asks o) as [[[] v]|]; injection LL as -> ->; auto.
      * split; auto. split; auto. injection LL as -> ->; auto.
    + pose proof (client_recv_limits k p m) as LL. rewrite (client_recv_handlers k p m). cbn [outstanding limit_now].
      destruct (o_body m); try (injection LL as -> ->; auto; fail).
      split; [destruct (zget ci (p_handlers p)); auto; apply NoDup_zdel; auto|]. split.
      * intros c. rewrite <- O. destruct (zget ci (p_handlers p)) eqn:E.
        -- rewrite zget_zdel, Z.eqb_sym by auto. reflexivity.
        -- destruct (Z.eqb_spec ci c) as [->|]; auto.
      * rewrite <- O. destruct r as [[]| |]; try (injection LL as -> ->; auto; fail).
        destruct (zget ci (p_handlers p)) as [[[[] v]|]|]; injection LL as -> ->; auto.
Qed.
Lemma answer_unknown : forall k p m ci r, o_body m = MRunspaceAvailability ci r -> zget ci (p_handlers p) = None ->
  client_process k p m = (p, Err KeyError).
Proof. intros k p m ci r E H. unfold client_process. rewrite E, H. reflexivity. Qed.
Lemma direct_set : forall p v,
  (snd (client_step p (CSetMax v)) = Ok None <-> p_state p = BeforeOpen \/ p_max p = v)
  /\ (snd (client_step p (CSetMin v)) = Ok None <-> p_state p = BeforeOpen \/ p_min p = v).
Proof.
  intros p v. unfold client_step, c_set_max, c_set_min, c_request, next_ci.
  assert (X : forall a b, (ps_is a BeforeOpen || (b =? v) = true) <-> a = BeforeOpen \/ b = v)
    by (intros a b; rewrite orb_true_iff, ps_is_spec, Z.eqb_eq; tauto).
  rewrite <- !X. split.
  - destruct (ps_is (p_state p) BeforeOpen || (p_max p =? v)); cbn; split; auto; discriminate.
  - destruct (ps_is (p_state p) BeforeOpen || (p_min p =? v)); cbn; split; auto; discriminate.
Qed.

(** ** C34, client *)
Lemma client_recv_events : forall k p m, p_events (fst (client_process k p m)) =
  match o_body m with
  | MPipelineHostCall ci mi _ | MRunspacePoolHostCall ci mi _ =>
    if (ci =? -100) then p_events p else zset ci (EHost mi (o_pid m)) (p_events p)
  | _ => p_events p
  end.
Proof.
  intros k p m. unfold client_process. brutem p m; auto.
  all: match goal with A : _ = _ |- _ => try discriminate A end; auto.
Qed.
Lemma waiting_spec : forall rpid mn mx cfg l,
  let '(p, h) := client_run (client_init rpid mn mx cfg) l in
  NoDup (zkeys (p_events p))
  /\ forall ci, zget ci (p_events p) = match waiting ci h with Some (mi, pid) => Some (EHost mi pid) | None => None end.
Proof.
  intros rpid mn mx cfg l. induction l as [|a t IH]; cbn [client_run].
  - cbn. split; auto. constructor.
  - destruct (client_run _ t) as [p h]. destruct IH as (D & O).
    destruct a as [o|m k]; cbn [client_act_step client_result].
    + rewrite (client_events p o). destruct (snd (client_step p o)) as [v|e] eqn:E.
      * assert (W : forall ci, waiting ci ((COp o, Ok v) :: h) =
          match answers o with Some c => if c =? ci then None else waiting ci h | None => waiting ci h end).
        { intros ci. destruct o; reflexivity. }
        destruct (answers o) as [c|].
        -- split; [apply NoDup_zdel; auto|]. intros ci. rewrite W, zget_zdel, Z.eqb_sym by auto. destruct (c =? ci); auto.
        -- split; auto. intros ci. rewrite W. auto.
      * split; auto. intros ci. rewrite O. f_equal. destruct o; reflexivity.
    + rewrite (client_recv_events k p m).
      assert (W : forall ci r, waiting ci ((CRecv m k, r) :: h) = match o_body m with
        | MPipelineHostCall c mi _ | MRunspacePoolHostCall c mi _ =>
          if (c =? ci) && negb (c =? -100) then Some (mi, o_pid m) else waiting ci h
        | _ => waiting ci h end) by reflexivity.
      split.
      * destruct (o_body m); auto; destruct (ci =? -100); auto; apply NoDup_zset; auto.
      * intros c. rewrite W. destruct (o_body m); auto.
        all: destruct (ci =? -100); [rewrite andb_false_r; auto|]. all: rewrite andb_true_r, zget_zset, Z.eqb_sym. all: destruct (ci =? c); auto.
Qed.

Lemma respond_spec : forall p ci rv er mi pid, p_state p = Opened -> zget ci (p_events p) = Some (EHost mi pid) ->
  match opt_token rv, opt_token er with
  | Ok mr, Ok me =>
    client_step p (CHostResponse ci rv er) =
      (set_events (zdel ci (p_events p))
         (set_out (p_out p ++ [mkO (p_fc p) (p_rpid p) pid SPrompt (response_body ci mi pid mr me)])
           (set_fc (p_fc p + 1)%N p)), Ok None)
  | _, _ => exists se, client_step p (CHostResponse ci rv er) = (p, Err (raised se))
  end.
Proof.
  intros p ci rv er mi pid S E. unfold client_step, c_host_response. rewrite S. cbn [ps_is pool_state_eq_dec].
  change (negb (ps_is Opened Opened)) with false. cbn iota. rewrite E.
  destruct rv as [[]|], er as [[]|]; cbn; eauto; destruct pid; reflexivity.
Qed.
Lemma respond_unknown : forall p ci rv er, p_state p = Opened -> zget ci (p_events p) = None ->
  client_step p (CHostResponse ci rv er) = (p, Err KeyError).
Proof.
  intros p ci rv er S E. unfold client_step, c_host_response. rewrite S, E. reflexivity.
Qed.
Lemma respond_pipe : forall p h x ci rv er, nth_error (p_heap p) h = Some x -> pl_state x = Running ->
  client_step p (CPipeHostResponse h ci rv er) = client_step p (CHostResponse ci rv er).
Proof.
  intros p h x ci rv er N R. unfold client_step, c_pipe_host_response, on_pipe. rewrite N, R. reflexivity.
Qed.

(** ** C36 *)
Lemma client_announced : forall rpid mn mx cfg l,
  let '(p, h) := client_run (client_init rpid mn mx cfg) l in p_their p = announced client_recv h.
Proof.
  intros rpid mn mx cfg l. induction l as [|a t IH]; cbn [client_run]; [reflexivity|].
  destruct (client_run _ t) as [p h]. destruct a as [o|m k]; cbn [client_act_step announced client_recv].
  - rewrite client_their. auto.
  - rewrite <- IH. unfold client_process. clear. brutem p m; auto.
Qed.
Lemma server_their : forall p o, p_their (fst (server_step p o)) = p_their p.
Proof.
  intros p o. brute p o; auto.
  all: repeat match goal with A : (_, _) = (_, _) |- _ => injection A as <- <- end; cbn; auto.
Qed.
Lemma server_announced : forall session private l,
  let '(p, h) := server_run (server_init session private) l in p_their p = announced server_recv h.
Proof.
  intros session private l. induction l as [|a t IH]; cbn [server_run]; [reflexivity|].
  destruct (server_run _ t) as [p h]. destruct a as [o|m|]; cbn [server_act_step announced server_recv].
  - rewrite server_their. auto.
  - rewrite <- IH. unfold server_process. clear. brutem p m; auto.
  - rewrite <- IH. unfold server_receive. destruct (ps_is _ _); reflexivity.
Qed.
