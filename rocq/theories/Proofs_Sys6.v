(** C34 for a client and a server joined together, and C35. *)
From Coq Require Import Permutation.
From Verif Require Import Base BaseFacts Model_Scalars Model_Transport Model_Command Model_Host Model_Pool Spec_Pool Spec_Sys
  Proofs_Pool Proofs_Pool2 Proofs_Pool3 Proofs_Sys Proofs_Sys2 Proofs_Sys3 Proofs_Sys4.
Local Open Scope Z_scope.

(** ** C34 *)
Lemma client_responses : forall p o, let p' := fst (client_step p o) in exists new, p_out p' = p_out p ++ new /\
  ((Forall (fun m => response_of (o_body m) = None) new /\ p_events p' = p_events p)
   \/ exists m ci mi, new = [m] /\ zget ci (p_events p) = Some (EHost mi (o_pid m))
      /\ response_of (o_body m) = Some (ci, mi) /\ p_events p' = zdel ci (p_events p)).
Proof.
  intros p o. popen p; destruct o; unf; pstep; splitm; newm.
  all: try (left; split; [repeat (apply Forall_cons; [reflexivity|]); apply Forall_nil|reflexivity]; fail).
  all: right; eexists; eexists; eexists; split; [reflexivity|]; split; [eassumption|]; split; reflexivity.
Qed.
Lemma client_recv_responses : forall k p m, exists new, p_out (fst (client_process k p m)) = p_out p ++ new
  /\ Forall (fun m => response_of (o_body m) = None) new.
Proof.
  intros k p m. unfold client_process. popen p.
  destruct m as [oid mrpid mpid mstream []]; cbn [o_body o_pid o_rpid o_stream] in *; unf; pstep; splitm; newm;
    repeat (apply Forall_cons; [reflexivity|]); apply Forall_nil.
Qed.
Lemma server_calls : forall p o, o <> SConnect -> let p' := fst (server_step p o) in exists new, p_out p' = p_out p ++ new /\
  p_ci p <= p_ci p' /\
  (Forall (fun m => call_of (o_body m) = None) new
   \/ exists m ci mi, new = [m] /\ call_of (o_body m) = Some (ci, mi)
      /\ (ci = -100 \/ ci = p_ci p /\ p_ci p' = p_ci p + 1)).
Proof.
  intros p o N. popen p; destruct o; unf; pstep; splitm; try congruence; pairs; cbn in *; newm; (split; [lia|]).
  all: try (left; repeat (apply Forall_cons; [reflexivity|]); apply Forall_nil; fail).
  all: right; eexists; eexists; eexists; split; [reflexivity|]; split; [reflexivity|]; auto.
Qed.
Lemma server_recv_calls : forall p m, exists new, p_out (fst (server_process p m)) = p_out p ++ new
  /\ Forall (fun m => call_of (o_body m) = None) new.
Proof.
  intros p m. unfold server_process. popen p. destruct m as [oid mrpid mpid mstream []]; destruct priv as [pr|pr];
    cbn -[zset]; unf; pcomp; splitm; newm; repeat (apply Forall_cons; [reflexivity|]); apply Forall_nil.
Qed.

(** A call that the client has seen. *)
Definition seen (y : sys) (ci : Z) (mi : N) (pid : option N) : Prop :=
  exists m, In m (sdone y) /\ call_of (o_body m) = Some (ci, mi) /\ o_pid (arriving m) = pid /\ ci <> -100.
Definition Inv34 (y : sys) : Prop :=
  (forall ci e, zget ci (p_events (y_c y)) = Some e -> exists mi pid, e = EHost mi pid /\ seen y ci mi pid)
  /\ (forall m ci mi, In m (p_out (y_c y)) -> response_of (o_body m) = Some (ci, mi) -> seen y ci mi (o_pid m))
  /\ NoDup (zkeys (p_events (y_c y))).
Lemma seen_more : forall y y' ci mi pid w, sdone y' = sdone y ++ w -> seen y ci mi pid -> seen y' ci mi pid.
Proof. intros y y' ci mi pid w E (m & A & B). exists m. rewrite E, in_app_iff. auto. Qed.
Lemma Inv34_step : forall y y', sane y -> sys_step y y' -> Inv34 y -> Inv34 y'.
Proof.
  intros y y' S ST (A & B & C).
  destruct ST as [o new EC ES O D1 D2 D3 D4|o new ES EC O D1 D2 D3 D4|EC ES D1 D2 D3 D4|m new EC ES O D1 D2 D3 D4|m k new ES EC O D1 D2 D3 D4].
  - assert (SM : forall ci mi pid, seen y ci mi pid -> seen y' ci mi pid)
      by (intros; eapply seen_more with (w := []); [rewrite app_nil_r; eauto|auto]).
    destruct (client_responses (y_c y) o) as (n' & E & H). cbv zeta in E, H. rewrite <- EC in E, H. rewrite E in O.
    apply app_inv_head in O. subst n'. unfold Inv34. rewrite E. destruct H as [(H1 & H2)|(m & ci & mi & H1 & H2 & H3 & H4)].
    + rewrite H2. split; [|split; auto].
      * intros ci e X. destruct (A _ _ X) as (mi & pid & Y & Z). eauto 6.
      * intros m ci mi I R. apply in_app_iff in I. destruct I as [I|I]; auto. rewrite Forall_forall in H1. rewrite H1 in R by auto. discriminate.
    + rewrite H4. split; [|split].
      * intros c e X. rewrite zget_zdel in X by auto. destruct (c =? ci); [discriminate|]. destruct (A _ _ X) as (mi' & pid & Y & Z). eauto 6.
      * intros m' c mi' I R. apply in_app_iff in I. destruct I as [I|I]; auto. subst new. destruct I as [<-|[]].
        rewrite H3 in R. injection R as <- <-. destruct (A _ _ H2) as (mi' & pid & Y & Z). injection Y as <- <-. auto.
      * apply NoDup_zdel; auto.
  - unfold Inv34. rewrite EC. split; [|split; auto]; intros.
    + destruct (A _ _ H) as (mi & pid & Y & Z). exists mi, pid. split; auto. apply (seen_more y y') with []; auto. rewrite app_nil_r; auto.
    + apply (seen_more y y') with []; auto. rewrite app_nil_r; auto.
  - unfold Inv34. rewrite EC. split; [|split; auto]; intros.
    + destruct (A _ _ H) as (mi & pid & Y & Z). exists mi, pid. split; auto. apply (seen_more y y') with []; auto. rewrite app_nil_r; auto.
    + apply (seen_more y y') with []; auto. rewrite app_nil_r; auto.
  - unfold Inv34. rewrite EC. split; [|split; auto]; intros.
    + destruct (A _ _ H) as (mi & pid & Y & Z). exists mi, pid. split; auto. apply (seen_more y y') with []; auto. rewrite app_nil_r; auto.
    + apply (seen_more y y') with []; auto. rewrite app_nil_r; auto.
  - assert (SM : forall ci mi pid, seen y ci mi pid -> seen y' ci mi pid) by (intros; eapply seen_more; eauto).
    destruct (client_recv_responses k (y_c y) (arriving m)) as (n' & E & H). rewrite <- EC in E. rewrite E in O.
    apply app_inv_head in O. subst n'. unfold Inv34. rewrite E.
    pose proof (client_recv_events k (y_c y) (arriving m)) as EV. rewrite <- EC in EV. rewrite body_arriving in EV.
    assert (NEW : forall ci mi, call_of (o_body m) = Some (ci, mi) -> ci <> -100 -> seen y' ci mi (o_pid (arriving m))).
    { intros ci mi X Y. exists m. rewrite D1, in_app_iff. cbn. auto. }
    split; [|split].
    + intros ci e X. rewrite EV in X. destruct (o_body m); try (destruct (A _ _ X) as (mi' & pid & Y & Z); eauto 6; fail).
      all: destruct (Z.eqb_spec ci0 (-100)); [destruct (A _ _ X) as (mi' & pid & Y & Z); eauto 6|].
      all: rewrite zget_zset in X; destruct (Z.eqb_spec ci ci0) as [->|]; [|destruct (A _ _ X) as (mi' & pid & Y & Z); eauto 6].
      all: injection X as <-; eexists; eexists; split; [reflexivity|]; apply NEW; auto.
    + intros m' ci mi I R. apply in_app_iff in I. destruct I as [I|I]; auto.
      rewrite Forall_forall in H. rewrite H in R by auto. discriminate.
    + rewrite EV. destruct (o_body m); auto. all: destruct (_ =? -100); auto; apply NoDup_zset; auto.
Qed.
Lemma C34_matches : forall rpid mn mx cfg session private l,
  let y := run (sys_init rpid mn mx cfg session private) l in
  forall m ci mi, In m (p_out (y_c y)) -> response_of (o_body m) = Some (ci, mi) ->
  exists m', In m' (sdone y) /\ call_of (o_body m') = Some (ci, mi) /\ o_pid (arriving m') = o_pid m /\ ci <> -100.
Proof.
  intros rpid mn mx cfg session private l.
  destruct (sys_ind Inv34 _ (sane_init rpid mn mx cfg session private)) with (l := l) as [_ (_ & H & _)]; [| |exact H].
  - repeat split; try easy. constructor.
  - apply Inv34_step.
Qed.

(** At most one response to a call. *)
Definition call_ids (l : list omsg) : list Z :=
  flat_map (fun m => match call_of (o_body m) with Some (ci, _) => if ci =? -100 then [] else [ci] | None => [] end) l.
Lemma call_ids_app : forall a b, call_ids (a ++ b) = call_ids a ++ call_ids b.
Proof. intros. apply flat_map_app. Qed.
Lemma response_ids_app : forall a b, response_ids (a ++ b) = response_ids a ++ response_ids b.
Proof. intros. apply flat_map_app. Qed.
Lemma call_ids_none : forall l, Forall (fun m => call_of (o_body m) = None) l -> call_ids l = [].
Proof. induction 1 as [|m l H _ IH]; auto. cbn. rewrite H. auto. Qed.
Lemma response_ids_none : forall l, Forall (fun m => response_of (o_body m) = None) l -> response_ids l = [].
Proof. induction 1 as [|m l H _ IH]; auto. cbn. rewrite H. auto. Qed.
Lemma seen_ids : forall y ci mi pid, seen y ci mi pid -> In ci (call_ids (sdone y)).
Proof.
  intros y ci mi pid (m & I & C & _ & N). unfold call_ids. apply in_flat_map. exists m. split; auto. rewrite C.
  destruct (Z.eqb_spec ci (-100)); [contradiction|]. left; auto.
Qed.
Definition InvU (y : sys) : Prop :=
  NoDup (zkeys (p_events (y_c y)) ++ response_ids (p_out (y_c y)))
  /\ NoDup (call_ids (p_out (y_s y))) /\ (forall i, In i (call_ids (p_out (y_s y))) -> i < p_ci (y_s y))
  /\ 1 <= p_ci (y_s y).
Lemma InvU_act : forall y a, sane y -> no_connect a -> Inv34 y -> InvU y -> InvU (act y a).
Proof.
  intros y a S NC V (A & B & C & P).
  assert (KN : forall i, In i (zkeys (p_events (y_c y)) ++ response_ids (p_out (y_c y))) -> In i (call_ids (sdone y))).
  { intros i I. destruct V as (V1 & V2 & _). apply in_app_iff in I. destruct I as [I|I].
    - apply zget_In' in I. destruct I as [e E]. destruct (V1 _ _ E) as (mi & pid & _ & X). eapply seen_ids; eauto.
    - apply in_flat_map in I. destruct I as (m & I & J). destruct (response_of (o_body m)) as [[ci mi]|] eqn:R; [|destruct J].
      destruct J as [<-|[]]. eapply seen_ids; eauto. }
  unfold InvU. destruct a as [o|o|k|k| |k]; cbn [act].
  - cbn [y_c y_s]. split; [|auto].
    destruct (client_responses (y_c y) o) as (new & E & H). cbv zeta in E, H.
    rewrite E, response_ids_app. destruct H as [(H1 & H2)|(m & ci & mi & H1 & H2 & H3 & H4)].
    + rewrite H2, (response_ids_none _ H1), app_nil_r. auto.
    + subst new. cbn. rewrite H3, H4. cbn.
      eapply Permutation_NoDup; [|exact A]. rewrite (zkeys_zdel_perm _ ci (p_events (y_c y))) by (apply zget_In; congruence).
      cbn [app]. rewrite app_assoc. apply Permutation_cons_append.
  - cbn [y_c y_s]. split; [auto|].
    assert (N : o <> SConnect) by (intros ->; apply NC; auto).
    destruct (server_calls (y_s y) o N) as (new & E & L & H). cbv zeta in E, L, H. rewrite E, call_ids_app.
    destruct H as [H|(m & ci & mi & -> & H & K)].
    + rewrite (call_ids_none _ H), app_nil_r. split; auto. split; [|lia]. intros i I. apply C in I. lia.
    + assert (CI : call_ids [m] = if ci =? -100 then [] else [ci]) by (cbn; rewrite H; destruct (ci =? -100); auto).
      rewrite CI. destruct (Z.eqb_spec ci (-100)) as [Z|Z].
      * rewrite !app_nil_r. split; auto. split; [|lia]. intros i I. apply C in I. lia.
      * destruct K as [K|[K1 K2]]; [contradiction|]. split; [|split; [|lia]].
        -- apply NoDup_app_single; auto. intros I. apply C in I. lia.
        -- intros i I. apply in_app_iff in I. destruct I as [I|[<-|[]]]; [apply C in I; lia|lia].
  - cbn [y_c y_s]. rewrite receive_out. split; auto. split; auto.
    unfold server_receive. destruct (ps_is (p_state (y_s y)) BeforeOpen); auto.
  - cbn. auto.
  - destruct (Nat.ltb_spec (y_cd y) (y_ca y)); auto. destruct (nth_error (p_out (y_c y)) (y_cd y)) as [m|]; auto.
    cbn [y_c y_s]. split; [auto|]. rewrite server_recv_ci.
    destruct (server_recv_calls (y_s y) (arriving m)) as (new & E & H0). rewrite E, call_ids_app, (call_ids_none _ H0), app_nil_r. auto.
  - destruct (Nat.ltb_spec (y_sd y) (y_sa y)); auto. destruct (nth_error (p_out (y_s y)) (y_sd y)) as [m|] eqn:NE; auto.
    cbn [y_c y_s]. split; [|auto].
    destruct (client_recv_responses k (y_c y) (arriving m)) as (new & E & H0). rewrite E, response_ids_app, (response_ids_none _ H0), app_nil_r.
    rewrite (client_recv_events k (y_c y) (arriving m)), body_arriving.
    assert (FR : forall ci mi, call_of (o_body m) = Some (ci, mi) -> ci <> -100 -> ~ In ci (call_ids (sdone y))).
    { intros ci mi X Y I. rewrite sdone_sway in B. destruct (next_split _ _ _ _ NE) as [_ E2]. unfold sway in B. rewrite E2, call_ids_app in B.
      unfold call_ids at 2 in B. cbn [flat_map] in B. rewrite X in B. destruct (Z.eqb_spec ci (-100)); [contradiction|]. cbn [app] in B.
      apply NoDup_remove_2 in B. apply B. apply in_or_app. auto. }
    assert (ADD : forall ci v, ~ In ci (call_ids (sdone y)) ->
      NoDup (zkeys (zset ci v (p_events (y_c y))) ++ response_ids (p_out (y_c y)))).
    { intros ci v N. assert (N' : ~ In ci (zkeys (p_events (y_c y)) ++ response_ids (p_out (y_c y)))) by (intros I; apply N, KN, I).
      rewrite zkeys_zset_new by (intros I; apply N', in_or_app; auto). rewrite <- app_assoc. cbn [app].
      eapply Permutation_NoDup; [apply Permutation_middle|]. constructor; auto. }
    destruct (o_body m); auto.
    all: destruct (Z.eqb_spec ci (-100)); auto; apply ADD; eapply FR; eauto; reflexivity.
Qed.
Lemma C34_once : forall rpid mn mx cfg session private l, Forall no_connect l ->
  NoDup (response_ids (p_out (y_c (run (sys_init rpid mn mx cfg session private) l)))).
Proof.
  intros rpid mn mx cfg session private l N.
  assert (X : forall l y, Forall no_connect l -> sane y -> Inv34 y -> InvU y -> InvU (run y l)).
  { clear. intros l. induction l as [|a l IH]; intros y N S V U; cbn; auto. inversion N; subst.
    destruct (act_step y a S) as [S' ST]. apply IH; auto; [exact (Inv34_step _ _ S ST V)|apply InvU_act; auto]. }
  destruct (X l (sys_init rpid mn mx cfg session private)) as [U _]; auto.
  - apply sane_init.
  - repeat split; try easy. constructor.
  - unfold InvU. cbn. repeat split; try constructor; try easy.
  - eapply NoDup_app_r; eauto.
Qed.
