(** C31: pool states. *)
From Verif Require Import Base BaseFacts Model_Scalars Model_Transport Model_Command Model_Host Model_Pool Spec_Pool Spec_Sys
  Proofs_Pool Proofs_Pool2 Proofs_Pool3 Proofs_Sys Proofs_Sys3.

Lemma last_state_app : forall a b, last_state (a ++ b) = match last_state b with Some s => Some s | None => last_state a end.
Proof. intros a b. induction a as [|m a IH]; cbn; [destruct (last_state b); auto|]. rewrite IH. destruct (last_state b); auto. Qed.
Lemma last_state_In : forall l s, last_state l = Some s -> exists m r, In m l /\ o_body m = MRunspacePoolState s r.
Proof.
  intros l s. induction l as [|m l IH]; cbn; intros H; [discriminate|].
  destruct (last_state l) as [s'|] eqn:E.
  - destruct (IH H) as (m' & r & I & B). eauto.
  - destruct (o_body m) eqn:B; try discriminate. injection H as ->. eauto.
Qed.
Definition loud (s : pool_state) : Prop := s = Opened \/ s = Closing \/ s = Closed \/ s = Broken.
Definition ann_ok (m : omsg) : Prop := forall s r, o_body m = MRunspacePoolState s r -> loud s.
Ltac annp := repeat (apply Forall_cons; [intros ? ? X; try discriminate X; injection X as <- <-; unfold loud; auto|]); try apply Forall_nil.

Definition announces (p p' : pool) (new : list omsg) : Prop :=
  (last_state new = None /\ (p_state p' = p_state p \/ quiet (p_state p'))) \/ last_state new = Some (p_state p').
Lemma server_state_step : forall p o, exists new, p_out (fst (server_step p o)) = p_out p ++ new /\ Forall ann_ok new /\
  (announces p (fst (server_step p o)) new \/ ~ good_broken o).
Proof.
  intros p o. popen p; destruct o; unf; pstep; splitm; try discriminate; pairs; newm; (split; [annp|]); unfold announces, quiet; cbn; auto 7.
  all: try (match goal with H : ps_in _ _ = _ |- _ => discriminate H end).
Qed.
Lemma server_state_recv : forall p m, exists new, p_out (fst (server_process p m)) = p_out p ++ new /\ Forall ann_ok new /\
  announces p (fst (server_process p m)) new.
Proof.
  intros p m. unfold server_process. popen p. destruct m as [oid mrpid mpid mstream []]; destruct priv as [pr|pr];
    cbn -[zset]; unf; pcomp; splitm; newm; (split; [annp|]); unfold announces, quiet; cbn; auto 7.
Qed.
Lemma client_state_recv : forall k p m, p_state (fst (client_process k p m)) =
  match o_body m with
  | MRunspacePoolState s _ => s
  | MApplicationPrivateData _ => if ps_is (p_state p) Connecting then Opened else p_state p
  | _ => p_state p
  end.
Proof. intros k p m. unfold client_process. brutem p m; auto. Qed.
Lemma client_state_op : forall p o, sets_state o = false -> p_state (fst (client_step p o)) = p_state p.
Proof. intros p o. brute p o; intros; auto; discriminate. Qed.

(** One server: the state is the last one announced. *)
Definition tracked (p : pool) : Prop :=
  quiet (p_state p) \/ last_state (p_out p) = Some (p_state p)
  \/ (last_state (p_out p) = None /\ (p_state p = BeforeOpen \/ p_state p = Opening)).
Lemma announces_tracked : forall p p' new, p_out p' = p_out p ++ new -> announces p p' new -> tracked p -> tracked p'.
Proof.
  intros p p' new E A T. unfold tracked in *. rewrite E, last_state_app. destruct A as [[A B]|A]; rewrite A; [|auto].
  destruct B as [B|B]; [rewrite B; auto|auto].
Qed.
Lemma Forall_loud : forall p, Forall ann_ok (p_out p) -> last_state (p_out p) <> Some BeforeOpen.
Proof.
  intros p F H. apply last_state_In in H. destruct H as (m & r & I & B). rewrite Forall_forall in F.
  specialize (F _ I _ _ B). unfold loud in F. intuition discriminate.
Qed.
Lemma receive_tracked : forall p, Forall ann_ok (p_out p) -> tracked p -> tracked (server_receive p).
Proof.
  intros p F T. unfold server_receive. destruct (ps_is (p_state p) BeforeOpen) eqn:E; auto. apply ps_is_spec in E.
  unfold tracked in *. cbn. rewrite E in T. destruct T as [T|[T|[T _]]]; [unfold quiet in T; intuition discriminate| |auto].
  elim (Forall_loud _ F T).
Qed.
Lemma server_tracked : forall session private l, Forall good_act l ->
  let p := fst (server_run (server_init session private) l) in tracked p /\ Forall ann_ok (p_out p).
Proof.
  intros session private l. induction l as [|a t IH]; intros G; cbn [server_run].
  - cbn. split; [right; right; cbn; auto|constructor].
  - inversion G as [|? ? G1 G2]; subst. specialize (IH G2). destruct (server_run _ t) as [p h]. cbn in *. destruct IH as [T F].
    destruct a as [o|m|]; cbn.
    + destruct (server_state_step p o) as (new & E & A & [B|B]); [|contradiction]. split; [eapply announces_tracked; eauto|].
      rewrite E. apply Forall_app; auto.
    + destruct (server_state_recv p m) as (new & E & A & B). split; [eapply announces_tracked; eauto|].
      rewrite E. apply Forall_app; auto.
    + split; [apply receive_tracked; auto|]. rewrite receive_out. auto.
Qed.

(** The system. *)
Definition Inv31 (y : sys) : Prop := Forall ann_ok (p_out (y_s y)).
Lemma Inv31_step : forall y y', sane y -> sys_step y y' -> Inv31 y -> Inv31 y'.
Proof.
  intros y y' S ST V. unfold Inv31 in *. destruct ST as [o new EC ES O D1 D2 D3 D4|o new ES EC O D1 D2 D3 D4|EC ES D1 D2 D3 D4|m new EC ES O D1 D2 D3 D4|m k new ES EC O D1 D2 D3 D4].
  - rewrite ES. auto.
  - rewrite ES. destruct (server_state_step (y_s y) o) as (n' & E & F & _). rewrite E. apply Forall_app; auto.
  - destruct ES as [->| ->]; rewrite ?receive_out; auto.
  - rewrite ES. destruct (server_state_recv (y_s y) (arriving m)) as (n' & E & F & _). rewrite E. apply Forall_app; auto.
  - rewrite ES. auto.
Qed.
Lemma sdone_sway : forall y, p_out (y_s y) = sdone y ++ sway y.
Proof. intros y. unfold sdone, sway. symmetry. apply firstn_skipn. Qed.
Lemma cdone_cway : forall y, p_out (y_c y) = cdone y ++ cway y.
Proof. intros y. unfold cdone, cway. symmetry. apply firstn_skipn. Qed.

(** What the client processed since a moment at which it had processed [n] messages. *)
Lemma tracks : forall l y, sane y -> Inv31 y -> Forall no_client_state_op l ->
  let y' := run y l in
  exists w, sdone y' = sdone y ++ w /\ (last_state w = None \/ last_state w = Some (p_state (y_c y'))).
Proof.
  intros l. induction l as [|a l IH] using rev_ind; intros y S V N; cbv zeta.
  - exists []. rewrite app_nil_r. cbn. auto.
  - apply Forall_app in N. destruct N as [N1 N2]. inversion N2 as [|? ? NA _]; subst.
    destruct (IH y S V N1) as (w & W & L). unfold run. rewrite fold_left_app. cbn [fold_left]. fold (run y l).
    assert (SV : sane (run y l) /\ Inv31 (run y l)) by (apply sys_ind; auto; apply Inv31_step).
    destruct SV as [S1 V1]. set (z := run y l) in *. clearbody z.
    assert (K : forall o, a = AClient o -> p_state (y_c (act z a)) = p_state (y_c z)).
    { intros o ->. cbn. apply client_state_op. auto. }
    destruct (act_step z a S1) as [_ ST]. remember (act z a) as z'.
    destruct a as [o|o|k|k| |k].
    + specialize (K o eq_refl). subst z'. cbn in *. exists w. split; auto. rewrite K. auto.
    + subst z'. exists w. split; auto. cbn [act]. unfold sdone; cbn [y_s y_sd].
      destruct (server_sends (y_s z) o) as (new & E & _). cbv zeta in E. rewrite E, firstn_more; auto. destruct S1. lia.
    + subst z'. exists w. split; auto. cbn [act]. unfold sdone; cbn [y_s y_sd]. rewrite receive_out. auto.
    + subst z'. exists w. split; auto.
    + subst z'. cbn [act] in *. destruct (Nat.ltb_spec (y_cd z) (y_ca z)); [|exists w; auto].
      destruct (nth_error (p_out (y_c z)) (y_cd z)) as [m|]; [|exists w; auto].
      exists w. split; auto. unfold sdone; cbn [y_s y_sd].
      destruct (server_recv_sends (y_s z) (arriving m)) as (new & E & _). cbv zeta in E. rewrite E, firstn_more; auto. destruct S1. lia.
    + subst z'. cbn [act] in *. destruct (Nat.ltb_spec (y_sd z) (y_sa z)); [|exists w; auto].
      destruct (nth_error (p_out (y_s z)) (y_sd z)) as [m|] eqn:NE; [|exists w; auto].
      destruct (next_split _ _ _ _ NE) as [X1 X2]. exists (w ++ [m]). unfold sdone at 1; cbn [y_s y_sd y_c]. split.
      { rewrite X1. fold (sdone z). rewrite W, app_assoc. auto. }
      rewrite last_state_app. cbn [last_state]. rewrite client_state_recv, body_arriving.
      destruct (o_body m) eqn:B; auto.
      destruct (ps_is (p_state (y_c z)) Connecting) eqn:PC; auto. apply ps_is_spec in PC. rewrite PC in L. destruct L as [L|L]; auto.
      exfalso. apply last_state_In in L. destruct L as (m' & r & I & B').
      unfold Inv31 in V1. rewrite sdone_sway, W in V1. rewrite Forall_forall in V1. specialize (V1 m').
      rewrite !in_app_iff in V1. specialize (V1 (or_introl (or_intror I)) _ _ B'). unfold loud in V1. intuition discriminate.
Qed.

Lemma sys_tracked : forall l y, sane y -> Inv31 y -> tracked (y_s y) -> Forall good_action l -> tracked (y_s (run y l)).
Proof.
  intros l. induction l as [|a l IH]; intros y S V T G; cbn; auto. inversion G as [|? ? G1 G2]; subst.
  destruct (act_step y a S) as [S' ST]. apply IH; auto. { exact (Inv31_step _ _ S ST V). }
  destruct a as [o|o|k|k| |k]; cbn [act].
  - auto.
  - destruct (server_state_step (y_s y) o) as (new & E & A & [B|B]); [|contradiction]. eapply announces_tracked; eauto.
  - apply receive_tracked; auto.
  - auto.
  - destruct (Nat.ltb_spec (y_cd y) (y_ca y)); auto. destruct (nth_error (p_out (y_c y)) (y_cd y)) as [m|]; auto.
    cbn. destruct (server_state_recv (y_s y) (arriving m)) as (new & E & A & B). eapply announces_tracked; eauto.
  - destruct (Nat.ltb_spec (y_sd y) (y_sa y)); auto. destruct (nth_error (p_out (y_s y)) (y_sd y)) as [m|]; auto.
Qed.
Lemma sys_init_inv : forall rpid mn mx cfg session private l,
  let y := run (sys_init rpid mn mx cfg session private) l in sane y /\ Inv31 y.
Proof.
  intros. apply sys_ind; [apply sane_init| |apply Inv31_step]. constructor.
Qed.
Lemma C31_tracks : forall rpid mn mx cfg session private l1 l2,
  let y1 := run (sys_init rpid mn mx cfg session private) l1 in
  let y := run y1 l2 in
  Forall no_client_state_op l2 ->
  last_state (skipn (y_sd y1) (sdone y)) <> None -> last_state (sway y) = None ->
  last_state (p_out (y_s y)) = Some (p_state (y_c y)).
Proof.
  intros rpid mn mx cfg session private l1 l2 y1 y N H1 H2.
  destruct (sys_init_inv rpid mn mx cfg session private l1) as [S V]. fold y1 in S, V.
  destruct (tracks l2 y1 S V N) as (w & W & L). fold y in W, L.
  rewrite sdone_sway, last_state_app, H2, W, last_state_app.
  assert (E : skipn (y_sd y1) (sdone y) = w).
  { rewrite W. unfold sdone. rewrite skipn_app, firstn_length, skipn_firstn_comm.
    destruct S as [_ [S1 S2]]. replace (y_sd y1 - y_sd y1)%nat with 0%nat by lia.
    replace (y_sd y1 - Nat.min (y_sd y1) (length (p_out (y_s y1))))%nat with 0%nat by lia. auto. }
  rewrite E in H1. destruct L as [L|L]; [congruence|]. rewrite L. auto.
Qed.
Lemma C31_equal : forall rpid mn mx cfg session private l1 l2,
  let y1 := run (sys_init rpid mn mx cfg session private) l1 in
  let y := run y1 l2 in
  Forall no_client_state_op l2 -> Forall good_action (l1 ++ l2) ->
  last_state (skipn (y_sd y1) (sdone y)) <> None -> last_state (sway y) = None -> ~ quiet (p_state (y_s y)) ->
  p_state (y_c y) = p_state (y_s y).
Proof.
  intros rpid mn mx cfg session private l1 l2 y1 y N G H1 H2 Q.
  pose proof (C31_tracks rpid mn mx cfg session private l1 l2 N H1 H2) as T. cbv zeta in T. fold y1 y in T.
  assert (K : tracked (y_s y)).
  { unfold y, y1. unfold run. rewrite <- fold_left_app. apply sys_tracked; auto.
    - apply sane_init.
    - constructor.
    - right; right. cbn. auto. }
  destruct K as [K|[K|[K _]]]; [contradiction| |]; congruence.
Qed.
