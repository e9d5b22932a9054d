(** The system: delivery bookkeeping, and C30. *)
From Verif Require Import Base BaseFacts Model_Scalars Model_Transport Model_Command Model_Host Model_Pool Spec_Pool Spec_Sys
  Proofs_Pool Proofs_Pool2 Proofs_Pool3 Proofs_Sys Proofs_Sys2.

(** ** Delivery *)
Definition sane (y : sys) : Prop :=
  (y_cd y <= y_ca y <= length (p_out (y_c y)) /\ y_sd y <= y_sa y <= length (p_out (y_s y)))%nat.
Lemma skipn_more : forall A (l : list A) n new, (n <= length l)%nat -> skipn n (l ++ new) = skipn n l ++ new.
Proof. intros A l n new H. rewrite skipn_app. replace (n - length l)%nat with 0%nat by lia. auto. Qed.
Lemma firstn_more : forall A (l : list A) n new, (n <= length l)%nat -> firstn n (l ++ new) = firstn n l.
Proof. intros A l n new H. rewrite firstn_app. replace (n - length l)%nat with 0%nat by lia. cbn. apply app_nil_r. Qed.
Lemma next_split : forall A (l : list A) n x, nth_error l n = Some x ->
  firstn (S n) l = firstn n l ++ [x] /\ skipn n l = x :: skipn (S n) l.
Proof.
  intros A l. induction l as [|a l IH]; intros n x H; destruct n; try discriminate.
  - injection H as ->. auto.
  - cbn in H. destruct (IH _ _ H) as [E1 E2]. split; [|exact E2]. change (firstn (S (S n)) (a :: l)) with (a :: firstn (S n) l).
    rewrite E1. reflexivity.
Qed.
Lemma body_arriving : forall m, o_body (arriving m) = o_body m.
Proof. intros [a b [[|]|] d e]; auto. Qed.
Lemma rpid_arriving : forall m, o_rpid (arriving m) = o_rpid m.
Proof. intros [a b [[|]|] d e]; auto. Qed.
Lemma bodies_app : forall a b, bodies (a ++ b) = bodies a ++ bodies b.
Proof. intros. apply map_app. Qed.

(** What one action can do, in terms of what was processed and what is under way. *)
Inductive sys_step (y y' : sys) : Prop :=
| StepClient o new : y_c y' = fst (client_step (y_c y) o) -> y_s y' = y_s y ->
    p_out (y_c y') = p_out (y_c y) ++ new ->
    cdone y' = cdone y -> cway y' = cway y ++ new -> sdone y' = sdone y -> sway y' = sway y -> sys_step y y'
| StepServer o new : y_s y' = fst (server_step (y_s y) o) -> y_c y' = y_c y ->
    p_out (y_s y') = p_out (y_s y) ++ new ->
    cdone y' = cdone y -> cway y' = cway y -> sdone y' = sdone y -> sway y' = sway y ++ new -> sys_step y y'
| StepDeliver : y_c y' = y_c y -> y_s y' = y_s y \/ y_s y' = server_receive (y_s y) ->
    cdone y' = cdone y -> cway y' = cway y -> sdone y' = sdone y -> sway y' = sway y -> sys_step y y'
| StepServerNext m new : y_c y' = y_c y -> y_s y' = fst (server_process (y_s y) (arriving m)) ->
    p_out (y_s y') = p_out (y_s y) ++ new ->
    cdone y' = cdone y ++ [m] -> cway y = m :: cway y' -> sdone y' = sdone y -> sway y' = sway y ++ new -> sys_step y y'
| StepClientNext m k new : y_s y' = y_s y -> y_c y' = fst (client_process k (y_c y) (arriving m)) ->
    p_out (y_c y') = p_out (y_c y) ++ new ->
    sdone y' = sdone y ++ [m] -> sway y = m :: sway y' -> cdone y' = cdone y -> cway y' = cway y ++ new -> sys_step y y'.

Lemma receive_out : forall p, p_out (server_receive p) = p_out p.
Proof. intros p. unfold server_receive. destruct (ps_is _ _); auto. Qed.
Lemma act_step : forall y a, sane y -> sane (act y a) /\ sys_step y (act y a).
Proof.
  intros [c s ca cd sa sd] a [[H1 H2] [H3 H4]]; cbn [y_c y_s y_ca y_cd y_sa y_sd] in *. destruct a; cbn [act y_c y_s y_ca y_cd y_sa y_sd].
  - destruct (client_sends c o) as (new & E & _). cbv zeta in E. split.
    + unfold sane; cbn. rewrite E, app_length. lia.
    + apply (StepClient _ _ o new); auto; unfold cdone, cway, sdone, sway; cbn [y_c y_s y_cd y_sd]; rewrite ?E; auto.
      * apply firstn_more; lia.
      * apply skipn_more; lia.
  - destruct (server_sends s o) as (new & E & _). cbv zeta in E. split.
    + unfold sane; cbn. rewrite E, app_length. lia.
    + apply (StepServer _ _ o new); auto; unfold cdone, cway, sdone, sway; cbn [y_c y_s y_cd y_sd]; rewrite ?E; auto.
      * apply firstn_more; lia.
      * apply skipn_more; lia.
  - split.
    + unfold sane; cbn. rewrite receive_out. lia.
    + apply StepDeliver; unfold cdone, cway, sdone, sway; cbn; rewrite ?receive_out; auto.
  - split.
    + unfold sane; cbn. lia.
    + apply StepDeliver; auto.
  - destruct (Nat.ltb_spec cd ca) as [L|L].
    2: { split; [unfold sane; cbn; lia|]. apply StepDeliver; auto. }
    destruct (nth_error (p_out c) cd) as [m|] eqn:N.
    2: { apply nth_error_None in N. lia. }
    destruct (server_recv_sends s (arriving m)) as (new & E & _). cbv zeta in E.
    destruct (next_split _ _ _ _ N) as [X1 X2]. split.
    + unfold sane; cbn. rewrite E, app_length. lia.
    + apply (StepServerNext _ _ m new); auto; unfold cdone, cway, sdone, sway; cbn [y_c y_s y_cd y_sd]; rewrite ?E; auto.
      * apply firstn_more; lia.
      * apply skipn_more; lia.
  - destruct (Nat.ltb_spec sd sa) as [L|L].
    2: { split; [unfold sane; cbn; lia|]. apply StepDeliver; auto. }
    destruct (nth_error (p_out s) sd) as [m|] eqn:N.
    2: { apply nth_error_None in N. lia. }
    destruct (client_recv_sends fresh c (arriving m)) as (new & E & _). cbv zeta in E.
    destruct (next_split _ _ _ _ N) as [X1 X2]. split.
    + unfold sane; cbn. rewrite E, app_length. lia.
    + apply (StepClientNext _ _ m fresh new); auto; unfold cdone, cway, sdone, sway; cbn [y_c y_s y_cd y_sd]; rewrite ?E; auto.
      * apply firstn_more; lia.
      * apply skipn_more; lia.
Qed.
(** Induction over runs. *)
Lemma sys_ind : forall (I : sys -> Prop) y0,
  sane y0 -> I y0 -> (forall y y', sane y -> sys_step y y' -> I y -> I y') ->
  forall l, sane (fold_left act l y0) /\ I (fold_left act l y0).
Proof.
  intros I y0 S0 I0 ST l. revert y0 S0 I0. induction l as [|a l IH]; intros y0 S0 I0; cbn; auto.
  destruct (act_step y0 a S0) as [S1 ST1]. apply IH; eauto.
Qed.
Lemma sane_init : forall rpid mn mx cfg session private, sane (sys_init rpid mn mx cfg session private).
Proof. intros. unfold sane; cbn. lia. Qed.

(** ** C30 *)
Definition Inv30 (y : sys) : Prop :=
  inv30 (p_handlers (y_c y)) (p_ci (y_c y)) (p_min (y_c y), p_max (y_c y)) (ps_is (p_state (y_c y)) BeforeOpen)
    (bodies (cdone y)) (bodies (cway y)) (p_handlers (y_s y)) (p_events (y_s y)) (p_min (y_s y), p_max (y_s y))
    (bodies (sdone y)) (bodies (sway y)).
Lemma Inv30_init : forall rpid mn mx cfg session private, Inv30 (sys_init rpid mn mx cfg session private).
Proof.
  intros. unfold Inv30. cbn. constructor; cbn; auto; try (constructor; fail); try easy; try contradiction.
  - intros l1 x l2 H. destruct l1; discriminate.
  - intros (b & [] & _).
Qed.
Lemma Inv30_step : forall y y', sane y -> sys_step y y' -> Inv30 y -> Inv30 y'.
Proof.
  intros y y' S ST V. unfold Inv30 in *. destruct ST as [o new EC ES O D1 D2 D3 D4|o new ES EC O D1 D2 D3 D4|EC ES D1 D2 D3 D4|m new EC ES O D1 D2 D3 D4|m k new ES EC O D1 D2 D3 D4].
  - rewrite ES, D1, D2, D3, D4, EC, bodies_app. destruct (client_sends (y_c y) o) as (new' & E & H). cbv zeta in E, H.
    rewrite <- EC in E. rewrite E in O. apply app_inv_head in O. subst new'.
    assert (BK : ps_is (p_state (fst (client_step (y_c y) o))) BeforeOpen = true -> ps_is (p_state (y_c y)) BeforeOpen = true).
    { intros X. apply ps_is_spec in X. apply ps_is_spec. eapply client_state_keep; eauto. }
    assert (LK : ps_is (p_state (y_c y)) BeforeOpen = false ->
      (p_min (fst (client_step (y_c y) o)), p_max (fst (client_step (y_c y) o))) = (p_min (y_c y), p_max (y_c y))).
    { intros X. apply ps_is_false in X. destruct (client_limits_keep (y_c y) o X) as [-> ->]. auto. }
    destruct H as [(H1 & H2 & H3)|[(b & h & H1 & H2 & H3 & H4 & H5)|[(b & c & H1 & H2 & H3 & H4 & H5 & H6 & H7 & H8)|(b & H1 & H2 & H3 & H4 & H5 & H6 & H7)]]].
    + rewrite H2, H3. eapply i30_client_plain; eauto.
    + rewrite H1, H3, H4. apply ps_is_false in H5. rewrite H5 in *. rewrite LK by auto.
      destruct (ps_is (p_state (fst _)) BeforeOpen); [discriminate BK; auto|]. apply i30_client_req; auto.
    + rewrite H1, H4, H5, H6, H7, H8. apply ps_is_spec in H3. rewrite H3 in V. apply i30_client_init; auto.
    + rewrite H1, H3, H4, H7. eapply i30_client_conn; eauto.
  - rewrite EC, D1, D2, D3, D4, ES, bodies_app. destruct (server_sends (y_s y) o) as (new' & E & NB & H). cbv zeta in E, H.
    rewrite <- ES in E. rewrite E in O. apply app_inv_head in O. subst new'.
    destruct H as [(H1 & H2 & H3 & H4 & H5)|(ci & r & ev & H1 & H2 & _ & H4 & H5 & H6)].
    + rewrite H2, H3, H4, H5. apply i30_server_plain; auto.
    + rewrite H1, H4, H5, H6.
      match goal with |- inv30 _ _ _ _ _ _ _ _ ?l _ _ => replace l with (eff (p_handlers (y_s y)) (p_min (y_s y), p_max (y_s y)) (MRunspaceAvailability ci r)) end.
      * eapply i30_server_answer; eauto.
      * cbn. destruct r as [[]| |]; destruct (zget ci (p_handlers (y_s y))) as [[[[] v]|]|]; auto.
  - rewrite EC, D1, D2, D3, D4. destruct ES as [->| ->]; auto. unfold server_receive. destruct (ps_is (p_state (y_s y)) _); auto.
  - rewrite EC, D1, D3, D4, ES, !bodies_app. rewrite D2 in V. cbn [bodies map] in *. fold (bodies (cway y')) in *.
    destruct (server_recv_sends (y_s y) (arriving m)) as (new' & E & NB & H). cbv zeta in E, H.
    rewrite <- ES in E. rewrite E in O. apply app_inv_head in O. subst new'. rewrite body_arriving in H.
    destruct (o_body m) eqn:B.
    all: try (destruct H as (-> & -> & H); cbn [req_of] in H; destruct H as (-> & -> & H);
              first [ apply i30_server_next_plain; [exact V|repeat split|exact H|exact NB]
                    | subst new; cbn [bodies map]; rewrite app_nil_r; eapply i30_server_next_req; [exact V|reflexivity|reflexivity] ]; fail).
    + destruct H as (-> & -> & -> & -> & H). eapply i30_server_next_init; eauto.
    + destruct H as (-> & -> & HM & HX & rest & H & R).
      assert (X : MConnectRunspacePool mn mx = MConnectRunspacePool None None).
      { apply (i_conn _ _ _ _ _ _ _ _ _ _ _ V); auto. left; auto. }
      injection X as -> ->. cbn [or_else] in *. rewrite H, HM, HX.
      apply (i30_server_next_conn _ _ _ _ _ _ _ _ (p_min (y_s y), p_max (y_s y))); auto.
      rewrite H in NB. inversion NB; auto.
  - rewrite ES, D1, D3, D4, EC, !bodies_app. rewrite D2 in V. cbn [bodies map] in *. fold (bodies (sway y')) in *.
    destruct (client_recv_sends k (y_c y) (arriving m)) as (new' & E & PL & BO). cbv zeta in E, PL, BO.
    rewrite <- EC in E. rewrite E in O. apply app_inv_head in O. subst new'. rewrite body_arriving in *.
    pose proof (client_recv_handlers k (y_c y) (arriving m)) as HH. pose proof (client_recv_limits k (y_c y) (arriving m)) as HL.
    rewrite client_recv_ci. rewrite body_arriving in *. rewrite HH.
    match type of HL with ?a = _ => replace a with (eff (p_handlers (y_c y)) (p_min (y_c y), p_max (y_c y)) (o_body m)) end.
    assert (BK : ps_is (p_state (fst (client_process k (y_c y) (arriving m)))) BeforeOpen = true -> ps_is (p_state (y_c y)) BeforeOpen = true).
    { intros X. apply ps_is_spec in X. apply ps_is_spec. destruct (BO X) as [Y|(r & Y)]; auto.
      pose proof (i_nb _ _ _ _ _ _ _ _ _ _ _ V) as NB. rewrite Forall_forall in NB.
      elim (NB (o_body m)) with r; auto. apply in_or_app. right. left. auto. }
    pose proof (i30_client_next _ _ _ _ _ _ _ _ _ _ _ _ _ _ V PL BK) as R.
    destruct (o_body m) eqn:B; try exact R.
    pose proof (i_q _ _ _ _ _ _ _ _ _ _ _ V (MRunspaceAvailability ci r) ci r (or_introl eq_refl) eq_refl) as Z.
    destruct (zget ci (p_handlers (y_c y))); [exact R|congruence].
Qed.

Lemma C30_agree : forall rpid mn mx cfg session private l,
  let y := run (sys_init rpid mn mx cfg session private) l in
  (exists m, In m (cdone y) /\ handshake (o_body m)) ->
  (forall m, In m (cway y) -> ~ handshake (o_body m)) ->
  (forall m, In m (sway y) -> ~ tells_limits (o_body m)) ->
  p_min (y_c y) = p_min (y_s y) /\ p_max (y_c y) = p_max (y_s y).
Proof.
  intros rpid mn mx cfg session private l.
  destruct (sys_ind Inv30 _ (sane_init rpid mn mx cfg session private) (Inv30_init rpid mn mx cfg session private) Inv30_step l) as [_ V].
  change (fold_left act l) with (fun y => run y l) in V. cbn beta in V. cbv zeta. set (y := run _ l) in *. clearbody y.
  intros (m & I & H) N1 N2.
  assert (NH : forall b, In b (bodies (cway y)) -> is_hs b = false).
  { intros b J. apply in_map_iff in J. destruct J as (m' & <- & J). apply N1 in J. destruct (o_body m'); auto; elim J; exact Logic.I. }
  assert (PL : Forall splain (bodies (sway y))).
  { apply Forall_forall. intros b J. apply in_map_iff in J. destruct J as (m' & <- & J). apply N2 in J.
    destruct (o_body m'); split; auto; elim J; exact Logic.I. }
  destruct (i_lim _ _ _ _ _ _ _ _ _ _ _ V) as [_ L].
  - exists (o_body m). split; [apply in_or_app; left; apply in_map; auto|]. destruct (o_body m); auto; destruct H.
  - intros b J. apply NH in J. unfold is_hs in J. apply orb_false_iff in J. apply J.
  - rewrite effs_plain in L by auto. specialize (L (fun b J => proj1 (proj1 (orb_false_iff _ _) (NH b J)))).
    injection L as -> ->. auto.
Qed.
