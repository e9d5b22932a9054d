(** C35: the key exchange. *)
From Verif Require Import Base BaseFacts Model_Scalars Model_Transport Model_Command Model_Host Model_Pool Spec_Pool Spec_Sys
  Proofs_Pool Proofs_Pool2 Proofs_Pool3 Proofs_Sys Proofs_Sys3 Proofs_Sys4.

Lemma count_app : forall f a b, count f (a ++ b) = (count f a + count f b)%nat.
Proof. intros. unfold count. rewrite filter_app, app_length. auto. Qed.
Lemma count_zero : forall f l m, count f l = 0%nat -> In m l -> f (o_body m) = false.
Proof.
  intros f l m H I. destruct (f (o_body m)) eqn:E; auto. unfold count in H. apply length_zero_iff_nil in H.
  assert (X : In m (filter (fun m => f (o_body m)) l)) by (apply filter_In; auto). rewrite H in X. destruct X.
Qed.

(** What a client step does to the key exchange. *)
Definition key_step (p p' : pool) (new : list omsg) : Prop :=
  (count is_public_key new = 0%nat /\ p_keyreq p' = p_keyreq p /\ p_xkey p' = p_xkey p)
  \/ (exists m k, new = [m] /\ o_body m = MPublicKey (Some k) /\ p_keyreq p = false /\ p_keyreq p' = true /\ p_xkey p' = Some k).
Ltac keys := first [ left; repeat split; reflexivity
                   | right; eexists; eexists; split; [reflexivity|]; split; [reflexivity|]; auto ].
Lemma client_key_op : forall p o, let p' := fst (client_step p o) in
  exists new, p_out p' = p_out p ++ new /\ key_step p p' new /\ p_key p' = p_key p.
Proof.
  intros p o. popen p; destruct o; unf; pstep; splitm; newm; (split; [|reflexivity]); unfold key_step; cbn; keys.
Qed.
Lemma client_key_recv : forall k p m, let p' := fst (client_process k p m) in
  exists new, p_out p' = p_out p ++ new /\ key_step p p' new
  /\ p_key p' = match o_body m with
                | MEncryptedSessionKey pub key =>
                  match p_xkey p with Some x => if (x =? pub)%N then Some key else p_key p | None => p_key p end
                | _ => p_key p
                end.
Proof.
  intros k p m. unfold client_process. popen p.
  destruct m as [oid mrpid mpid mstream []]; cbn [o_body o_pid o_rpid o_stream] in *; unf; pstep; splitm; newm; (split; [|reflexivity]); unfold key_step; cbn; keys.
Qed.
Lemma server_key_op : forall p o, let p' := fst (server_step p o) in
  exists new, p_out p' = p_out p ++ new /\ p_session p' = p_session p /\ p_key p' = p_key p
  /\ count is_session_key new = 0%nat
  /\ ((count is_key_request new = 0%nat /\ p_keyreq p' = p_keyreq p)
      \/ (count is_key_request new = 1%nat /\ p_keyreq p = false /\ p_keyreq p' = true)).
Proof.
  intros p o. popen p; destruct o; unf; pstep; splitm; pairs; newm; cbn; auto 8.
Qed.
Lemma server_key_recv : forall p m, let p' := fst (server_process p m) in
  exists new, p_out p' = p_out p ++ new /\ p_session p' = p_session p /\ p_key p' = p_key p
  /\ count is_key_request new = 0%nat /\ (p_keyreq p = true -> p_keyreq p' = true)
  /\ match o_body m with
     | MPublicKey (Some k) => exists m', new = [m'] /\ o_body m' = MEncryptedSessionKey k (p_session p)
     | _ => count is_session_key new = 0%nat
     end.
Proof.
  intros p m. unfold server_process. popen p. destruct m as [oid mrpid mpid mstream []]; destruct priv as [pr|pr];
    cbn -[zset]; unf; pcomp; splitm; newm; cbn; eauto 10.
Qed.

(** The client's side of the invariant. *)
Definition ckey (p : pool) : Prop :=
  (p_keyreq p = false /\ count is_public_key (p_out p) = 0%nat)
  \/ (p_keyreq p = true /\ count is_public_key (p_out p) = 1%nat
      /\ exists k, p_xkey p = Some k /\ forall m x, In m (p_out p) -> o_body m = MPublicKey x -> x = Some k).
Lemma ckey_step : forall p p' new, p_out p' = p_out p ++ new -> key_step p p' new -> ckey p -> ckey p'.
Proof.
  intros p p' new E K V. unfold ckey in *. rewrite E, count_app.
  destruct K as [(K1 & K2 & K3)|(m & k & K1 & K2 & K3 & K4 & K5)].
  - rewrite K1, K2, K3, Nat.add_0_r. destruct V as [V|(V1 & V2 & k & V3 & V4)]; auto. right. split; auto. split; auto.
    exists k. split; auto. intros m x I B. apply in_app_iff in I. destruct I as [I|I]; eauto.
    apply (count_zero _ _ _ K1) in I. rewrite B in I. discriminate.
  - right. subst new. destruct V as [(V1 & V2)|(V1 & _)]; [|congruence]. split; auto. split.
    + rewrite V2. unfold count. cbn. rewrite K2. auto.
    + exists k. split; auto. intros m' x I B. apply in_app_iff in I. destruct I as [I|[<-|[]]].
      * apply (count_zero _ _ _ V2) in I. rewrite B in I. discriminate.
      * congruence.
Qed.
Lemma C35_client : forall rpid mn mx cfg l,
  (count is_public_key (p_out (fst (client_run (client_init rpid mn mx cfg) l))) <= 1)%nat.
Proof.
  intros rpid mn mx cfg l.
  assert (X : ckey (fst (client_run (client_init rpid mn mx cfg) l))).
  { induction l as [|a t IH]; cbn [client_run]; [left; auto|]. destruct (client_run _ t) as [p h]. destruct a as [o|m k]; cbn in *.
    - destruct (client_key_op p o) as (new & E & K & _). eapply ckey_step; eauto.
    - destruct (client_key_recv k p m) as (new & E & K & _). eapply ckey_step; eauto. }
  destruct X as [[_ ->]|(_ & -> & _)]; lia.
Qed.
Lemma C35_server : forall session private l,
  (count is_key_request (p_out (fst (server_run (server_init session private) l))) <= 1)%nat.
Proof.
  intros session private l.
  assert (X : let p := fst (server_run (server_init session private) l) in
    (count is_key_request (p_out p) <= 1)%nat /\ (count is_key_request (p_out p) = 1%nat -> p_keyreq p = true)).
  { cbv zeta. induction l as [|a t IH]; cbn [server_run]; [cbn; split; auto; discriminate|]. destruct (server_run _ t) as [p h].
    destruct a as [o|m|]; cbn in *.
    - destruct (server_key_op p o) as (new & E & _ & _ & _ & K). cbv zeta in *. rewrite E, count_app. destruct IH as [I1 I2].
      destruct K as [(-> & ->)|(-> & K1 & ->)].
      + rewrite Nat.add_0_r. auto.
      + destruct (count is_key_request (p_out p)) as [|[|]]; try lia. rewrite I2 in K1; [discriminate|auto].
    - destruct (server_key_recv p m) as (new & E & _ & _ & K & KR & _). cbv zeta in *. rewrite E, count_app, K, Nat.add_0_r.
      destruct IH. auto.
    - rewrite receive_out. unfold server_receive. destruct (ps_is _ _); auto. }
  apply X.
Qed.

(** Both together. *)
Definition Inv35 (session : N) (y : sys) : Prop :=
  ckey (y_c y)
  /\ p_session (y_s y) = session /\ p_key (y_s y) = Some session
  /\ (forall m pub key, In m (p_out (y_s y)) -> o_body m = MEncryptedSessionKey pub key ->
      key = session /\ exists m', In m' (cdone y) /\ o_body m' = MPublicKey (Some pub))
  /\ count is_session_key (p_out (y_s y)) = count is_public_key (cdone y)
  /\ (p_key (y_c y) = Some session \/ (p_key (y_c y) = None /\ count is_session_key (sdone y) = 0%nat)).
Lemma Inv35_step : forall session y y', sane y -> sys_step y y' -> Inv35 session y -> Inv35 session y'.
Proof.
  intros session y y' S ST (A & B & C & D & E & F).
  destruct ST as [o new EC ES O D1 D2 D3 D4|o new ES EC O D1 D2 D3 D4|EC ES D1 D2 D3 D4|m new EC ES O D1 D2 D3 D4|m k new ES EC O D1 D2 D3 D4].
  - unfold Inv35. rewrite ES, D1, D3. destruct (client_key_op (y_c y) o) as (n' & X & K & L). cbv zeta in *.
    rewrite <- EC in *. rewrite L. split; [eapply ckey_step; eauto|]. auto.
  - unfold Inv35. rewrite EC, D1, D3. destruct (server_key_op (y_s y) o) as (n' & X & K1 & K2 & K3 & _). cbv zeta in *.
    rewrite <- ES in *. rewrite K1, K2, X, count_app, K3, Nat.add_0_r. do 3 (split; auto).
    split; [|auto]. intros m pub key I BB. apply in_app_iff in I. destruct I as [I|I]; eauto.
    apply (count_zero _ _ _ K3) in I. rewrite BB in I. discriminate.
  - unfold Inv35. rewrite EC, D1, D3. destruct ES as [->| ->]; [auto 8|]. rewrite receive_out.
    unfold server_receive. destruct (ps_is _ _); auto 8.
  - unfold Inv35. rewrite EC, D1, D3. destruct (server_key_recv (y_s y) (arriving m)) as (n' & X & K1 & K2 & _ & _ & K3). cbv zeta in *.
    rewrite <- ES in *. rewrite K1, K2, X, !count_app, body_arriving in *. do 3 (split; auto).
    assert (OLD : forall m0 pub key, In m0 (p_out (y_s y)) -> o_body m0 = MEncryptedSessionKey pub key ->
      key = session /\ exists m', In m' (cdone y ++ [m]) /\ o_body m' = MPublicKey (Some pub)).
    { intros m0 pub key I BB. destruct (D _ _ _ I BB) as (Y & m' & Z1 & Z2). split; auto. exists m'. rewrite in_app_iff. auto. }
    assert (PK : count is_public_key [m] = if is_public_key (o_body m) then 1%nat else 0%nat)
      by (unfold count; cbn; destruct (is_public_key (o_body m)); auto).
    rewrite PK, E.
    assert (PLAIN : count is_session_key n' = 0%nat -> forall m0 pub key, In m0 (p_out (y_s y) ++ n') -> o_body m0 = MEncryptedSessionKey pub key ->
      key = session /\ exists m', In m' (cdone y ++ [m]) /\ o_body m' = MPublicKey (Some pub)).
    { intros Z m0 pub key I BB. apply in_app_iff in I. destruct I as [I|I]; eauto. apply (count_zero _ _ _ Z) in I. rewrite BB in I. discriminate. }
    destruct (o_body m) as [| | |[pk|]| | | | | | | | | | | | | | | | | | | | | | | |] eqn:BM.
    all: try (split; [apply PLAIN; auto|]; split; [rewrite K3; reflexivity|]; auto; fail).
    + destruct K3 as (m' & -> & BM'). split; [|split; [|auto]].
      * intros m0 pub key I BB. apply in_app_iff in I. destruct I as [I|[<-|[]]]; eauto.
        rewrite BM' in BB. injection BB as <- <-. split; auto. exists m. rewrite in_app_iff. cbn. auto.
      * unfold count at 2. cbn. rewrite BM'. auto.
    + exfalso. assert (IC : In m (p_out (y_c y))) by (rewrite cdone_cway, D2; apply in_or_app; right; left; auto).
      destruct A as [(_ & A)|(_ & _ & x & _ & A2)].
      * apply (count_zero _ _ _ A) in IC. rewrite BM in IC. discriminate.
      * specialize (A2 _ _ IC BM). discriminate.
  - unfold Inv35. rewrite ES, D1, D3. destruct (client_key_recv k (y_c y) (arriving m)) as (n' & X & K & L). cbv zeta in *.
    rewrite <- EC in *. split; [eapply ckey_step; eauto|]. do 4 (split; auto). rewrite L, count_app, body_arriving.
    assert (SK : count is_session_key [m] = if is_session_key (o_body m) then 1%nat else 0%nat)
      by (unfold count; cbn; destruct (is_session_key (o_body m)); auto).
    rewrite SK. destruct (o_body m) eqn:BM; cbn [is_session_key]; rewrite ?Nat.add_0_r; auto.
    left. assert (IN : In m (p_out (y_s y))) by (rewrite sdone_sway, D2; apply in_or_app; right; left; auto).
    destruct (D _ _ _ IN BM) as (-> & m' & I1 & I2).
    assert (IC : In m' (p_out (y_c y))) by (rewrite cdone_cway; apply in_or_app; auto).
    destruct A as [(_ & A)|(_ & _ & x & A1 & A2)].
    + apply (count_zero _ _ _ A) in IC. rewrite I2 in IC. discriminate.
    + rewrite A1. specialize (A2 _ _ IC I2). injection A2 as ->. rewrite N.eqb_refl. auto.
Qed.

Lemma C35_joined : forall rpid mn mx cfg session private l,
  let y := run (sys_init rpid mn mx cfg session private) l in
  (count is_public_key (p_out (y_c y)) <= 1 /\ count is_session_key (p_out (y_s y)) <= 1)%nat
  /\ p_key (y_s y) = Some session
  /\ (p_key (y_c y) = None \/ p_key (y_c y) = Some session)
  /\ (forall m, In m (sdone y) -> is_session_key (o_body m) = true -> p_key (y_c y) = Some session)
  /\ (forall m pub key, In m (p_out (y_s y)) -> o_body m = MEncryptedSessionKey pub key -> p_xkey (y_c y) = Some pub /\ key = session).
Proof.
  intros rpid mn mx cfg session private l.
  destruct (sys_ind (Inv35 session) _ (sane_init rpid mn mx cfg session private)) with (l := l) as [_ H].
  - unfold Inv35, ckey. cbn. repeat split; auto; contradiction.
  - apply Inv35_step.
  - fold (run (sys_init rpid mn mx cfg session private) l) in H. cbv zeta. set (y := run _ l) in *. clearbody y.
    destruct H as (A & B & C & D & E & F).
    assert (CP : (count is_public_key (p_out (y_c y)) <= 1)%nat) by (destruct A as [[_ ->]|(_ & -> & _)]; lia).
    split; [split; auto|].
    { rewrite E. rewrite cdone_cway, count_app in CP. lia. }
    split; auto. split; [tauto|]. split.
    + intros m I K. destruct F as [F|[_ F]]; auto. apply (count_zero _ _ _ F) in I. congruence.
    + intros m pub key I BM. destruct (D _ _ _ I BM) as (-> & m' & I1 & I2). split; auto.
      assert (IC : In m' (p_out (y_c y))) by (rewrite cdone_cway; apply in_or_app; auto).
      destruct A as [(_ & A)|(_ & _ & x & A1 & A2)].
      * apply (count_zero _ _ _ A) in IC. rewrite I2 in IC. discriminate.
      * specialize (A2 _ _ IC I2). congruence.
Qed.
