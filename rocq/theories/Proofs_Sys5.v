(** C32: the open handshake. *)
From Verif Require Import Base BaseFacts Model_Scalars Model_Transport Model_Command Model_Host Model_Pool Spec_Pool Spec_Sys
  Proofs_Pool Proofs_Pool2 Proofs_Pool3 Proofs_Sys Proofs_Sys3.

Section Handshake.
Variables (rpid : N) (mn mx : Z) (cfg session private : N).
Definition opened : sys := act (sys_init rpid mn mx (Good cfg) session (Good private)) (AClient COpen).
Definition hm1 : omsg := mkO 1 rpid None SDefault (MSessionCapability our_cap).
Definition hm2 : omsg := mkO 2 rpid None SDefault (MInitRunspacePool mn mx cfg).
Definition sv0 (b : bool) : pool :=
  if b then server_receive (server_init session (Good private)) else server_init session (Good private).
Definition ha1 : omsg := mkO 1 0 None SDefault (MSessionCapability our_cap).
Definition ha2 : omsg := mkO 2 rpid None SDefault (MApplicationPrivateData private).
Definition ha3 : omsg := mkO 3 rpid None SDefault (MRunspacePoolState Opened None).
Definition sv1 : pool :=
  mkPool rpid our_cap (Some our_cap) Opening [] [] [] [] 1 2 false (Some session) 0 0 [ha1] (Good private) (Good 0%N) None session.
Definition sv2 : pool :=
  mkPool rpid our_cap (Some our_cap) Opened [] [] [] [] 1 4 false (Some session) mn mx [ha1; ha2; ha3] (Good private) (Good cfg) None session.
Definition cl0 : pool :=
  mkPool rpid our_cap None Opening [] [] [] [] 1 3 false None mn mx [hm1; hm2] (Good 0%N) (Good cfg) None 0.
Definition cl1 : pool :=
  mkPool rpid our_cap (Some our_cap) Opening [] [] [] [] 1 3 false None mn mx [hm1; hm2] (Good 0%N) (Good cfg) None 0.
Definition cl2 : pool :=
  mkPool rpid our_cap (Some our_cap) Opening [] [] [] [] 1 3 false None mn mx [hm1; hm2] (Good private) (Good cfg) None 0.
Definition cl3 : pool :=
  mkPool rpid our_cap (Some our_cap) Opened [] [] [] [] 1 3 false None mn mx [hm1; hm2] (Good private) (Good cfg) None 0.
Lemma sv1_eq : fst (server_process (sv0 true) (arriving hm1)) = sv1. Proof. reflexivity. Qed.
Lemma sv2_eq : fst (server_process sv1 (arriving hm2)) = sv2. Proof. reflexivity. Qed.
Lemma cl0_eq : fst (client_step (client_init rpid mn mx (Good cfg)) COpen) = cl0. Proof. reflexivity. Qed.
Lemma cl1_eq : forall k, fst (client_process k cl0 (arriving ha1)) = cl1. Proof. reflexivity. Qed.
Lemma cl2_eq : forall k, fst (client_process k cl1 (arriving ha2)) = cl2. Proof. reflexivity. Qed.
Lemma cl3_eq : forall k, fst (client_process k cl2 (arriving ha3)) = cl3. Proof. reflexivity. Qed.
Lemma rc_eq : forall b, server_receive (sv0 b) = sv0 true. Proof. intros []; reflexivity. Qed.
Lemma rc1_eq : server_receive sv1 = sv1. Proof. reflexivity. Qed.
Lemma rc2_eq : server_receive sv2 = sv2. Proof. reflexivity. Qed.

(** The states the system can be in. *)
Inductive hstate (y : sys) : Prop :=
| H00 b : y_c y = cl0 -> y_s y = sv0 b -> y_cd y = 0%nat -> y_sd y = 0%nat -> (b = false -> y_ca y = 0%nat) -> hstate y
| H10 : y_c y = cl0 -> y_s y = sv1 -> y_cd y = 1%nat -> y_sd y = 0%nat -> hstate y
| H11 : y_c y = cl1 -> y_s y = sv1 -> y_cd y = 1%nat -> y_sd y = 1%nat -> hstate y
| H20 : y_c y = cl0 -> y_s y = sv2 -> y_cd y = 2%nat -> y_sd y = 0%nat -> hstate y
| H21 : y_c y = cl1 -> y_s y = sv2 -> y_cd y = 2%nat -> y_sd y = 1%nat -> hstate y
| H22 : y_c y = cl2 -> y_s y = sv2 -> y_cd y = 2%nat -> y_sd y = 2%nat -> hstate y
| H23 : y_c y = cl3 -> y_s y = sv2 -> y_cd y = 2%nat -> y_sd y = 3%nat -> hstate y.

Lemma cl_out0 : p_out cl0 = [hm1; hm2]. Proof. reflexivity. Qed.
Lemma cl_out1 : p_out cl1 = [hm1; hm2]. Proof. reflexivity. Qed.
Lemma cl_out2 : p_out cl2 = [hm1; hm2]. Proof. reflexivity. Qed.
Lemma cl_out3 : p_out cl3 = [hm1; hm2]. Proof. reflexivity. Qed.
Lemma sv_out0 : forall b, p_out (sv0 b) = []. Proof. intros []; reflexivity. Qed.
Lemma sv_out1 : p_out sv1 = [ha1]. Proof. reflexivity. Qed.
Lemma sv_out2 : p_out sv2 = [ha1; ha2; ha3]. Proof. reflexivity. Qed.
Lemma h_step : forall y a, delivery a -> sane y -> hstate y -> hstate (act y a).
Proof.
  intros y a D S H. destruct y as [c s ca cd sa sd]. destruct S as [[S1 S2] [S3 S4]].
  destruct H as [b E1 E2 E3 E4 E5|E1 E2 E3 E4|E1 E2 E3 E4|E1 E2 E3 E4|E1 E2 E3 E4|E1 E2 E3 E4|E1 E2 E3 E4];
    cbn [y_c y_s y_ca y_cd y_sa y_sd] in *; subst c s cd sd; destruct a as [o|o|k|k| |k]; try (destruct D; fail); cbn [act y_c y_s y_ca y_cd y_sa y_sd];
    rewrite ?rc_eq, ?rc1_eq, ?rc2_eq;
    rewrite ?cl_out0, ?cl_out1, ?cl_out2, ?cl_out3, ?sv_out0, ?sv_out1, ?sv_out2 in *; cbn [length] in S2, S4.
  - apply (H00 _ true); try reflexivity; discriminate.
  - apply (H00 _ b); try reflexivity; auto.
  - destruct (Nat.ltb_spec 0 ca); [|apply (H00 _ b); try reflexivity; auto]. destruct b; [|rewrite E5 in *; auto; lia].
    cbn [nth_error]. rewrite sv1_eq. apply H10; reflexivity.
  - destruct (Nat.ltb_spec 0 sa); [|apply (H00 _ b); try reflexivity; auto]. lia.
  - apply H10; reflexivity.
  - apply H10; reflexivity.
  - destruct (Nat.ltb_spec 1 ca); [|apply H10; reflexivity]. cbn [nth_error]. rewrite sv2_eq. apply H20; reflexivity.
  - destruct (Nat.ltb_spec 0 sa); [|apply H10; reflexivity]. cbn [nth_error]. rewrite cl1_eq. apply H11; reflexivity.
  - apply H11; reflexivity.
  - apply H11; reflexivity.
  - destruct (Nat.ltb_spec 1 ca); [|apply H11; reflexivity]. cbn [nth_error]. rewrite sv2_eq. apply H21; reflexivity.
  - destruct (Nat.ltb_spec 1 sa); [|apply H11; reflexivity]. lia.
  - apply H20; reflexivity.
  - apply H20; reflexivity.
  - destruct (Nat.ltb_spec 2 ca); [|apply H20; reflexivity]. lia.
  - destruct (Nat.ltb_spec 0 sa); [|apply H20; reflexivity]. cbn [nth_error]. rewrite cl1_eq. apply H21; reflexivity.
  - apply H21; reflexivity.
  - apply H21; reflexivity.
  - destruct (Nat.ltb_spec 2 ca); [|apply H21; reflexivity]. lia.
  - destruct (Nat.ltb_spec 1 sa); [|apply H21; reflexivity]. cbn [nth_error]. rewrite cl2_eq. apply H22; reflexivity.
  - apply H22; reflexivity.
  - apply H22; reflexivity.
  - destruct (Nat.ltb_spec 2 ca); [|apply H22; reflexivity]. lia.
  - destruct (Nat.ltb_spec 2 sa); [|apply H22; reflexivity]. cbn [nth_error]. rewrite cl3_eq. apply H23; reflexivity.
  - apply H23; reflexivity.
  - apply H23; reflexivity.
  - destruct (Nat.ltb_spec 2 ca); [|apply H23; reflexivity]. lia.
  - destruct (Nat.ltb_spec 3 sa); [|apply H23; reflexivity]. lia.
Qed.
Lemma h_run : forall l, Forall delivery l -> sane (run opened l) /\ hstate (run opened l).
Proof.
  assert (S : sane opened) by (unfold sane; cbn; lia).
  assert (H : hstate opened) by (apply (H00 _ false); auto).
  revert S H. generalize opened. intros y S H l. revert y S H.
  induction l as [|a l IH]; intros y S H D; cbn; auto. inversion D; subst.
  destruct (act_step y a S) as [S' _]. apply IH; auto. apply h_step; auto.
Qed.
Lemma h_outcome : forall l, Forall delivery l -> let y := run opened l in quiescent y ->
  p_state (y_c y) = Opened /\ p_state (y_s y) = Opened
  /\ p_rpid (y_s y) = rpid /\ p_rpid (y_c y) = rpid
  /\ (p_min (y_s y), p_max (y_s y)) = (mn, mx) /\ (p_min (y_c y), p_max (y_c y)) = (mn, mx)
  /\ p_their (y_c y) = Some (p_our (y_s y)) /\ p_their (y_s y) = Some (p_our (y_c y))
  /\ p_private (y_c y) = Good private /\ p_config (y_s y) = Good cfg.
Proof.
  intros l D y [Q1 Q2]. destruct (h_run l D) as [S H]. fold y in S, H. clearbody y.
  destruct H as [b E1 E2 E3 E4 E5|E1 E2 E3 E4|E1 E2 E3 E4|E1 E2 E3 E4|E1 E2 E3 E4|E1 E2 E3 E4|E1 E2 E3 E4];
    rewrite E1, E3 in Q1; rewrite E2, E4 in Q2;
    rewrite ?cl_out0, ?cl_out1, ?cl_out2, ?cl_out3, ?sv_out0, ?sv_out1, ?sv_out2 in *; try discriminate.
  rewrite E1, E2. repeat split; reflexivity.
Qed.
(** Processing [n] messages. *)
Lemma drain_server : forall n y, sane y -> let y' := run y (repeat AServerNext n) in
  y_c y' = y_c y /\ y_cd y' = Nat.min (y_cd y + n) (y_ca y).
Proof.
  intros n. induction n as [|n IH]; intros y S; cbn [repeat run fold_left].
  - destruct S as [[] []]. repeat split; auto; lia.
  - destruct (act_step y AServerNext S) as [S' _]. destruct (IH _ S') as [A B]. unfold run in *. rewrite A, B. clear IH A B S'.
    destruct S as [[S1 S2] _]. cbn [act]. destruct (Nat.ltb_spec (y_cd y) (y_ca y)).
    + destruct (nth_error (p_out (y_c y)) (y_cd y)) eqn:N; [cbn [y_c y_cd y_ca]; split; auto; lia|apply nth_error_None in N; lia].
    + split; auto. lia.
Qed.
Lemma drain_client : forall n y, sane y -> let y' := run y (repeat (AClientNext 0) n) in
  y_s y' = y_s y /\ y_cd y' = y_cd y /\ y_sd y' = Nat.min (y_sd y + n) (y_sa y).
Proof.
  intros n. induction n as [|n IH]; intros y S; cbn [repeat run fold_left].
  - destruct S as [[] []]. repeat split; auto; lia.
  - destruct (act_step y (AClientNext 0) S) as [S' _]. destruct (IH _ S') as (A & B & C). unfold run in *. rewrite A, B, C. clear IH A B C S'.
    destruct S as [_ [S1 S2]]. cbn [act]. destruct (Nat.ltb_spec (y_sd y) (y_sa y)).
    + destruct (nth_error (p_out (y_s y)) (y_sd y)) eqn:N; [cbn [y_s y_cd y_sd y_sa]; repeat split; auto; lia|apply nth_error_None in N; lia].
    + repeat split; auto. lia.
Qed.
Lemma run_app : forall y a b, run y (a ++ b) = run (run y a) b.
Proof. intros. apply fold_left_app. Qed.
Lemma cl_len : forall y, hstate y -> length (p_out (y_c y)) = 2%nat.
Proof. intros y [b E|E|E|E|E|E|E]; rewrite E; reflexivity. Qed.
Lemma sv_len : forall y, hstate y -> y_cd y = 2%nat -> length (p_out (y_s y)) = 3%nat.
Proof. intros y [b E F G|E F G|E F G|E F G|E F G|E F G|E F G] X; rewrite F; try reflexivity; congruence. Qed.
Lemma h_progress : forall l, Forall delivery l -> exists l', Forall delivery l' /\ quiescent (run (run opened l) l').
Proof.
  intros l D.
  set (d1 := AToServer 2 :: repeat AServerNext 2). set (d2 := AToClient 3 :: repeat (AClientNext 0) 3).
  assert (DD1 : Forall delivery (l ++ d1)) by (apply Forall_app; split; auto; repeat (constructor; [exact I|]); constructor).
  assert (DD2 : Forall delivery ((l ++ d1) ++ d2)) by (apply Forall_app; split; auto; repeat (constructor; [exact I|]); constructor).
  exists (d1 ++ d2). split. { rewrite <- app_assoc in DD2. apply Forall_app in DD2. apply DD2. }
  destruct (h_run _ D) as [S0 H0]. destruct (h_run _ DD1) as [S1 H1]. destruct (h_run _ DD2) as [S2 H2].
  rewrite run_app in S2, H2. rewrite run_app in S1, H1. rewrite run_app in H2, S2. rewrite run_app.
  set (y := run opened l) in *. clearbody y.
  assert (C1 : y_cd (run y d1) = 2%nat).
  { unfold d1. change (run y (AToServer 2 :: repeat AServerNext 2)) with (run (act y (AToServer 2)) (repeat AServerNext 2)).
    destruct (act_step y (AToServer 2) S0) as [S' _]. destruct (drain_server 2 _ S') as [_ B]. rewrite B.
    pose proof (cl_len _ H0) as L. destruct S0 as [[X Y] _]. cbn [act y_cd y_ca]. rewrite L. lia. }
  pose proof (sv_len _ H1 C1) as L3. set (y1 := run y d1) in *. clearbody y1.
  assert (Q : y_s (run y1 d2) = y_s y1 /\ y_cd (run y1 d2) = 2%nat /\ y_sd (run y1 d2) = 3%nat).
  { unfold d2. change (run y1 (AToClient 3 :: repeat (AClientNext 0) 3)) with (run (act y1 (AToClient 3)) (repeat (AClientNext 0) 3)).
    destruct (act_step y1 (AToClient 3) S1) as [S' _]. destruct (drain_client 3 _ S') as (A & B & C). rewrite A, B, C.
    destruct S1 as [_ [X Y]]. cbn [act y_s y_cd y_sa y_sd]. rewrite L3. repeat split; auto. lia. }
  destruct Q as (Q1 & Q2 & Q3). split.
  - rewrite (cl_len _ H2). auto.
  - rewrite Q1, L3. auto.
Qed.
End Handshake.
