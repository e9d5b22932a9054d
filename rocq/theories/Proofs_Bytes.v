(** Client and server exchanging bytes behave like client and server exchanging messages. *)
From Coq Require Import String.
From Verif Require Import Base BaseFacts Model_Scalars Model_Strings Model_Text Model_Object Model_Clixml Model_Xml Model_Utf8 Model_Messages.
From Verif Require Import Spec_Scalars Spec_Clixml Spec_Xml Spec_Messages Proofs_Clixml1 Proofs_Clixml3 Proofs_Messages.
From Verif Require Import Model_Payload Model_Transport Model_Command Model_Host Model_Pool Model_Bytes Spec_Transport Spec_Pool Spec_Sys Spec_Bytes.
From Verif Require Import Proofs_Conn Proofs_Pool Proofs_Effects Proofs_Effects2.
Local Open Scope list_scope.

(** ** Reading what was written *)
Lemma body_same reg rd h h' R m m' : stable reg rd -> same_graph reg h h' R -> same_message R m m' ->
  body_of rd h' m' = body_of rd h m.
Proof.
  intros HS HG HM. destruct (HS h h' R HG) as [S1 S2]. pose proof (S1 m m' HM) as E1. destruct HM as [E2 E3].
  assert (U : forall v v', same_value R v v' -> unless_none rd h' v' = unless_none rd h v).
  { intros v v' V. unfold unless_none. destruct V; try reflexivity; f_equal; symmetry; apply S2; constructor; auto. }
  destruct m; destruct m'; repeat match goal with o : option value |- _ => destruct o end; try discriminate E2; cbn [skeleton] in E2; cbn [values] in E3; cbn [body_of];
    repeat match goal with
    | E : _ = _ :> message |- _ => injection E; clear E; intros; subst
    | F : Forall2 _ (_ :: _) _ |- _ => inversion F; clear F; subst
    | F : Forall2 _ [] _ |- _ => inversion F; clear F; subst
    end; try reflexivity;
    repeat match goal with V : same_value R ?v ?v' |- _ =>
      first [rewrite (U _ _ V) | rewrite <- (S2 _ _ V) | idtac]; clear V end;
    try reflexivity; try (now rewrite <- E1).
Qed.

Definition data_of (c : concrete) : list N := match encode c with Ok d => d | Err _ => [] end.
Definition cm (real : omsg -> concrete) (m : omsg) : cmsg :=
  mkCM (code (kind (k_msg (real m)))) (data_of (real m)) (o_rpid m) (o_pid m) (o_stream m).

Lemma value_data_head fuel h v d : value_data fuel h v = Ok d -> exists t, d = 60%N :: t.
Proof.
  unfold value_data. intros E. apply bind_Ok in E. destruct E as (r & _ & E). injection E as <-.
  destruct (raw (fst r)) as [n a t k]. cbn [print]. eexists. reflexivity.
Qed.
Lemma encoded_no_bom c d : encode c = Ok d -> without_bom d = d.
Proof.
  unfold encode, message_data. intros E. apply bind_Ok in E. destruct E as (s & _ & E).
  destruct s; [injection E as <-; reflexivity| |]; apply value_data_head in E; destruct E as (t & ->); reflexivity.
Qed.
Lemma kind_of_code_ok m : kind_of_code (code (kind m)) = Some (kind m).
Proof. destruct m; repeat match goal with k : rec_kind |- _ => destruct k | b : bool |- _ => destruct b end; reflexivity. Qed.
Lemma known_code m : known_type (code (kind m)) = true.
Proof. destruct m; repeat match goal with k : rec_kind |- _ => destruct k | b : bool |- _ => destruct b end; reflexivity. Qed.

Section Back.
  Variables (reg : registry) (lx : lexicon) (rd : reading).
  Hypothesis HS : stable reg rd.
  Lemma read_back real m : realised reg lx rd m (real m) -> read_body rd reg (expected (cm real m)) = o_body m.
  Proof.
    intros (HB & HG & HF & HC & HA & HM & HH & (d & HD & _) & _). unfold read_body, expected, cm.
    cbn [r_type r_data c_type c_data]. rewrite kind_of_code_ok. unfold data_of. rewrite HD, (encoded_no_bom _ _ HD).
    destruct (message_roundtrip reg lx (k_heap (real m)) (k_addr (real m)) (k_msg (real m)) (k_fuel (real m)) d)
      as (m' & h' & R & A & B & C); auto.
    rewrite A. rewrite (body_same reg rd _ _ R _ _ HS C B). exact HB.
  Qed.
  Lemma realised_ok real m : realised reg lx rd m (real m) -> cop_ok (CQueue (cm real m)).
  Proof.
    intros (HB & HG & HF & HC & HA & HM & HH & (d & HD & HL) & HR & HP). cbn [cop_ok cm c_type c_rpid c_pid c_data].
    unfold data_of. rewrite HD. auto using known_code.
  Qed.
  Lemma realised_packed client real m : realised reg lx rd m (real m) ->
    packed client real m = [mkQ (o_oid m) (o_pid m) (o_stream m)
      (create_message client (c_type (cm real m)) (c_data (cm real m)) (o_rpid m) (o_pid m)) 0].
  Proof.
    intros (HB & HG & HF & HC & HA & HM & HH & (d & HD & HL) & HR & HP). unfold packed, cm, data_of. cbn [c_type c_data].
    now rewrite HD.
  Qed.
End Back.

(** ** The processing of a message does not look at the object id or the stream *)
Definition seen_as (x : RMsg) (oid : N) (b : body) : omsg := mkO oid (r_rpid x) (r_pid x) SDefault b.
Lemma server_process_seen real p m oid :
  server_process p (seen_as (expected (cm real m)) oid (o_body m)) = server_process p (arriving m).
Proof. destruct m as [o r [[|q]|] s b]; reflexivity. Qed.
Lemma client_process_seen real k p m oid :
  client_process k p (seen_as (expected (cm real m)) oid (o_body m)) = client_process k p (arriving m).
Proof. destruct m as [o r [[|q]|] s b]; reflexivity. Qed.

(** ** The server does not go back to BeforeOpen *)
Lemma server_not_before p a : p_state p <> BeforeOpen -> p_state (server_act_step p a) <> BeforeOpen.
Proof.
  intros N. destruct a as [o|m|]; cbn [server_act_step].
  - destruct o; unf; pstep; splitm; cbn; try congruence.
    all: repeat match goal with A : (_, _) = (_, _) |- _ => injection A; clear A; intros; subst end; cbn; congruence.
  - unfold server_process. destruct (o_body m); unf; pstep; splitm; cbn; congruence.
  - unfold server_receive. destruct (ps_is (p_state p) BeforeOpen); cbn; congruence.
Qed.
Lemma server_receive_idem p : p_state p <> BeforeOpen -> server_receive p = p.
Proof. intros N. unfold server_receive. destruct (ps_is (p_state p) BeforeOpen) eqn:E; [apply ps_is_spec in E; congruence|reflexivity]. Qed.
Lemma server_receive_state p : p_state (server_receive p) <> BeforeOpen.
Proof.
  unfold server_receive. destruct (ps_is (p_state p) BeforeOpen) eqn:E; [cbn; discriminate|].
  intros X. apply ps_is_spec in X. congruence.
Qed.

(** ** One direction *)
Section Direction.
  Variables (client : bool) (real : omsg -> concrete).
  Definition good_entry (m : omsg) : Prop :=
    cop_ok (CQueue (cm real m))
    /\ packed client real m = [mkQ (o_oid m) (o_pid m) (o_stream m)
         (create_message client (c_type (cm real m)) (c_data (cm real m)) (o_rpid m) (o_pid m)) 0].
  Definition dir (p : pool) (q : list QMsg) (w : list Payload) (rx : Receiver) (n k : nat) : Prop :=
    exists cops, Forall cop_ok cops /\ length cops <= k /\ n <= length (p_out p)
      /\ crun client cops = mkC (mkS (p_fc p) q) w rx (map (cm real) (p_out p)) (map expected (map (cm real) (firstn n (p_out p)))) [].

  Lemma queue_all ms : forall s w rx sent got errs, Forall good_entry ms ->
    map o_oid ms = map (fun i => (s_next s + N.of_nat i)%N) (seq 0 (length ms)) ->
    fold_left (cstep client) (map (fun m => CQueue (cm real m)) ms) (mkC s w rx sent got errs)
    = mkC (mkS (s_next s + N.of_nat (length ms)) (s_queue s ++ flat_map (packed client real) ms)) w rx (sent ++ map (cm real) ms) got errs.
  Proof.
    induction ms as [|m ms IH]; intros s w rx sent got errs HF HO.
    - cbn. rewrite !app_nil_r, N.add_0_r. now destruct s.
    - apply Forall_cons_iff in HF. destruct HF as [[HM HP] HF]. cbn [map seq length] in HO. injection HO as HO1 HO2.
      rewrite N.add_0_r in HO1. cbn [map fold_left cstep cn_s cn_wire cn_r cn_sent cn_got cn_errs]. rewrite IH; auto.
      + unfold enqueue. cbn [s_next s_queue flat_map map length]. rewrite HP, <- !app_assoc, HO1. cbn [app].
        replace (s_next s + 1 + N.of_nat (length ms))%N with (s_next s + N.of_nat (S (length ms)))%N by lia. reflexivity.
      + rewrite HO2, <- seq_shift, map_map. apply map_ext. intros i. unfold enqueue. cbn [s_next]. lia.
  Qed.
  Lemma dir_add p p' Q q w rx n k : dir p q w rx n k -> adds Q p p' -> Forall good_entry (p_out p') ->
    dir p' (q ++ flat_map (packed client real) (skipn (length (p_out p)) (p_out p'))) w rx n (k + (length (p_out p') - length (p_out p))).
  Proof.
    intros (cops & H1 & H2 & H3 & H4) (ms & E1 & _ & E2 & E3) HF. rewrite E1 in HF. apply Forall_app in HF. destruct HF as [_ HF].
    exists (cops ++ map (fun m => CQueue (cm real m)) ms). split; [|split; [|split]].
    - apply Forall_app. split; [auto|]. apply Forall_map. eapply Forall_impl; [|exact HF]. intros m [G _]. exact G.
    - rewrite app_length, map_length, E1, app_length. lia.
    - rewrite E1, app_length. lia.
    - rewrite crun_app, H4, queue_all; auto. cbn [s_next s_queue]. rewrite E1, E3, map_app.
      rewrite skipn_app, skipn_all, Nat.sub_diag. cbn [app skipn]. rewrite firstn_app.
      replace (n - length (p_out p)) with 0 by lia. cbn [firstn]. now rewrite app_nil_r.
  Qed.
  Lemma dir_weaken p q w rx n k k' : k <= k' -> dir p q w rx n k -> dir p q w rx n k'.
  Proof. intros L (cops & H1 & H2 & H). exists cops. split; [auto|]. split; [lia|auto]. Qed.
  Lemma dir_pool p p' q w rx n k : p_out p' = p_out p -> p_fc p' = p_fc p -> dir p q w rx n k -> dir p' q w rx n k.
  Proof. unfold dir. intros -> ->. auto. Qed.
  Lemma dir_send p q w rx n k amount s r : dir p q w rx n k -> (N.of_nat (S k) < 2 ^ 64)%N ->
    data_to_send (mkS (p_fc p) q) amount = (s, r) ->
    dir p (s_queue s) (w ++ match r with Ok (Some x) => [x] | _ => [] end) rx n (S k).
  Proof.
    intros (cops & H1 & H2 & H3 & H4) HB E.
    destruct (match amount with Some a => (a <? 22)%Z | None => false end) eqn:Ea.
    - unfold data_to_send in E. rewrite Ea in E. injection E as <- <-. cbn [s_queue]. rewrite app_nil_r.
      exists cops. repeat split; auto.
    - assert (HN : s_next s = p_fc p).
      { unfold data_to_send in E. rewrite Ea in E. destruct (send_loop _ _ _ _ _) as [q' r'].
        injection E as <- <-. reflexivity. }
      assert (HO : Forall cop_ok (cops ++ [CSend amount])).
      { apply Forall_app. split; [auto|]. constructor; [|constructor]. destruct amount as [a|]; cbn; [|exact I].
        apply Z.ltb_ge in Ea. exact Ea. }
      destruct (delivery_lemma client (cops ++ [CSend amount]) HO) as (D1 & _); [rewrite app_length; cbn; lia|].
      exists (cops ++ [CSend amount]). split; [auto|]. split; [rewrite app_length; cbn; lia|]. split; [auto|].
      rewrite crun_app, H4 in *. cbn [fold_left cstep cn_s] in *. rewrite E in *.
      destruct s as [sn sq]. cbn [s_next s_queue] in *. subst sn.
      destruct r as [[x|]|e]; cbn [cn_wire cn_r cn_sent cn_got cn_errs] in *; rewrite ?app_nil_r; [reflexivity|reflexivity|].
      discriminate D1.
  Qed.
  Lemma dir_deliver p q x w rx n k : dir p q (x :: w) rx n k -> dir p q w (receive_data rx (p_data x)) n (S k).
  Proof.
    intros (cops & H1 & H2 & H3 & H4). exists (cops ++ [CDeliver]). split; [apply Forall_app; split; [auto|repeat constructor]|].
    split; [rewrite app_length; cbn; lia|]. split; [auto|]. rewrite crun_app, H4. reflexivity.
  Qed.
  Lemma dir_next p q w rx n k r x : dir p q w rx n k -> (N.of_nat (S k) < 2 ^ 64)%N -> next_message rx = (r, x) ->
    (x = Ok None /\ dir p q w r n (S k))
    \/ exists oid m, nth_error (p_out p) n = Some m /\ x = Ok (Some (oid, expected (cm real m))) /\ dir p q w r (S n) (S k).
  Proof.
    intros (cops & H1 & H2 & H3 & H4) HB E.
    assert (HO : Forall cop_ok (cops ++ [CNext])) by (apply Forall_app; split; [auto|repeat constructor]).
    destruct (delivery_lemma client (cops ++ [CNext]) HO) as (D1 & (rest & D2) & _); [rewrite app_length; cbn; lia|].
    rewrite crun_app, H4 in D1, D2. cbn [fold_left cstep cn_r] in D1, D2. rewrite E in D1, D2.
    destruct x as [[[oid y]|]|e]; cbn [cn_errs cn_got cn_sent] in D1, D2.
    - right. rewrite !map_map in D2.
      assert (L : length (map (fun m => expected (cm real m)) (firstn n (p_out p))) = n) by (rewrite map_length, firstn_length; lia).
      assert (X : nth_error (map (fun m => expected (cm real m)) (p_out p)) n = Some y).
      { rewrite D2, <- app_assoc, nth_error_app2 by (rewrite L; lia). rewrite L, Nat.sub_diag. reflexivity. }
      rewrite nth_error_map in X. destruct (nth_error (p_out p) n) as [m|] eqn:Em; [|discriminate X].
      cbn in X. injection X as X. subst y.
      exists oid, m. split; [reflexivity|]. split; [reflexivity|].
      exists (cops ++ [CNext]). split; [auto|]. split; [rewrite app_length; cbn; lia|].
      assert (n < length (p_out p)) by (apply nth_error_Some; congruence). split; [lia|].
      rewrite crun_app, H4. cbn [fold_left cstep cn_r]. rewrite E. cbn [cn_s cn_wire cn_sent cn_got cn_errs]. f_equal.
      rewrite !map_map. apply nth_error_split in Em. destruct Em as (l1 & l2 & -> & <-).
      rewrite firstn_app, Nat.sub_diag, firstn_all. replace (l1 ++ m :: l2) with ((l1 ++ [m]) ++ l2) by (rewrite <- app_assoc; reflexivity).
      replace (S (length l1)) with (length (l1 ++ [m])) by (rewrite app_length; cbn; lia).
      rewrite firstn_app, Nat.sub_diag, firstn_all. cbn [firstn]. rewrite !app_nil_r, map_app. reflexivity.
    - left. split; [reflexivity|]. exists (cops ++ [CNext]). split; [auto|]. split; [rewrite app_length; cbn; lia|]. split; [auto|].
      rewrite crun_app, H4. cbn [fold_left cstep cn_r]. now rewrite E.
    - discriminate D1.
  Qed.
  Lemma dir_silent p rx n k r : dir p [] [] rx n k -> (N.of_nat k < 2 ^ 64)%N -> next_message rx = (r, Ok None) -> n = length (p_out p).
  Proof.
    intros (cops & H1 & H2 & H3 & H4) HB E.
    destruct (delivery_lemma client cops H1) as (_ & _ & D); [lia|]. rewrite H4 in D. cbn [cn_s s_queue cn_wire cn_r cn_got cn_sent] in D.
    specialize (D eq_refl eq_refl r E). apply (f_equal (@length _)) in D. rewrite !map_length, firstn_length in D. lia.
  Qed.
End Direction.

(** ** Both directions *)
Definition bsize (z : bsys) : nat := length (p_out (e_pool (b_c z))) + length (p_out (e_pool (b_s z))).
Definition in_step (rc rs : omsg -> concrete) (y : sys) (k : nat) (z : bsys) (n m : nat) (l' : list action) : Prop :=
  dir true rc (e_pool (b_c z)) (e_queue (b_c z)) (b_cw z) (e_rx (b_s z)) n k
  /\ dir false rs (e_pool (b_s z)) (e_queue (b_s z)) (b_sw z) (e_rx (b_c z)) m k
  /\ has_meta (e_pool (b_c z))
  /\ (e_rx (b_s z) = receiver_init \/ p_state (e_pool (b_s z)) <> BeforeOpen)
  /\ run y l' = mkSys (e_pool (b_c z)) (e_pool (b_s z)) n n m m.

Lemma run_app y a b : run y (a ++ b) = run (run y a) b.
Proof. apply fold_left_app. Qed.
Lemma min_S n (l : list omsg) m : nth_error l n = Some m -> Nat.min (n + 1) (length l) = S n.
Proof. intros E. assert (n < length l) by (apply nth_error_Some; congruence). lia. Qed.

Section Refine.
  Variables (reg : registry) (lx : lexicon) (rd : reading) (rc rs : omsg -> concrete).
  Hypothesis HS : stable reg rd.
  Let step := bact rd reg rc rs.

  Lemma good_entries client real l : Forall (fun m => realised reg lx rd m (real m)) l -> Forall (good_entry client real) l.
  Proof. apply Forall_impl. intros m H. split; [eapply realised_ok|eapply realised_packed]; eauto. Qed.

  Lemma adds_out Q p p' : adds Q p p' -> exists ms, p_out p' = p_out p ++ ms.
  Proof. intros (ms & E & _). eauto. Qed.

  (** The pools a step leaves behind. *)
  Definition bmoves (z z' : bsys) : Prop :=
    (exists x, p_out (e_pool (b_c z')) = p_out (e_pool (b_c z)) ++ x)
    /\ (exists x, p_out (e_pool (b_s z')) = p_out (e_pool (b_s z)) ++ x).
  Lemma step_moves z a : has_meta (e_pool (b_c z)) -> no_bconnect a ->
    bmoves z (step z a) /\ has_meta (e_pool (b_c (step z a))).
  Proof.
    intros HM HN. unfold bmoves, step. destruct a as [o|o|amount|amount| | | |newkey]; cbn [bact].
    - pose proof (client_adds (e_pool (b_c z)) (COp o) HM) as A. pose proof (proj2 (client_keeps (e_pool (b_c z)) (COp o)) HM) as B.
      cbn [client_act_step go_on b_c b_s e_pool] in *. apply adds_out in A. repeat split; auto. exists []. now rewrite app_nil_r.
    - assert (N : SOp o <> SOp SConnect) by (intros X; apply HN; congruence).
      pose proof (server_adds (e_pool (b_s z)) (SOp o) N) as A. apply adds_out in A. cbn [server_act_step go_on b_c b_s e_pool] in *.
      repeat split; auto. exists []. now rewrite app_nil_r.
    - unfold side_send. destruct (data_to_send _ _) as [s r]. cbn [b_c b_s e_pool]. repeat split; auto; exists []; now rewrite app_nil_r.
    - unfold side_send. destruct (data_to_send _ _) as [s r]. cbn [b_c b_s e_pool]. repeat split; auto; exists []; now rewrite app_nil_r.
    - destruct (b_cw z); cbn [b_c b_s e_pool]; repeat split; auto; exists []; rewrite app_nil_r; auto.
      unfold server_receive. now destruct (ps_is _ _).
    - destruct (b_sw z); cbn [b_c b_s e_pool]; repeat split; auto; exists []; now rewrite app_nil_r.
    - unfold side_next. destruct (next_message (e_rx (b_s z))) as [r [[[oid x]|]|e]]; cbn [b_c b_s e_pool go_on];
        repeat split; auto; try (exists []; now rewrite app_nil_r).
      match goal with |- exists _, p_out (fst (server_process ?p ?m)) = _ =>
        pose proof (server_adds p (SRecv m)) as A end.
      cbn [server_act_step] in A. specialize (A ltac:(discriminate)). apply adds_out in A. exact A.
    - unfold side_next. destruct (next_message (e_rx (b_c z))) as [r [[[oid x]|]|e]]; cbn [b_c b_s e_pool go_on];
        repeat split; auto; try (exists []; now rewrite app_nil_r).
      all: match goal with |- context [client_process ?j ?p ?m] =>
        pose proof (client_adds p (CRecv m j) ltac:(assumption)) as A; pose proof (proj2 (client_keeps p (CRecv m j)) ltac:(assumption)) as B end;
        cbn [client_act_step] in A, B; apply adds_out in A; auto.
  Qed.

  Lemma step_in y k z n m l' a : in_step rc rs y k z n m l' -> no_bconnect a ->
    all_realised reg lx rd rc rs (step z a) -> (N.of_nat (S k) < 2 ^ 64)%N ->
    exists n' m' l'', in_step rc rs y (S k + (bsize (step z a) - bsize z)) (step z a) n' m' (l' ++ l'')
      /\ mirrors a l''.
  Proof.
    intros (D1 & D2 & HM & HR & HY) HN (R1 & R2) HB.
    pose proof (step_moves z a HM HN) as [[[xc MC] [xs MS]] HM'].
    assert (BZ : bsize (step z a) - bsize z = length xc + length xs).
    { unfold bsize. rewrite MC, MS, !app_length. lia. }
    assert (LC : length (p_out (e_pool (b_c (step z a)))) - length (p_out (e_pool (b_c z))) = length xc) by (rewrite MC, app_length; lia).
    assert (LS : length (p_out (e_pool (b_s (step z a)))) - length (p_out (e_pool (b_s z))) = length xs) by (rewrite MS, app_length; lia).
    rewrite BZ. clear BZ. apply (good_entries true) in R1 as G1. apply (good_entries false) in R2 as G2.
    unfold in_step. unfold step in *. destruct a as [o|o|amount|amount| | | |newkey]; cbn [bact] in *.
    - (* client operation *)
      exists n, m, [AClient o]. split; [|reflexivity].
      pose proof (client_adds (e_pool (b_c z)) (COp o) HM) as A. cbn [client_act_step] in A.
      cbn [b_c b_s b_cw b_sw go_on e_pool e_queue e_rx] in *. split; [|split; [|split; [|split]]]; auto.
      + eapply dir_weaken; [|eapply dir_add; [exact D1|exact A|exact G1]]. lia.
      + eapply dir_weaken; [|exact D2]. lia.
      + rewrite run_app, HY. reflexivity.
    - (* server operation *)
      exists n, m, [AServer o]. split; [|reflexivity].
      assert (N : SOp o <> SOp SConnect) by (intros X; apply HN; congruence).
      pose proof (server_adds (e_pool (b_s z)) (SOp o) N) as A. cbn [server_act_step] in A.
      cbn [b_c b_s b_cw b_sw go_on e_pool e_queue e_rx] in *. split; [|split; [|split; [|split]]]; auto.
      + eapply dir_weaken; [|exact D1]. lia.
      + eapply dir_weaken; [|eapply dir_add; [exact D2|exact A|exact G2]]. lia.
      + destruct HR as [HR|HR]; [auto|]. right. apply (server_not_before _ (SOp o) HR).
      + rewrite run_app, HY. reflexivity.
    - (* client sends *)
      exists n, m, []. split; [|constructor]. unfold side_send in *.
      destruct (data_to_send (mkS (p_fc (e_pool (b_c z))) (e_queue (b_c z))) amount) as [s r] eqn:E.
      cbn [b_c b_s b_cw b_sw e_pool e_queue e_rx] in *. split; [|split; [|split; [|split]]]; auto.
      + eapply dir_weaken; [|eapply dir_send; eauto]. lia.
      + eapply dir_weaken; [|exact D2]. lia.
      + now rewrite app_nil_r.
    - (* server sends *)
      exists n, m, []. split; [|constructor]. unfold side_send in *.
      destruct (data_to_send (mkS (p_fc (e_pool (b_s z))) (e_queue (b_s z))) amount) as [s r] eqn:E.
      cbn [b_c b_s b_cw b_sw e_pool e_queue e_rx] in *. split; [|split; [|split; [|split]]]; auto.
      + eapply dir_weaken; [|exact D1]. lia.
      + eapply dir_weaken; [|eapply dir_send; eauto]. lia.
      + now rewrite app_nil_r.
    - (* a payload reaches the server *)
      destruct (b_cw z) as [|x w] eqn:Ew; cbn [b_c b_s b_cw b_sw e_pool e_queue e_rx] in *.
      + exists n, m, []. split; [|constructor]. rewrite Ew, app_nil_r. split; [|split; [|split; [|split]]]; auto.
        * eapply dir_weaken; [|exact D1]. lia.
        * eapply dir_weaken; [|exact D2]. lia.
      + exists n, m, [AToServer 0]. split; [|repeat constructor]. split; [|split; [|split; [|split]]]; auto.
        * eapply dir_weaken; [|eapply dir_deliver; exact D1]. lia.
        * eapply dir_weaken; [|eapply dir_pool; [| |exact D2]]; [lia| |]; unfold server_receive; now destruct (ps_is _ _).
        * right. apply server_receive_state.
        * rewrite run_app, HY. cbn. rewrite Nat.add_0_r. rewrite Nat.min_l; [reflexivity|].
          destruct D1 as (? & _ & _ & L & _). exact L.
    - (* a payload reaches the client *)
      destruct (b_sw z) as [|x w] eqn:Ew; cbn [b_c b_s b_cw b_sw e_pool e_queue e_rx] in *.
      + exists n, m, []. split; [|constructor]. rewrite Ew, app_nil_r. split; [|split; [|split; [|split]]]; auto.
        * eapply dir_weaken; [|exact D1]. lia.
        * eapply dir_weaken; [|exact D2]. lia.
      + exists n, m, []. split; [|constructor]. rewrite app_nil_r. split; [|split; [|split; [|split]]]; auto.
        * eapply dir_weaken; [|exact D1]. lia.
        * eapply dir_weaken; [|eapply dir_deliver; exact D2]. lia.
    - (* next_event of the server *)
      unfold side_next in *. destruct (next_message (e_rx (b_s z))) as [r x] eqn:E.
      destruct (dir_next _ _ _ _ _ _ _ _ _ _ D1 HB E) as [[-> D1']|(oid & om & En & -> & D1')].
      + exists n, m, []. split; [|constructor]. rewrite app_nil_r.
        cbn [b_c b_s b_cw b_sw e_pool e_queue e_rx] in *. split; [|split; [|split; [|split]]]; auto.
        * eapply dir_weaken; [|exact D1']. lia.
        * eapply dir_weaken; [|exact D2]. lia.
        * destruct HR as [HR|HR]; [|auto]. rewrite HR in E. injection E as <-. auto.
      + assert (NB : p_state (e_pool (b_s z)) <> BeforeOpen).
        { destruct HR as [HR|HR]; [|exact HR]. rewrite HR in E. discriminate E. }
        assert (HP : fst (server_process (e_pool (b_s z)) (seen_as (expected (cm rc om)) oid (read_body rd reg (expected (cm rc om)))))
                     = fst (server_process (e_pool (b_s z)) (arriving om))).
        { rewrite (read_back reg lx rd HS).
          - now rewrite server_process_seen.
          - cbn [b_c] in R1. rewrite Forall_forall in R1. apply R1. eapply nth_error_In; eauto. }
        cbn [b_c b_s b_cw b_sw go_on e_pool e_queue e_rx] in *. fold (seen_as (expected (cm rc om)) oid (read_body rd reg (expected (cm rc om)))) in *.
        rewrite HP in *.
        exists (S n), m, [AToServer 1; AServerNext]. split; [|repeat constructor].
        pose proof (server_adds (e_pool (b_s z)) (SRecv (arriving om)) ltac:(discriminate)) as A. cbn [server_act_step] in A.
        split; [|split; [|split; [|split]]]; auto.
        * eapply dir_weaken; [|exact D1']. lia.
        * eapply dir_weaken; [|eapply dir_add; [exact D2|exact A|exact G2]]. lia.
        * right. apply (server_not_before _ (SRecv (arriving om)) NB).
        * rewrite run_app, HY. cbn. rewrite (min_S _ _ _ En), (server_receive_idem _ NB).
          replace (n <=? n) with true by (symmetry; apply Nat.leb_le; lia). rewrite En. reflexivity.
    - (* next_event of the client *)
      unfold side_next in *. destruct (next_message (e_rx (b_c z))) as [r x] eqn:E.
      destruct (dir_next _ _ _ _ _ _ _ _ _ _ D2 HB E) as [[-> D2']|(oid & om & En & -> & D2')].
      + exists n, m, []. split; [|constructor]. rewrite app_nil_r.
        cbn [b_c b_s b_cw b_sw e_pool e_queue e_rx] in *. split; [|split; [|split; [|split]]]; auto.
        * eapply dir_weaken; [|exact D1]. lia.
        * eapply dir_weaken; [|exact D2']. lia.
      + assert (HP : fst (client_process newkey (e_pool (b_c z)) (seen_as (expected (cm rs om)) oid (read_body rd reg (expected (cm rs om)))))
                     = fst (client_process newkey (e_pool (b_c z)) (arriving om))).
        { rewrite (read_back reg lx rd HS).
          - now rewrite client_process_seen.
          - cbn [b_s] in R2. rewrite Forall_forall in R2. apply R2. eapply nth_error_In; eauto. }
        cbn [b_c b_s b_cw b_sw go_on e_pool e_queue e_rx] in *. fold (seen_as (expected (cm rs om)) oid (read_body rd reg (expected (cm rs om)))) in *.
        rewrite HP in *.
        exists n, (S m), [AToClient 1; AClientNext newkey]. split; [|repeat constructor].
        pose proof (client_adds (e_pool (b_c z)) (CRecv (arriving om) newkey) HM) as A. cbn [client_act_step] in A.
        split; [|split; [|split; [|split]]]; auto.
        * eapply dir_weaken; [|eapply dir_add; [exact D1|exact A|exact G1]]. lia.
        * eapply dir_weaken; [|exact D2']. lia.
        * rewrite run_app, HY. cbn. rewrite (min_S _ _ _ En).
          replace (m <=? m) with true by (symmetry; apply Nat.leb_le; lia). rewrite En. reflexivity.
  Qed.

  Variables (rpid : N) (mn mx : Z) (cfg : payload) (session : N) (private : payload).
  Let z0 := bsys_init rpid mn mx cfg session private.
  Let y0 := sys_init rpid mn mx cfg session private.

  Lemma brun_meta l : Forall no_bconnect l -> has_meta (e_pool (b_c (brun rd reg rc rs z0 l))).
  Proof.
    induction l as [|a l IH] using rev_ind; intros F; [constructor|].
    apply Forall_app in F. destruct F as [F Fa]. apply Forall_cons_iff in Fa. destruct Fa as [Fa _].
    unfold brun. rewrite fold_left_app. cbn [fold_left]. apply step_moves; [apply IH; auto|auto].
  Qed.
  Lemma brun_in l : Forall no_bconnect l -> let z := brun rd reg rc rs z0 l in
    all_realised reg lx rd rc rs z -> not_too_long l z ->
    exists n m l', in_step rc rs y0 (length l + bsize z) z n m l' /\ exists ll, l' = concat ll /\ Forall2 mirrors l ll.
  Proof.
    induction l as [|a l IH] using rev_ind; intros F; cbv zeta.
    - intros _ _. exists 0, 0, []. split; [|exists []; split; [reflexivity|constructor]]. cbn [brun fold_left].
      split; [|split; [|split; [|split]]]; try (now constructor); try (now left); try reflexivity;
        exists []; (split; [constructor|split; [cbn; lia|split; [cbn; lia|reflexivity]]]).
    - apply Forall_app in F. destruct F as [F Fa]. apply Forall_cons_iff in Fa. destruct Fa as [Fa _].
      pose proof (brun_meta l F) as HM. unfold brun in *. rewrite fold_left_app. cbn [fold_left].
      set (z := fold_left (bact rd reg rc rs) l z0) in *. intros HA HT.
      pose proof (step_moves z a HM Fa) as [[[xc MC] [xs MS]] _]. fold step in HA, HT |- *.
      assert (BZ : bsize (step z a) = bsize z + length xc + length xs).
      { unfold bsize. rewrite MC, MS, !app_length. lia. }
      assert (HT' : (N.of_nat (length l + 1 + (bsize z + length xc + length xs)) < 2 ^ 64)%N).
      { unfold not_too_long in HT. rewrite app_length in HT. cbn [length] in HT. rewrite <- BZ. unfold bsize.
        rewrite Nat.add_assoc. exact HT. }
      destruct (IH F) as (n & m & l' & HI & ll & HO1 & HO2).
      { destruct HA as [R1 R2]. rewrite MC in R1. rewrite MS in R2. apply Forall_app in R1. apply Forall_app in R2. split; tauto. }
      { unfold not_too_long. fold z. unfold bsize in HT'. lia. }
      destruct (step_in y0 _ z n m l' a HI Fa HA ltac:(lia)) as (n' & m' & l'' & HI' & HO').
      exists n', m', (l' ++ l''). split.
      + replace (length (l ++ [a]) + bsize (step z a)) with (S (length l + bsize z) + (bsize (step z a) - bsize z)); [exact HI'|].
        rewrite app_length. cbn [length]. lia.
      + exists (ll ++ [l'']). split; [rewrite concat_app, HO1; cbn; now rewrite app_nil_r|].
        apply Forall2_app; [exact HO2|]. constructor; [exact HO'|constructor].
  Qed.

  Theorem refines l : Forall no_bconnect l -> let z := brun rd reg rc rs z0 l in
    all_realised reg lx rd rc rs z -> not_too_long l z ->
    exists ll n m, Forall2 mirrors l ll /\ run y0 (concat ll) = mkSys (e_pool (b_c z)) (e_pool (b_s z)) n n m m
      /\ (silent z -> quiescent (run y0 (concat ll))).
  Proof.
    intros F z HA HT. destruct (brun_in l F HA HT) as (n & m & l' & (D1 & D2 & _ & _ & HY) & ll & -> & HO). fold z in D1, D2, HY.
    exists ll, n, m. split; [exact HO|]. split; [exact HY|]. intros (Q1 & Q2 & W1 & W2 & (r & N1) & (r' & N2)).
    rewrite HY. unfold quiescent. cbn [y_cd y_sd y_c y_s]. rewrite Q1, W1 in D1. rewrite Q2, W2 in D2.
    assert (B : (N.of_nat (length l + bsize z) < 2 ^ 64)%N).
    { unfold not_too_long in HT. unfold bsize. rewrite Nat.add_assoc. exact HT. }
    split; [eapply dir_silent; eauto|eapply dir_silent; eauto].
  Qed.
End Refine.

(** Properties of the actions of a run. *)
Lemma mirrors_forall (P : action -> Prop) l ll : Forall2 mirrors l ll -> (forall a, delivery a -> P a) ->
  Forall (fun b => match b with BClient o => P (AClient o) | BServer o => P (AServer o) | _ => True end) l -> Forall P (concat ll).
Proof.
  intros H D. induction H as [|a x l ll Ha _ IH]; intros F; [constructor|]. inversion F; subst. cbn [concat].
  apply Forall_app. split; [|auto].
  destruct a; cbn [mirrors] in Ha; try (eapply Forall_impl; [|exact Ha]; auto); subst x; auto.
Qed.
