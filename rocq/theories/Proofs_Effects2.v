(** Histories: ids, addresses and directions of all messages, order of the messages of a pipeline. *)
From Verif Require Import Base BaseFacts Model_Scalars Model_Transport Model_Command Model_Host Model_Pool Spec_Pool Spec_Effects
  Proofs_Pool Proofs_Effects.

Definition adds (Q : omsg -> Prop) (p p' : pool) : Prop :=
  exists ms, p_out p' = p_out p ++ ms /\ Forall Q ms /\ map o_oid ms = map (fun i => (p_fc p + N.of_nat i)%N) (seq 0 (length ms))
    /\ p_fc p' = (p_fc p + N.of_nat (length ms))%N.
Lemma adds0 Q p p' : p_out p' = p_out p -> p_fc p' = p_fc p -> adds Q p p'.
Proof. intros E F. exists []. rewrite app_nil_r. repeat split; auto. cbn. lia. Qed.
Lemma adds1 (Q : omsg -> Prop) p p' r pid st b : p_out p' = p_out p ++ [mkO (p_fc p) r pid st b] -> p_fc p' = (p_fc p + 1)%N ->
  Q (mkO (p_fc p) r pid st b) -> adds Q p p'.
Proof. intros E F H. eexists. split; [exact E|]. split; [now constructor|]. split; [cbn; now rewrite N.add_0_r|exact F]. Qed.
Lemma adds2 (Q : omsg -> Prop) p p' r pid st b r' pid' st' b' :
  p_out p' = (p_out p ++ [mkO (p_fc p) r pid st b]) ++ [mkO (p_fc p + 1) r' pid' st' b'] -> p_fc p' = (p_fc p + 1 + 1)%N ->
  Q (mkO (p_fc p) r pid st b) -> Q (mkO (p_fc p + 1) r' pid' st' b') -> adds Q p p'.
Proof.
  intros E F H H'. rewrite <- app_assoc in E. eexists. split; [exact E|]. split; [constructor; [exact H|now constructor]|].
  split; [cbn; now rewrite N.add_0_r|]. rewrite F. cbn [length app]. lia.
Qed.
Lemma adds3 (Q : omsg -> Prop) p p' r1 x1 s1 b1 r2 x2 s2 b2 r3 x3 s3 b3 :
  p_out p' = ((p_out p ++ [mkO (p_fc p) r1 x1 s1 b1]) ++ [mkO (p_fc p + 1) r2 x2 s2 b2]) ++ [mkO (p_fc p + 1 + 1) r3 x3 s3 b3] ->
  p_fc p' = (p_fc p + 1 + 1 + 1)%N ->
  Q (mkO (p_fc p) r1 x1 s1 b1) -> Q (mkO (p_fc p + 1) r2 x2 s2 b2) -> Q (mkO (p_fc p + 1 + 1) r3 x3 s3 b3) -> adds Q p p'.
Proof.
  intros E F H1 H2 H3. rewrite <- !app_assoc in E. eexists. split; [exact E|]. split; [constructor; [exact H1|constructor; [exact H2|now constructor]]|].
  split; [cbn [app map seq length o_oid]; now rewrite N.add_0_r, <- N.add_assoc|]. rewrite F. cbn [length app]. lia.
Qed.
Ltac adding := first [solve [apply adds0; reflexivity] | eapply adds1; [reflexivity|reflexivity|] | eapply adds2; [reflexivity|reflexivity| |]
                     | eapply adds3; [reflexivity|reflexivity| | |]].
(** Sent from this pool, to the right address, on the right stream. *)
Definition proper (r : N) (m : omsg) : Prop :=
  o_rpid m = r /\ addressed m /\ o_stream m = if is_prompt (o_body m) then SPrompt else SDefault.
Definition has_meta (p : pool) : Prop := Forall (fun x => pl_meta x <> None) (p_heap p).
Lemma client_adds p a : has_meta p -> adds (fun m => proper (p_rpid p) m /\ (sends_none a = false -> client_sends (o_body m))) p (client_act_step p a).
Proof.
  intros M. unfold has_meta in M. rewrite Forall_forall in M. destruct a as [o|m k]; cbn [client_act_step sends_none].
  - destruct o; unf; pstep; splitm; adding.
    all: try (split; [split; [reflexivity|split; [cbn; congruence|reflexivity]]|intros E; exact I || discriminate E]).
    all: match goal with A : pl_meta ?x = None, B : nth_error _ _ = Some ?x |- _ => apply nth_error_In in B; elim (M x B A) | _ => idtac end.
  - unfold client_process. destruct (o_body m); unf; pstep; splitm; adding.
    all: split; [split; [reflexivity|split; [cbn; congruence|reflexivity]]|intros E; exact I].
Qed.
Lemma client_keeps p a : p_rpid (client_act_step p a) = p_rpid p /\ (has_meta p -> has_meta (client_act_step p a)).
Proof.
  unfold has_meta. assert (forall h x (l : list pipe), pl_meta x <> None -> Forall (fun x => pl_meta x <> None) l -> Forall (fun x => pl_meta x <> None) (set_nth h x l)) as S.
  { intros h x l Hx H. revert h. induction H as [|y l Hy Hl IH]; intros [|h]; cbn; auto. }
  destruct a as [o|m k]; cbn [client_act_step].
  - destruct o; unf; pstep; splitm; (split; [reflexivity|]); intros H; auto.
    all: try (apply S; [cbn; try discriminate; rewrite Forall_forall in H; eapply H, nth_error_In; eassumption|exact H]).
    apply Forall_app. split; [exact H|]. repeat constructor. discriminate.
  - unfold client_process. destruct (o_body m); unf; pstep; splitm; (split; [reflexivity|]); intros H; auto.
    apply S; [cbn; rewrite Forall_forall in H; eapply H, nth_error_In; eassumption|exact H].
Qed.
Lemma seq_app_ids k n : map (fun i => (1 + N.of_nat i)%N) (seq 0 n) ++ map (fun i => ((1 + N.of_nat n) + N.of_nat i)%N) (seq 0 k)
  = map (fun i => (1 + N.of_nat i)%N) (seq 0 (n + k)).
Proof.
  rewrite seq_app, map_app. f_equal. generalize 0 as s. induction k as [|k IH]; intros s; [reflexivity|].
  cbn [seq map]. f_equal; [lia|]. apply (IH (S s)).
Qed.
Definition numbered_out (p : pool) : Prop :=
  map o_oid (p_out p) = map (fun i => (1 + N.of_nat i)%N) (seq 0 (length (p_out p))) /\ p_fc p = (1 + N.of_nat (length (p_out p)))%N.
Lemma adds_numbered Q p p' : adds Q p p' -> numbered_out p -> numbered_out p'.
Proof.
  intros (ms & E & _ & O & F) [A B]. unfold numbered_out. rewrite E, map_app, A, O, B, app_length, seq_app_ids. split; [reflexivity|].
  rewrite F, B. lia.
Qed.
Lemma client_history rpid mn mx cfg l : let p := fst (client_run (client_init rpid mn mx cfg) l) in
  p_rpid p = rpid /\ has_meta p /\ numbered_out p /\ Forall (proper rpid) (p_out p)
  /\ (existsb sends_none l = false -> Forall (fun m => client_sends (o_body m)) (p_out p)).
Proof.
  induction l as [|a l IH]; cbv zeta in *; cbn [client_run].
  - cbn. repeat split; auto. constructor.
  - destruct (client_run (client_init rpid mn mx cfg) l) as [p h]. cbn [fst] in *. destruct IH as (I1 & I2 & I3 & I4 & I5).
    pose proof (client_adds p a I2) as A. pose proof (client_keeps p a) as [K1 K2].
    split; [congruence|]. split; [auto|]. split; [eapply adds_numbered; eauto|]. destruct A as (ms & E & F & _).
    rewrite E. split.
    + apply Forall_app. split; [exact I4|]. rewrite <- I1. eapply Forall_impl; [|exact F]. cbn. tauto.
    + cbn [existsb]. intros N. apply orb_false_elim in N. destruct N as [N1 N2]. apply Forall_app. split; [auto|].
      eapply Forall_impl; [|exact F]. cbn. tauto.
Qed.
(** Servers: the pool id may change, and connect starts the numbers anew. *)
Lemma server_adds p a : a <> SOp SConnect -> adds (fun m => proper (p_rpid p) m /\ server_sends (o_body m)) p (server_act_step p a).
Proof.
  intros N. destruct a as [o|m|]; cbn [server_act_step].
  - destruct o; try congruence; unf; pstep; splitm; adding.
    all: repeat match goal with A : (_, _) = (_, _) |- _ => injection A; clear A; intros; subst end.
    all: try (adding).
    all: split; [split; [reflexivity|split; [cbn; congruence|reflexivity]]|exact I].
  - unfold server_process. destruct (o_body m); unf; pstep; splitm; adding.
    all: split; [split; [reflexivity|split; [cbn; congruence|reflexivity]]|exact I].
  - unfold server_receive. destruct (ps_is (p_state p) BeforeOpen); adding.
Qed.
Lemma server_history session private l : let p := fst (server_run (server_init session private) l) in
  Forall (fun m => addressed m /\ (o_stream m = if is_prompt (o_body m) then SPrompt else SDefault) /\ server_sends (o_body m)) (p_out p)
  /\ (existsb is_connect l = false -> numbered_out p).
Proof.
  induction l as [|a l IH]; cbv zeta in *; cbn [server_run].
  - cbn. repeat split; auto.
  - destruct (server_run (server_init session private) l) as [p h]. cbn [fst] in *. destruct IH as (I1 & I2).
    assert (a = SOp SConnect \/ a <> SOp SConnect) as [->|N].
    { destruct a as [o| |]; try (right; discriminate). destruct o; try (right; discriminate). now left. }
    + split; [|discriminate]. replace (p_out (server_act_step p (SOp SConnect))) with (p_out p); [exact I1|].
      cbn [server_act_step]. unf. pstep. splitm; first [reflexivity|match goal with A : ps_in Connecting _ = false |- _ => vm_compute in A; discriminate A end].
    + pose proof (server_adds p a N) as A. split.
      * destruct A as (ms & E & F & _). rewrite E. apply Forall_app. split; [exact I1|]. eapply Forall_impl; [|exact F]. unfold proper. cbn. tauto.
      * cbn [existsb]. intros X. apply orb_false_elim in X. destruct X as [_ X]. eapply adds_numbered; eauto.
Qed.

(** ** C53, server *)
Definition state_of (pid : N) (m : omsg) : option pipe_state :=
  match o_body m, o_pid m with MPipelineState s _, Some q => if (q =? pid)%N then Some s else None | _, _ => None end.
Lemma last_pipe_app pid l m : last_pipe_state pid (l ++ [m]) = match state_of pid m with Some s => Some s | None => last_pipe_state pid l end.
Proof.
  unfold state_of. induction l as [|a l IH]; cbn [app last_pipe_state].
  - destruct (o_body m), (o_pid m); try reflexivity; destruct (_ =? _)%N; reflexivity.
  - rewrite IH. destruct (o_body m); try reflexivity; destruct (o_pid m) as [q|]; try reflexivity; destruct (q =? pid)%N; reflexivity.
Qed.
Lemma data_app l m : data_while_running l ->
  (pipe_data (o_body m) = true -> exists pid, o_pid m = Some pid /\ last_pipe_state pid l = Some Running) -> data_while_running (l ++ [m]).
Proof.
  intros D H l1 x l2 E Dx. destruct l2 as [|y l2] using rev_ind.
  - apply app_inj_tail in E. destruct E as [<- <-]. auto.
  - clear IHl2. rewrite app_comm_cons, app_assoc in E. apply app_inj_tail in E. destruct E as [E <-]. eapply D; eauto.
Qed.
Lemma data_quiet l ms : data_while_running l -> Forall (fun m => pipe_data (o_body m) = false) ms -> data_while_running (l ++ ms).
Proof.
  intros D H. induction ms as [|m ms IH] using rev_ind; [now rewrite app_nil_r|]. rewrite app_assoc. apply Forall_app in H. destruct H as [H1 H2].
  apply data_app; [auto|]. inversion H2. congruence.
Qed.
Lemma last_quiet pid l ms : Forall (fun m => state_of pid m = None) ms -> last_pipe_state pid (l ++ ms) = last_pipe_state pid l.
Proof.
  intros H. induction ms as [|m ms IH] using rev_ind; [now rewrite app_nil_r|]. rewrite app_assoc, last_pipe_app.
  apply Forall_app in H. destruct H as [H1 H2]. inversion H2 as [|? ? E]. rewrite E. auto.
Qed.
Definition told (p : pool) (x : pipe) : Prop :=
  match last_pipe_state (pl_pid x) (p_out p) with Some s => s = pl_state x | None => pl_state x = NotStarted end.
Definition J (p : pool) (made : list N) : Prop :=
  map pl_pid (p_heap p) = made /\ Forall (told p) (p_heap p) /\ (forall pid, ~ In pid made -> last_pipe_state pid (p_out p) = None)
  /\ data_while_running (p_out p).
(** Steps that neither speak of pipelines nor change their states. *)
Definition similar (l l' : list pipe) : Prop := Forall2 (fun x y => pl_pid y = pl_pid x /\ pl_state y = pl_state x) l l'.
Lemma similar_refl l : similar l l.
Proof. induction l; constructor; auto. Qed.
Lemma similar_meta h x m l : nth_error l h = Some x -> similar l (set_nth h (with_meta m x) l).
Proof.
  revert h. induction l as [|y l IH]; intros [|h] E; cbn in *; try discriminate.
  - injection E as ->. constructor; [auto|apply similar_refl].
  - constructor; [auto|apply IH, E].
Qed.
Lemma similar_ids l l' : similar l l' -> map pl_pid l' = map pl_pid l.
Proof. intros S. induction S as [|x y l l' [A B] _ IH]; cbn; [reflexivity|]. now rewrite A, IH. Qed.
Lemma similar_told p p' l l' : (forall pid, last_pipe_state pid (p_out p') = last_pipe_state pid (p_out p)) -> similar l l' -> Forall (told p) l -> Forall (told p') l'.
Proof.
  intros L S. induction S as [|x y l l' [A B] _ IH]; intros J2; [constructor|]. inversion J2; subst.
  constructor; [|auto]. unfold told in *. now rewrite A, B, L.
Qed.
Lemma J_quiet p p' made ms : J p made -> p_out p' = p_out p ++ ms -> similar (p_heap p) (p_heap p') ->
  Forall (fun m => of_pipe (o_body m) = false) ms -> J p' made.
Proof.
  intros (J1 & J2 & J3 & J4) E S Q. assert (forall pid, last_pipe_state pid (p_out p') = last_pipe_state pid (p_out p)) as L.
  { intros pid. rewrite E. apply last_quiet. eapply Forall_impl; [|exact Q]. intros m. unfold state_of. cbn beta. destruct (o_body m); cbn; intros H; try reflexivity; discriminate H. }
  split; [|split; [|split]].
  - rewrite <- J1. apply similar_ids, S.
  - eapply similar_told; eauto.
  - intros pid H. now rewrite L, J3.
  - rewrite E. apply data_quiet; [exact J4|]. eapply Forall_impl; [|exact Q]. cbn beta. intros m H. destruct (o_body m); try reflexivity; discriminate H.
Qed.
Ltac quietly :=
  first [ exists []; rewrite app_nil_r; split; [reflexivity|split; [|constructor]]
        | eexists; split; [rewrite <- ?app_assoc; reflexivity|split; [|repeat constructor]] ];
  first [apply similar_refl | eapply similar_meta; eassumption].
Lemma process_quiet p m : exists ms, p_out (fst (server_process p m)) = p_out p ++ ms /\ similar (p_heap p) (p_heap (fst (server_process p m)))
  /\ Forall (fun m => of_pipe (o_body m) = false) ms.
Proof. unfold server_process. destruct (o_body m); unf; pstep; splitm; quietly. Qed.

Lemma told_app p p' x m : p_out p' = p_out p ++ [m] -> state_of (pl_pid x) m = None -> told p x -> told p' x.
Proof. unfold told. intros -> E. rewrite last_pipe_app, E. auto. Qed.
(** One message about pipeline [h], which stays or goes over to [s]. *)
Lemma J_data p p' made x h b r o : J p made -> nth_error (p_heap p) h = Some x -> pl_state x = Running -> p_heap p' = p_heap p ->
  p_out p' = p_out p ++ [mkO o r (Some (pl_pid x)) SDefault b] \/ p_out p' = p_out p ++ [mkO o r (Some (pl_pid x)) SPrompt b] ->
  (forall s w, b <> MPipelineState s w) -> J p' made.
Proof.
  intros (J1 & J2 & J3 & J4) E R H O B. assert (exists st, p_out p' = p_out p ++ [mkO o r (Some (pl_pid x)) st b]) as [st O'] by (destruct O; eauto). clear O.
  assert (forall pid, last_pipe_state pid (p_out p') = last_pipe_state pid (p_out p)) as L.
  { intros pid. rewrite O', last_pipe_app. unfold state_of. cbn. destruct b; try reflexivity. now elim (B s reason). }
  split; [now rewrite H|]. split; [unfold told in *; rewrite H; eapply Forall_impl; [|exact J2]; cbn; intros y; now rewrite L|].
  split; [intros pid N; now rewrite L, J3|]. rewrite O'. apply data_app; [exact J4|]. intros _. exists (pl_pid x). split; [reflexivity|].
  rewrite Forall_forall in J2. specialize (J2 x (nth_error_In _ _ E)). unfold told in J2. destruct (last_pipe_state (pl_pid x) (p_out p)); congruence.
Qed.
Lemma J_state p p' made x h s w r o : J p made -> NoDup made -> nth_error (p_heap p) h = Some x ->
  p_heap p' = set_nth h (with_state s x) (p_heap p) -> p_out p' = p_out p ++ [mkO o r (Some (pl_pid x)) SDefault (MPipelineState s w)] -> J p' made.
Proof.
  intros (J1 & J2 & J3 & J4) ND E H O.
  assert (forall pid, last_pipe_state pid (p_out p') = if (pl_pid x =? pid)%N then Some s else last_pipe_state pid (p_out p)) as L.
  { intros pid. rewrite O, last_pipe_app. unfold state_of. cbn. destruct (pl_pid x =? pid)%N; reflexivity. }
  assert (map pl_pid (set_nth h (with_state s x) (p_heap p)) = made) as M.
  { rewrite <- J1. clear -E. revert h E. induction (p_heap p) as [|y l IH]; intros [|h] E; cbn in *; try discriminate; [now injection E as ->|now rewrite IH]. }
  split; [now rewrite H|]. split; [|split].
  - rewrite H, Forall_forall. intros y Hy. apply In_nth_error in Hy. destruct Hy as [i Hi]. unfold told. rewrite L.
    destruct (Nat.eq_dec i h) as [->|N].
    + rewrite set_nth_same in Hi by congruence. injection Hi as <-. cbn. now rewrite N.eqb_refl.
    + rewrite set_nth_other in Hi by exact N. destruct (N.eqb_spec (pl_pid x) (pl_pid y)) as [P|P].
      * elim N. rewrite <- J1 in ND. rewrite NoDup_nth_error in ND. apply ND; [rewrite map_length; apply nth_error_Some; congruence|].
        rewrite (map_nth_error _ _ _ Hi), (map_nth_error _ _ _ E). congruence.
      * rewrite Forall_forall in J2. exact (J2 y (nth_error_In _ _ Hi)).
  - intros pid N. rewrite L. destruct (N.eqb_spec (pl_pid x) pid) as [<-|_]; [|auto]. elim N. rewrite <- J1. apply in_map. exact (nth_error_In _ _ E).
  - rewrite O. apply data_app; [exact J4|]. discriminate.
Qed.
Lemma J_new p p' made pid y : J p made -> ~ In pid made -> pl_pid y = pid -> pl_state y = NotStarted -> p_heap p' = p_heap p ++ [y] -> p_out p' = p_out p ->
  J p' (made ++ [pid]).
Proof.
  intros (J1 & J2 & J3 & J4) N Y S H O. split; [rewrite H, map_app, J1; cbn; now rewrite Y|]. split; [|split].
  - rewrite H. apply Forall_app. unfold told in *. rewrite O. split; [exact J2|]. constructor; [|constructor]. now rewrite Y, J3.
  - intros q Hq. rewrite O. apply J3. intros I. apply Hq, in_or_app. auto.
  - now rewrite O.
Qed.
Lemma op_J p o made : J p made -> NoDup (made ++ new_ids [SOp o]) -> own_calls (SOp o) -> J (fst (server_step p o)) (made ++ new_ids [SOp o]).
Proof.
  intros HJ ND OC. destruct (match o with SNewPipe pid => Some pid | _ => None end) as [pid|] eqn:NP.
  - destruct o; try discriminate. injection NP as ->. cbn [new_ids flat_map app server_step fst] in *. unfold new_pipe.
    eapply J_new; [exact HJ| | | |reflexivity|reflexivity]; [|reflexivity..].
    apply NoDup_remove_2 in ND. now rewrite app_nil_r in ND.
  - assert (new_ids [SOp o] = []) as X by (destruct o; cbn; congruence). rewrite X, app_nil_r in *.
    destruct o; try discriminate; cbn [own_calls] in OC; try contradiction; unf; pstep; splitm; boolp; subst; try contradiction.
    all: repeat match goal with A : (_, _) = (_, _) |- _ => injection A; clear A; intros; subst end.
    all: try exact HJ.
    all: try solve [eapply J_data; [exact HJ|eassumption|assumption|reflexivity|first [left; reflexivity|right; reflexivity]|discriminate]].
    all: try solve [eapply J_state; [exact HJ|exact ND|eassumption|reflexivity|reflexivity]].
    all: try solve [eapply (J_quiet p _ made []); [exact HJ|symmetry; apply app_nil_r|apply similar_refl|constructor]].
    all: try solve [eapply (J_quiet p _ made); [exact HJ|reflexivity|apply similar_refl|repeat constructor]].
Qed.
Lemma server_ordered session private l : NoDup (new_ids l) -> Forall own_calls l ->
  J (fst (server_run (server_init session private) l)) (rev (new_ids l)).
Proof.
  induction l as [|a l IH]; intros ND OC; cbn [server_run].
  - cbn. split; [reflexivity|]. split; [constructor|]. split; [reflexivity|]. intros [|? ?] m l2 E; discriminate.
  - change (a :: l) with ([a] ++ l) in *. unfold new_ids in ND. rewrite flat_map_app in ND. fold (new_ids [a]) in ND. fold (new_ids l) in ND.
    assert (new_ids ([a] ++ l) = new_ids [a] ++ new_ids l) as N by (unfold new_ids; apply flat_map_app).
    cbn [app] in OC. inversion OC as [|? ? O1 O2]; subst.
    assert (NoDup (new_ids l)) as ND2 by (clear -ND; induction (new_ids [a]); [exact ND|inversion ND; auto]).
    specialize (IH ND2 O2). destruct (server_run (server_init session private) l) as [p h]. cbn [fst] in *.
    rewrite N, rev_app_distr. assert (rev (new_ids [a]) = new_ids [a]) as R by (destruct a as [o| |]; try reflexivity; destruct o; reflexivity).
    rewrite R. destruct a as [o|m|]; cbn [server_act_step].
    + apply op_J; [exact IH| |exact O1]. rewrite <- R, <- rev_app_distr. now apply NoDup_rev.
    + cbn [new_ids flat_map]. rewrite app_nil_r. destruct (process_quiet p m) as (ms & A & B & C). eapply J_quiet; eauto.
    + cbn [new_ids flat_map]. rewrite app_nil_r. apply (J_quiet p _ _ []); [exact IH| | |constructor].
      2: unfold server_receive; destruct (ps_is (p_state p) BeforeOpen); apply similar_refl.
      unfold server_receive; destruct (ps_is (p_state p) BeforeOpen); cbn; now rewrite app_nil_r.
Qed.

(** ** C53, client *)
Lemma asked_app pid l l2 : asked_for pid l -> asked_for pid (l ++ l2).
Proof. intros (m & d & I & A). exists m, d. split; [apply in_or_app; auto|exact A]. Qed.
Lemma asked_new pid l m d : o_pid m = Some pid -> (o_body m = MCreatePipeline d \/ o_body m = MGetCommandMetadata d) -> asked_for pid (l ++ [m]).
Proof. intros P B. exists m, d. split; [apply in_or_app; right; now left|auto]. Qed.
Lemma input_app l m : input_after_creation l ->
  (pipe_input (o_body m) = true -> exists pid, o_pid m = Some pid /\ asked_for pid l) -> input_after_creation (l ++ [m]).
Proof.
  intros D H l1 x l2 E Dx. destruct l2 as [|y l2] using rev_ind.
  - apply app_inj_tail in E. destruct E as [<- <-]. auto.
  - clear IHl2. rewrite app_comm_cons, app_assoc in E. apply app_inj_tail in E. destruct E as [E <-]. eapply D; eauto.
Qed.
Lemma input_apps l ms : input_after_creation l -> Forall (fun m => pipe_input (o_body m) = false) ms -> input_after_creation (l ++ ms).
Proof.
  intros D H. induction ms as [|m ms IH] using rev_ind; [now rewrite app_nil_r|]. rewrite app_assoc. apply Forall_app in H. destruct H as [H1 H2].
  apply input_app; [auto|]. inversion H2. congruence.
Qed.
Definition K (p : pool) : Prop :=
  NoDup (akeys (p_table p)) /\ (forall pid h, aget pid (p_table p) = Some h -> exists x, nth_error (p_heap p) h = Some x /\ pl_pid x = pid)
  /\ (forall h x, nth_error (p_heap p) h = Some x -> pl_state x <> NotStarted -> asked_for (pl_pid x) (p_out p))
  /\ input_after_creation (p_out p).
Lemma K_quiet p p' ms : K p -> p_out p' = p_out p ++ ms -> Forall (fun m => pipe_input (o_body m) = false) ms -> p_heap p' = p_heap p ->
  p_table p' = p_table p -> K p'.
Proof.
  intros (K0 & K1 & K2 & K3) O Q H T. split; [now rewrite T|]. split; [rewrite T, H; exact K1|]. split; [|rewrite O; now apply input_apps].
  rewrite H, O. intros h x E N. eapply asked_app, K2; eauto.
Qed.
Lemma K_input p p' h x m : K p -> nth_error (p_heap p) h = Some x -> pl_state x = Running -> p_out p' = p_out p ++ [m] -> o_pid m = Some (pl_pid x) ->
  p_heap p' = p_heap p -> p_table p' = p_table p -> K p'.
Proof.
  intros (K0 & K1 & K2 & K3) E R O P H T. split; [now rewrite T|]. split; [rewrite T, H; exact K1|]. split.
  - rewrite H, O. intros i y Ey N. eapply asked_app, K2; eauto.
  - rewrite O. apply input_app; [exact K3|]. intros _. exists (pl_pid x). split; [exact P|]. eapply K2; [exact E|congruence].
Qed.
Lemma K_set p p' h x y ms : K p -> nth_error (p_heap p) h = Some x -> p_heap p' = set_nth h y (p_heap p) -> pl_pid y = pl_pid x ->
  p_out p' = p_out p ++ ms -> Forall (fun m => pipe_input (o_body m) = false) ms -> p_table p' = p_table p ->
  (pl_state y <> NotStarted -> pl_state x <> NotStarted \/ asked_for (pl_pid x) (p_out p ++ ms)) -> K p'.
Proof.
  intros (K0 & K1 & K2 & K3) E H P O Q T S. split; [now rewrite T|]. split; [|split].
  - rewrite T, H. intros pid i A. destruct (K1 pid i A) as (z & Ez & Pz). destruct (Nat.eq_dec i h) as [->|N].
    + exists y. rewrite set_nth_same by congruence. split; congruence.
    + exists z. now rewrite set_nth_other.
  - rewrite H, O. intros i z Ez N. destruct (Nat.eq_dec i h) as [->|D].
    + rewrite set_nth_same in Ez by congruence. injection Ez as <-. rewrite P. destruct (S N) as [A|A]; [eapply asked_app, K2; eauto|exact A].
    + rewrite set_nth_other in Ez by exact D. eapply asked_app, K2; eauto.
  - rewrite O. now apply input_apps.
Qed.
Lemma K_new p pid meta kind : K p -> K (new_pipe pid meta kind p).
Proof.
  intros (K0 & K1 & K2 & K3). unfold new_pipe. split; [cbn; now apply NoDup_aset|]. split; [|split].
  - cbn. intros q h. rewrite aget_aset. destruct (N.eqb_spec q pid) as [->|N]; intros A.
    + injection A as <-. rewrite nth_error_app2, Nat.sub_diag by lia. eexists. split; reflexivity.
    + destruct (K1 q h A) as (z & Ez & Pz). exists z. rewrite nth_error_app1; [auto|]. apply nth_error_Some. congruence.
  - cbn. intros h x A N. destruct (Nat.ltb_spec h (length (p_heap p))) as [B|B].
    + rewrite nth_error_app1 in A by exact B. eapply K2; eauto.
    + rewrite nth_error_app2 in A by exact B. destruct (h - length (p_heap p)) as [|i]; cbn in A; [injection A as <-; now elim N|].
      destruct i; discriminate.
  - exact K3.
Qed.
Lemma op_K p o : K p -> has_meta p -> K (fst (client_step p o)).
Proof.
  intros HK HM. destruct (match o with CNewPipe _ _ _ | CPipeClose _ => true | _ => false end) eqn:X.
  - destruct o; try discriminate X; cbn [client_step fst].
    + now apply K_new.
    + unf; pstep. splitm; try exact HK. destruct HK as (K0 & K1 & K2 & K3). split; [cbn; now apply NoDup_adel|].
      split; [|split; assumption]. cbn. intros pid i A. apply K1. rewrite aget_adel in A by exact K0. destruct (_ =? _)%N; congruence.
  - destruct o; try discriminate X; clear X; unf; pstep; splitm; boolp; subst; try contradiction.
    all: repeat match goal with A : (_, _) = (_, _) |- _ => injection A; clear A; intros; subst end.
    all: try exact HK.
    all: try solve [eapply (K_quiet p _ []); [exact HK|symmetry; apply app_nil_r|constructor|reflexivity..]].
    all: try solve [eapply K_quiet; [exact HK|cbn; rewrite <- ?app_assoc; reflexivity|repeat constructor|reflexivity..]].
    all: try solve [eapply K_input; [exact HK|eassumption|assumption|reflexivity..]].
    all: try solve [eapply (K_set p _ _ _ _ []); [exact HK|eassumption|reflexivity|reflexivity|symmetry; apply app_nil_r|constructor|reflexivity|cbn; intuition congruence]].
    all: try solve [eapply K_set; [exact HK|eassumption|reflexivity|reflexivity|reflexivity|repeat constructor|reflexivity|intros _; right; eapply asked_new; [reflexivity|cbn; eauto]]].
    + exfalso. unfold has_meta in HM. rewrite Forall_forall in HM. match goal with A : nth_error _ _ = Some ?x |- _ => now apply (HM x (nth_error_In _ _ A)) end.
    + match goal with A : nth_error _ _ = Some ?x |- _ => eapply (K_set p _ _ x _ []); [exact HK|exact A|reflexivity|reflexivity|symmetry; apply app_nil_r|constructor|reflexivity|] end.
      intros _. left. intros X. match goal with A : In (pl_state _) _ |- _ => rewrite X in A; cbn in A; intuition discriminate end.
Qed.
Lemma process_K k p m : K p -> (forall s w pid, o_body m = MPipelineState s w -> o_pid m = Some pid -> asked_for pid (p_out p)) ->
  K (fst (client_process k p m)).
Proof.
  intros HK S. unfold client_process. destruct (o_body m) eqn:B; unf; pstep; splitm; boolp; subst.
  all: try exact HK.
  all: try solve [eapply (K_quiet p _ []); [exact HK|symmetry; apply app_nil_r|constructor|reflexivity..]].
  all: try solve [eapply K_quiet; [exact HK|cbn; rewrite <- ?app_assoc; reflexivity|repeat constructor|reflexivity..]].
  match goal with A : nth_error _ _ = Some ?x |- _ => eapply (K_set p _ _ x _ []); [exact HK|exact A|reflexivity|reflexivity|symmetry; apply app_nil_r|constructor|reflexivity|] end.
  intros _. right. rewrite app_nil_r. destruct HK as (_ & K1 & _). match goal with A : aget _ _ = Some _ |- _ => destruct (K1 _ _ A) as (z & Ez & Pz) end.
  replace (pl_pid p0) with n by congruence. eauto.
Qed.
Lemma client_ordered rpid mn mx cfg l : solicited (client_init rpid mn mx cfg) l -> K (fst (client_run (client_init rpid mn mx cfg) l)).
Proof.
  induction l as [|a l IH]; intros S.
  - cbn. split; [constructor|]. split; [discriminate|]. split; [intros [|?]; discriminate|]. intros [|? ?] m l2 E; discriminate.
  - assert (solicited (client_init rpid mn mx cfg) l) as S'.
    { intros l2 m k l1 s w pid E. apply (S (a :: l2) m k l1 s w pid). cbn. now rewrite E. }
    specialize (IH S'). pose proof (client_history rpid mn mx cfg l) as (_ & HM & _). specialize (S [] ).
    cbn [client_run app] in *. destruct (client_run (client_init rpid mn mx cfg) l) as [p h] eqn:R. cbn [fst] in *.
    destruct a as [o|m k]; cbn [client_act_step]; [now apply op_K|]. apply process_K; [exact IH|].
    intros s w pid B P. specialize (S m k l s w pid eq_refl B P). now rewrite R in S.
Qed.

