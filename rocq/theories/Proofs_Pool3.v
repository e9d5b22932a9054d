(** Proofs about the pipelines of a pool. *)
From Verif Require Import Base BaseFacts Model_Scalars Model_Transport Model_Command Model_Host Model_Pool Spec_Pool
  Proofs_Pool Proofs_Pool2.

Lemma set_nth_other : forall A (l : list A) n k x, k <> n -> nth_error (set_nth n x l) k = nth_error l k.
Proof.
  intros A l. induction l as [|a t IH]; intros n k x N; destruct n, k; cbn; auto; try congruence.
Qed.
Lemma set_nth_same : forall A (l : list A) n x y, nth_error l n = Some y -> nth_error (set_nth n x l) n = Some x.
Proof. intros A l. induction l as [|a t IH]; intros [|n] x y H; cbn in *; try discriminate; eauto. Qed.
Lemma set_nth_length : forall A (l : list A) n x, length (set_nth n x l) = length l.
Proof. intros A l. induction l as [|a t IH]; intros [|n] x; cbn; auto. Qed.
Lemma set_nth_pids : forall l n x y, nth_error l n = Some y -> pl_pid x = pl_pid y ->
  map pl_pid (set_nth n x l) = map pl_pid l.
Proof. intros l. induction l as [|a t IH]; intros [|n] x y H E; cbn in *; try discriminate; [congruence|]. f_equal. eauto. Qed.

Definition client_makes (o : client_op) : list N := match o with CNewPipe pid _ _ => [pid] | _ => [] end.
Definition server_makes (o : server_op) : list N := match o with SNewPipe pid => [pid] | _ => [] end.
Ltac pairs := repeat match goal with A : (_, _) = (_, _) |- _ => injection A as <- <- end.
Ltac pids := rewrite ?app_nil_r, ?map_app; cbn; auto; try (eapply set_nth_pids; [eassumption|reflexivity]).

Lemma client_pids : forall p o, map pl_pid (p_heap (fst (client_step p o))) = map pl_pid (p_heap p) ++ client_makes o.
Proof. intros p o. brute p o; pairs; pids. Qed.
Lemma server_pids : forall p o, map pl_pid (p_heap (fst (server_step p o))) = map pl_pid (p_heap p) ++ server_makes o.
Proof. intros p o. brute p o; pairs; pids. Qed.
Lemma client_recv_pids : forall k p m, map pl_pid (p_heap (fst (client_process k p m))) = map pl_pid (p_heap p).
Proof. intros k p m. unfold client_process. brutem p m; pids. Qed.
Lemma server_recv_pids : forall p m, map pl_pid (p_heap (fst (server_process p m))) = map pl_pid (p_heap p).
Proof. intros p m. unfold server_process. brutem p m; pids. Qed.

(** The table. *)
Definition client_closes (o : client_op) : option nat := match o with CPipeClose h => Some h | _ => None end.
Definition server_closes (o : server_op) : option nat := match o with SPipeClose h => Some h | _ => None end.
Definition table_after (p : pool) (made : list N) (closes : option nat) (r : result (option Z)) : list (N * nat) :=
  match made, closes, r with
  | pid :: _, _, _ => aset pid (length (p_heap p)) (p_table p)
  | [], Some h, Ok _ => match nth_error (p_heap p) h with Some x => adel (pl_pid x) (p_table p) | None => p_table p end
  | _, _, _ => p_table p
  end.
Lemma client_table : forall p o,
  p_table (fst (client_step p o)) = table_after p (client_makes o) (client_closes o) (snd (client_step p o)).
Proof. intros p o. unfold table_after. popen p; destruct o; unf; pstep; splitm; pairs; cbn; auto; congruence. Qed.
Lemma server_table : forall p o,
  p_table (fst (server_step p o)) = table_after p (server_makes o) (server_closes o) (snd (server_step p o)).
Proof. intros p o. unfold table_after. popen p; destruct o; unf; pstep; splitm; pairs; cbn; auto; congruence. Qed.
Lemma client_recv_table : forall k p m, p_table (fst (client_process k p m)) = p_table p.
Proof. intros k p m. unfold client_process. brutem p m; auto. Qed.
Lemma server_recv_table : forall p m, p_table (fst (server_process p m)) = p_table p.
Proof. intros p m. unfold server_process. brutem p m; auto. Qed.

Lemma nth_pid : forall p made h x, map pl_pid (p_heap p) = made -> nth_error (p_heap p) h = Some x ->
  nth_error made h = Some (pl_pid x).
Proof. intros p made h x <- H. apply map_nth_error. auto. Qed.
Lemma table_make : forall p made closed pid heap tab,
  table_ok p made closed -> NoDup (made ++ [pid]) -> (forall h, closed h -> h < length made)%nat ->
  map pl_pid heap = made ++ [pid] -> tab = aset pid (length (p_heap p)) (p_table p) ->
  forall p', p_heap p' = heap -> p_table p' = tab -> table_ok p' (made ++ [pid]) closed.
Proof.
  intros p made closed pid heap tab (A & B & C) D L E -> p' <- T. unfold table_ok. rewrite T. split; auto.
  split; [apply NoDup_aset; auto|]. intros q h. rewrite aget_aset.
  assert (LEN : length (p_heap p) = length made) by (rewrite <- A, map_length; auto). rewrite LEN.
  destruct (N.eqb_spec q pid) as [->|N].
  - split.
    + intros X. injection X as <-. split; [rewrite nth_error_app2, Nat.sub_diag by lia; reflexivity|].
      intros X. apply L in X. lia.
    + intros [X Y]. f_equal. assert (h < length (made ++ [pid]))%nat by (apply nth_error_Some; congruence).
      rewrite app_length in H. cbn in H. destruct (Nat.eq_dec h (length made)) as [->|N]; auto.
      exfalso. rewrite nth_error_app1 in X by lia. apply nth_error_In in X.
      apply NoDup_remove_2 in D. rewrite app_nil_r in D. contradiction.
  - rewrite C. split; intros [X Y]; split; auto.
    + rewrite nth_error_app1; auto. apply nth_error_Some. congruence.
    + assert (h < length (made ++ [pid]))%nat by (apply nth_error_Some; congruence).
      rewrite app_length in H. cbn in H. destruct (Nat.eq_dec h (length made)) as [->|M].
      * rewrite nth_error_app2, Nat.sub_diag in X by lia. cbn in X. congruence.
      * rewrite nth_error_app1 in X by lia. auto.
Qed.
Lemma table_close : forall p made (closed : nat -> Prop) h x p', table_ok p made closed -> NoDup made ->
  nth_error (p_heap p) h = Some x ->
  map pl_pid (p_heap p') = made -> p_table p' = adel (pl_pid x) (p_table p) -> table_ok p' made (fun n => closed n \/ n = h).
Proof.
  intros p made closed h x p' (A & B & C) D N E T. unfold table_ok. rewrite T. split; auto.
  split; [apply NoDup_adel; auto|]. intros q k. rewrite aget_adel by auto.
  pose proof (nth_pid p made h x A N) as P.
  destruct (N.eqb_spec q (pl_pid x)) as [->|M].
  - split; [discriminate|]. intros [X Y]. exfalso. apply Y. right.
    eapply NoDup_nth_error; eauto; [apply nth_error_Some; congruence|congruence].
  - rewrite C. split; intros [X Y]; split; auto. intros [Z|Z]; auto. subst. congruence.
Qed.
Lemma table_ok_ext : forall p made (c d : nat -> Prop), (forall n, c n <-> d n) -> table_ok p made c -> table_ok p made d.
Proof. intros p made c d E (A & B & C). split; auto. split; auto. intros. rewrite C. rewrite E. tauto. Qed.
Lemma table_keep : forall p p' made c, table_ok p made c -> map pl_pid (p_heap p') = map pl_pid (p_heap p) ->
  p_table p' = p_table p -> table_ok p' made c.
Proof. intros p p' made c (A & B & C) E F. unfold table_ok. rewrite E, F. auto. Qed.

Lemma nth_error_lt : forall A (l : list A) n, nth_error l n <> None -> (n < length l)%nat.
Proof. intros. apply nth_error_Some. auto. Qed.

Lemma client_made_cons : forall e h, made_by_client (e :: h) = made_by_client h ++ match fst e with COp o => client_makes o | _ => [] end.
Proof.
  intros e h. unfold made_by_client. cbn [rev]. rewrite flat_map_app. cbn. rewrite app_nil_r.
  destruct e as [[[]|] r]; reflexivity.
Qed.
Lemma server_made_cons : forall e h, made_by_server (e :: h) = made_by_server h ++ match fst e with SOp o => server_makes o | _ => [] end.
Proof.
  intros e h. unfold made_by_server. cbn [rev]. rewrite flat_map_app. cbn. rewrite app_nil_r.
  destruct e as [[[]| |] r]; reflexivity.
Qed.
Lemma client_closed_cons : forall n e h, client_closed n (e :: h) <->
  client_closed n h \/ (fst e = COp (CPipeClose n) /\ exists r, snd e = Ok r).
Proof.
  intros n [a r] h. unfold client_closed. cbn. split.
  - intros (v & [A|A]); [injection A as -> ->; eauto|eauto].
  - intros [(v & A)|[-> (v & ->)]]; eauto.
Qed.
Lemma server_closed_cons : forall n e h, server_closed n (e :: h) <->
  server_closed n h \/ (fst e = SOp (SPipeClose n) /\ exists r, snd e = Ok r).
Proof.
  intros n [a r] h. unfold server_closed. cbn. split.
  - intros (v & [A|A]); [injection A as -> ->; eauto|eauto].
  - intros [(v & A)|[-> (v & ->)]]; eauto.
Qed.
Lemma close_known : forall p h r, snd (client_step p (CPipeClose h)) = Ok r -> nth_error (p_heap p) h <> None.
Proof. intros p h r. unf. destruct (nth_error (p_heap p) h); [discriminate|]. cbn. discriminate. Qed.
Lemma server_close_known : forall p h r, snd (server_step p (SPipeClose h)) = Ok r -> nth_error (p_heap p) h <> None.
Proof. intros p h r. unf. destruct (nth_error (p_heap p) h); [discriminate|]. cbn. discriminate. Qed.

Lemma NoDup_app_l : forall A (l r : list A), NoDup (l ++ r) -> NoDup l.
Proof. intros A l r. induction l; cbn; intros H; [constructor|]. inversion H; subst. constructor; auto. intros X. apply H2. apply in_or_app; auto. Qed.

Lemma client_table_ok : forall rpid mn mx cfg l,
  let '(p, h) := client_run (client_init rpid mn mx cfg) l in
  NoDup (made_by_client h) ->
  table_ok p (made_by_client h) (fun n => client_closed n h) /\ (forall n, client_closed n h -> n < length (made_by_client h))%nat.
Proof.
  intros rpid mn mx cfg l. induction l as [|a t IH]; cbn [client_run].
  - cbn. intros _. split; [|intros n (r & [])]. split; auto. split; [constructor|].
    intros pid h. cbn. split; [discriminate|]. destruct h; intros [A _]; discriminate.
  - destruct (client_run _ t) as [p h]. rewrite client_made_cons. intros D.
    destruct (IH (NoDup_app_l _ _ _ D)) as [T L]. clear IH.
    assert (HL : length (p_heap p) = length (made_by_client h)) by (destruct T as [<- _]; rewrite map_length; auto).
    destruct a as [o|m k]; cbn [client_act_step fst] in *.
    + pose proof (client_pids p o) as P. pose proof (client_table p o) as TB. unfold table_after in TB.
      assert (P' : map pl_pid (p_heap (fst (client_step p o))) = made_by_client h ++ client_makes o)
        by (rewrite P; destruct T as [-> _]; auto).
      destruct (client_makes o) as [|pid [|]] eqn:M; [| |destruct o; discriminate].
      * rewrite app_nil_r in *. destruct (client_closes o) as [n|] eqn:C.
        -- assert (o = CPipeClose n) as -> by (destruct o; try discriminate; injection C as <-; auto).
           cbn [client_result] in *. destruct (snd (client_step p (CPipeClose n))) as [r|e] eqn:R.
           ++ pose proof (close_known _ _ _ R) as K. destruct (nth_error (p_heap p) n) as [x|] eqn:NX; [|congruence].
              split.
              ** eapply table_ok_ext; [|eapply table_close; eauto].
                 intros q. cbn. rewrite client_closed_cons. cbn. split; [intros [?| ->]; eauto|].
                 intros [?|[A _]]; auto. injection A as <-. auto.
              ** intros q Q. apply client_closed_cons in Q. destruct Q as [Q|[Q _]]; auto.
                 cbn in Q. injection Q as <-. rewrite <- HL. apply nth_error_Some. congruence.
           ++ split.
              ** eapply table_ok_ext; [|eapply table_keep; eauto]. intros q. rewrite client_closed_cons. cbn.
                 split; auto. intros [?|[_ (r & A)]]; auto. discriminate.
              ** intros q Q. apply client_closed_cons in Q. destruct Q as [Q|[_ (r & Q)]]; auto. discriminate.
        -- split.
           ++ eapply table_ok_ext; [|eapply table_keep; eauto]. intros q. rewrite client_closed_cons. cbn. split; auto.
              intros [?|[A _]]; auto. injection A as ->. discriminate.
           ++ intros q Q. apply client_closed_cons in Q. destruct Q as [Q|[Q _]]; auto. cbn in Q. injection Q as ->. discriminate.
      * split.
        -- eapply table_ok_ext; [|eapply table_make; eauto]. intros q. rewrite client_closed_cons. cbn. split; auto.
           intros [?|[A _]]; auto. injection A as ->. discriminate.
        -- intros q Q. rewrite app_length. apply client_closed_cons in Q. destruct Q as [Q|[Q _]]; [apply L in Q; lia|].
           cbn in Q. injection Q as ->. discriminate.
    + rewrite app_nil_r in *. split.
      * eapply table_ok_ext; [|eapply table_keep; eauto; [apply client_recv_pids|apply client_recv_table]].
        intros q. rewrite client_closed_cons. cbn. split; auto. intros [?|[A _]]; auto. discriminate.
      * intros q Q. apply client_closed_cons in Q. destruct Q as [Q|[Q _]]; auto. discriminate.
Qed.
Lemma server_table_ok : forall session private l,
  let '(p, h) := server_run (server_init session private) l in
  NoDup (made_by_server h) ->
  table_ok p (made_by_server h) (fun n => server_closed n h) /\ (forall n, server_closed n h -> n < length (made_by_server h))%nat.
Proof.
  intros session private l. induction l as [|a t IH]; cbn [server_run].
  - cbn. intros _. split; [|intros n (r & [])]. split; auto. split; [constructor|].
    intros pid h. cbn. split; [discriminate|]. destruct h; intros [A _]; discriminate.
  - destruct (server_run _ t) as [p h]. rewrite server_made_cons. intros D.
    destruct (IH (NoDup_app_l _ _ _ D)) as [T L]. clear IH.
    assert (HL : length (p_heap p) = length (made_by_server h)) by (destruct T as [<- _]; rewrite map_length; auto).
    destruct a as [o|m|]; cbn [server_act_step fst] in *.
    + pose proof (server_pids p o) as P. pose proof (server_table p o) as TB. unfold table_after in TB.
      assert (P' : map pl_pid (p_heap (fst (server_step p o))) = made_by_server h ++ server_makes o)
        by (rewrite P; destruct T as [-> _]; auto).
      destruct (server_makes o) as [|pid [|]] eqn:M; [| |destruct o; discriminate].
      * rewrite app_nil_r in *. destruct (server_closes o) as [n|] eqn:C.
        -- assert (o = SPipeClose n) as -> by (destruct o; try discriminate; injection C as <-; auto).
           cbn [server_result] in *. destruct (snd (server_step p (SPipeClose n))) as [r|e] eqn:R.
           ++ pose proof (server_close_known _ _ _ R) as K. destruct (nth_error (p_heap p) n) as [x|] eqn:NX; [|congruence].
              split.
              ** eapply table_ok_ext; [|eapply table_close; eauto].
                 intros q. cbn. rewrite server_closed_cons. cbn. split; [intros [?| ->]; eauto|].
                 intros [?|[A _]]; auto. injection A as <-. auto.
              ** intros q Q. apply server_closed_cons in Q. destruct Q as [Q|[Q _]]; auto.
                 cbn in Q. injection Q as <-. rewrite <- HL. apply nth_error_Some. congruence.
           ++ split.
              ** eapply table_ok_ext; [|eapply table_keep; eauto]. intros q. rewrite server_closed_cons. cbn.
                 split; auto. intros [?|[_ (r & A)]]; auto. discriminate.
              ** intros q Q. apply server_closed_cons in Q. destruct Q as [Q|[_ (r & Q)]]; auto. discriminate.
        -- split.
           ++ eapply table_ok_ext; [|eapply table_keep; eauto]. intros q. rewrite server_closed_cons. cbn. split; auto.
              intros [?|[A _]]; auto. injection A as ->. discriminate.
           ++ intros q Q. apply server_closed_cons in Q. destruct Q as [Q|[Q _]]; auto. cbn in Q. injection Q as ->. discriminate.
      * split.
        -- eapply table_ok_ext; [|eapply table_make; eauto]. intros q. rewrite server_closed_cons. cbn. split; auto.
           intros [?|[A _]]; auto. injection A as ->. discriminate.
        -- intros q Q. rewrite app_length. apply server_closed_cons in Q. destruct Q as [Q|[Q _]]; [apply L in Q; lia|].
           cbn in Q. injection Q as ->. discriminate.
    + rewrite app_nil_r in *. split.
      * eapply table_ok_ext; [|eapply table_keep; eauto; [apply server_recv_pids|apply server_recv_table]].
        intros q. rewrite server_closed_cons. cbn. split; auto. intros [?|[A _]]; auto. discriminate.
      * intros q Q. apply server_closed_cons in Q. destruct Q as [Q|[Q _]]; auto. discriminate.
    + rewrite app_nil_r in *. unfold server_receive. split.
      * eapply table_ok_ext; [|eapply table_keep; eauto; destruct (ps_is _ _); reflexivity].
        intros q. rewrite server_closed_cons. cbn. split; auto. intros [?|[A _]]; auto. discriminate.
      * intros q Q. apply server_closed_cons in Q. destruct Q as [Q|[Q _]]; auto. discriminate.
Qed.

(** Nothing happens to other pipelines. *)
Lemma client_others : forall p o h x, nth_error (p_heap p) h = Some x ->
  (forall l, client_pipe_states o <> Some (h, l)) -> nth_error (p_heap (fst (client_step p o))) h = Some x.
Proof.
  intros p o h x N F. popen p; destruct o; cbn [client_pipe_states] in F; unf; pstep; splitm; auto.
  all: try (rewrite set_nth_other; [exact N|intros ->; eapply F; reflexivity]).
  rewrite nth_error_app1; auto. apply nth_error_Some. congruence.
Qed.
Lemma server_others : forall p o h x, nth_error (p_heap p) h = Some x ->
  (forall l, server_pipe_states o <> Some (h, l)) -> nth_error (p_heap (fst (server_step p o))) h = Some x.
Proof.
  intros p o h x N F. popen p; destruct o; cbn [server_pipe_states] in F; unf; pstep; splitm; pairs; auto.
  all: try (rewrite set_nth_other; [exact N|intros ->; eapply F; reflexivity]).
  rewrite nth_error_app1; auto. apply nth_error_Some. congruence.
Qed.
Lemma client_recv_others : forall k p m h x, nth_error (p_heap p) h = Some x ->
  (forall pid, o_pid m = Some pid -> aget pid (p_table p) <> Some h) ->
  nth_error (p_heap (fst (client_process k p m))) h = Some x.
Proof.
  intros k p m h x N F. unfold client_process. brutem p m; auto.
  all: rewrite set_nth_other; auto; intros ->; eapply F; eauto.
Qed.
Lemma server_recv_others : forall p m h x, nth_error (p_heap p) h = Some x ->
  (forall pid, o_pid m = Some pid -> aget pid (p_table p) <> Some h) ->
  nth_error (p_heap (fst (server_process p m))) h = Some x.
Proof.
  intros p m h x N F. unfold server_process. brutem p m; auto.
  all: rewrite set_nth_other; auto; intros ->; eapply F; eauto.
Qed.
