(** Every operation does what the table of Spec_Effects says. *)
From Verif Require Import Base BaseFacts Model_Scalars Model_Transport Model_Command Model_Host Model_Pool Spec_Pool Spec_Effects Proofs_Pool.

Lemma posted_nil p p' : p_out p' = p_out p -> posted p p' [].
Proof. intros E. exists []. rewrite app_nil_r. repeat split; auto. Qed.
Lemma posted_one p p' pid st b : p_out p' = p_out p ++ [mkO (p_fc p) (p_rpid p) pid st b] -> posted p p' [(pid, st, b)].
Proof. intros E. eexists. split; [exact E|]. cbn. rewrite N.add_0_r. repeat split. now constructor. Qed.
Lemma set_nth_same {A} (l : list A) n x : nth_error l n <> None -> nth_error (set_nth n x l) n = Some x.
Proof. revert n. induction l as [|a l IH]; intros [|n] H; cbn in *; auto; congruence. Qed.
Lemma set_nth_other {A} (l : list A) n m x : m <> n -> nth_error (set_nth n x l) m = nth_error l m.
Proof. revert n m. induction l as [|a l IH]; intros [|n] [|m] H; cbn; auto; congruence. Qed.
Lemma kept_same p p' : p_heap p' = p_heap p -> pipes_kept p p' None.
Proof. intros E h x H. exists x. unfold is_pipe in *. rewrite E. auto. Qed.
Lemma kept_new p p' y : p_heap p' = p_heap p ++ [y] -> pipes_kept p p' None.
Proof.
  intros E h x H. exists x. unfold is_pipe in *. rewrite E, nth_error_app1; auto. apply nth_error_Some. congruence.
Qed.
Lemma kept_put p p' h y s : nth_error (p_heap p) h = Some y -> p_heap p' = set_nth h (with_state s y) (p_heap p) -> pipes_kept p p' (Some (h, s)).
Proof.
  intros E E' i x H. unfold is_pipe in *. rewrite E'. destruct (Nat.eqb_spec i h) as [->|N].
  - assert (x = y) as -> by congruence. exists (with_state s y). rewrite set_nth_same by congruence. auto.
  - exists x. now rewrite set_nth_other.
Qed.
Lemma kept_meta p p' h y m : nth_error (p_heap p) h = Some y -> p_heap p' = set_nth h (with_meta m y) (p_heap p) -> pipes_kept p p' None.
Proof.
  intros E E' i x H. unfold is_pipe in *. rewrite E'. destruct (Nat.eq_dec i h) as [->|N].
  - assert (x = y) as -> by congruence. exists (with_meta m y). rewrite set_nth_same by congruence. auto.
  - exists x. now rewrite set_nth_other.
Qed.
Lemma posted_two p p' pid st b pid' st' b' :
  p_out p' = (p_out p ++ [mkO (p_fc p) (p_rpid p) pid st b]) ++ [mkO (p_fc p + 1) (p_rpid p) pid' st' b'] -> posted p p' [(pid, st, b); (pid', st', b')].
Proof.
  intros E. rewrite <- app_assoc in E. eexists. split; [exact E|]. split; [reflexivity|]. split; [repeat constructor|].
  cbn [seq map length o_oid]. rewrite N.add_0_r. reflexivity.
Qed.
Lemma posted_three p p' x1 s1 b1 x2 s2 b2 x3 s3 b3 :
  p_out p' = ((p_out p ++ [mkO (p_fc p) (p_rpid p) x1 s1 b1]) ++ [mkO (p_fc p + 1) (p_rpid p) x2 s2 b2]) ++ [mkO (p_fc p + 1 + 1) (p_rpid p) x3 s3 b3] ->
  posted p p' [(x1, s1, b1); (x2, s2, b2); (x3, s3, b3)].
Proof.
  intros E. rewrite <- !app_assoc in E. eexists. split; [exact E|]. split; [reflexivity|]. split; [repeat constructor|].
  cbn [seq map length o_oid]. rewrite N.add_0_r, <- N.add_assoc. reflexivity.
Qed.
Ltac posts := first [apply posted_nil; reflexivity | apply posted_one; reflexivity | apply posted_two; reflexivity | apply posted_three; reflexivity].
Ltac keeps := first [apply kept_same; reflexivity | eapply kept_new; reflexivity | eapply kept_put; [eassumption|reflexivity] | eapply kept_meta; [eassumption|reflexivity]].
Ltac happens := split; [posts|split; [cbn; congruence || reflexivity|keeps]].
Ltac values := unfold value_body, opt_value, is_pipe; eauto 7.
Lemma client_effects p o p' r : client_step p o = (p', Ok r) -> exists e, client_effect p o r e /\ happened p p' e.
Proof.
  intros H. destruct o; unf; pstep; hsplitm H; try discriminate H; injection H as <- <-;
    repeat match goal with A : (_, _) = (_, _) |- _ => injection A; clear A; intros; subst end;
    repeat match goal with A : Ok _ = Ok _ |- _ => injection A; clear A; intros; subst end; try discriminate; boolp.
  all: refine (ex_intro _ (mkEff _ _ _) _); (split; [|cbn [happened e_posts e_state e_pipe]; happens]).
  all: try match goal with
       | |- client_effect ?p ?o _ (mkEff [(?pid, SPrompt, _)] _ _) => solve [eapply (CeResponse p o _ _ _ _ pid); values]
       | H : p_state ?p = Opened |- client_effect ?p _ _ (mkEff [] (p_state ?p) None) => solve [rewrite H; apply CeOpened; auto]
       | |- _ => solve [econstructor; values]
       end.
  all: try match goal with
       | A : ps_is _ _ || _ = true |- _ => apply orb_prop in A; destruct A; boolp; [|apply Z.eqb_eq in H]; solve [eapply CeLimitHere; values]
       | A : ps_is _ _ || _ = false |- _ => apply orb_false_elim in A; destruct A as [A A']; apply Z.eqb_neq in A'; boolp;
           solve [refine (CeLimit p _ _ _ _ _); [|assumption]; first [left; repeat split; congruence|right; repeat split; congruence]]
       | K : pl_kind ?x = ?k |- client_effect ?p (CStart ?h) _ (mkEff [_] _ _) =>
           match goal with M : pl_meta x = Some (Good ?t) |- _ =>
             pose proof (CeStart p h x t ltac:(assumption) M) as A; rewrite K in A; exact A end
       end.
Qed.
Lemma client_counts p o : counted p (fst (client_step p o)).
Proof. unfold counted. destruct o; unf; pstep; splitm; rewrite ?app_length; cbn [length]; try reflexivity; lia. Qed.

Lemma server_effects p o p' r : server_step p o = (p', Ok r) -> exists e, server_effect p o r e /\ happened p p' e.
Proof.
  intros H. destruct o; unf; pstep; hsplitm H; try discriminate H; injection H as <- <-;
    repeat match goal with A : (_, _) = (_, _) |- _ => injection A; clear A; intros; subst end;
    repeat match goal with A : Ok _ = Ok _ |- _ => injection A; clear A; intros; subst end; try discriminate; boolp.
  all: refine (ex_intro _ (mkEff _ _ _) _); (split; [|cbn [happened e_posts e_state e_pipe]; happens]).
  all: try match goal with
       | |- _ => solve [econstructor; values]
       end.
  all: match goal with
       | S : p_state ?p = Opened |- server_effect ?p ?o (Some _) (mkEff [(?pid, SPrompt, _)] _ _) =>
           rewrite S; eapply (SeCall p o pid); [values|exact S|match goal with V : is_void _ = _ |- _ => rewrite V; reflexivity end]
       | S : p_state ?p = Opened |- _ => rewrite S; constructor; exact S
       end.
Qed.
Lemma server_counts p o : o <> SConnect -> counted p (fst (server_step p o)).
Proof. unfold counted. intros N. destruct o; try congruence; unf; pstep; splitm; rewrite ?app_length; cbn [length]; try reflexivity; lia. Qed.

Lemma client_reacts k p m p' r : client_process k p m = (p', Ok r) -> exists e, client_reaction k p m e /\ happened p p' e.
Proof.
  intros H. unfold client_process in H. destruct (o_body m) eqn:B; unf; pstep; hsplitm H; try discriminate H; injection H as <- <-; boolp.
  all: refine (ex_intro _ (mkEff _ _ _) _); (split; [|cbn [happened e_posts e_state e_pipe]; happens]).
  all: first [solve [apply CrOther; rewrite B; cbn; auto] | solve [econstructor; eauto]].
Qed.
Lemma server_reacts p m p' r : server_process p m = (p', Ok r) -> exists e, server_reaction p m e /\ happened p p' e.
Proof.
  intros H. unfold server_process in H. destruct (o_body m) eqn:B; unf; pstep; hsplitm H; try discriminate H; injection H as <- <-; boolp.
  all: refine (ex_intro _ (mkEff _ _ _) _); (split; [|cbn [happened e_posts e_state e_pipe]; happens]).
  all: first [solve [apply SrOther; rewrite B; cbn; auto] | solve [econstructor; eauto] | idtac].
  - apply SrOther. rewrite B. split; [assumption|]. now apply N.eqb_eq.
  - exfalso. match goal with A : In Opened _ |- _ => cbn in A; intuition discriminate end.
  - exfalso. match goal with A : In Opened _ |- _ => cbn in A; intuition discriminate end.
Qed.
Lemma client_process_counts k p m : counted p (fst (client_process k p m)).
Proof. unfold counted, client_process. destruct (o_body m); unf; pstep; splitm; rewrite ?app_length; cbn [length]; try reflexivity; lia. Qed.
Lemma server_process_counts p m : counted p (fst (server_process p m)).
Proof. unfold counted, server_process. destruct (o_body m); unf; pstep; splitm; rewrite ?app_length; cbn [length]; try reflexivity; lia. Qed.
