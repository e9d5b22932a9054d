From Verif Require Import Base BaseFacts Model_Scalars Model_Command Spec_Command.

Section P.
  Context {V : Type}.
  Implicit Types (c : command V) (cs : list (command V)).
  Definition pv_of (their : option version) := match their with Some v => v | None => pv20 end.

  Lemma from_to their c : from_wire (to_wire their c) =
    mkCmd (c_text c) (c_script c) (c_local c) (c_params c) false (c_unclaimed c) (c_my c) (c_to c)
      (c_err (seen_by (pv_of their) c)) (c_warn (seen_by (pv_of their) c)) (c_verb (seen_by (pv_of their) c))
      (c_dbg (seen_by (pv_of their) c)) (c_info (seen_by (pv_of their) c)).
  Proof.
    unfold from_wire, to_wire, seen_by, pv_of. simpl.
    destruct (version_ge _ pv22), (version_ge _ pv23), (c_unclaimed c); reflexivity.
  Qed.
  Lemma from_to_open their c : c_eos c = false -> from_wire (to_wire their c) = seen_by (pv_of their) c.
  Proof. intros E. rewrite from_to. unfold seen_by. now rewrite E. Qed.
  Lemma from_to_end their c : c_eos c = true -> end_statement (from_wire (to_wire their c)) = seen_by (pv_of their) c.
  Proof. intros E. rewrite from_to. unfold seen_by, end_statement. simpl. now rewrite E. Qed.

  Lemma mark_last_app cs c : mark_last (cs ++ [c]) = Ok (cs ++ [end_statement c]).
  Proof.
    induction cs as [|d cs IH]; [reflexivity|]. simpl. rewrite IH. destruct (cs ++ [c]) eqn:E; [|reflexivity].
    destruct cs; discriminate.
  Qed.
  Lemma split_done done cur cs : split_statements done cur cs = done ++ split_statements [] cur cs.
  Proof.
    revert done cur; induction cs as [|c cs IH]; intros done cur; simpl; auto.
    destruct (c_eos c); [|apply IH]. rewrite (IH (done ++ _)), (IH [cur ++ [c]]). now rewrite <- app_assoc.
  Qed.
  Lemma read_split their cs : forall cur acc, Forall (fun c => c_eos c = false) cur ->
    read_statements acc (map (map (to_wire their)) (split_statements [] cur cs)) =
    mark_last (acc ++ map (seen_by (pv_of their)) (cur ++ cs)).
  Proof.
    assert (Open : forall cur, Forall (fun c => c_eos c = false) cur ->
      map from_wire (map (to_wire their) cur) = map (seen_by (pv_of their)) cur).
    { intros cur H. rewrite map_map. apply map_ext_Forall. eapply Forall_impl; [|exact H]. intros; now apply from_to_open. }
    induction cs as [|c cs IH]; intros cur acc Hc; simpl.
    - rewrite app_nil_r, Open by auto. destruct (mark_last _); reflexivity.
    - destruct (c_eos c) eqn:E.
      + rewrite split_done. simpl. rewrite map_app, map_app. simpl. rewrite Open by auto.
        rewrite app_assoc, mark_last_app. simpl. rewrite from_to_end by auto. rewrite IH by constructor.
        simpl. f_equal. rewrite map_app. simpl. rewrite <- !app_assoc. reflexivity.
      + rewrite IH; [now rewrite <- app_assoc|]. apply Forall_app; auto.
  Qed.

  Context {H A O : Type}.
  Lemma create_roundtrip their (p : powershell V H A O) front last : ps_commands p = front ++ [last] ->
    exists m, to_create their p = Ok m /\
      from_create m = Ok (mkPS (ps_history_add p) (ps_apartment p)
        (map (seen_by (pv_of their)) front ++ [end_statement (seen_by (pv_of their) last)])
        (ps_history p) (ps_host p) (ps_nested p) (ps_no_input p) (ps_streams p) (ps_redirect p)).
  Proof.
    intros E. unfold to_create. destruct (ps_commands p) as [|c0 cs0] eqn:E0; [destruct front; discriminate|].
    rewrite <- E0 in *. clear c0 cs0 E0. eexists; split; [reflexivity|]. unfold from_create. simpl.
    set (extra := map (map (to_wire their)) (split_statements [] [] (ps_commands p))).
    replace (match (if (1 <? length extra)%nat then Some extra else None) with Some e => e | None => [hd [] extra] end)
      with extra.
    2:{ destruct extra as [|a [|b l]] eqn:X; simpl; auto. exfalso. apply (f_equal (@length _)) in X. unfold extra in X.
        rewrite map_length in X. simpl in X. rewrite E in X. clear -X.
        assert (forall cs cur, (0 < length (split_statements [] cur cs))%nat) as L.
        { clear. induction cs as [|c cs IH]; intros cur; simpl; [lia|]. destruct (c_eos c); auto.
          rewrite split_done. simpl. lia. }
        specialize (L (front ++ [last]) []). lia. }
    unfold extra. rewrite read_split by constructor. simpl. rewrite E, map_app. simpl. now rewrite mark_last_app.
  Qed.
End P.

(** Redirections. *)
Lemma valid_target_spec t : valid_target t = true <-> target_ok t.
Proof.
  unfold valid_target, target_ok, R_none, R_output, R_null. rewrite !orb_true_iff, !N.eqb_eq. tauto.
Qed.
Definition concernsb (s : stream) (x : call) : bool :=
  match x with
  | One SError _ => match s with SError => true | _ => false end
  | One SWarning _ => match s with SWarning => true | _ => false end
  | One SVerbose _ => match s with SVerbose => true | _ => false end
  | One SDebug _ => match s with SDebug => true | _ => false end
  | One SInformation _ => match s with SInformation => true | _ => false end
  | All _ => true
  end.
Lemma concernsb_spec s x : concernsb s x = true <-> concerns s x.
Proof. destruct x as [[] t|t], s; simpl; intuition congruence. Qed.
Definition acceptedb s x := concernsb s x && valid_target (target x).
Lemma acceptedb_spec s x : acceptedb s x = true <-> accepted s x.
Proof. unfold acceptedb, accepted. rewrite andb_true_iff, concernsb_spec, valid_target_spec. tauto. Qed.

Section R.
  Context {V : Type}.
  Implicit Types c : command V.
  Ltac go := unfold do_call, redirect_all, redirect_error, redirect_warning, redirect_verbose, redirect_debug,
    redirect_information, R_none, R_null, R_output, R_error; simpl;
    repeat match goal with
    | |- context [negb (valid_target ?t)] => destruct (valid_target t) eqn:?; simpl
    | |- context [(?a =? ?b)%N] => destruct (a =? b)%N eqn:?; simpl
    end; auto.
  Lemma do_call_setting s c x : setting s (do_call c x) = if acceptedb s x then target x else setting s c.
  Proof. unfold acceptedb. destruct x as [[] t|t], s; simpl; go. Qed.
  (** Everything that is not a redirection stays. *)
  Lemma do_call_rest c x : let c' := do_call c x in
    c_text c' = c_text c /\ c_script c' = c_script c /\ c_local c' = c_local c /\ c_params c' = c_params c
    /\ c_eos c' = c_eos c /\ c_unclaimed c' = c_unclaimed c.
  Proof. destruct x as [[] t|t]; simpl; go; repeat split. Qed.
  Definition my_to (old : N * N) (t : N) : N * N := if (t =? 0)%N then (0, 0)%N else if (t =? 8)%N then old else (2, t)%N.
  Lemma do_call_my c x : (c_my (do_call c x), c_to (do_call c x)) =
    if acceptedb SError x then my_to (c_my c, c_to c) (target x) else (c_my c, c_to c).
  Proof. unfold acceptedb, my_to. destruct x as [[] t|t]; simpl; go. Qed.

  Lemma last_of_snoc {X} (P : X -> Prop) l x y : last_of P (l ++ [x]) y <-> (P x /\ y = x) \/ (~ P x /\ last_of P l y).
  Proof.
    split.
    - intros (a & b & E & Py & Fb). destruct b as [|z b] using rev_ind.
      + apply app_inj_tail in E as [-> ->]. auto.
      + rewrite app_comm_cons, app_assoc in E. apply app_inj_tail in E as [-> ->].
        apply Forall_app in Fb as [F1 F2]. inversion F2; subst. right. split; auto. exists a, b. auto.
    - intros [[Px ->] | [Px (a & b & -> & Py & Fb)]].
      + exists l, []. auto.
      + exists a, (b ++ [x]). rewrite <- app_assoc. repeat split; auto. apply Forall_app; auto.
  Qed.
  Lemma last_of_unique {X} (P : X -> Prop) l x y : last_of P l x -> last_of P l y -> x = y.
  Proof.
    induction l as [|z l IH] using rev_ind; intros Hx Hy.
    - destruct Hx as (a & b & E & _). destruct a; discriminate.
    - apply last_of_snoc in Hx, Hy. destruct Hx as [[A ->]|[A B]], Hy as [[C ->]|[C D]]; tauto || auto.
  Qed.
  Lemma calls_setting s xs c : setting s c = 0%N -> goes_to s xs (setting s (fold_left do_call xs c)).
  Proof.
    intros Hc. induction xs as [|x xs IH] using rev_ind; [right; auto|].
    rewrite fold_left_app. simpl. rewrite do_call_setting. destruct (acceptedb s x) eqn:E.
    - left. exists x. split; auto. apply last_of_snoc. left. split; auto. now apply acceptedb_spec.
    - assert (~ accepted s x) by (rewrite <- acceptedb_spec; congruence).
      destruct IH as [(y & L & T) | [F T]].
      + left. exists y. split; auto. apply last_of_snoc. auto.
      + right. split; auto. apply Forall_app; auto.
  Qed.
  Lemma goes_to_unique s xs t t' : goes_to s xs t -> goes_to s xs t' -> t = t'.
  Proof.
    revert t t'. induction xs as [|x xs IH] using rev_ind; intros t t'.
    - intros [(y & (a & b & E & _) & _) | [_ ->]]; [destruct a; discriminate|].
      intros [(y & (a & b & E & _) & _) | [_ ->]]; [destruct a; discriminate|]. auto.
    - intros H H'. destruct (acceptedb s x) eqn:E.
      + apply acceptedb_spec in E.
        assert (forall u, goes_to s (xs ++ [x]) u -> u = target x) as K.
        { intros u [(y & L & <-) | [F _]].
          - apply last_of_snoc in L as [[_ ->] | [N _]]; tauto.
          - apply Forall_app in F as [_ F]. inversion F; tauto. }
        rewrite (K t), (K t'); auto.
      + assert (~ accepted s x) as N by (rewrite <- acceptedb_spec; congruence).
        assert (forall u, goes_to s (xs ++ [x]) u -> goes_to s xs u) as K.
        { intros u [(y & L & <-) | [F ->]].
          - apply last_of_snoc in L as [[A _] | [_ L]]; [tauto|]. left. eauto.
          - apply Forall_app in F as [F _]. right. auto. }
        apply IH; auto.
  Qed.
  Lemma calls_rest xs c : let c' := fold_left do_call xs c in
    c_text c' = c_text c /\ c_script c' = c_script c /\ c_local c' = c_local c /\ c_params c' = c_params c
    /\ c_eos c' = c_eos c /\ c_unclaimed c' = c_unclaimed c.
  Proof.
    simpl. revert c; induction xs as [|x xs IH]; intros c; simpl; [repeat split|].
    destruct (IH (do_call c x)) as (A & B & C & D & E & F). destruct (do_call_rest c x) as (A' & B' & C' & D' & E' & F').
    repeat split; congruence.
  Qed.
  (** The older pair of fields: where the last error call that was not to Null sent it. *)
  Definition error_not_null (x : call) : Prop := accepted SError x /\ target x <> 8%N.
  Lemma calls_my xs c : c_my c = 0%N -> c_to c = 0%N ->
    let c' := fold_left do_call xs c in
    (exists x, last_of error_not_null xs x /\ c_my c' = (if (target x =? 0)%N then 0 else 2)%N /\ c_to c' = target x)
    \/ (Forall (fun x => ~ error_not_null x) xs /\ c_my c' = 0%N /\ c_to c' = 0%N).
  Proof.
    intros H1 H2. induction xs as [|x xs IH] using rev_ind; [right; auto|].
    simpl in *. rewrite fold_left_app. simpl. set (c' := fold_left do_call xs c) in *.
    pose proof (do_call_my c' x) as M. destruct (acceptedb SError x) eqn:E.
    - pose proof E as E'. apply acceptedb_spec in E'. unfold my_to in M. destruct (target x =? 0)%N eqn:T0.
      + injection M as -> ->. left. exists x. apply N.eqb_eq in T0. rewrite T0. split; auto.
        apply last_of_snoc. left. split; auto. split; auto. rewrite T0. discriminate.
      + destruct (target x =? 8)%N eqn:T8.
        * apply N.eqb_eq in T8. injection M as -> ->.
          assert (~ error_not_null x) as N by (intros [_ N]; auto).
          destruct IH as [(y & L & Q) | [F Q]].
          -- left. exists y. split; auto. apply last_of_snoc. auto.
          -- right. split; auto. apply Forall_app; auto.
        * injection M as -> ->. left. exists x. rewrite T0. split; auto. apply last_of_snoc. left. split; auto.
          split; auto. now apply N.eqb_neq.
    - injection M as -> ->.
      assert (~ error_not_null x) as N by (intros [N _]; apply acceptedb_spec in N; congruence).
      destruct IH as [(y & L & Q) | [F Q]].
      + left. exists y. split; auto. apply last_of_snoc. auto.
      + right. split; auto. apply Forall_app; auto.
  Qed.
End R.

Lemma version_ge_23_22 pv : version_ge pv pv23 = true -> version_ge pv pv22 = true.
Proof.
  unfold version_ge. rewrite !negb_true_iff. destruct pv as [a b c d]. unfold version_tuple, pv22, pv23. cbn.
  repeat match goal with |- context [(?x <? ?y)%N] => destruct (N.ltb_spec x y) end; cbn; auto;
  repeat match goal with |- context [(?x =? ?y)%N] => destruct (N.eqb_spec x y) end; cbn; auto; try lia.
Qed.

Section F.
  Context {V : Type}.
  Lemma params_fold (ps : list (option (list N) * V)) c :
    let c' := fold_left (fun c p => add_parameter c (fst p) (snd p)) ps c in
    c_params c' = c_params c ++ ps /\ c_text c' = c_text c /\ c_script c' = c_script c /\ c_local c' = c_local c
    /\ c_unclaimed c' = c_unclaimed c /\ forall s, setting s c' = setting s c.
  Proof.
    simpl. revert c; induction ps as [|[n v] ps IH]; intros c; simpl; [rewrite app_nil_r; repeat split|].
    destruct (IH (add_parameter c n v)) as (A & B & C & D & E & F). rewrite A, B, C, D, E. simpl.
    rewrite <- app_assoc. repeat split; auto.
  Qed.
  Lemma redirect_fields text script local (ps : list (option (list N) * V)) their xs s t :
    let pv := match their with Some v => v | None => pv20 end in
    let c := fold_left (fun c p => add_parameter c (fst p) (snd p)) ps (new_command text script local) in
    let got := from_wire (to_wire their (fold_left do_call xs c)) in
    goes_to s xs t ->
    (carried pv s -> setting s got = t) /\ (~ carried pv s -> setting s got = 0%N)
    /\ c_text got = text /\ c_script got = script /\ c_local got = local /\ c_params got = ps /\ c_unclaimed got = false.
  Proof.
    intros pv c got G. destruct (params_fold ps (new_command text script local)) as (A & B & C & D & E & F). fold c in A, B, C, D, E, F.
    destruct (calls_rest xs c) as (A' & B' & C' & D' & _ & F'). unfold got. rewrite from_to. fold pv. simpl.
    assert (T : t = setting s (fold_left do_call xs c)).
    { apply (goes_to_unique s xs); auto. apply calls_setting. rewrite F. now destruct s. }
    change (pv_of their) with pv.
    split; [|split; [|simpl in A, B, C, D, E; repeat split; congruence]].
    - intros K. subst t. destruct s; simpl in *; rewrite K; reflexivity.
    - intros K. destruct s; simpl in *; apply not_true_is_false in K; rewrite K; reflexivity.
  Qed.
  Lemma redirect_pair text script local their xs t :
    let got := from_wire (to_wire their (fold_left do_call xs (@new_command V text script local))) in
    goes_to SError xs t -> t <> 8%N ->
    (t = 1%N -> c_my got = 2%N /\ c_to got = 1%N) /\ (t = 0%N -> c_my got = 0%N /\ c_to got = 0%N).
  Proof.
    intros got G Ht. unfold got. rewrite from_to. simpl.
    destruct (calls_my xs (@new_command V text script local) eq_refl eq_refl) as [(x & L & M1 & M2) | (F & M1 & M2)];
      rewrite M1, M2.
    - assert (target x = t) as <-.
      { destruct L as (a & b & -> & [Ax Tx] & Fb). 
        destruct G as [(y & (a' & b' & E & Ay & Fb') & T) | [F _]].
        - assert (last_of error_not_null (a ++ x :: b) y).
          { exists a', b'. split; [exact E|]. split; [split; [exact Ay | congruence]|]. eapply Forall_impl; [|exact Fb']. intros z Hz [Az _]; auto. }
          assert (last_of error_not_null (a ++ x :: b) x) by (exists a, b; split; [reflexivity|split; [split; assumption|assumption]]).
          enough (x = y) by congruence. eapply last_of_unique; eauto.
        - exfalso. apply Forall_app in F as [_ F]. inversion F; tauto. }
      split; intros ->; auto.
    - assert (t = 0%N) as ->.
      { destruct G as [(y & (a' & b' & -> & Ay & Fb') & T) | [_ G]]; auto. exfalso. apply Forall_app in F as [_ F].
        inversion F as [|? ? N _]; subst. apply N. split; auto. }
      split; auto. discriminate.
  Qed.
  Lemma redirect_targets (c : command V) t :
    (is_ok (redirect_error c t) = true <-> target_ok t) /\ (is_ok (redirect_warning c t) = true <-> target_ok t)
    /\ (is_ok (redirect_verbose c t) = true <-> target_ok t) /\ (is_ok (redirect_debug c t) = true <-> target_ok t)
    /\ (is_ok (redirect_information c t) = true <-> target_ok t) /\ (is_ok (redirect_all c t) = true <-> target_ok t).
  Proof.
    rewrite <- valid_target_spec.
    unfold redirect_all, redirect_error, redirect_warning, redirect_verbose, redirect_debug, redirect_information.
    destruct (valid_target t); simpl; repeat split; intros; auto; try discriminate;
      destruct (t =? R_none)%N, (t =? R_null)%N; simpl; auto.
  Qed.
  Lemma redirect_refused (c : command V) t : ~ target_ok t ->
    redirect_error c t = Err ValueError /\ redirect_warning c t = Err ValueError /\ redirect_verbose c t = Err ValueError
    /\ redirect_debug c t = Err ValueError /\ redirect_information c t = Err ValueError /\ redirect_all c t = Err ValueError.
  Proof.
    rewrite <- valid_target_spec. intros K. apply not_true_is_false in K.
    unfold redirect_all, redirect_error, redirect_warning, redirect_verbose, redirect_debug, redirect_information.
    rewrite K. simpl. repeat split.
  Qed.
  Lemma built_eos (c : command V) : built c -> c_eos c = false.
  Proof.
    induction 1 as [text script local|c n v _ IH|c x _ IH]; [reflexivity|exact IH|].
    destruct (calls_rest [x] c) as (_ & _ & _ & _ & E & _). simpl in E. congruence.
  Qed.
  Lemma split_plain (cs : list (command V)) cur : Forall (fun c => c_eos c = false) cs -> split_statements [] cur cs = [cur ++ cs].
  Proof.
    intros F. revert cur. induction F as [|c cs E F IH]; intros cur; simpl; [now rewrite app_nil_r|].
    rewrite E, IH, <- app_assoc. reflexivity.
  Qed.
  Lemma one_statement {H A O} their (p : powershell V H A O) front last :
    Forall built (front ++ [last]) -> ps_commands p = front ++ [last] ->
    exists m p', to_create their p = Ok m /\ cp_extra m = None /\ length (cp_cmds m) = length (ps_commands p)
    /\ from_create m = Ok p' /\ map c_eos (ps_commands p') = repeat false (length front) ++ [true].
  Proof.
    intros B E. assert (F : Forall (fun c : command V => c_eos c = false) (front ++ [last]))
      by (eapply Forall_impl; [|exact B]; intros; now apply built_eos).
    destruct (create_roundtrip their p front last E) as (m & M1 & M2).
    exists m. eexists. split; [exact M1|]. unfold to_create in M1. rewrite E in M1.
    rewrite (split_plain _ [] F) in M1. destruct (front ++ [last]) as [|c0 cs] eqn:El; [now destruct front|].
    assert (M3 : forall X (a b : X), Ok a = Ok b -> a = b) by congruence. apply M3 in M1. subst m. cbn [cp_extra cp_cmds]. split; [reflexivity|]. split; [simpl; rewrite map_length, E; reflexivity|].
    split; [exact M2|]. cbn [ps_commands]. rewrite map_app, map_map. f_equal. rewrite <- El in B.
    apply Forall_app in B as [B _]. clear -B. induction B as [|c cs Bc _ IH]; [reflexivity|].
    cbn [map length repeat]. rewrite IH. f_equal. cbn. now apply built_eos.
  Qed.
  Lemma unknown_peer {H A O} (p : powershell V H A O) :
    to_create None p = to_create (Some (mkV 2 0 None None)) p
    /\ forall m w, to_create None p = Ok m -> In w (concat (cp_cmds m :: match cp_extra m with Some e => e | None => [] end)) ->
       w_err w = None /\ w_warn w = None /\ w_verb w = None /\ w_dbg w = None /\ w_info w = None.
  Proof.
    split; [reflexivity|]. intros m w M I. unfold to_create in M. destruct (ps_commands p) as [|c cs] eqn:E; [discriminate|].
    assert (exists l, In l (map (map (to_wire None)) (split_statements [] [] (c :: cs))) /\ In w l) as (l & L & W).
    { injection M as <-. cbn [cp_extra cp_cmds] in I. set (ss := map _ _) in *. apply in_concat in I as (l & [<- | L] & W).
      - destruct ss as [|s0 ss]; [destruct W|]. exists s0. split; [left; reflexivity|exact W].
      - exists l. destruct (1 <? length ss)%nat; [|destruct L]. auto. }
    apply in_map_iff in L as (l0 & <- & _). apply in_map_iff in W as (c0 & <- & _). repeat split.
  Qed.
End F.
