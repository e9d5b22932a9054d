(** Records on their way (C56, C57). *)
From Coq Require Import String.
From Verif Require Import Base BaseFacts Model_Scalars Model_Strings Model_Object Model_Clixml Model_Xml Model_Records.
From Verif Require Import Spec_Scalars Spec_Strings Spec_Clixml Spec_Xml Spec_Records Proofs_Strings Proofs_Scalars Proofs_Clixml1 Proofs_Clixml3 Proofs_Xml1 Proofs_Xml2.
Local Open Scope list_scope.

(** ** Casts undo what was written *)
Lemma c_text_r o : c_text (r_text o) = Ok o.
Proof. destruct o; reflexivity. Qed.
Lemma c_int_r o : c_int (r_int o) = Ok o.
Proof. destruct o; reflexivity. Qed.
Lemma c_bool_r o : c_bool (r_bool o) = Ok o.
Proof. destruct o; reflexivity. Qed.
Lemma c_dict_r o : c_dict (r_dict o) = Ok o.
Proof. destruct o; reflexivity. Qed.
Lemma c_list_r o : c_list (r_list o) = Ok o.
Proof. destruct o; reflexivity. Qed.
Lemma c_inv_r o : c_inv (r_inv o) = Ok o.
Proof. destruct o; reflexivity. Qed.
Lemma c_val_r o : c_val (r_val o) = Ok o.
Proof. destruct o; reflexivity. Qed.
Lemma c_enum_r n o : below n o -> c_enum n (r_int o) = match o with Some z => Ok z | None => Err ValueError end.
Proof.
  destruct o as [z|]; [|reflexivity]. cbn [below c_enum r_int]. intros H.
  replace ((0 <=? z) && (z <? n))%Z with true by lia. reflexivity.
Qed.
Lemma c_text_or_empty o : c_text (or_empty (r_text o)) = Ok (Some (plain o)).
Proof. destruct o as [[|c t]|]; reflexivity. Qed.

(** ** Lookup in what was written *)
Lemma lookup_app a b k : lookup (a ++ b) k = match lookup a k with Some v => Some v | None => lookup b k end.
Proof. induction a as [|[n v] t IH]; [reflexivity|]. cbn [app lookup]. destruct (String.eqb n k); auto. Qed.
Ltac field := unfold invocation_props, extent_props, command_props; rewrite ?lookup_app; reflexivity.

Section Arrival.
  Variables posix_dirname nt_dirname : list N -> list N.
  Notation dirname := (directory posix_dirname nt_dirname).

  Definition invocation_keys : list string :=
    ["InvocationInfo_BoundParameters"; "InvocationInfo_CommandOrigin"; "InvocationInfo_ExpectingInput"; "InvocationInfo_HistoryId";
     "InvocationInfo_InvocationName"; "InvocationInfo_Line"; "InvocationInfo_OffsetInLine"; "InvocationInfo_PipelineLength";
     "InvocationInfo_PipelinePosition"; "InvocationInfo_ScriptLineNumber"; "InvocationInfo_ScriptName"; "InvocationInfo_UnboundArguments";
     "SerializeExtent"; "ScriptExtent_File"; "ScriptExtent_StartLineNumber"; "ScriptExtent_StartColumnNumber";
     "ScriptExtent_EndLineNumber"; "ScriptExtent_EndColumnNumber"; "CommandInfo_CommandType"; "CommandInfo_Definition";
     "CommandInfo_Name"; "CommandInfo_Visibility"; "InvocationInfo_PSScriptRoot"; "InvocationInfo_PSCommandPath";
     "InvocationInfo_PositionMessage"; "InvocationInfo_PipelineIterationInfo"]%string.
  Definition absent (ps : props) (k : string) : bool := match lookup ps k with None => true | Some _ => false end.
  Lemma absent_app ps qs k : absent ps k = true -> lookup (ps ++ qs) k = lookup qs k.
  Proof. unfold absent. intros H. rewrite lookup_app. destruct (lookup ps k); [discriminate|reflexivity]. Qed.
  Lemma carries_in pre post i : forallb (absent pre) invocation_keys = true -> absent post "CommandInfo_CommandType" = true ->
    carries (pre ++ invocation_props i ++ post) i.
  Proof.
    intros Hp Hq.
    assert (L : forall k, In k invocation_keys -> lookup (pre ++ invocation_props i ++ post) k = lookup (invocation_props i ++ post) k).
    { intros k K. apply absent_app. exact (proj1 (forallb_forall _ _) Hp k K). }
    constructor; intros; repeat match goal with |- _ /\ _ => split end;
      (rewrite L; [|unfold invocation_keys; cbn [In]; tauto]); unfold invocation_props;
      repeat match goal with H : iv_position i = _ |- _ => rewrite H | H : iv_command i = _ |- _ => rewrite H end; try reflexivity;
      destruct (iv_position i); try reflexivity.
    all: revert Hq; unfold absent; destruct (lookup post "CommandInfo_CommandType") eqn:E; [discriminate|intros _; exact E].
  Qed.
  (** No invocation property has one of these names. *)
  Definition other_keys : list string :=
    ["ErrorDetails_Message"; "ErrorDetails_RecommendedAction"; "ErrorDetails_ScriptStackTrace"; "PipelineIterationInfo";
     "InformationalRecord_PipelineIterationInfo"]%string.
  Lemma others i : forallb (absent (invocation_props i)) other_keys = true.
  Proof. unfold invocation_props. destruct (iv_position i), (iv_command i); reflexivity. Qed.
  Lemma other i k qs : In k other_keys -> lookup (invocation_props i ++ qs) k = lookup qs k.
  Proof. intros K. apply absent_app. exact (proj1 (forallb_forall _ _) (others i) k K). Qed.

  Definition bad_command (i : invocation) : bool :=
    match iv_command i with
    | Some c => match mc_type c, mc_visibility c with Some None, _ => false | _, Some None => true | _, _ => false end
    | None => false
    end.
  Lemma read_invocation_carries declared ps i : carries ps i -> typed_invocation i ->
    read_invocation posix_dirname nt_dirname declared ps =
      if bad_command i then Err ValueError
      else match iv_origin i with None => Err ValueError | Some _ => Ok (arriving_invocation dirname i) end.
  Proof.
    intros C [To Tc]. unfold read_invocation, attribute_or_none, attribute. cbv zeta.
    rewrite (cr_bound _ _ C), (cr_origin _ _ C), (cr_expecting _ _ C), (cr_history _ _ C), (cr_name _ _ C), (cr_line _ _ C),
      (cr_offset _ _ C), (cr_length _ _ C), (cr_pos _ _ C), (cr_number _ _ C), (cr_script _ _ C), (cr_unbound _ _ C), (cr_se _ _ C).
    cbn [bind]. rewrite !c_text_or_empty. cbn [bind truthy].
    set (P := if match iv_position i with Some _ => true | None => false end then _ else _).
    assert (E : P = Ok (match iv_position i with Some e => bare e | None => guessed i end,
                        match iv_position i with Some _ => [] | None => plain (iv_script i) end,
                        match iv_position i with Some _ => [] | None => dirname (plain (iv_script i)) end)).
    { unfold P. destruct (iv_position i) as [e|] eqn:Ep.
      - destruct (cr_extent _ _ C e Ep) as (A1 & A2 & A3 & A4 & A5).
        unfold read_extent, attribute. rewrite A1, A2, A3, A4, A5. cbn [bind].
        rewrite c_text_r, !c_int_r. reflexivity.
      - rewrite !c_int_r. cbn [bind]. unfold guessed, directory. destruct (plain (iv_line i)) as [|c t]; [reflexivity|].
        cbn [Nat.eqb length]. do 4 f_equal; repeat f_equal; lia. }
    rewrite E. clear E P. cbn [bind].
    set (Q := match match lookup ps "CommandInfo_CommandType" with Some v => v | None => RNull end with RNull => Ok None | _ => _ end).
    assert (E : Q = if bad_command i then Err ValueError
                    else Ok (match iv_command i with Some c => arriving_command c | None => None end)).
    { unfold Q, bad_command. destruct (iv_command i) as [c|] eqn:Ec.
      - destruct (cr_command _ _ C c Ec) as (A1 & A2 & A3 & A4). rewrite A1, A2, A3, A4. cbn [bind]. rewrite !c_text_r.
        unfold arriving_command. specialize (Tc : forall v, mc_visibility c = Some v -> below 2 v).
        assert (V : below 2 (if_missing 0%Z (mc_visibility c))).
        { destruct (mc_visibility c) as [v|] eqn:Ev; cbn [if_missing]; [exact (Tc v eq_refl)|cbn; lia]. }
        rewrite (c_enum_r _ _ V). clear V.
        destruct (mc_type c) as [[ty|]|] eqn:Et; cbn [if_missing r_int c_flags bind some_or];
        destruct (mc_visibility c) as [[v|]|]; cbn [if_missing bind some_or]; try reflexivity;
        destruct (mc_name c), (mc_definition c); reflexivity.
      - rewrite (cr_no_command _ _ C Ec). reflexivity. }
    rewrite E. clear E Q. destruct (bad_command i); [reflexivity|]. cbn [bind].
    rewrite c_dict_r. cbn [bind]. rewrite (c_enum_r _ _ To).
    destruct (iv_origin i) as [o|] eqn:Eo; [|reflexivity]. cbn [bind].
    rewrite c_list_r; cbn [bind]; rewrite c_bool_r; cbn [bind].
    repeat (rewrite ?c_int_r, ?c_text_r; cbn [bind]).
    unfold arriving_invocation. rewrite Eo. destruct (iv_position i); destruct (iv_bound i), (iv_unbound i); reflexivity.
  Qed.
  Lemma readable_bad i : readable_invocation i <-> bad_command i = false /\ iv_origin i <> None.
  Proof.
    unfold readable_invocation, bad_command. split.
    - intros [A B]. split; [|exact A]. destruct (iv_command i) as [c|]; [|reflexivity].
      specialize (B c eq_refl). destruct (mc_type c) as [[ty|]|]; destruct (mc_visibility c) as [[v|]|]; try reflexivity;
      exfalso; apply B; congruence.
    - intros [A B]. split; [exact B|]. intros c Ec. rewrite Ec in A.
      destruct (mc_type c) as [[ty|]|]; destruct (mc_visibility c) as [[v|]|]; congruence.
  Qed.


  (** ** Error records *)
  Lemma opt_eqb_Z a b : opt_eqb Z.eqb a b = true <-> a = b.
  Proof.
    destruct a as [x|], b as [y|]; cbn; try (split; congruence).
    rewrite Z.eqb_eq. split; congruence.
  Qed.
  Lemma extent_text_iff e : (exists s, extent_text e = Ok s) <-> has_text e.
  Proof.
    unfold extent_text, has_text. destruct (po_column (ex_end e)) as [c|]; cbn [given bind].
    2: { split; [intros [s H]; discriminate|intros (c & H & _); discriminate]. }
    destruct (c <? 1)%Z eqn:Ec.
    { split; [intros _; exists c; split; [reflexivity|left; lia]|eexists; reflexivity]. }
    assert (Q : forall P : Prop, (exists c0, Some c = Some c0 /\ ((c0 < 1)%Z \/ P)) <-> P).
    { intros P. split; [|intros HP; exists c; auto]. intros (c0 & H & [H1|H1]); [|exact H1]. exfalso. injection H as <-. lia. }
    rewrite Q. clear Q Ec.
    destruct (opt_eqb Z.eqb (po_line (ex_start e)) (po_line (ex_end e))) eqn:El.
    - apply opt_eqb_Z in El. destruct (po_text (ex_start e)) as [l|]; [destruct (po_column (ex_start e)) as [b|]|]; cbn [given bind].
      + split; [intros _|intros _; eexists; reflexivity]. split; [discriminate|]. left. split; [exact El|discriminate].
      + split; [intros [s H]; discriminate|]. intros [_ [[_ H]|[H _]]]; congruence.
      + split; [intros [s H]; discriminate|]. intros [H _]; congruence.
    - assert (Ne : po_line (ex_start e) <> po_line (ex_end e)) by (intros X; apply opt_eqb_Z in X; congruence).
      destruct (po_text (ex_start e)) as [l|]; [destruct (po_text (ex_end e)) as [k|]|]; cbn [given bind].
      + split; [intros _|intros _; eexists; reflexivity]. split; [discriminate|]. right. split; [exact Ne|discriminate].
      + split; [intros [s H]; discriminate|]. intros [_ [[H _]|[_ H]]]; congruence.
      + split; [intros [s H]; discriminate|]. intros [H _]; congruence.
  Qed.
  Lemma writable_iff o : (exists u, writable o = Ok u) <-> (forall i e, o = Some i -> iv_position i = Some e -> has_text e).
  Proof.
    unfold writable. destruct o as [i|].
    2: { split; [intros _ i e H; discriminate|intros _; eexists; reflexivity]. }
    destruct (iv_position i) as [e|] eqn:Ei.
    2: { split; [intros _ j e H; injection H as <-; congruence|intros _; eexists; reflexivity]. }
    split.
    - intros [u H] j e' J Ej. injection J as <-. rewrite Ei in Ej. injection Ej as <-. apply extent_text_iff.
      destruct (extent_text e); [eexists; reflexivity|discriminate H].
    - intros H. destruct (proj2 (extent_text_iff e) (H i e eq_refl Ei)) as [s Es]. rewrite Es. eexists. reflexivity.
  Qed.
  Lemma error_string_shows r s : error_string r = Ok s <-> shows r s.
  Proof.
    unfold error_string, shows. destruct (er_string r) as [t|].
    { split; [intros H; injection H as ->; left; reflexivity|].
      intros [H|[[H _]|[H _]]]; [injection H as ->; reflexivity|discriminate H|discriminate H]. }
    assert (X : (exception_message (er_exception r) = Ok s) <-> exists x, er_exception r = Some x /\ x_message x = Some (Some s)).
    { unfold exception_message. destruct (er_exception r) as [x|].
      2: { split; [discriminate|intros (x & H & _); discriminate]. }
      destruct (x_message x) as [[m|]|] eqn:Ex.
      - split; [intros H; injection H as ->; exists x; split; [reflexivity|exact Ex]|].
        intros (y & H & H1). injection H as <-. rewrite Ex in H1. injection H1 as ->. reflexivity.
      - split; [discriminate|]. intros (y & H & H1). injection H as <-. congruence.
      - split; [discriminate|]. intros (y & H & H1). injection H as <-. congruence. }
    destruct (er_details r) as [[[[|c t]|] a]|].
    2: { split.
      - intros H. injection H as <-. right. left. split; [reflexivity|]. split; [discriminate|]. eexists. split; reflexivity.
      - intros [H|[(_ & _ & d & H & H1)|(_ & H & _)]]; [discriminate H| |].
        + injection H as <-. cbn in H1. congruence.
        + specialize (H _ _ eq_refl eq_refl). discriminate H. }
    all: rewrite X; split;
         [intros H; right; right; split; [reflexivity|]; split; [|exact H]; intros d m D M;
          first [discriminate D | injection D as <-; cbn in M; congruence]
         |intros [H|[(_ & Hs & d & H & H1)|(_ & _ & H)]]; [discriminate H| |exact H];
          first [discriminate H | injection H as <-; cbn in H1; congruence]].
  Qed.
  Lemma categories_agree z n : (0 <= z)%Z -> nth_error category_names (Z.to_nat z) = Some n -> In (z, n) error_categories.
  Proof.
    intros Hz H. assert (G : forall k m, nth_error category_names k = Some m -> In (Z.of_nat k, m) error_categories).
    { intros k m. do 32 (destruct k as [|k]; [intros E; injection E as <-; cbn; tauto|]). cbn. destruct k; discriminate. }
    specialize (G _ _ H). rewrite Z2Nat.id in G by exact Hz. exact G.
  Qed.
  Lemma category_text_ok c z : ca_category c = Some z -> (0 <= z < 32)%Z -> exists s, category_text c = Ok s /\ spelled c s.
  Proof.
    intros Hz Hb. unfold category_text, spelled. rewrite Hz.
    destruct (nth_error category_names (Z.to_nat z)) as [n|] eqn:En.
    - eexists. split; [reflexivity|]. exists z, n. split; [reflexivity|]. split; [apply categories_agree; [lia|exact En]|reflexivity].
    - exfalso. apply nth_error_None in En. cbn in En. lia.
  Qed.

  (** What is written when it is written. *)
  Lemma write_error_iff r : typed_error r ->
    ((exists o, write_error r = Ok o) <-> sendable r)
    /\ forall s ps, write_error r = Ok (s, ps) -> shows r s.
  Proof.
    intros [Tc Ti]. split.
    - unfold write_error, sendable. destruct (er_category r) as [c|] eqn:Ec.
      2: { split; [intros [o H]; discriminate|intros [(c & z & H & _) _]; discriminate]. }
      specialize (Tc c eq_refl). destruct (ca_category c) as [z|] eqn:Ez.
      2: { unfold category_text. rewrite Ez. split; [intros [o H]; discriminate|]. intros [(c' & z & H & H1) _].
           injection H as <-. congruence. }
      destruct (category_text_ok c z Ez Tc) as (m & Em & _). rewrite Em. cbn [bind].
      destruct (error_string r) as [s|e] eqn:Es; cbn [bind].
      2: { split; [intros [o H]; discriminate|]. intros (_ & [s H] & _). apply error_string_shows in H. congruence. }
      apply error_string_shows in Es. pose proof (writable_iff (er_invocation r)) as W.
      destruct (writable (er_invocation r)) as [u|e]; cbn [bind].
      + split; [intros _|intros _; eexists; reflexivity]. split; [exists c, z; auto|]. split; [exists s; exact Es|].
        apply W. exists u. reflexivity.
      + split; [intros [o H]; discriminate|]. intros (_ & _ & H). apply W in H. destruct H as [u H]. discriminate H.
    - intros s ps H. unfold write_error in H. destruct (er_category r) as [c|]; [|discriminate].
      apply bind_Ok in H. destruct H as (m & _ & H). apply bind_Ok in H. destruct H as (s' & Es & H).
      apply bind_Ok in H. destruct H as (u & _ & H). injection H as <- _. apply error_string_shows. exact Es.
  Qed.

  (** ** Reading what was written *)
  Lemma Ok_pair1 {A} (a a' : A) : Ok a = Ok a' -> a = a'.
  Proof. congruence. Qed.
  Lemma Ok_pair {A B} (a a' : A) (b b' : B) : Ok (a, b) = Ok (a', b') -> a = a' /\ b = b'.
  Proof. intros H. split; congruence. Qed.
  Lemma written r s ps : write_error r = Ok (s, ps) -> exists c m, er_category r = Some c /\ category_text c = Ok m /\ holds ps r c m.
  Proof.
    intros H. unfold write_error in H. destruct (er_category r) as [c|] eqn:Ec; [|discriminate].
    apply bind_Ok in H. destruct H as (m & Em & H). apply bind_Ok in H. destruct H as (s' & Es & H).
    apply bind_Ok in H. destruct H as (u & _ & H). apply Ok_pair in H. destruct H as [_ <-].
    exists c, m. split; [reflexivity|]. split; [exact Em|]. clear Em Es Ec s' s u.
    match goal with |- holds (?a ++ ?b ++ ?t ++ ?e) _ _ _ => set (A := a); set (B := b); set (T := t); set (E := e) end.
    assert (LE : forall k, In k other_keys -> k <> "PipelineIterationInfo"%string -> lookup E k = None).
    { intros k K Ne. unfold E. clear E. destruct (er_extended r) eqn:Ee; [destruct (er_invocation r) as [i|] eqn:Ei|].
      - cbn [app]. unfold other_keys in K. cbn [In] in K.
        decompose [or] K; subst; try contradiction; try congruence; cbn [lookup]; (etransitivity; [apply other; cbn; tauto|reflexivity]).
      - unfold other_keys in K. cbn [In] in K. decompose [or] K; subst; try contradiction; reflexivity.
      - unfold other_keys in K. cbn [In] in K. decompose [or] K; subst; try contradiction; reflexivity. }
    constructor; try (subst A; reflexivity).
    - change (lookup (B ++ T ++ E) "ErrorDetails_Message" = match er_details r with Some d => Some (r_text (de_message d)) | None => None end).
      unfold B. destruct (er_details r) as [d|]; [reflexivity|]. cbn [app]. unfold T. rewrite lookup_app, LE.
      + destruct (truthy (r_text (er_trace r))); reflexivity.
      + cbn; tauto.
      + discriminate.
    - change (lookup (B ++ T ++ E) "ErrorDetails_RecommendedAction" = match er_details r with Some d => Some (r_text (de_action d)) | None => None end).
      unfold B. destruct (er_details r) as [d|]; [reflexivity|]. cbn [app]. unfold T. rewrite lookup_app, LE.
      + destruct (truthy (r_text (er_trace r))); reflexivity.
      + cbn; tauto.
      + discriminate.
    - change (lookup (B ++ T ++ E) "ErrorDetails_ScriptStackTrace" = match non_empty (er_trace r) with Some t => Some (RText t) | None => None end).
      rewrite absent_app; [|unfold B; destruct (er_details r); reflexivity].
      unfold T. destruct (er_trace r) as [[|x t]|]; cbn [r_text truthy non_empty app]; try reflexivity; apply LE; try discriminate; cbn; tauto.
    - change (lookup (B ++ T ++ E) "SerializeExtendedInfo"
              = Some (RBool match er_extended r, er_invocation r with true, Some _ => true | _, _ => false end)).
      rewrite absent_app; [|unfold B; destruct (er_details r); reflexivity].
      rewrite absent_app; [|unfold T; destruct (truthy (r_text (er_trace r))); reflexivity].
      unfold E. destruct (er_extended r); [destruct (er_invocation r)|]; reflexivity.
    - intros i Ee Ei. unfold E. rewrite Ee, Ei. cbn [app].
      match goal with |- carries (_ ++ _ ++ _ ++ ?x :: ?p ++ ?q) i /\ _ => set (X := x); set (Q := q) end.
      replace (A ++ B ++ T ++ X :: invocation_props i ++ Q) with ((A ++ B ++ T ++ [X]) ++ invocation_props i ++ Q)
        by (rewrite <- !app_assoc; reflexivity).
      split.
      + apply carries_in; [|reflexivity]. unfold A, B, T. destruct (er_details r), (truthy (r_text (er_trace r))); reflexivity.
      + rewrite absent_app; [|unfold A, B, T; destruct (er_details r), (truthy (r_text (er_trace r))); reflexivity].
        rewrite other; [reflexivity|cbn; tauto].
  Qed.
  Lemma truthy_text o : truthy (r_text o) = match non_empty o with Some _ => true | None => false end.
  Proof. destruct o as [[|c t]|]; reflexivity. Qed.
  Lemma read_written declared r c m ps : typed_error r -> er_category r = Some c -> category_text c = Ok m -> holds ps r c m ->
    ((exists r', read_error posix_dirname nt_dirname declared ps = Ok r') <-> readable r)
    /\ (forall r', read_error posix_dirname nt_dirname declared ps = Ok r' -> arrives dirname r r').
  Proof.
    intros [Tc Ti] Ec Em H. specialize (Tc c Ec).
    unfold read_error, attribute_or_none, attribute. cbv zeta.
    rewrite (ho_exception _ _ _ _ H), (ho_target _ _ _ _ H), (ho_id _ _ _ _ H), (ho_inv _ _ _ _ H), (ho_category _ _ _ _ H),
      (ho_activity _ _ _ _ H), (ho_reason _ _ _ _ H), (ho_tname _ _ _ _ H), (ho_ttype _ _ _ _ H), (ho_message _ _ _ _ H),
      (ho_dm _ _ _ _ H), (ho_da _ _ _ _ H), (ho_trace _ _ _ _ H), (ho_se _ _ _ _ H). cbn [bind].
    rewrite (c_enum_r _ _ Tc).
    destruct (ca_category c) as [z|] eqn:Ez; [|unfold category_text in Em; rewrite Ez in Em; discriminate Em].
    cbn [bind]. repeat (rewrite c_text_r; cbn [bind]).
    set (D := if truthy _ || truthy _ then _ else _).
    assert (ED : D = Ok (arriving_details (er_details r))).
    { unfold D, arriving_details. destruct (er_details r) as [d|]; [|reflexivity]. rewrite !truthy_text, !c_text_r. cbn [bind].
      destruct d as [dm da]; cbn [de_message de_action]. destruct (non_empty dm), (non_empty da); reflexivity. }
    rewrite ED. clear ED D. cbn [bind c_text].
    destruct (er_exception r) as [x|] eqn:Ex; cbn [r_exc bind].
    2: { split; [|intros r' X; discriminate X]. split; [intros [r' X]; discriminate X|]. intros [X _]. congruence. }
    rewrite c_inv_r. cbn [bind truthy].
    set (G := if match er_extended r with true => _ | false => false end then _ else Ok (None, None)).
    assert (EG : (exists y, G = Ok y) <-> readable r).
    { unfold G, readable. destruct (er_extended r) eqn:Ee; [destruct (er_invocation r) as [i|] eqn:Ei|].
      - destruct (ho_extended _ _ _ _ H i Ee Ei) as [Ci Cp]. rewrite Cp. cbn [bind].
        rewrite (read_invocation_carries declared ps i Ci (Ti i eq_refl)). rewrite c_list_r.
        pose proof (readable_bad i) as RB. destruct (bad_command i); cbn [bind].
        + split; [intros [y Y]; discriminate Y|]. intros [_ X]. specialize (X eq_refl i eq_refl). apply RB in X. destruct X; congruence.
        + destruct (iv_origin i); cbn [bind].
          * split; [|intros _; eexists; reflexivity]. intros _. split; [congruence|]. intros _ j J. injection J as <-.
            apply RB. split; congruence.
          * split; [intros [y Y]; discriminate Y|]. intros [_ X]. specialize (X eq_refl i eq_refl). apply RB in X. destruct X; congruence.
      - split; [|intros _; eexists; reflexivity]. intros _. split; [congruence|]. intros _ j J. discriminate J.
      - split; [|intros _; eexists; reflexivity]. intros _. split; [congruence|]. intros X. discriminate X. }
    assert (EV : forall y, G = Ok y -> y = (match sent_invocation dirname (er_extended r) (er_invocation r) with Some _ => er_iteration r | None => None end,
                                       sent_invocation dirname (er_extended r) (er_invocation r))).
    { clear EG. unfold G. intros y Y. destruct (er_extended r) eqn:Ee; [destruct (er_invocation r) as [i|] eqn:Ei|]; cbn [sent_invocation].
      - destruct (ho_extended _ _ _ _ H i Ee Ei) as [Ci Cp]. rewrite Cp in Y. cbn [bind] in Y.
        rewrite (read_invocation_carries declared ps i Ci (Ti i eq_refl)) in Y. rewrite c_list_r in Y.
        destruct (bad_command i); [discriminate Y|]. destruct (iv_origin i); [|discriminate Y]. cbn [bind] in Y. congruence.
      - injection Y as <-. reflexivity.
      - injection Y as <-. destruct (er_invocation r); reflexivity. }
    clearbody G. destruct G as [y|e]; cbn [bind].
    2: { split; [|intros r' X; discriminate X]. rewrite <- EG. split; intros [y Y]; discriminate Y. }
    rewrite (EV y eq_refl). clear EV. cbn [bind]. rewrite c_val_r. cbn [bind]. rewrite ?c_text_r. cbn [bind].
    assert (ET : c_text match match non_empty (er_trace r) with Some t => Some (RText t) | None => None end with Some v => v | None => RNull end
                 = Ok (non_empty (er_trace r))) by (destruct (non_empty (er_trace r)); reflexivity).
    rewrite ET. clear ET. cbn [bind c_true]. split.
    - rewrite <- EG. split; intros _; eexists; reflexivity.
    - intros r' R. injection R as <-. constructor; cbn; try reflexivity.
      + intros x' X. congruence.
      + intros c' X. rewrite Ec in X. injection X as <-. destruct (category_text_ok c z Ez) as (s & Es & Sp).
        { exact Tc. }
        rewrite Em in Es. injection Es as <-. exists m. split; [exact Sp|]. rewrite Ez. reflexivity.
      + destruct (er_extended r), (er_invocation r); reflexivity.
  Qed.

  Lemma invocation_named i : map fst (invocation_props i) = invocation_names i.
  Proof. unfold invocation_props, invocation_names. destruct (iv_position i), (iv_command i); reflexivity. Qed.
  Lemma error_named r s ps : write_error r = Ok (s, ps) -> map fst ps = error_names r.
  Proof.
    intros H. unfold write_error in H. destruct (er_category r) as [c|]; [|discriminate].
    apply bind_Ok in H. destruct H as (m & _ & H). apply bind_Ok in H. destruct H as (s' & _ & H).
    apply bind_Ok in H. destruct H as (u & _ & H). apply Ok_pair in H. destruct H as [_ <-].
    unfold error_names, extended_names. rewrite !map_app. f_equal. f_equal; [destruct (er_details r); reflexivity|].
    f_equal; [destruct (er_trace r) as [[|x t]|]; reflexivity|].
    destruct (er_extended r); [destruct (er_invocation r)|]; try reflexivity. rewrite !map_app, invocation_named. reflexivity.
  Qed.

  (** ** Debug, verbose and warning records *)
  Lemma informational_written declared r s ps : (forall i, in_invocation r = Some i -> typed_invocation i) ->
    write_informational r = Ok (s, ps) ->
    s = in_string r
    /\ ((exists r', read_informational posix_dirname nt_dirname declared ps = Ok r')
        <-> (in_extended r = true -> forall i, in_invocation r = Some i -> readable_invocation i))
    /\ (forall r', read_informational posix_dirname nt_dirname declared ps = Ok r' -> r' = arriving_informational dirname r).
  Proof.
    intros Ti H. unfold write_informational in H. apply Ok_pair in H. destruct H as [<- <-]. split; [reflexivity|].
    unfold arriving_informational. destruct (in_extended r) eqn:Ee; [destruct (in_invocation r) as [i|] eqn:Ei|].
    - match goal with |- context [read_informational _ _ _ ([?a] ++ [?b] ++ _ ++ ?q)] => set (A := a); set (B := b); set (Q := q) end.
      change ([A] ++ [B] ++ invocation_props i ++ Q) with ([A; B] ++ invocation_props i ++ Q).
      assert (C : carries ([A; B] ++ invocation_props i ++ Q) i) by (apply carries_in; reflexivity).
      assert (P : lookup ([A; B] ++ invocation_props i ++ Q) "InformationalRecord_PipelineIterationInfo" = Some (r_list (in_iteration r))).
      { rewrite absent_app; [|reflexivity]. rewrite other; [reflexivity|cbn; tauto]. }
      assert (S1 : lookup ([A; B] ++ invocation_props i ++ Q) "InformationalRecord_SerializeInvocationInfo" = Some (RBool true)) by reflexivity.
      assert (M : lookup ([A; B] ++ invocation_props i ++ Q) "InformationalRecord_Message" = Some (r_text (in_message r))) by reflexivity.
      revert C P S1 M. generalize ([A; B] ++ invocation_props i ++ Q). clear A B Q. intros ps C P S1 M.
      unfold read_informational, attribute. rewrite P, S1, M. cbn [bind truthy].
      rewrite (read_invocation_carries declared ps i C (Ti i eq_refl)), c_list_r.
      pose proof (readable_bad i) as RB. destruct (bad_command i); cbn [bind].
      { split; [|intros r' R; discriminate R]. split; [intros [y Y]; discriminate Y|]. intros X. specialize (X eq_refl i eq_refl). apply RB in X.
        destruct X; congruence. }
      destruct (iv_origin i) eqn:Eo; cbn [bind].
      2: { split; [|intros r' R; discriminate R]. split; [intros [y Y]; discriminate Y|]. intros X. specialize (X eq_refl i eq_refl). apply RB in X.
        destruct X; congruence. }
      rewrite c_text_r. cbn [bind c_true]. split.
      + split; [|intros _; eexists; reflexivity]. intros _ _ j J. injection J as <-. apply RB. split; congruence.
      + intros r' R. injection R as <-. reflexivity.
    - unfold read_informational, attribute. cbn [app lookup String.eqb Ascii.eqb Bool.eqb bind truthy]. cbn.
      rewrite c_text_r. cbn. split; [split; [intros _ _ j J; discriminate J|intros _; eexists; reflexivity]|]. intros r' R. injection R as <-.
      reflexivity.
    - unfold read_informational, attribute. cbn. rewrite c_text_r. cbn.
      split; [split; [intros _ X; discriminate X|intros _; eexists; reflexivity]|]. intros r' R. injection R as <-.
      destruct (in_invocation r); reflexivity.
  Qed.

  Lemma informational_holds r s ps : write_informational r = Ok (s, ps) -> holds_informational ps r /\ map fst ps = informational_names r.
  Proof.
    intros H. unfold write_informational in H. apply Ok_pair in H. destruct H as [_ <-]. split.
    - constructor; [reflexivity| |].
      + destruct (in_extended r), (in_invocation r); reflexivity.
      + intros i Ee Ei. rewrite Ee, Ei.
        match goal with |- carries ([?a] ++ [?b] ++ _ ++ ?q) _ /\ _ => set (A := a); set (B := b); set (Q := q) end.
        change ([A] ++ [B] ++ invocation_props i ++ Q) with ([A; B] ++ invocation_props i ++ Q). split; [apply carries_in; reflexivity|].
        rewrite absent_app; [|reflexivity]. rewrite other; [reflexivity|cbn; tauto].
    - unfold informational_names, extended_names. destruct (in_extended r); [destruct (in_invocation r)|]; try reflexivity.
      rewrite !map_app, invocation_named. reflexivity.
  Qed.

  (** ** Settled records arrive unchanged *)
  Lemma complete_arrives i : complete_invocation i -> arriving_invocation dirname i = i.
  Proof.
    intros (B & U & L & M & P & R & (e & E & F & S1 & S2) & C). unfold arriving_invocation. rewrite E.
    destruct i as [b o p ex h n l c off len pos m cp sr ln sc un]; cbn in *. subst p m cp sr.
    destruct b as [b|]; [|congruence]. destruct un as [un|]; [|congruence]. destruct l as [l|]; [|congruence].
    assert (Be : bare e = e).
    { destruct e as [[f1 l1 c1 t1] [f2 l2 c2 t2]]; cbn in *. unfold bare. cbn. congruence. }
    rewrite Be. cbn. f_equal. destruct c as [c|]; [|reflexivity].
    destruct (C c eq_refl) as (C1 & C2 & C3 & C4 & C5). unfold arriving_command. destruct c as [t n' d v]; cbn in *.
    destruct t as [[t|]|]; [|congruence|congruence]. destruct n'; [|congruence]. destruct d; [|congruence]. destruct v; [|congruence]. reflexivity.
  Qed.
  Lemma spelled_inj c s t : spelled c s -> spelled c t -> s = t.
  Proof.
    intros (z & n & A & B & ->) (z' & n' & A' & B' & ->). assert (z = z') by congruence. subst z'.
    assert (F : forall k, In (z, k) error_categories -> nth_error category_names (Z.to_nat z) = Some k).
    { intros k H. unfold error_categories in H. cbn [In] in H. repeat (destruct H as [H|H]; [injection H as <- <-; reflexivity|]). destruct H. }
    apply F in B. apply F in B'. congruence.
  Qed.
  Lemma settled_arrives r r' : settled r -> er_exception r <> None -> er_category r <> None -> arrives dirname r r' -> r' = r.
  Proof.
    intros (D & T & I & St & No & X & C) Nx Nc A.
    destruct A as [a1 a2 a3 a4 a5 a6 a7 a8 a9 a10 a11].
    destruct (er_exception r) as [x|] eqn:Ex; [|congruence]. destruct (er_category r) as [c|] eqn:Ec; [|congruence].
    specialize (a1 x eq_refl). specialize (X x eq_refl). destruct (a2 c eq_refl) as (s & Sp & a2'). destruct (C c eq_refl) as (s' & Sp' & Cs).
    assert (s' = s) by (eapply spelled_inj; eassumption). subst s'. clear a2 C.
    assert (Ed : er_details r' = er_details r).
    { rewrite a5. unfold arriving_details. destruct (er_details r) as [d|]; [|reflexivity]. destruct (D d eq_refl) as [H|H].
      - destruct (non_empty (de_message d)); [reflexivity|congruence].
      - destruct (non_empty (de_message d)); [reflexivity|]. destruct (non_empty (de_action d)); [reflexivity|congruence]. }
    assert (Et : er_trace r' = er_trace r).
    { rewrite a6. destruct (er_trace r) as [[|t0 t]|]; cbn; congruence. }
    assert (Ei : er_invocation r' = er_invocation r /\ er_iteration r' = er_iteration r /\ er_extended r' = er_extended r).
    { rewrite a7, a8, a9. destruct (er_invocation r) as [i|].
      - destruct I as [I1 I2]. rewrite I1. cbn. rewrite (complete_arrives i I2). auto.
      - destruct I as [I1 I2]. rewrite I1, I2. auto. }
    destruct Ei as (Ei & Eit & Ee). clear D T I a5 a6 a7 a8 a9.
    destruct r, r'; cbn in *. destruct c, x; cbn in *. congruence.
  Qed.
End Arrival.

(** The text of a record is that of what arrives of it. *)
Lemma arrived_shows dirname r r' : er_exception r <> None -> er_string r = None -> arrives dirname r r' -> forall s, shows r s -> shows r' s.
Proof.
  intros Nx Es A s [H|[(_ & Ne & d & Ed & Em)|(_ & No & x & Ex & Xm)]]; [congruence| |].
  - right. left. split; [apply A|]. split; [exact Ne|]. exists d. split; [|exact Em]. rewrite (arr_details _ _ _ A), Ed. cbn. rewrite Em.
    destruct s; [congruence|reflexivity].
  - right. right. split; [apply A|]. split.
    + intros d m D M. rewrite (arr_details _ _ _ A) in D. unfold arriving_details in D. destruct (er_details r) as [d0|]; [|discriminate].
      assert (d0 = d) by (destruct (non_empty (de_message d0)), (non_empty (de_action d0)); congruence). subst d0. exact (No d m eq_refl M).
    + eexists. split; [exact (arr_exception _ _ _ A x Ex)|exact Xm].
Qed.

(** The text that is cut out of the lines. *)
Lemma extent_cut e s : (forall b, po_column (ex_start e) = Some b -> (1 <= b)%Z) -> po_column (ex_start e) <> None ->
  (extent_text e = Ok s <-> cut_out e s).
Proof.
  intros Hb Nb. destruct (po_column (ex_start e)) as [b|] eqn:Eb; [|congruence]. specialize (Hb b eq_refl). clear Nb.
  unfold extent_text, cut_out. rewrite Eb. destruct (po_column (ex_end e)) as [c|]; cbn [given bind].
  2: { split; [discriminate|]. intros [(c & H & _)|[(b' & c & l & _ & H & _)|(b' & c & l & k & _ & H & _)]]; discriminate H. }
  destruct (c <? 1)%Z eqn:Ec.
  { apply Z.ltb_lt in Ec. split.
    - intros H. injection H as <-. left. exists c. auto.
    - intros [(c' & _ & _ & ->)|[(b' & c' & l & _ & H & _ & H1 & _)|(b' & c' & l & k & _ & H & _ & H1 & _)]]; [reflexivity| |];
      exfalso; injection H as <-; lia. }
  apply Z.ltb_ge in Ec.
  destruct (opt_eqb Z.eqb (po_line (ex_start e)) (po_line (ex_end e))) eqn:El.
  - apply opt_eqb_Z in El. destruct (po_text (ex_start e)) as [l|]; cbn [given bind].
    2: { split; [discriminate|]. intros [(c' & H & H1 & _)|[(b' & c' & l & _ & _ & _ & _ & _ & H & _)|(b' & c' & l & k & _ & _ & _ & _ & _ & H & _)]];
         [exfalso; injection H as <-; lia|discriminate H|discriminate H]. }
    assert (E : slice l (Z.max (b - 1) 0) c = between l b (c + 1)).
    { unfold slice, between. rewrite Z.max_l by lia. f_equal. lia. }
    rewrite E. split.
    + intros H. injection H as <-. right. left. exists b, c, l. repeat (split; [reflexivity || assumption|]). reflexivity.
    + intros [(c' & H & H1 & _)|[(b' & c' & l' & B & C & _ & _ & _ & L & ->)|(b' & c' & l' & k & _ & _ & _ & _ & H & _)]].
      * exfalso. injection H as <-. lia.
      * injection B as <-. injection C as <-. injection L as <-. reflexivity.
      * congruence.
  - assert (Ne : po_line (ex_start e) <> po_line (ex_end e)) by (intros X; apply opt_eqb_Z in X; congruence).
    destruct (po_text (ex_start e)) as [l|]; cbn [given bind].
    2: { split; [discriminate|]. intros [(c' & H & H1 & _)|[(b' & c' & l & _ & _ & _ & _ & _ & H & _)|(b' & c' & l & k & _ & _ & _ & _ & _ & H & _)]];
         [exfalso; injection H as <-; lia|discriminate H|discriminate H]. }
    destruct (po_text (ex_end e)) as [k|]; cbn [given bind].
    2: { split; [discriminate|]. intros [(c' & H & H1 & _)|[(b' & c' & l' & _ & _ & _ & _ & H & _)|(b' & c' & l' & k & _ & _ & _ & _ & _ & _ & H & _)]];
         [exfalso; injection H as <-; lia|congruence|discriminate H]. }
    unfold slice_from. replace (b <? 0)%Z with false by lia. replace (c <? 0)%Z with false by lia. split.
    + intros H. apply Ok_pair1 in H. subst s. right. right. exists b, c, l, k. repeat (split; [reflexivity || assumption|]). reflexivity.
    + intros [(c' & H & H1 & _)|[(b' & c' & l' & _ & _ & _ & _ & H & _)|(b' & c' & l' & k' & B & C & _ & _ & _ & L & K & ->)]].
      * exfalso. injection H as <-. lia.
      * congruence.
      * injection B as <-. injection C as <-. injection L as <-. injection K as <-. reflexivity.
Qed.

(** ** Progress records *)
Lemma clean_text s : s <> [] -> good_str s -> exists c t, serialize_string s = c :: t /\ deserialize_string (c :: t) = Ok s.
Proof.
  intros Ne (A & B & C). pose proof (string_roundtrip s A B C) as R.
  destruct (serialize_string s) as [|c t]; [|exists c, t; auto]. cbv in R. congruence.
Qed.
Lemma number_text z : exists c t, str_int z = c :: t /\ parse_int (c :: t) = Ok z.
Proof. pose proof (parse_str_int z) as R. destruct (str_int z) as [|c t]; [discriminate R|exists c, t; auto]. Qed.
Lemma int32_ok z : int32 (Some z) -> new_int TInt32 (AInt z) = Ok z.
Proof. intros H. apply new_int_ok. unfold fits. cbn in *. lia. Qed.
Definition element (p : progress_record) (x : node) : Prop :=
  exists a t s i pi pc sr, pg_activity p = Some a /\ pg_status p = Some s
  /\ pg_id p = Some i /\ pg_parent p = Some pi /\ pg_percent p = Some pc /\ pg_seconds p = Some sr
  /\ (pg_type p = Some 0%Z /\ t = tx "Processing" \/ pg_type p = Some 1%Z /\ t = tx "Completed")
  /\ x = Node (tx "PR") [] []
           [leaf "AV" (serialize_string a); leaf "AI" (str_int i);
            match pg_operation p with None => leaf "Nil" [] | Some o => leaf "S" (serialize_string o) end;
            leaf "PI" (str_int pi); leaf "PC" (str_int pc); leaf "T" (serialize_string t);
            leaf "SR" (str_int sr); leaf "SD" (serialize_string s)].
Lemma progress_written p : progress_ok p -> exists x, write_progress p = Ok x /\ element p x.
Proof.
  intros (I1 & I2 & I3 & I4 & T & (a & Ea & _) & (s & Es & _) & _). unfold write_progress, element. rewrite Ea, Es. cbn [given bind].
  destruct (pg_id p) as [i|]; [|contradiction]. destruct (pg_parent p) as [pi|]; [|contradiction].
  destruct (pg_percent p) as [pc|]; [|contradiction]. destruct (pg_seconds p) as [sr|]; [|contradiction].
  destruct T as [T|T]; rewrite T; cbn [Z.to_nat Pos.to_nat Pos.iter_op Nat.add nth_error type_names_of_progress bind].
  all: eexists; split; [reflexivity|]; do 7 eexists; repeat match goal with |- _ /\ _ => split; [reflexivity|] end.
  all: split; [|reflexivity].
  - left; split; reflexivity.
  - right; split; reflexivity.
Qed.
Lemma progress_read p x : progress_ok p -> element p x -> read_progress x = Ok p.
Proof.
  intros (I1 & I2 & I3 & I4 & _ & (a' & Ea' & Na & Ca) & (s' & Es' & Ns & Cs) & O)
         (a & t & s & i & pi & pc & sr & Ea & Es & Ei & Epi & Epc & Esr & T & ->).
  rewrite Ea in Ea'; injection Ea' as <-. rewrite Es in Es'; injection Es' as <-.
  rewrite Ei in I1; rewrite Epi in I2; rewrite Epc in I3; rewrite Esr in I4.
  destruct (clean_text a Na Ca) as (a0 & at' & Wa & Ra). destruct (clean_text s Ns Cs) as (s0 & st' & Ws & Rs).
  destruct (number_text i) as (i0 & it & Wi & Ri). destruct (number_text pi) as (pi0 & pit & Wpi & Rpi).
  destruct (number_text pc) as (pc0 & pct & Wpc & Rpc). destruct (number_text sr) as (sr0 & srt & Wsr & Rsr).
  rewrite Wa, Ws, Wi, Wpi, Wpc, Wsr.
  assert (exists ty t0 tt, pg_type p = Some ty /\ serialize_string t = t0 :: tt /\ progress_type (t0 :: tt) = Ok ty) as (ty & t0 & tt & Ety & Wt & Rt).
  { assert (K0 : progress_type (serialize_string (tx "Processing")) = Ok 0%Z) by (vm_compute; reflexivity).
    assert (K1 : progress_type (serialize_string (tx "Completed")) = Ok 1%Z) by (vm_compute; reflexivity).
    assert (exists ty, pg_type p = Some ty /\ progress_type (serialize_string t) = Ok ty) as (ty & Ety & Rt)
      by (destruct T as [[T ->]|[T ->]]; [exists 0%Z|exists 1%Z]; auto).
    destruct (serialize_string t) as [|t0 tt]; [discriminate Rt|]. exists ty, t0, tt. auto. }
  rewrite Wt. destruct p as [ac id op pa pe ty' se sd]; cbn [pg_activity pg_id pg_operation pg_parent pg_percent pg_type pg_seconds pg_status] in *.
  subst ac id pa pe ty' se sd.
  assert (exists kid, (match op with None => leaf "Nil" [] | Some o => leaf "S" (serialize_string o) end) = kid
          /\ forall k, name_eqb (tx "S") k = false -> name_eqb (tx "Nil") k = false ->
             forall l, find_text k (kid :: l) = find_text k l) as (kid & Ek & Fk).
  { eexists. split; [reflexivity|]. intros k K1 K2 l. destruct op; cbn [find_text leaf]; rewrite ?K1, ?K2; reflexivity. }
  assert (exists ot, (forall l, find_text (tx "S") l = None -> find_text (tx "S") (kid :: l) = ot) /\ read_opt deserialize_string ot = Ok op)
    as (ot & Fo & Ro).
  { rewrite <- Ek. destruct op as [o|].
    - destruct (O o eq_refl) as [No Co]. destruct (clean_text o No Co) as (o0 & ot & Wo & Ro). exists (Some (o0 :: ot)). split.
      + intros l _. rewrite Wo. reflexivity.
      + cbn [read_opt]. rewrite Ro. reflexivity.
    - exists None. split; [|reflexivity]. intros l L. exact L. }
  rewrite Ek. unfold read_progress.
  assert (F1 : forall n l k c r, name_eqb (tx n) k = true -> find_text k (leaf n (c :: r) :: l) = Some (c :: r))
    by (intros n l k c r E; cbn [find_text leaf]; rewrite E; reflexivity).
  assert (F2 : forall n l k u, name_eqb (tx n) k = false -> find_text k (leaf n u :: l) = find_text k l)
    by (intros n l k u E; cbn [find_text leaf]; rewrite E; reflexivity).
  assert (FS : find_text (tx "S") [leaf "PI" (pi0 :: pit); leaf "PC" (pc0 :: pct); leaf "T" (t0 :: tt); leaf "SR" (sr0 :: srt); leaf "SD" (s0 :: st')] = None)
    by reflexivity.
  repeat match goal with
         | |- context [find_text (tx ?k) (leaf ?n (?c :: ?r) :: ?l)] => rewrite (F1 n l (tx k) c r) by reflexivity
         | |- context [find_text (tx ?k) (leaf ?n ?u :: ?l)] => rewrite (F2 n l (tx k) u) by reflexivity
         | |- context [find_text (tx ?k) (kid :: ?l)] => rewrite (Fk (tx k)) by reflexivity
         end.
  rewrite (Fo _ FS).
  cbn [read_opt]. rewrite Ra, Ri, Ro, Rpi, Rpc, Rt, Rsr, Rs. cbn [bind int32_arg].
  rewrite !int32_ok by assumption. reflexivity.
Qed.
Lemma simple_name c d : letter c -> (forall e, In e d -> letter e) -> name_ok (c :: d).
Proof. intros H1 H2. exists c, d. split; [reflexivity|]. split; [exact H1|]. apply Forall_forall. intros e E. left. apply H2. exact E. Qed.
Lemma progress_printable p x : progress_safe p -> element p x -> printable x.
Proof.
  intros S (a & t & s & i & pi & pc & sr & Ea & Es & Ei & Epi & Epc & Esr & T & ->).
  assert (Ha : text_ok (serialize_string a)) by (apply string_text, S; auto).
  assert (Hs : text_ok (serialize_string s)) by (apply string_text, S; auto).
  assert (Ht : text_ok (serialize_string t)).
  { apply string_text. destruct T as [[_ ->]|[_ ->]]; cbn; repeat (apply Forall_cons; [lia|]); apply Forall_nil. }
  assert (L : forall n u, name_ok (tx n) -> text_ok u -> printable (leaf n u)).
  { intros n u Hn Hu. cbn. split; [exact Hn|]. split; [constructor|]. split; [constructor|]. split; [exact Hu|exact I]. }
  assert (N1 : forall z, text_ok (str_int z)) by (intros z; apply inked_text, inked_str).
  cbn [printable fold_right].
  split; [cbn; apply simple_name; [unfold letter; lia|cbn; intros e E; unfold letter; lia]|].
  split; [constructor|]. split; [constructor|]. split; [constructor|].
  repeat match goal with |- _ /\ _ => split | |- True => exact I end.
  3: destruct (pg_operation p) as [o|] eqn:Eo.
  all: apply L; try assumption; try (apply N1); try (cbn; apply simple_name; [unfold letter; lia|cbn; intros e E; unfold letter; lia]).
  - apply string_text, S. auto.
  - constructor.
Qed.
Lemma element_children p x : element p x -> x = Node (tx "PR") [] [] (map (fun q => Node (tx (fst q)) [] (snd q) []) (child p)).
Proof.
  intros (a & t & s & i & pi & pc & sr & Ea & Es & Ei & Epi & Epc & Esr & T & ->). unfold child. rewrite Ea, Es, Ei, Epi, Epc, Esr.
  cbn [map fst snd]. assert (H : serialize_string t = if match pg_type p with Some z => Z.eqb z 1 | None => false end then tx "Completed" else tx "Processing").
  { destruct T as [[-> ->]|[-> ->]]; vm_compute; reflexivity. }
  rewrite H. destruct (pg_operation p); reflexivity.
Qed.
Lemma find_text_lacks k kids : lacks kids k -> find_text (tx k) kids = None.
Proof.
  intros L. induction kids as [|[n a t c] r IH]; [reflexivity|]. cbn [find_text]. destruct (name_eqb n (tx k)) eqn:E.
  - apply name_eqb_iff in E. rewrite (L n a t c (or_introl eq_refl) E). reflexivity.
  - apply IH. intros n' a' t' c' H. apply (L n' a' t' c'). now right.
Qed.
Lemma progress_lacking name attrs text kids :
  (forall k, In k ["AV"; "AI"; "SD"]%string -> lacks kids k -> forall p, read_progress (Node name attrs text kids) <> Ok p)
  /\ forall p, read_progress (Node name attrs text kids) = Ok p ->
     (lacks kids "S" -> pg_operation p = None) /\ (lacks kids "PI" -> pg_parent p = Some (-1)%Z) /\
     (lacks kids "PC" -> pg_percent p = Some (-1)%Z) /\ (lacks kids "T" -> pg_type p = Some 0%Z) /\
     (lacks kids "SR" -> pg_seconds p = Some (-1)%Z).
Proof.
  split.
  - intros k K L p. unfold read_progress. apply find_text_lacks in L.
    repeat match goal with |- context [read_opt ?f (find_text ?k ?l)] => destruct (read_opt f (find_text k l)) eqn:? end; cbn [bind]; try discriminate.
    cbn [In] in K. repeat match goal with H : _ = k \/ _ |- _ => destruct H as [H|H] end; try contradiction; subst k; rewrite L in *; cbn [read_opt] in *;
      repeat match goal with H : Ok None = Ok ?o |- _ => injection H as <- end; repeat match goal with |- context [match ?o with Some _ => _ | None => _ end] => is_var o; destruct o end; discriminate.
  - intros p. unfold read_progress.
    repeat match goal with |- context [read_opt ?f (find_text ?k ?l)] => destruct (read_opt f (find_text k l)) eqn:? end; cbn [bind]; try discriminate.
    repeat match goal with |- context [match ?o with Some _ => _ | None => Err TypeError end] => is_var o; destruct o; try discriminate end.
    unfold int32_arg. intros H.
    repeat match type of H with bind ?m _ = Ok _ => destruct m eqn:?; cbn [bind] in H; [|discriminate] end.
    injection H as <-. cbn [pg_operation pg_parent pg_percent pg_type pg_seconds].
    repeat (apply conj); intros L; apply find_text_lacks in L; rewrite L in *; cbn [read_opt] in *;
      repeat match goal with H : Ok None = Ok ?o |- _ => injection H as <- end; try reflexivity; congruence.
Qed.
