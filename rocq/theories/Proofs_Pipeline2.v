(** Reading a pipeline back from its objects, and the whole way (C66). *)
From Coq Require Import String.
From Verif Require Import Base BaseFacts Model_Scalars Model_Object Model_Clixml Model_Xml Model_Command Model_Messages Model_Pipeline.
From Verif Require Import Spec_Strings Spec_Scalars Spec_Clixml Spec_Xml Spec_Command Spec_Messages Spec_HostWire Spec_Pipeline.
From Verif Require Import Proofs_Clixml1 Proofs_Clixml3 Proofs_Messages Proofs_Command Proofs_HostWire Proofs_HostWire2 Proofs_HostWire3 Proofs_Lines Proofs_Pipeline.
Local Open Scope list_scope.

(** ** Properties of a tree *)
Fixpoint look (n : string) (ps : list (string * tree)) : option tree :=
  match ps with [] => None | (k, t) :: r => if String.eqb n k then Some t else look n r end.
Lemma look_app n a b : look n (a ++ b) = match look n a with Some t => Some t | None => look n b end.
Proof. induction a as [|[k t] a IH]; [reflexivity|]. cbn [app look]. destruct (String.eqb n k); [reflexivity|exact IH]. Qed.
Lemma name_eqb_tx a b : name_eqb (tx a) (tx b) = String.eqb a b.
Proof.
  destruct (String.eqb_spec a b) as [-> |N]; [now apply name_eqb_iff|].
  destruct (name_eqb (tx a) (tx b)) eqn:E; [|reflexivity]. apply name_eqb_iff, tx_inj in E. contradiction.
Qed.
Section Read.
  Variable R : N -> N -> Prop.
  Variable h : heap.
  Notation Q := (same_value R).
  Notation st := (stands (same_value R) h).
  Lemma props_some es : forall ps n t, map fst es = map (fun p => tx (fst p)) ps -> Forall2 st (map snd ps) (map snd es) -> look n ps = Some t ->
    exists x, sget (tx n) es = Some x /\ st t x.
  Proof.
    induction es as [|[m x] es IH]; intros [|[k t'] ps] n t N F L; try discriminate. cbn [map fst snd look sget] in *. injection N as -> N. inversion F; subst.
    rewrite name_eqb_tx. destruct (String.eqb n k); [injection L as ->; eauto|eauto].
  Qed.
  Lemma props_none es : forall (ps : list (string * tree)) n, map fst es = map (fun p => tx (fst p)) ps -> look n ps = None -> sget (tx n) es = @None value.
  Proof.
    induction es as [|[m x] es IH]; intros [|[k t'] ps] n N L; try discriminate; [reflexivity|]. cbn [map fst snd look sget] in *. injection N as -> N.
    rewrite name_eqb_tx. destruct (String.eqb n k); [discriminate|eauto].
  Qed.
  Lemma need_some s ps v n t : st (TObj s ps) v -> look n ps = Some t -> exists x, need h v n = Ok x /\ st t x /\ maybe h v n = x.
  Proof.
    intros S L. inversion S as [| |? ? a o E B A N F]; subst. destruct (props_some _ _ _ _ N F L) as (x & Hx & Sx).
    exists x. unfold need, maybe, prop. rewrite E, Hx. auto.
  Qed.
  Lemma maybe_none s ps v n : st (TObj s ps) v -> look n ps = None -> maybe h v n = VNull.
  Proof.
    intros S L. inversion S as [| |? ? a o E B A N F]; subst. unfold maybe, prop. rewrite E, A, (props_none _ _ _ N L). reflexivity.
  Qed.
  Lemma items_ok l v : st (TList l) v -> exists vs, items h v = Ok vs /\ Forall2 st l vs.
  Proof. intros S. inversion S; subst. unfold items. match goal with E : aget _ _ = _, B : g_body _ = _ |- _ => rewrite E, B end. eauto. Qed.
  Lemma each_ok {A B} (f : value -> result B) (tr : A -> tree) (P : A -> B -> Prop) l : (forall x v, In x l -> st (tr x) v -> exists y, f v = Ok y /\ P x y) ->
    forall vs, Forall2 st (map tr l) vs -> exists ys, each f vs = Ok ys /\ Forall2 P l ys.
  Proof.
    induction l as [|x l IH]; intros F vs S; inversion S; subst; [exists []; split; [reflexivity|constructor]|].
    destruct (F x y (or_introl eq_refl) ltac:(assumption)) as (b & E & Pb). destruct (IH ltac:(intros; apply F; [now right|assumption]) l' ltac:(assumption)) as (ys & E' & Ps).
    exists (b :: ys). cbn [each]. rewrite E. cbn [bind]. rewrite E'. split; [reflexivity|now constructor].
  Qed.
  (** ** Leaves *)
  Lemma leaf w v : st (TVal w) v -> Q w v.
  Proof. intros S. now inversion S. Qed.
  Lemma leaf_text s v : st (t_text s) v -> as_text v = Ok s.
  Proof. intros S. apply leaf in S. inversion S as [| |? ? P| |]; subst. cbn in P. now subst. Qed.
  Lemma leaf_bool b v : st (TVal (VBool b)) v -> as_bool v = Ok b.
  Proof. intros S. apply leaf in S. now inversion S. Qed.
  Lemma leaf_opt_text x v : st (t_opt (fun s => VPrim (PStr KString s)) x) v -> as_opt as_text v = Ok x.
  Proof. intros S. apply leaf in S. destruct x; inversion S as [| |? ? P| |]; subst; [cbn in P; now subst|reflexivity]. Qed.
  Lemma leaf_opt_bool x v : st (t_opt VBool x) v -> as_opt as_bool v = Ok x.
  Proof. intros S. apply leaf in S. destruct x; inversion S; reflexivity. Qed.
  Lemma leaf_flag show n v : st (TVal (VEnum (flag show n))) v -> as_flag v = Ok n /\ as_opt as_flag v = Ok (Some n).
  Proof. intros S. apply leaf in S. inversion S; subst. unfold as_opt, as_flag. cbn [as_member bind flag e_val]. now rewrite N2Z.id. Qed.
  (** ** Commands *)
  Lemma read_arg_ok p v : st (arg_tree p) v -> exists q, read_arg h v = Ok q /\ same_param R p q.
  Proof.
    intros S. unfold arg_tree in S. destruct (need_some _ _ _ "N" _ S eq_refl) as (x & E & Sx & _). destruct (need_some _ _ _ "V" _ S eq_refl) as (y & E' & Sy & _).
    unfold read_arg. rewrite E. cbn [bind]. rewrite (leaf_opt_text _ _ Sx). cbn [bind]. rewrite E'. cbn [bind]. eexists. split; [reflexivity|]. split; [reflexivity|]. now apply leaf.
  Qed.
  Definition same_wire (w w' : wire_command value) : Prop :=
    w_cmd _ w' = w_cmd _ w /\ Forall2 (same_param R) (w_args _ w) (w_args _ w') /\ w_script _ w' = w_script _ w /\ w_local _ w' = w_local _ w
    /\ w_my w' = w_my w /\ w_to w' = w_to w /\ w_prev _ w' = w_prev _ w /\ w_err w' = w_err w /\ w_warn w' = w_warn w
    /\ w_verb w' = w_verb w /\ w_dbg w' = w_dbg w /\ w_info w' = w_info w.
  Definition may_flag show (k : string) (x : option N) : list (string * tree) := match x with Some n => [(k, TVal (VEnum (flag show n)))] | None => [] end.
  Lemma may_look show n k x : look n (may_flag show k x) = if String.eqb n k then match x with Some m => Some (TVal (VEnum (flag show m))) | None => None end else None.
  Proof. destruct x; cbn; destruct (String.eqb n k); reflexivity. Qed.
  Lemma read_may s ps v n show x : st (TObj s ps) v -> look n ps = match x with Some m => Some (TVal (VEnum (flag show m))) | None => None end ->
    as_opt as_flag (maybe h v n) = Ok x.
  Proof.
    intros S L. destruct x as [m|]; [|now rewrite (maybe_none _ _ _ _ S L)].
    destruct (need_some _ _ _ _ _ S L) as (y & _ & Sy & ->). apply (leaf_flag show m y Sy).
  Qed.
  Lemma read_wire_ok show w v : st (command_tree show w) v -> exists w', read_wire h v = Ok w' /\ same_wire w w'.
  Proof.
    intros S. unfold command_tree in S. cbv zeta in S.
    change (st (TObj (w_cmd value w) ([("Cmd", t_text (w_cmd value w)); ("Args", TList (map arg_tree (w_args value w))); ("IsScript", TVal (VBool (w_script value w)));
      ("UseLocalScope", t_opt VBool (w_local value w)); ("MergeMyResult", TVal (VEnum (flag show (w_my w)))); ("MergeToResult", TVal (VEnum (flag show (w_to w))));
      ("MergePreviousResults", TVal (VEnum (flag show (w_prev value w))))]%string
     ++ may_flag show "MergeError"%string (w_err w) ++ may_flag show "MergeWarning"%string (w_warn w) ++ may_flag show "MergeVerbose"%string (w_verb w)
     ++ may_flag show "MergeDebug"%string (w_dbg w) ++ may_flag show "MergeInformation"%string (w_info w))) v) in S.
    match type of S with st (TObj ?s ?l) v => set (ps := l) in S end.
    destruct (need_some _ _ _ "Cmd" (t_text (w_cmd value w)) S eq_refl) as (x1 & E1 & S1 & _).
    destruct (need_some _ _ _ "Args" (TList (map arg_tree (w_args value w))) S eq_refl) as (x2 & E2 & S2 & _).
    destruct (need_some _ _ _ "IsScript" (TVal (VBool (w_script value w))) S eq_refl) as (x3 & E3 & S3 & _).
    destruct (need_some _ _ _ "UseLocalScope" (t_opt VBool (w_local value w)) S eq_refl) as (x4 & E4 & S4 & _).
    destruct (need_some _ _ _ "MergeMyResult" (TVal (VEnum (flag show (w_my w)))) S eq_refl) as (x5 & E5 & S5 & _).
    destruct (need_some _ _ _ "MergeToResult" (TVal (VEnum (flag show (w_to w)))) S eq_refl) as (x6 & E6 & S6 & _).
    destruct (need_some _ _ _ "MergePreviousResults" (TVal (VEnum (flag show (w_prev value w)))) S eq_refl) as (x7 & E7 & S7 & _).
    destruct (items_ok _ _ S2) as (vs & Ev & Sv).
    destruct (each_ok (read_arg h) arg_tree (same_param R) _ (fun p v _ => read_arg_ok p v) vs Sv) as (qs & Eq & Pq).
    assert (forall n x, look n ps = match x with Some m => Some (TVal (VEnum (flag show m))) | None => None end -> as_opt as_flag (maybe h v n) = Ok x) as M
      by (intros n x; apply (read_may _ _ _ _ _ _ S)).
    unfold read_wire. rewrite E1. cbn [bind]. rewrite (leaf_text _ _ S1). cbn [bind]. rewrite E3. cbn [bind]. rewrite (leaf_bool _ _ S3). cbn [bind].
    rewrite E4. cbn [bind]. rewrite (leaf_opt_bool _ _ S4). cbn [bind]. rewrite E2. cbn [bind]. rewrite Ev. cbn [bind]. rewrite Eq. cbn [bind].
    rewrite E7. cbn [bind]. rewrite (proj1 (leaf_flag _ _ _ S7)). cbn [bind]. rewrite E5. cbn [bind]. rewrite (proj1 (leaf_flag _ _ _ S5)). cbn [bind].
    rewrite E6. cbn [bind]. rewrite (proj1 (leaf_flag _ _ _ S6)). cbn [bind].
    rewrite (M "MergeError"%string (w_err w)) by (unfold ps; rewrite !look_app, !may_look; cbn; destruct (w_err w); reflexivity). cbn [bind].
    rewrite (M "MergeWarning"%string (w_warn w)) by (unfold ps; rewrite !look_app, !may_look; cbn; destruct (w_warn w); reflexivity). cbn [bind].
    rewrite (M "MergeVerbose"%string (w_verb w)) by (unfold ps; rewrite !look_app, !may_look; cbn; destruct (w_verb w); reflexivity). cbn [bind].
    rewrite (M "MergeDebug"%string (w_dbg w)) by (unfold ps; rewrite !look_app, !may_look; cbn; destruct (w_dbg w); reflexivity). cbn [bind].
    rewrite (M "MergeInformation"%string (w_info w)) by (unfold ps; rewrite !look_app, !may_look; cbn; destruct (w_info w); reflexivity). cbn [bind].
    eexists. split; [reflexivity|]. do 1 (split; [reflexivity|]). split; [exact Pq|]. repeat (split; [reflexivity|]). reflexivity.
  Qed.
  Lemma read_statement_ok show ws v : st (statement_tree show ws) v -> exists ws', read_statement h v = Ok ws' /\ Forall2 same_wire ws ws'.
  Proof.
    intros S. destruct (items_ok _ _ S) as (vs & Ev & Sv). unfold read_statement. rewrite Ev. cbn [bind].
    exact (each_ok (read_wire h) (command_tree show) same_wire ws (fun w v _ => read_wire_ok show w v) vs Sv).
  Qed.
  (** ** Pipelines *)
  Definition statements (m : creation) : list (list (wire_command value)) := match cp_extra m with Some e => e | None => [cp_cmds m] end.
  Lemma read_creation_ok show (m : creation) ni ap so ha host shell ne : st (shell_tree show m) shell ->
    exists m', read_creation h (WCreatePipeline ni ap so ha host shell ne) = Ok m' /\ Forall2 (Forall2 same_wire) (statements m) (statements m')
    /\ cp_history _ _ _ _ m' = cp_history _ _ _ _ m /\ cp_redirect _ _ _ _ m' = cp_redirect _ _ _ _ m
    /\ cp_no_input _ _ _ _ m' = ni /\ cp_apartment _ _ _ _ m' = Some ap /\ cp_streams _ _ _ _ m' = so /\ cp_history_add _ _ _ _ m' = ha
    /\ cp_host _ _ _ _ m' = host /\ cp_nested _ _ _ _ m' = ne.
  Proof.
    intros S. unfold shell_tree in S.
    match type of S with st (TObj ?s ?l) _ => set (ps := l) in S end.
    destruct (need_some _ _ _ "Cmds" (statement_tree show (cp_cmds m)) S eq_refl) as (x1 & E1 & S1 & _).
    destruct (need_some _ _ _ "History" (t_opt (fun s => VPrim (PStr KString s)) (cp_history _ _ _ _ m)) S eq_refl) as (x2 & E2 & S2 & _).
    destruct (need_some _ _ _ "RedirectShellErrorOutputPipe" (TVal (VBool (cp_redirect _ _ _ _ m))) S eq_refl) as (x3 & E3 & S3 & _).
    unfold read_creation. rewrite E2. cbn [bind]. rewrite (leaf_opt_text _ _ S2). cbn [bind]. rewrite E3. cbn [bind]. rewrite (leaf_bool _ _ S3). cbn [bind].
    unfold statements. destruct (cp_extra m) as [e|] eqn:Ee.
    - destruct (need_some _ _ _ "ExtraCmds" (TList (map (fun s => TObj [] [("Cmds", statement_tree show s)]) e))%string S) as (x4 & E4 & S4 & M4).
      { unfold ps. try rewrite Ee. reflexivity. }
      rewrite M4. destruct (items_ok _ _ S4) as (vs & Ev & Sv).
      destruct (each_ok (fun s => let! c := need h s "Cmds" in read_statement h c) (fun s => TObj [] [("Cmds"%string, statement_tree show s)]) (Forall2 same_wire) e) with (vs := vs) as (ys & Ey & Py); [|exact Sv|].
      { intros s v _ Ss. destruct (need_some _ _ _ "Cmds" (statement_tree show s) Ss eq_refl) as (c & Ec & Sc & _). rewrite Ec. cbn [bind]. exact (read_statement_ok show s c Sc). }
      assert (x4 <> VNull) as NN by (inversion S4; discriminate).
      destruct x4; try (now destruct NN); rewrite Ev; cbn [bind]; rewrite Ey; cbn [bind]; (eexists; split; [reflexivity|]; cbn; split; [exact Py|]; repeat split).
    - rewrite (maybe_none _ _ _ "ExtraCmds" S) by (unfold ps; try rewrite Ee; reflexivity). cbn [bind]. rewrite E1. cbn [bind].
      destruct (read_statement_ok show _ _ S1) as (ws & Ew & Pw). rewrite Ew. cbn [bind]. eexists. split; [reflexivity|]. cbn. split; [constructor; [exact Pw|constructor]|]. repeat split.
  Qed.
  Lemma from_wire_same w w' : same_wire w w' -> same_command R (from_wire w) (from_wire w').
  Proof. intros (A & B & C & D & E & F & G & H & I & J & K & L). unfold same_command, from_wire. cbn. rewrite A, C, D, E, F, G, H, I, J, K, L. split; [reflexivity|]. do 2 (split; [reflexivity|]). split; [exact B|]. repeat split. Qed.
  Lemma end_same c c' : same_command R c c' -> same_command R (end_statement c) (end_statement c').
  Proof. unfold same_command. cbn. tauto. Qed.
  Lemma mark_same cs cs' : Forall2 (same_command R) cs cs' -> forall r, mark_last cs = Ok r -> exists r', mark_last cs' = Ok r' /\ Forall2 (same_command R) r r'.
  Proof.
    induction 1 as [|c c' cs cs' H F IH]; intros r E; [discriminate|]. cbn [mark_last] in *. inversion F as [|? ? ? ? H1 F1]; subst.
    - injection E as <-. eexists. split; [reflexivity|]. constructor; [now apply end_same|constructor].
    - binds E. destruct (IH _ ltac:(eassumption)) as (r' & Er & Fr). rewrite Er. cbn [bind]. injection E as <-. eexists. split; [reflexivity|]. now constructor.
  Qed.
  Lemma statements_same ss ss' : Forall2 (Forall2 same_wire) ss ss' -> forall acc acc' r, Forall2 (same_command R) acc acc' -> read_statements acc ss = Ok r ->
    exists r', read_statements acc' ss' = Ok r' /\ Forall2 (same_command R) r r'.
  Proof.
    induction 1 as [|s s' ss ss' H F IH]; intros acc acc' r A E; cbn [read_statements] in *; [injection E as <-; eauto|]. binds E.
    destruct (mark_same (acc ++ map from_wire s) (acc' ++ map from_wire s')) with (r := v) as (r' & Er & Fr); [|assumption|].
    - apply Forall2_app; [exact A|]. clear - H. induction H; constructor; auto. now apply from_wire_same.
    - rewrite Er. cbn [bind]. eauto.
  Qed.
End Read.

(** ** What is sent can be placed *)
Section Send.
  Variable reg : registry.
  Variable lx : lexicon.
  Variable h0 : heap.
  Variable show : N -> list N.
  Hypothesis FK : flags_known reg lx show.
  Notation gt := (good_tree reg lx h0).
  Lemma gt_text s : can_say s -> gt (t_text s).
  Proof. intros [A B]. constructor. split; [exact A|]. split; [exact B|]. intros a E. discriminate. Qed.
  Lemma gt_bool b : gt (TVal (VBool b)).
  Proof. constructor. split; [exact I|]. split; [exact I|]. intros a E. discriminate. Qed.
  Lemma gt_opt_text x : opt_all can_say x -> gt (t_opt (fun s => VPrim (PStr KString s)) x).
  Proof. destruct x as [s|]; intros H; [now apply gt_text|]. constructor. split; [exact I|]. split; [exact I|]. intros a E. discriminate. Qed.
  Lemma gt_opt_bool x : gt (t_opt VBool x).
  Proof. destruct x; [apply gt_bool|]. constructor. split; [exact I|]. split; [exact I|]. intros a E. discriminate. Qed.
  Lemma gt_flag n : (n < 16)%N -> gt (TVal (VEnum (flag show n))).
  Proof using FK. intros H. destruct (FK n H) as [A B]. constructor. split; [exact A|]. split; [exact B|]. intros a E. discriminate. Qed.
  Definition ascii (s : string) : bool := forallb (fun c => c <? 128)%N (tx s).
  Lemma gt_obj s ps : pystr s -> no_surrogates s -> attr_ok s -> NoDup (map fst ps) -> Forall (fun p => ascii (fst p) = true /\ gt (snd p)) ps -> gt (TObj s ps).
  Proof.
    intros A B C D F. constructor; try assumption.
    - eapply Forall_impl; [|exact F]. intros p [H _]. now apply ascii_ok.
    - apply (Forall_snd gt). eapply Forall_impl; [|exact F]. intros p [_ H]. exact H.
  Qed.
  Lemma gt_note ps : NoDup (map fst ps) -> Forall (fun p => ascii (fst p) = true /\ gt (snd p)) ps -> gt (TObj [] ps).
  Proof. intros A B. apply gt_obj; try assumption; constructor. Qed.
  Lemma gt_list {A} (f : A -> tree) l : Forall (fun x => gt (f x)) l -> gt (TList (map f l)).
  Proof. intros F. constructor. induction F; constructor; auto. Qed.
  Ltac entries := repeat (apply Forall_cons; [split; [vm_compute; reflexivity|cbn [snd]]|]); try apply Forall_nil.
  Lemma gt_arg p : opt_all can_say (fst p) -> can_send reg lx h0 (snd p) -> gt (arg_tree p).
  Proof. intros A B. apply gt_note; [nodup|]. entries; [now apply gt_opt_text|now constructor]. Qed.
  Definition good_wire (w : wire_command value) : Prop :=
    good_str (w_cmd _ w) /\ attr_ok (w_cmd _ w) /\ Forall (fun p => opt_all can_say (fst p) /\ can_send reg lx h0 (snd p)) (w_args _ w)
    /\ Forall (fun n => n < 16)%N [w_my w; w_to w; w_prev _ w] /\ Forall (opt_all (fun n => n < 16)%N) [w_err w; w_warn w; w_verb w; w_dbg w; w_info w].
  Lemma attr_safe s : attr_ok s -> safe_str s.
  Proof. intros A. eapply Forall_impl; [|exact A]. intros c Hc. unfold valid_char in Hc. lia. Qed.
  Lemma gt_command w : good_wire w -> gt (command_tree show w).
  Proof using FK.
    intros (A & B & C & D & E). pose proof A as (A1 & A2 & _). pose proof (attr_safe _ B) as A3.
    inversion D as [|? ? D1 D']; subst. inversion D' as [|? ? D2 D'']; subst. inversion D'' as [|? ? D3 _]; subst.
    inversion E as [|? ? E1 F1]; subst. inversion F1 as [|? ? E2 F2]; subst. inversion F2 as [|? ? E3 F3]; subst. inversion F3 as [|? ? E4 F4]; subst. inversion F4 as [|? ? E5 _]; subst.
    assert (gt (TList (map arg_tree (w_args _ w)))) as GA.
    { apply gt_list. eapply Forall_impl; [|exact C]. intros p [X Y]. now apply gt_arg. }
    unfold command_tree. cbv zeta. apply gt_obj; try assumption.
    - destruct (w_err w), (w_warn w), (w_verb w), (w_dbg w), (w_info w); cbn [app map fst]; nodup.
    - repeat (apply Forall_app; split).
      { entries; [now apply gt_text|exact GA|apply gt_bool|apply gt_opt_bool|now apply gt_flag|now apply gt_flag|now apply gt_flag]. }
      all: match goal with H : opt_all _ ?x |- Forall _ (match ?x with Some _ => _ | None => _ end) => destruct x; [|constructor]; constructor; [|constructor]; split; [reflexivity|]; now apply gt_flag end.
  Qed.
  Lemma gt_statement ws : Forall good_wire ws -> gt (statement_tree show ws).
  Proof using FK. intros F. apply gt_list. eapply Forall_impl; [|exact F]. exact gt_command. Qed.
  Lemma gt_shell (m : creation) : Forall good_wire (cp_cmds m) -> opt_all (Forall (Forall good_wire)) (cp_extra m) -> opt_all can_say (cp_history _ _ _ _ m) -> gt (shell_tree show m).
  Proof using FK.
    intros A B C. unfold shell_tree. apply gt_note.
    - destruct (cp_extra m); cbn [app map fst]; nodup.
    - apply Forall_app. split.
      + entries; [now apply gt_statement|apply gt_bool|now apply gt_opt_text|apply gt_bool].
      + destruct (cp_extra m) as [e|]; [|constructor]. entries. apply gt_list. eapply Forall_impl; [|exact B]. intros s Hs. apply gt_note; [nodup|]. entries. now apply gt_statement.
  Qed.
  Lemma split_all {V} (P : command V -> Prop) cs : forall done cur, Forall (Forall P) done -> Forall P cur -> Forall P cs -> Forall (Forall P) (split_statements done cur cs).
  Proof.
    induction cs as [|c cs IH]; intros done cur A B C; cbn [split_statements].
    - apply Forall_app. split; [exact A|]. now constructor.
    - inversion C; subst. assert (Forall P (cur ++ [c])) as D by (apply Forall_app; split; [exact B|now constructor]).
      destruct (c_eos c); apply IH; auto. apply Forall_app. split; [exact A|now constructor].
  Qed.
  Lemma to_wire_good their c : good_command reg lx h0 c -> good_wire (to_wire their c).
  Proof.
    intros (A & B & C & D). unfold flags_of in D. rewrite Forall_forall in D.
    assert (forall n, In n [c_my c; c_to c; c_err c; c_warn c; c_verb c; c_dbg c; c_info c] -> (n < 16)%N) as D' by exact D.
    unfold to_wire. do 3 (split; [assumption|]). split.
    - repeat (apply Forall_cons; [cbn; try (apply D'; cbn; tauto)|]); [|apply Forall_nil]. destruct (c_unclaimed c); reflexivity.
    - repeat (apply Forall_cons; [cbn; destruct (version_ge _ _); cbn; try exact I; apply D'; cbn; tauto|]). apply Forall_nil.
  Qed.
  Lemma creation_good their (p : pipeline) m : good_pipeline reg lx h0 p -> to_create their p = Ok m -> gt (shell_tree show m) /\ exists ap, cp_apartment _ _ _ _ m = Some ap
    /\ ps_apartment p = Some ap.
  Proof using FK.
    intros [G1 G2 G3 G4 (ap & G5 & _) G6] E. unfold to_create in E. destruct (ps_commands p) as [|c0 cs] eqn:Ec; [discriminate|]. rewrite <- Ec in *. injection E as <-.
    assert (Forall (Forall good_wire) (map (map (to_wire their)) (split_statements [] [] (ps_commands p)))) as F.
    { apply Forall_map. eapply Forall_impl; [|apply (split_all (good_command reg lx h0)); [constructor|constructor|exact G2]].
      intros s Hs. apply Forall_map. eapply Forall_impl; [|exact Hs]. intros c. apply to_wire_good. }
    split; [|exists ap; auto]. apply gt_shell; cbn [cp_cmds cp_extra cp_history].
    - destruct F; [constructor|assumption].
    - match goal with |- opt_all _ (if ?b then _ else _) => destruct b end; [exact F|exact I].
    - exact G3.
  Qed.
End Send.

(** ** Only the caller's objects *)
Section Narrow.
  Variable R : N -> N -> Prop.
  Variable h0 : heap.
  Definition within (a b : N) : Prop := R a b /\ exists o, aget a h0 = Some o.
  Lemma narrow v v' : here h0 v -> same_value R v v' -> same_value within v v'.
  Proof. intros H S. destruct S; constructor; auto. split; [assumption|]. now apply H. Qed.
  Lemma narrow_list l l' : (forall v, In v l -> here h0 v) -> Forall2 (same_value R) l l' -> Forall2 (same_value within) l l'.
  Proof. intros H F. induction F; constructor; [apply narrow; [apply H; now left|assumption]|]. apply IHF. intros v Hv. apply H. now right. Qed.
  Lemma narrow_props l l' : (forall n v, In (n, v) l -> here h0 v) -> same_props R l l' -> same_props within l l'.
  Proof.
    intros H F. unfold same_props in *. induction F as [|[n v] [n' v'] ? ? [E S] F IH]; constructor.
    - split; [exact E|]. apply narrow; [apply (H n); now left|assumption].
    - apply IH. intros m w Hw. apply (H m). now right.
  Qed.
  Lemma narrow_entries l l' : (forall n v, In (n, v) l -> here h0 n /\ here h0 v) -> same_entries R l l' -> same_entries within l l'.
  Proof.
    intros H F. unfold same_entries in *. induction F as [|[n v] [n' v'] ? ? [E S] F IH]; constructor.
    - destruct (H n v) as [A B]; [now left|]. split; now apply narrow.
    - apply IH. intros m w Hw. apply (H m). now right.
  Qed.
  Lemma publics_in cls attrs ps : publics cls attrs ps -> forall n v, In (n, v) ps -> exists m b, In (m, b, v) attrs.
  Proof.
    induction 1 as [|[[m b] w] l ps' _ _ IH|[[m b] w] l ps' _ _ IH]; intros n v H; [destruct H| |].
    - destruct H as [H|H]; [injection H as <- <-; exists m, b; now left|]. destruct (IH n v H) as (m' & b' & I). exists m', b'. now right.
    - destruct (IH n v H) as (m' & b' & I). exists m', b'. now right.
  Qed.
  Lemma narrow_object reg o o' : (forall v, mentions o v -> here h0 v) -> same_object reg R o o' -> same_object reg within o o'.
  Proof.
    intros H S.
    assert (forall l, same_props R (g_adapted o) l -> same_props within (g_adapted o) l) as A by (intros l; apply narrow_props; intros n v I; apply H; econstructor 1; exact I).
    assert (forall l, same_props R (g_extended o) l -> same_props within (g_extended o) l) as X by (intros l; apply narrow_props; intros n v I; apply H; econstructor 2; exact I).
    unfold same_object in *. destruct (g_body o) eqn:E.
    - destruct S as (? & ? & ? & ? & ?). auto 6.
    - destruct S as (? & ? & ? & ?). auto 6.
    - destruct S as ((l' & ? & F) & ? & ? & ?). split; [exists l'; split; [assumption|]; eapply narrow_list; [|exact F]; intros v I; apply H; econstructor 3; [exact E|exact I]|]. auto.
    - destruct S as ((l' & ? & F) & ? & ? & ?). split; [exists l'; split; [assumption|]; eapply narrow_list; [|exact F]; intros v I; apply H; econstructor 4; [exact E|exact I]|]. auto.
    - destruct S as ((l' & ? & F) & ? & ? & ?). split; [exists l'; split; [assumption|]; eapply narrow_entries; [|exact F]|]; [|auto].
      intros k v I. split; apply H; [eapply MenKey|eapply MenValue]; eassumption.
    - destruct S as (? & ? & ? & ? & ps & P & F). do 4 (split; [assumption|]). exists ps. split; [exact P|]. eapply narrow_props; [|exact F].
      intros n v I. destruct (publics_in _ _ _ P n v I) as (m & b & J). apply H. eapply MenAttr; eassumption.
    - destruct S as (? & ? & ? & ? & ?). auto 6.
  Qed.
  Lemma narrow_graph reg k h' : closed h0 -> same_graph reg (heap_lines (h0 ++ k)) h' R -> same_graph reg (heap_lines h0) h' within.
  Proof.
    intros C G a a' [Ra [o Ho]]. destruct (G a a' Ra) as (o1 & o' & E & E' & S). rewrite heap_lines_get in *. rewrite aget_app, Ho in E. rewrite Ho. cbn in E. injection E as <-.
    cbn. do 2 eexists. split; [reflexivity|]. split; [exact E'|]. apply narrow_object; [|exact S]. intros v M b ->.
    apply (C a o b Ho). clear - M. inversion M; subst; cbn in *; [eapply MenAdapted|eapply MenExtended|eapply MenItem|eapply MenEntry|eapply MenKey|eapply MenValue|eapply MenAttr]; eassumption.
  Qed.
  Lemma narrow_command c c' : Forall (fun p => here h0 (snd p)) (c_params c) -> same_command R c c' -> same_command within c c'.
  Proof.
    intros H (? & ? & ? & F & T). split; [assumption|]. split; [assumption|]. split; [assumption|]. split; [|exact T].
    clear - H F. induction F as [|p q ? ? [E S] F IH]; [constructor|]. inversion H; subst. constructor; [split; [exact E|now apply narrow]|auto].
  Qed.
End Narrow.

(** ** Plain values and the line ends of ToString texts *)
Lemma looks_lines h : forall x v, looks h x v -> looks (heap_lines h) x v.
Proof.
  intros x. induction x as [| z | s | b | c | l IH | l IH | l IH | n] using plain_ind; intros v A; try exact A.
  - rewrite looks_list in *. destruct A as (a & o & k & vs & -> & Ha & Hb & A). exists a, (with_lines o), k, vs. split; [reflexivity|].
    split; [rewrite heap_lines_get, Ha; reflexivity|]. split; [exact Hb|]. clear - IH A. induction A; [constructor|]. inversion IH; subst. constructor; auto.
  - rewrite looks_obj in *. destruct A as (a & o & -> & Ha & Hb & Hd & A). exists a, (with_lines o). split; [reflexivity|].
    split; [rewrite heap_lines_get, Ha; reflexivity|]. split; [exact Hb|]. split; [exact Hd|]. cbn [with_lines g_extended]. clear - IH A.
    induction A as [|? ? ? ? [A1 A2] ? IA]; [constructor|]. inversion IH; subst. constructor; [split; auto|auto].
  - rewrite looks_dict in *. destruct A as (a & o & es & -> & Ha & Hb & A). exists a, (with_lines o), es. split; [reflexivity|].
    split; [rewrite heap_lines_get, Ha; reflexivity|]. split; [exact Hb|]. clear - IH A.
    induction A as [|? ? ? ? [A1 A2] ? IA]; [constructor|]. inversion IH; subst. constructor; [split; auto|auto].
Qed.

(** ** The whole way *)
Lemma statements_eq (m : creation) : from_create m = (let! cs := read_statements [] (statements m) in
  Ok (mkPS (cp_history_add _ _ _ _ m) (cp_apartment _ _ _ _ m) cs (cp_history _ _ _ _ m) (cp_host _ _ _ _ m) (cp_nested _ _ _ _ m) (cp_no_input _ _ _ _ m) (cp_streams _ _ _ _ m) (cp_redirect _ _ _ _ m))).
Proof. reflexivity. Qed.
Lemma create_fields their (p : pipeline) m : to_create their p = Ok m ->
  cp_no_input _ _ _ _ m = ps_no_input p /\ cp_apartment _ _ _ _ m = ps_apartment p /\ cp_streams _ _ _ _ m = ps_streams p /\ cp_history_add _ _ _ _ m = ps_history_add p
  /\ cp_host _ _ _ _ m = ps_host p /\ cp_nested _ _ _ _ m = ps_nested p.
Proof. unfold to_create. destruct (ps_commands p); [discriminate|]. intros E. injection E as <-. repeat split. Qed.

Section Whole.
  Variable reg : registry.
  Variable lx : lexicon.
  Hypothesis US : usual reg lx.
  Variable show : N -> list N.
  Hypothesis FK : flags_known reg lx show.
  Variable h : heap.
  Variable n : N.
  Hypothesis F0 : free_from h n.
  Hypothesis G0 : good_graph reg lx h.
  Hypothesis L0 : legible_graph h.
  Hypothesis C0 : closed h.
  Variable their : option version.
  Variable p : pipeline.
  Hypothesis GP : good_pipeline reg lx h p.

  Lemma message_ok m n1 k v : to_create their p = Ok m -> place (shell_tree show m) n = (n1, k, v) ->
    exists ap, ps_apartment p = Some ap /\
    let w := WCreatePipeline (ps_no_input p) ap (ps_streams p) (ps_history_add p) (ps_host p) v (ps_nested p) in
    create_message m v = Ok w /\ good_message reg lx w /\ Forall (here (h ++ k)) (values w)
    /\ placed reg lx h n n1 k /\ stands eq (h ++ k) (shell_tree show m) v.
  Proof using US FK F0 GP.
    intros Em Ep. destruct (creation_good reg lx h show FK their p m GP Em) as (GT & ap & Ea & Ea'). exists ap. split; [exact Ea'|].
    destruct (place_ok reg lx US h n F0 _ GT n (N.le_refl n) _ _ _ Ep) as (B & (V1 & V2 & V3) & S). cbv zeta.
    destruct (create_fields _ _ _ Em) as (X1 & X2 & X3 & X4 & X5 & X6). destruct GP as [_ _ _ (H1 & H2 & H3) (ap' & Ea2 & P1 & P2 & _) (S1 & S2 & _)].
    rewrite Ea' in Ea2. injection Ea2 as <-.
    split; [unfold create_message; rewrite Ea, X1, X3, X4, X5, X6; reflexivity|]. split; [|split; [|split; assumption]].
    - split; [|split; [|exact I]]; cbn [fields]; repeat (apply Forall_cons; [first [exact I|assumption]|]); apply Forall_nil.
    - cbn [values]. apply Forall_cons; [|now apply Forall_cons]. intros a Ha. destruct (H3 a Ha) as [o Ho]. exists o. rewrite aget_app, Ho. reflexivity.
  Qed.

  Theorem pipeline_written rank : ranked h rank -> exists fuel data, pipeline_data show fuel h n their p = Ok data.
  Proof using US FK F0 G0 L0 C0 GP.
    intros RK. destruct (exists_last (gp_some _ _ _ _ GP)) as (front & last & El). destruct (create_roundtrip their p front last El) as (m & Em & _).
    destruct (place (shell_tree show m) n) as [[n1 k] v] eqn:Ep. destruct (message_ok m n1 k v Em Ep) as (ap & _ & Ew & GM & HV & B & _).
    destruct (whole reg lx h n F0 G0 L0 C0 n n1 k (N.le_refl n) B) as (G1 & L1 & C1 & A1).
    destruct (whole_ranked reg lx h n F0 C0 rank n n1 k (N.le_refl n) B RK) as (rank' & RK').
    destruct (writes (h ++ k) n1 _ rank' C1 RK' A1 HV (Forall_nil _)) as (fuel & data & E).
    exists fuel, data. unfold pipeline_data. rewrite Em. cbn [bind]. rewrite Ep, Ew. cbn [bind]. exact E.
  Qed.

  Theorem pipeline_arrives fuel data : pipeline_data show fuel h n their p = Ok data ->
    exists p' h' R, read_pipeline reg data = Ok (p', h') /\ arrives R (pv_of their) p p' /\ same_graph reg (heap_lines h) h' R.
  Proof using US FK F0 G0 L0 C0 GP.
    intros E. destruct (exists_last (gp_some _ _ _ _ GP)) as (front & last & El). destruct (create_roundtrip their p front last El) as (m & Em & Er).
    unfold pipeline_data in E. rewrite Em in E. cbn [bind] in E. destruct (place (shell_tree show m) n) as [[n1 k] v] eqn:Ep.
    destruct (message_ok m n1 k v Em Ep) as (ap & Ea & Ew & GM & HV & B & S). rewrite Ew in E. cbn [bind] in E.
    destruct (whole reg lx h n F0 G0 L0 C0 n n1 k (N.le_refl n) B) as (G1 & L1 & C1 & A1).
    destruct (message_lines reg lx (h ++ k) n1 _ fuel data G1 L1 C1 A1 GM HV E) as (w' & h' & R & Ed & SM & SG).
    destruct SM as [SK SV]. destruct w'; try discriminate SK; try (match type of SK with skeleton (WPipelineOutput ?x) = _ => destruct x; discriminate SK end). cbn in SK. injection SK as -> -> -> -> ->. cbn in SV.
    inversion SV as [|? ? ? ? SH SV']; subst. inversion SV' as [|? ? ? ? SS _]; subst.
    pose proof (stands_kept _ _ _ _ SG _ _ _ S SS) as S'.
    match type of S' with stands _ _ _ ?s => match type of SH with same_value _ _ ?ho =>
      destruct (read_creation_ok R h' show m (ps_no_input p) ap (ps_streams p) (ps_history_add p) ho s (ps_nested p) S') as (m' & Em' & St & Y1 & Y2 & Y3 & Y4 & Y5 & Y6 & Y7 & Y8) end end.
    rewrite statements_eq in Er. apply bind_Ok in Er. destruct Er as (cs & Ec & Er).
    destruct (statements_same R _ _ St [] [] cs (Forall2_nil _) Ec) as (cs' & Ec' & Fc).
    injection Er as X1 X2 X3 X4 X5 X6 X7 X8 X9.
    eexists _, h', (within R h). split; [|split; [|exact (narrow_graph R h reg k h' C0 SG)]].
    - unfold read_pipeline. cbn [kind] in Ed. rewrite Ed. cbn [bind fst snd]. rewrite Em'. cbn [bind]. rewrite statements_eq, Ec'. cbn [bind]. reflexivity.
    - unfold arrives. cbn [ps_commands ps_history_add ps_apartment ps_history ps_host ps_nested ps_no_input ps_streams ps_redirect].
      rewrite Y1, Y2, Y3, Y4, Y5, Y6, Y7, Y8, X4, X9, Ea. split; [|repeat (split; [reflexivity|])].
      + exists front, last, (end_statement (seen_by (pv_of their) last)). split; [exact El|]. split; [repeat split|]. subst cs.
        assert (Forall (fun c => Forall (fun q => here h (snd q)) (c_params c)) (map (seen_by (pv_of their)) front ++ [end_statement (seen_by (pv_of their) last)])) as FH.
        { pose proof (gp_commands _ _ _ _ GP) as GC. rewrite El in GC. apply Forall_app in GC. destruct GC as [GC1 GC2]. inversion GC2 as [|? ? GC3 _]; subst.
          assert (forall c, good_command reg lx h c -> Forall (fun q => here h (snd q)) (c_params c)) as K.
          { intros c (_ & _ & K & _). eapply Forall_impl; [|exact K]. intros q [_ (_ & _ & Q)]. exact Q. }
          apply Forall_app. split; [apply Forall_map; eapply Forall_impl; [|exact GC1]; exact K|]. constructor; [exact (K _ GC3)|constructor]. }
        clear - Fc FH. revert FH. induction Fc as [|c c' ? ? S F IH]; intros FH; [constructor|]. inversion FH; subst. constructor; [now apply narrow_command|auto].
      + split; [apply narrow; [apply (gp_host _ _ _ _ GP)|exact SH]|]. repeat split.
  Qed.
End Whole.
