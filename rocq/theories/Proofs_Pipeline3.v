(** The objects a pipeline is sent as (C66). *)
From Coq Require Import String.
From Verif Require Import Base BaseFacts Model_Scalars Model_Object Model_Clixml Model_Xml Model_Command Model_Messages Model_Pipeline.
From Verif Require Import Spec_Strings Spec_Scalars Spec_Clixml Spec_Xml Spec_Command Spec_Messages Spec_HostWire Spec_Pipeline.
From Verif Require Import Proofs_Clixml1 Proofs_Clixml3 Proofs_Messages Proofs_Command Proofs_HostWire Proofs_HostWire2 Proofs_HostWire3 Proofs_Lines Proofs_Pipeline Proofs_Pipeline2.
Local Open Scope list_scope.

Lemma splits cs : forall done cur,
  Forall (fun s => exists a c, s = a ++ [c] /\ Forall (fun c : command value => c_eos c = false) a /\ c_eos c = true) done -> Forall (fun c => c_eos c = false) cur ->
  concat (split_statements done cur cs) = concat done ++ cur ++ cs
  /\ exists front last, split_statements done cur cs = front ++ [last] /\ Forall (fun c => c_eos c = false) last
     /\ Forall (fun s => exists a c, s = a ++ [c] /\ Forall (fun c => c_eos c = false) a /\ c_eos c = true) front.
Proof.
  induction cs as [|c cs IH]; intros done cur D C; cbn [split_statements].
  - rewrite concat_app. cbn. rewrite !app_nil_r. split; [reflexivity|]. exists done, cur. auto.
  - destruct (c_eos c) eqn:E.
    + destruct (IH (done ++ [cur ++ [c]]) []) as [A B]; [|constructor|].
      * apply Forall_app. split; [exact D|]. constructor; [|constructor]. exists cur, c. auto.
      * split; [|exact B]. rewrite A, concat_app. cbn. rewrite app_nil_r, <- !app_assoc. reflexivity.
    + destruct (IH done (cur ++ [c])) as [A B]; [exact D|apply Forall_app; auto|]. split; [|exact B]. rewrite A, <- !app_assoc. reflexivity.
Qed.
Lemma split_ok cs : statements_of cs (split_statements [] [] cs).
Proof. destruct (splits cs [] [] (Forall_nil _) (Forall_nil _)) as [A B]. split; [exact A|exact B]. Qed.

Section Sent.
  Variable R : N -> N -> Prop.
  Variable h : heap.
  Notation st := (stands (same_value R) h).
  Lemma st_bag s ps v : st (TObj s ps) v -> exists es, bag h v es /\ Forall2 (fun p e => fst e = tx (fst p) /\ st (snd p) (snd e)) ps es.
  Proof.
    intros H. inversion H as [| |? ? a o E B A N F]; subst. exists (g_extended o). split; [exists a, o; auto|].
    clear - N F. revert N F. generalize (g_extended o). clear o. induction ps as [|[k t] ps IH]; intros [|[m x] es] N F; try discriminate; [constructor|].
    cbn [map fst snd] in *. injection N as -> N. inversion F; subst. constructor; auto.
  Qed.
  Lemma st_listed {A} (f : A -> tree) (P : A -> value -> Prop) l v : (forall x w, In x l -> st (f x) w -> P x w) -> st (TList (map f l)) v -> listed h P l v.
  Proof.
    intros H S. inversion S as [|? a o k vs E B F|]; subst. exists a, o, k, vs. split; [reflexivity|]. split; [exact E|]. split; [exact B|].
    clear - H F. revert vs F. induction l as [|x l IH]; intros vs F; inversion F; subst; constructor; [apply H; [now left|assumption]|].
    apply IH; [intros; apply H; [now right|assumption]|assumption].
  Qed.
  Lemma st_text s v : st (t_text s) v -> v = a_text s.
  Proof. intros S. apply leaf in S. inversion S as [| |? ? P| |]; subst. cbn in P. now subst. Qed.
  Lemma st_bool b v : st (TVal (VBool b)) v -> v = VBool b.
  Proof. intros S. apply leaf in S. now inversion S. Qed.
  Lemma st_opt_text x v : st (t_opt (fun s => VPrim (PStr KString s)) x) v -> v = or_null a_text x.
  Proof. intros S. apply leaf in S. destruct x; inversion S as [| |? ? P| |]; subst; [cbn in P; now subst|reflexivity]. Qed.
  Lemma st_opt_bool x v : st (t_opt VBool x) v -> v = or_null VBool x.
  Proof. intros S. apply leaf in S. destruct x; inversion S; subst; reflexivity. Qed.
  Lemma st_flag show n v : st (TVal (VEnum (flag show n))) v -> a_flag n v.
  Proof. intros S. apply leaf in S. inversion S; subst. exists (flag show n). repeat split. Qed.
  Ltac take F E S := let e := fresh "e" in let n := fresh "n" in let X := fresh "X" in
    inversion F as [|? e ? ? X F' Eq1 Eq2]; clear F; rename F' into F; subst; destruct e as [n e]; destruct X as [E S]; cbn [fst snd] in E, S; subst n.
  Lemma param_sent p v : st (arg_tree p) v -> parameter_sent R h p v.
  Proof.
    intros S. destruct (st_bag _ _ _ S) as (es & B & F). take F E1 S1. take F E2 S2. inversion F; subst. apply st_opt_text in S1. subst. apply leaf in S2.
    eexists. split; [exact B|exact S2].
  Qed.
  Lemma flags_ok show pv (c : command value) fs :
    Forall2 (fun p e => fst e = tx (fst p) /\ st (snd p) (snd e)) (map (fun q => (fst q, TVal (VEnum (flag show (snd q))))) (flags_sent pv c)) fs ->
    Forall2 (fun p e => fst e = tx (fst p) /\ a_flag (snd p) (snd e)) (flags_sent pv c) fs.
  Proof.
    generalize (flags_sent pv c). intros l. revert fs. induction l as [|q l IH]; intros fs F; inversion F as [|? ? ? ? [E S]]; subst; constructor; auto.
    split; [exact E|]. eapply st_flag. exact S.
  Qed.
  Lemma command_tree_flags show their (c : command value) : let pv := match their with Some v => v | None => pv20 end in
    command_tree show (to_wire their c) = TObj (c_text c)
      ([("Cmd", t_text (c_text c)); ("Args", TList (map arg_tree (c_params c))); ("IsScript", TVal (VBool (c_script c)));
        ("UseLocalScope", t_opt VBool (c_local c))]%string ++ map (fun q => (fst q, TVal (VEnum (flag show (snd q))))) (flags_sent pv c)).
  Proof. cbv zeta. unfold command_tree, flags_sent, to_wire. cbn. destruct (c_unclaimed c), (version_ge _ pv22), (version_ge _ pv23); reflexivity. Qed.
  Lemma command_ok show their c v : st (command_tree show (to_wire their c)) v -> command_sent R h (match their with Some v => v | None => pv20 end) c v.
  Proof.
    intros S. rewrite command_tree_flags in S. destruct (st_bag _ _ _ S) as (es & B & F). cbn [app] in F.
    take F E1 S1. take F E2 S2. take F E3 S3. take F E4 S4. apply st_text in S1. apply st_bool in S3. apply st_opt_bool in S4. subst.
    eexists _, _. split; [exact B|]. split; [eapply st_listed; [|exact S2]; intros; now apply param_sent|]. now apply flags_ok in F.
  Qed.
  Lemma statement_ok show their s v : st (statement_tree show (map (to_wire their) s)) v -> statement_sent R h (match their with Some v => v | None => pv20 end) s v.
  Proof.
    intros S. unfold statement_tree in S. rewrite map_map in S. eapply st_listed; [|exact S]. intros c w _. apply command_ok.
  Qed.
  Lemma shell_ok show their (p : pipeline) m v : to_create their p = Ok m -> st (shell_tree show m) v ->
    pipeline_sent R h (match their with Some v => v | None => pv20 end) p v.
  Proof.
    unfold to_create. destruct (ps_commands p) as [|c0 cs0] eqn:Ec; [discriminate|]. rewrite <- Ec. intros E. injection E as <-. intros S.
    pose proof (split_ok (ps_commands p)) as SO. remember (split_statements [] [] (ps_commands p)) as ss eqn:Es. destruct ss as [|first rest].
    { destruct SO as (_ & f & l & N & _). destruct f; discriminate N. }
    destruct (st_bag _ _ _ S) as (es & B & F). cbn [app shell_tree cp_cmds cp_inner_nested cp_history cp_redirect cp_extra map hd] in F.
    take F E1 S1. take F E2 S2. take F E3 S3. take F E4 S4. apply statement_ok in S1. apply st_bool in S2, S4. apply st_opt_text in S3. subst.
    eexists first, rest, _, _. split; [exact SO|]. split; [exact B|]. split; [exact S1|]. split.
    - intros ->. cbn in F. now inversion F.
    - intros N. destruct rest as [|second rest]; [now destruct N|]. clear N. cbn [map length Nat.ltb Nat.leb] in F. take F E5 S5. inversion F; subst.
      eexists. split; [reflexivity|].
      match type of S5 with stands _ _ _ ?e => change (st (TList (map (fun s => TObj [] [("Cmds"%string, statement_tree show s)]) (map (map (to_wire their)) (first :: second :: rest)))) e) in S5 end.
      rewrite map_map in S5. eapply st_listed; [|exact S5]. intros s w _ Sw. destruct (st_bag _ _ _ Sw) as (es & B2 & F2). take F2 E6 S6. inversion F2; subst.
      eexists. split; [exact B2|]. now apply statement_ok in S6.
  Qed.
End Sent.

Lemma stands_within reg lx h R h' t : good_tree reg lx h t -> forall v, stands (same_value R) h' t v -> stands (same_value (within R h)) h' t v.
Proof.
  induction t as [w|l IH|s l IH] using tree_ind2; intros G v S; inversion G; inversion S; subst.
  - constructor. apply narrow; [|assumption]. match goal with H : can_send _ _ _ _ |- _ => apply H end.
  - econstructor; eauto. eapply all_impl; [|eassumption]. apply Forall_forall. intros x Hx. rewrite Forall_forall in *. eauto.
  - econstructor; eauto. eapply all_impl; [|eassumption]. apply Forall_forall. intros x Hx. rewrite Forall_forall in *. apply in_map_iff in Hx as (q & <- & Hq).
    intros y. apply (IH q Hq). match goal with H : forall x, In x (map snd _) -> good_tree _ _ _ x |- _ => apply H end. apply in_map_iff. eauto.
Qed.
Theorem pipeline_seen reg lx show h n their p fuel data :
  usual reg lx -> flags_known reg lx show -> good_graph reg lx h -> legible_graph h -> closed h -> free_from h n -> good_pipeline reg lx h p ->
  pipeline_data show fuel h n their p = Ok data ->
  exists ap host shell h' R,
    read_message reg KCreatePipeline data = Ok (WCreatePipeline (ps_no_input p) ap (ps_streams p) (ps_history_add p) host shell (ps_nested p), h')
    /\ pipeline_sent R h' (match their with Some v => v | None => pv20 end) p shell
    /\ ps_apartment p = Some ap /\ same_value R (ps_host p) host /\ same_graph reg (heap_lines h) h' R.
Proof.
  intros U K G L C F P E. destruct (exists_last (gp_some _ _ _ _ P)) as (front & last & El). destruct (create_roundtrip their p front last El) as (m & Em & Er).
  unfold pipeline_data in E. rewrite Em in E. cbn [bind] in E. destruct (place (shell_tree show m) n) as [[n1 k] v] eqn:Ep.
  destruct (message_ok reg lx U show K h n F their p P m n1 k v Em Ep) as (ap & Ea & Ew & GM & HV & B & S). rewrite Ew in E. cbn [bind] in E.
  destruct (whole reg lx h n F G L C n n1 k (N.le_refl n) B) as (G1 & L1 & C1 & A1).
  destruct (message_lines reg lx (h ++ k) n1 _ fuel data G1 L1 C1 A1 GM HV E) as (w' & h' & R & Ed & SM & SG).
  destruct SM as [SK SV]. destruct w'; try discriminate SK; try (match type of SK with skeleton (WPipelineOutput ?x) = _ => destruct x; discriminate SK end). cbn in SK. injection SK as -> -> -> -> ->. cbn in SV.
  inversion SV as [|? ? ? ? SH SV']; subst. inversion SV' as [|? ? ? ? SS _]; subst.
  pose proof (stands_kept _ _ _ _ SG _ _ _ S SS) as S'. destruct (creation_good reg lx h show K their p m P Em) as (GT & _).
  pose proof (stands_within reg lx h R h' _ GT _ S') as S2.
  eexists ap, _, _, h', (within R h). split; [exact Ed|]. split; [exact (shell_ok _ _ _ _ _ _ _ Em S2)|]. split; [exact Ea|].
  split; [apply narrow; [apply (gp_host _ _ _ _ P)|exact SH]|]. exact (narrow_graph R h reg k h' C SG).
Qed.
