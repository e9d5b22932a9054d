(** Proofs for C78. *)
From Coq Require Import String.
From Verif Require Import Base BaseFacts Model_Scalars Model_Object Model_Clixml Model_Xml Model_Messages Model_Records Model_Pipeline Model_RecordWire.
From Verif Require Import Spec_Strings Spec_Scalars Spec_Clixml Spec_Xml Spec_Messages Spec_HostWire Spec_Pipeline Spec_Records Spec_RecordWire.
From Verif Require Import Proofs_Messages Proofs_HostWire Proofs_HostWire2 Proofs_HostWire3 Proofs_Lines Proofs_Pipeline Proofs_Pipeline2 Proofs_Pipeline3 Proofs_Records.
Local Open Scope list_scope.

(** ** Names *)
Definition once (l : list string) : bool :=
  (fix go l := match l with [] => true | x :: t => negb (existsb (String.eqb x) t) && go t end) l.
Lemma once_NoDup l : once l = true -> NoDup l.
Proof.
  induction l as [|x l IH]; intros H; [constructor|]. cbn in H. apply andb_true_iff in H as [A B]. constructor; [|now apply IH].
  intros I. apply negb_true_iff in A. rewrite (proj2 (existsb_exists _ _)) in A; [discriminate|]. exists x. split; [exact I|apply String.eqb_refl].
Qed.
Definition ascii_name (k : string) : bool := forallb (fun c => c <? 128)%N (tx k).
Lemma error_names_fine r : once (error_names r) = true /\ forallb ascii_name (error_names r) = true.
Proof.
  unfold error_names, extended_names, invocation_names. destruct (er_details r), (er_trace r) as [[|c t]|], (er_extended r), (er_invocation r) as [i|];
    try (split; reflexivity); destruct (iv_position i), (iv_command i); split; reflexivity.
Qed.
Lemma informational_names_fine r : once (informational_names r) = true /\ forallb ascii_name (informational_names r) = true.
Proof.
  unfold informational_names, extended_names, invocation_names. destruct (in_extended r), (in_invocation r) as [i|];
    try (split; reflexivity); destruct (iv_position i), (iv_command i); split; reflexivity.
Qed.

Section Wire.
  Variable obj : rv -> value.
  Variable show : string -> Z -> list N.
  Lemma place_props_all ps n : place_props obj show ps n =
    let '(n1, h, vs) := place_all (map (prop_tree obj show) ps) n in (n1, h, combine (map (fun p => tx (fst p)) ps) vs).
  Proof using.
    revert n. induction ps as [|p ps IH]; intros n; [reflexivity|]. cbn [place_props map place_all]. destruct (place (prop_tree obj show p) n) as [[n1 h] v].
    rewrite IH. destruct (place_all (map (prop_tree obj show) ps) n1) as [[n2 h'] vs]. reflexivity.
  Qed.

  Variable reg : registry.
  Variable lx : lexicon.
  Hypothesis US : usual reg lx.
  Variable h : heap.
  Variable n : N.
  Hypothesis F0 : free_from h n.
  Hypothesis G0 : good_graph reg lx h.
  Hypothesis L0 : legible_graph h.
  Hypothesis C0 : closed h.

  Lemma plain_send v : match v with VNull | VBool _ => True | VPrim p => good_prim p /\ safe_value v | _ => False end -> can_send reg lx h v.
  Proof using. destruct v; intros H; try contradiction; (split; [|split; [|intros b0 E; discriminate E]]); try exact I; apply H. Qed.
  Lemma category_type : int_type_of "ErrorCategory_Category" None.
  Proof using. apply IsNumber. intros (t & H). cbn in H. repeat (destruct H as [H|H]; [discriminate H|]). exact H. Qed.
  Lemma int_other k z : String.eqb k "InvocationInfo_HistoryId" = false -> String.eqb k "ErrorCategory_Category" = false ->
    (exists t, int_type_of k (Some t) /\ int_prop show k z = enum_member show t z) \/ int_type_of k None /\ int_prop show k z = VPrim (PInt TInt32 z).
  Proof using.
    intros A B. unfold int_prop. rewrite A, B.
    destruct (String.eqb_spec k "InvocationInfo_CommandOrigin") as [-> |N1]; [left; eexists; split; [apply IsMember; now left|reflexivity]|].
    destruct (String.eqb_spec k "CommandInfo_CommandType") as [-> |N2]; [left; eexists; split; [apply IsMember; right; now left|reflexivity]|].
    destruct (String.eqb_spec k "CommandInfo_Visibility") as [-> |N3]; [left; eexists; split; [apply IsMember; right; right; now left|reflexivity]|].
    right. split; [|reflexivity]. apply IsNumber. intros (t & H). cbn in H. repeat (destruct H as [H|H]; [congruence|]). exact H.
  Qed.
  Lemma prop_good k x : can_tell obj show reg lx h k x -> good_tree reg lx h (prop_tree obj show (k, x)).
  Proof using.
    intros (T & Z & O). unfold prop_tree. cbn [fst snd].
    assert (opaque x -> good_tree reg lx h (if String.eqb k "InvocationInfo_PipelineIterationInfo" then TList [] else TVal (obj x))) as K.
    { intros P. destruct (String.eqb_spec k "InvocationInfo_PipelineIterationInfo") as [E|E]; [apply GList; constructor|]. apply GVal, O; assumption. }
    destruct x as [|s|z|b| | | | |]; try (apply K; exact I).
    - apply GVal, plain_send. exact I.
    - apply GVal, plain_send. destruct (T s eq_refl) as [A B]. split; [exact A|exact B].
    - apply GVal. destruct (Z z eq_refl) as (A & B & C). destruct (String.eqb k "InvocationInfo_HistoryId") eqn:E1.
      + unfold int_prop. rewrite E1. apply plain_send. split; [|exact I]. apply A. now apply String.eqb_eq.
      + apply String.eqb_neq in E1. destruct (String.eqb k "ErrorCategory_Category") eqn:E2.
        * unfold int_prop. rewrite (proj2 (String.eqb_neq _ _) E1), E2. apply plain_send. split; [|exact I]. apply String.eqb_eq in E2. subst k.
          specialize (B E1 category_type). unfold fits in B. cbn in *. lia.
        * destruct (int_other k z (proj2 (String.eqb_neq _ _) E1) E2) as [(t & Ht & ->)|(Ht & ->)]; [exact (C t Ht)|].
          apply plain_send. split; [exact (B E1 Ht)|exact I].
    - apply GVal, plain_send. exact I.
  Qed.
  Lemma prop_told R h' k x v : can_tell obj show reg lx h k x -> stands (same_value R) h' (prop_tree obj show (k, x)) v -> told obj R h' k x v.
  Proof using.
    intros (T & Z & O) S. unfold prop_tree in S. cbn [fst snd] in S.
    assert (forall x, opaque x -> stands (same_value R) h' (if String.eqb k "InvocationInfo_PipelineIterationInfo" then TList [] else TVal (obj x)) v -> told obj R h' k x v) as K.
    { clear. intros x P S. destruct (String.eqb_spec k "InvocationInfo_PipelineIterationInfo") as [E|E]; inversion S; subst.
      - apply ToldFresh; [exact P|reflexivity|]. match goal with F : Forall2 _ [] _ |- _ => inversion F; subst end. eexists _, _, _, []. split; [reflexivity|]. split; [eassumption|]. split; [eassumption|constructor].
      - apply ToldObject; assumption. }
    destruct x as [|s|z|b| | | | |]; try (apply K; [exact I|exact S]).
    - inversion S as [? ? Q| |]; subst. inversion Q; subst. constructor.
    - inversion S as [? ? Q| |]; subst. inversion Q as [| |? ? P| |]; subst. cbn in P. subst. constructor.
    - inversion S as [w ? Q| |]; subst w. subst. destruct (Z z eq_refl) as (A & B & _). destruct (String.eqb k "InvocationInfo_HistoryId") eqn:E1.
      + unfold int_prop in Q. rewrite E1 in Q. inversion Q as [| |? ? P| |]; subst. cbn in P. subst. apply ToldLong. now apply String.eqb_eq.
      + destruct (String.eqb k "ErrorCategory_Category") eqn:E2.
        * unfold int_prop in Q. rewrite E1, E2 in Q. inversion Q as [| |? ? P| |]; subst. apply String.eqb_eq in E2. subst k.
          destruct P as (t & Ht & Hf & ->). now apply ToldPlain.
        * destruct (int_other k z E1 E2) as [(t & Ht & Eq)|(Ht & Eq)]; rewrite Eq in Q; clear Eq.
          -- inversion Q; subst. eapply ToldMember; [exact Ht|reflexivity|reflexivity].
          -- inversion Q as [| |? ? P| |]; subst. cbn in P. subst. apply String.eqb_neq in E1, E2. now apply ToldInt.
    - inversion S as [? ? Q| |]; subst. inversion Q; subst. constructor.
  Qed.

  Variables (names : list name) (s : list N) (ps : props).
  Hypothesis TK : type_known reg lx names.
  Hypothesis NN : names <> [].
  Hypothesis NT : Forall text_ok names.
  Hypothesis SH : showable s.
  Hypothesis ND : NoDup (map fst ps).
  Hypothesis NS : Forall (fun p => can_say (tx (fst p))) ps.
  Hypothesis CT : forall k x, In (k, x) ps -> can_tell obj show reg lx h k x.

  Lemma props_good : Forall (good_tree reg lx h) (map (prop_tree obj show) ps).
  Proof using CT. apply Forall_map, Forall_forall. intros [k x] H. apply prop_good, CT, H. Qed.
  Lemma record_placed n1 k qs : place_props obj show ps n = (n1, k, qs) ->
    let o := record_object names s qs in
    placed reg lx h n (n1 + 1) (k ++ [(n1, o)]) /\ aget n1 (h ++ k ++ [(n1, o)]) = Some o /\ can_send reg lx (h ++ k ++ [(n1, o)]) (VRef n1)
    /\ map fst qs = map (fun p => tx (fst p)) ps /\ Forall2 (stands eq (h ++ k ++ [(n1, o)])) (map (prop_tree obj show) ps) (map snd qs).
  Proof using US F0 TK NN NT SH ND NS CT.
    intros E o. rewrite place_props_all in E. destruct (place_all (map (prop_tree obj show) ps) n) as [[n2 k2] vs] eqn:E1. injection E as <- <- Eq.
    assert (Forall (can_place reg lx h n) (map (prop_tree obj show) ps)) as CP by (apply Forall_forall; intros x _; now apply place_ok).
    destruct (place_all_ok reg lx h n F0 _ CP props_good n (N.le_refl n) _ _ _ E1) as (B & F & L).
    assert (map fst qs = map (fun p => tx (fst p)) ps /\ map snd qs = vs) as [EN EV].
    { subst qs. apply combine_maps. apply all2_length in L. rewrite map_length in *. exact L. }
    clear Eq. subst vs. rewrite Forall_forall in F.
    assert (forall q, In q qs -> can_send reg lx (h ++ k2) (snd q)) as FP by (intros q H; apply F; now apply in_map).
    assert (forall q, In q qs -> can_say (fst q)) as SP.
    { intros q H. apply (in_map fst) in H. rewrite EN in H. apply in_map_iff in H. destruct H as (p & <- & H). rewrite Forall_forall in NS. exact (NS p H). }
    destruct SH as (Ps & Ns & As).
    assert (good_object reg lx o) as Go.
    { split; [cbn; destruct s; [exact I|split; [discriminate|auto]]|]. cbn [g_body o record_object]. split; [|split; [split; constructor|split; [|intros []]]].
      - destruct TK as [A Q]. cbn [g_names o record_object good_names]. split.
        + cbn [g_names record_object]. destruct names as [|m r]; [congruence|exact A].
        + intros c Hc. apply Q in Hc. subst c. split; [reflexivity|]. split; [reflexivity|]. split; eexists; reflexivity.
      - split; [change (NoDup (map fst qs)); rewrite EN; now apply names_once|]. apply Forall_forall. intros q H. split; [apply SP, H|apply FP, H]. }
    assert (forall v, mentions o v -> exists k, In (k, v) qs) as M.
    { intros v H. inversion H; subst; cbn in *; try contradiction; try discriminate. eauto. }
    assert (legible_object o) as So.
    { split; [exact NT|]. split; [cbn; destruct s; [exact I|exact As]|]. split; [cbn; apply Forall_forall; intros q H; apply SP, H|]. split; [discriminate|]. split; [discriminate|].
      intros v Hv. apply M in Hv. destruct Hv as [x Hv]. apply FP in Hv. apply Hv. }
    destruct (placed_new reg lx h n F0 n n2 k2 o (N.le_refl n) B Go So) as (B' & G & K & V); [discriminate|intros v Hv; apply M in Hv; destruct Hv as [x Hv]; apply FP in Hv; apply Hv|].
    split; [exact B'|]. split; [exact K|]. split; [exact V|]. split; [exact EN|]. eapply all2_impl; [|exact L]. exact (stands_more _ _ _ G).
  Qed.

  Variable l : Model_RecordWire.letter.
  Hypothesis LO : letter_ok reg lx h l.
  Lemma letter_good h1 v : can_send reg lx h1 v -> good_message reg lx (in_letter l v) /\ Forall (here h1) (values (in_letter l v)) /\ counts_fit (in_letter l v).
  Proof using LO.
    intros (A & B & C). destruct l as [k|z|z|p ci mi]; cbn [in_letter letter_ok] in *.
    - split; [split; [repeat (apply Forall_cons; [assumption|]); apply Forall_nil|split; [repeat (apply Forall_cons; [assumption|]); apply Forall_nil|exact I]]|].
      split; [apply Forall_cons; [assumption|apply Forall_nil]|apply Forall_nil].
    - assert (fits TInt32 z) as Fz by (unfold fits; cbn; lia).
      split; [split; [apply Forall_cons; [exact Fz|apply Forall_cons; [assumption|apply Forall_nil]]|split; [apply Forall_cons; [exact I|apply Forall_cons; [assumption|apply Forall_nil]]|exact LO]]|].
      split; [apply Forall_cons; [assumption|apply Forall_nil]|]. apply Forall_cons; [exact Fz|apply Forall_nil].
    - assert (fits TInt32 z) as Fz by (unfold fits; cbn; lia).
      split; [split; [apply Forall_cons; [exact Fz|apply Forall_cons; [assumption|apply Forall_nil]]|split; [apply Forall_cons; [exact I|apply Forall_cons; [assumption|apply Forall_nil]]|exact LO]]|].
      split; [apply Forall_cons; [assumption|apply Forall_nil]|]. apply Forall_cons; [exact Fz|apply Forall_nil].
    - destruct LO as [Fc (D & E & _)].
      split; [split; [apply Forall_cons; [exact Fc|apply Forall_cons; [exact D|apply Forall_cons; [exact I|apply Forall_cons; [assumption|apply Forall_nil]]]]|
                split; [apply Forall_cons; [exact I|apply Forall_cons; [exact E|apply Forall_cons; [exact I|apply Forall_cons; [assumption|apply Forall_nil]]]]|exact I]]|].
      split; [apply Forall_cons; [intros a Q; discriminate Q|apply Forall_cons; [assumption|apply Forall_nil]]|]. apply Forall_cons; [exact Fc|apply Forall_nil].
  Qed.
  Theorem record_written rank : ranked h rank -> exists fuel data, record_data obj show fuel h n l names s ps = Ok data.
  Proof using US F0 G0 L0 C0 TK NN NT SH ND NS CT LO.
    intros RK. unfold record_data. destruct (place_props obj show ps n) as [[n1 k] qs] eqn:E. destruct (record_placed n1 k qs E) as (B & _ & V & _).
    destruct (whole reg lx h n F0 G0 L0 C0 n _ _ (N.le_refl n) B) as (G1 & L1 & C1 & A1).
    destruct (whole_ranked reg lx h n F0 C0 rank n _ _ (N.le_refl n) B RK) as (rank' & RK').
    destruct (letter_good _ _ V) as (GM & HV & CF). exact (writes _ _ _ rank' C1 RK' A1 HV CF).
  Qed.
  Theorem record_read fuel data : record_data obj show fuel h n l names s ps = Ok data ->
    exists v h' R, read_message reg (kind (in_letter l VNull)) data = Ok (in_letter l v, h') /\ same_graph reg (heap_lines h) h' R
    /\ record_seen obj reg R h' names s ps v.
  Proof using US F0 G0 L0 C0 TK NN NT SH ND NS CT LO.
    intros E. unfold record_data in E. destruct (place_props obj show ps n) as [[n1 k] qs] eqn:Ep. destruct (record_placed n1 k qs Ep) as (B & K & V & EN & ST).
    set (o := record_object names s qs) in *.
    destruct (whole reg lx h n F0 G0 L0 C0 n _ _ (N.le_refl n) B) as (G1 & L1 & C1 & A1). destruct (letter_good _ _ V) as (GM & HV & CF).
    destruct (message_lines reg lx _ _ _ fuel data G1 L1 C1 A1 GM HV E) as (w' & h' & R & Ed & SM & SG).
    assert (exists v', w' = in_letter l v' /\ same_value R (VRef n1) v') as (v' & -> & SV).
    { destruct SM as [SK SV]. destruct l as [rk|z|z|p ci mi]; cbn in SK; destruct w'; try discriminate SK; try (match type of SK with skeleton (WPipelineOutput ?x) = _ => destruct x; discriminate SK end);
        cbn in SK; injection SK; intros; subst; cbn in SV; repeat match goal with F : Forall2 _ (_ :: _) _ |- _ => inversion F; subst; clear F | F : Forall2 _ [] _ |- _ => inversion F; subst; clear F end.
      1-3: eexists; split; [reflexivity|assumption].
      match goal with Q : same_value R VNull _ |- _ => inversion Q; subst end. eexists. split; [reflexivity|assumption]. }
    exists v', h', (within R h). split; [|split; [exact (narrow_graph R h reg _ h' C0 SG)|]].
    - rewrite <- Ed. f_equal. destruct l; reflexivity.
    - inversion SV as [| | | |? y Ky]; subst. destruct (SG _ _ Ky) as (o1 & o' & E1 & E' & SO). rewrite heap_lines_get, K in E1. cbn in E1. injection E1 as <-.
      unfold same_object in SO. cbn [with_lines g_body o record_object g_string g_names g_adapted g_extended] in SO. destruct SO as (Q1 & Q2 & Q3 & Q4 & Q5).
      exists y, o'. split; [reflexivity|]. split; [exact E'|]. split; [exact Q1|]. split; [exact Q3|]. split; [now inversion Q4|]. split; [|split].
      + intros ->. cbn in Q2. destruct (g_string o'); [destruct Q2|reflexivity].
      + intros Ns Rs. destruct s as [|c t]; [congruence|]. cbn [option_map same_string] in Q2. destruct (g_string o'); [|destruct Q2]. f_equal. exact (Q2 Rs).
      + set (hh := h ++ k ++ [(n1, o)]) in *. clearbody hh. clear - EN ST Q5 SG CT. revert EN ST Q5. generalize (g_extended o') as es. revert qs. revert CT. induction ps as [|[kk x] ps' IH]; intros CT qs es EN ST Q5.
        * destruct qs; [|discriminate EN]. inversion Q5. constructor.
        * destruct qs as [|[a b] qs]; [discriminate EN|]. cbn in EN. injection EN as -> EN. inversion Q5 as [|? [c d] ? ? [X1 X2] Q5']; subst. cbn in X1, X2. subst c.
          inversion ST as [|? ? ? ? S1 ST']; subst. constructor.
          -- split; [reflexivity|]. cbn [fst snd]. apply prop_told; [apply CT; now left|]. eapply stands_within; [apply prop_good, CT; now left|].
             eapply stands_kept; [exact SG|exact S1|exact X2].
          -- eapply (IH (fun k0 x0 H => CT k0 x0 (or_intror H))); eassumption.
  Qed.
End Wire.
