(** Proofs for C77. *)
From Coq Require Import String.
From Verif Require Import Base BaseFacts Model_Scalars Model_Object Model_Clixml Model_Xml Model_Messages Model_Pipeline Model_Metadata.
From Verif Require Import Spec_Strings Spec_Scalars Spec_Clixml Spec_Xml Spec_Messages Spec_HostWire Spec_Pipeline Spec_Metadata.
From Verif Require Import Proofs_Messages Proofs_HostWire Proofs_HostWire2 Proofs_Lines Proofs_Pipeline Proofs_Pipeline2 Proofs_Pipeline3.
Local Open Scope list_scope.

Section Meta.
  Variable reg : registry.
  Variable lx : lexicon.
  Hypothesis US : usual reg lx.
  Variable h : heap.
  Variable n : N.
  Hypothesis F0 : free_from h n.
  Hypothesis G0 : good_graph reg lx h.
  Hypothesis L0 : legible_graph h.
  Hypothesis C0 : closed h.

  Lemma cast_good g x : asks h g x -> Forall (can_send reg lx h) (elements x) -> good_tree reg lx h (cast_list g).
  Proof using.
    intros A F. destruct A as [|l|a o l Ha Hb]; cbn in *.
    - apply GVal. split; [exact I|]. split; [exact I|]. intros a E. discriminate E.
    - apply GList. apply Forall_map. eapply Forall_impl; [|exact F]. intros v Hv. now apply GVal.
    - apply GVal. split; [exact I|]. split; [exact I|]. intros b E. injection E as <-. eauto.
  Qed.
  Lemma cast_kept R h' g x v : same_graph reg (heap_lines h) h' R -> asks h g x -> stands (same_value R) h' (cast_list g) v -> opt_listed h' R x v.
  Proof using.
    intros G A S. destruct A as [|l|a o l Ha Hb]; cbn in *.
    - inversion S as [? ? Q| |]; subst. now inversion Q.
    - inversion S as [|? a o k vs Ha Hb F|]; subst. exists a, o, k, vs. split; [reflexivity|]. split; [exact Ha|]. split; [exact Hb|].
      clear - F. revert vs F. induction l as [|w l IH]; intros vs F; inversion F as [|? ? ? ? S F']; subst; [constructor|]. inversion S; subst. constructor; auto.
    - inversion S as [? ? Q| |]; subst. inversion Q as [| | | |? y K]; subst. destruct (G _ _ K) as (o1 & o' & E & E' & SO).
      rewrite heap_lines_get, Ha in E. cbn in E. injection E as <-. unfold same_object in SO. cbn [with_lines g_body] in SO. rewrite Hb in SO.
      destruct SO as ((l' & B & F) & _). exists y, o', LList, l'. split; [reflexivity|]. split; [exact E'|]. split; [exact B|exact F].
  Qed.
  Lemma name_asked name t ns args names : asks_names h name names -> asks h (md_name (new_metadata name t ns args)) (Some names).
  Proof using. intros A. destruct A as [s|g l A]; [constructor|]. inversion A; subst; cbn; [constructor|econstructor; eauto]. Qed.

  Variables (name ns args : given) (t : member) (names : list value) (nss argss : option (list value)).
  Hypothesis AN : asks_names h name names.
  Hypothesis AS : asks h ns nss.
  Hypothesis AA : asks h args argss.
  Hypothesis FN : Forall (can_send reg lx h) names.
  Hypothesis FS : Forall (can_send reg lx h) (elements nss).
  Hypothesis FA : Forall (can_send reg lx h) (elements argss).
  Hypothesis FT : can_send reg lx h (VEnum t).
  Let md := new_metadata name t ns args.

  Lemma metadata_placed : exists k n3 v1 v2 v3, let w := WGetCommandMetadata v1 t v2 v3 in
    (forall fuel, metadata_data fuel h n md = message_data fuel (h ++ k) n3 w) /\ good_message reg lx w /\ Forall (here (h ++ k)) (values w)
    /\ placed reg lx h n n3 k /\ stands eq (h ++ k) (cast_list (md_name md)) v1 /\ stands eq (h ++ k) (cast_list ns) v2 /\ stands eq (h ++ k) (cast_list args) v3.
  Proof using US F0 AN AS AA FN FS FA FT.
    pose proof (name_asked name t ns args names AN) as AN'. fold md in AN'.
    assert (Forall (good_tree reg lx h) [cast_list (md_name md); cast_list ns; cast_list args]) as GT.
    { apply Forall_cons; [exact (cast_good _ _ AN' FN)|]. apply Forall_cons; [exact (cast_good _ _ AS FS)|]. apply Forall_cons; [exact (cast_good _ _ AA FA)|]. constructor. }
    destruct (place_all [cast_list (md_name md); cast_list ns; cast_list args] n) as [[n3 k] vs] eqn:E.
    assert (Forall (can_place reg lx h n) [cast_list (md_name md); cast_list ns; cast_list args]) as CP.
    { apply Forall_forall. intros x _. now apply place_ok. }
    destruct (place_all_ok reg lx h n F0 _ CP GT n (N.le_refl n) _ _ _ E) as (B & W & S).
    cbn [place_all] in E. unfold metadata_data. cbn [md new_metadata md_type md_namespace md_args] in *. change (md_name (new_metadata name t ns args)) with (md_name md).
    destruct (place (cast_list (md_name md)) n) as [[n1 k1] v1]. destruct (place (cast_list ns) n1) as [[n2 k2] v2].
    destruct (place (cast_list args) n2) as [[n3' k3] v3]. injection E as -> <- <-. rewrite app_nil_r in *.
    inversion W as [|? ? W1 W']; subst. inversion W' as [|? ? W2 W'']; subst. inversion W'' as [|? ? W3 _]; subst.
    inversion S as [|? ? ? ? S1 S']; subst. inversion S' as [|? ? ? ? S2 S'']; subst. inversion S'' as [|? ? ? ? S3 _]; subst.
    exists (k1 ++ k2 ++ k3), n3, v1, v2, v3. cbv zeta. split; [reflexivity|]. split; [|split; [|split; [exact B|auto]]].
    - destruct W1 as (? & ? & ?), W2 as (? & ? & ?), W3 as (? & ? & ?), FT as (? & ? & ?).
      split; [|split; [|exact I]]; cbn [fields]; repeat (apply Forall_cons; [first [exact I|assumption]|]); apply Forall_nil.
    - cbn [values]. destruct W1 as (? & ? & ?), W2 as (? & ? & ?), W3 as (? & ? & ?). repeat (apply Forall_cons; [assumption|]). apply Forall_nil.
  Qed.
  Theorem metadata_written rank : ranked h rank -> exists fuel data, metadata_data fuel h n md = Ok data.
  Proof using US F0 G0 L0 C0 AN AS AA FN FS FA FT.
    intros RK. destruct metadata_placed as (k & n3 & v1 & v2 & v3 & D & GM & HV & B & _).
    destruct (whole reg lx h n F0 G0 L0 C0 n n3 k (N.le_refl n) B) as (G1 & L1 & C1 & A1).
    destruct (whole_ranked reg lx h n F0 C0 rank n n3 k (N.le_refl n) B RK) as (rank' & RK').
    destruct (writes (h ++ k) n3 _ rank' C1 RK' A1 HV (Forall_nil _)) as (fuel & data & E).
    exists fuel, data. now rewrite D.
  Qed.
  Theorem metadata_seen fuel data : metadata_data fuel h n md = Ok data ->
    exists v1 v2 v3 h' R, read_message reg KGetCommandMetadata data = Ok (WGetCommandMetadata v1 t v2 v3, h')
    /\ listed h' (same_value R) names v1 /\ opt_listed h' R nss v2 /\ opt_listed h' R argss v3 /\ same_graph reg (heap_lines h) h' R.
  Proof using US F0 G0 L0 C0 AN AS AA FN FS FA FT.
    intros E. destruct metadata_placed as (k & n3 & v1 & v2 & v3 & D & GM & HV & B & S1 & S2 & S3). rewrite D in E.
    destruct (whole reg lx h n F0 G0 L0 C0 n n3 k (N.le_refl n) B) as (G1 & L1 & C1 & A1).
    destruct (message_lines reg lx (h ++ k) n3 _ fuel data G1 L1 C1 A1 GM HV E) as (w' & h' & R & Ed & SM & SG).
    destruct SM as [SK SV]. destruct w'; try discriminate SK; try (match type of SK with skeleton (WPipelineOutput ?x) = _ => destruct x; discriminate SK end).
    cbn in SK. injection SK as ->. cbn in SV. inversion SV as [|? ? ? ? X1 SV']; subst. inversion SV' as [|? ? ? ? X2 SV'']; subst. inversion SV'' as [|? ? ? ? X3 _]; subst.
    pose proof (name_asked name t ns args names AN) as AN'. fold md in AN'.
    pose proof (narrow_graph R h reg k h' C0 SG) as NG.
    assert (forall g x v v', asks h g x -> Forall (can_send reg lx h) (elements x) -> stands eq (h ++ k) (cast_list g) v -> same_value R v v' -> opt_listed h' (within R h) x v') as K.
    { intros g x v v' A F S X. eapply cast_kept; [exact NG|exact A|]. eapply stands_within; [exact (cast_good _ _ A F)|]. eapply stands_kept; eassumption. }
    eexists _, _, _, h', (within R h). split; [exact Ed|]. split; [exact (K _ _ _ _ AN' FN S1 X1)|]. split; [exact (K _ _ _ _ AS FS S2 X2)|].
    split; [exact (K _ _ _ _ AA FA S3 X3)|exact NG].
  Qed.
End Meta.
Lemma listed_names h R l v : listed h (same_value R) l v -> Forall2 (same_value R) l (name_list h v).
Proof. intros (a & o & k & vs & -> & Ha & Hb & F). unfold name_list, items. now rewrite Ha, Hb. Qed.
