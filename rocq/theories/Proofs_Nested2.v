(** Proofs for C82: elements as serializers write them. *)
From Coq Require Import String.
From Verif Require Import Base BaseFacts Model_Scalars Model_Strings Model_Text Model_Object Model_Clixml Model_FromHook.
From Verif Require Import Spec_Strings Spec_Scalars Spec_Clixml Spec_Read Spec_FromHook Spec_Nested.
From Verif Require Import Proofs_Clixml1 Proofs_Clixml2 Proofs_Clixml3 Proofs_Clixml4 Proofs_Read Proofs_Read2 Proofs_Read3 Proofs_Read4 Proofs_FromHook Proofs_Nested.
Local Open Scope list_scope.
Local Open Scope nat_scope.

(** ** Type names *)
Lemma typed_read d tks ns tn rest : typed_by d tks ns tn -> Proofs_Clixml2.no_tn rest ->
  exists dn, read_names d (tks ++ rest) = Ok (ns, dn) /\ (forall o, begun None tn (d_next d) d (snd (alloc dn o))) /\ d_next dn = d_next d.
Proof.
  intros H Hr.
  assert (forall f, (f = is_tn \/ f = is_tnref) -> find_tag f rest = None) as Hf.
  { intros f Hf. rewrite <- (app_nil_r rest), find_tag_app; [reflexivity|]. eapply Forall_impl; [|exact Hr]. cbv beta. intros x [K1 K2]. destruct Hf; subst; assumption. }
  destruct H as [|r u ts ns Hts Hns|r u l ns Hl].
  - exists d. split; [|split; [apply begun_alloc|reflexivity]]. unfold read_names. cbn [app]. rewrite tn_texts_no by exact Hr. rewrite Hf by tauto. reflexivity.
  - apply type_texts_are in Hts. exists (known d r ns). split; [|split; [apply begun_known|reflexivity]]. unfold read_names. rewrite tn_texts_app, (tn_texts_no rest) by exact Hr.
    unfold tn_texts. cbn [filter is_tn x_tag flat_map x_kids app find_tag x_attrs attr_get attr_eqb]. rewrite Hts, !app_nil_r. destruct ns; [now elim Hns|reflexivity].
  - exists d. split; [|split; [apply begun_alloc|reflexivity]]. unfold read_names. rewrite tn_texts_app, (tn_texts_no rest) by exact Hr.
    unfold tn_texts. cbn [filter is_tn x_tag flat_map x_kids app find_tag is_tnref x_attrs attr_get attr_eqb]. rewrite Hl. reflexivity.
Qed.
Lemma begun_again rid tn a d d0 a' : begun rid tn a d d0 -> (d_next d <= a' < d_next d0)%N -> begun rid tn a' d (update_ref d0 rid (VRef a')).
Proof.
  intros [H1 H2 H3 H4 H5 H6] L. split.
  - now rewrite update_next.
  - now rewrite update_heap.
  - intros k ->. cbn [update_ref d_refs]. now rewrite sget_sset, name_eqb_refl.
  - intros k Hk. rewrite <- H4 by exact Hk. unfold update_ref. destruct rid as [r|]; [|reflexivity]. cbn [d_refs]. rewrite sget_sset.
    destruct (name_eqb k r) eqn:E; [|reflexivity]. apply name_eqb_iff in E. congruence.
  - intros r ns. rewrite update_tns. apply H5.
  - intros r. rewrite update_tns. apply H6.
Qed.
Lemma begun_more rid tn a d d0 o : begun rid tn a d d0 -> begun rid tn a d (snd (alloc d0 o)).
Proof.
  intros [H1 H2 H3 H4 H5 H6]. split; cbn [alloc snd d_next d_heap d_refs d_tns]; auto; [lia|].
  intros b Hb. rewrite aget_aset. destruct (N.eqb_spec b (d_next d0)); [lia|now apply H2].
Qed.
Lemma begun_new rid tn a d d0 o : begun rid tn a d d0 -> begun rid tn (d_next d0) d (update_ref (snd (alloc d0 o)) rid (VRef (d_next d0))).
Proof. intros H. apply begun_again with (a := a); [now apply begun_more|]. destruct H as [H _ _ _ _ _]. cbn [alloc snd d_next]. lia. Qed.
Lemma new_there d o rid : aget (d_next d) (d_heap (update_ref (snd (alloc d o)) rid (VRef (d_next d)))) = Some o.
Proof. rewrite update_heap. cbn [alloc snd d_heap]. now rewrite aget_aset, N.eqb_refl. Qed.
Lemma filling_refl a d : filling a d d.
Proof. repeat split. Qed.
Lemma filling_trans a d1 d2 d3 : filling a d1 d2 -> filling a d2 d3 -> filling a d1 d3.
Proof.
  intros (A1 & A2 & A3 & A4) (B1 & B2 & B3 & B4). split; [congruence|]. split; [congruence|]. split; [congruence|]. intros b Hb. rewrite B4, A4 by exact Hb. reflexivity.
Qed.

Section Elements.
  Variable hooks : from_hooks.
  Variable reg : registry.
  Hypothesis HS : forall c f, hooks c = Some f -> sparing f.
  Notation go m := (hdeser hooks reg m).
  (** The object before its content is read. *)
  Lemma rehydrated tn d dn ns rid : (forall o, begun None tn (d_next d) d (snd (alloc dn o))) -> d_next dn = d_next d ->
    (forall c t f vs, registered reg ns = Some c -> c_kind c <> CEnum t f vs) ->
    exists d0 b, rehydrate reg dn ns rid = (Some (VRef (d_next d)), registered reg ns, None, names_read reg ns, d0)
      /\ begun rid tn (d_next d) d d0 /\ empty_body (registered reg ns) b
      /\ aget (d_next d) (d_heap d0) = Some (mkG b (names_read reg ns) None (own_props c_adapted (registered reg ns)) (own_props c_extended (registered reg ns))).
  Proof.
    intros HB En Hreg. unfold rehydrate, names_read, own_props. cbv zeta.
    replace (match ns with [] => None | n :: _ => match n with [] => None | _ => reg n end end) with (registered reg ns) by (destruct ns as [|[|] ?]; reflexivity).
    destruct (registered reg ns) as [c|] eqn:Er.
    - specialize (HB (blank c)). unfold alloc in *. cbn [snd] in *. rewrite En in *. exists (update_ref (mkD (aset (d_next d) (blank c) (d_heap dn)) (d_next d + 1)%N (d_refs dn) (d_tns dn)) rid (VRef (d_next d))), (blank_body (c_kind c)).
      split; [destruct (c_kind c) eqn:K; try reflexivity; now elim (Hreg c _ _ _ eq_refl K)|]. split; [now apply begun_update|].
      split; [destruct (c_kind c) eqn:K; try (now elim (Hreg c _ _ _ eq_refl K)); constructor; cbn [its_kind]; rewrite K; auto|].
      rewrite update_heap. cbn [d_heap]. now rewrite aget_aset, N.eqb_refl.
    - specialize (HB (mkG BPlain (map deserialized ns) None [] [])). unfold alloc in *. cbn [snd] in *. rewrite En in *. do 2 eexists. split; [reflexivity|].
      split; [now apply begun_update|]. split; [constructor; now left|]. rewrite update_heap. cbn [d_heap]. now rewrite aget_aset, N.eqb_refl.
  Qed.
  (** The content. *)
  Lemma content_step m rid tn d d0 ns b kc rest ps ms l' : hmax m kc -> proper_content reg ns kc ->
    begun rid tn (d_next d) d d0 -> empty_body (registered reg ns) b ->
    aget (d_next d) (d_heap d0) = Some (mkG b (names_read reg ns) None (own_props c_adapted (registered reg ns)) (own_props c_extended (registered reg ns))) ->
    read_children (go m) rid None (mkL d0 (Some (VRef (d_next d))) (registered reg ns) ps ms None) (kc ++ rest) = Ok l' ->
    exists ad c body fresh d1 d2 o, begun rid tn ad d d1 /\ content_read (hdeserialize hooks reg) reg ns ad kc c d1 body fresh d2
      /\ aget ad (d_heap d2) = Some o /\ g_body o = body /\ g_string o = None /\ g_adapted o = own_props c_adapted c /\ g_extended o = own_props c_extended c
      /\ (names_read reg ns = [] -> g_names o = fresh) /\ (ad < d_next d2)%N
      /\ (c = registered reg ns \/ c = None \/ exists k, c = Some (cls_list k) \/ c = Some cls_queue \/ c = Some cls_dict)
      /\ read_children (go m) rid None (mkL d2 (Some (VRef ad)) c ps ms None) rest = Ok l'.
  Proof using HS.
    intros Hh HC HB Hb Ho H. set (R := registered reg ns) in *.
    assert (names_read reg ns = [] -> own_names R = []) as Hno by (unfold names_read, own_names; fold R; destruct R; auto).
    destruct HC as [|x Hn Hx|k xb xu l Hl|xb xu l Hl|xb xu l Hl]; cbn [app read_children] in H.
    - (* nothing *)
      exists (d_next d), R, b, (own_names R), d0, d0. eexists. split; [exact HB|]. split; [now apply CtNone|]. split; [exact Ho|]. cbn [g_body g_string g_adapted g_extended g_names].
      split; [reflexivity|]. split; [reflexivity|]. split; [reflexivity|]. split; [reflexivity|]. split; [intros Q; rewrite Hno; assumption|]. split; [apply HB|]. split; [now left|exact H].
    - (* a value *)
      apply bind_Ok in H as (l1 & Hc & H). unfold read_child in Hc. cbn [l_d l_val l_cls l_props l_ms l_str] in Hc. cbv zeta in Hc.
      assert (exists p, (forall d, hdeserialize hooks reg d x = Ok (VPrim p, d)) /\ go m d0 x = Ok (VPrim p, d0)) as (p & Hp & Hg).
      { assert (exists r, go m d0 x = Ok r) as ([v d1] & Eg).
        { destruct (x_tag x); try contradiction; apply bind_Ok in Hc as (r & Hg & _); eauto. }
        assert (x_tag x <> TgObj /\ x_tag x <> TgRef) as [T1 T2] by (split; intros Q; rewrite Q in Hx; contradiction).
        destruct (loose_read hooks reg m d0 x v d1 T1 T2 Eg) as (-> & _ & Hall).
        assert (exists p, v = VPrim p) as (p & ->); [|exists p; split; assumption].
        destruct m as [|m]; [discriminate|]. clear - Hx Eg. destruct x as [t a s kids]. cbn [hdeser x_tag deser] in *.
        assert (forall r : option (result prim), match r with Some r => let! p := r in Ok (VPrim p, d0) | None => Err ValueError end = Ok (v, d0) -> exists p, v = VPrim p) as K.
        { intros [[p|e]|] Q; try discriminate. injection Q as <-. eauto. }
        destruct t; try contradiction; match type of Eg with context [read_prim ?t s] => exact (K (read_prim t s) Eg) end. }
      assert (exists o, read_child (go m) rid None (mkL d0 (Some (VRef (d_next d))) R ps ms None) x = Ok (mkL (update_ref (snd (alloc d0 o)) rid (VRef (d_next d0))) (Some (VRef (d_next d0))) None ps ms None)
        /\ o = mkG (BPrim p) (names_read reg ns) None [] []) as (o & Ec & Eo).
      { eexists. split; [|reflexivity]. unfold read_child. cbn [l_d l_val l_cls l_props l_ms l_str]. cbv zeta. rewrite Hg, Ho. cbn [bind fst snd g_names].
        unfold alloc. cbn [snd]. destruct (names_read reg ns) as [|n0 nr]; [now elim Hn|]. destruct (x_tag x); try contradiction; reflexivity. }
      assert (Ok l1 = Ok (mkL (update_ref (snd (alloc d0 o)) rid (VRef (d_next d0))) (Some (VRef (d_next d0))) None ps ms None)) as Q.
      { rewrite <- Ec. symmetry. exact Hc. }
      injection Q as ->. clear Hc Ec.
      exists (d_next d0), None, (BPrim p), []. exists (update_ref (snd (alloc d0 o)) rid (VRef (d_next d0))), (update_ref (snd (alloc d0 o)) rid (VRef (d_next d0))), o.
      split; [now apply begun_new with (a := d_next d)|]. split; [now apply CtPrim|]. split; [apply new_there|]. subst o. cbn [g_body g_string g_adapted g_extended g_names own_props].
      split; [reflexivity|]. split; [reflexivity|]. split; [reflexivity|]. split; [reflexivity|]. split; [intros Q; now elim Hn|].
      split; [rewrite update_next; cbn [alloc snd d_next]; lia|]. split; [right; now left|exact H].
    - (* a list *)
      inversion Hh as [|? ? Hk _]; subst. pose proof (inner_hmax _ _ _ _ _ Hk) as Hl2.
      apply bind_Ok in H as (l1 & Hc & H). unfold read_child in Hc. cbn [x_tag x_kids l_d l_val l_cls l_props l_ms l_str] in Hc. cbv zeta in Hc.
      set (c := match R with Some c => match c_kind c with CList _ => c | _ => cls_list k end | None => cls_list k end) in *.
      assert (exists k', c_kind c = CList k' /\ made_as R (fun z => exists k, z = CList k) (mkC (CList k) (list_names k) [] []) c) as (k' & Kc & Hm).
      { subst c. assert (cls_list k = mkC (CList k) (list_names k) [] []) as Q by (destruct k; reflexivity). rewrite <- Q.
        destruct R as [c|]; [|exists k; split; [reflexivity|apply MaOther; discriminate]].
        destruct (c_kind c) eqn:K; try (exists k; split; [reflexivity|apply MaOther; intros c1 Q1 (k1 & Q2); injection Q1 as ->; congruence]).
        exists k0. split; [exact K|]. apply MaOwn; [reflexivity|eauto]. }
      assert (c = cls_list k \/ Some c = R) as Hor by (subst c; destruct R as [c|]; [destruct (c_kind c); auto|auto]). clearbody c.
      unfold alloc in Hc. apply bind_Ok in Hc as (d3 & E & Hc). injection Hc as <-.
      pose proof (begun_new rid tn _ d d0 (blank c) HB) as HB1. pose proof (new_there d0 (blank c) rid) as Ho1. unfold alloc in HB1, Ho1. cbn [snd] in HB1, Ho1.
      assert (list_like (g_body (blank c)) [] = Some (BList k' [])) as Hll by (unfold blank; cbn [g_body]; rewrite Kc; reflexivity).
      destruct (items_nested hooks reg HS m _ l Hl Hl2 _ _ _ _ (proj2 (be_next _ _ _ _ _ HB1)) Ho1 Hll E) as (vs & b' & G1 & G2 & G3).
      unfold blank in G1. cbn [g_body] in G1. rewrite Kc in G1. cbn in G1. injection G1 as <-.
      exists (d_next d0), (Some c), (BList k' vs), (c_names c). do 3 eexists. split; [exact HB1|]. split; [eapply CtList; eassumption|]. split; [exact G2|].
      unfold with_body, blank. cbn [g_body g_string g_adapted g_extended g_names own_props].
      split; [reflexivity|]. split; [reflexivity|]. split; [reflexivity|]. split; [reflexivity|]. split; [reflexivity|].
      split; [|split; [destruct Hor as [->| ->]; [right; right; exists k; now left|now left]|exact H]].
      eapply N.lt_le_trans; [exact (proj2 (be_next _ _ _ _ _ HB1))|]. exact (proj1 (items_spare _ (fun d x r Hx Hr => hdeser_spares hooks reg HS m d x r Hx Hr) (fun d x r T1 T2 Hr => proj2 (hdeser_unlinked hooks reg m d x r T1 T2 Hr)) _ _ _ (N.le_refl _) Hl _ _ (N.lt_le_incl _ _ (proj2 (be_next _ _ _ _ _ HB1))) E)).
    - (* a queue *)
      inversion Hh as [|? ? Hk _]; subst. pose proof (inner_hmax _ _ _ _ _ Hk) as Hl2.
      apply bind_Ok in H as (l1 & Hc & H). unfold read_child in Hc. cbn [x_tag x_kids l_d l_val l_cls l_props l_ms l_str] in Hc. cbv zeta in Hc.
      assert ((exists c, R = Some c /\ c_kind c = CQueue) \/ (forall c, R = Some c -> c_kind c <> CQueue)) as [(c & Rc & Kc)|Hnq].
      { destruct R as [c|]; [|right; discriminate]. destruct (c_kind c) eqn:K; try (right; intros c1 Q; injection Q as <-; congruence). left. eauto. }
      + rewrite Rc, Kc in Hc. cbn [negb] in Hc. apply bind_Ok in Hc as (d3 & E & Hc). injection Hc as <-.
        assert (b = BQueue []) as -> by (rewrite Rc in Hb; destruct Hb as [[Q|Q]|k Q|Q|Q|p Q]; cbn [its_kind] in Q; rewrite ?Kc in Q; try discriminate; reflexivity).
        destruct (items_nested hooks reg HS m _ l Hl Hl2 _ _ _ (BQueue []) (proj2 (be_next _ _ _ _ _ HB)) Ho eq_refl E) as (vs & b' & G1 & G2 & G3).
        cbn in G1. injection G1 as <-.
        exists (d_next d), (Some c), (BQueue vs), (c_names c). do 3 eexists. split; [exact HB|]. split; [eapply CtQueue; [apply MaOwn; eassumption|exact G3]|]. split; [exact G2|].
        unfold with_body. cbn [g_body g_string g_adapted g_extended g_names]. rewrite Rc.
        split; [reflexivity|]. split; [reflexivity|]. split; [reflexivity|]. split; [reflexivity|]. split; [intros Q; rewrite Q; specialize (Hno Q); rewrite Rc in Hno; symmetry; exact Hno|].
        split; [|split; [now left|exact H]].
        eapply N.lt_le_trans; [exact (proj2 (be_next _ _ _ _ _ HB))|]. exact (proj1 (items_spare _ (fun d x r Hx Hr => hdeser_spares hooks reg HS m d x r Hx Hr) (fun d x r T1 T2 Hr => proj2 (hdeser_unlinked hooks reg m d x r T1 T2 Hr)) _ _ _ (N.le_refl _) Hl _ _ (N.lt_le_incl _ _ (proj2 (be_next _ _ _ _ _ HB))) E)).
      + replace (match R with Some c => match c_kind c with CQueue => true | _ => false end | None => false end) with false in Hc
          by (destruct R as [c|]; [specialize (Hnq c eq_refl); destruct (c_kind c); try reflexivity; now elim Hnq|reflexivity]).
        unfold alloc in Hc. apply bind_Ok in Hc as (d3 & E & Hc). injection Hc as <-.
        pose proof (begun_new rid tn _ d d0 (blank cls_queue) HB) as HB1. pose proof (new_there d0 (blank cls_queue) rid) as Ho1. unfold alloc in HB1, Ho1. cbn [snd] in HB1, Ho1.
        destruct (items_nested hooks reg HS m _ l Hl Hl2 _ _ _ (BQueue []) (proj2 (be_next _ _ _ _ _ HB1)) Ho1 eq_refl E) as (vs & b' & G1 & G2 & G3).
        cbn in G1. injection G1 as <-.
        exists (d_next d0), (Some cls_queue), (BQueue vs), (c_names cls_queue). do 3 eexists. split; [exact HB1|].
        split; [eapply CtQueue; [apply MaOther; intros c Q1 Q2; exact (Hnq c Q1 Q2)|exact G3]|]. split; [exact G2|].
        split; [reflexivity|]. split; [reflexivity|]. split; [reflexivity|]. split; [reflexivity|]. split; [reflexivity|].
        split; [|split; [right; right; exists LList; right; now left|exact H]].
        eapply N.lt_le_trans; [exact (proj2 (be_next _ _ _ _ _ HB1))|]. exact (proj1 (items_spare _ (fun d x r Hx Hr => hdeser_spares hooks reg HS m d x r Hx Hr) (fun d x r T1 T2 Hr => proj2 (hdeser_unlinked hooks reg m d x r T1 T2 Hr)) _ _ _ (N.le_refl _) Hl _ _ (N.lt_le_incl _ _ (proj2 (be_next _ _ _ _ _ HB1))) E)).
    - (* a table *)
      inversion Hh as [|? ? Hk _]; subst. pose proof (inner_hmax _ _ _ _ _ Hk) as Hl2.
      assert (Forall (fun x => hmax m (x_kids x)) l) as Hl3.
      { eapply Forall_impl; [|exact Hl2]. intros y Hy. destruct y. eapply inner_hmax. exact Hy. }
      apply bind_Ok in H as (l1 & Hc & H). unfold read_child in Hc. cbn [x_tag x_kids l_d l_val l_cls l_props l_ms l_str] in Hc. cbv zeta in Hc.
      set (c := match R with Some c => match c_kind c with CDict => c | _ => cls_dict end | None => cls_dict end) in *.
      assert (c_kind c = CDict /\ made_as R (fun z => z = CDict) (mkC CDict table_names [] []) c) as (Kc & Hm).
      { subst c. change (mkC CDict table_names [] []) with cls_dict.
        destruct R as [c|]; [|split; [reflexivity|apply MaOther; discriminate]].
        destruct (c_kind c) eqn:K; try (split; [reflexivity|apply MaOther; intros c1 Q1 Q2; injection Q1 as ->; congruence]).
        split; [exact K|]. apply MaOwn; [reflexivity|exact K]. }
      assert (c = cls_dict \/ Some c = R) as Hor by (subst c; destruct R as [c|]; [destruct (c_kind c); auto|auto]). clearbody c.
      unfold alloc in Hc. apply bind_Ok in Hc as (d3 & E & Hc). injection Hc as <-.
      pose proof (begun_new rid tn _ d d0 (blank c) HB) as HB1. pose proof (new_there d0 (blank c) rid) as Ho1. unfold alloc in HB1, Ho1. cbn [snd] in HB1, Ho1.
      assert (g_body (blank c) = BDict []) as Hbd by (unfold blank; cbn [g_body]; rewrite Kc; reflexivity).
      destruct (entries_nested hooks reg HS m _ l Hl Hl3 _ _ _ [] (proj2 (be_next _ _ _ _ _ HB1)) Ho1 Hbd (Forall_nil _) E) as (xk & xv & ks & vs & e' & G1 & G2 & G3 & G4 & G5 & G6).
      exists (d_next d0), (Some c), (BDict e'), (c_names c). do 3 eexists. split; [exact HB1|]. split; [eapply CtTable; eassumption|]. split; [exact G1|].
      unfold with_body, blank. cbn [g_body g_string g_adapted g_extended g_names own_props].
      split; [reflexivity|]. split; [reflexivity|]. split; [reflexivity|]. split; [reflexivity|]. split; [reflexivity|].
      split; [|split; [destruct Hor as [->| ->]; [right; right; exists LList; right; now right|now left]|exact H]].
      eapply N.lt_le_trans; [exact (proj2 (be_next _ _ _ _ _ HB1))|].
      assert (Forall straight l) as Hl4 by (eapply Forall_impl; [|exact Hl]; cbv beta; tauto).
      exact (proj1 (entries_spare _ (fun d x r Hx Hr => hdeser_spares hooks reg HS m d x r Hx Hr) (fun d x r T1 T2 Hr => proj2 (hdeser_unlinked hooks reg m d x r T1 T2 Hr)) _ _ _ (N.le_refl _) Hl4 _ _ (N.lt_le_incl _ _ (proj2 (be_next _ _ _ _ _ HB1))) E)).
  Qed.
  Lemma group_kids t kids l : in_group t kids l -> kids = [] /\ l = [] \/ exists b u, kids = [Elem t b u l].
  Proof. intros [|b u l0]; [now left|right; eauto]. Qed.
  Theorem element_nested d a s tks ns tn kp ps km ms kc kt text v d' :
    hdeserialize hooks reg d (Elem TgObj a s (tks ++ kp ++ km ++ kc ++ kt)) = Ok (v, d') ->
    typed_by d tks ns tn -> in_group TgProps kp ps -> in_group TgMS km ms -> proper_content reg ns kc -> says names_prop kt text ->

    (forall c, registered reg ns = Some c -> (forall t f vs, c_kind c <> CEnum t f vs) /\ NoDup (c_adapted c) /\ NoDup (c_extended c)) ->
    Forall straight ps -> Forall straight ms ->
    exists ad c body fresh d0 d1 d2 d3 d4 ns1 vs1 ns2 vs2 es1 es2, begun (attr_get AtRefId a) tn ad d d0
      /\ content_read (hdeserialize hooks reg) reg ns ad kc c d0 body fresh d1 /\ filling ad d1 d2
      /\ Forall2 (its_name names_prop) ps ns1 /\ one_by_one (hdeserialize hooks reg) ad d2 ps vs1 d3 /\ all_given (own_props c_adapted c) (combine ns1 vs1) es1
      /\ Forall2 (its_name names_prop) ms ns2 /\ one_by_one (hdeserialize hooks reg) ad d3 ms vs2 d4 /\ all_given (own_props c_extended c) (combine ns2 vs2) es2
      /\ aget ad (d_heap d4) = Some (mkG body (names_kept reg ns fresh) text es1 es2)
      /\ match c with
         | Some c => match hooks c with
                     | Some f => exists d5, f d4 ad = Ok (v, d5) /\ d' = update_ref d5 (attr_get AtRefId a) v
                     | None => v = VRef ad /\ d' = d4
                     end
         | None => v = VRef ad /\ d' = d4
         end.
  Proof using HS.
    intros H Hty Hgp Hgm Hpc Hsay Hreg Hps Hms. unfold hdeserialize in H. cbn [height] in H.
    match type of H with hdeser _ _ (S ?g) _ _ = _ => set (m := g) in * end.
    assert (hmax m (tks ++ kp ++ km ++ kc ++ kt)) as Hall by (apply Forall_forall; intros y Hy; subst m; now apply in_height).
    clearbody m. unfold hmax in Hall. rewrite !Forall_app in Hall. destruct Hall as (_ & Hh1 & Hh2 & Hhc & _).
    assert (hmax m ps) as Hp by (destruct Hgp; [constructor|inversion Hh1; eapply inner_hmax; eassumption]).
    assert (hmax m ms) as Hm by (destruct Hgm; [constructor|inversion Hh2; eapply inner_hmax; eassumption]).
    assert (Proofs_Clixml2.no_tn (kp ++ km ++ kc ++ kt)) as Hnt.
    { repeat apply no_tn_app.
      - destruct Hgp; repeat constructor.
      - destruct Hgm; repeat constructor.
      - destruct Hpc as [|x _ Hx| | |]; try (apply Forall_nil); (apply Forall_cons; [|apply Forall_nil]); try (split; reflexivity). destruct (x_tag x); try contradiction; split; reflexivity.
      - destruct Hsay; repeat constructor. }
    destruct (typed_read d tks ns tn _ Hty Hnt) as (dn & En & Hdn & Ndn).
    assert (only_tn tks) as Hot.
    { destruct Hty; [apply Forall_nil| |]; (apply Forall_cons; [|apply Forall_nil]); [now left|now right]. }
    set (rid := attr_get AtRefId a) in *.
    destruct (rehydrated tn d dn ns rid Hdn Ndn ltac:(intros c t f vs Q; now apply (Hreg c Q))) as (d00 & b & Er & HB & Hb & Ho).
    cbn [hdeser x_tag x_attrs x_kids] in H. unfold read_hooked, class_read, read_object in H. cbv zeta in H. fold rid in H. rewrite En in H. cbn [bind fst snd] in H. rewrite Er in H.
    rewrite children_tn in H by exact Hot.
    set (ops := match kp with [] => None | _ => Some ps end). set (oms := match km with [] => None | _ => Some ms end).
    assert (forall rest, read_children (go m) rid None (mkL d00 (Some (VRef (d_next d))) (registered reg ns) None None None) (kp ++ km ++ rest)
      = read_children (go m) rid None (mkL d00 (Some (VRef (d_next d))) (registered reg ns) ops oms None) rest) as Hgr.
    { intros rest. subst ops oms. destruct Hgp, Hgm; reflexivity. }
    rewrite Hgr in H. clear Hgr.
    apply bind_Ok in H as (r0 & HO & H). apply bind_Ok in HO as (l & Hch & HO). rewrite Hch in H.
    destruct (content_step m rid tn d d00 ns b kc kt ops oms l Hhc Hpc HB Hb Ho Hch) as (ad & c & body & fresh & d0 & d1 & o & HB0 & HC & Ho1 & Q1 & Q2 & Q3 & Q4 & Q5 & Lad & Hcl & Hch2).
    assert (l = mkL d1 (Some (VRef ad)) c ops oms text) as ->.
    { destruct Hsay as [|bb s0 k t Ht]; cbn [read_children] in Hch2; [now injection Hch2 as <-|]. unfold read_child in Hch2. cbn [x_tag x_text l_d l_val l_cls l_props l_ms l_str] in Hch2.
      unfold names_prop in Ht. rewrite Ht in Hch2. cbn [bind] in Hch2. now injection Hch2 as <-. }
    clear Hch Hch2. cbn [l_d l_val l_cls l_props l_ms l_str] in HO, H. cbv zeta in HO.
    assert (forall put1 dd, match ops with Some ps => read_props (go m) put1 dd ad ps | None => Ok dd end = read_props (go m) put1 dd ad ps) as Hop by (intros; subst ops; destruct Hgp; reflexivity).
    assert (forall put1 dd, match oms with Some ps => read_props (go m) put1 dd ad ps | None => Ok dd end = read_props (go m) put1 dd ad ms) as Hom by (intros; subst oms; destruct Hgm; reflexivity).
    rewrite Hop in HO.
    match type of HO with context [read_props _ add_adapted ?x _ _] => set (d2 := x) in * end.
    assert (filling ad d1 d2 /\ aget ad (d_heap d2) = Some (mkG body (names_kept reg ns fresh) text (own_props c_adapted c) (own_props c_extended c))) as [HF Ho2].
    { assert (filling ad d1 (match text with Some s => modify d1 ad (fun o => with_string o s) | None => d1 end)
        /\ aget ad (d_heap (match text with Some s => modify d1 ad (fun o => with_string o s) | None => d1 end)) = Some (mkG body (g_names o) text (own_props c_adapted c) (own_props c_extended c))) as [K1 K2].
      { destruct o as [ob on os oa oe]. cbn [g_body g_string g_adapted g_extended g_names] in *. subst.
        destruct text as [t|]; [|split; [apply filling_refl|exact Ho1]]. split; [apply modify_filling|]. rewrite (modify_get _ _ (fun o => with_string o t) _ Ho1). reflexivity. }
      subst d2. unfold names_kept. destruct (names_read reg ns) as [|n0 nr] eqn:Ef.
      - rewrite <- (Q5 eq_refl). split; assumption.
      - split; [eapply filling_trans; [exact K1|apply modify_filling]|]. rewrite (modify_get _ _ (fun o => with_names o (n0 :: nr)) _ K2). reflexivity. }
    clearbody d2. assert (ad < d_next d2)%N as Lad2 by (destruct HF as (_ & _ & -> & _); exact Lad).
    assert (NoDup (map fst (own_props c_adapted c)) /\ NoDup (map fst (own_props c_extended c))) as [Na Ne].
    { assert (forall cc, NoDup (c_adapted cc) /\ NoDup (c_extended cc) -> NoDup (map fst (own_props c_adapted (Some cc))) /\ NoDup (map fst (own_props c_extended (Some cc)))) as K.
      { intros cc [K1 K2]. cbn [own_props]. rewrite !map_map. cbn [fst]. now rewrite !map_id. }
      destruct Hcl as [->|[->|(k & [->|[->| ->]])]].
      - destruct (registered reg ns) as [cc|] eqn:Ereg; [|split; constructor]. apply K. apply (Hreg cc eq_refl).
      - split; constructor.
      - apply K. split; constructor.
      - apply K. split; constructor.
      - apply K. split; constructor. }
    apply bind_Ok in HO as (d3 & E & HO). rewrite Hom in HO. apply bind_Ok in HO as (d4 & E0 & HO). injection HO as <-.
    destruct (props_nested hooks reg HS add_adapted g_adapted ltac:(reflexivity) (fun o => mkG (g_body o) (g_names o) (g_string o) [] (g_extended o)) ltac:(reflexivity)
      m _ ps Hps Hp _ _ _ Lad2 Ho2 Na E) as (o1 & ns1 & vs1 & A1 & A2 & A3 & A4 & A5 & A6 & A7).
    destruct o1 as [ob on os oa oe]. injection A2 as -> -> -> ->.
    destruct (props_nested hooks reg HS add_extended g_extended ltac:(reflexivity) (fun o => mkG (g_body o) (g_names o) (g_string o) (g_adapted o) []) ltac:(reflexivity)
      m _ ms Hms Hm _ _ _ A4 A1 Ne E0) as (o2 & ns2 & vs2 & B1 & B2 & B3 & B4 & B5 & B6 & B7).
    destruct o2 as [ob on os oa' oe]. injection B2 as -> -> -> ->. cbn [g_adapted g_extended] in *.
    exists ad, c, body, fresh, d0, d1, d2, d3, d4. do 6 eexists. split; [exact HB0|]. split; [exact HC|]. split; [exact HF|].
    split; [exact A5|]. split; [exact A6|]. split; [exact A7|]. split; [exact B5|]. split; [exact B6|]. split; [exact B7|].
    split; [exact B1|]. unfold transform in H. cbn [fst snd] in H. destruct c as [c|]; [|injection H as <- <-; split; reflexivity].
    destruct (hooks c) as [f|]; [|injection H as <- <-; split; reflexivity]. apply bind_Ok in H as ([v1 d5] & Ef & H). injection H as <- <-. cbn [fst snd].
    exists d5. split; [exact Ef|reflexivity].
  Qed.
End Elements.
