(** CLIXML: reading back each kind of object. *)
From Coq Require Import String.
From Verif Require Import Base BaseFacts Model_Scalars Model_Strings Model_Text Model_Object Model_Clixml.
From Verif Require Import Spec_Strings Spec_Scalars Spec_Clixml Proofs_Clixml1 Proofs_Clixml2 Proofs_Clixml3.
Local Open Scope list_scope.
Local Open Scope nat_scope.

(** ** Python attributes *)
Lemma starts_with_iff p s : starts_with p s = true <-> exists r, s = p ++ r.
Proof.
  revert s. induction p as [|c p IH]; intros s; cbn [starts_with app].
  - split; eauto.
  - destruct s as [|d s]; [split; [discriminate|intros (r & H); discriminate]|].
    rewrite andb_true_iff, N.eqb_eq, IH. split; [intros (-> & r & ->); eauto|intros (r & [= -> ->]); eauto].
Qed.
Definition publicb (cls : name) (x : name * bool * value) : bool :=
  negb (name_eqb (fst (fst x)) (tx "PSObject") || starts_with (tx "__") (fst (fst x))
        || starts_with (tx "_" ++ cls ++ tx "__") (fst (fst x)) || snd (fst x)).
Lemma publicb_iff cls x : publicb cls x = true <-> public cls x.
Proof.
  assert (forall p t, starts_with p t = false <-> ~ exists r, t = p ++ r) as HS.
  { intros p t. rewrite <- starts_with_iff. now rewrite not_true_iff_false. }
  assert (forall u v : name, name_eqb u v = false <-> u <> v) as HN.
  { intros u v. rewrite <- not_true_iff_false, name_eqb_iff. reflexivity. }
  assert (forall n, (exists r, n = (tx "_" ++ cls ++ tx "__") ++ r) <-> (exists r, n = tx "_" ++ cls ++ tx "__" ++ r)) as HA.
  { intros n. split; intros (r & ->); exists r; now rewrite <- !app_assoc. }
  unfold publicb, public. rewrite negb_true_iff, !orb_false_iff, !HS, HN, HA. cbv zeta. tauto.
Qed.
Lemma publics_eq cls l m : publics cls l m -> m = public_attrs cls l.
Proof.
  unfold public_attrs. induction 1 as [|x l m Hp H IH|x l m Hp H IH]; [reflexivity|..]; cbn [filter map];
    fold (publicb cls x).
  - apply publicb_iff in Hp. rewrite Hp. cbn [map]. now rewrite IH.
  - assert (publicb cls x = false) as -> by (apply not_true_is_false; intros E; apply Hp; now apply publicb_iff). exact IH.
Qed.

(** ** Children *)
Definition optx (xs : list xml) (o : option (list xml)) : option (list xml) := match xs with [] => o | _ => Some xs end.
Definition only_tn (l : list xml) : Prop := Forall (fun x => is_tn (x_tag x) = true \/ is_tnref (x_tag x) = true) l.
Lemma children_string s : (match s with Some s => s <> [] /\ pystr s /\ no_surrogates s | None => True end) ->
  exists s', same_string s s' /\ forall go rid en l, read_children go rid en l (string_elem s) =
  Ok (mkL (l_d l) (l_val l) (l_cls l) (l_props l) (l_ms l) (match s' with Some _ => s' | None => l_str l end)).
Proof.
  destruct s as [[|c s]|]; intros H; [tauto| |].
  - destruct (text_read (c :: s)) as (s' & E & Hs); [tauto|]. exists (Some s'). split; [exact Hs|]. intros go rid en [ld lv lc lp lm ls].
    cbn [string_elem read_children read_child x_tag x_text]. rewrite E. reflexivity.
  - exists None. split; [exact I|]. now intros go rid en [ld lv lc lp lm ls].
Qed.
Section Children.
  Variable go : dst -> xml -> result (value * dst).
  Lemma children_tn rid en tn t l : only_tn tn -> read_children go rid en l (tn ++ t) = read_children go rid en l t.
  Proof.
    induction 1 as [|x tn Hx _ IH]; [reflexivity|]. cbn [app read_children].
    assert (read_child go rid en l x = Ok l) as ->; [|exact IH]. unfold read_child.
    destruct Hx as [Hx|Hx]; destruct (x_tag x); cbn [is_tn is_tnref] in Hx; try discriminate; reflexivity.
  Qed.
  Lemma children_group rid en xa xe t l : read_children go rid en l (group TgProps xa ++ group TgMS xe ++ t) =
    read_children go rid en (mkL (l_d l) (l_val l) (l_cls l) (optx xa (l_props l)) (optx xe (l_ms l)) (l_str l)) t.
  Proof. destruct l as [ld lv lc lp lm ls]. destruct xa, xe; reflexivity. Qed.
  Lemma read_opt (f : list xml -> result dst) d xs : f [] = Ok d ->
    match optx xs None with Some ps => f ps | None => Ok d end = f xs.
  Proof. now destruct xs. Qed.
End Children.
Lemma no_tn_group t l : is_tn t = false -> is_tnref t = false -> no_tn (group t l).
Proof. intros H1 H2. destruct l; constructor; [split; assumption|constructor]. Qed.
Lemma no_tn_string s : no_tn (string_elem s).
Proof. destruct s as [[|c s]|]; cbn [string_elem]; constructor; [split; reflexivity|constructor]. Qed.
Lemma no_tn_app a b : no_tn a -> no_tn b -> no_tn (a ++ b).
Proof. intros. now apply Forall_app. Qed.
Lemma no_tn_prim p : no_tn [prim_elem p].
Proof. destruct (prim_elem_shape p) as (t & s & -> & H). constructor; [|constructor]. destruct t; try contradiction; split; reflexivity. Qed.

Lemma height_kids t a s kids g : height (Elem t a s kids) <= S g -> hmax g kids.
Proof.
  cbn [height]. intros H. apply le_S_n in H. revert H. induction kids as [|x kids IH]; cbn [fold_right]; intros H; constructor.
  - lia.
  - apply IH. lia.
Qed.
Lemma height_pos x g : height x <= g -> exists g', g = S g'.
Proof. destruct x. cbn [height]. destruct g; [lia|eauto]. Qed.
Lemma hmax_group g t l : hmax g (group t l) -> hmax g l.
Proof.
  destruct l as [|x l]; cbn [group]; intros H; [constructor|]. inversion H as [|? ? H1 _]; subst.
  assert (hmax g (x :: l)) as H2.
  { destruct (height_pos _ _ H1) as (g' & ->). apply height_kids in H1. eapply Forall_impl; [|exact H1]. cbv beta. intros; lia. }
  exact H2.
Qed.
Lemma hmax_kid g t a s xs : hmax g [Elem t a s xs] -> exists g', g = S g' /\ hmax g' xs.
Proof.
  intros H. inversion H as [|? ? H1 _]; subst. destruct (height_pos _ _ H1) as (g' & ->). exists g'. split; [reflexivity|]. now apply height_kids in H1.
Qed.
Lemma hmax_le g g' xs : hmax g xs -> g <= g' -> hmax g' xs.
Proof. intros H L. eapply Forall_impl; [|exact H]. cbv beta. intros; lia. Qed.

Section Objects.
  Variable reg : registry.
  Variable lx : lexicon.
  Variable h0 : heap.
  Hypothesis HG : good_graph reg lx h0.
  Notation sync := (sync reg lx h0).
  Notation step := (step reg lx h0).
  Notation good_value := (good_value reg lx).
  Notation simulates := (simulates reg lx h0).
  Notation obj_key := (obj_key h0).
  Notation complete := (complete reg h0).

  (** ** Rehydration *)
  Definition hydrated (names : list name) : gobj :=
    match registered reg names with Some c => blank c | None => mkG BPlain (map deserialized names) None [] [] end.
  Definition not_enum (c : cls) : Prop := match c_kind c with CEnum _ _ _ => False | _ => True end.
  Lemma rehydrate_eq d names r : (forall c, registered reg names = Some c -> c_names c = names /\ not_enum c) ->
    rehydrate reg d names (Some r) =
    (Some (VRef (d_next d)), registered reg names, None, names_back reg names,
     mkD (aset (d_next d) (hydrated names) (d_heap d)) (d_next d + 1) (sset r (VRef (d_next d)) (d_refs d)) (d_tns d)).
  Proof.
    intros H. unfold rehydrate, names_back, hydrated. cbv zeta.
    replace (match names with [] => None | n :: _ => match n with [] => None | _ => reg n end end) with (registered reg names)
      by (destruct names as [|[|] ?]; reflexivity).
    destruct (registered reg names) as [c|] eqn:E.
    - destruct (H c eq_refl) as [H1 H2]. unfold not_enum in H2. destruct (c_kind c) eqn:K; try contradiction; rewrite H1; reflexivity.
    - reflexivity.
  Qed.

  Lemma get_ref_fresh st k id st1 : get_ref_id st k = (id, false, st1) ->
    id = s_next st /\ s_tns st1 = s_tns st /\ s_heap st1 = s_heap st /\ s_next st1 = (s_next st + 1)%N
    /\ (forall k', key_get k' (s_refs st1) = match k with Some j => if key_eqb k' j then Some (s_next st) else key_get k' (s_refs st)
                                              | None => key_get k' (s_refs st) end)
    /\ (forall k', k = Some k' -> key_get k' (s_refs st) = None).
  Proof.
    intros Hr. unfold get_ref_id in Hr. destruct k as [k|]; [destruct (key_get k (s_refs st)) eqn:F; [discriminate|]|];
      injection Hr as <- <-; cbn [s_tns s_heap s_next s_refs key_get]; repeat split; auto; congruence.
  Qed.
  Lemma refs_mono st k id st1 : get_ref_id st k = (id, false, st1) ->
    forall k' i, key_get k' (s_refs st) = Some i -> key_get k' (s_refs st1) = Some i.
  Proof.
    intros H k' i Hk. destruct (get_ref_fresh _ _ _ _ H) as (_ & _ & _ & _ & H5 & H6). rewrite H5. destruct k as [j|]; [|exact Hk].
    destruct (key_eqb k' j) eqn:E; [|exact Hk]. apply key_eqb_iff in E. subst. rewrite H6 in Hk by reflexivity. discriminate.
  Qed.

  Lemma enter st d L a b id st1 tn names stA d1 o :
    sync st d L -> aget a h0 = Some o -> get_ref_id st (obj_key a) = (id, false, st1) -> write_names st1 names = (tn, stA) ->
    tns_ok lx (s_tns stA) (d_tns d1) -> (d_next d <= b < d_next d1)%N -> ref_step (dec id) (VRef b) (d_refs d) (d_refs d1) ->
    sync stA d1 ((a, b) :: L).
  Proof.
    intros Hy Ho Hr Hw Ht Hb Hs.
    assert (s_refs stA = s_refs st1 /\ s_next stA = s_next st1 /\ s_heap stA = s_heap st1) as (E1 & E2 & E3).
    { destruct names as [|n r]; cbn [write_names] in Hw; [injection Hw as _ <-; auto|].
      destruct (index_of n (s_tns st1)); injection Hw as _ <-; auto. }
    eapply (sync_tns reg lx h0 st1 (mkD (d_heap d1) (d_next d1) (d_refs d1) (d_tns d))); try eassumption; try reflexivity.
    eapply sync_new; [exact Hy|exact Ho|exact Hr|reflexivity|exact Hb|exact Hs|reflexivity].
  Qed.

  (** Everything about one object put together. *)
  Lemma step_obj (Y : N -> Prop) st d L a b stA dA st2 dB LB dC :
    sync stA dA ((a, b) :: L) -> (d_next d <= b)%N -> (d_next d <= d_next dA)%N ->
    (forall x, (x < d_next d)%N -> aget x (d_heap dA) = aget x (d_heap d)) ->
    (forall k i, key_get k (s_refs st) = Some i -> key_get k (s_refs stA) = Some i) -> s_heap stA = s_heap st ->
    step (eq b) Y stA dA ((a, b) :: L) st2 dB LB -> (forall x, Y x -> key_get (KAddr x) (s_refs st) = None) ->
    d_next dC = d_next dB -> d_refs dC = d_refs dB -> d_tns dC = d_tns dB ->
    (forall c, c <> b -> aget c (d_heap dC) = aget c (d_heap dB)) -> complete LB dC a b ->
    step none none st d L st2 dC LB.
  Proof.
    intros HyA Hb Hn Hf Hm Hh [B1 B2 B3 B4 B5 B6 B7] HY C1 C2 C3 C4 HC.
    assert (b < d_next dA)%N as HbA by (apply (sy_low _ _ _ _ _ _ HyA a); now left).
    constructor.
    - eapply sync_heap; [exact B1|exact C1|exact C2|exact C3].
    - intros x Hx. apply B2. now right.
    - lia.
    - intros x Hx _. rewrite C4 by lia. rewrite B4 by lia. auto.
    - intros x y Hi. destruct (B5 x y Hi) as [[E|Hi']|[Hy Hc]].
      + injection E as <- <-. right. split; [exact Hb|exact HC].
      + now left.
      + right. split; [lia|]. eapply complete_mono; [apply incl_refl| |exact Hc]. apply C4. lia.
    - eauto.
    - intros x i Hk _. rewrite (B7 x i), Hh; auto. intros Hy. apply HY in Hy. congruence.
  Qed.

  Definition decl_ok (names : list name) (ad ex : list (name * value)) (k : ckind) : Prop :=
    forall c, registered reg names = Some c ->
      c_kind c = k /\ c_names c = names /\ (exists r, map fst ad = c_adapted c ++ r) /\ (exists r, map fst ex = c_extended c ++ r).
  Definition null_props (l : list name) : list (name * value) := map (fun n => (n, VNull)) l.
  (** What the declared properties of the fresh object are, and what reading all properties makes of them. *)
  Lemma put_both R names ad ex k ad' ex' body nm s da de :
    decl_ok names ad ex k -> same_props R ad ad' -> same_props R ex ex' -> NoDup (map fst ad) -> NoDup (map fst ex) ->
    (exists r, map fst ad = da ++ r) -> (exists r, map fst ex = de ++ r) ->
    put_all add_extended ex' (put_all add_adapted ad' (mkG body nm s (null_props da) (null_props de))) = mkG body nm s ad' ex'.
  Proof.
    intros _ Ha He Na Ne (ra & Da) (re & De). rewrite put_adapted, put_extended. cbn [g_body g_names g_string g_adapted g_extended].
    apply same_props_names in Ha, He. unfold null_props.
    rewrite (prop_put_all ad' da ra), (prop_put_all ex' de re) by congruence. reflexivity.
  Qed.

  (** ** Plain objects and Python instances *)
  Lemma plain_case f st d L a o id st1 names str ad ex tn stA xa stB xe stC :
    simulates f -> sync st d L -> aget a h0 = Some o -> get_ref_id st (obj_key a) = (id, false, st1) ->
    write_names st1 names = (tn, stA) -> ser_props (ser f) stA ad = Ok (xa, stB) -> ser_props (ser f) stB ex = Ok (xe, stC) ->
    match names with [] => True | n :: r => full lx n = n :: r end -> decl_ok names ad ex CPlain ->
    (match str with Some s => s <> [] /\ pystr s /\ no_surrogates s | None => True end) -> good_props reg lx ad -> good_props reg lx ex ->
    exists d2 L2 str' ad' ex', same_string str str' /\ reads reg (Elem TgObj [(AtRefId, dec id)] [] (tn ++ group TgProps xa ++ group TgMS xe ++ string_elem str)) d (VRef (d_next d)) d2
      /\ In (a, d_next d) L2 /\ aget (d_next d) (d_heap d2) = Some (mkG BPlain (names_back reg names) str' ad' ex')
      /\ same_props (inL L2) ad ad' /\ same_props (inL L2) ex ex'
      /\ (complete L2 d2 a (d_next d) -> step none none st d L stC d2 L2).
  Proof.
    intros HS Hy Ho Hr Hw Ea Ee Hn Hd Hs Ha He.
    destruct (get_ref_fresh _ _ _ _ Hr) as (-> & F2 & F3 & F4 & F5 & F6).
    set (after := group TgProps xa ++ group TgMS xe ++ string_elem str).
    assert (no_tn after) as Hnt.
    { unfold after. repeat apply no_tn_app; try apply no_tn_group; try reflexivity. apply no_tn_string. }
    destruct (read_names_written lx st1 names tn stA d [] after Hw) as (dt & Hrn & Htn & G1 & G2 & G3 & Ht); auto; [|constructor|].
    { rewrite F2. exact (sy_tns _ _ _ _ _ _ Hy). }
    cbn [app] in Hrn. set (b := d_next d) in *. set (dN := mkD (d_heap d) b (d_refs d) dt) in *.
    set (dR := mkD (aset b (hydrated names) (d_heap d)) (b + 1) (sset (dec (s_next st)) (VRef b) (d_refs d)) dt).
    assert (sync stA dR ((a, b) :: L)) as HyR.
    { eapply enter; try eassumption; cbn [dR d_next d_refs d_tns]; [lia|apply ref_step_set]. }
    destruct (children_string str Hs) as (str' & Hsame & Hstr).
    set (d2 := match str' with Some s => modify dR b (fun o => with_string o s) | None => dR end).
    set (d3 := match names_back reg names with [] => d2 | _ => modify d2 b (fun o => with_names o (names_back reg names)) end).
    assert (exists da de, aget b (d_heap d3) = Some (mkG BPlain (names_back reg names) str' (null_props da) (null_props de))
            /\ (exists r, map fst ad = da ++ r) /\ (exists r, map fst ex = de ++ r)) as (da & de & H3 & Hda & Hde).
    { assert (exists da de, hydrated names = mkG BPlain (names_back reg names) None (null_props da) (null_props de)
              /\ (exists r, map fst ad = da ++ r) /\ (exists r, map fst ex = de ++ r)) as (da & de & HH & Hda & Hde).
      { unfold hydrated, names_back. destruct (registered reg names) as [c|] eqn:E.
        - destruct (Hd c E) as (K1 & K2 & K3 & K4). exists (c_adapted c), (c_extended c). unfold blank. rewrite K1, K2. auto.
        - exists [], []. split; [reflexivity|]. cbn [app]. eauto. }
      exists da, de. split; [|auto].
      assert (aget b (d_heap dR) = Some (mkG BPlain (names_back reg names) None (null_props da) (null_props de))) as H1.
      { cbn [dR d_heap]. rewrite aget_aset, N.eqb_refl. now rewrite HH. }
      assert (aget b (d_heap d2) = Some (mkG BPlain (names_back reg names) str' (null_props da) (null_props de))) as H2.
      { unfold d2. destruct str' as [s|]; [|exact H1]. rewrite (modify_get _ _ _ _ H1). reflexivity. }
      unfold d3. destruct (names_back reg names); [exact H2|]. rewrite (modify_get _ _ _ _ H2). reflexivity. }
    assert (step (eq b) none stA dR ((a, b) :: L) stA d3 ((a, b) :: L)) as Hp3.
    { eapply step_trans with (d1 := d2); [intros ? <-; cbn [dR d_next]; lia| |].
      - unfold d2. destruct str'; [apply step_modify; auto|now apply step_refl].
      - assert (sync stA d2 ((a, b) :: L)) as Hy2.
        { eapply sync_heap; [exact HyR|..]; unfold d2; destruct str'; rewrite ?modify_next, ?modify_refs, ?modify_tns; reflexivity. }
        unfold d3. destruct (names_back reg names); [now apply step_refl|apply step_modify; auto]. }
    pose proof (sp_sync _ _ _ _ _ _ _ _ _ _ _ Hp3) as Hy3.
    assert (b < d_next d3)%N as Hb3 by (apply (sy_low _ _ _ _ _ _ Hy3 a); now left).
    destruct (props_loop reg lx h0 f add_adapted HS ad stA xa stB d3 ((a, b) :: L) b _ (proj2 Ha) Ea Hy3 Hb3 H3) as (d4 & L4 & ad' & R4 & S4 & O4 & P4).
    pose proof (sp_sync _ _ _ _ _ _ _ _ _ _ _ P4) as Hy4. pose proof (sp_next _ _ _ _ _ _ _ _ _ _ _ P4) as Hn4.
    destruct (props_loop reg lx h0 f add_extended HS ex stB xe stC d4 L4 b _ (proj2 He) Ee Hy4 ltac:(lia) O4) as (d5 & L5 & ex' & R5 & S5 & O5 & P5).
    pose proof (sp_incl _ _ _ _ _ _ _ _ _ _ _ P5) as I5.
    assert (same_props (inL L5) ad ad') as S4'.
    { eapply same_props_mono; [|exact S4]. intros x y. apply I5. }
    exists d5, L5, str', ad', ex'. split; [exact Hsame|]. split; [|split; [|split; [|split; [|split]]]].
    - intros g Hg. destruct (height_pos _ _ Hg) as (g' & ->). apply height_kids in Hg.
      apply Forall_app in Hg. destruct Hg as [_ Hg]. apply Forall_app in Hg. destruct Hg as [Hga Hg]. apply Forall_app in Hg. destruct Hg as [Hge _].
      apply hmax_group in Hga, Hge.
      cbn [deser]. unfold read_object. cbn [attr_get attr_eqb]. rewrite Hrn. cbn [bind fst snd].
      rewrite rehydrate_eq by (intros c Hc; destruct (Hd c Hc) as (K1 & K2 & _); split; [exact K2|unfold not_enum; now rewrite K1]).
      cbn [d_next d_heap d_refs d_tns dN]. fold dR.
      unfold after. rewrite children_tn by exact Ht. rewrite children_group, Hstr. cbn [bind l_d l_val l_cls l_props l_ms l_str].
      replace (match str' with Some _ => str' | None => None end) with str' by now destruct str'.
      fold d2. fold d3.
      rewrite (read_opt (fun ps => read_props (deser reg g') add_adapted d3 b ps)) by reflexivity. rewrite R4 by exact Hga. cbn [bind].
      rewrite (read_opt (fun ps => read_props (deser reg g') add_extended d4 b ps)) by reflexivity. rewrite R5 by exact Hge. reflexivity.
    - apply I5. apply (sp_incl _ _ _ _ _ _ _ _ _ _ _ P4). now left.
    - rewrite O5. f_equal. eapply put_both; eauto; [apply Ha|apply He].
    - exact S4'.
    - exact S5.
    - intros HC. eapply (step_obj none st d L a b stA dR stC d5 L5 d5); try reflexivity; try exact HC; auto.
      + cbn [dR d_next]. unfold b. lia.
      + intros x Hx. cbn [dR d_heap]. rewrite aget_aset. destruct (N.eqb_spec x b); [unfold b in *; lia|reflexivity].
      + intros k i Hk. rewrite G1. eapply refs_mono; eauto.
      + congruence.
      + eapply step_trans; [|exact Hp3|]; [intros ? <-; cbn [dR d_next]; lia|].
        eapply step_trans; [|exact P4|exact P5]. intros ? <-. exact Hb3.
      + intros x [].
  Qed.

  (** ** Extended primitives *)
  Lemma prim_case f st d L a o id st1 p ad ex xa stB xe stC :
    simulates f -> sync st d L -> aget a h0 = Some o -> get_ref_id st (obj_key a) = (id, false, st1) ->
    ser_props (ser f) st1 ad = Ok (xa, stB) -> ser_props (ser f) stB ex = Ok (xe, stC) ->
    good_prim p -> (forall z, p <> PPlainInt z) -> good_props reg lx ad -> good_props reg lx ex ->
    exists d2 L2 ad' ex', reads reg (Elem TgObj [(AtRefId, dec id)] [] ([prim_elem p] ++ [] ++ group TgProps xa ++ group TgMS xe ++ [])) d (VRef (d_next d + 1)) d2
      /\ In (a, d_next d + 1)%N L2 /\ aget (d_next d + 1) (d_heap d2) = Some (mkG (BPrim p) (prim_names p) None ad' ex')
      /\ same_props (inL L2) ad ad' /\ same_props (inL L2) ex ex'
      /\ (complete L2 d2 a (d_next d + 1) -> step none none st d L stC d2 L2).
  Proof.
    intros HS Hy Ho Hr Ea Ee Hp Hnp Ha He.
    destruct (get_ref_fresh _ _ _ _ Hr) as (-> & F2 & F3 & F4 & F5 & F6).
    set (after := group TgProps xa ++ group TgMS xe ++ []).
    assert (no_tn after) as Hnt.
    { unfold after. repeat apply no_tn_app; try apply no_tn_group; try reflexivity. constructor. }
    destruct (read_names_written lx st1 [] [] st1 d [prim_elem p] after eq_refl) as (dt & Hrn & Htn & G1 & G2 & G3 & Ht); auto using no_tn_prim.
    { rewrite F2. exact (sy_tns _ _ _ _ _ _ Hy). }
    cbn [app] in Hrn. set (b := (d_next d + 1)%N) in *. set (r := dec (s_next st)) in *.
    set (d0 := mkD (aset (d_next d) (mkG BPlain [] None [] []) (d_heap d)) b (sset r (VRef (d_next d)) (d_refs d)) dt).
    set (o1 := mkG (BPrim p) (prim_names p) None [] []).
    set (dR := mkD (aset b o1 (d_heap d0)) (b + 1) (sset r (VRef b) (d_refs d0)) dt).
    assert (sync st1 dR ((a, b) :: L)) as HyR.
    { eapply (enter st d L a b (s_next st) st1 [] [] st1 dR); try eassumption; try reflexivity; cbn [dR d_next d_refs d_tns].
      - unfold b. lia.
      - eapply ref_step_trans; apply ref_step_set. }
    assert (aget b (d_heap dR) = Some (mkG (BPrim p) (prim_names p) None (null_props []) (null_props []))) as H3.
    { cbn [dR d_heap]. now rewrite aget_aset, N.eqb_refl. }
    assert (b < d_next dR)%N as Hb3 by (cbn [dR d_next]; lia).
    destruct (props_loop reg lx h0 f add_adapted HS ad st1 xa stB dR ((a, b) :: L) b _ (proj2 Ha) Ea HyR Hb3 H3) as (d4 & L4 & ad' & R4 & S4 & O4 & P4).
    pose proof (sp_sync _ _ _ _ _ _ _ _ _ _ _ P4) as Hy4. pose proof (sp_next _ _ _ _ _ _ _ _ _ _ _ P4) as Hn4.
    destruct (props_loop reg lx h0 f add_extended HS ex stB xe stC d4 L4 b _ (proj2 He) Ee Hy4 ltac:(lia) O4) as (d5 & L5 & ex' & R5 & S5 & O5 & P5).
    pose proof (sp_incl _ _ _ _ _ _ _ _ _ _ _ P5) as I5.
    assert (same_props (inL L5) ad ad') as S4'.
    { eapply same_props_mono; [|exact S4]. intros x y. apply I5. }
    exists d5, L5, ad', ex'. split; [|split; [|split; [|split; [|split]]]].
    - intros g Hg. destruct (height_pos _ _ Hg) as (g' & ->). apply height_kids in Hg.
      apply Forall_app in Hg. destruct Hg as [Hgp Hg]. cbn [app] in Hg. apply Forall_app in Hg. destruct Hg as [Hga Hg]. apply Forall_app in Hg. destruct Hg as [Hge _].
      apply hmax_group in Hga, Hge. inversion Hgp as [|? ? Hg1 _]; subst. assert (1 <= g') as Hg2 by (destruct (height_pos _ _ Hg1) as (g'' & ->); lia).
      cbn [deser]. unfold read_object. cbn [attr_get attr_eqb app]. fold after. rewrite Hrn. cbn [bind fst snd].
      rewrite rehydrate_eq by (intros c; discriminate). cbn [d_next d_heap d_refs d_tns]. unfold names_back, hydrated. cbn [registered map].
      fold b. fold r. fold d0. cbn [read_children].
      assert (forall go l, read_child go (Some r) None l (prim_elem p) =
        let! r0 := go (l_d l) (prim_elem p) in
        let names := match l_val l with
                     | Some (VRef a) => match aget a (d_heap (l_d l)) with Some o => g_names o | None => [] end
                     | Some (VEnum e) => e_names e
                     | _ => []
                     end in
        let fin d v := Ok (mkL (update_ref d (Some r) v) (Some v) None (l_props l) (l_ms l) (l_str l)) in
        match fst r0 with
        | VPrim p => let (a, d1) := alloc (snd r0) (mkG (BPrim p) (match names with [] => prim_names p | _ => names end) None [] []) in
                     fin d1 (VRef a)
        | VRef a => fin (match names with [] => snd r0 | _ => modify (snd r0) a (fun o => with_names o names) end) (VRef a)
        | VEnum e => fin (snd r0) (VEnum e)
        | v => match names with [] => fin (snd r0) v | _ => Err AttributeError end
        end) as HC.
      { intros go l. unfold read_child. destruct (prim_elem_shape p) as (t & s & -> & Htt). cbn [x_tag]. destruct t; try contradiction; reflexivity. }
      rewrite HC, prim_deser_ge by assumption.
      assert (prim_back p = p) as -> by (destruct p; try reflexivity; exfalso; eapply Hnp; reflexivity).
      cbn [bind fst snd l_d l_val l_props l_ms l_str]. cbv zeta. cbn [d0 d_heap]. rewrite aget_aset, N.eqb_refl. cbn [g_names].
      unfold alloc. fold o1. cbn [update_ref d_heap d_next d_refs d_tns bind]. fold d0.
      change (mkD (aset b o1 (aset (d_next d) (mkG BPlain [] None [] []) (d_heap d))) (b + 1) (sset r (VRef b) (sset r (VRef (d_next d)) (d_refs d))) dt) with dR.
      unfold after. rewrite children_group. cbn [read_children bind l_d l_val l_cls l_props l_ms l_str].
      rewrite (read_opt (fun ps => read_props (deser reg g') add_adapted dR b ps)) by reflexivity. rewrite R4 by exact Hga. cbn [bind].
      rewrite (read_opt (fun ps => read_props (deser reg g') add_extended d4 b ps)) by reflexivity. rewrite R5 by exact Hge. reflexivity.
    - apply I5. apply (sp_incl _ _ _ _ _ _ _ _ _ _ _ P4). now left.
    - rewrite O5. f_equal. eapply (put_both (inL L5) [] ad ex CPlain); [intros c; discriminate|exact S4'|exact S5|apply Ha|apply He|now exists (map fst ad)|now exists (map fst ex)].
    - exact S4'.
    - exact S5.
    - intros HC. eapply (step_obj none st d L a b st1 dR stC d5 L5 d5); try reflexivity; try exact HC; auto.
      + unfold b. lia.
      + cbn [dR d_next]. unfold b. lia.
      + intros x Hx. cbn [dR d_heap d0]. rewrite !aget_aset. destruct (N.eqb_spec x b); [unfold b in *; lia|].
        destruct (N.eqb_spec x (d_next d)); [lia|reflexivity].
      + intros k i Hk. eapply refs_mono; eauto.
      + eapply step_trans; [|exact P4|exact P5]. intros ? <-. exact Hb3.
      + intros x [].
  Qed.

  (** ** Containers *)
  (** After the container was filled: its type names and plain properties. *)
  Lemma finish f names ad ex k st xa stB xe stC dB b body nm0 da de s :
    Forall (fun x => plain (snd x)) (ad ++ ex) -> good_props reg lx ad -> good_props reg lx ex ->
    ser_props (ser f) st ad = Ok (xa, stB) -> ser_props (ser f) stB ex = Ok (xe, stC) -> decl_ok names ad ex k ->
    names_back reg names <> [] -> (exists r, map fst ad = da ++ r) -> (exists r, map fst ex = de ++ r) ->
    aget b (d_heap dB) = Some (mkG body nm0 s (null_props da) (null_props de)) ->
    stC = st /\ exists dC,
      (forall g, hmax g xa -> hmax g xe ->
        (let! d4 := match optx xa None with Some ps => read_props (deser reg g) add_adapted (modify dB b (fun o => with_names o (names_back reg names))) b ps
                    | None => Ok (modify dB b (fun o => with_names o (names_back reg names))) end in
         let! d5 := match optx xe None with Some ps => read_props (deser reg g) add_extended d4 b ps | None => Ok d4 end in
         Ok (VRef b, d5)) = Ok (VRef b, dC))
      /\ aget b (d_heap dC) = Some (mkG body (names_back reg names) s (back_props ad) (back_props ex))
      /\ d_next dC = d_next dB /\ d_refs dC = d_refs dB /\ d_tns dC = d_tns dB
      /\ (forall c, c <> b -> aget c (d_heap dC) = aget c (d_heap dB)).
  Proof.
    intros Hpl Ha He Ea Ee Hd Hnn Hda Hde Ho. apply Forall_app in Hpl. destruct Hpl as [Pa Pe].
    destruct (plain_props reg lx f add_adapted ad st xa stB (proj2 Ha) Pa Ea) as [-> HA].
    destruct (plain_props reg lx f add_extended ex st xe stC (proj2 He) Pe Ee) as [-> HE].
    split; [reflexivity|].
    pose proof (modify_get dB b (fun o => with_names o (names_back reg names)) _ Ho) as H3.
    destruct (HA _ b _ H3) as (d4 & R1 & R2 & R3 & R4 & R5 & R6).
    destruct (HE _ b _ R2) as (d5 & Q1 & Q2 & Q3 & Q4 & Q5 & Q6).
    exists d5. rewrite modify_next in R3. rewrite modify_refs in R4. rewrite modify_tns in R5.
    split; [|split; [|split; [|split; [|split]]]]; try congruence.
    - intros g Hga Hge.
      rewrite (read_opt (fun ps => read_props (deser reg g) add_adapted (modify dB b (fun o => with_names o (names_back reg names))) b ps)) by reflexivity.
      rewrite R1 by exact Hga. cbn [bind].
      rewrite (read_opt (fun ps => read_props (deser reg g) add_extended d4 b ps)) by reflexivity. rewrite Q1 by exact Hge. reflexivity.
    - rewrite Q2. f_equal. unfold with_names. cbn [g_body g_string g_adapted g_extended].
      eapply (put_both (fun _ _ => False) names ad ex k); eauto using back_props_same.
      + eapply back_props_same; [apply Ha|exact Pa].
      + eapply back_props_same; [apply He|exact Pe].
      + apply Ha.
      + apply He.
    - intros c Hc. rewrite Q6, R6 by exact Hc. now apply modify_other.
  Qed.

  Lemma names_back_nonempty o : good_names reg lx o -> g_body o <> BPlain -> g_body o <> BMade -> names_back reg (g_names o) <> [].
  Proof.
    intros [H _] Hb Hm. unfold names_back. destruct (g_names o) as [|n r]; [tauto|].
    destruct (registered reg (n :: r)); discriminate.
  Qed.

  (** The state in which a container starts to be filled: a new object replaces the rehydrated one unless that is kept. *)
  Definition start_fill (keep : bool) (c : cls) (r : list N) (dR : dst) : dst :=
    if keep then dR else mkD (aset (d_next dR) (blank c) (d_heap dR)) (d_next dR + 1) (sset r (VRef (d_next dR)) (d_refs dR)) (d_tns dR).
  Lemma container_case (Y : N -> Prop) f st d L a o id st1 names ad ex k tn stA xa stB xe stC st2 (keep : bool) (c : cls) (ce : xml)
      (fill : (dst -> xml -> result (value * dst)) -> dst -> N -> result dst) (Q : list (N * N) -> body -> Prop) :
    let b := if keep then d_next d else (d_next d + 1)%N in
    sync st d L -> aget a h0 = Some o -> get_ref_id st (obj_key a) = (id, false, st1) ->
    write_names st1 names = (tn, stA) -> ser_props (ser f) stA ad = Ok (xa, stB) -> ser_props (ser f) stB ex = Ok (xe, stC) ->
    match names with [] => True | n :: r => full lx n = n :: r end -> decl_ok names ad ex k -> names_back reg names <> [] ->
    (match k with CEnum _ _ _ => False | _ => True end) ->
    good_props reg lx ad -> good_props reg lx ex -> Forall (fun x => plain (snd x)) (ad ++ ex) ->
    (forall x, Y x -> key_get (KAddr x) (s_refs st) = None) ->
    (exists r, map fst ad = c_adapted c ++ r) -> (exists r, map fst ex = c_extended c ++ r) ->
    (keep = true -> registered reg names = Some c) ->
    is_tn (x_tag ce) = false -> is_tnref (x_tag ce) = false ->
    (forall go dR pa pe, d_next dR = (d_next d + 1)%N ->
       exists cl, read_child go (Some (dec id)) None (mkL dR (Some (VRef (d_next d))) (registered reg names) pa pe None) ce =
       let! d' := fill go (start_fill keep c (dec id) dR) b in Ok (mkL d' (Some (VRef b)) cl pa pe None)) ->
    (forall dA, sync stC dA ((a, b) :: L) -> aget b (d_heap dA) = Some (blank c) ->
       exists dB LB body, (forall g, hmax g [ce] -> fill (deser reg g) dA b = Ok dB) /\ step (eq b) Y stC dA ((a, b) :: L) st2 dB LB
         /\ aget b (d_heap dB) = Some (mkG body (c_names c) None (null_props (c_adapted c)) (null_props (c_extended c))) /\ Q LB body) ->
    exists d2 L2 body, reads reg (Elem TgObj [(AtRefId, dec id)] [] (tn ++ group TgProps xa ++ group TgMS xe ++ [ce])) d (VRef b) d2
      /\ In (a, b) L2 /\ aget b (d_heap d2) = Some (mkG body (names_back reg names) None (back_props ad) (back_props ex))
      /\ Q L2 body /\ stC = stA
      /\ (complete L2 d2 a b -> step none none st d L st2 d2 L2).
  Proof.
    intros b Hy Ho Hr Hw Ea Ee Hn Hd Hnn Hk Ha He Hpl HY Hca Hce Hkeep T1 T2 Hchild Hfill.
    destruct (get_ref_fresh _ _ _ _ Hr) as (-> & F2 & F3 & F4 & F5 & F6).
    set (after := group TgProps xa ++ group TgMS xe ++ [ce]).
    assert (no_tn after) as Hnt.
    { unfold after. repeat apply no_tn_app; try apply no_tn_group; try reflexivity. constructor; [auto|constructor]. }
    destruct (read_names_written lx st1 names tn stA d [] after Hw) as (dt & Hrn & Htn & G1 & G2 & G3 & Ht); auto; [|constructor|].
    { rewrite F2. exact (sy_tns _ _ _ _ _ _ Hy). }
    cbn [app] in Hrn. set (r := dec (s_next st)) in *. set (dN := mkD (d_heap d) (d_next d) (d_refs d) dt) in *.
    set (dR := mkD (aset (d_next d) (hydrated names) (d_heap d)) (d_next d + 1) (sset r (VRef (d_next d)) (d_refs d)) dt).
    set (dA := start_fill keep c r dR).
    assert (stC = stA) as ->.
    { apply Forall_app in Hpl. destruct Hpl as [Pa Pe].
      destruct (plain_props reg lx f add_adapted ad stA xa stB (proj2 Ha) Pa Ea) as [-> _].
      now destruct (plain_props reg lx f add_extended ex stA xe stC (proj2 He) Pe Ee) as [-> _]. }
    assert (d_next dA = b + 1)%N as HbA by (unfold dA, start_fill, b; destruct keep; reflexivity).
    assert (d_next d <= b)%N as Hdb by (unfold b; destruct keep; lia).
    assert (sync stA dA ((a, b) :: L)) as HyA.
    { eapply enter; try eassumption.
      - unfold dA, start_fill. destruct keep; exact Htn.
      - lia.
      - unfold dA, start_fill, b. destruct keep; cbn [dR d_refs d_next]; [apply ref_step_set|].
        eapply ref_step_trans; apply ref_step_set. }
    assert (aget b (d_heap dA) = Some (blank c)) as HoA.
    { unfold dA, start_fill, b. destruct keep; cbn [dR d_heap d_next].
      - rewrite aget_aset, N.eqb_refl. unfold hydrated. now rewrite Hkeep.
      - now rewrite aget_aset, N.eqb_refl. }
    destruct (Hfill dA HyA HoA) as (dB & LB & body & Rf & Pf & Of & Qf).
    destruct (finish f names ad ex k stA xa stB xe stA dB b body (c_names c) (c_adapted c) (c_extended c) None Hpl Ha He Ea Ee Hd Hnn Hca Hce Of)
      as (_ & dC & RC & OC & C1 & C2 & C3 & C4).
    exists dC, LB, body. split; [|split; [|split; [|split; [|split]]]]; auto.
    - intros g Hg. destruct (height_pos _ _ Hg) as (g' & ->). apply height_kids in Hg.
      apply Forall_app in Hg. destruct Hg as [_ Hg]. apply Forall_app in Hg. destruct Hg as [Hga Hg]. apply Forall_app in Hg. destruct Hg as [Hge Hgc].
      apply hmax_group in Hga, Hge.
      cbn [deser]. unfold read_object. cbn [attr_get attr_eqb]. fold after. fold r. rewrite Hrn. cbn [bind fst snd].
      rewrite rehydrate_eq.
      2:{ intros c' Hc. destruct (Hd c' Hc) as (K1 & K2 & _). split; [exact K2|]. unfold not_enum. rewrite K1. exact Hk. }
      cbn [d_next d_heap d_refs d_tns dN]. fold dR.
      unfold after. rewrite children_tn by exact Ht. rewrite children_group. cbn [l_d l_val l_cls l_props l_ms l_str read_children].
      destruct (Hchild (deser reg g') dR (optx xa None) (optx xe None) eq_refl) as (cl & ->). fold dA. rewrite Rf by exact Hgc.
      cbn [bind l_d l_val l_cls l_props l_ms l_str].
      replace (match names_back reg names with [] => dB | _ :: _ => modify dB b (fun o0 => with_names o0 (names_back reg names)) end)
        with (modify dB b (fun o0 => with_names o0 (names_back reg names))) by (destruct (names_back reg names); [contradiction|reflexivity]).
      exact (RC g' Hga Hge).
    - apply (sp_incl _ _ _ _ _ _ _ _ _ _ _ Pf). now left.
    - intros HC. eapply (step_obj Y st d L a b stA dA st2 dB LB dC); auto.
      + lia.
      + intros x Hx. unfold dA, start_fill. destruct keep; cbn [dR d_heap d_next]; rewrite !aget_aset;
          destruct (N.eqb_spec x (d_next d)); try lia; try reflexivity.
        destruct (N.eqb_spec x (d_next d + 1)); [lia|reflexivity].
      + intros k' i Hk'. rewrite G1. eapply refs_mono; eauto.
      + congruence.
  Qed.
End Objects.
