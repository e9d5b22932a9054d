(** What the serializer writes shows the value. *)
From Coq Require Import String Ascii.
From Verif Require Import Base BaseFacts Model_Scalars Model_Strings Model_Text Model_Object Model_Clixml Model_Xml
  Spec_Strings Spec_Scalars Spec_Clixml Spec_Wire Spec_Shown Proofs_Scalars Proofs_Clixml1 Proofs_Clixml3 Proofs_Clixml4 Proofs_Clixml5 Proofs_Clixml6 Proofs_Clixml7 Proofs_Wire Proofs_Wire2.
Local Open Scope list_scope.

Lemma publics_exists cls l : publics cls l (public_attrs cls l).
Proof.
  unfold public_attrs. induction l as [|x l IH]; [constructor|]. cbn [filter]. fold (publicb cls x). destruct (publicb cls x) eqn:E; cbn [map].
  - apply PubKeep; [now apply publicb_iff|exact IH].
  - apply PubSkip; [|exact IH]. intros F. apply publicb_iff in F. congruence.
Qed.
Lemma names_written st ns : names_shown ns (map raw (fst (write_names st ns))).
Proof.
  destruct ns as [|n ns]; [constructor|]. cbn [write_names]. destruct (index_of n (s_tns st)) as [i|]; cbn [fst map].
  - apply (NamesOld (N.of_nat i)); [apply numeral_dec|discriminate].
  - cbn [raw map fst snd tag_text attr_text]. pose proof (NamesNew _ _ (n :: ns) (numeral_dec (N.of_nat (length (s_tns st)))) ltac:(discriminate)) as H.
    unfold element in H. cbn [map] in H. rewrite map_map. exact H.
Qed.
Lemma string_written s : map raw (string_elem s) = string_shown s.
Proof. destruct s as [[|c s]|]; reflexivity. Qed.
Lemma shows_attrs h v n a t k : shows h v None (Node n a t k) -> a = [] \/ exists r, a = [(chars "RefId", r)].
Proof. intros H. inversion H; cbn [labelled]; eauto. Qed.
Lemma shows_relabel h v n a t k s : shows h v None (Node n a t k) -> shows h v (Some s) (Node n (a ++ [(chars "N", s)]) t k).
Proof.
  intros H. inversion H; subst; cbn [labelled app].
  - exact (ShowNull h (Some s)).
  - exact (ShowBool h (Some s) b).
  - now apply (ShowPrim h (Some s)).
  - now apply (ShowBare h (Some s) a0 o).
  - now apply (ShowAgain h (Some s) v i r).
  - now apply (ShowMember h (Some s) e i r).
  - now apply (ShowObject h (Some s) a0 o i r).
  - now apply (ShowNoted h (Some s) a0 o p i r).
  - now apply (ShowContainer h (Some s) a0 o i r).
  - now apply (ShowInstance h (Some s) a0 o cls attrs l i r).
Qed.
Lemma shows_put h v k u x : shows h v None (raw x) -> (k = AtN \/ k = AtS) ->
  exists n a t c, raw x = Node n a t c /\ raw (set_attr k u x) = Node n (a ++ [(attr_text k, u)]) t c.
Proof.
  destruct x as [t a s c]. cbn [raw set_attr]. intros H Hk. eexists _, _, _, _. split; [reflexivity|].
  rewrite put_attr; [now rewrite map_app| |exact Hk]. apply shows_attrs in H. destruct H as [H|H]; [left; now apply map_eq_nil in H|now right].
Qed.
Lemma shows_set h v x s : shows h v None (raw x) -> shows h v (Some s) (raw (set_attr AtN s x)).
Proof.
  intros H. destruct (shows_put h v AtN s x H (or_introl eq_refl)) as (n & a & t & c & E & ->). rewrite E in H. now apply shows_relabel.
Qed.

Section Shown.
  Variable h : heap.
  Hypothesis HH : ordinary_heap h.
  Variable f : nat.
  Hypothesis IH : forall st v x st', inv h st -> ser f st v = Ok (x, st') -> ordinary_value v -> shows h v None (raw x).
  Lemma next st v x st' : inv h st -> ser f st v = Ok (x, st') -> inv h st' /\ wstep nowhere st (marks x) st'.
  Proof. intros Hi E. destruct (writes_all f st v x st' (proj1 Hi) E) as [_ W]. split; [eapply inv_step; eauto|exact W]. Qed.
  Lemma list_shown l : forall st xs st', inv h st -> ser_list (ser f) st l = Ok (xs, st') -> Forall ordinary_value l -> items_shown h l (map raw xs).
  Proof.
    induction l as [|v l IHl]; intros st xs st' Hi E Hl; cbn [ser_list] in E.
    - apply Ok_pair in E. destruct E as [<- <-]. constructor.
    - apply bind_Ok in E. destruct E as ([x s1] & E1 & E). apply bind_Ok in E. destruct E as ([ys s2] & E2 & E).
      apply Ok_pair in E. destruct E as [<- <-]. cbn [fst snd] in *. inversion Hl; subst. destruct (next _ _ _ _ Hi E1) as [Hi1 _].
      cbn [map]. constructor; [now apply (IH st v x s1)|now apply (IHl s1 ys s2)].
  Qed.
  Lemma props_are_shown l : forall st xs st', inv h st -> ser_props (ser f) st l = Ok (xs, st') -> Forall ordinary_prop l ->
    props_shown h l (map raw xs) /\ inv h st' /\ (forall a i, key_get (KAddr a) (s_refs st) = Some i ->
       aget a (s_heap st') = aget a (s_heap st) /\ key_get (KAddr a) (s_refs st') = Some i).
  Proof.
    induction l as [|[n v] l IHl]; intros st xs st' Hi E Hl; cbn [ser_props] in E.
    - apply Ok_pair in E. destruct E as [<- <-]. split; [constructor|]. split; [exact Hi|auto].
    - apply bind_Ok in E. destruct E as ([x s1] & E1 & E). apply bind_Ok in E. destruct E as ([ys s2] & E2 & E).
      apply Ok_pair in E. destruct E as [<- <-]. cbn [fst snd] in *. inversion Hl as [|? ? [Hn Hv] Hl']; subst. cbn [fst snd] in *.
      destruct (next _ _ _ _ Hi E1) as [Hi1 W]. destruct (IHl s1 ys s2 Hi1 E2 Hl') as (A & B & C). split; [|split; [exact B|]].
      + cbn [map]. constructor 2 with (s := serialize_string n); [now apply string_wire|apply shows_set; now apply (IH st v x s1)|exact A].
      + intros a i Hk. destruct (C a i (w_refs _ _ _ _ W _ _ Hk)) as [-> C2]. split; [|exact C2]. apply (w_reg _ _ _ _ W a i Hk (no_more a)).
  Qed.
  Lemma dict_shown l : forall st xs st', inv h st -> ser_dict (ser f) st l = Ok (xs, st') ->
    Forall (fun e => ordinary_value (fst e) /\ ordinary_value (snd e)) l -> entries_shown h l (map raw xs).
  Proof.
    induction l as [|[k v] l IHl]; intros st xs st' Hi E Hl; cbn [ser_dict] in E.
    - apply Ok_pair in E. destruct E as [<- <-]. constructor.
    - apply bind_Ok in E. destruct E as ([x s1] & E1 & E). apply bind_Ok in E. destruct E as ([y s2] & E2 & E).
      apply bind_Ok in E. destruct E as ([ys s3] & E3 & E).
      apply Ok_pair in E. destruct E as [<- <-]. cbn [fst snd] in *. inversion Hl as [|? ? [Hn Hv] Hl']; subst. cbn [fst snd] in *.
      destruct (next _ _ _ _ Hi E1) as [Hi1 _]. destruct (next _ _ _ _ Hi1 E2) as [Hi2 _].
      cbn [map raw]. constructor; [apply (shows_set h k x (tx "Key")); now apply (IH st k x s1)|apply (shows_set h v y (tx "Value")); now apply (IH s1 v y s2)|].
      now apply (IHl s2 ys s3).
  Qed.
  Lemma queue_inv st a i v t ns s ad ex : inv h st -> key_get (KAddr a) (s_refs st) = Some i ->
    aget a (s_heap st) = Some (mkG (BQueue (v :: t)) ns s ad ex) -> inv h (set_heap st (aset a (mkG (BQueue t) ns s ad ex) (s_heap st))).
  Proof.
    intros [H1 H2] Hk Ha. set (st0 := set_heap _ _).
    assert (aget a (s_heap st0) = Some (mkG (BQueue t) ns s ad ex)) as Ha0 by (unfold st0; cbn [set_heap s_heap]; now rewrite aget_aset, N.eqb_refl).
    split; [exact H1|]. intros b. destruct (N.eq_dec a b) as [<-|Hne].
    - right. destruct (H2 a) as [F|(q & q' & n1 & s1 & ad1 & ex1 & i1 & F1 & F2 & F3)].
      + exists (v :: t), t, ns, s, ad, ex, i. split; [congruence|]. auto.
      + assert (mkG (BQueue q') n1 s1 ad1 ex1 = mkG (BQueue (v :: t)) ns s ad ex) as G by congruence. injection G as -> -> -> -> ->.
        exists q, t, ns, s, ad, ex, i. auto.
    - assert (aget b (s_heap st0) = aget b (s_heap st)) as E.
      { unfold st0. cbn [set_heap s_heap]. rewrite aget_aset. destruct (N.eqb_spec b a); [congruence|reflexivity]. }
      destruct (H2 b) as [F|F]; [left; congruence|right]. destruct F as (q & q' & n1 & s1 & ad1 & ex1 & i1 & F1 & F2 & F3).
      exists q, q', n1, s1, ad1, ex1, i1. rewrite E. auto.
  Qed.
  Lemma queue_shown l : forall st xs st' a i ns s ad ex, inv h st -> key_get (KAddr a) (s_refs st) = Some i ->
    aget a (s_heap st) = Some (mkG (BQueue l) ns s ad ex) -> ser_queue (ser f) (length l) st a = Ok (xs, st') -> Forall ordinary_value l ->
    items_shown h l (map raw xs).
  Proof.
    induction l as [|v l IHl]; intros st xs st' a i ns s ad ex Hi Hk Ha E Hl; cbn [ser_queue length] in E.
    - apply Ok_pair in E. destruct E as [<- <-]. constructor.
    - rewrite Ha in E. apply bind_Ok in E. destruct E as ([x s1] & E1 & E). apply bind_Ok in E. destruct E as ([ys s2] & E2 & E).
      apply Ok_pair in E. destruct E as [<- <-]. cbn [fst snd] in *. inversion Hl; subst.
      pose proof (queue_inv st a i v l ns s ad ex Hi Hk Ha) as Hi0. destruct (next _ _ _ _ Hi0 E1) as [Hi1 W]. cbn [map].
      constructor; [now apply (IH _ v x s1 Hi0 E1)|]. apply (IHl s1 ys s2 a i ns s ad ex Hi1); auto.
      + apply (w_refs _ _ _ _ W). exact Hk.
      + rewrite (w_reg _ _ _ _ W a i Hk (no_more a)). cbn [set_heap s_heap]. now rewrite aget_aset, N.eqb_refl.
  Qed.
  Lemma group_is_shown t nm l st xs st' : tag_text t = chars nm -> ser_props (ser f) st l = Ok (xs, st') -> props_shown h l (map raw xs) ->
    group_shown h nm l (map raw (group t xs)).
  Proof.
    intros Ht E H. destruct l as [|[n v] l]; [inversion H; destruct xs; [constructor|discriminate]|].
    destruct xs as [|x xs]; [inversion H|]. cbn [group map raw]. rewrite Ht. constructor; [discriminate|exact H].
  Qed.
  Lemma object_shown st id a o x st' : inv h st -> aget a h = Some o -> aget a (s_heap st) = Some o ->
    (forall l, g_body o = BQueue l -> exists i, key_get (KAddr a) (s_refs st) = Some i) ->
    ser_object (ser f) st id a o = Ok (x, st') -> shows h (VRef a) None (raw x).
  Proof.
    intros Hi Ho Hh Hq E. destruct (HH a o Ho) as (Oa & Oe & Ob). unfold ser_object in E. cbv zeta in E.
    set (names := match g_body o with BPrim _ => [] | BPy _ _ => custom_names | _ => g_names o end) in E.
    pose proof (names_written st names) as Nm. destruct (write_names st names) as [tn stA] eqn:Hw. cbn [fst] in Nm.
    destruct (names_step _ _ _ _ (proj1 Hi) Hw) as [_ W]. pose proof (inv_step h _ _ _ Hi W) as HiA.
    apply bind_Ok in E. destruct E as ([ra sa] & E1 & E). apply bind_Ok in E. destruct E as ([re se] & E2 & E).
    apply bind_Ok in E. destruct E as ([rb sb] & E3 & E). apply Ok_pair in E. destruct E as [<- <-]. cbn [fst snd] in *.
    destruct (props_are_shown _ _ _ _ HiA E1) as (Pa & HiB & KB); [destruct (g_body o); cbn [fst]; auto|].
    destruct (props_are_shown _ _ _ _ HiB E2) as (Pe & HiC & KC); [destruct (g_body o); cbn [snd]; auto|].
    pose proof (group_is_shown TgProps "Props" _ _ _ _ eq_refl E1 Pa) as Ga. pose proof (group_is_shown TgMS "MS" _ _ _ _ eq_refl E2 Pe) as Ge.
    cbn [raw map fst snd attr_text tag_text]. rewrite !map_app.
    change (shows h (VRef a) None (numbered_obj (dec id) None
      (map raw match g_body o with BPrim p => [prim_elem p] | _ => [] end ++ map raw tn ++ map raw (group TgProps ra) ++ map raw (group TgMS re) ++ map raw rb))).
    revert E3. unfold ser_body. unfold names in Nm. destruct (g_body o) as [|p|k l|l|l|cls attrs|] eqn:Eb; cbn [fst snd] in *; intros E3.
    - apply Ok_pair in E3. destruct E3 as [<- <-]. rewrite string_written. apply (ShowObject h None a o id (dec id)); auto using numeral_dec.
    - apply Ok_pair in E3. destruct E3 as [<- <-]. destruct (prim_wire p Ob) as (s & F & R). cbn [map app]. rewrite R, app_nil_r.
      inversion Nm as [T|? ? ? ? X|? ? ? ? X]; [|now destruct X..]. cbn [app]. apply (ShowNoted h None a o p id (dec id)); auto using numeral_dec.
    - apply bind_Ok in E3. destruct E3 as ([xs s1] & E3 & E4). apply Ok_pair in E4. destruct E4 as [<- <-].
      pose proof (list_shown _ _ _ _ HiC E3 Ob) as X. cbn [map app].
      apply (ShowContainer h None a o id (dec id)); auto using numeral_dec. rewrite Eb. cbn [raw map].
      replace (tag_text (TgList k)) with (chars (list_element k)) by (destruct k; reflexivity). now apply ListShown.
    - apply bind_Ok in E3. destruct E3 as ([xs s1] & E3 & E4). apply Ok_pair in E4. destruct E4 as [<- <-].
      destruct (Hq l eq_refl) as (i & Hki). destruct o as [ob on os oa oe]. cbn [g_body] in Eb. subst ob.
      pose proof (w_refs _ _ _ _ W _ _ Hki) as Hk1. destruct (KB a i Hk1) as [F1 Hk2]. destruct (KC a i Hk2) as [F2 Hk3].
      assert (aget a (s_heap se) = Some (mkG (BQueue l) on os oa oe)) as Hse by (rewrite F2, F1, (w_reg _ _ _ _ W a i Hki (no_more a)); exact Hh).
      pose proof (queue_shown l _ _ _ a i on os oa oe HiC Hk3 Hse E3 Ob) as X. cbn [map app].
      apply (ShowContainer h None a (mkG (BQueue l) on os oa oe) id (dec id)); auto using numeral_dec. cbn [g_body raw map]. now apply QueueShown.
    - apply bind_Ok in E3. destruct E3 as ([xs s1] & E3 & E4). apply Ok_pair in E4. destruct E4 as [<- <-].
      pose proof (dict_shown _ _ _ _ HiC E3 Ob) as X. cbn [map app].
      apply (ShowContainer h None a o id (dec id)); auto using numeral_dec. rewrite Eb. cbn [raw map]. now apply DictShown.
    - apply bind_Ok in E3. destruct E3 as ([xs s1] & E3 & E4). apply Ok_pair in E4. destruct E4 as [<- <-]. cbn [fst snd].
      destruct (props_are_shown _ _ _ _ HiC E3 (public_ordinary cls attrs Ob)) as (X & _).
      cbn [ser_props] in E1, E2. apply Ok_pair in E1, E2. destruct E1 as [<- _], E2 as [<- _]. cbn [group map app].
      apply (ShowInstance h None a o cls attrs (public_attrs cls attrs) id (dec id)); auto using numeral_dec, publics_exists.
      exact (group_is_shown TgMS "MS" _ _ _ _ eq_refl E3 X).
    - apply Ok_pair in E3. destruct E3 as [<- <-]. rewrite string_written. apply (ShowObject h None a o id (dec id)); auto using numeral_dec.
  Qed.
End Shown.
Theorem ser_shows h : ordinary_heap h -> forall f st v x st', inv h st -> ser f st v = Ok (x, st') -> ordinary_value v -> shows h v None (raw x).
Proof.
  intros HH. induction f as [|f IH]; intros st v x st' Hi E Hv; [discriminate|]. cbn [ser] in E. destruct v as [|b|p|e|a].
  - apply Ok_pair in E. destruct E as [<- <-]. apply (ShowNull h None).
  - apply Ok_pair in E. destruct E as [<- <-]. destruct b; [apply (ShowBool h None true)|apply (ShowBool h None false)].
  - apply Ok_pair in E. destruct E as [<- <-]. destruct (prim_wire p Hv) as (s & F & ->). now apply (ShowPrim h None).
  - destruct (get_ref_id st (Some (KMember (e_names e) (e_val e)))) as [[id used] st1]. destruct used.
    + apply Ok_pair in E. destruct E as [<- <-]. apply (ShowAgain h None _ id); [apply numeral_dec|]. right. eauto.
    + pose proof (names_written st1 (e_names e)) as Hn. destruct (write_names st1 (e_names e)) as [tn st2]. cbn [fst snd] in Hn.
      apply Ok_pair in E. destruct E as [<- <-]. destruct (prim_wire (PInt (e_type e) (e_val e)) I) as (s & F & R). cbn [raw map]. rewrite R, map_app, string_written.
      apply (ShowMember h None e id (dec id)); auto using numeral_dec.
  - destruct (aget a (s_heap st)) as [o|] eqn:Ea; [|discriminate].
    assert (exists o', aget a h = Some o' /\ (o = o' \/ exists i l, g_body o = BQueue l /\ key_get (KAddr a) (s_refs st) = Some i)) as (o' & Ho & Hcase).
    { destruct (proj2 Hi a) as [F|(q & q' & n & s & ad & ex & i & F1 & F2 & F3)]; [exists o; split; [congruence|now left]|].
      eexists. split; [exact F1|]. right. exists i, q'. rewrite F2 in Ea. injection Ea as <-. auto. }
    destruct Hcase as [<-|(i & l & Hb & Hk)].
    2:{ rewrite Hb in E. cbn [ref_key] in E. unfold get_ref_id in E. rewrite Hk in E. apply Ok_pair in E. destruct E as [<- <-].
        apply (ShowAgain h None _ i); [apply numeral_dec|]. left. eauto. }
    assert (forall x st', (let '(id, used, st1) := get_ref_id st (ref_key a (g_body o)) in
       if used then Ok (Elem TgRef [(AtRefId, dec id)] [] [], st1) else ser_object (ser f) st1 id a o) = Ok (x, st') ->
       shows h (VRef a) None (raw x)) as Hgo.
    { intros y s' F. destruct (get_ref_id st (ref_key a (g_body o))) as [[id used] st1] eqn:Hr. destruct used.
      - apply Ok_pair in F. destruct F as [<- <-]. apply (ShowAgain h None _ id); [apply numeral_dec|]. left. eauto.
      - pose proof (fresh_step _ _ _ _ (proj1 Hi) Hr) as W. pose proof (inv_step h _ _ _ Hi W) as Hi1.
        destruct (get_ref_fresh _ _ _ _ Hr) as (_ & _ & F3 & _ & F5 & _).
        apply (object_shown h HH f IH st1 id a o y s' Hi1 Ho); [now rewrite F3| |exact F].
        intros l El. rewrite El in F5. cbn [ref_key] in F5. exists (s_next st). now rewrite F5, key_eqb_refl. }
    destruct (g_body o) as [|p| | | | |] eqn:Eb; eauto. destruct (has_props o) eqn:Ep; eauto.
    apply Ok_pair in E. destruct E as [<- <-]. destruct (HH a o Ho) as (_ & _ & Ob). rewrite Eb in Ob. destruct (prim_wire p Ob) as (s & F & ->).
    unfold has_props in Ep. destruct (g_adapted o) eqn:E1; [|discriminate]. destruct (g_extended o) eqn:E2; [|discriminate]. now apply (ShowBare h None a o).
Qed.
Lemma inv_init h : inv h (s_init h).
Proof. split; [apply bounded_init|]. intros a. now left. Qed.
Lemma items_shown_forall h l xs : items_shown h l xs -> Forall2 (fun v x => shows h v None x) l xs.
Proof. revert xs. induction l; intros xs H; inversion H; subst; constructor; auto. Qed.
Lemma label_shown h xs : forall its, Forall2 (fun v x => shows h v None x) (map fst its) (map raw xs) ->
  Forall2 (item_shown h) its (map raw (label xs (map snd its))).
Proof.
  induction xs as [|x xs IH]; intros [|[v l] its] H; inversion H; subst; [constructor|]. cbn [label map fst snd] in *.
  constructor; [|now apply IH]. unfold item_shown. cbn [fst snd]. destruct l as [s|]; [|assumption].
  destruct (shows_put h v AtS (stream_text s) x H3 (or_intror eq_refl)) as (n & a & t & c & E & R). exists n, a, t, c. rewrite E in H3. split; [exact H3|].
  rewrite R. destruct s; reflexivity.
Qed.
Theorem document_is_shown fuel h its s st : serialize_clixml fuel h its = Ok (s, st) -> ordinary_heap h ->
  Forall (fun i => ordinary_value (fst i)) its -> document_shown h its s.
Proof.
  intros E HH Hi. unfold serialize_clixml in E. apply bind_Ok in E. destruct E as ([xs s1] & E1 & E). apply Ok_pair in E. destruct E as [<- <-].
  cbn [fst snd]. pose proof (list_shown h fuel (fun st v x st' => ser_shows h HH fuel st v x st') _ _ _ _ (inv_init h) E1) as X.
  specialize (X ltac:(now apply Forall_map)). apply items_shown_forall in X.
  exists (map raw (label xs (map snd its))), (map print (map raw (label xs (map snd its)))).
  split; [now apply label_shown|]. split; [apply print_all_written|]. cbv zeta.
  destruct (map raw (label xs (map snd its))) as [|y ys]; [reflexivity|].
  rewrite <- flat_map_concat_map. cbn [print]. reflexivity.
Qed.
