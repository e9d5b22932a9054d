(** What the serializer writes follows the grammar of Spec_Wire. *)
From Coq Require Import String Ascii.
From Verif Require Import Base BaseFacts Model_Scalars Model_Strings Model_Text Model_Object Model_Clixml Model_Xml
  Spec_Strings Spec_Scalars Spec_Wire Proofs_Scalars Proofs_Clixml3 Proofs_Clixml5 Proofs_Wire.
Local Open Scope list_scope.

Lemma prim_wire p : ordinary p -> exists s, prim_form p s /\ raw (prim_elem p) = element (prim_element p) [] s [].
Proof.
  destruct p as [t z|z|c|k s|l|d|ns|n|v|k s|s]; cbn [ordinary]; intros H.
  - exists (write_int z). split; [apply signed_int|]. destruct t; reflexivity.
  - exists (write_int z). split; [apply signed_int|]. cbn [prim_elem raw prim_element]. unfold plain_int_type. rewrite Z.gtb_ltb.
    destruct (2147483647 <? z)%Z; reflexivity.
  - exists (write_char c). split; [apply char_numeral|reflexivity].
  - exists (serialize_string s). split; [now apply string_wire|destruct k; reflexivity].
  - exists (b64_encode l). split; [now apply base64_wire|reflexivity].
  - exists (write_datetime d). split; [now apply datetime_wire|reflexivity].
  - exists (write_duration ns). split; [now apply duration_wire|reflexivity].
  - exists (write_guid n). split; [now apply guid_wire|reflexivity].
  - exists (write_version v). split; [now apply version_wire|reflexivity].
  - exists s. split; [reflexivity|destruct k; reflexivity].
  - exists s. split; reflexivity.
Qed.
Lemma attrs_shape n a t k : value_form None (Node n a t k) -> a = [] \/ exists r, a = [(chars "RefId", r)].
Proof. intros H. inversion H; cbn [labelled]; eauto. Qed.
Lemma relabel_node n a t k s : value_form None (Node n a t k) -> value_form (Some s) (Node n (a ++ [(chars "N", s)]) t k).
Proof.
  intros H. inversion H; subst; cbn [labelled app].
  - exact (FormNil (Some s)).
  - exact (FormBool (Some s) b).
  - now apply (FormPrim (Some s)).
  - now apply (FormRef (Some s) i r).
  - now apply (FormObj (Some s) i r).
Qed.
Lemma put_attr k v a : (a = [] \/ exists r, map (fun p : attr * list N => (attr_text (fst p), snd p)) a = [(chars "RefId", r)]) ->
  (k = AtN \/ k = AtS) -> attr_put k v a = a ++ [(k, v)].
Proof.
  intros [->|(r & E)] Hk; [reflexivity|]. destruct a as [|[a0 r0] [|]]; try discriminate. cbn [map fst snd] in E. injection E as E1 E2.
  cbn [attr_put]. destruct a0; try discriminate; destruct Hk as [->| ->]; reflexivity.
Qed.
Lemma raw_put k v x : value_form None (raw x) -> (k = AtN \/ k = AtS) ->
  exists n a t c, raw x = Node n a t c /\ raw (set_attr k v x) = Node n (a ++ [(attr_text k, v)]) t c.
Proof.
  destruct x as [t a u c]. cbn [raw set_attr]. intros H Hk. eexists _, _, _, _. split; [reflexivity|].
  rewrite put_attr; [now rewrite map_app| |exact Hk]. apply attrs_shape in H. destruct H as [H|H]; [left; now apply map_eq_nil in H|now right].
Qed.
Lemma relabel x s : value_form None (raw x) -> value_form (Some s) (raw (set_attr AtN s x)).
Proof.
  intros H. destruct (raw_put AtN s x H (or_introl eq_refl)) as (n & a & t & c & E & ->). rewrite E in H. now apply relabel_node.
Qed.

(** ** The serializer *)
Lemma write_names_wire st ns : let r := write_names st ns in
  at_most_one types_form (map raw (fst r)) /\ s_heap (snd r) = s_heap st.
Proof.
  cbv zeta. destruct ns as [|n ns]; [split; [now left|reflexivity]|]. cbn [write_names]. destruct (index_of n (s_tns st)) as [i|].
  - split; [|reflexivity]. right. eexists. split; [reflexivity|]. cbn [raw map fst snd tag_text attr_text].
    apply (TypesOld (N.of_nat i)). apply numeral_dec.
  - split; [|reflexivity]. right. eexists. split; [reflexivity|]. cbn [raw map fst snd tag_text attr_text].
    pose proof (TypesNew (N.of_nat (length (s_tns st))) (dec (N.of_nat (length (s_tns st)))) (n :: ns) (numeral_dec _) ltac:(discriminate)) as H.
    unfold element in H. cbn [map] in H. rewrite map_map. exact H.
Qed.
Lemma get_ref_heap st k : s_heap (snd (get_ref_id st k)) = s_heap st.
Proof. unfold get_ref_id. destruct k as [k|]; [|reflexivity]. destruct (key_get k (s_refs st)); reflexivity. Qed.

Section Grammar.
  Variable go : sst -> value -> result (xml * sst).
  Hypothesis IH : forall st v x st', go st v = Ok (x, st') -> ordinary_heap (s_heap st) -> ordinary_value v ->
    value_form None (raw x) /\ ordinary_heap (s_heap st').
  Lemma list_wire l : forall st xs st', ser_list go st l = Ok (xs, st') -> ordinary_heap (s_heap st) -> Forall ordinary_value l ->
    items (map raw xs) /\ ordinary_heap (s_heap st') /\ length xs = length l.
  Proof.
    induction l as [|v l IHl]; intros st xs st' E Hh Hl; cbn [ser_list] in E.
    - apply Ok_pair in E. destruct E as [<- <-]. cbn [map]. split; [constructor|]. split; [exact Hh|reflexivity].
    - apply bind_Ok in E. destruct E as ([x s1] & E1 & E). apply bind_Ok in E. destruct E as ([ys s2] & E2 & E).
      apply Ok_pair in E. destruct E as [<- <-]. cbn [fst snd] in *. inversion Hl; subst.
      destruct (IH _ _ _ _ E1 Hh H1) as (A & B). destruct (IHl _ _ _ E2 B H2) as (C & D & L). cbn [map length]. rewrite L.
      split; [now constructor|]. split; [exact D|reflexivity].
  Qed.
  Lemma props_wire l : forall st xs st', ser_props go st l = Ok (xs, st') -> ordinary_heap (s_heap st) -> Forall ordinary_prop l ->
    properties (map raw xs) /\ ordinary_heap (s_heap st').
  Proof.
    induction l as [|[n v] l IHl]; intros st xs st' E Hh Hl; cbn [ser_props] in E.
    - apply Ok_pair in E. destruct E as [<- <-]. cbn [map]; split; [constructor|exact Hh].
    - apply bind_Ok in E. destruct E as ([x s1] & E1 & E). apply bind_Ok in E. destruct E as ([ys s2] & E2 & E).
      apply Ok_pair in E. destruct E as [<- <-]. cbn [fst snd] in *. inversion Hl as [|? ? [Hn Hv] Hl']; subst. cbn [fst snd] in *.
      destruct (IH _ _ _ _ E1 Hh Hv) as (A & B). destruct (IHl _ _ _ E2 B Hl') as (C & D). cbn [map].
      split; [|exact D]. apply PropsCons with n (serialize_string n); [now apply string_wire|now apply relabel|exact C].
  Qed.
  Lemma dict_wire l : forall st xs st', ser_dict go st l = Ok (xs, st') -> ordinary_heap (s_heap st) ->
    Forall (fun e => ordinary_value (fst e) /\ ordinary_value (snd e)) l ->
    entries (map raw xs) /\ ordinary_heap (s_heap st').
  Proof.
    induction l as [|[k v] l IHl]; intros st xs st' E Hh Hl; cbn [ser_dict] in E.
    - apply Ok_pair in E. destruct E as [<- <-]. cbn [map]; split; [constructor|exact Hh].
    - apply bind_Ok in E. destruct E as ([x s1] & E1 & E). apply bind_Ok in E. destruct E as ([y s2] & E2 & E).
      apply bind_Ok in E. destruct E as ([ys s3] & E3 & E).
      apply Ok_pair in E. destruct E as [<- <-]. cbn [fst snd] in *. inversion Hl as [|? ? [Hn Hv] Hl']; subst. cbn [fst snd] in *.
      destruct (IH _ _ _ _ E1 Hh Hn) as (A & B). destruct (IH _ _ _ _ E2 B Hv) as (A' & B'). destruct (IHl _ _ _ E3 B' Hl') as (C & D).
      split; [|exact D]. cbn [map raw]. apply (EntriesCons (raw (set_attr AtN (tx "Key") x)) (raw (set_attr AtN (tx "Value") y)));
        [now apply relabel|now apply relabel|exact C].
  Qed.
  Lemma ordinary_aset h a o : ordinary_heap h -> ordinary_object o -> ordinary_heap (aset a o h).
  Proof.
    intros Hh Ho b q E. rewrite aget_aset in E. destruct (b =? a)%N; [injection E as <-; exact Ho|now apply Hh in E].
  Qed.
  Lemma queue_wire n a : forall st xs st', ser_queue go n st a = Ok (xs, st') -> ordinary_heap (s_heap st) ->
    items (map raw xs) /\ ordinary_heap (s_heap st').
  Proof.
    induction n as [|n IHn]; intros st xs st' E Hh; cbn [ser_queue] in E.
    - apply Ok_pair in E. destruct E as [<- <-]. cbn [map]; split; [constructor|exact Hh].
    - destruct (aget a (s_heap st)) as [[[| | |[|v t]| | |] ns s ad ex]|] eqn:Ea;
        try (apply Ok_pair in E; destruct E as [<- <-]; cbn [map]; split; [constructor|exact Hh]).
      apply bind_Ok in E. destruct E as ([x s1] & E1 & E). apply bind_Ok in E. destruct E as ([ys s2] & E2 & E).
      apply Ok_pair in E. destruct E as [<- <-]. cbn [fst snd] in *.
      destruct (Hh _ _ Ea) as (Ha & He & Hb). cbn [g_adapted g_extended g_body] in *. inversion Hb; subst.
      destruct (IH _ _ _ _ E1) as (A & B); [apply ordinary_aset; [exact Hh|now split]|assumption|].
      destruct (IHn _ _ _ E2 B) as (C & D). cbn [map]. split; [now constructor|exact D].
  Qed.
  Lemma group_wire t nm xs : tag_text t = chars nm -> properties (map raw xs) ->
    at_most_one (fun x => exists l, x = element nm [] [] l /\ l <> [] /\ properties l) (map raw (group t xs)).
  Proof.
    intros Ht H. destruct xs as [|x xs]; [now left|]. right. eexists. split; [reflexivity|]. cbn [raw]. rewrite Ht.
    eexists. split; [reflexivity|]. split; [discriminate|exact H].
  Qed.
  Lemma string_elem_wire s : at_most_one (fun x => exists t, t <> [] /\ x = element "ToString" [] t []) (map raw (string_elem s)).
  Proof.
    destruct s as [[|c s]|]; [now left| |now left]. right. eexists. split; [reflexivity|]. exists (c :: s). split; [discriminate|reflexivity].
  Qed.
  Lemma public_ordinary cls l : Forall (fun x : name * bool * value => pystr (fst (fst x)) /\ ordinary_value (snd x)) l ->
    Forall ordinary_prop (public_attrs cls l).
  Proof.
    intros H. unfold public_attrs. apply Forall_map. apply incl_Forall with l; [apply incl_filter|]. exact H.
  Qed.
  Lemma object_wire st id a o x st' : ser_object go st id a o = Ok (x, st') -> ordinary_heap (s_heap st) -> ordinary_object o ->
    value_form None (raw x) /\ ordinary_heap (s_heap st').
  Proof.
    intros E Hh (Ha & He & Hb). unfold ser_object in E.
    destruct (write_names st match g_body o with BPrim _ => [] | BPy _ _ => custom_names | _ => g_names o end) as [tn st1] eqn:En.
    pose proof (write_names_wire st match g_body o with BPrim _ => [] | BPy _ _ => custom_names | _ => g_names o end) as Hn.
    rewrite En in Hn. cbn [fst snd] in Hn. destruct Hn as (Tn & Hs). rewrite <- Hs in Hh.
    apply bind_Ok in E. destruct E as ([ra sa] & E1 & E). apply bind_Ok in E. destruct E as ([re se] & E2 & E).
    apply bind_Ok in E. destruct E as ([rb sb] & E3 & E). apply Ok_pair in E. destruct E as [<- <-]. cbn [fst snd] in *.
    destruct (props_wire _ _ _ _ E1 Hh) as (Pa & Ho1); [destruct (g_body o); cbn [fst]; auto|].
    destruct (props_wire _ _ _ _ E2 Ho1) as (Pe & Ho2); [destruct (g_body o); cbn [snd]; auto|].
    cbn [raw map fst snd attr_text tag_text]. rewrite !map_app.
    assert (at_most_one (fun x => exists p s, prim_form p s /\ x = element (prim_element p) [] s [])
      (map raw match g_body o with BPrim p => [prim_elem p] | _ => [] end)) as Hp.
    { destruct (g_body o); try now left. right. destruct (prim_wire p Hb) as (s & F & R). cbn [map]. rewrite R. eexists. split; [reflexivity|].
      exists p, s. split; [exact F|reflexivity]. }
    pose proof (group_wire TgProps "Props" ra eq_refl Pa) as Ga. pose proof (group_wire TgMS "MS" re eq_refl Pe) as Ge.
    revert E3. unfold ser_body. destruct (g_body o) as [|p|k l|l|l|cls attrs|] eqn:Eb; intros E3.
    - apply Ok_pair in E3. destruct E3 as [<- <-]. split; [|exact Ho2].
      apply (FormObj None id (dec id) [] (map raw tn) (map raw (group TgProps ra)) (map raw (group TgMS re)) [] (map raw (string_elem (g_string o))));
        auto using numeral_dec, string_elem_wire. now left.
    - apply Ok_pair in E3. destruct E3 as [<- <-]. split; [|exact Ho2].
      apply (FormObj None id (dec id) (map raw [prim_elem p]) (map raw tn) (map raw (group TgProps ra)) (map raw (group TgMS re)) [] []);
        auto using numeral_dec; now left.
    - apply bind_Ok in E3. destruct E3 as ([xs s1] & E3 & E4). apply Ok_pair in E4. destruct E4 as [<- <-]. cbn [fst snd].
      destruct (list_wire _ _ _ _ E3 Ho2 Hb) as (I & Ho3 & _). split; [|exact Ho3].
      apply (FormObj None id (dec id) [] (map raw tn) (map raw (group TgProps ra)) (map raw (group TgMS re)) (map raw [Elem (TgList k) [] [] xs]) []);
        auto using numeral_dec; [|now left]. right. eexists. split; [reflexivity|]. cbn [raw map].
      replace (tag_text (TgList k)) with (chars (list_element k)) by (destruct k; reflexivity). now apply BodyList.
    - apply bind_Ok in E3. destruct E3 as ([xs s1] & E3 & E4). apply Ok_pair in E4. destruct E4 as [<- <-]. cbn [fst snd].
      destruct (queue_wire _ _ _ _ _ E3 Ho2) as (I & Ho3). split; [|exact Ho3].
      apply (FormObj None id (dec id) [] (map raw tn) (map raw (group TgProps ra)) (map raw (group TgMS re)) (map raw [Elem TgQUE [] [] xs]) []);
        auto using numeral_dec; [|now left]. right. eexists. split; [reflexivity|]. cbn [raw map]. now apply BodyQueue.
    - apply bind_Ok in E3. destruct E3 as ([xs s1] & E3 & E4). apply Ok_pair in E4. destruct E4 as [<- <-]. cbn [fst snd].
      destruct (dict_wire _ _ _ _ E3 Ho2 Hb) as (I & Ho3). split; [|exact Ho3].
      apply (FormObj None id (dec id) [] (map raw tn) (map raw (group TgProps ra)) (map raw (group TgMS re)) (map raw [Elem TgDCT [] [] xs]) []);
        auto using numeral_dec; [|now left]. right. eexists. split; [reflexivity|]. cbn [raw map]. now apply BodyDict.
    - apply bind_Ok in E3. destruct E3 as ([xs s1] & E3 & E4). apply Ok_pair in E4. destruct E4 as [<- <-]. cbn [fst snd].
      destruct (props_wire _ _ _ _ E3 Ho2 (public_ordinary cls attrs Hb)) as (I & Ho3). split; [|exact Ho3].
      cbn [ser_props fst snd] in E1, E2. apply Ok_pair in E1, E2. destruct E1 as [<- <-], E2 as [<- <-].
      pose proof (FormObj None id (dec id) [] (map raw tn) [] (map raw (group TgMS xs)) [] [] (numeral_dec id) (or_introl eq_refl) Tn
        (or_introl eq_refl) (group_wire TgMS "MS" xs eq_refl I) (or_introl eq_refl) (or_introl eq_refl)) as F.
      rewrite !app_nil_r in F. exact F.
    - apply Ok_pair in E3. destruct E3 as [<- <-]. split; [|exact Ho2].
      apply (FormObj None id (dec id) [] (map raw tn) (map raw (group TgProps ra)) (map raw (group TgMS re)) [] (map raw (string_elem (g_string o))));
        auto using numeral_dec, string_elem_wire. now left.
  Qed.
End Grammar.
Lemma ser_wire f : forall st v x st', ser f st v = Ok (x, st') -> ordinary_heap (s_heap st) -> ordinary_value v ->
  value_form None (raw x) /\ ordinary_heap (s_heap st').
Proof.
  induction f as [|f IH]; intros st v x st' E Hh Hv; [discriminate|]. cbn [ser] in E. destruct v as [|b|p|e|a].
  - apply Ok_pair in E. destruct E as [<- <-]. split; [apply (FormNil None)|exact Hh].
  - apply Ok_pair in E. destruct E as [<- <-]. split; [|exact Hh]. replace (write_bool b) with (chars (if b then "true" else "false")) by (destruct b; reflexivity).
    apply (FormBool None).
  - apply Ok_pair in E. destruct E as [<- <-]. split; [|exact Hh]. destruct (prim_wire p Hv) as (s & F & ->). now apply (FormPrim None).
  - pose proof (get_ref_heap st (Some (KMember (e_names e) (e_val e)))) as Hg.
    destruct (get_ref_id st (Some (KMember (e_names e) (e_val e)))) as [[id used] st1]. cbn [snd] in Hg. destruct used.
    + apply Ok_pair in E. destruct E as [<- <-]. rewrite Hg. split; [|exact Hh]. apply (FormRef None id), numeral_dec.
    + pose proof (write_names_wire st1 (e_names e)) as Hn. destruct (write_names st1 (e_names e)) as [tn st2]. cbn [fst snd] in Hn. destruct Hn as (Tn & Hs).
      apply Ok_pair in E. destruct E as [<- <-]. rewrite Hs, Hg. split; [|exact Hh].
      destruct (prim_wire (PInt (e_type e) (e_val e)) I) as (s & F & R). cbn [raw map]. rewrite R, map_app.
      apply (FormObj None id (dec id) [element (prim_element (PInt (e_type e) (e_val e))) [] s []] (map raw tn) [] [] [] (map raw (string_elem (Some (e_text e)))));
        auto using numeral_dec, string_elem_wire; try now left. right. eexists. split; [reflexivity|]. exists (PInt (e_type e) (e_val e)), s. now split.
  - destruct (aget a (s_heap st)) as [o|] eqn:Ea; [|discriminate]. pose proof (Hh _ _ Ea) as Ho.
    assert (forall x st', (let '(id, used, st1) := get_ref_id st (ref_key a (g_body o)) in
       if used then Ok (Elem TgRef [(AtRefId, dec id)] [] [], st1) else ser_object (ser f) st1 id a o) = Ok (x, st') ->
       value_form None (raw x) /\ ordinary_heap (s_heap st')) as Hgo.
    { intros y s' F. pose proof (get_ref_heap st (ref_key a (g_body o))) as Hg.
      destruct (get_ref_id st (ref_key a (g_body o))) as [[id used] st1]. cbn [snd] in Hg. destruct used.
      - apply Ok_pair in F. destruct F as [<- <-]. rewrite Hg. split; [|exact Hh]. apply (FormRef None id), numeral_dec.
      - apply object_wire in F; auto. now rewrite Hg. }
    destruct (g_body o) eqn:Eb; auto. destruct (has_props o); auto.
    apply Ok_pair in E. destruct E as [<- <-]. split; [|exact Hh]. destruct Ho as (_ & _ & Ho). rewrite Eb in Ho.
    destruct (prim_wire p Ho) as (s & F & ->). now apply (FormPrim None).
Qed.

(** ** Documents *)
Lemma esc_text_wire c : reference text_specials c (esc_text c).
Proof.
  unfold esc_text, reference, text_specials. destruct (N.eqb_spec c 38) as [->|H1]; [left; eexists; split; [now left|reflexivity]|].
  destruct (N.eqb_spec c 60) as [->|H2]; [left; eexists; split; [right; now left|reflexivity]|].
  destruct (N.eqb_spec c 62) as [->|H3]; [left; eexists; split; [right; right; now left|reflexivity]|].
  right. split; [|reflexivity]. intros t [E|[E|[E|[]]]]; congruence.
Qed.
Lemma esc_attr_wire c : reference attr_specials c (esc_attr c).
Proof.
  unfold esc_attr, reference, attr_specials, text_specials. cbn [app In].
  destruct (N.eqb_spec c 38) as [->|H1]; [left; eexists; split; [eauto|reflexivity]|].
  destruct (N.eqb_spec c 60) as [->|H2]; [left; eexists; split; [eauto|reflexivity]|].
  destruct (N.eqb_spec c 62) as [->|H3]; [left; eexists; split; [eauto|reflexivity]|].
  destruct (N.eqb_spec c 34) as [->|H4]; [left; eexists; split; [eauto|reflexivity]|].
  destruct (N.eqb_spec c 13) as [->|H5]; [left; eexists; split; [do 4 right; left; reflexivity|reflexivity]|].
  destruct (N.eqb_spec c 10) as [->|H6]; [left; eexists; split; [do 5 right; left; reflexivity|reflexivity]|].
  destruct (N.eqb_spec c 9) as [->|H7]; [left; eexists; split; [do 6 right; left; reflexivity|reflexivity]|].
  right. split; [|reflexivity]. intros t H. repeat (destruct H as [E|H]; [congruence|]). exact H.
Qed.
Lemma data_wire sp f t : (forall c, reference sp c (f c)) -> char_data sp t (flat_map f t).
Proof.
  intros H. exists (map f t). split; [|apply flat_map_concat_map]. induction t; cbn [map]; constructor; auto.
Qed.
Lemma attrs_wire a : exists ats, Forall2 attr_data a ats /\ flat_map print_attr a = concat ats.
Proof.
  exists (map print_attr a). split; [|apply flat_map_concat_map]. induction a as [|x a IH]; cbn [map]; constructor; auto.
  exists (flat_map esc_attr (snd x)). split; [apply data_wire, esc_attr_wire|reflexivity].
Qed.
Fixpoint print_written x : written x (print x).
Proof.
  destruct x as [n a t k].
  assert (exists ks, written_all k ks /\ flat_map print k = concat ks) as (ks & Hk & Ek).
  { exists (map print k). split; [|apply flat_map_concat_map]. induction k as [|y k IH]; cbn [map]; constructor; [apply print_written|exact IH]. }
  destruct (attrs_wire a) as (ats & Ha & Ea). cbn [print]. rewrite Ea, Ek.
  destruct t as [|c t]; [destruct k as [|y k]|].
  - now apply WrittenEmpty.
  - apply (Written n a [] (y :: k) ats [] ks); auto; [exists []; split; [constructor|reflexivity]|right; discriminate].
  - apply (Written n a (c :: t) k ats (flat_map esc_text (c :: t)) ks); auto; [apply data_wire, esc_text_wire|left; discriminate].
Qed.
Lemma print_all_written l : written_all l (map print l).
Proof. induction l; cbn [map]; constructor; auto using print_written. Qed.
Lemma items_forall l : items l -> Forall (value_form None) l.
Proof. induction l; intros H; inversion H; constructor; auto. Qed.
Lemma label_wire xs : forall ls, items (map raw xs) -> length xs = length ls -> Forall2 item_form ls (map raw (label xs ls)).
Proof.
  induction xs as [|x xs IH]; intros [|l ls] H HL; try discriminate; [constructor|]. cbn [label map] in *. inversion H; subst.
  constructor; [|now apply IH; [|injection HL]]. destruct l as [s|]; [|exact H2]. cbn [item_form].
  destruct (raw_put AtS (stream_text s) x H2 (or_intror eq_refl)) as (n & a & t & c & E & R). exists n, a, t, c. rewrite E in H2. split; [exact H2|].
  rewrite R. destruct s; reflexivity.
Qed.
Lemma document_wire fuel h its s st : serialize_clixml fuel h its = Ok (s, st) -> ordinary_heap h ->
  Forall (fun i => ordinary_value (fst i)) its -> document_form (map snd its) s.
Proof.
  intros E Hh Hi. unfold serialize_clixml in E. apply bind_Ok in E. destruct E as ([xs s1] & E1 & E). apply Ok_pair in E. destruct E as [<- <-].
  cbn [fst snd]. apply (list_wire _ (ser_wire fuel)) in E1; [|exact Hh|now apply Forall_map]. destruct E1 as (I & _ & L). rewrite map_length in L.
  exists (map raw (label xs (map snd its))), (map print (map raw (label xs (map snd its)))).
  split; [apply label_wire; [exact I|now rewrite map_length]|]. split; [apply print_all_written|]. cbv zeta.
  destruct (map raw (label xs (map snd its))) as [|y ys]; [reflexivity|].
  rewrite <- flat_map_concat_map. cbn [print]. reflexivity.
Qed.
