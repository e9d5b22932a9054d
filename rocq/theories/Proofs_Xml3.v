(** XML: CLIXML strings and their streams. *)
From Coq Require Import String.
From Verif Require Import Base BaseFacts Model_Scalars Model_Strings Model_Text Model_Object Model_Clixml Model_Xml.
From Verif Require Import Spec_Strings Spec_Scalars Spec_Clixml Spec_Xml Proofs_Clixml1 Proofs_Clixml3 Proofs_Clixml5 Proofs_Clixml7 Proofs_Xml1 Proofs_Xml2.
Local Open Scope list_scope.
Local Open Scope nat_scope.

Lemma stream_text_ok s : attr_ok (stream_text s).
Proof. apply Forall_forall. intros c Hc. apply xml_char_iff. revert c Hc. apply forallb_forall. destruct s; reflexivity. Qed.
Lemma read_labelled s x : read_stream (set_attr AtS (stream_text s) x) = s.
Proof.
  destruct x as [t a u k]. unfold read_stream. cbn [set_attr x_attrs]. rewrite attr_get_put. cbn [attr_eqb]. destruct s; reflexivity.
Qed.
Lemma deserialize_label reg d s x : deserialize reg d (set_attr AtS (stream_text s) x) = deserialize reg d x.
Proof. unfold deserialize. rewrite height_set_attr. now rewrite deser_set_attr. Qed.

(** No element the serializer makes has an S attribute of its own. *)
Definition unlabelled (x : xml) : Prop := attr_get AtS (x_attrs x) = None.
Lemma ser_unlabelled f st v x st2 : ser f st v = Ok (x, st2) -> unlabelled x.
Proof.
  destruct f as [|f]; [discriminate|]. cbn [ser]. intros E.
  assert (forall p, unlabelled (prim_elem p)) as Hp by (intros []; reflexivity).
  destruct v as [|b|p|e|a].
  - apply Ok_pair in E. destruct E as [<- _]. reflexivity.
  - apply Ok_pair in E. destruct E as [<- _]. reflexivity.
  - apply Ok_pair in E. destruct E as [<- _]. apply Hp.
  - destruct (get_ref_id st _) as [[id [|]] st1]; [apply Ok_pair in E; destruct E as [<- _]; reflexivity|].
    destruct (write_names st1 (e_names e)) as [tn st3]. apply Ok_pair in E. destruct E as [<- _]. reflexivity.
  - destruct (aget a (s_heap st)) as [o|]; [|discriminate].
    assert ((let '(id, used, st1) := get_ref_id st (ref_key a (g_body o)) in
             if used then Ok (Elem TgRef [(AtRefId, dec id)] [] [], st1) else ser_object (ser f) st1 id a o) = Ok (x, st2) -> unlabelled x) as Hgo.
    2:{ destruct (g_body o) as [|p| | | | |]; try (now apply Hgo). destruct (has_props o); [now apply Hgo|]. apply Ok_pair in E. destruct E as [<- _]. apply Hp. }
    clear E. intros E. destruct (get_ref_id st _) as [[id [|]] st1]; [apply Ok_pair in E; destruct E as [<- _]; reflexivity|].
    unfold ser_object in E. cbv zeta in E. destruct (write_names st1 _) as [tn st1'].
    apply bind_Ok in E. destruct E as (ra & _ & E). apply bind_Ok in E. destruct E as (re & _ & E). apply bind_Ok in E. destruct E as (rb & _ & E).
    apply Ok_pair in E. destruct E as [<- _]. reflexivity.
Qed.
Lemma list_unlabelled f st vs xs st2 : ser_list (ser f) st vs = Ok (xs, st2) -> length xs = length vs /\ Forall unlabelled xs.
Proof.
  revert st xs. induction vs as [|v vs IH]; intros st xs E; cbn [ser_list] in E; [injection E as <- <-; auto|].
  apply bind_Ok in E. destruct E as ([x1 st1] & E1 & E). apply bind_Ok in E. destruct E as ([xs1 st3] & E2 & E). cbn [fst snd] in *.
  apply Ok_pair in E. destruct E as [<- <-]. destruct (IH _ _ E2) as [A B]. cbn [length]. split; [now rewrite A|]. constructor; [|exact B]. eapply ser_unlabelled; eauto.
Qed.
Lemma label_clean xs ls : Forall clean xs -> Forall clean (label xs ls).
Proof.
  intros H. revert ls. induction H as [|x xs Hx _ IH]; intros ls; cbn [label]; [constructor|]. destruct ls as [|l ls]; constructor; auto.
  destruct l; [|exact Hx]. apply clean_set; [discriminate|apply stream_text_ok|exact Hx].
Qed.
Lemma read_labels reg : forall xs ls d vs d', length xs = length ls -> Forall clean xs -> Forall unlabelled xs -> read_values reg d xs = Ok (vs, d') ->
  read_items_streams reg d (map raw (label xs ls)) = Ok (combine vs (map stream_of ls), d') /\ length vs = length ls.
Proof.
  induction xs as [|x xs IH]; intros ls d vs d' HL HC HU E; (destruct ls as [|l ls]; [try discriminate HL|try discriminate HL]); cbn [read_values] in E.
  - injection E as <- <-. auto.
  - injection HL as HL. inversion HC; inversion HU; subst. apply bind_Ok in E. destruct E as ([v1 d1] & E1 & E). apply bind_Ok in E. destruct E as ([vs1 d2] & E2 & E). cbn [fst snd] in *.
    injection E as <- <-. destruct (IH ls d1 vs1 d2 HL) as [A B]; auto. cbn [label map read_items_streams combine length].
    split; [|now rewrite B]. rewrite cook_raw by (destruct l; [apply clean_set; [discriminate|apply stream_text_ok|assumption]|assumption]).
    destruct l as [s|].
    + rewrite deserialize_label, E1. cbn [bind fst snd]. rewrite A. cbn [bind fst snd stream_of]. now rewrite read_labelled.
    + rewrite E1. cbn [bind fst snd]. rewrite A. cbn [bind fst snd stream_of]. unfold read_stream. match goal with H : unlabelled x |- _ => rewrite H end. reflexivity.
Qed.

(** ** The document *)
Definition objs (kids : list node) : node := Node (tx "Objs") [] [] kids.
Lemma objs_printable kids : Forall printable kids -> printable (objs kids).
Proof.
  intros H. unfold objs. cbn [printable map]. split; [|split; [constructor|split; [constructor|split; [constructor|]]]].
  - exists 79%N, (tx "bjs"). split; [reflexivity|]. split; [unfold letter; lia|]. apply Forall_forall. intros c Hc. apply name_char_iff. revert c Hc. apply forallb_forall. reflexivity.
  - induction H; cbn [fold_right]; auto.
Qed.
Definition opening : list N := print_attr (tx "Version", tx "1.1.0.1") ++ print_attr (tx "xmlns", tx "http://schemas.microsoft.com/powershell/2004/04").
Lemma from_gt_app a b : Forall (fun c => (c =? 62)%N = false) a -> from_gt (a ++ 62%N :: b) = Some (62%N :: b).
Proof. induction 1 as [|c a Hc _ IH]; [reflexivity|]. cbn [app from_gt]. now rewrite Hc. Qed.
Lemma whole_document k ks : print (Node (tx "Objs") objs_attrs [] (k :: ks)) =
  (tx "<Objs" ++ opening) ++ 62%N :: flat_map print (k :: ks) ++ tx "</Objs>".
Proof. reflexivity. Qed.
Lemma cut_document k ks : tx "<Objs" ++ cut_header (print (Node (tx "Objs") objs_attrs [] (k :: ks))) = print (objs (k :: ks)).
Proof.
  rewrite whole_document. unfold cut_header. rewrite from_gt_app; [reflexivity|]. apply Forall_forall. intros c Hc. apply negb_true_iff. revert c Hc.
  apply forallb_forall. vm_compute. reflexivity.
Qed.
Lemma not_marked x : strip (tx "#< CLIXML") (print x) = None.
Proof. destruct x. reflexivity. Qed.
Lemma strip_marked s : strip (tx "#< CLIXML") (tx "#< CLIXML" ++ s) = Some s.
Proof. reflexivity. Qed.
Lemma strip_lines nl x : Forall (fun c => c = 13%N \/ c = 10%N) nl -> strip_crlf (nl ++ print x) = print x.
Proof.
  intros H. unfold strip_crlf. rewrite span_app; [reflexivity| |].
  - eapply Forall_impl; [|exact H]. cbv beta. intros c [->| ->]; reflexivity.
  - intros c r E. rewrite print_body in E. injection E as <- _. reflexivity.
Qed.
Lemma not_marked_lines nl x : Forall (fun c => c = 13%N \/ c = 10%N) nl -> strip (tx "#< CLIXML") (nl ++ print x) = None.
Proof. intros [|c l [->| ->] _]; [apply not_marked|reflexivity|reflexivity]. Qed.
Lemma read_document reg p k ks : header p -> Forall printable (k :: ks) ->
  deserialize_clixml reg (p ++ print (Node (tx "Objs") objs_attrs [] (k :: ks))) = read_items_streams reg d_init (k :: ks).
Proof.
  intros (nl & Hn & Hp) Hk. unfold deserialize_clixml. destruct Hp as [->| ->].
  - rewrite not_marked_lines by exact Hn.
    assert (cut_header (nl ++ print (Node (tx "Objs") objs_attrs [] (k :: ks))) = cut_header (print (Node (tx "Objs") objs_attrs [] (k :: ks)))) as ->.
    { unfold cut_header. rewrite whole_document, app_assoc, !from_gt_app; [reflexivity| |].
      - apply Forall_forall. intros c Hc. apply negb_true_iff. revert c Hc. apply forallb_forall. vm_compute. reflexivity.
      - apply Forall_app. split; [eapply Forall_impl; [|exact Hn]; cbv beta; intros c [->| ->]; reflexivity|].
        apply Forall_forall. intros c Hc. apply negb_true_iff. revert c Hc. apply forallb_forall. vm_compute. reflexivity. }
    rewrite cut_document, print_parse by now apply objs_printable. reflexivity.
  - rewrite <- app_assoc, strip_marked, strip_lines, cut_document, print_parse by (exact Hn || now apply objs_printable). reflexivity.
Qed.

Lemma safe_init h : safe_graph h -> safe_state (s_init h). Proof. exact (fun H => H). Qed.
Lemma forall2_combine {A B C D} (P : A -> C -> Prop) (g : B -> D) (l : list (A * B)) (vs : list C) : Forall2 P (map fst l) vs ->
  Forall2 (fun i r => P (fst i) (fst r) /\ snd r = g (snd i)) l (combine vs (map g (map snd l))).
Proof.
  revert vs. induction l as [|[a b] l IH]; intros vs H; cbn [map] in H; inversion H; subst; cbn [map combine]; [constructor|]. constructor; [auto|]. now apply IH.
Qed.
(** The text of a list of safe values is a document, and reading it is reading the elements. *)
Theorem clixml_parses h items fuel s st : safe_graph h -> Forall (fun i => safe_value (fst i)) items ->
  serialize_clixml fuel h items = Ok (s, st) -> exists xs, ser_list (ser fuel) (s_init h) (map fst items) = Ok (xs, st)
    /\ length xs = length items /\ Forall clean xs /\ Forall unlabelled xs
    /\ s = print (Node (tx "Objs") objs_attrs [] (map raw (label xs (map snd items))))
    /\ Forall printable (map raw (label xs (map snd items))).
Proof.
  intros Hh Hi E. unfold serialize_clixml in E. apply bind_Ok in E. destruct E as ([xs st1] & E & E2). cbn [fst snd] in E2. apply Ok_pair in E2. destruct E2 as [<- <-].
  exists xs. destruct (list_unlabelled _ _ _ _ _ E) as [HL HU]. rewrite map_length in HL.
  destruct (clean_list fuel (cleans_all fuel) (map fst items) (s_init h) xs st1 (safe_init h Hh)) as [HC _]; [now apply Forall_map|exact E|].
  repeat (split; [assumption|]). split; [reflexivity|]. apply Forall_map. eapply Forall_impl; [|apply label_clean; exact HC]. apply clean_printable.
Qed.
Theorem clixml_roundtrip reg lx h items fuel s st p : good_graph reg lx h -> safe_graph h -> items <> [] -> header p ->
  Forall (fun i => good_value reg lx (fst i) /\ safe_value (fst i)) items -> serialize_clixml fuel h items = Ok (s, st) ->
  exists vs d R, deserialize_clixml reg (p ++ s) = Ok (vs, d)
    /\ Forall2 (fun i r => same_value R (fst i) (fst r) /\ snd r = stream_of (snd i)) items vs /\ same_graph reg h (d_heap d) R.
Proof.
  intros HG HS Hne Hp Hi E. destruct (clixml_parses h items fuel s st HS) as (xs & E1 & HL & HC & HU & -> & HP); [|exact E|].
  { eapply Forall_impl; [|exact Hi]. intros i H. apply H. }
  assert (Forall (good_value reg lx) (map fst items)) as Hg. { apply Forall_map. eapply Forall_impl; [|exact Hi]. intros i H. apply H. }
  destruct (document_roundtrip reg lx h HG fuel _ _ _ Hg E1) as (vs & d & R & A & B & C & _).
  destruct (read_labels reg xs (map snd items) d_init vs d) as [F G]; [now rewrite map_length|exact HC|exact HU|exact A|].
  exists (combine vs (map stream_of (map snd items))), d, R. split; [|split; [|exact C]].
  - destruct (map raw (label xs (map snd items))) as [|k ks] eqn:EK.
    + destruct xs, items as [|i items]; try discriminate; congruence.
    + rewrite read_document by assumption. exact F.
  - now apply forall2_combine.
Qed.
