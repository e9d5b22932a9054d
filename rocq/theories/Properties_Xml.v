(** C44: lists of values with stream labels survive CLIXML text. *)
From Coq Require Import String.
From Verif Require Import Base BaseFacts Model_Scalars Model_Strings Model_Text Model_Object Model_Clixml Model_Xml.
From Verif Require Import Spec_Strings Spec_Scalars Spec_Clixml Spec_Xml Proofs_Clixml7 Proofs_Xml1 Proofs_Xml2 Proofs_Xml3 Properties_Clixml.
Local Open Scope list_scope.

(** Every nonempty list: the values come back as in C21, the labels as they were, output where there was none; with or
    without the marker line in front.  Missing: the empty list, which is refuted below, and graphs that are not
    [good_graph] (C21) or not [safe_graph]. *)
Theorem C44_roundtrip_partial : forall reg lx h items fuel s st p,
  good_graph reg lx h -> safe_graph h -> items <> [] -> header p ->
  Forall (fun i => good_value reg lx (fst i) /\ safe_value (fst i)) items -> serialize_clixml fuel h items = Ok (s, st) ->
  exists vs d R, deserialize_clixml reg (p ++ s) = Ok (vs, d)
    /\ Forall2 (fun i r => same_value R (fst i) (fst r) /\ snd r = stream_of (snd i)) items vs /\ same_graph reg h (d_heap d) R.
Proof. exact clixml_roundtrip. Qed.
Print Assumptions C44_roundtrip_partial.
(** The document is well-formed XML for every safe graph, whatever its shape: one element for each value. *)
Theorem C44_wellformed : forall h items fuel s st, safe_graph h -> Forall (fun i => safe_value (fst i)) items -> items <> [] ->
  serialize_clixml fuel h items = Ok (s, st) ->
  exists kids, parse (tx "<Objs" ++ cut_header s) = Ok (Node (tx "Objs") [] [] kids) /\ length kids = length items.
Proof.
  intros h items fuel s st HS Hi Hne E. destruct (clixml_parses h items fuel s st HS Hi E) as (xs & _ & HL & _ & _ & -> & HP).
  exists (map raw (label xs (map snd items))). split.
  - destruct (map raw (label xs (map snd items))) as [|k ks] eqn:EK.
    + destruct xs, items; discriminate || congruence.
    + rewrite cut_document, print_parse; [reflexivity|]. now apply objs_printable.
  - rewrite map_length. clear - HL. revert items HL. induction xs as [|x xs IH]; intros [|i items] HL; try discriminate; [reflexivity|].
    cbn [map label length] in *. f_equal. apply IH. congruence.
Qed.
Print Assumptions C44_wellformed.
(** The text of any element that XML can hold is read as that element. *)
Theorem C44_text : forall x, printable x -> parse (print x) = Ok x.
Proof. exact print_parse. Qed.
Print Assumptions C44_text.

(** ** Refutations *)
(** The empty list is written as an element without an end tag, whose "/>" is cut off: no reader accepts the rest. *)
Theorem C44_empty_refuted : forall fuel h reg, exists s st,
  serialize_clixml fuel h [] = Ok (s, st) /\ deserialize_clixml reg s = Err ParseError.
Proof. intros fuel h reg. eexists _, _. split; [reflexivity|]. vm_compute. reflexivity. Qed.
Print Assumptions C44_empty_refuted.
(** U+FFFE and U+FFFF are written as they are; no XML reader accepts them. *)
Theorem C44_noncharacter_refuted : exists s t st,
  serialize_clixml 1 [] [(VPrim (PStr KString s), None)] = Ok (t, st) /\ good_str s /\ deserialize_clixml ex_reg t = Err ParseError.
Proof.
  exists [65; 0xFFFE]%N. eexists _, _. split; [vm_compute; reflexivity|]. split; [|vm_compute; reflexivity].
  split; [repeat (constructor; [lia|]); constructor|]. split; [repeat (constructor; [lia|]); constructor|].
  intros (pre & c0 & a & b & c & d & c7 & post & E & _). apply (f_equal (@length N)) in E. rewrite !app_length in E. cbn in E. lia.
Qed.
Print Assumptions C44_noncharacter_refuted.
(** ToString is written without escapes: control characters make an unreadable document, a carriage return comes back
    as a line feed.  The same holds of type names. *)
Definition spoken (s : list N) : heap := [(1%N, mkG BPlain [tx "T"] (Some s) [] [])].
Theorem C44_control_refuted : exists t st,
  serialize_clixml 2 (spoken [27; 91; 109]%N) [(VRef 1, None)] = Ok (t, st) /\ deserialize_clixml ex_reg t = Err ParseError.
Proof. eexists _, _. split; [vm_compute; reflexivity|]. vm_compute. reflexivity. Qed.
Print Assumptions C44_control_refuted.
Theorem C44_carriage_return_refuted : exists t st d o,
  serialize_clixml 2 (spoken [65; 13; 10; 66]%N) [(VRef 1, None)] = Ok (t, st)
  /\ deserialize_clixml ex_reg t = Ok ([(VRef 0, SOutput)], d) /\ aget 0%N (d_heap d) = Some o /\ g_string o = Some [65; 10; 66]%N.
Proof. eexists _, _, _, _. split; [vm_compute; reflexivity|]. split; [vm_compute; reflexivity|]. split; vm_compute; reflexivity. Qed.
Print Assumptions C44_carriage_return_refuted.

(** ** Examples *)
Definition mentioned (o : gobj) : list value :=
  map snd (g_adapted o) ++ map snd (g_extended o)
  ++ match g_body o with BList _ l | BQueue l => l | BDict l => map fst l ++ map snd l | BPy _ l => map snd l | _ => [] end.
Lemma mentioned_all o v : mentions o v -> In v (mentioned o).
Proof.
  intros Hm. unfold mentioned. rewrite !in_app_iff.
  destruct Hm as [n v Hi|n v Hi|k l v Hb Hi|l v Hb Hi|l k v Hb Hi|l k v Hb Hi|c l n b v Hb Hi];
    try (rewrite Hb); rewrite ?in_app_iff; [left|right; left|right; right|right; right|right; right; left|right; right; right|right; right];
    try exact Hi; exact (in_map snd _ _ Hi) || exact (in_map fst _ _ Hi).
Qed.
Lemma tame_safe s : tame s = true -> safe_str s.
Proof.
  intros H. unfold tame in H. rewrite forallb_forall in H. apply Forall_forall. intros c Hc. apply H, andb_true_iff in Hc. destruct Hc as [Hc _].
  apply N.ltb_lt in Hc. lia.
Qed.
Definition printing (s : list N) : bool := forallb (fun c => (32 <=? c)%N && (c <? 127)%N) s.
Lemma printing_text s : printing s = true -> text_ok s.
Proof.
  intros H. unfold printing in H. rewrite forallb_forall in H. apply Forall_forall. intros c Hc. apply H, andb_true_iff in Hc. destruct Hc as [Hc Hd].
  apply N.leb_le in Hc. apply N.ltb_lt in Hd. unfold valid_char. lia.
Qed.
Ltac safe := repeat match goal with
  | |- Forall _ [] => constructor
  | |- Forall _ (_ :: _) => constructor
  | |- text_ok _ => apply printing_text; reflexivity
  | |- safe_str _ => apply tame_safe; reflexivity
  | |- safe_value _ => cbn [safe_value green str e_names e_text colour_names]; unfold colour_names
  | |- _ /\ _ => split
  | |- True => exact I
  end.
Lemma ex_safe : safe_graph ex_heap.
Proof.
  assert (Forall (fun p => safe_object (snd p)) ex_heap) as H.
  { apply Forall_cons; [|apply Forall_cons; [|apply Forall_cons; [|apply Forall_cons; [|apply Forall_cons; [|apply Forall_cons; [|apply Forall_nil]]]]]]; cbn [snd];
      (split; [cbn [g_names]; safe|split; [cbn [g_string]; safe|split; [cbn [g_adapted g_extended app]; safe; cbn [fst]; safe|split; [|split]]]]).
    all: try (intros p Hp; discriminate Hp).
    all: try (intros c l n b v Hp; discriminate Hp).
    all: try (intros v Hv; apply mentioned_all in Hv; revert v Hv; apply Forall_forall; cbn [mentioned map fst snd g_adapted g_extended g_body app]; safe).
    - intros p Hp. injection Hp as <-. safe.
    - intros c l n b v Hp Hi. injection Hp as <- <-.
      assert (Forall (fun x : name * bool * value => safe_str (fst (fst x))) [(tx "name", false, str "Ann"); (tx "greet", true, VNull); (tx "boss", false, VRef 6); (tx "__doc", false, VNull)]) as Hs.
      { clear. repeat (constructor; [apply Forall_forall; intros c Hc; cbn in Hc; repeat (destruct Hc as [<-|Hc]; [vm_compute; intuition discriminate|]); destruct Hc|]). constructor. }
      rewrite Forall_forall in Hs. exact (Hs _ Hi). }
  intros a o Ho. rewrite Forall_forall in H. destruct (in_dec N.eq_dec a (map fst ex_heap)) as [Hin|Hn]; [|apply aget_None in Hn; congruence].
  destruct Hin as [<-|[<-|[<-|[<-|[<-|[<-|[]]]]]]]; injection Ho as <-; refine (H (_, _) _); cbn [ex_heap In]; tauto.
Qed.
Definition ex_items : list (value * option stream) :=
  [(VRef 1, Some SWarning); (str "a<b & ""c"">]]", None); (VRef 4, Some SError); (VRef 6, Some SOutput)].
Example C44_example : good_graph ex_reg ex_lex ex_heap /\ safe_graph ex_heap
  /\ Forall (fun i => good_value ex_reg ex_lex (fst i) /\ safe_value (fst i)) ex_items
  /\ exists s st vs d, serialize_clixml 20 ex_heap ex_items = Ok (s, st)
     /\ deserialize_clixml ex_reg (tx "#< CLIXML" ++ [13; 10]%N ++ s) = Ok (vs, d)
     /\ map snd vs = [SWarning; SOutput; SError; SOutput] /\ nth_error (map fst vs) 1 = Some (str "a<b & ""c"">]]").
Proof.
  split; [exact ex_good|]. split; [exact ex_safe|]. split.
  { unfold ex_items. repeat (constructor; [cbn [fst]; split; [try exact I; apply tame_good; reflexivity|cbn [safe_value str]; safe]|]). constructor. }
  eexists _, _, _, _. split; [vm_compute; reflexivity|]. split; [vm_compute; reflexivity|]. split; vm_compute; reflexivity.
Qed.
