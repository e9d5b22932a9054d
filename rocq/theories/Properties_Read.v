(** C63: reading documents of any writer. *)
From Coq Require Import String.
From Verif Require Import Base BaseFacts Model_Scalars Model_Strings Model_Text Model_Object Model_Clixml.
From Verif Require Import Spec_Strings Spec_Scalars Spec_Clixml Spec_Read.
From Verif Require Import Proofs_Clixml1 Proofs_Clixml2 Proofs_Clixml3 Proofs_Clixml4 Proofs_Clixml7 Proofs_Read Proofs_Read2 Proofs_Read3 Proofs_Read4.
From Verif Require Import Properties_Clixml.
Local Open Scope list_scope.
Local Open Scope nat_scope.

(** Reading comes to an end on every document, with values or with one of the exceptions listed. *)
Theorem C63_total reg d xs : raises ordinary (read_values reg d xs).
Proof. apply reading_calm. Qed.
Print Assumptions C63_total.
(** What is read has no dangling reference. *)
Theorem C63_closed reg xs vs d : read_values reg d_init xs = Ok (vs, d) ->
  closed (d_heap d) /\ Forall (fun v => forall a, v = VRef a -> exists o, aget a (d_heap d) = Some o) vs.
Proof.
  intros H. destruct (reading_closed reg xs _ _ sound_init H) as [[[H1 H2 H3] _] H4]. cbn [fst snd] in *. split.
  - intros a o b Ha Hb. apply H1. exact (H2 a o Ha b Hb).
  - eapply Forall_impl; [|exact H4]. intros v Hv a ->. apply H1. exact Hv.
Qed.
Print Assumptions C63_closed.
(** A reference stands for the object that carried its number, whatever was read in between, unless that object was
    null or the number was given again. *)
Theorem C63_reference reg d k attrs text kids v d1 xs vs d2 attrs' text' kids' :
  deserialize reg d (Elem TgObj attrs text kids) = Ok (v, d1) -> v <> VNull ->
  attr_get AtRefId attrs = Some k -> ~ In (MObj k) (flat_map marks kids) ->
  read_values reg d1 xs = Ok (vs, d2) -> ~ In (MObj k) (flat_map marks xs) -> attr_get AtRefId attrs' = Some k ->
  deserialize reg d2 (Elem TgRef attrs' text' kids') = Ok (v, d2).
Proof.
  intros H Hv Hk Hn Hr Hx Hk'. destruct (deser_recorded _ _ _ _ _ _ _ _ H Hk Hn) as [?|E]; [contradiction|].
  assert (forall xs d1 vs, read_values reg d1 xs = Ok (vs, d2) -> ~ In (MObj k) (flat_map marks xs) -> sget k (d_refs d2) = sget k (d_refs d1)) as F.
  { clear. induction xs as [|x xs IH]; intros d1 vs H Hn; cbn [read_values] in H; [injection H as _ <-; reflexivity|].
    binds H. injection H as _ <-. cbn [flat_map] in Hn. rewrite in_app_iff in Hn. apply Decidable.not_or in Hn. destruct Hn as [N1 N2].
    destruct r0 as [vs0 d0]. cbn [snd] in *. rewrite (IH _ _ E0 N2). apply (deser_frames _ _ _ _ _ E). exact N1. }
  unfold deserialize. cbn [height deser]. rewrite Hk', (F _ _ _ Hr Hx), E. reflexivity.
Qed.
Print Assumptions C63_reference.
(** A type name reference stands for the names that carried its number: the document might as well repeat them. *)
Theorem C63_type_reference reg d r a s ns kids v d1 xs vs d2 a2 s2 kids2 :
  deserialize reg d (Elem TgObj a s (tn_of r ns :: kids)) = Ok (v, d1) -> ns <> [] ->
  no_tn kids -> ~ In (MTN r) (flat_map marks kids) ->
  read_values reg d1 xs = Ok (vs, d2) -> ~ In (MTN r) (flat_map marks xs) -> no_tn kids2 ->
  deserialize reg d2 (Elem TgObj a2 s2 (tnref_of r :: kids2)) = deserialize reg d2 (Elem TgObj a2 s2 (tn_of r ns :: kids2)).
Proof.
  intros H Hns Hk Hn Hr Hx Hk2.
  assert (forall xs d1 vs, read_values reg d1 xs = Ok (vs, d2) -> ~ In (MTN r) (flat_map marks xs) -> sget r (d_tns d2) = sget r (d_tns d1)) as F.
  { clear. induction xs as [|x xs IH]; intros d1 vs H Hn; cbn [read_values] in H; [injection H as _ <-; reflexivity|].
    binds H. injection H as _ <-. cbn [flat_map] in Hn. rewrite in_app_iff in Hn. apply Decidable.not_or in Hn. destruct Hn as [N1 N2].
    destruct r1 as [vs0 d0]. cbn [snd] in *. rewrite (IH _ _ E0 N2). apply (deser_frames _ _ _ _ _ E). exact N1. }
  assert (sget r (d_tns d2) = Some ns) as E2.
  { rewrite (F _ _ _ Hr Hx). eapply names_recorded; eassumption. }
  rewrite tn_is_tnref by assumption. unfold known. rewrite (sset_same _ _ _ E2). destruct d2. reflexivity.
Qed.
Print Assumptions C63_type_reference.
(** Containers without type names, and with items that are not objects: the items in document order; the .NET type
    names; of equal keys the first is kept, with the last value. *)
Theorem C63_list reg d a s k b u l v d' : deserialize reg d (Elem TgObj a s [Elem (TgList k) b u l]) = Ok (v, d') -> Forall flat l ->
  exists vs, gets d' v (mkG (BList k vs) (list_names k) None [] []) /\ Forall2 (reads reg d') l vs.
Proof. apply list_read. Qed.
Print Assumptions C63_list.
Theorem C63_queue reg d a s b u l v d' : deserialize reg d (Elem TgObj a s [Elem TgQUE b u l]) = Ok (v, d') -> Forall flat l ->
  exists vs, gets d' v (mkG (BQueue vs) queue_names None [] []) /\ Forall2 (reads reg d') l vs.
Proof. apply queue_read. Qed.
Print Assumptions C63_queue.
Theorem C63_table reg d a s b u l v d' : deserialize reg d (Elem TgObj a s [Elem TgDCT b u l]) = Ok (v, d') -> Forall plain_key l ->
  exists e, gets d' v (mkG (BDict e) table_names None [] []) /\ entries (reads reg d') [] l e.
Proof. apply table_read. Qed.
Print Assumptions C63_table.
(** Objects of an unregistered type: the prefixed type names, the text, the properties in document order; of equal
    names the first place is kept, with the last value. *)
Theorem C63_object reg d a s r u0 ts ns b1 u1 ps b2 u2 ms b3 str text kids3 v d' :
  deserialize reg d (Elem TgObj a s [Elem TgTN [(AtRefId, r)] u0 ts; Elem TgToString b3 str kids3; Elem TgProps b1 u1 ps; Elem TgMS b2 u2 ms]) = Ok (v, d') -> type_texts ts ns ->
  deserialize_string str = Ok text -> ns <> [] -> registered reg ns = None -> Forall flat ps -> Forall flat ms ->
  exists ad ex, gets d' v (mkG BPlain (map (fun n => tx "Deserialized." ++ n) ns) (Some text) ad ex)
    /\ props names_prop (reads reg d') [] ps ad /\ props names_prop (reads reg d') [] ms ex.
Proof. apply plain_read. Qed.
Print Assumptions C63_object.
(** A primitive inside an object: the .NET type names of its type. *)
Theorem C63_primitive reg d a s t b u l p : prim_elem_tag t -> reads reg d (Elem t b u l) (VPrim p) ->
  exists v d', deserialize reg d (Elem TgObj a s [Elem t b u l]) = Ok (v, d') /\ gets d' v (mkG (BPrim p) (net_names p) None [] []).
Proof. apply prim_read. Qed.
Print Assumptions C63_primitive.
(** An enumeration accepts the numbers of its members only, a flags enumeration any number, and nothing else. *)
Theorem C63_member reg d a s r ns t b u l v c ty flag vals : plain_tag t ->
  ns <> [] -> registered reg ns = Some c -> c_kind c = CEnum ty flag vals -> reads reg d (Elem t b u l) v ->
  match number v with
  | Some z => (flag = true \/ In z vals -> exists d', deserialize reg d (Elem TgObj a s [tn_of r ns; Elem t b u l]) = Ok (VEnum (mkE (c_names c) ty z []), d'))
              /\ (flag = false -> ~ In z vals -> deserialize reg d (Elem TgObj a s [tn_of r ns; Elem t b u l]) = Err ValueError)
  | None => deserialize reg d (Elem TgObj a s [tn_of r ns; Elem t b u l]) = Err ValueError
  end.
Proof. apply member_read. Qed.
Print Assumptions C63_member.
(** What is refused, and how. *)
Theorem C63_refuses reg d :
  (forall t a s l, no_value t -> deserialize reg d (Elem t a s l) = Err ValueError)
  /\ (forall a s l, attr_get AtRefId a = None -> deserialize reg d (Elem TgRef a s l) = Err KeyError)
  /\ (forall a k s l, attr_get AtRefId a = Some k -> ~ In k (map fst (d_refs d)) -> deserialize reg d (Elem TgRef a s l) = Err KeyError)
  /\ (forall a k s b u l, ~ In k (map fst (d_tns d)) -> no_tn l -> deserialize reg d (Elem TgObj a s (Elem TgTNRef [(AtRefId, k)] b u :: l)) = Err KeyError)
  /\ (forall a s b u n l, n <> [] -> attr_get AtRefId b = None -> deserialize reg d (Elem TgObj a s (Elem TgTN b u (map t_of n) :: l)) = Err KeyError)
  /\ (forall a s t b u x l, t = TgProps \/ t = TgMS -> attr_get AtN (x_attrs x) = None -> deserialize reg d (Elem TgObj a s [Elem t b u (x :: l)]) = Err KeyError)
  /\ (forall a s b u e l, Forall (fun y => ~ named (tx "Key") y) (x_kids e) \/ Forall (fun y => ~ named (tx "Value") y) (x_kids e) ->
        deserialize reg d (Elem TgObj a s [Elem TgDCT b u (e :: l)]) = Err ValueError)
  /\ (forall a s b u t0 b0 u0 t txt k l, t = TgTS \/ t = TgVersion -> reads reg d (Elem t [(AtN, tx "Key")] txt []) k ->
        deserialize reg d (Elem TgObj a s [Elem TgDCT b u (Elem t0 b0 u0 [Elem t [(AtN, tx "Key")] txt []; Elem TgNil [(AtN, tx "Value")] [] []] :: l)]) = Err TypeError)
  /\ (forall a l, deserialize reg d (Elem TgG a [] l) = Err TypeError)
  /\ (forall k a l, deserialize reg d (Elem (TgFloat k) a [] l) = Err TypeError)
  /\ (forall a l, deserialize reg d (Elem TgVersion a [] l) = Err ValueError)
  /\ (forall a s b u l t txt, t = TgNil \/ t = TgB -> (exists w, deserialize_string txt = Ok w) ->
        deserialize reg d (Elem TgObj a s [Elem t b u l; Elem TgToString [] txt []]) = Err AttributeError).
Proof. apply refusals. Qed.
Print Assumptions C63_refuses.
(** An integer element without text is zero. *)
Theorem C63_empty_number reg d t a l : deserialize reg d (Elem (TgInt t) a [] l) = Ok (VPrim (PInt t 0), d).
Proof. destruct t; reflexivity. Qed.
Print Assumptions C63_empty_number.

(** *** False of the code *)
(** An object that is null leaves a blank object under its number. *)
Theorem C63_null_refuted : exists v d, deserialize ex_reg d_init (Elem TgObj [(AtRefId, tx "0")] [] [Elem TgNil [] [] []]) = Ok (VNull, d)
  /\ deserialize ex_reg d (Elem TgRef [(AtRefId, tx "0")] [] []) = Ok (v, d) /\ v <> VNull.
Proof. do 2 eexists. split; [vm_compute; reflexivity|]. split; [vm_compute; reflexivity|]. discriminate. Qed.
Print Assumptions C63_null_refuted.
(** An object around a reference changes the type names of the object referred to. *)
Theorem C63_renamed_refuted : exists a d d' o o',
  deserialize ex_reg d_init (Elem TgObj [(AtRefId, tx "0")] [] [tn_of (tx "0") [tx "One"]]) = Ok (VRef a, d) /\ aget a (d_heap d) = Some o
  /\ deserialize ex_reg d (Elem TgObj [(AtRefId, tx "1")] [] [tn_of (tx "1") [tx "Two"]; Elem TgRef [(AtRefId, tx "0")] [] []]) = Ok (VRef a, d')
  /\ aget a (d_heap d') = Some o' /\ g_names o = [tx "Deserialized.One"] /\ g_names o' = [tx "Deserialized.Two"].
Proof.
  do 5 eexists. split; [vm_compute; reflexivity|]. split; [vm_compute; reflexivity|]. split; [vm_compute; reflexivity|].
  split; [vm_compute; reflexivity|]. split; vm_compute; reflexivity.
Qed.
Print Assumptions C63_renamed_refuted.

(** *** Examples *)
Definition named_elem (t : tag) (n s : string) : xml := Elem t [(AtN, tx n)] (tx s) [].
Definition entry (k v : xml) : xml := Elem TgEn [] [] [k; v].
Definition key (t : tag) (s : string) : xml := named_elem t "Key" s.
Definition val (t : tag) (s : string) : xml := named_elem t "Value" s.
(** Equal keys of different types; a value that refers to the table itself. *)
Definition doc_table : xml :=
  Elem TgObj [(AtRefId, tx "7")] [] [Elem TgDCT [] []
    [entry (key (TgInt TInt32) "1") (val (TgStr KString) "a"); entry (key (TgStr KString) "1") (val TgNil "");
     entry (val (TgStr KString) "b") (key (TgInt TInt64) "1");
     entry (Elem TgRef [(AtN, tx "Value"); (AtRefId, tx "7")] [] []) (key TgB "false")]].
Example C63_ex_table : exists d,
  deserialize ex_reg d_init doc_table = Ok (VRef 1, d)
  /\ aget 1 (d_heap d) = Some (mkG (BDict [(VPrim (PInt TInt32 1), str "b"); (str "1", VNull); (VBool false, VRef 1)]) table_names None [] [])
  /\ Forall plain_key [entry (key (TgInt TInt32) "1") (val (TgStr KString) "a"); entry (Elem TgRef [(AtN, tx "Value"); (AtRefId, tx "7")] [] []) (key TgB "false")].
Proof.
  eexists. split; [vm_compute; reflexivity|]. split; [vm_compute; reflexivity|].
  repeat constructor; try discriminate.
  - intros k (pre & post & E & Hn & _). cbn in E. destruct pre as [|p [|q pre]]; injection E as <-; try discriminate.
    + subst. discriminate.
    + destruct pre; discriminate.
  - intros k (pre & post & E & Hn & _). cbn in E. destruct pre as [|p [|q pre]]; cbn in E.
    + injection E as <- _. vm_compute in Hn. discriminate.
    + injection E as _ <- _. discriminate.
    + injection E as _ _ E. destruct pre; discriminate.
Qed.
Definition doc_list : xml := Elem TgObj [] [] [Elem (TgList LStack) [] [] [Elem TgNil [] [] []; Elem TgB [] (tx "true") []; Elem (TgInt TByte) [] (tx "9") []]].
Example C63_ex_list : exists d, deserialize ex_reg d_init doc_list = Ok (VRef 1, d)
  /\ aget 1 (d_heap d) = Some (mkG (BList LStack [VNull; VBool true; VPrim (PInt TByte 9)]) (list_names LStack) None [] []).
Proof. eexists. split; vm_compute; reflexivity. Qed.
Example C63_ex_queue : exists d, deserialize ex_reg d_init (Elem TgObj [] [] [Elem TgQUE [] [] [Elem TgNil [] [] []; Elem TgC [] (tx "65") []]]) = Ok (VRef 1, d)
  /\ aget 1 (d_heap d) = Some (mkG (BQueue [VNull; VPrim (PChar 65)]) queue_names None [] []).
Proof. eexists. split; vm_compute; reflexivity. Qed.
Definition doc_object : xml :=
  Elem TgObj [(AtRefId, tx "0")] [] [tn_of (tx "0") [tx "My.Thing"; tx "System.Object"]; Elem TgToString [] (tx "thing") [];
    Elem TgProps [] [] [named_elem (TgInt TInt32) "a" "1"; named_elem TgNil "b" ""; named_elem (TgInt TInt32) "a" "2"];
    Elem TgMS [] [] [Elem TgRef [(AtN, tx "me"); (AtRefId, tx "0")] [] []]].
Example C63_ex_object : exists d, deserialize ex_reg d_init doc_object = Ok (VRef 0, d)
  /\ aget 0 (d_heap d) = Some (mkG BPlain [tx "Deserialized.My.Thing"; tx "Deserialized.System.Object"] (Some (tx "thing"))
       [(tx "a", VPrim (PInt TInt32 2)); (tx "b", VNull)] [(tx "me", VRef 0)])
  /\ registered ex_reg [tx "My.Thing"; tx "System.Object"] = None.
Proof. eexists. split; [vm_compute; reflexivity|]. split; vm_compute; reflexivity. Qed.
Example C63_ex_names : exists d, deserialize ex_reg d_init (Elem TgObj [] [] [Elem TgTN [(AtRefId, tx "0")] [] [t_of (tx "My.Thing"); Elem TgNil [] (tx "no name") [];
    t_of (tx "System.Object")]; Elem TgToString [] (tx "thing") []; Elem TgProps [] [] []; Elem TgMS [] [] []]) = Ok (VRef 0, d)
  /\ aget 0 (d_heap d) = Some (mkG BPlain [tx "Deserialized.My.Thing"; tx "Deserialized.System.Object"] (Some (tx "thing")) [] [])
  /\ type_texts [t_of (tx "My.Thing"); Elem TgNil [] (tx "no name") []; t_of (tx "System.Object")] [tx "My.Thing"; tx "System.Object"].
Proof.
  eexists. split; [vm_compute; reflexivity|]. split; [vm_compute; reflexivity|].
  apply TtName, TtOther; [discriminate|]. apply TtName, TtNil.
Qed.
(** Between an object and the reference to it: another object, with a number and type names of its own. *)
Example C63_ex_reference : exists v d1 vs d2,
  deserialize ex_reg d_init doc_object = Ok (v, d1) /\ v <> VNull
  /\ ~ In (MObj (tx "0")) (flat_map marks (x_kids doc_object)) /\ ~ In (MTN (tx "0")) (flat_map marks (tl (x_kids doc_object))) /\ no_tn (tl (x_kids doc_object))
  /\ read_values ex_reg d1 [doc_table] = Ok (vs, d2) /\ ~ In (MObj (tx "0")) (flat_map marks [doc_table]) /\ ~ In (MTN (tx "0")) (flat_map marks [doc_table])
  /\ deserialize ex_reg d2 (Elem TgRef [(AtRefId, tx "0")] [] []) = Ok (v, d2)
  /\ exists w d3, deserialize ex_reg d2 (Elem TgObj [] [] [tnref_of (tx "0")]) = Ok (w, d3) /\ gets d3 w (mkG BPlain [tx "Deserialized.My.Thing"; tx "Deserialized.System.Object"] None [] []).
Proof.
  do 4 eexists. split; [vm_compute; reflexivity|]. split; [discriminate|]. split; [vm_compute; intuition discriminate|]. split; [vm_compute; intuition discriminate|].
  split; [repeat (constructor; [discriminate|]); constructor|]. split; [vm_compute; reflexivity|]. split; [vm_compute; intuition discriminate|].
  split; [vm_compute; intuition discriminate|]. split; [vm_compute; reflexivity|]. do 2 eexists. split; [vm_compute; reflexivity|].
  eexists. split; vm_compute; reflexivity.
Qed.
Example C63_ex_member : exists d, deserialize ex_reg d_init (Elem TgObj [] [] [tn_of (tx "0") [tx "My.Colour"]; Elem TgB [] (tx "true") []]) = Ok (VEnum (mkE colour_names TInt32 1 []), d)
  /\ deserialize ex_reg d_init (Elem TgObj [] [] [tn_of (tx "0") [tx "My.Colour"]; Elem (TgInt TInt32) [] (tx "3") []]) = Err ValueError
  /\ deserialize ex_reg d_init (Elem TgObj [] [] [tn_of (tx "0") [tx "My.Colour"]; Elem (TgStr KString) [] (tx "1") []]) = Err ValueError.
Proof. eexists. split; [vm_compute; reflexivity|]. split; vm_compute; reflexivity. Qed.
Example C63_ex_primitive : exists d, deserialize ex_reg d_init (Elem TgObj [] [] [Elem TgVersion [] (tx "1.2") []]) = Ok (VRef 1, d)
  /\ exists o, aget 1 (d_heap d) = Some o /\ g_names o = [tx "System.Version"; tx "System.Object"].
Proof. eexists. split; [vm_compute; reflexivity|]. eexists. split; vm_compute; reflexivity. Qed.
(** Exceptions of each kind. *)
Example C63_ex_raises :
  deserialize ex_reg d_init (Elem TgObj [] [] [tn_of (tx "0") [tx "My.Colour"]]) = Err RuntimeError
  /\ deserialize ex_reg d_init (Elem TgTS [] (tx "P9999999999999D") []) = Err OverflowError
  /\ deserialize ex_reg d_init (Elem (TgStr KString) [] [0xD800%N] []) = Err UnicodeError
  /\ deserialize ex_reg d_init (Elem TgObj [] [] [Elem TgB [] (tx "true") []; Elem TgToString [] [] []]) = Err AttributeError.
Proof. split; [vm_compute; reflexivity|]. split; [vm_compute; reflexivity|]. split; vm_compute; reflexivity. Qed.
