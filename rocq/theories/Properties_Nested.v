(** C82: documents of any depth. *)
From Coq Require Import String.
From Verif Require Import Base BaseFacts Model_Scalars Model_Strings Model_Text Model_Object Model_Clixml Model_FromHook.
From Verif Require Import Spec_Strings Spec_Scalars Spec_Clixml Spec_Read Spec_FromHook Spec_Nested.
From Verif Require Import Proofs_Clixml1 Proofs_Clixml2 Proofs_Clixml3 Proofs_Clixml4 Proofs_Clixml7 Proofs_Read Proofs_Read2 Proofs_Read3 Proofs_Read4 Proofs_FromHook Proofs_Nested2 Proofs_Nested.
From Verif Require Import Properties_Clixml Properties_Read Properties_FromHook.
Local Open Scope list_scope.
Local Open Scope nat_scope.

(** What has been read stays as it is while more is read. *)
Theorem C82_kept hooks reg xs d vs d' a o : (forall c f, hooks c = Some f -> sparing f) -> Forall straight xs -> hread_values hooks reg d xs = Ok (vs, d') ->
  (a < d_next d)%N -> aget a (d_heap d) = Some o -> aget a (d_heap d') = Some o.
Proof. intros HS HF H La Ho. destruct (hreading_spares hooks reg HS xs HF _ _ _ H) as [_ K]. now rewrite K. Qed.
Print Assumptions C82_kept.
(** So every part read in turn keeps its content to the end of the element. *)
Theorem C82_parts hooks reg a l1 x l2 : (forall c f, hooks c = Some f -> sparing f) -> Forall straight l2 -> forall d vs d',
  one_by_one (hdeserialize hooks reg) a d (l1 ++ x :: l2) vs d' ->
  exists vs1 v vs2 d1 d2, vs = vs1 ++ v :: vs2 /\ length vs1 = length l1 /\ hdeserialize hooks reg d1 x = Ok (v, d2)
    /\ forall b o, b <> a -> (b < d_next d2)%N -> aget b (d_heap d2) = Some o -> aget b (d_heap d') = Some o.
Proof.
  intros HS HF. induction l1 as [|y l1 IH]; cbn [app]; intros d vs d' H; inversion H as [|? ? v d1 d2 ? vs0 ? E F R]; subst.
  - exists [], v, vs0, d, d1. split; [reflexivity|]. split; [reflexivity|]. split; [exact E|]. intros b o Hb Lb Ho.
    destruct F as (_ & _ & Fn & Fh). rewrite <- (Fh b Hb) in Ho. rewrite <- Fn in Lb. clear - HS HF R Hb Lb Ho.
    induction R as [d|d x v d1 d2 l vs d' E F R IH]; [exact Ho|]. inversion HF as [|? ? Hx HF']; subst. destruct F as (_ & _ & Fn & Fh).
    destruct (hdeser_spares hooks reg HS _ _ _ _ Hx E) as [L K]. cbn [snd] in *. apply IH; [exact HF'|rewrite Fn; lia|]. rewrite (Fh b Hb), (K b Lb). exact Ho.
  - destruct (IH _ _ _ R) as (vs1 & w & vs2 & e1 & e2 & -> & G2 & G3 & G4). exists (v :: vs1), w, vs2, e1, e2.
    split; [reflexivity|]. split; [cbn [length]; now rewrite G2|]. split; assumption.
Qed.
Print Assumptions C82_parts.
(** Containers without type names: the items in document order, whatever they are. *)
Theorem C82_list hooks reg d a s k b u l v d' : (forall c f, hooks c = Some f -> sparing f) -> plain_collections hooks ->
  hdeserialize hooks reg d (Elem TgObj a s [Elem (TgList k) b u l]) = Ok (v, d') -> Forall straight l ->
  exists ad d0 vs, v = VRef ad /\ begun (attr_get AtRefId a) None ad d d0 /\ one_by_one (hdeserialize hooks reg) ad d0 l vs d'
    /\ aget ad (d_heap d') = Some (mkG (BList k vs) (list_names k) None [] []).
Proof. intros HS. now apply list_nested. Qed.
Print Assumptions C82_list.
Theorem C82_queue hooks reg d a s b u l v d' : (forall c f, hooks c = Some f -> sparing f) -> plain_collections hooks ->
  hdeserialize hooks reg d (Elem TgObj a s [Elem TgQUE b u l]) = Ok (v, d') -> Forall straight l ->
  exists ad d0 vs, v = VRef ad /\ begun (attr_get AtRefId a) None ad d d0 /\ one_by_one (hdeserialize hooks reg) ad d0 l vs d'
    /\ aget ad (d_heap d') = Some (mkG (BQueue vs) queue_names None [] []).
Proof. intros HS. now apply queue_nested. Qed.
Print Assumptions C82_queue.
(** Tables whose keys are no objects. *)
Theorem C82_table hooks reg d a s b u l v d' : (forall c f, hooks c = Some f -> sparing f) -> plain_collections hooks ->
  hdeserialize hooks reg d (Elem TgObj a s [Elem TgDCT b u l]) = Ok (v, d') -> Forall (fun x => straight x /\ loose_key x) l ->
  exists ad d0 xk xv ks vs e, v = VRef ad /\ begun (attr_get AtRefId a) None ad d d0 /\ Forall2 its_key l xk /\ Forall2 its_value l xv
    /\ Forall2 (fun x k => forall d, hdeserialize hooks reg d x = Ok (k, d)) xk ks /\ one_by_one (hdeserialize hooks reg) ad d0 xv vs d' /\ all_entered [] (combine ks vs) e
    /\ aget ad (d_heap d') = Some (mkG (BDict e) table_names None [] []).
Proof. intros HS. now apply table_nested. Qed.
Print Assumptions C82_table.
(** Objects with properties: the type names and declared properties of the class or the prefixed names, the text, both
    groups of properties in document order; then the method of the class, if it has one. *)
Theorem C82_object hooks reg d a s r u0 ts ns kids3 text b1 u1 ps b2 u2 ms v d' : (forall c f, hooks c = Some f -> sparing f) ->
  hdeserialize hooks reg d (Elem TgObj a s (Elem TgTN [(AtRefId, r)] u0 ts :: kids3 ++ [Elem TgProps b1 u1 ps; Elem TgMS b2 u2 ms])) = Ok (v, d') ->
  type_texts ts ns -> ns <> [] -> says names_prop kids3 text ->
  (forall c, registered reg ns = Some c -> c_kind c = CPlain /\ c_names c <> [] /\ NoDup (c_adapted c) /\ NoDup (c_extended c)) ->
  Forall straight ps -> Forall straight ms ->
  exists ad d0 d1 d2 ns1 vs1 ns2 vs2 es1 es2, begun (attr_get AtRefId a) (Some (r, ns)) ad d d0
    /\ Forall2 (its_name names_prop) ps ns1 /\ one_by_one (hdeserialize hooks reg) ad d0 ps vs1 d1 /\ all_given (declared reg c_adapted ns) (combine ns1 vs1) es1
    /\ Forall2 (its_name names_prop) ms ns2 /\ one_by_one (hdeserialize hooks reg) ad d1 ms vs2 d2 /\ all_given (declared reg c_extended ns) (combine ns2 vs2) es2
    /\ aget ad (d_heap d2) = Some (mkG BPlain (names_read reg ns) text es1 es2)
    /\ match registered reg ns with
       | Some c => match hooks c with
                   | Some f => exists d3, f d2 ad = Ok (v, d3) /\ d' = update_ref d3 (attr_get AtRefId a) v
                   | None => v = VRef ad /\ d' = d2
                   end
       | None => v = VRef ad /\ d' = d2
       end.
Proof. intros HS. now apply object_nested. Qed.
Print Assumptions C82_object.
(** Any element as serializers write them: the type names here or by reference, both groups of properties, the content, the
    text.  The content comes first, then the properties.  A container of a class that is no such container is an ordinary
    one with these type names, and the method of that class is not called. *)
Theorem C82_element hooks reg d a s tks ns tn kp ps km ms kc kt text v d' : (forall c f, hooks c = Some f -> sparing f) ->
  hdeserialize hooks reg d (Elem TgObj a s (tks ++ kp ++ km ++ kc ++ kt)) = Ok (v, d') ->
  typed_by d tks ns tn -> in_group TgProps kp ps -> in_group TgMS km ms -> proper_content reg ns kc -> says names_prop kt text ->
  (forall c, registered reg ns = Some c -> (forall t f vs, c_kind c <> CEnum t f vs) /\ NoDup (c_adapted c) /\ NoDup (c_extended c)) ->
  Forall straight ps -> Forall straight ms ->
  exists ad c body fresh d0 d1 d2 d3 d4 ns1 vs1 ns2 vs2 es1 es2, begun (attr_get AtRefId a) tn ad d d0
    /\ content_read (hdeserialize hooks reg) reg ns ad kc c d0 body fresh d1 /\ filling ad d1 d2
    /\ Forall2 (its_name names_prop) ps ns1 /\ one_by_one (hdeserialize hooks reg) ad d2 ps vs1 d3 /\ all_given (own_props c_adapted c) (combine ns1 vs1) es1
    /\ Forall2 (its_name names_prop) ms ns2 /\ one_by_one (hdeserialize hooks reg) ad d3 ms vs2 d4 /\ all_given (own_props c_extended c) (combine ns2 vs2) es2
    /\ aget ad (d_heap d4) = Some (mkG body (names_kept reg ns fresh) text es1 es2)
    /\ match c with
       | Some c => match hooks c with
                   | Some f => exists d5, f d4 ad = Ok (v, d5) /\ d' = update_ref d5 (attr_get AtRefId a) v
                   | None => v = VRef ad /\ d' = d4
                   end
       | None => v = VRef ad /\ d' = d4
       end.
Proof. intros HS. now apply element_nested. Qed.
Print Assumptions C82_element.
(** Without methods this is the reader of C63. *)
Theorem C82_plain reg d xs : hread_values (fun _ => None) reg d xs = read_values reg d xs.
Proof. apply C81_without; [split; [reflexivity|split; [reflexivity|intros k; reflexivity]]|intros r ns _ n l c _ _; reflexivity|intros x z ns _ _ _ n l c _ _; reflexivity]. Qed.
Print Assumptions C82_plain.

(** *** Examples *)
Lemma fh_sparing : forall c f, fh_hooks c = Some f -> sparing f.
Proof.
  intros c f. unfold fh_hooks. destruct (c_kind c); try discriminate. destruct (c_names c) as [|n l]; [discriminate|]. destruct (name_eqb n (tx "My.Record")); [|discriminate].
  intros Q. injection Q as <-. intros d a v d' H. unfold makes_new in H. destruct (aget a (d_heap d)) as [o|]; [|discriminate]. binds H. injection H as _ <-.
  cbn [d_next d_heap]. split; [lia|]. intros b _ Hb. rewrite aget_aset. destruct (N.eqb_spec b (d_next d)); [lia|reflexivity].
Qed.
Definition straight_here (z : xml) : bool :=
  match x_tag z with TgObj => forallb (fun y => match x_tag y with TgObj | TgRef => false | _ => true end) (x_kids z) | _ => true end.
Lemma straight_check x : forallb straight_here (parts x) = true -> straight x.
Proof.
  intros H z y Hz Ht Hy. rewrite forallb_forall in H. specialize (H z (part_in _ _ Hz)). unfold straight_here in H. rewrite Ht in H. rewrite forallb_forall in H.
  specialize (H y Hy). split; intros Q; rewrite Q in H; discriminate.
Qed.
(** A list with a number, a record whose target is a table with an unregistered object, and references to the list
    itself and to the record. *)
Definition nest_thing : xml :=
  Elem TgObj [(AtN, tx "Value"); (AtRefId, tx "3")] [] [tn_of (tx "1") [tx "My.Thing"]; Elem TgToString [] (tx "it") []; Elem TgProps [] [] [named_elem (TgInt TInt32) "a" "1"]; Elem TgMS [] [] [Elem TgRef [(AtN, tx "top"); (AtRefId, tx "0")] [] []]].
Definition nest_table : xml := Elem TgObj [(AtN, tx "target"); (AtRefId, tx "2")] [] [Elem TgDCT [] [] [entry (key (TgStr KString) "k") nest_thing]].
Definition nest_record : xml :=
  Elem TgObj [(AtRefId, tx "1")] [] [tn_of (tx "0") [tx "My.Record"; tx "System.Object"]; Elem TgProps [] [] []; Elem TgMS [] [] [nest_table]].
Definition nest_items : list xml := [named_elem (TgInt TInt32) "n" "5"; nest_record; Elem TgRef [(AtRefId, tx "1")] [] []; Elem TgRef [(AtRefId, tx "3")] [] []].
Definition nest_doc : xml := Elem TgObj [(AtRefId, tx "0")] [] [Elem (TgList LStack) [] [] nest_items].
Example C82_ex : exists d, hread_values fh_hooks fh_reg d_init [nest_doc] = Ok ([VRef 1], d)
  /\ aget 1 (d_heap d) = Some (mkG (BList LStack [VPrim (PInt TInt32 5); VRef 6; VRef 6; VRef 5]) (list_names LStack) None [] [])
  /\ aget 6 (d_heap d) = Some (mkG BPlain [tx "Made"; tx "My.Record"; tx "System.Object"] None [] [(tx "target", VRef 4)])
  /\ aget 4 (d_heap d) = Some (mkG (BDict [(str "k", VRef 5)]) table_names None [] [])
  /\ aget 5 (d_heap d) = Some (mkG BPlain [tx "Deserialized.My.Thing"] (Some (tx "it")) [(tx "a", VPrim (PInt TInt32 1))] [(tx "top", VRef 1)])
  /\ straight nest_doc /\ Forall straight nest_items /\ loose_key (entry (key (TgStr KString) "k") nest_thing)
  /\ (forall c f, fh_hooks c = Some f -> sparing f) /\ plain_collections fh_hooks.
Proof.
  eexists. split; [vm_compute; reflexivity|]. split; [vm_compute; reflexivity|]. split; [vm_compute; reflexivity|]. split; [vm_compute; reflexivity|]. split; [vm_compute; reflexivity|].
  split; [apply straight_check; vm_compute; reflexivity|]. split.
  - unfold nest_items. repeat (apply Forall_cons; [apply straight_check; vm_compute; reflexivity|]). apply Forall_nil.
  - split; [|split; [exact fh_sparing|split; [reflexivity|split; [reflexivity|intros k; reflexivity]]]].
    intros k (pre & post & E & _ & Hf). cbn [x_kids entry] in E. destruct pre as [|p [|q pre]].
    + injection E as <- _. split; discriminate.
    + injection E as <- _ _. inversion Hf as [|? ? Hn _]. now elim Hn.
    + injection E as _ _ E. destruct pre; discriminate.
Qed.
Example C82_ex_object : exists v d, hdeserialize fh_hooks fh_reg d_init nest_record = Err KeyError
  /\ hdeserialize fh_hooks fh_reg (mkD [] 0 [(tx "0", VNull)] []) nest_record = Ok (v, d)
  /\ says names_prop [Elem TgToString [] (tx "it") []] (Some (tx "it")) /\ says names_prop [] None
  /\ (forall c, registered fh_reg [tx "My.Record"; tx "System.Object"] = Some c -> c_kind c = CPlain /\ c_names c <> [] /\ NoDup (c_adapted c) /\ NoDup (c_extended c)).
Proof.
  do 2 eexists. split; [vm_compute; reflexivity|]. split; [vm_compute; reflexivity|]. split; [apply SaText; vm_compute; reflexivity|]. split; [apply SaNone|].
  intros c Q. injection Q as <-. split; [reflexivity|]. split; [discriminate|]. split; [apply NoDup_nil|]. apply NoDup_cons; [intros []|apply NoDup_nil].
Qed.

(** A list that names a class with a method, with a property that refers to the list, and a text; then a queue that names
    the same types by reference. *)
Definition nest_named : list xml := [tn_of (tx "0") [tx "My.Record"; tx "System.Object"]].
Definition nest_ms : list xml := [Elem TgMS [] [] [Elem TgRef [(AtN, tx "me"); (AtRefId, tx "0")] [] []]].
Definition nest_list : list xml := [Elem (TgList LList) [] [] [named_elem (TgInt TInt32) "n" "5"]].
Definition nest_text : list xml := [Elem TgToString [] (tx "it") []].
Definition nest_queue : xml := Elem TgObj [(AtRefId, tx "1")] [] ([Elem TgTNRef [(AtRefId, tx "0")] [] []] ++ [] ++ [] ++ [Elem TgQUE [] [] [Elem TgRef [(AtRefId, tx "0")] [] []]] ++ []).
Example C82_ex_element : exists d1 d2, hdeserialize fh_hooks fh_reg d_init (Elem TgObj [(AtRefId, tx "0")] [] (nest_named ++ [] ++ nest_ms ++ nest_list ++ nest_text)) = Ok (VRef 1, d1)
  /\ aget 1 (d_heap d1) = Some (mkG (BList LList [VPrim (PInt TInt32 5)]) [tx "My.Record"; tx "System.Object"] (Some (tx "it")) [] [(tx "me", VRef 1)])
  /\ hdeserialize fh_hooks fh_reg d1 nest_queue = Ok (VRef 3, d2)
  /\ aget 3 (d_heap d2) = Some (mkG (BQueue [VRef 1]) [tx "My.Record"; tx "System.Object"] None [] [])
  /\ typed_by d_init nest_named [tx "My.Record"; tx "System.Object"] (Some (tx "0", [tx "My.Record"; tx "System.Object"]))
  /\ typed_by d1 [Elem TgTNRef [(AtRefId, tx "0")] [] []] [tx "My.Record"; tx "System.Object"] None
  /\ in_group TgMS nest_ms (x_kids (hd (Elem TgNil [] [] []) nest_ms)) /\ proper_content fh_reg [tx "My.Record"; tx "System.Object"] nest_list
  /\ says names_prop nest_text (Some (tx "it"))
  /\ proper_content fh_reg [tx "My.Record"; tx "System.Object"] [Elem TgQUE [] [] [Elem TgRef [(AtRefId, tx "0")] [] []]].
Proof.
  do 2 eexists. split; [vm_compute; reflexivity|]. split; [vm_compute; reflexivity|]. split; [vm_compute; reflexivity|]. split; [vm_compute; reflexivity|].
  split; [apply TyHere; [apply TtName, TtName, TtNil|discriminate]|]. split; [apply TyAgain; vm_compute; reflexivity|]. split; [apply GrSome|].
  split; [apply PcList; apply Forall_cons; [apply straight_check; vm_compute; reflexivity|apply Forall_nil]|]. split; [apply SaText; vm_compute; reflexivity|].
  apply PcQueue. apply Forall_cons; [apply straight_check; vm_compute; reflexivity|apply Forall_nil].
Qed.

(** *** False of the code *)
(** Two error records about one exception: reading the second changes the exception of the first. *)
Definition err_make (o : gobj) : result gobj :=
  match sget (tx "Exception") (g_extended o) with Some v => Ok (mkG BPlain (g_names o) None [(tx "Exception", v)] []) | None => Err AttributeError end.
Definition err_class : cls := mkC CPlain [tx "System.Management.Automation.ErrorRecord"; tx "System.Object"] [] [].
Definition err_reg : registry := fun n => if name_eqb n (tx "System.Management.Automation.ErrorRecord") then Some err_class else None.
Definition err_hooks : from_hooks := fun c => match c_kind c, c_names c with CPlain, n :: _ => if name_eqb n (tx "System.Management.Automation.ErrorRecord") then Some (notes_exception err_make) else None | _, _ => None end.
Definition err_doc (id : string) (exc : xml) (info : string) : xml :=
  Elem TgObj [(AtRefId, tx id)] [] [tn_of (tx id) [tx "System.Management.Automation.ErrorRecord"; tx "System.Object"]; Elem TgMS [] [] [exc; named_elem (TgStr KString) "InvocationInfo" info]].
Definition exc_elem : xml := Elem TgObj [(AtN, tx "Exception"); (AtRefId, tx "9")] [] [tn_of (tx "9") [tx "System.Exception"]; Elem TgMS [] [] []].
Definition exc_again : xml := Elem TgRef [(AtN, tx "Exception"); (AtRefId, tx "9")] [] [].
Theorem C82_exception_refuted : exists e d1 d2 r1 r2 o1 o2,
  hread_values err_hooks err_reg d_init [err_doc "0" exc_elem "first"] = Ok ([r1], d1) /\ hread_values err_hooks err_reg d1 [err_doc "1" exc_again "second"] = Ok ([r2], d2)
  /\ Forall straight [err_doc "0" exc_elem "first"; err_doc "1" exc_again "second"]
  /\ aget e (d_heap d1) = Some o1 /\ aget e (d_heap d2) = Some o2 /\ (e < d_next d1)%N
  /\ g_extended o1 = [(tx "SerializedRemoteInvocationInfo", str "first")] /\ g_extended o2 = [(tx "SerializedRemoteInvocationInfo", str "second")].
Proof.
  exists 1%N. do 6 eexists. split; [vm_compute; reflexivity|]. split; [vm_compute; reflexivity|].
  split; [apply Forall_cons; [apply straight_check; vm_compute; reflexivity|apply Forall_cons; [apply straight_check; vm_compute; reflexivity|apply Forall_nil]]|].
  split; [vm_compute; reflexivity|]. split; [vm_compute; reflexivity|]. split; [reflexivity|]. split; reflexivity.
Qed.
Print Assumptions C82_exception_refuted.
