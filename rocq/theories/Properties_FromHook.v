(** C81: objects that classes transform on arrival. *)
From Coq Require Import String.
From Verif Require Import Base BaseFacts Model_Scalars Model_Strings Model_Text Model_Object Model_Clixml Model_FromHook.
From Verif Require Import Spec_Strings Spec_Scalars Spec_Clixml Spec_Read Spec_FromHook.
From Verif Require Import Proofs_Clixml1 Proofs_Clixml2 Proofs_Clixml3 Proofs_Clixml4 Proofs_Clixml7 Proofs_Read Proofs_Read2 Proofs_Read3 Proofs_Read4 Proofs_FromHook.
From Verif Require Import Properties_Clixml Properties_Read.
Local Open Scope list_scope.
Local Open Scope nat_scope.

(** Reading comes to an end on every document when the methods raise nothing else. *)
Theorem C81_total hooks reg d xs : (forall c f, hooks c = Some f -> calm f) -> raises ordinary (hread_values hooks reg d xs).
Proof. intros H. now apply hreading_calm. Qed.
Print Assumptions C81_total.
(** What is read has no dangling reference when the methods introduce none. *)
Theorem C81_closed hooks reg xs vs d : (forall c f, hooks c = Some f -> obliging f) -> hread_values hooks reg d_init xs = Ok (vs, d) ->
  closed (d_heap d) /\ Forall (fun v => forall a, v = VRef a -> exists o, aget a (d_heap d) = Some o) vs.
Proof.
  intros HO H. destruct (hreading_closed hooks reg HO xs _ _ sound_init H) as [[[H1 H2 H3] _] H4]. cbn [fst snd] in *. split.
  - intros a o b Ha Hb. apply H1. exact (H2 a o Ha b Hb).
  - eapply Forall_impl; [|exact H4]. intros v Hv a ->. apply H1. exact Hv.
Qed.
Print Assumptions C81_closed.
(** After the element, a reference stands for what the method made, not for what was read. *)
Theorem C81_reference hooks reg d k attrs text kids v d1 xs vs d2 attrs' text' kids' :
  (forall c f, hooks c = Some f -> discreet f) ->
  hdeserialize hooks reg d (Elem TgObj attrs text kids) = Ok (v, d1) -> v <> VNull ->
  attr_get AtRefId attrs = Some k -> ~ In (MObj k) (flat_map marks kids) ->
  hread_values hooks reg d1 xs = Ok (vs, d2) -> ~ In (MObj k) (flat_map marks xs) -> attr_get AtRefId attrs' = Some k ->
  hdeserialize hooks reg d2 (Elem TgRef attrs' text' kids') = Ok (v, d2).
Proof.
  intros HD H Hv Hk Hn Hr Hx Hk'. destruct (hdeser_recorded hooks reg HD _ _ _ _ _ _ _ H Hk Hn) as [?|E]; [contradiction|].
  destruct (hreading_frames hooks reg HD _ _ _ _ Hr) as [F _].
  unfold hdeserialize. cbn [height hdeser x_tag deser]. rewrite Hk', (F _ Hx), E. reflexivity.
Qed.
Print Assumptions C81_reference.
(** The method is given the object with the class's declared properties and those of the element, in document order. *)
Theorem C81_value hooks reg d a s r u0 ts n ns c f b1 u1 ps b2 u2 ms v d' :
  hdeserialize hooks reg d (Elem TgObj a s [Elem TgTN [(AtRefId, r)] u0 ts; Elem TgProps b1 u1 ps; Elem TgMS b2 u2 ms]) = Ok (v, d') ->
  type_texts ts (n :: ns) -> registered reg (n :: ns) = Some c -> c_kind c = CPlain -> c_names c <> [] -> NoDup (c_adapted c) -> NoDup (c_extended c) ->
  hooks c = Some f -> Forall flat ps -> Forall flat ms ->
  exists d0 ad ex d1, aget (d_next d) (d_heap d0) = Some (mkG BPlain (c_names c) None ad ex)
    /\ props names_prop (reads reg d0) (map (fun n => (n, VNull)) (c_adapted c)) ps ad
    /\ props names_prop (reads reg d0) (map (fun n => (n, VNull)) (c_extended c)) ms ex
    /\ f d0 (d_next d) = Ok (v, d1)
    /\ d_heap d' = d_heap d1 /\ (forall k, attr_get AtRefId a = Some k -> v <> VNull -> sget k (d_refs d') = Some v).
Proof.
  intros H H1 H2 H3 H4 H5 H6 H7 H8 H9. destruct (hooked_read _ _ _ _ _ _ _ _ _ _ _ _ _ _ _ _ _ _ _ _ H H1 H2 H3 H4 H5 H6 H7 H8 H9) as (d0 & ad & ex & d1 & G1 & G2 & G3 & G4 & ->).
  exists d0, ad, ex, d1. split; [exact G1|]. split; [exact G2|]. split; [exact G3|]. split; [exact G4|]. split; [apply update_heap|].
  intros k Hk Hv. rewrite Hk. destruct (update_recorded d1 k v) as [Q|Q]; [contradiction|exact Q].
Qed.
Print Assumptions C81_value.
(** Documents that name no class with a method are read as if there were none (so all of C63 holds of them). *)
Theorem C81_without hooks reg d xs : plain_collections hooks ->
  (forall r ns, sget r (d_tns d) = Some ns -> no_method hooks reg ns) ->
  (forall x z ns, In x xs -> part_of z x -> gives_names z ns -> no_method hooks reg ns) ->
  hread_values hooks reg d xs = read_values reg d xs.
Proof. intros HP Hd Hx. apply hreading_quiet; [exact HP| |exact Hd]. apply Forall_forall. intros x Hi z ns. now apply Hx. Qed.
Print Assumptions C81_without.
(** Methods that make one new object out of the parts of the old one are as asked for above. *)
Theorem C81_new g : (forall o, raises ordinary (g o)) -> (forall o o' b, g o = Ok o' -> mentions o' (VRef b) -> mentions o (VRef b)) ->
  calm (makes_new g) /\ obliging (makes_new g) /\ discreet (makes_new g).
Proof.
  intros H1 H2. split; [|split; [apply new_obliging; intros o o' E b; now apply H2|apply new_discreet]].
  intros d a. unfold makes_new. destruct (aget a (d_heap d)) as [o|]; [|cbn; tauto]. specialize (H1 o). destruct (g o) as [o'|e]; [exact I|exact H1].
Qed.
Print Assumptions C81_new.

(** *** Examples *)
Definition fh_class : cls := mkC CPlain [tx "My.Record"; tx "System.Object"] [] [tx "target"].
Definition fh_reg : registry := fun n => if name_eqb n (tx "My.Record") then Some fh_class else None.
Definition fh_make (o : gobj) : result gobj :=
  match sget (tx "target") (g_extended o) with
  | Some v => Ok (mkG BPlain (tx "Made" :: g_names o) None [] [(tx "target", v)])
  | None => Err ValueError
  end.
Definition fh_hooks : from_hooks := fun c => match c_kind c, c_names c with
  | CPlain, n :: _ => if name_eqb n (tx "My.Record") then Some (makes_new fh_make) else None | _, _ => None end.
Lemma fh_good : forall c f, fh_hooks c = Some f -> calm f /\ obliging f /\ discreet f.
Proof.
  intros c f. unfold fh_hooks. destruct (c_kind c); try discriminate. destruct (c_names c) as [|n l]; [discriminate|]. destruct (name_eqb n (tx "My.Record")); [|discriminate].
  intros Q. injection Q as <-. apply C81_new.
  - intros o. unfold fh_make. destruct (sget _ _); cbn; tauto.
  - intros o o' b H M. unfold fh_make in H. destruct (sget (tx "target") (g_extended o)) as [v|] eqn:E; [|discriminate]. injection H as <-.
    assert (forall l, sget (tx "target") l = Some v -> In (tx "target", v) l) as G.
    { intros q; induction q as [|[k w] q IH]; cbn [sget]; [discriminate|]. destruct (name_eqb (tx "target") k) eqn:F; [|intros Q; right; now apply IH].
      apply name_eqb_iff in F. subst k. intros Q. injection Q as ->. now left. }
    inversion M; subst; try discriminate; match goal with Q : In _ _ |- _ => cbn [g_extended g_adapted In] in Q; destruct Q as [Q|[]] || destruct Q end.
    match goal with Q : (_, _) = (_, _) |- _ => injection Q as <- -> end. eapply MenExtended. apply G. exact E.
Qed.
Definition fh_doc (rest : list xml) : xml := Elem TgObj [(AtRefId, tx "0")] [] [tn_of (tx "0") [tx "My.Record"; tx "System.Object"]; Elem TgProps [] [] []; Elem TgMS [] [] rest].
(** Two records, the second inside the first; then a list that refers to both. *)
Definition fh_docs : list xml :=
  [fh_doc [Elem TgObj [(AtN, tx "target"); (AtRefId, tx "1")] [] [tnref_of (tx "0"); Elem TgMS [] [] [named_elem (TgInt TInt32) "target" "7"]]];
   Elem TgObj [] [] [Elem (TgList LStack) [] [] [Elem TgRef [(AtRefId, tx "0")] [] []; Elem TgRef [(AtRefId, tx "1")] [] []]]].
Example C81_ex : exists d, hread_values fh_hooks fh_reg d_init fh_docs = Ok ([VRef 3; VRef 5], d)
  /\ aget 3 (d_heap d) = Some (mkG BPlain [tx "Made"; tx "My.Record"; tx "System.Object"] None [] [(tx "target", VRef 2)])
  /\ aget 2 (d_heap d) = Some (mkG BPlain [tx "Made"; tx "My.Record"; tx "System.Object"] None [] [(tx "target", VPrim (PInt TInt32 7))])
  /\ aget 5 (d_heap d) = Some (mkG (BList LStack [VRef 3; VRef 2]) (list_names LStack) None [] [])
  /\ (forall c f, fh_hooks c = Some f -> calm f /\ obliging f /\ discreet f) /\ plain_collections fh_hooks.
Proof.
  eexists. split; [vm_compute; reflexivity|]. split; [vm_compute; reflexivity|]. split; [vm_compute; reflexivity|]. split; [vm_compute; reflexivity|].
  split; [exact fh_good|]. split; [reflexivity|]. split; [reflexivity|]. intros k. reflexivity.
Qed.
(** Flat properties; one declared, one given twice. *)
Example C81_ex_value : exists v d, hdeserialize fh_hooks fh_reg d_init (fh_doc [named_elem (TgInt TInt32) "other" "1"; named_elem (TgInt TInt32) "target" "7"; named_elem TgNil "other" ""]) = Ok (v, d)
  /\ gets d v (mkG BPlain [tx "Made"; tx "My.Record"; tx "System.Object"] None [] [(tx "target", VPrim (PInt TInt32 7))])
  /\ registered fh_reg [tx "My.Record"; tx "System.Object"] = Some fh_class /\ c_kind fh_class = CPlain /\ fh_hooks fh_class = Some (makes_new fh_make) /\ NoDup (c_extended fh_class).
Proof.
  do 2 eexists. split; [vm_compute; reflexivity|]. split; [eexists; split; [reflexivity|vm_compute; reflexivity]|]. split; [reflexivity|]. split; [reflexivity|].
  split; [reflexivity|]. apply NoDup_cons; [intros []|apply NoDup_nil].
Qed.
(** Other type names, by text and by number: no method is called. *)
Example C81_ex_without : (forall z ns, part_of z doc_object -> gives_names z ns -> no_method fh_hooks fh_reg ns)
  /\ exists d, hread_values fh_hooks fh_reg d_init [doc_object; doc_table] = Ok ([VRef 0; VRef 2], d).
Proof.
  split; [|eexists; vm_compute; reflexivity]. apply unnamed_quiet. vm_compute. reflexivity.
Qed.

(** *** False of the code *)
(** Inside the element its number stands for the object as read: one number, two objects. *)
Theorem C81_inside_refuted : exists v d a o, hdeserialize fh_hooks fh_reg d_init (fh_doc [Elem TgRef [(AtN, tx "target"); (AtRefId, tx "0")] [] []]) = Ok (v, d)
  /\ hdeserialize fh_hooks fh_reg d (Elem TgRef [(AtRefId, tx "0")] [] []) = Ok (v, d)
  /\ gets d v o /\ g_extended o = [(tx "target", VRef a)] /\ v <> VRef a.
Proof.
  do 4 eexists. split; [vm_compute; reflexivity|]. split; [vm_compute; reflexivity|]. split; [eexists; split; [reflexivity|vm_compute; reflexivity]|].
  split; [reflexivity|]. discriminate.
Qed.
Print Assumptions C81_inside_refuted.
(** A method that returns nothing leaves the object as read under its number. *)
Theorem C81_nothing_refuted : exists hooks v d, (forall c f, hooks c = Some f -> calm f /\ obliging f /\ discreet f)
  /\ hdeserialize hooks fh_reg d_init (fh_doc []) = Ok (VNull, d)
  /\ hdeserialize hooks fh_reg d (Elem TgRef [(AtRefId, tx "0")] [] []) = Ok (v, d) /\ v <> VNull.
Proof.
  exists (fun c => Some (fun d a => Ok (VNull, d))). do 2 eexists. split.
  - intros c f Q. injection Q as <-. split; [intros d a; exact I|]. split.
    + intros d a v d' H1 H2 H. injection H as <- <-. split; [exact H1|]. split; [apply N.le_refl|]. intros b Q. discriminate Q.
    + intros d a v d' H. injection H as _ <-. split; reflexivity.
  - split; [vm_compute; reflexivity|]. split; [vm_compute; reflexivity|]. discriminate.
Qed.
Print Assumptions C81_nothing_refuted.
