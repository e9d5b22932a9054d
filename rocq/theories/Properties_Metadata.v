(** C77: a request for command metadata reaches the server: the names, the command types, the namespaces and the arguments.

    Trusted: as for C66. *)
From Coq Require Import String.
From Verif Require Import Base BaseFacts Model_Scalars Model_Object Model_Clixml Model_Xml Model_Messages Model_Pipeline Model_Metadata.
From Verif Require Import Spec_Strings Spec_Scalars Spec_Clixml Spec_Xml Spec_Messages Spec_HostWire Spec_Pipeline Spec_Metadata.
From Verif Require Import Proofs_Messages Proofs_HostWire Proofs_HostWire2 Proofs_HostWire3 Proofs_Lines Proofs_Pipeline Proofs_Metadata.
From Verif Require Import Properties_Pipeline.
Local Open Scope list_scope.

(** Every request can be written, and whatever is written the server reads as asked: one name as a list of it, a list of
    names as that list, and the lists of namespaces and arguments with their elements in order, or nothing where nothing
    was given.  [R] matches the objects among them, as in C21. *)
Theorem C77_arrives : forall reg lx h rank n name t ns args names nss argss,
  usual reg lx -> good_graph reg lx h -> legible_graph h -> closed h -> ranked h rank -> free_from h n ->
  asks_names h name names -> asks h ns nss -> asks h args argss ->
  Forall (can_send reg lx h) (names ++ elements nss ++ elements argss) -> can_send reg lx h (VEnum t) ->
  (exists fuel data, metadata_data fuel h n (new_metadata name t ns args) = Ok data)
  /\ forall fuel data, metadata_data fuel h n (new_metadata name t ns args) = Ok data ->
     exists q h' R, read_metadata reg data = Ok (q, h') /\ same_graph reg (heap_lines h) h' R
     /\ Forall2 (same_value R) names (rm_name q) /\ rm_type q = t
     /\ opt_listed h' R nss (rm_namespace q) /\ opt_listed h' R argss (rm_args q).
Proof.
  intros reg lx h rank n name t ns args names nss argss U G L C RK F AN AS AA FA FT.
  apply Forall_app in FA as [F1 FA]. apply Forall_app in FA as [F2 F3].
  split; [eapply metadata_written; eassumption|]. intros fuel data E.
  destruct (metadata_seen reg lx U h n F G L C name ns args t names nss argss AN AS AA F1 F2 F3 FT fuel data E) as (v1 & v2 & v3 & h' & R & Ed & X1 & X2 & X3 & SG).
  eexists _, h', R. split; [unfold read_metadata; rewrite Ed; reflexivity|]. split; [exact SG|]. cbn [rm_name rm_type rm_namespace rm_args snd].
  split; [now apply listed_names|]. split; [reflexivity|]. split; assumption.
Qed.
Print Assumptions C77_arrives.
(** What any receiver finds under the names of MS-PSRP 2.2.2.14: Name is always a list. *)
Theorem C77_document : forall reg lx h n name t ns args names nss argss fuel data,
  usual reg lx -> good_graph reg lx h -> legible_graph h -> closed h -> free_from h n ->
  asks_names h name names -> asks h ns nss -> asks h args argss ->
  Forall (can_send reg lx h) (names ++ elements nss ++ elements argss) -> can_send reg lx h (VEnum t) ->
  metadata_data fuel h n (new_metadata name t ns args) = Ok data ->
  exists v1 v2 v3 h' R, read_message reg KGetCommandMetadata data = Ok (WGetCommandMetadata v1 t v2 v3, h')
  /\ listed h' (same_value R) names v1 /\ opt_listed h' R nss v2 /\ opt_listed h' R argss v3 /\ same_graph reg (heap_lines h) h' R.
Proof.
  intros reg lx h n name t ns args names nss argss fuel data U G L C F AN AS AA FA FT E.
  apply Forall_app in FA as [F1 FA]. apply Forall_app in FA as [F2 F3].
  exact (metadata_seen reg lx U h n F G L C name ns args t names nss argss AN AS AA F1 F2 F3 FT fuel data E).
Qed.
Print Assumptions C77_document.
(** With texts for names and namespaces the server holds those texts. *)
Lemma texts_same R l vs : Forall2 (same_value R) (map a_text l) vs -> vs = map a_text l.
Proof.
  revert vs. induction l as [|s l IH]; intros vs F; inversion F as [|? ? ? ? S F']; subst; [reflexivity|]. cbn. f_equal; [|auto].
  inversion S as [| |? ? P| |]; subst. cbn in P. now subst.
Qed.
Theorem C77_texts : forall reg lx h rank n names t ns,
  usual reg lx -> good_graph reg lx h -> legible_graph h -> closed h -> ranked h rank -> free_from h n ->
  Forall can_say names -> opt_all (Forall can_say) ns -> can_send reg lx h (VEnum t) ->
  let given_ns := match ns with Some l => GItems (map a_text l) | None => GNone end in
  (exists fuel data, metadata_data fuel h n (new_metadata (GItems (map a_text names)) t given_ns GNone) = Ok data)
  /\ forall fuel data, metadata_data fuel h n (new_metadata (GItems (map a_text names)) t given_ns GNone) = Ok data ->
     exists q h', read_metadata reg data = Ok (q, h') /\ rm_name q = map a_text names /\ rm_type q = t /\ rm_args q = VNull
     /\ match ns with Some l => listed h' (fun s v => v = a_text s) l (rm_namespace q) | None => rm_namespace q = VNull end.
Proof.
  intros reg lx h rank n names t ns U G L C RK F FN FS FT given_ns.
  set (nss := match ns with Some l => Some (map a_text l) | None => None end).
  assert (forall l, Forall can_say l -> Forall (can_send reg lx h) (map a_text l)) as K.
  { intros l Fl. apply Forall_map. eapply Forall_impl; [|exact Fl]. intros s [A B]. split; [exact A|]. split; [exact B|]. intros a Ea. discriminate Ea. }
  destruct (C77_arrives reg lx h rank n (GItems (map a_text names)) t given_ns GNone (map a_text names) nss None) as [W X]; try assumption.
  - apply AsksMany. apply AsksItems.
  - unfold nss, given_ns. destruct ns; constructor.
  - constructor.
  - apply Forall_app. split; [exact (K _ FN)|]. apply Forall_app. split; [|constructor]. unfold nss. destruct ns as [l|]; [exact (K l FS)|constructor].
  - split; [exact W|]. intros fuel data E. destruct (X fuel data E) as (q & h' & R & Eq & _ & A1 & A2 & A3 & A4).
    exists q, h'. split; [exact Eq|]. split; [now apply texts_same in A1|]. split; [exact A2|]. split; [exact A4|].
    unfold nss in A3. destruct ns as [l|]; [|exact A3]. destruct A3 as (a & o & k & vs & V & Ha & Hb & Fv). apply texts_same in Fv. subst vs.
    exists a, o, k, (map a_text l). split; [exact V|]. split; [exact Ha|]. split; [exact Hb|]. clear. induction l; constructor; auto.
Qed.
Print Assumptions C77_texts.

(** ** Example: one name, a namespace, and a list of the caller's that holds an object *)
Definition command_types : name := tx "System.Management.Automation.CommandTypes".
Definition meta_reg : registry := fun n =>
  if name_eqb n command_types then Some (mkC (CEnum TInt32 true [1; 2; 4; 8; 16; 32; 64; 256; 383]%Z) (enum_names command_types) [] []) else pipe_reg n.
Definition meta_lex : lexicon := mkLex (fun n => if name_eqb n command_types then enum_names n else full pipe_lex n) (fun _ _ => tx "Text").
Definition meta_heap : heap := [(1, list_object [a_text (tx "extra"); VBool true])]%N.
Definition all_types : member := ex_member command_types 383.
Lemma meta_usual : usual meta_reg meta_lex.
Proof. split; [reflexivity| |]; (split; [reflexivity|]); intros c H; vm_compute in H; [injection H as <-; reflexivity|discriminate]. Qed.
Lemma meta_type : can_send meta_reg meta_lex meta_heap (VEnum all_types).
Proof.
  split; [|split].
  - exists command_types, [tx "System.Enum"; tx "System.ValueType"; tx "System.Object"], (mkC (CEnum TInt32 true [1; 2; 4; 8; 16; 32; 64; 256; 383]%Z) (enum_names command_types) [] []), true, [1; 2; 4; 8; 16; 32; 64; 256; 383]%Z.
    split; [reflexivity|]. split; [reflexivity|]. split; [reflexivity|]. split; [reflexivity|]. split; [reflexivity|]. split; [now left|]. split; [cbn; lia|].
    split; [reflexivity|]. apply Proofs_Clixml7.tame_good. reflexivity.
  - split; [|apply text_lit; reflexivity]. repeat (apply Forall_cons; [apply text_lit; reflexivity|]). apply Forall_nil.
  - intros a E. discriminate E.
Qed.
Lemma meta_element v : In v [a_text (tx "extra"); VBool true] -> can_send meta_reg meta_lex meta_heap v.
Proof.
  intros H. repeat (destruct H as [<- |H]; [split; [first [exact I|apply ascii_ok; reflexivity]|split; [first [exact I|apply ascii_ok; reflexivity]|intros a E; discriminate E]]|]). destruct H.
Qed.
Lemma meta_good : good_graph meta_reg meta_lex meta_heap /\ legible_graph meta_heap /\ closed meta_heap /\ ranked meta_heap (fun _ => 0%nat) /\ free_from meta_heap 2.
Proof.
  assert (forall a o, aget a meta_heap = Some o -> a = 1%N /\ o = list_object [a_text (tx "extra"); VBool true]) as O.
  { intros a o E. cbn [aget meta_heap] in E. destruct (N.eqb_spec a 1); [|discriminate]. injection E as <-. auto. }
  assert (forall o v, o = list_object [a_text (tx "extra"); VBool true] -> mentions o v -> In v [a_text (tx "extra"); VBool true]) as M.
  { intros o v -> H. inversion H; subst; cbn in *; try contradiction; try discriminate. match goal with E : BList _ _ = BList _ _ |- _ => injection E as <- <- end. assumption. }
  split; [split|split; [|split; [|split]]].
  - intros a o E. destruct (O a o E) as [_ ->]. split.
    + cbn [g_body list_object]. apply Forall_forall. intros v Hv. apply meta_element in Hv. apply Hv.
    + cbn [g_body list_object]. split; [|split; [split; constructor|split; [split; constructor|intros _; constructor]]].
      destruct (us_list _ _ meta_usual) as [A Q]. split; [exact A|]. intros c Hc. apply Q in Hc. subst c. split; [reflexivity|]. split; [reflexivity|]. split; exists []; reflexivity.
  - intros a b o o' p q E E' P Q. destruct (O a o E) as [_ ->]. discriminate.
  - reflexivity.
  - intros a o E. destruct (O a o E) as [_ Eo]. split; [subst o; repeat (apply Forall_cons; [apply text_lit; reflexivity|]); apply Forall_nil|].
    split; [subst o; exact I|]. split; [subst o; constructor|]. split; [subst o; discriminate|]. split; [subst o; discriminate|].
    intros v Hv. apply (M o v Eo) in Hv. apply meta_element in Hv. apply Hv.
  - intros a o b E Hm. destruct (O a o E) as [_ Eo]. apply (M o _ Eo) in Hm. destruct Hm as [Q|[Q|[]]]; discriminate Q.
  - intros a o b E N Hm. destruct (O a o E) as [_ Eo]. apply (M o _ Eo) in Hm. destruct Hm as [Q|[Q|[]]]; discriminate Q.
  - intros a o E. destruct (O a o E) as [-> _]. lia.
Qed.
Example C77_example : exists fuel data q h' R a l,
  metadata_data fuel meta_heap 2 (new_metadata (GText (tx "Get-*")) all_types (GItems [a_text (tx "Microsoft.*")]) (GKept 1)) = Ok data
  /\ read_metadata meta_reg data = Ok (q, h') /\ rm_name q = [a_text (tx "Get-*")] /\ rm_type q = all_types
  /\ listed h' (same_value R) [a_text (tx "Microsoft.*")] (rm_namespace q)
  /\ rm_args q = VRef a /\ items h' (VRef a) = Ok l /\ l = [a_text (tx "extra"); VBool true].
Proof.
  destruct meta_good as (G & L & C & RK & F).
  destruct (C77_arrives meta_reg meta_lex meta_heap (fun _ => 0%nat) 2 (GText (tx "Get-*")) all_types (GItems [a_text (tx "Microsoft.*")]) (GKept 1)
     [a_text (tx "Get-*")] (Some [a_text (tx "Microsoft.*")]) (Some [a_text (tx "extra"); VBool true]) meta_usual G L C RK F) as [(fuel & data & E) X].
  - constructor.
  - constructor.
  - econstructor; reflexivity.
  - apply Forall_app. split; [|apply Forall_app; split].
    + apply Forall_cons; [|constructor]. split; [apply ascii_ok; reflexivity|]. split; [apply ascii_ok; reflexivity|]. intros a Ea. discriminate Ea.
    + apply Forall_cons; [|constructor]. split; [apply ascii_ok; reflexivity|]. split; [apply ascii_ok; reflexivity|]. intros a Ea. discriminate Ea.
    + apply Forall_forall. exact meta_element.
  - exact meta_type.
  - destruct (X fuel data E) as (q & h' & R & Eq & _ & A1 & A2 & A3 & (a & o & k & vs & V & Ha & Hb & Fv)).
    exists fuel, data, q, h', R, a, vs. split; [exact E|]. split; [exact Eq|]. split; [exact (texts_same R [tx "Get-*"] _ A1)|]. split; [exact A2|].
    split; [exact A3|]. split; [exact V|]. split; [cbn; now rewrite Ha, Hb|]. inversion Fv as [|? ? ? ? S1 Fv']; subst. inversion Fv' as [|? ? ? ? S2 Fv'']; subst. inversion Fv''; subst.
    inversion S1 as [| |? ? P| |]; subst. cbn in P. subst. inversion S2; subst. reflexivity.
Qed.

(** ** Findings *)
(** The protocol allows a null for Name.  A server that is sent one holds a list with one name that is no text; and a
    client that is given None sends such a list. *)
Theorem C77_null_refuted : exists data data' q h' a o t ns args h'',
  message_data 3 [] 0 (WGetCommandMetadata VNull all_types VNull VNull) = Ok data
  /\ read_metadata meta_reg data = Ok (q, h') /\ rm_name q = [VNull]
  /\ metadata_data 4 [] 0 (new_metadata GNone all_types GNone GNone) = Ok data'
  /\ read_message meta_reg KGetCommandMetadata data' = Ok (WGetCommandMetadata (VRef a) t ns args, h'')
  /\ aget a h'' = Some o /\ g_body o = BList LList [VNull].
Proof.
  do 10 eexists. split; [vm_compute; reflexivity|]. split; [vm_compute; reflexivity|]. split; [vm_compute; reflexivity|]. split; [vm_compute; reflexivity|].
  split; [vm_compute; reflexivity|]. split; [vm_compute; reflexivity|]. vm_compute. reflexivity.
Qed.
Print Assumptions C77_null_refuted.
(** A single name may be given as a text; a single namespace given as a text is taken apart into its characters. *)
Theorem C77_namespace_refuted : exists data q h' a o vs,
  metadata_data 4 [] 0 (new_metadata (GText (tx "Get-*")) all_types (GText (tx "AB*")) GNone) = Ok data
  /\ read_metadata meta_reg data = Ok (q, h') /\ rm_name q = [a_text (tx "Get-*")]
  /\ rm_namespace q = VRef a /\ aget a h' = Some o /\ g_body o = BList LList vs /\ vs = map a_text [tx "A"; tx "B"; tx "*"].
Proof.
  do 6 eexists. split; [vm_compute; reflexivity|]. split; [vm_compute; reflexivity|]. split; [vm_compute; reflexivity|]. split; [vm_compute; reflexivity|].
  split; [vm_compute; reflexivity|]. split; [vm_compute; reflexivity|]. vm_compute. reflexivity.
Qed.
Print Assumptions C77_namespace_refuted.
