(** C54: messages on the wire. *)
From Coq Require Import String.
From Verif Require Import Base BaseFacts Model_Scalars Model_Strings Model_Text Model_Object Model_Clixml Model_Xml Model_Utf8 Model_Messages.
From Verif Require Import Spec_Strings Spec_Scalars Spec_Clixml Spec_Xml Spec_Utf8 Spec_Transport Proofs_Clixml7 Proofs_Utf8 Proofs_Messages Properties_Clixml Properties_Xml.
From Verif Require Import Spec_Messages Proofs_Lines.
Local Open Scope list_scope.

(** Any message whose parts are in the domain of C21 and C44: the bytes made of it are read as a message of the same
    kind with the same fields; objects in it come back as in C21.  Missing: see [good_message] and the refutations. *)
Theorem C54_roundtrip_partial : forall reg lx h a m fuel data,
  good_graph reg lx h -> safe_graph h -> closed h -> aget a h = None -> good_message reg lx m -> Forall (here h) (values m) ->
  message_data fuel h a m = Ok data ->
  exists m' h' R, read_message reg (kind m) data = Ok (m', h') /\ same_message R m m' /\ same_graph reg h h' R.
Proof. exact message_roundtrip. Qed.
Print Assumptions C54_roundtrip_partial.
(** The same when ToString texts have carriage returns: they come back as line feeds (XML 1.0, section 2.11), and nothing
    else in the message is touched. *)
Theorem C54_line_ends : forall reg lx h a m fuel data,
  good_graph reg lx h -> legible_graph h -> closed h -> aget a h = None -> good_message reg lx m -> Forall (here h) (values m) ->
  message_data fuel h a m = Ok data ->
  exists m' h' R, read_message reg (kind m) data = Ok (m', h') /\ same_message R m m' /\ same_graph reg (heap_lines h) h' R.
Proof. exact message_lines. Qed.
Print Assumptions C54_line_ends.
(** What is handed to the serializer: one object with the documented properties in the documented order, without type
    names; or the value itself; or nothing. *)
Theorem C54_layout : forall m s, in_range m -> message_shape m = Ok s ->
  match s with
  | Nothing => fields m = []
  | One v => values m = [v] \/ v = VPrim (PStr KString [])
  | Props l => l = written (kind m) (field_names (kind m)) (fields m)
  end.
Proof. exact shape_layout. Qed.
Print Assumptions C54_layout.
(** Which of the three. *)
Theorem C54_form : forall m s, message_shape m = Ok s ->
  match s with
  | Nothing => m = WEndOfPipelineInput \/ m = WPipelineOutput None
  | One v => values m = [v] /\ field_names (kind m) = [] \/ m = WPublicKeyRequest \/ kind m = KConnectRunspacePool
  | Props _ => field_names (kind m) <> []
  end.
Proof.
  intros m s E. destruct s as [|v|l].
  - destruct m; cbn [message_shape] in E; binds E; try discriminate E; [now left|destruct v; [discriminate|now right]|destruct (v ++ v0); discriminate E].
  - destruct (one_cases m v E) as [(_ & [->|[->|(a & b & -> & _)]])|(Hv & Hf & _)]; [tauto|right; right; reflexivity|right; right; reflexivity|].
    destruct m; try discriminate Hv; cbn [message_shape] in E; binds E; try discriminate E; try (left; split; [exact Hv|reflexivity]).
    left. split; [exact Hv|]. destruct k; reflexivity.
  - exact (props_kind m l E).
Qed.
Print Assumptions C54_form.
(** Every message can be written whose integers fit; no other can. *)
Theorem C54_writes : forall h a m rank, closed h -> ranked h rank -> aget a h = None -> Forall (here h) (values m) ->
  counts_fit m -> exists fuel data, message_data fuel h a m = Ok data.
Proof. exact writes. Qed.
Print Assumptions C54_writes.
Theorem C54_refuses : forall fuel h a m, ~ counts_fit m -> message_data fuel h a m = Err ValueError.
Proof. intros fuel h a m H. destruct (shape_total m) as [[A _]|[_ A]]; [contradiction|]. unfold message_data. now rewrite A. Qed.
Print Assumptions C54_refuses.
(** The bytes are UTF-8. *)
Theorem C54_utf8_writes : forall s, Forall scalar s -> utf8_text s (utf8_encode s).
Proof. exact encode_form. Qed.
Print Assumptions C54_utf8_writes.
Theorem C54_utf8_reads : forall l s, utf8_decode l = Ok s <-> utf8_text s l /\ Forall scalar s.
Proof. exact decodes. Qed.
Print Assumptions C54_utf8_reads.
(** The type codes: those of the protocol, one for each kind, and no other code has a kind. *)
Theorem C54_codes : map code by_code = psrp_types /\ NoDup psrp_types /\ (forall k, In k by_code)
  /\ (forall n k, kind_of_code n = Some k <-> n = code k) /\ (forall n, kind_of_code n = None <-> ~ In n psrp_types).
Proof.
  assert (map code by_code = psrp_types) as A by (vm_compute; reflexivity).
  assert (forall n k, kind_of_code n = Some k <-> n = code k) as B.
  { intros n k. split; [|intros ->; destruct k; reflexivity]. intros H. apply find_some in H. destruct H as [_ H]. symmetry. now apply N.eqb_eq. }
  split; [exact A|]. split; [no_dup|]. split; [intros []; vm_compute; tauto|]. split; [exact B|].
  intros n. split.
  - intros H Hi. rewrite <- A in Hi. apply in_map_iff in Hi. destruct Hi as (k & <- & _). now rewrite (proj2 (B (code k) k) eq_refl) in H.
  - intros H. destruct (kind_of_code n) as [k|] eqn:E; [|reflexivity]. exfalso. apply H. apply B in E. subst n. rewrite <- A. apply in_map. destruct k; vm_compute; tauto.
Qed.
Print Assumptions C54_codes.

(** ** Refutations *)
(** A count of zero is not sent. *)
Theorem C54_zero_refuted : exists data h,
  message_data 2 [] 0 (WConnectRunspacePool (Some 0%Z) (Some 5%Z)) = Ok data
  /\ read_message ex_reg KConnectRunspacePool data = Ok (WConnectRunspacePool None (Some 5%Z), h).
Proof. eexists _, _. split; [vm_compute; reflexivity|]. vm_compute. reflexivity. Qed.
Print Assumptions C54_zero_refuted.
(** The count of available runspaces has no declared type: a plain int beyond 64 bits, or below 32 bits, is written but
    cannot be read. *)
Theorem C54_availability_refuted : forall n, n = (- 2 ^ 31 - 1)%Z \/ n = (2 ^ 63)%Z -> exists data,
  message_data 2 [] 0 (WRunspaceAvailability (inr n) 1) = Ok data /\ read_message ex_reg KRunspaceAvailability data = Err ValueError.
Proof. intros n H; destruct H as [H|H]; subst n; eexists; (split; [vm_compute; reflexivity|]); vm_compute; reflexivity. Qed.
Print Assumptions C54_availability_refuted.
(** Half of the lone high surrogates are not escaped; the message is written but cannot be read. *)
Theorem C54_surrogate_refuted : exists data,
  message_data 2 [] 0 (WPipelineInput (VPrim (PStr KString [65; 0xD900]%N))) = Ok data /\ read_message ex_reg KPipelineInput data = Err ParseError.
Proof. eexists. split; [vm_compute; reflexivity|]. vm_compute. reflexivity. Qed.
Print Assumptions C54_surrogate_refuted.

(** ** Examples *)
Definition ev : message :=
  WUserEvent (Some 7%Z) (Some (tx "timer <1>")) None (VRef 1) (VRef 4) green None (Some 5%N).
Lemma ev_good : good_message ex_reg ex_lex ev.
Proof.
  split; [|split; [|exact I]].
  - cbn [fields ev or_null]. repeat (constructor; [try exact I; try exact green_good; try (apply tame_good; reflexivity); try (vm_compute; split; discriminate); try (cbn; lia)|]). constructor.
  - cbn [fields ev or_null]. repeat (constructor; [unfold Spec_Messages.str, i32; cbn [safe_value green e_names e_text]; safe|]). all: repeat constructor.
Qed.
Example C54_example : good_graph ex_reg ex_lex ex_heap /\ safe_graph ex_heap /\ closed ex_heap /\ ranked ex_heap ex_rank /\ aget 90%N ex_heap = None
  /\ good_message ex_reg ex_lex ev /\ Forall (here ex_heap) (values ev) /\ counts_fit ev
  /\ exists data m' h', message_data 20 ex_heap 90 ev = Ok data /\ read_message ex_reg (kind ev) data = Ok (m', h')
     /\ skeleton m' = skeleton ev /\ length data = 1545 /\ length h' = 13.
Proof.
  split; [exact ex_good|]. split; [exact ex_safe|]. split; [exact (proj1 ex_closed)|]. split; [exact (proj2 ex_closed)|]. split; [reflexivity|]. split; [exact ev_good|].
  split; [repeat (constructor; [intros a Ha; try discriminate Ha; injection Ha as <-; eexists; reflexivity|]); constructor|].
  split; [constructor; [cbn; lia|constructor]|].
  eexists _, _, _. split; [vm_compute; reflexivity|]. split; [vm_compute; reflexivity|]. split; [reflexivity|]. split; vm_compute; reflexivity.
Qed.
Definition said : heap := [(1%N, mkG BPlain [] (Some (tx "a" ++ [13; 10; 13]%N ++ tx "b_x0041_")) [] [(tx "Cmd", VPrim (PStr KString (tx "a" ++ [13; 10; 13]%N ++ tx "b_x0041_")))])].
Example C54_line_ends_example : good_graph ex_reg ex_lex said /\ legible_graph said /\ closed said
  /\ good_message ex_reg ex_lex (WPipelineInput (VRef 1))
  /\ exists data o, message_data 5 said 90 (WPipelineInput (VRef 1)) = Ok data
     /\ read_message ex_reg KPipelineInput data = Ok (WPipelineInput (VRef 0), [(0%N, o)])
     /\ g_string o = Some (tx "a" ++ [10; 10]%N ++ tx "bA") /\ g_extended o = [(tx "Cmd", VPrim (PStr KString (tx "a" ++ [13; 10; 13]%N ++ tx "b_x0041_")))].
Proof.
  assert (forall s, forallb (fun c => c <? 127)%N s = true -> safe_str s) as SS.
  { intros s H. rewrite forallb_forall in H. apply Forall_forall. intros c Hc. apply H, N.ltb_lt in Hc. lia. }
  assert (forall s, forallb (fun c => c <? 127)%N s = true -> good_str s) as GS.
  { intros s H. rewrite forallb_forall in H. assert (forall c, In c s -> (c < 127)%N) as Hc by (intros c Hi; apply N.ltb_lt; auto).
    split; [|split]; try (apply Forall_forall; intros c Hi; apply Hc in Hi; lia).
    intros (pre & c0 & a & b & c & d & c7 & post & -> & _). specialize (Hc 0x5F00%N). assert (0x5F00 < 127)%N; [|lia]. apply Hc.
    apply in_or_app. right. right. now left. }
  split; [split|].
  - intros a o H. cbn [said aget] in H. destruct (a =? 1)%N; [|discriminate]. injection H as <-. split.
    + cbn [good_body g_body g_string]. split; [discriminate|]. refine (let G := GS _ _ in conj (proj1 G) (proj1 (proj2 G))). reflexivity.
    + cbn [g_body]. split; [split; [now left|discriminate]|]. split; [split; constructor|]. split; [|intros []].
      split; [constructor; [intros []|constructor]|]. constructor; [|constructor]. split; apply GS; reflexivity.
  - intros a b o o' p q H H' P. cbn [said aget] in H. destruct (a =? 1)%N; [|discriminate]. injection H as <-. discriminate P.
  - reflexivity.
  - split; [|split; [|split]].
    + intros a o H. cbn [said aget] in H. destruct (a =? 1)%N; [|discriminate]. injection H as <-.
      split; [constructor|]. split; [cbn [g_string]|].
      { do 4 (apply Forall_cons; [unfold valid_char; lia|]). eapply Forall_impl; [|apply printing_text; reflexivity]. intros c Hc; apply Hc. }
      split; [constructor; [apply SS; reflexivity|constructor]|]. split; [discriminate|]. split; [discriminate|].
      intros v Hv. apply mentioned_all in Hv. cbn [mentioned g_adapted g_extended g_body map app] in Hv. destruct Hv as [<-|[]]. apply SS. reflexivity.
    + intros a o b H Hm. cbn [said aget] in H. destruct (a =? 1)%N; [|discriminate]. injection H as <-.
      apply mentioned_all in Hm. destruct Hm as [Hm|[]]. discriminate Hm.
    + split; [|split; [|exact I]]; cbn [fields]; repeat constructor.
    + eexists _, _. split; [vm_compute; reflexivity|]. split; [vm_compute; reflexivity|]. split; vm_compute; reflexivity.
Qed.
(** A message of each form, to the byte. *)
Example C54_bytes_example :
  message_data 2 [] 0 (WSetMaxRunspaces 5 (-2)) = Ok (tx "<Obj RefId=""0""><MS><I32 N=""MaxRunspaces"">5</I32><I64 N=""ci"">-2</I64></MS></Obj>")
  /\ message_data 2 [] 0 WPublicKeyRequest = Ok (tx "<S />")
  /\ message_data 2 [] 0 (WPublicKey [1; 2]%N) = Ok (tx "<Obj RefId=""0""><MS><S N=""PublicKey"">AQI=</S></MS></Obj>")
  /\ message_data 2 [] 0 WEndOfPipelineInput = Ok []
  /\ message_data 2 [] 0 (WPipelineOutput (Some (VPrim (PStr KString [0xE9; 0x20AC; 0x10348]%N)))) = Ok (tx "<S>" ++ [0xC3; 0xA9; 0xE2; 0x82; 0xAC]%N ++ tx "_xD800__xDF48_</S>")
  /\ message_data 2 [] 0 (WPipelineState 4 VNull) = Ok (tx "<Obj RefId=""0""><MS><I32 N=""PipelineState"">4</I32></MS></Obj>")
  /\ ~ counts_fit (WSetMaxRunspaces (2 ^ 31) 1).
Proof.
  do 6 (split; [vm_compute; reflexivity|]). intros F. inversion F as [|? ? X]; subst. cbn in X. lia.
Qed.
Example C54_utf8_example : Forall scalar [0x41; 0xE9; 0x20AC; 0x1F600]%N
  /\ utf8_encode [0x41; 0xE9; 0x20AC; 0x1F600]%N = [0x41; 0xC3; 0xA9; 0xE2; 0x82; 0xAC; 0xF0; 0x9F; 0x98; 0x80]%N
  /\ utf8_decode [0xC0; 0x80]%N = Err UnicodeError /\ utf8_decode [0xED; 0xA0; 0x80]%N = Err UnicodeError.
Proof. split; [repeat (constructor; [split; [reflexivity|lia]|]); constructor|]. do 2 (split; [vm_compute; reflexivity|]). vm_compute; reflexivity. Qed.
