(** C66: a pipeline through the bytes of CREATE_PIPELINE. *)
From Coq Require Import String.
From Verif Require Import Base BaseFacts Model_Scalars Model_Object Model_Clixml Model_Xml Model_Command Model_Messages Model_Host Model_Pipeline.
From Verif Require Import Spec_Strings Spec_Scalars Spec_Clixml Spec_Xml Spec_Command Spec_Messages Spec_Host Spec_HostWire Spec_Pipeline.
From Verif Require Import Proofs_Messages Proofs_Command Proofs_Host Proofs_HostWire Proofs_HostWire2 Proofs_HostWire3 Proofs_Lines Proofs_Pipeline Proofs_Pipeline2 Proofs_Pipeline3.
Local Open Scope list_scope.

(** ** C66 *)
(** Every pipeline with commands, whatever its parameters are in the heap of the caller, is written, and from any bytes written
    for it the server makes a pipeline with the same settings and the same commands in the same statements with the same
    parameters; the redirections are those its version knows (C37).  The parameters are the caller's graph, with its sharing
    and cycles. *)
Theorem C66_arrives : forall reg lx show h rank n their p,
  usual reg lx -> flags_known reg lx show -> good_graph reg lx h -> legible_graph h -> closed h -> ranked h rank -> free_from h n ->
  good_pipeline reg lx h p ->
  (exists fuel data, pipeline_data show fuel h n their p = Ok data)
  /\ forall fuel data, pipeline_data show fuel h n their p = Ok data ->
     exists p' h' R, read_pipeline reg data = Ok (p', h')
     /\ arrives R (match their with Some v => v | None => pv20 end) p p' /\ same_graph reg (heap_lines h) h' R.
Proof.
  intros reg lx show h rank n their p U K G L C RK F P. split; [eapply pipeline_written; eauto|]. intros fuel data E. eapply pipeline_arrives; eauto.
Qed.
Print Assumptions C66_arrives.
(** What a value of the caller is, the server's value is: numbers, texts, lists, dictionaries and property bags (C65). *)
Theorem C66_plain : forall reg h h' R x v v', same_graph reg (heap_lines h) h' R -> looks h x v -> same_value R v v' -> looks h' x v'.
Proof. intros reg h h' R x v v' G L S. eapply looks_kept; [exact G| |exact S]. now apply looks_lines. Qed.
Print Assumptions C66_plain.
(** The host information of the client is what the server reads. *)
Theorem C66_host : forall reg lx show h n their p fuel data hi,
  usual reg lx -> flags_known reg lx show -> good_graph reg lx h -> legible_graph h -> closed h -> free_from h n ->
  good_pipeline reg lx h p -> host_ok hi -> looks h (host_info_to hi) (ps_host p) -> pipeline_data show fuel h n their p = Ok data ->
  exists p' h', read_pipeline reg data = Ok (p', h') /\ (exists x, looks h' x (ps_host p'))
  /\ forall x, looks h' x (ps_host p') -> host_info_from x = Ok hi.
Proof.
  intros reg lx show h n their p fuel data hi U K G L C F P O LK E.
  destruct (pipeline_arrives reg lx U show K h n F G L C their p P fuel data E) as (p' & h' & R & X & A & Y).
  exists p', h'. split; [exact X|]. destruct A as (_ & _ & _ & _ & A & _). pose proof (C66_plain _ _ _ _ _ _ _ Y LK A) as LK'.
  split; [eauto|]. intros x Hx. rewrite (looks_unique _ _ _ _ Hx LK'). now apply host_info_roundtrip.
Qed.
Print Assumptions C66_host.
(** Any receiver, also one that goes by the names of MS-PSRP alone, sees the pipeline: the first statement under Cmds, all of
    them under ExtraCmds when there are several, and each command, parameter and redirection under its name. *)
Theorem C66_document : forall reg lx show h n their p fuel data,
  usual reg lx -> flags_known reg lx show -> good_graph reg lx h -> legible_graph h -> closed h -> free_from h n ->
  good_pipeline reg lx h p -> pipeline_data show fuel h n their p = Ok data ->
  exists ap host shell h' R,
    read_message reg KCreatePipeline data = Ok (WCreatePipeline (ps_no_input p) ap (ps_streams p) (ps_history_add p) host shell (ps_nested p), h')
    /\ pipeline_sent R h' (match their with Some v => v | None => pv20 end) p shell
    /\ ps_apartment p = Some ap /\ same_value R (ps_host p) host /\ same_graph reg (heap_lines h) h' R.
Proof. exact pipeline_seen. Qed.
Print Assumptions C66_document.
(** Without commands there is nothing to send. *)
Theorem C66_empty : forall show fuel h n their p, ps_commands p = [] -> pipeline_data show fuel h n their p = Err ValueError.
Proof. intros show fuel h n their p E. unfold pipeline_data, to_create. now rewrite E. Qed.
Print Assumptions C66_empty.

(** ** Example: two statements that share an object that refers to itself *)
Definition result_types : name := tx "System.Management.Automation.Runspaces.PipelineResultTypes".
Definition apartment : name := tx "System.Threading.ApartmentState".
Definition streams : name := tx "System.Management.Automation.RemoteStreamOptions".
Definition enum_names (n : name) : list name := [n; tx "System.Enum"; tx "System.ValueType"; tx "System.Object"].
Definition pipe_reg : registry := fun n =>
  if name_eqb n result_types then Some (mkC (CEnum TInt32 true [0; 1; 2; 4; 8]%Z) (enum_names result_types) [] [])
  else if name_eqb n apartment then Some (mkC (CEnum TInt32 false [0; 1; 2]%Z) (enum_names apartment) [] [])
  else if name_eqb n streams then Some (mkC (CEnum TInt32 true [1; 2; 4; 8]%Z) (enum_names streams) [] [])
  else if name_eqb n (tx "System.Management.Automation.PSCustomObject") then Some (mkC CPlain py_names [] [])
  else if name_eqb n (tx "System.Collections.ArrayList") then Some (mkC (CList LList) list_names [] [])
  else None.
Definition pipe_lex : lexicon :=
  mkLex (fun n => if (name_eqb n result_types || name_eqb n apartment || name_eqb n streams)%bool then enum_names n
                  else if name_eqb n (tx "System.Management.Automation.PSCustomObject") then py_names else [n; tx "System.Object"])
        (fun _ _ => tx "Text").
Definition pipe_show (n : N) : list N := tx "Text".
Definition ex_member (n : name) (z : Z) : member := mkE (enum_names n) TInt32 z (tx "Text").
Definition pipe_heap : heap := [(1, mkG BPlain [] None [] [(tx "size", VPrim (PInt TInt32 7)); (tx "self", VRef 1)])]%N.
Definition pipe_cmd (t : list N) (eos : bool) : command value :=
  mkCmd t true (Some false) [(Some (tx "Name"), VRef 1); (None, VBool true)] eos true 2 1 1 8 0 1 8.
Definition pipe_ps (cs : list (command value)) : pipeline :=
  mkPS true (Some (ex_member apartment 2)) cs (Some (tx "h")) VNull false true (ex_member streams 3) true.
Definition pipe_ex : pipeline := pipe_ps [pipe_cmd (tx "Get-Item") true; pipe_cmd [65; 13; 10; 66]%N false].
Lemma tame_char c : (32 <= c < 127)%N -> valid_char c.
Proof. unfold valid_char. lia. Qed.
Lemma pipe_member n z flag vals : In n [result_types; apartment; streams] ->
  c_kind match pipe_reg n with Some c => c | None => mkC CPlain [] [] [] end = CEnum TInt32 flag vals -> flag = true \/ In z vals -> fits TInt32 z ->
  good_member pipe_reg pipe_lex (ex_member n z) /\ safe_value (VEnum (ex_member n z)).
Proof.
  intros H K V F. split.
  - assert (exists c, pipe_reg n = Some c /\ c_names c = enum_names n /\ full pipe_lex n = enum_names n /\ registered pipe_reg (enum_names n) = pipe_reg n) as (c & A & B & D & Q).
    { repeat (destruct H as [<- |H]; [eexists; repeat split; reflexivity|]). destruct H. }
    rewrite A in K. exists n, [tx "System.Enum"; tx "System.ValueType"; tx "System.Object"], c, flag, vals.
    split; [reflexivity|]. split; [exact D|]. split; [exact (eq_trans Q A)|]. split; [exact K|]. split; [exact B|]. split; [exact V|]. split; [exact F|].
    split; [reflexivity|]. apply Proofs_Clixml7.tame_good. reflexivity.
  - split; [|apply text_lit; reflexivity].
    repeat (destruct H as [<- |H]; [repeat (apply Forall_cons; [apply text_lit; reflexivity|]); apply Forall_nil|]). destruct H.
Qed.
Lemma pipe_flags : flags_known pipe_reg pipe_lex pipe_show.
Proof.
  intros n Hn. cbv zeta. apply (pipe_member result_types (Z.of_N n) true [0; 1; 2; 4; 8]%Z); [now left|reflexivity|now left|]. cbn. lia.
Qed.
Lemma pipe_usual : usual pipe_reg pipe_lex.
Proof.
  split; [reflexivity| |]; (split; [reflexivity|]); intros c H; vm_compute in H; [injection H as <-; reflexivity|discriminate].
Qed.
Lemma pipe_good : good_graph pipe_reg pipe_lex pipe_heap /\ legible_graph pipe_heap /\ closed pipe_heap /\ ranked pipe_heap (fun _ => 0%nat) /\ free_from pipe_heap 2.
Proof.
  assert (forall a o, aget a pipe_heap = Some o -> a = 1%N /\ o = mkG BPlain [] None [] [(tx "size", VPrim (PInt TInt32 7)); (tx "self", VRef 1)]) as O.
  { intros a o E. cbn [aget pipe_heap] in E. destruct (N.eqb_spec a 1); [|discriminate]. injection E as <-. auto. }
  assert (forall o v, o = mkG BPlain [] None [] [(tx "size", VPrim (PInt TInt32 7)); (tx "self", VRef 1)] -> mentions o v -> v = VPrim (PInt TInt32 7) \/ v = VRef 1) as M.
  { intros o v -> H. inversion H as [? ? I|? ? I| | | | | ]; try discriminate; cbn in I; [destruct I|]. destruct I as [I|[I|[]]]; injection I as _ <-; auto. }
  split; [split|split; [|split; [|split]]].
  - intros a o E. destruct (O a o E) as [_ ->]. split; [exact I|]. split; [split; [now left|discriminate]|]. split; [split; constructor|]. split; [|intros []].
    split; [repeat (apply NoDup_cons; [cbn; intuition discriminate|]); apply NoDup_nil|].
    repeat (apply Forall_cons; [split; [apply ascii_ok; reflexivity|cbn; try exact I; lia]|]). apply Forall_nil.
  - intros a b o o' p q E E' P Q. destruct (O a o E) as [_ ->]. discriminate.
  - reflexivity.
  - intros a o E. destruct (O a o E) as [_ Eo]. split; [subst o; constructor|]. split; [subst o; exact I|].
    split; [subst o; repeat (apply Forall_cons; [apply ascii_ok; reflexivity|]); apply Forall_nil|]. split; [subst o; discriminate|]. split; [subst o; discriminate|].
    intros v Hv. destruct (M o v Eo Hv) as [-> | ->]; exact I.
  - intros a o b E Hm. destruct (O a o E) as [_ Eo]. destruct (M o _ Eo Hm) as [Q|Q]; [discriminate|]. injection Q as ->. eexists. reflexivity.
  - intros a o b E N Hm. destruct (O a o E) as [_ ->]. destruct N. exact I.
  - intros a o E. destruct (O a o E) as [-> _]. lia.
Qed.
Lemma pipe_valid cs : cs <> [] -> Forall (fun c => exists t b, c = pipe_cmd t b /\ good_str t /\ attr_ok t) cs -> good_pipeline pipe_reg pipe_lex pipe_heap (pipe_ps cs).
Proof.
  intros N F. split; cbn [pipe_ps ps_commands ps_history ps_host ps_apartment ps_streams].
  - exact N.
  - eapply Forall_impl; [|exact F]. intros c (t & b & -> & G & A). split; [exact G|]. split; [exact A|]. split.
    + apply Forall_cons; [|apply Forall_cons; [|apply Forall_nil]]; (split; [first [exact I|apply ascii_ok; reflexivity]|]); split; try exact I; split; try exact I; intros a E; [|discriminate].
      injection E as <-. eexists. reflexivity.
    + repeat (apply Forall_cons; [reflexivity|]). apply Forall_nil.
  - apply ascii_ok. reflexivity.
  - split; [exact I|]. split; [exact I|]. intros a E. discriminate.
  - eexists. split; [reflexivity|]. destruct (pipe_member apartment 2 false [0; 1; 2]%Z) as [A B]; [cbn; tauto|reflexivity|cbn; tauto|cbn; lia|]. split; [exact A|]. split; [exact B|]. intros a E. discriminate.
  - destruct (pipe_member streams 3 true [1; 2; 4; 8]%Z) as [A B]; [cbn; tauto|reflexivity|now left|cbn; lia|]. split; [exact A|]. split; [exact B|]. intros a E. discriminate.
Qed.
Example C66_example :
  usual pipe_reg pipe_lex /\ flags_known pipe_reg pipe_lex pipe_show
  /\ (good_graph pipe_reg pipe_lex pipe_heap /\ legible_graph pipe_heap /\ closed pipe_heap /\ ranked pipe_heap (fun _ => 0%nat) /\ free_from pipe_heap 2)
  /\ good_pipeline pipe_reg pipe_lex pipe_heap pipe_ex
  /\ exists data p' h', pipeline_data pipe_show 30 pipe_heap 2 (Some (mkV 2 3 None None)) pipe_ex = Ok data
     /\ read_pipeline pipe_reg data = Ok (p', h')
     /\ map c_text (ps_commands p') = [tx "Get-Item"; [65; 13; 10; 66]%N] /\ map c_eos (ps_commands p') = [true; true]
     /\ map c_warn (ps_commands p') = [8; 8]%N
     /\ exists a, map (fun c => map snd (c_params c)) (ps_commands p') = [[VRef a; VBool true]; [VRef a; VBool true]]
     /\ option_map g_extended (aget a h') = Some [(tx "size", VPrim (PInt TInt32 7)); (tx "self", VRef a)].
Proof.
  split; [exact pipe_usual|]. split; [exact pipe_flags|]. split; [exact pipe_good|]. split.
  - apply pipe_valid; [discriminate|]. apply Forall_cons; [|apply Forall_cons; [|apply Forall_nil]]; do 2 eexists; (split; [reflexivity|]).
    + split; [apply ascii_ok; reflexivity|]. let t := eval vm_compute in (tx "Get-Item") in change (tx "Get-Item") with t. repeat (apply Forall_cons; [apply tame_char; lia|]). apply Forall_nil.
    + split; [apply ascii_ok; reflexivity|]. repeat (apply Forall_cons; [unfold valid_char; lia|]). apply Forall_nil.
  - eexists _, _, _. split; [vm_compute; reflexivity|]. split; [vm_compute; reflexivity|]. split; [vm_compute; reflexivity|]. split; [vm_compute; reflexivity|].
    split; [vm_compute; reflexivity|]. eexists. split; vm_compute; reflexivity.
Qed.

(** ** What does not arrive *)
(** The text of a command is written twice: escaped as property Cmd, and as it is, as the ToString of the command.  A script
    with a control character XML does not know, here the start of a colour escape, makes the whole message unreadable. *)
Theorem C66_control_refuted : exists p data,
  pipeline_data pipe_show 30 pipe_heap 2 None p = Ok data /\ ps_commands p = [pipe_cmd [34; 27; 91; 51; 49; 109; 34]%N false]
  /\ good_str [34; 27; 91; 51; 49; 109; 34]%N /\ safe_str [34; 27; 91; 51; 49; 109; 34]%N
  /\ exists e, read_pipeline pipe_reg data = Err e.
Proof.
  exists (pipe_ps [pipe_cmd [34; 27; 91; 51; 49; 109; 34]%N false]). eexists. split; [vm_compute; reflexivity|]. split; [reflexivity|].
  split; [apply ascii_ok; reflexivity|]. split; [apply ascii_ok; reflexivity|]. eexists. vm_compute. reflexivity.
Qed.
Print Assumptions C66_control_refuted.
(** A statement without commands is sent when the last command ends a statement, which it does in every pipeline that was
    itself received: a pipeline that is passed on unchanged goes out with one more, empty, statement. *)
Theorem C66_passed_on_refuted : exists p data p' h' data' ap host shell h'',
  good_pipeline pipe_reg pipe_lex pipe_heap p
  /\ pipeline_data pipe_show 30 pipe_heap 2 None p = Ok data /\ read_pipeline pipe_reg data = Ok (p', h')
  /\ statements_of (ps_commands p) [ps_commands p]
  /\ statements_of (ps_commands p') [ps_commands p'; []]
  /\ pipeline_data pipe_show 30 h' 100 None p' = Ok data'
  /\ read_message pipe_reg KCreatePipeline data' = Ok (WCreatePipeline (ps_no_input p) ap (ps_streams p) (ps_history_add p) host shell (ps_nested p), h'')
  /\ exists c e l s1 s2 x, prop h'' shell (tx "Cmds") = Some c /\ prop h'' shell (tx "ExtraCmds") = Some (VRef e)
  /\ option_map g_body (aget e h'') = Some (BList l [s1; s2]) /\ prop h'' s2 (tx "Cmds") = Some (VRef x)
  /\ option_map g_body (aget x h'') = Some (BList l []).
Proof.
  exists (pipe_ps [pipe_cmd (tx "Get-Item") false]). eexists _, _, _, _, _, _, _, _. split.
  { apply pipe_valid; [discriminate|]. apply Forall_cons; [|apply Forall_nil]; do 2 eexists; (split; [reflexivity|]).
    split; [apply ascii_ok; reflexivity|]. let t := eval vm_compute in (tx "Get-Item") in change (tx "Get-Item") with t. repeat (apply Forall_cons; [apply tame_char; lia|]). apply Forall_nil. }
  split; [vm_compute; reflexivity|]. split; [vm_compute; reflexivity|].
  split.
  { split; [reflexivity|]. exists [], [pipe_cmd (tx "Get-Item") false]. split; [reflexivity|]. split; [constructor; [reflexivity|constructor]|constructor]. }
  split.
  { split; [reflexivity|]. eexists [_], []. split; [reflexivity|]. split; [constructor|]. constructor; [|constructor]. eexists [], _. split; [reflexivity|]. split; [constructor|reflexivity]. }
  split; [vm_compute; reflexivity|]. split; [vm_compute; reflexivity|].
  eexists _, _, _, _, _, _. split; [vm_compute; reflexivity|]. split; [vm_compute; reflexivity|]. split; [vm_compute; reflexivity|]. split; vm_compute; reflexivity.
Qed.
Print Assumptions C66_passed_on_refuted.
