(** C65: host calls, their results and host information through the bytes of a message. *)
From Coq Require Import String.
From Verif Require Import Base BaseFacts Model_Scalars Model_Object Model_Clixml Model_Xml Model_Messages Model_Host Spec_Strings Spec_Scalars
  Spec_Clixml Spec_Xml Spec_Messages Spec_Host Spec_HostWire Proofs_Messages Proofs_Host Proofs_HostWire Proofs_HostWire2 Proofs_HostWire3.
From Verif Require Import Properties_Clixml.
Local Open Scope list_scope.

(** ** C65 *)
(** A value is at most one plain value, and every plain value whose texts and numbers can travel is some value of a graph
    that can be written. *)
Theorem C65_unique : forall h x y v, looks h x v -> looks h y v -> x = y.
Proof. intros. eapply looks_unique; eauto. Qed.
Print Assumptions C65_unique.
Theorem C65_representable : forall reg lx x, usual reg lx -> sendable x -> exists h v a rank,
  good_graph reg lx h /\ safe_graph h /\ closed h /\ ranked h rank /\ aget a h = None
  /\ good_value reg lx v /\ safe_value v /\ here h v /\ looks h x v.
Proof. intros. now apply representable. Qed.
Print Assumptions C65_representable.
(** Every plain value in a message comes out of its bytes as it was. *)
Theorem C65_values : forall reg lx h a m fuel data,
  good_graph reg lx h -> safe_graph h -> closed h -> aget a h = None -> good_message reg lx m -> Forall (here h) (values m) ->
  message_data fuel h a m = Ok data ->
  exists m' h', read_message reg (kind m) data = Ok (m', h') /\ skeleton m' = skeleton m
    /\ Forall2 (fun v v' => forall x, looks h x v -> looks h' x v') (values m) (values m').
Proof.
  intros reg lx h a m fuel data G S C A M H E. destruct (message_roundtrip reg lx h a m fuel data G S C A M H E) as (m' & h' & R & X & [Y Z] & W).
  exists m', h'. split; [exact X|]. split; [exact Y|]. clear - W Z. induction Z as [|v v' l l' SV Z IH]; constructor; [|exact IH]. intros x L. eapply looks_kept; eauto.
Qed.
Print Assumptions C65_values.

(** What the client makes of a host call it reads: the method, and the parameters as the events decode them. *)
Definition client_sees (h : heap) (m : message) (pipe : bool) (ci : Z) (f : N * list dv) : Prop :=
  exists e mp, m = WHostCall pipe ci e mp /\ e_val e = Z.of_N (fst f)
  /\ (exists ps, looks h (HList ps) mp) /\ forall ps, looks h (HList ps) mp -> decode_params (fst f) ps = Ok (snd f).
(** A host call of any helper, given as objects in any way, is written, and whatever its bytes are the client reads from them the
    same call id, the method the request stands for and the arguments given. *)
Theorem C65_call : forall reg lx h rank a pipe ci e mp r ps,
  good_graph reg lx h -> safe_graph h -> closed h -> ranked h rank -> aget a h = None ->
  request_ok r -> encode r = Ok (fst (meaning r), ps) -> looks h (HList ps) mp ->
  good_member reg lx e -> safe_value (VEnum e) -> e_val e = Z.of_N (fst (meaning r)) -> fits TInt64 ci ->
  (exists fuel data, message_data fuel h a (WHostCall pipe ci e mp) = Ok data)
  /\ forall fuel data, message_data fuel h a (WHostCall pipe ci e mp) = Ok data ->
     exists m' h', read_message reg (kind (WHostCall pipe ci e mp)) data = Ok (m', h') /\ client_sees h' m' pipe ci (meaning r).
Proof.
  intros reg lx h rank a pipe ci e mp r ps G S C RK A Rok E L Ge Se Ev F.
  assert (exists b o, mp = VRef b /\ aget b h = Some o) as (b & o & -> & Hb).
  { rewrite looks_list in L. destruct L as (b & o & k & vs & -> & Hb & _). eauto. }
  set (m := WHostCall pipe ci e (VRef b)).
  assert (Forall (here h) (values m)) as HV by (constructor; [intros c Hc; injection Hc as <-; eauto|constructor]).
  split.
  - apply (writes h a m rank C RK A HV). constructor; [exact F|constructor].
  - intros fuel data D.
    assert (good_message reg lx m) as GM.
    { split; [|split; [|exact I]].
      - cbn [fields m]. repeat (apply Forall_cons; [|]); try apply Forall_nil; [exact F|exact Ge|exact I].
      - cbn [fields m]. repeat (apply Forall_cons; [|]); try apply Forall_nil; [exact I|exact Se|exact I]. }
    destruct (C65_values reg lx h a m fuel data G S C A GM HV D) as (m' & h' & X & Y & Z). exists m', h'. split; [exact X|].
    destruct m'; try discriminate Y; try (destruct v; discriminate Y). cbn in Y. injection Y as -> -> ->. cbn [values m] in Z. inversion Z as [|? ? ? ? Z1 _]; subst.
    exists e, mp. split; [reflexivity|]. split; [exact Ev|]. specialize (Z1 _ L). split; [eauto|].
    intros ps' L'. pose proof (looks_unique _ _ _ _ L' Z1) as Q. injection Q as ->.
    destruct (host_call_roundtrip r Rok) as (ps2 & E2 & D2). rewrite E in E2. injection E2 as ->. exact D2.
Qed.
Print Assumptions C65_call.
(** And every request whose texts and numbers can travel has such objects. *)
Theorem C65_request : forall reg lx r, usual reg lx -> request_ok r -> can_travel (texts r) (chars r) (ints r) ->
  exists h rank a ps mp, good_graph reg lx h /\ safe_graph h /\ closed h /\ ranked h rank /\ aget a h = None
  /\ encode r = Ok (fst (meaning r), ps) /\ looks h (HList ps) mp.
Proof.
  intros reg lx r U K T. destruct (host_call_roundtrip r K) as (ps & E & _).
  destruct (representable reg lx U (HList ps) (request_sends r _ ps K T E)) as (h & v & a & rank & G & S & C & R & A & _ & _ & _ & L).
  exists h, rank, a, ps, v. repeat (split; [assumption|]). assumption.
Qed.
Print Assumptions C65_request.

(** What the server makes of a response without error. *)
Definition server_sees (h : heap) (m : message) (pipe : bool) (ci : Z) (method : N) (f : dv) : Prop :=
  exists e mr, m = WHostResponse pipe ci e mr VNull /\ e_val e = Z.of_N method
  /\ (exists x, looks h x mr) /\ forall x, looks h x mr -> decode_result method x = Ok f.
Theorem C65_response : forall reg lx h rank a pipe ci e mr r x,
  good_graph reg lx h -> safe_graph h -> closed h -> ranked h rank -> aget a h = None ->
  response_ok r -> encode_response r = Ok x -> looks h x mr -> good_value reg lx mr -> safe_value mr -> here h mr ->
  good_member reg lx e -> safe_value (VEnum e) -> e_val e = Z.of_N (response_method r) -> fits TInt64 ci ->
  (exists fuel data, message_data fuel h a (WHostResponse pipe ci e mr VNull) = Ok data)
  /\ forall fuel data, message_data fuel h a (WHostResponse pipe ci e mr VNull) = Ok data ->
     exists m' h', read_message reg (kind (WHostResponse pipe ci e mr VNull)) data = Ok (m', h')
       /\ server_sees h' m' pipe ci (response_method r) (response_meaning r).
Proof.
  intros reg lx h rank a pipe ci e mr r x G S C RK A Rok E L Gv Sv Hv Ge Se Ev F.
  set (m := WHostResponse pipe ci e mr VNull).
  assert (Forall (here h) (values m)) as HV by (constructor; [exact Hv|constructor; [intros c Hc; discriminate|constructor]]).
  split.
  - apply (writes h a m rank C RK A HV). constructor; [exact F|constructor].
  - intros fuel data D.
    assert (good_message reg lx m) as GM.
    { split; [|split; [|exact I]].
      - cbn [fields m]. repeat (apply Forall_cons; [|]); try apply Forall_nil; [exact F|exact Ge|exact Gv|exact I].
      - cbn [fields m]. repeat (apply Forall_cons; [|]); try apply Forall_nil; [exact I|exact Se|exact Sv|exact I]. }
    destruct (message_roundtrip reg lx h a m fuel data G S C A GM HV D) as (m' & h' & R & X & [Y Z] & W). exists m', h'. split; [exact X|].
    destruct m'; try discriminate Y; try (destruct v; discriminate Y). cbn in Y. injection Y as -> -> ->. cbn [values m] in Z. inversion Z as [|? ? ? ? Z1 Z2]; subst.
    inversion Z2 as [|? ? ? ? Z3 _]; subst. inversion Z3; subst.
    exists e, mr0. split; [reflexivity|]. split; [exact Ev|]. pose proof (looks_kept reg h h' R W x _ _ L Z1) as L1. split; [eauto|].
    intros y L'. pose proof (looks_unique _ _ _ _ L' L1) as ->.
    destruct (host_response_roundtrip r Rok) as (x2 & E2 & D2). rewrite E in E2. injection E2 as ->. exact D2.
Qed.
Print Assumptions C65_response.
Theorem C65_answer : forall reg lx r, usual reg lx -> response_ok r -> match r with PRaw _ v => sendable v | _ => True end ->
  can_travel [] (resp_chars r) (resp_ints r) ->
  exists h rank a x mr, good_graph reg lx h /\ safe_graph h /\ closed h /\ ranked h rank /\ aget a h = None
  /\ good_value reg lx mr /\ safe_value mr /\ here h mr /\ encode_response r = Ok x /\ looks h x mr.
Proof.
  intros reg lx r U K W T. destruct (host_response_roundtrip r K) as (x & E & _).
  destruct (representable reg lx U x (response_sends r x K W T E)) as (h & v & a & rank & G & S & C & R & A & V1 & V2 & V3 & L).
  exists h, rank, a, x, v. repeat (split; [assumption|]). assumption.
Qed.
Print Assumptions C65_answer.

(** The host information of a new runspace pool or pipeline, whatever else the message carries. *)
Theorem C65_host_info : forall reg lx h a m fuel data hi v,
  good_graph reg lx h -> safe_graph h -> closed h -> aget a h = None -> good_message reg lx m -> Forall (here h) (values m) ->
  (exists mn mx t ap args, m = WInitRunspacePool mn mx t ap v args)
    \/ (exists ni ap op hist ps nested, m = WCreatePipeline ni ap op hist v ps nested) ->
  host_ok hi -> looks h (host_info_to hi) v -> message_data fuel h a m = Ok data ->
  exists m' h' v', read_message reg (kind m) data = Ok (m', h') /\ skeleton m' = skeleton m /\ hd_error (values m') = Some v'
    /\ (exists x, looks h' x v') /\ forall x, looks h' x v' -> host_info_from x = Ok hi.
Proof.
  intros reg lx h a m fuel data hi v G S C A M H Sh K L D.
  destruct (C65_values reg lx h a m fuel data G S C A M H D) as (m' & h' & X & Y & Z).
  assert (exists v' w, values m' = v' :: w /\ forall x, looks h x v -> looks h' x v') as (v' & w & V & Q).
  { destruct Sh as [(mn & mx & t & ap & args & ->)|(ni & ap & op & hist & ps & nested & ->)]; cbn [values] in Z;
      inversion Z as [|? v' ? w Z1 Z2]; subst; exists v', w; auto. }
  exists m', h', v'. split; [exact X|]. split; [exact Y|]. split; [rewrite V; reflexivity|]. split; [eauto|].
  intros x Lx. rewrite (looks_unique _ _ _ _ Lx (Q _ L)). now apply host_info_roundtrip.
Qed.
Print Assumptions C65_host_info.
Theorem C65_host_info_sent : forall reg lx hi, usual reg lx -> host_ok hi ->
  match hi_data hi with Some d => good_str (hd_title d) /\ safe_str (hd_title d) | None => True end ->
  exists h rank a v, good_graph reg lx h /\ safe_graph h /\ closed h /\ ranked h rank /\ aget a h = None
  /\ here h v /\ looks h (host_info_to hi) v.
Proof.
  intros reg lx hi U K T. destruct (representable reg lx U _ (host_info_sends hi K T)) as (h & v & a & rank & G & S & C & R & A & V1 & V2 & V3 & L).
  exists h, rank, a, v. repeat (split; [assumption|]). assumption.
Qed.
Print Assumptions C65_host_info_sent.

(** ** Example *)
Definition method_id : name := tx "System.Management.Automation.Remoting.RemoteHostMethodId".
Definition method_names_full : list name := [method_id; tx "System.Enum"; tx "System.ValueType"; tx "System.Object"].
Definition host_reg : registry := fun n =>
  if name_eqb n method_id then Some (mkC (CEnum TInt32 false (map Z.of_nat (seq 1 56))) method_names_full [] [])
  else if name_eqb n (tx "System.Management.Automation.PSCustomObject") then Some (mkC CPlain py_names [] [])
  else if name_eqb n (tx "System.Collections.ArrayList") then Some (mkC (CList LList) list_names [] [])
  else None.
Definition host_lex : lexicon :=
  mkLex (fun n => if name_eqb n method_id then method_names_full
                  else if name_eqb n (tx "System.Management.Automation.PSCustomObject") then py_names else [n; tx "System.Object"])
        (fun _ z => if (z =? 32)%Z then tx "SetCursorPosition" else tx "ScrollBufferContents").
Definition set_cursor : member := mkE method_names_full TInt32 32 (tx "SetCursorPosition").
Definition cursor_heap : heap :=
  [(1, mkG BPlain [] None [] [(tx "x", i32 3); (tx "y", i32 (-4))]); (2, mkG (BList LList [VRef 1]) list_names None [] [])]%N.
Definition cursor_call : message := WHostCall true (-100) set_cursor (VRef 2).
Definition ex_scroll : request := RScrollBufferContents 1 2 3 4 5 6 7 8 9 10 65 11 12.
Lemma host_usual : usual host_reg host_lex.
Proof.
  split; [reflexivity| |]; (split; [reflexivity|]); intros c H; vm_compute in H; [injection H as <-; reflexivity|discriminate].
Qed.
Lemma cursor_looks : looks cursor_heap (HList [coord_to (mkCoord 3 (-4))]) (VRef 2).
Proof.
  rewrite looks_list. eexists _, _, _, _. split; [reflexivity|]. split; [reflexivity|]. split; [reflexivity|]. constructor; [|constructor].
  unfold coord_to. rewrite looks_obj. eexists _, _. split; [reflexivity|]. split; [reflexivity|]. split; [reflexivity|]. split; [reflexivity|].
  repeat (constructor; [split; [reflexivity|right; left; eexists; reflexivity]|]). constructor.
Qed.
Example C65_example :
  usual host_reg host_lex /\ request_ok ex_scroll /\ can_travel (texts ex_scroll) (chars ex_scroll) (ints ex_scroll)
  /\ can_travel (texts (RWriteLine (Some (tx "done <1>")) (Some 3%Z) None)) [] []
  /\ response_ok (PKey 65 97 8 true) /\ can_travel [] (resp_chars (PKey 65 97 8 true)) (resp_ints (PKey 65 97 8 true))
  /\ good_member host_reg host_lex set_cursor /\ looks cursor_heap (HList [coord_to (mkCoord 3 (-4))]) (VRef 2)
  /\ exists data m' h', message_data 9 cursor_heap 90 cursor_call = Ok data /\ length data = 454
     /\ read_message host_reg KPipelineHostCall data = Ok (m', h')
     /\ client_sees h' m' true (-100) (32%N, [DCoord (mkCoord 3 (-4))]).
Proof.
  split; [exact host_usual|]. split; [cbn; unfold int32_ok, color_ok; lia|].
  split; [repeat split; repeat (constructor; [lia|]); constructor|].
  split; [split; [constructor; [apply ascii_ok; vm_compute; reflexivity|constructor]|split; constructor]|].
  split; [unfold response_ok, int32_ok; lia|]. split; [repeat split; repeat (constructor; [lia|]); constructor|].
  assert (good_member host_reg host_lex set_cursor) as Ge.
  { eexists _, _, _, _, _. split; [reflexivity|]. split; [reflexivity|]. split; [reflexivity|]. split; [reflexivity|]. split; [reflexivity|].
    split; [right; vm_compute; tauto|]. split; [cbn; lia|]. split; [reflexivity|]. apply Proofs_Clixml7.tame_good. reflexivity. }
  split; [exact Ge|]. split; [exact cursor_looks|].
  eexists _, _, _. split; [vm_compute; reflexivity|]. split; [vm_compute; reflexivity|]. split; [vm_compute; reflexivity|].
  eexists _, _. split; [reflexivity|]. split; [reflexivity|].
  match goal with |- (exists ps, looks ?h _ ?v) /\ _ => assert (looks h (HList [coord_to (mkCoord 3 (-4))]) v) as L end.
  { rewrite looks_list. eexists _, _, _, _. split; [reflexivity|]. split; [reflexivity|]. split; [reflexivity|]. constructor; [|constructor].
    unfold coord_to. rewrite looks_obj. eexists _, _. split; [reflexivity|]. split; [reflexivity|]. split; [reflexivity|]. split; [reflexivity|].
    repeat (constructor; [split; [reflexivity|right; left; eexists; reflexivity]|]). constructor. }
  split; [eauto|]. intros ps Hp. pose proof (looks_unique _ _ _ _ Hp L) as Q. injection Q as ->. reflexivity.
Qed.
