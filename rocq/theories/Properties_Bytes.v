(** C55: client and server joined by bytes. *)
From Coq Require Import String.
From Verif Require Import Base BaseFacts Model_Scalars Model_Strings Model_Text Model_Object Model_Clixml Model_Xml Model_Utf8 Model_Messages.
From Verif Require Import Spec_Scalars Spec_Strings Spec_Clixml Spec_Xml Spec_Messages.
From Verif Require Import Model_Payload Model_Transport Model_Command Model_Host Model_Pool Model_Bytes Spec_Transport Spec_Pool Spec_Sys Spec_Bytes.
From Verif Require Import Proofs_Clixml7 Proofs_Sys3 Proofs_Sys4 Proofs_Sys5 Proofs_Sys6 Proofs_Sys7 Proofs_Bytes Properties_Clixml Properties_Xml.
Local Open Scope list_scope.

(** Whatever the two sides do, however large the payloads are and in whatever order they are sent, received and
    processed: the two pools are those of a run of Model_Pool's [sys] with the same operations in the same order, in
    which messages are handed over whole.  When nothing is under way, that run has nothing under way either. *)
Theorem C55_refines : forall reg lx rd rc rs rpid mn mx cfg session private l,
  stable reg rd -> Forall no_bconnect l ->
  let z := brun rd reg rc rs (bsys_init rpid mn mx cfg session private) l in
  all_realised reg lx rd rc rs z -> not_too_long l z ->
  exists ll n m, Forall2 mirrors l ll
    /\ run (sys_init rpid mn mx cfg session private) (concat ll) = mkSys (e_pool (b_c z)) (e_pool (b_s z)) n n m m
    /\ (silent z -> n = length (p_out (e_pool (b_c z))) /\ m = length (p_out (e_pool (b_s z)))).
Proof.
  intros reg lx rd rc rs rpid mn mx cfg session private l HS F z HA HT.
  destruct (refines reg lx rd rc rs HS rpid mn mx cfg session private l F HA HT) as (ll & n & m & H1 & H2 & H3).
  fold z in H2, H3. exists ll, n, m. split; [exact H1|]. split; [exact H2|]. intros HQ. specialize (H3 HQ).
  rewrite H2 in H3. exact H3.
Qed.
Print Assumptions C55_refines.

(** ** What C30, C32, C34 and C35 say, of the bytes *)
Theorem C55_limits_agree : forall reg lx rd rc rs rpid mn mx cfg session private l,
  stable reg rd -> Forall no_bconnect l ->
  let z := brun rd reg rc rs (bsys_init rpid mn mx cfg session private) l in
  all_realised reg lx rd rc rs z -> not_too_long l z -> silent z ->
  (exists m, In m (p_out (e_pool (b_c z))) /\ handshake (o_body m)) ->
  p_min (e_pool (b_c z)) = p_min (e_pool (b_s z)) /\ p_max (e_pool (b_c z)) = p_max (e_pool (b_s z)).
Proof.
  intros reg lx rd rc rs rpid mn mx cfg session private l HS F z HA HT HQ HH.
  destruct (C55_refines reg lx rd rc rs rpid mn mx cfg session private l HS F HA HT) as (ll & n & m & _ & HY & HQ').
  specialize (HQ' HQ). fold z in HY, HQ'. destruct HQ' as [Q1 Q2]. subst n m.
  pose proof (C30_agree rpid mn mx cfg session private (concat ll)) as C. cbv zeta in C. rewrite HY in C.
  unfold cdone, cway, sway in C. cbn [y_c y_s y_cd y_sd] in C. rewrite firstn_all, !skipn_all in C.
  apply C; [exact HH|intros ? []|intros ? []].
Qed.
Print Assumptions C55_limits_agree.
(** A client that opens its pool, and nothing else than sending, receiving and processing on both sides. *)
Theorem C55_opens : forall reg lx rd rc rs rpid mn mx cfg session private l,
  stable reg rd -> Forall bdelivery l ->
  let z := brun rd reg rc rs (bsys_init rpid mn mx (Good cfg) session (Good private)) (BClient COpen :: l) in
  all_realised reg lx rd rc rs z -> not_too_long (BClient COpen :: l) z -> silent z ->
  let c := e_pool (b_c z) in let s := e_pool (b_s z) in
  p_state c = Opened /\ p_state s = Opened /\ p_rpid s = rpid /\ p_rpid c = rpid
  /\ (p_min s, p_max s) = (mn, mx) /\ (p_min c, p_max c) = (mn, mx)
  /\ p_their c = Some (p_our s) /\ p_their s = Some (p_our c) /\ p_private c = Good private /\ p_config s = Good cfg.
Proof.
  intros reg lx rd rc rs rpid mn mx cfg session private l HS HD z HA HT HQ.
  assert (F : Forall no_bconnect (BClient COpen :: l)).
  { constructor; [discriminate|]. eapply Forall_impl; [|exact HD]. intros [] H X; try discriminate X. exact H. }
  destruct (C55_refines reg lx rd rc rs rpid mn mx (Good cfg) session (Good private) _ HS F HA HT) as (ll & n & m & HM & HY & HQ').
  specialize (HQ' HQ). fold z in HY, HQ'. destruct HQ' as [Q1 Q2]. subst n m.
  inversion HM as [|? x ? ll' Ha HM']; subst. cbn [mirrors] in Ha. subst x. cbn [concat app] in HY.
  assert (D : Forall delivery (concat ll')).
  { apply (mirrors_forall delivery l ll' HM'); [auto|]. eapply Forall_impl; [|exact HD]. intros []; cbn; auto. }
  pose proof (h_outcome rpid mn mx cfg session private (concat ll') D) as C. cbv zeta in C.
  assert (EY : run (act (sys_init rpid mn mx (Good cfg) session (Good private)) (AClient COpen)) (concat ll')
    = mkSys (e_pool (b_c z)) (e_pool (b_s z)) (length (p_out (e_pool (b_c z)))) (length (p_out (e_pool (b_c z))))
        (length (p_out (e_pool (b_s z)))) (length (p_out (e_pool (b_s z))))) by exact HY.
  unfold opened in C. rewrite EY in C. apply C. split; reflexivity.
Qed.
Print Assumptions C55_opens.
Theorem C55_right_caller : forall reg lx rd rc rs rpid mn mx cfg session private l,
  stable reg rd -> Forall no_bconnect l ->
  let z := brun rd reg rc rs (bsys_init rpid mn mx cfg session private) l in
  all_realised reg lx rd rc rs z -> not_too_long l z ->
  (forall m ci mi, In m (p_out (e_pool (b_c z))) -> response_of (o_body m) = Some (ci, mi) ->
   exists m', In m' (p_out (e_pool (b_s z))) /\ call_of (o_body m') = Some (ci, mi) /\ o_pid (arriving m') = o_pid m /\ ci <> (-100)%Z)
  /\ NoDup (response_ids (p_out (e_pool (b_c z)))).
Proof.
  intros reg lx rd rc rs rpid mn mx cfg session private l HS F z HA HT.
  destruct (C55_refines reg lx rd rc rs rpid mn mx cfg session private l HS F HA HT) as (ll & n & m & HM & HY & _). fold z in HY.
  split.
  - intros om ci mi Hi Hr. pose proof (C34_matches rpid mn mx cfg session private (concat ll)) as C. cbv zeta in C. rewrite HY in C.
    destruct (C om ci mi Hi Hr) as (m' & A & B). exists m'. split; [|exact B]. unfold sdone in A. cbn [y_s y_sd] in A.
    rewrite <- (firstn_skipn m (p_out (e_pool (b_s z)))). apply in_or_app. now left.
  - pose proof (C34_once rpid mn mx cfg session private (concat ll)) as C. rewrite HY in C. apply C.
    apply (mirrors_forall no_connect l ll HM).
    + intros a D X. subst a. exact D.
    + eapply Forall_impl; [|exact F]. intros [] H; auto; unfold no_connect; try discriminate. intros X. apply H. congruence.
Qed.
Print Assumptions C55_right_caller.
Theorem C55_same_key : forall reg lx rd rc rs rpid mn mx cfg session private l,
  stable reg rd -> Forall no_bconnect l ->
  let z := brun rd reg rc rs (bsys_init rpid mn mx cfg session private) l in
  all_realised reg lx rd rc rs z -> not_too_long l z ->
  let c := e_pool (b_c z) in let s := e_pool (b_s z) in
  (count is_public_key (p_out c) <= 1 /\ count is_session_key (p_out s) <= 1)
  /\ p_key s = Some session /\ (p_key c = None \/ p_key c = Some session)
  /\ (silent z -> 0 < count is_session_key (p_out s) -> p_key c = Some session)
  /\ (forall m pub key, In m (p_out s) -> o_body m = MEncryptedSessionKey pub key -> p_xkey c = Some pub /\ key = session).
Proof.
  intros reg lx rd rc rs rpid mn mx cfg session private l HS F z HA HT.
  destruct (C55_refines reg lx rd rc rs rpid mn mx cfg session private l HS F HA HT) as (ll & n & m & HM & HY & HQ). fold z in HY, HQ.
  pose proof (C35_joined rpid mn mx cfg session private (concat ll)) as C. cbv zeta in C. rewrite HY in C.
  unfold sdone in C. cbn [y_c y_s y_sd] in C. destruct C as (C1 & C2 & C3 & C4 & C5). cbv zeta.
  split; [exact C1|]. split; [exact C2|]. split; [exact C3|]. split; [|exact C5].
  intros Q HC. destruct (HQ Q) as [_ ->]. rewrite firstn_all in C4. unfold count in HC.
  destruct (filter _ _) as [|x t] eqn:E in HC; [cbn in HC; lia|].
  assert (I : In x (x :: t)) by now left. rewrite <- E in I. apply filter_In in I. destruct I as [I1 I2]. eapply C4; eauto.
Qed.
Print Assumptions C55_same_key.

(** ** A reading and the messages behind it *)
(** Tokens as 64-bit integers, method identifiers as members of a flag enumeration. *)
Definition tok_reg : registry := fun n => if name_eqb n custom then Some (Model_Clixml.mkC CPlain py_names [] []) else if name_eqb n (tx "Any") then Some (Model_Clixml.mkC (CEnum TInt32 true []) [tx "Any"] [] []) else None.
Definition tok_lex : lexicon := mkLex (fun n => [n]) (fun _ _ => []).
Definition any (z : Z) : member := mkE [tx "Any"] TInt32 z [].
Definition tok (n : N) : value := VPrim (PInt TInt64 (Z.of_N n)).
Definition tok_opt (n : option N) : value := match n with Some n => tok n | None => VNull end.
Definition tok_val (h : heap) (v : value) : N :=
  match v with VPrim (PInt _ z) | VPrim (PPlainInt z) => Z.to_N z | _ => 0%N end.
Definition tok_rd : reading :=
  mkReading
    (fun h m => match m with
                | WProgressRecord _ (Some z) _ _ _ _ _ _ => Z.to_N z
                | _ => match values m with v :: _ => tok_val h v | [] => 0%N end
                end)
    tok_val
    (fun l => match l with [a] => Some a | _ => None end)
    (fun l => match l with [a; b] => (a, b) | _ => (0, 0)%N end).
Lemma tok_stable reg : stable reg tok_rd.
Proof.
  intros h h' R _. assert (V : forall v v', same_value R v v' -> tok_val h v = tok_val h' v').
  { intros v v' []; auto. destruct p; cbn [same_prim] in H; try (subst q; reflexivity). destruct H as (t & _ & _ & ->). reflexivity. }
  split; [|exact V]. intros m m' [E F]. cbn [rd_msg tok_rd].
  assert (A : match values m with v :: _ => tok_val h v | [] => 0%N end = match values m' with v :: _ => tok_val h' v | [] => 0%N end).
  { destruct F as [|v v' l l' G _]; auto. }
  destruct m; destruct m'; repeat match goal with o : option value |- _ => destruct o end; cbn [skeleton] in E; try discriminate E; try exact A.
  injection E as -> -> -> -> -> -> -> ->. destruct id; [reflexivity|exact A].
Qed.
Definition tok_msg (b : body) : message :=
  match b with
  | MSessionCapability c => WSessionCapability (cap_ps c) (cap_proto c) (cap_ser c) []
  | MInitRunspacePool mn mx t => WInitRunspacePool mn mx (any 0) (any 0) (tok t) VNull
  | MConnectRunspacePool a b => WConnectRunspacePool a b
  | MPublicKey k => WPublicKey (match k with Some a => [a] | None => [] end)
  | MPublicKeyRequest => WPublicKeyRequest
  | MEncryptedSessionKey a b => WEncryptedSessionKey [a; b]
  | MSetMaxRunspaces n ci => WSetMaxRunspaces n ci
  | MSetMinRunspaces n ci => WSetMinRunspaces n ci
  | MGetAvailableRunspaces ci => WGetAvailableRunspaces ci
  | MResetRunspaceState ci => WResetRunspaceState ci
  | MRunspaceAvailability ci r => WRunspaceAvailability (match r with RBool b => inl b | RInt n => inr n | ROther => inl false end) ci
  | MApplicationPrivateData d => WApplicationPrivateData (tok d)
  | MRunspacePoolState s r => WRunspacePoolState (match s with BeforeOpen => 0 | Opening => 1 | Opened => 2 | Closed => 3 | Closing => 4
                                | Broken => 5 | Disconnecting => 6 | Disconnected => 7 | Connecting => 8 end)%Z (tok_opt r)
  | MRunspacePoolInitData a b => WRunspacePoolInitData a b
  | MRunspacePoolHostCall ci mi p => WHostCall false ci (any (Z.of_N mi)) (tok p)
  | MPipelineHostCall ci mi p => WHostCall true ci (any (Z.of_N mi)) (tok p)
  | MRunspacePoolHostResponse ci mi a b => WHostResponse false ci (any (Z.of_N mi)) (tok_opt a) (tok_opt b)
  | MPipelineHostResponse ci mi a b => WHostResponse true ci (any (Z.of_N mi)) (tok_opt a) (tok_opt b)
  | MUserEvent d => WUserEvent None None None (tok d) VNull VNull None None
  | MCreatePipeline d => WCreatePipeline true (any 0) (any 0) false (tok d) VNull false
  | MGetCommandMetadata d => WGetCommandMetadata (tok d) (any 0) VNull VNull
  | MPipelineInput d => WPipelineInput (tok d)
  | MEndOfPipelineInput => WEndOfPipelineInput
  | MPipelineOutput d => WPipelineOutput (option_map tok d)
  | MRecord KError d => WRecord RecError (tok d) | MRecord KDebug d => WRecord RecDebug (tok d)
  | MRecord KVerbose d => WRecord RecVerbose (tok d) | MRecord KWarning d => WRecord RecWarning (tok d)
  | MRecord KProgress d => WProgressRecord None (Some (Z.of_N d)) None None None None None None
  | MInformationRecord d => WInformationRecord (tok d) None None VNull None None None None None
  | MPipelineState s r => WPipelineState (match s with NotStarted => 0 | Running => 1 | Stopping => 2 | Stopped => 3 | Completed => 4
                            | Failed => 5 | PDisconnected => 6 end)%Z (tok_opt r)
  | MBad _ => WPublicKeyRequest
  end.
Definition tok_real (m : omsg) : concrete := mkConcrete 3 [] 0 (tok_msg (o_body m)).
(** Every body that the pools send can be realised in this way, within the ranges of the types. *)
Definition tok32 (z : Z) : Prop := (- 2 ^ 31 <= z < 2 ^ 31)%Z.
Definition tok64 (z : Z) : Prop := (- 2 ^ 63 <= z < 2 ^ 63)%Z.
Definition small (n : N) : Prop := (n < 2 ^ 31)%N.
Definition small_opt (n : option N) : Prop := match n with Some n => small n | None => True end.
Definition in_reach (b : body) : Prop :=
  match b with
  | MSessionCapability c => version_wf (cap_ps c) /\ version_wf (cap_proto c) /\ version_wf (cap_ser c)
  | MInitRunspacePool a b t => tok32 a /\ tok32 b /\ small t
  | MConnectRunspacePool a b => match a with Some a => tok32 a /\ a <> 0%Z | None => True end
                               /\ match b with Some b => tok32 b /\ b <> 0%Z | None => True end
  | MPublicKey k => match k with Some a => (a < 256)%N /\ tame (base64 [a]) = true | None => True end
  | MEncryptedSessionKey a b => (a < 256)%N /\ (b < 256)%N /\ tame (base64 [a; b]) = true
  | MSetMaxRunspaces n ci | MSetMinRunspaces n ci => tok32 n /\ tok64 ci
  | MGetAvailableRunspaces ci | MResetRunspaceState ci => tok64 ci
  | MRunspaceAvailability ci r => tok64 ci /\ match r with RBool _ => True | RInt n => tok32 n | ROther => False end
  | MApplicationPrivateData d | MUserEvent d | MCreatePipeline d | MGetCommandMetadata d | MPipelineInput d | MRecord _ d
  | MInformationRecord d => small d
  | MRunspacePoolState _ r => small_opt r
  | MPipelineState _ r => small_opt r
  | MRunspacePoolInitData a b => tok32 a /\ tok32 b
  | MRunspacePoolHostCall ci mi p | MPipelineHostCall ci mi p => tok64 ci /\ small mi /\ small p
  | MRunspacePoolHostResponse ci mi a b | MPipelineHostResponse ci mi a b => tok64 ci /\ small mi /\ small_opt a /\ small_opt b
  | MPipelineOutput d => small_opt d
  | MPublicKeyRequest | MEndOfPipelineInput => True
  | MBad _ => False
  end.
Ltac fitting := cbv [tok32 tok64 small fits min_value max_value] in *; cbn in *; lia.
Lemma any_good z : (0 <= z < 2 ^ 31)%Z -> good_value tok_reg tok_lex (VEnum (any z)).
Proof.
  intros H. exists (tx "Any"), [], (Model_Clixml.mkC (CEnum TInt32 true []) [tx "Any"] [] []), true, []. do 5 (split; [reflexivity|]).
  split; [now left|]. split; [cbn; lia|]. split; [reflexivity|]. now apply tame_good.
Qed.
Lemma tok_good n : small n -> good_value tok_reg tok_lex (tok n).
Proof. intros H. cbn. unfold small in H. lia. Qed.
Lemma tok_opt_good n : small_opt n -> good_value tok_reg tok_lex (tok_opt n).
Proof. destruct n; [apply tok_good|constructor]. Qed.
Lemma tok_opt_val h n : small_opt n -> unless_none tok_rd h (tok_opt n) = n.
Proof. destruct n; [|reflexivity]. intros _. cbn. now rewrite N2Z.id. Qed.
Lemma any_safe z : safe_value (VEnum (any z)).
Proof. cbn [safe_value any e_names e_text]. safe. Qed.
Lemma tok_opt_safe n : safe_value (tok_opt n).
Proof. destruct n; constructor. Qed.
Lemma in_reach_good b : in_reach b -> good_message tok_reg tok_lex (tok_msg b) /\ body_of tok_rd [] (tok_msg b) = b.
Proof.
  intros H. split.
  - split; [|split].
    + destruct b; cbn [in_reach] in H; repeat match goal with k : option _ |- _ => destruct k | k : record_kind |- _ => destruct k | r : response |- _ => destruct r end;
        repeat match goal with A : _ /\ _ |- _ => destruct A end;
        cbn [tok_msg fields or_null option_map tok_opt]; repeat (constructor; [try exact I; try (apply any_good; unfold small in *; lia);
          try (apply tok_good; assumption); try (apply tok_opt_good; assumption); try (now apply tame_good);
          try (cbn in *; unfold tok32, tok64, small in *; lia)|]); try constructor; auto.
      all: try (cbn in *; unfold tok32, tok64, small in *; match goal with s : pool_state |- _ => destruct s | s : pipe_state |- _ => destruct s end; lia).
    + destruct b; cbn [in_reach] in H; repeat match goal with k : option _ |- _ => destruct k | k : record_kind |- _ => destruct k | r : response |- _ => destruct r end;
        repeat match goal with A : _ /\ _ |- _ => destruct A end;
        cbn [tok_msg fields or_null option_map tok_opt]; repeat (constructor; [try exact I; try apply any_safe; try apply tok_opt_safe;
          try (now apply tame_safe)|]); try constructor; auto.
      all: try (cbn [safe_value]; apply tame_safe; reflexivity).
    + destruct b; cbn [in_reach] in H; repeat match goal with k : option _ |- _ => destruct k | k : record_kind |- _ => destruct k | r : response |- _ => destruct r end;
        cbn [tok_msg in_range]; auto; try (repeat constructor; tauto).
      all: try (match goal with s : pool_state |- _ => destruct s | s : pipe_state |- _ => destruct s end; lia).
      all: try (split; intros X; try discriminate X; injection X as X; tauto).
  - destruct b; cbn [in_reach] in H; repeat match goal with k : option _ |- _ => destruct k | k : record_kind |- _ => destruct k | r : response |- _ => destruct r end;
      try (now destruct H); try reflexivity;
      try (cbn; rewrite ?N2Z.id; reflexivity).
    all: try (match goal with s : pool_state |- _ => destruct s | s : pipe_state |- _ => destruct s end; cbn; rewrite ?N2Z.id; reflexivity).
    destruct c. reflexivity.
Qed.
Lemma tok_realised m d : in_reach (o_body m) -> encode (tok_real m) = Ok d -> (N.of_nat (length d) < 2 ^ 32 - 40)%N ->
  (o_rpid m < 2 ^ 128)%N -> match o_pid m with Some p => (p < 2 ^ 128)%N | None => True end ->
  realised tok_reg tok_lex tok_rd m (tok_real m).
Proof.
  intros H E L R P. destruct (in_reach_good _ H) as [G B]. split; [exact B|].
  split; [split; [intros ? ? X; discriminate X|intros ? ? ? ? ? ? X; discriminate X|reflexivity]|].
  split; [intros ? ? X; discriminate X|]. split; [intros ? ? ? X; discriminate X|].
  split; [reflexivity|]. split; [exact G|]. split.
  - clear. apply Forall_forall. intros v Hv a ->. exfalso. cbn [tok_real k_msg] in Hv.
    destruct (o_body m) as [| | | | | | | | | |? r| |s r| | | | | | | | | | |[]|[]| |s r|]; cbn [tok_msg values option_map] in Hv; 
      repeat match goal with x : option N |- _ => destruct x end; cbn in Hv; intuition discriminate.
  - split; [exists d; auto|]. auto.
Qed.

(** A pool is opened, the server asks the host of a pipeline, the client answers, a key is exchanged; payloads of at most
    200 bytes, received late and processed later still. *)
Definition push (n : nat) (amount : option Z) : list baction :=
  repeat (BClientSend amount) n ++ repeat BToServer n ++ repeat BServerNext n.
Definition pull (n : nat) (amount : option Z) : list baction :=
  repeat (BServerSend amount) n ++ repeat BToClient n ++ repeat (BClientNext 77) n.
Definition ex_bytes : list baction :=
  BClient COpen :: push 2 (Some 200%Z) ++ push 6 (Some 200%Z) ++ pull 7 (Some 200%Z)
  ++ [BServer (SHostCall 11 (Good 8) None); BServer SRequestKey] ++ pull 3 None
  ++ [BClient (CHostResponse 1 (Some (Good 5)) None)] ++ push 3 None ++ pull 1 None.
Definition ex_z : bsys := brun tok_rd tok_reg tok_real tok_real (bsys_init 7 1 5 (Good 3) 99 (Good 4)) ex_bytes.
Definition from7 (i : N) (st : stream) (b : body) : omsg := mkO i 7 None st b.
Ltac reach := cbn [in_reach from7 o_body our_cap cap_ps cap_proto cap_ser small_opt version_wf v_build v_revision]; unfold small, tok32, tok64;
  clear; repeat match goal with |- _ /\ _ => split | |- True => exact I end; try lia; try reflexivity; try discriminate; try (clear; vm_compute; congruence).
Ltac realise := repeat (apply Forall_cons; [eapply tok_realised; [reach|vm_compute; reflexivity|vm_compute; reflexivity|cbn [o_rpid from7]; lia|exact I]|]); try apply Forall_nil.
Lemma ex_z_out : p_out (e_pool (b_c ex_z))
  = [from7 1 SDefault (MSessionCapability our_cap); from7 2 SDefault (MInitRunspacePool 1 5 3); from7 3 SDefault (MPublicKey (Some 77%N));
     from7 4 SPrompt (MRunspacePoolHostResponse 1 11 (Some 5%N) None)]
  /\ p_out (e_pool (b_s ex_z))
  = [mkO 1 0 None SDefault (MSessionCapability our_cap); from7 2 SDefault (MApplicationPrivateData 4); from7 3 SDefault (MRunspacePoolState Opened None);
     from7 4 SPrompt (MRunspacePoolHostCall 1 11 8); from7 5 SDefault MPublicKeyRequest; from7 6 SDefault (MEncryptedSessionKey 77 99)].
Proof. split; vm_compute; reflexivity. Qed.
Example C55_example : stable tok_reg tok_rd /\ Forall no_bconnect ex_bytes /\ all_realised tok_reg tok_lex tok_rd tok_real tok_real ex_z
  /\ not_too_long ex_bytes ex_z /\ silent ex_z
  /\ (exists m, In m (p_out (e_pool (b_c ex_z))) /\ handshake (o_body m))
  /\ (exists m, In m (p_out (e_pool (b_c ex_z))) /\ response_of (o_body m) = Some (1%Z, 11%N))
  /\ p_key (e_pool (b_c ex_z)) = Some 99%N /\ p_state (e_pool (b_c ex_z)) = Opened.
Proof.
  destruct ex_z_out as [E1 E2]. split; [apply tok_stable|]. split; [unfold ex_bytes, push, pull; cbn [app repeat]; repeat (constructor; [discriminate|]); constructor|].
  split; [unfold all_realised; rewrite E1, E2; split; realise|]. split; [unfold not_too_long; rewrite E1, E2; vm_compute; reflexivity|].
  split; [do 4 (split; [vm_compute; reflexivity|]); split; eexists; vm_compute; reflexivity|].
  rewrite E1. split; [eexists; split; [right; left; reflexivity|exact I]|].
  split; [eexists; split; [right; right; right; left; reflexivity|reflexivity]|]. split; vm_compute; reflexivity.
Qed.
(** The opening alone, payloads of 30 bytes: each fragment carries 9 of them. *)
Definition ex_open : list baction := push 120 (Some 30%Z) ++ pull 130 (Some 30%Z).
Definition ex_o : bsys := brun tok_rd tok_reg tok_real tok_real (bsys_init 7 1 5 (Good 3) 99 (Good 4)) (BClient COpen :: ex_open).
Lemma ex_o_out : p_out (e_pool (b_c ex_o)) = firstn 2 (p_out (e_pool (b_c ex_z))) /\ p_out (e_pool (b_s ex_o)) = firstn 3 (p_out (e_pool (b_s ex_z))).
Proof. split; vm_compute; reflexivity. Qed.
Example C55_opens_example : Forall bdelivery ex_open /\ all_realised tok_reg tok_lex tok_rd tok_real tok_real ex_o
  /\ not_too_long (BClient COpen :: ex_open) ex_o /\ silent ex_o /\ p_state (e_pool (b_c ex_o)) = Opened.
Proof.
  destruct ex_z_out as [F1 F2]. destruct ex_o_out as [E1 E2]. rewrite F1 in E1. rewrite F2 in E2. cbn [firstn] in E1, E2.
  split; [unfold ex_open, push, pull; repeat (apply Forall_app; split); apply Forall_forall; intros x H; apply repeat_spec in H; subst; exact I|].
  split; [unfold all_realised; rewrite E1, E2; split; realise|]. split; [unfold not_too_long; rewrite E1, E2; vm_compute; reflexivity|].
  split; [do 4 (split; [vm_compute; reflexivity|]); split; eexists; vm_compute; reflexivity|]. vm_compute; reflexivity.
Qed.

(** The pools see of a message what it says: its type, the numbers in it by name, its contents and, of the capability, the
    versions. *)
Theorem C55_view : forall rd h m, known_numbers m ->
  body_code (body_of rd h m) = Some (code (kind m)) /\ numbers_of_body (body_of rd h m) = numbers_of_message m
  /\ contents_of_body (body_of rd h m) = contents_of_message rd h m
  /\ (forall ps proto ser tz, m = WSessionCapability ps proto ser tz -> body_of rd h m = MSessionCapability (mkCap ps proto ser)).
Proof.
  intros rd h m K.
  assert (forall s, (0 <= s <= 8)%Z -> pool_number (pool_state_of s) = s) as P1.
  { intros s H. assert (s = 0 \/ s = 1 \/ s = 2 \/ s = 3 \/ s = 4 \/ s = 5 \/ s = 6 \/ s = 7 \/ s = 8)%Z as D by lia.
    decompose [or] D; subst; reflexivity. }
  assert (forall s, (0 <= s <= 6)%Z -> pipe_number (pipe_state_of s) = s) as P2.
  { intros s H. assert (s = 0 \/ s = 1 \/ s = 2 \/ s = 3 \/ s = 4 \/ s = 5 \/ s = 6)%Z as D by lia. decompose [or] D; subst; reflexivity. }
  split; [|split; [|split]].
  - destruct m; try reflexivity; repeat match goal with b : bool |- _ => destruct b | k : rec_kind |- _ => destruct k end; reflexivity.
  - destruct m; cbn in *; repeat match goal with b : bool |- _ => destruct b | k : rec_kind |- _ => destruct k | r : (_ + _)%type |- _ => destruct r end;
      cbn; rewrite ?P1, ?P2, ?Z2N.id by assumption; reflexivity.
  - destruct m; try reflexivity; repeat match goal with b : bool |- _ => destruct b | k : rec_kind |- _ => destruct k end; reflexivity.
  - intros ps proto ser tz E. subst m. reflexivity.
Qed.
Print Assumptions C55_view.
Example C55_view_ex : known_numbers (WPipelineState 4 VNull) /\ body_of tok_rd [] (WPipelineState 4 VNull) = MPipelineState Completed None.
Proof. split; [cbn; lia|reflexivity]. Qed.

(** With connect on the server the object ids start again from 1.  Here the message that a pipeline has completed has
    arrived at the client but has not been processed; it is replaced by a later one with the same object id.  All is sent,
    received and processed, nothing has failed, both pools are open, and for the client the pipeline runs on. *)
Definition ex_reconnect : list baction :=
  BClient COpen :: push 2 None ++ pull 3 None
  ++ [BClient (CNewPipe 42 PowerShellPipe (Good 6)); BClient (CStart 0)] ++ push 1 None
  ++ [BServer (SNewPipe 42); BServer (SComplete 0); BServerSend None; BToClient;
      BServer SDisconnect; BClient CDisconnect; BServer SConnect; BClient CConnect] ++ push 2 None
  ++ [BServer (SSendEvent (Good 9))] ++ pull 4 None.
Definition ex_r : bsys := brun tok_rd tok_reg tok_real tok_real (bsys_init 7 1 5 (Good 3) 99 (Good 4)) ex_reconnect.
Lemma ex_r_lost :
  silent ex_r /\ p_state (e_pool (b_c ex_r)) = Opened /\ p_state (e_pool (b_s ex_r)) = Opened
  /\ map (fun m => (o_oid m, o_body m)) (skipn 3 (p_out (e_pool (b_s ex_r))))
     = [(4, MPipelineState Completed None); (1, MRunspacePoolInitData 1 5); (2, MApplicationPrivateData 4);
        (3, MRunspacePoolState Opened None); (4, MUserEvent 9)]%N
  /\ map pl_state (p_heap (e_pool (b_s ex_r))) = [Completed] /\ map pl_state (p_heap (e_pool (b_c ex_r))) = [Running].
Proof.
  split; [do 4 (split; [vm_compute; reflexivity|]); split; eexists; vm_compute; reflexivity|].
  do 4 (split; [vm_compute; reflexivity|]). vm_compute; reflexivity.
Qed.
Theorem C55_reconnect_refuted : exists l z,
  z = brun tok_rd tok_reg tok_real tok_real (bsys_init 7 1 5 (Good 3) 99 (Good 4)) l
  /\ silent z /\ p_state (e_pool (b_c z)) = Opened /\ p_state (e_pool (b_s z)) = Opened
  /\ map (fun m => (o_oid m, o_body m)) (skipn 3 (p_out (e_pool (b_s z))))
     = [(4, MPipelineState Completed None); (1, MRunspacePoolInitData 1 5); (2, MApplicationPrivateData 4);
        (3, MRunspacePoolState Opened None); (4, MUserEvent 9)]%N
  /\ map pl_state (p_heap (e_pool (b_s z))) = [Completed] /\ map pl_state (p_heap (e_pool (b_c z))) = [Running].
Proof.
  exists ex_reconnect, ex_r. split; [reflexivity|exact ex_r_lost].
Qed.
Print Assumptions C55_reconnect_refuted.
