(** C41 (two-dimensional buffers), C42 (host call arguments and results), C48 (host information). *)
From Coq Require Import String.
From Verif Require Import Base BaseFacts Model_Host Spec_Host Proofs_Host Proofs_Host2.
Open Scope list_scope.

Definition cell_a := mkCell 65 15 0 0.
Definition cell_b := mkCell 66 1 2 1.
Definition cell_c := mkCell 67 3 4 2.
Definition ex_grid : list (list cell) := [[cell_a; cell_b; cell_c]; [cell_c; cell_a; cell_a]].
Lemma cells_ok : Forall (Forall cell_ok) ex_grid.
Proof. repeat constructor; cbn; unfold color_ok; lia. Qed.
Lemma ex_rect : rectangular 2 3 ex_grid.
Proof. unfold rectangular. split; [lia|]. split; [lia|]. split; [reflexivity|]. repeat constructor. Qed.

(** ** C41 *)
(** Every rectangular grid with at least one cell comes back as it was: row by row, cell by cell. *)
Theorem C41_grid_roundtrip : forall A (pack : A -> hv) unpack r c (g : list (list A)),
  rectangular r c g -> Forall (Forall (fun x => unpack (pack x) = Ok x)) g ->
  exists a, create_array pack g = Ok a
  /\ unpack_array unpack (array_obj a) = Ok (Row (map (fun row => Row (map Leaf row)) g)).
Proof. exact @grid_roundtrip. Qed.
Print Assumptions C41_grid_roundtrip.
(** The cells used by host calls satisfy the hypothesis. *)
Theorem C41_cells : forall c, cell_ok c -> cell_from (cell_to c) = Ok c.
Proof. exact cell_rt. Qed.
Print Assumptions C41_cells.
(** Outside that domain: no rows is refused when packing, no columns fails at the peer, a longer later row loses cells,
    a shorter one fails at the peer. *)
Theorem C41_degenerate_refuted :
  create_array cell_to [] = Err IndexError
  /\ (exists a, create_array cell_to [[]] = Ok a /\ unpack_array cell_from (array_obj a) = Err IndexError)
  /\ (exists a, create_array cell_to [[cell_a]; [cell_b; cell_c]] = Ok a
      /\ unpack_array cell_from (array_obj a) = Ok (Row [Row [Leaf cell_a]; Row [Leaf cell_b]]))
  /\ (exists a, create_array cell_to [[cell_a; cell_b]; [cell_c]] = Ok a
      /\ unpack_array cell_from (array_obj a) = Err IndexError).
Proof. split; [reflexivity|]. repeat split; eexists; split; vm_compute; reflexivity. Qed.
Print Assumptions C41_degenerate_refuted.
Example C41_example : rectangular 2 3 ex_grid /\ Forall (Forall (fun x => cell_from (cell_to x) = Ok x)) ex_grid
  /\ exists a, create_array cell_to ex_grid = Ok a /\ snd a = [2; 3]%N /\ List.length (fst a) = 6.
Proof.
  split; [exact ex_rect|]. split; [repeat constructor|]. eexists. split; [vm_compute; reflexivity|]. split; reflexivity.
Qed.

(** ** C42 *)
(** The client decodes every request of the server into the host method it stands for and the arguments given. *)
Theorem C42_call_partial : forall r, request_ok r ->
  exists ps, encode r = Ok (fst (meaning r), ps) /\ decode_params (fst (meaning r)) ps = Ok (snd (meaning r)).
Proof. exact host_call_roundtrip. Qed.
Print Assumptions C42_call_partial.
(** The server decodes every response of the client into the value given. *)
Theorem C42_response : forall r, response_ok r ->
  exists v, encode_response r = Ok v /\ decode_result (response_method r) v = Ok (response_meaning r).
Proof. exact host_response_roundtrip. Qed.
Print Assumptions C42_response.
(** The answers that only one method takes are answers to that method. *)
Theorem C42_answers : (forall c m cs d l, response_method (PMultiChoice l) = fst (meaning (RPromptForMultipleChoice c m cs d)))
  /\ (forall o k ch st down, response_method (PKey k ch st down) = fst (meaning (RReadKey o)))
  /\ (forall l t r b g, response_method (PCells g) = fst (meaning (RGetBufferContents l t r b))).
Proof. split; [reflexivity|]. split; reflexivity. Qed.
Print Assumptions C42_answers.
(** False for a prompt field with a default value: it is not sent. *)
Theorem C42_field_refuted : exists f, fd_default f <> HNull /\
  (exists ps, encode (RPrompt [] [] [f]) = Ok (23%N, ps) /\ decode_params 23 ps <> Ok [DRaw (HStr []); DRaw (HStr []); DFields [f]]).
Proof.
  exists (mkField (Some [110]%N) None None None None None true (HInt 5) []). split; [discriminate|].
  eexists. split; [reflexivity|]. vm_compute. discriminate.
Qed.
Print Assumptions C42_field_refuted.
Definition ex_scroll : request := RScrollBufferContents 1 2 3 4 5 6 7 8 9 10 65 11 12.
Example C42_example : request_ok ex_scroll /\ request_ok (RSetBufferContents 1 2 ex_grid)
  /\ request_ok (RWrite [104]%N (Some 3%Z) None) /\ response_ok (PCells ex_grid)
  /\ (exists ps, encode ex_scroll = Ok (51%N, ps)
      /\ decode_params 51 ps = Ok [DRect (mkRect 1 2 3 4); DCoord (mkCoord 5 6); DRect (mkRect 7 8 9 10); DCell (mkCell 65 11 12 0)]).
Proof.
  split; [cbn; unfold int32_ok, color_ok; lia|].
  split; [cbn; unfold int32_ok; repeat (split; [lia|]); split; [exact cells_ok|exists 2%nat, 3%nat; exact ex_rect]|].
  split; [cbn; unfold color_ok; lia|]. split; [split; [exact cells_ok|exists 2%nat, 3%nat; exact ex_rect]|].
  eexists. split; reflexivity.
Qed.

(** A call is made only with numbers that fit: one number outside the 32 bit range and the helper raises ValueError before
    anything is sent. *)
Theorem C42_range : forall r z, In z (numbers r) -> ~ int32_ok z -> encode r = Err ValueError.
Proof. exact numbers_range. Qed.
Print Assumptions C42_range.
(** A converted method takes exactly its parameters: with fewer it fails, with none it raises IndexError, and further ones
    are dropped.  The parameters of every other method are passed on as they are. *)
Theorem C42_arity : (forall m n ps ds, In (m, n) converted -> decode_params m ps = Ok ds -> List.length ds = n /\ n <= List.length ps)
  /\ (forall m n, In (m, n) converted -> decode_params m [] = Err IndexError)
  /\ (forall m ps, ~ In m (map fst converted) -> decode_params m ps = Ok (map DRaw ps)).
Proof. split; [exact arity|]. split; [exact none_given|exact others]. Qed.
Print Assumptions C42_arity.
(** A host object without one of its properties is refused with AttributeError, whatever the other properties hold. *)
Theorem C42_missing : forall v k, lacks v k ->
  (In k coord_names -> coord_from v = Err AttributeError) /\ (In k size_names -> size_from v = Err AttributeError)
  /\ (In k rect_names -> rect_from v = Err AttributeError) /\ (In k choice_names -> choice_from v = Err AttributeError)
  /\ (In k field_names -> field_from v = Err AttributeError) /\ (In k progress_names -> progress_from v = Err AttributeError).
Proof.
  intros v k L. repeat split; intros I; [eapply coord_missing|eapply size_missing|eapply rect_missing|eapply choice_missing|
    eapply field_missing|eapply progress_missing]; eauto.
Qed.
Print Assumptions C42_missing.
(** A colour outside 0..15, given or answered, is refused with ValueError. *)
Theorem C42_colour : forall z, ~ color_ok z ->
  (forall m, In m [28; 30]%N -> decode_params m [HInt z] = Err ValueError)
  /\ (forall m v w, In m [14; 17]%N -> decode_params m [HInt z; v; w] = Err ValueError)
  /\ (forall m, In m [27; 29]%N -> decode_result m (HInt z) = Err ValueError).
Proof.
  intros z K. apply color_out in K. split; [|split].
  - intros m I. repeat (destruct I as [<- | I]; [unfold decode_params; cbn [isin existsb N.eqb Pos.eqb orb param nth_error bind]; cbn -[console_color]; rewrite K; reflexivity|]).
    destruct I.
  - intros m v w I. repeat (destruct I as [<- | I]; [unfold decode_params; cbn -[console_color]; rewrite K; reflexivity|]). destruct I.
  - intros m I. repeat (destruct I as [<- | I]; [unfold decode_result; cbn -[console_color]; rewrite K; reflexivity|]). destruct I.
Qed.
Print Assumptions C42_colour.
(** What is sent of a prompt field: its eight properties, and that neither end has changed it. *)
Theorem C42_field_shape : forall f, exists ps, field_to f = HObj ps /\ NoDup (map fst ps)
  /\ (forall k, In k (map fst ps) <-> In k (field_names ++ ["modifiedByRemotingProtocol"; "isFromRemoteHost"]%string))
  /\ has (field_to f) "name" (opt_str (fd_name f)) /\ has (field_to f) "label" (opt_str (fd_label f))
  /\ has (field_to f) "parameterTypeName" (opt_str (fd_type f)) /\ has (field_to f) "parameterTypeFullName" (opt_str (fd_full f))
  /\ has (field_to f) "parameterAssemblyFullName" (opt_str (fd_assembly f)) /\ has (field_to f) "helpMessage" (opt_str (fd_help f))
  /\ has (field_to f) "isMandatory" (HBool (fd_mandatory f)) /\ has (field_to f) "metadata" (HList [])
  /\ has (field_to f) "modifiedByRemotingProtocol" (HBool false) /\ has (field_to f) "isFromRemoteHost" (HBool false).
Proof.
  intros f. eexists. split; [reflexivity|]. split; [repeat (constructor; [cbn; intuition discriminate|]); constructor|].
  split; [intros k; cbn; tauto|].
  assert (forall a k x b, ~ In k (map fst a) -> has (HObj (a ++ (k, x) :: b)) k x) as A by (intros; cbn; eauto).
  unfold field_to.
  split; [apply (A []); auto|]. split; [apply (A [_]); cbn; intuition discriminate|].
  split; [apply (A [_; _]); cbn; intuition discriminate|]. split; [apply (A [_; _; _]); cbn; intuition discriminate|].
  split; [apply (A [_; _; _; _]); cbn; intuition discriminate|]. split; [apply (A [_; _; _; _; _]); cbn; intuition discriminate|].
  split; [apply (A [_; _; _; _; _; _]); cbn; intuition discriminate|]. split; [apply (A [_; _; _; _; _; _; _]); cbn; intuition discriminate|].
  split; [apply (A [_; _; _; _; _; _; _; _]); cbn; intuition discriminate|apply (A [_; _; _; _; _; _; _; _; _]); cbn; intuition discriminate].
Qed.
Print Assumptions C42_field_shape.
Example C42_malformed_example :
  In 2147483648%Z (numbers (RSetCursorPosition 1 2147483648)) /\ ~ int32_ok 2147483648
  /\ In (25%N, 6) converted /\ ~ In 13%N (map fst converted) /\ ~ color_ok 16
  /\ lacks (HObj [("x", HInt 1)]%string) "y" /\ coord_from (HObj [("x", HInt 1)]%string) = Err AttributeError
  /\ decode_params 28 [HInt 3; HNull] = Ok [DColor 3].
Proof.
  split; [cbn; tauto|]. split; [unfold int32_ok; lia|]. split; [cbn; tauto|]. split; [cbn; intuition discriminate|].
  split; [unfold color_ok; lia|]. split; [cbn; intuition discriminate|]. split; reflexivity.
Qed.

(** ** C48 *)
Theorem C48_host_info : forall h, host_ok h -> host_info_from (host_info_to h) = Ok h.
Proof. exact host_info_roundtrip. Qed.
Print Assumptions C48_host_info.
Example C48_example :
  let h := mkHostInfo false true false true (Some (mkHostData 1 2 (mkCoord 3 4) (mkCoord 5 6) 7 (mkSize 8 9) (mkSize 10 11)
                                                              (mkSize 12 13) (mkSize 14 15) [116]%N)) in
  host_ok h /\ host_info_from (host_info_to h) = Ok h.
Proof. split; [cbn; unfold coord_ok, size_ok, int32_ok, color_ok; cbn; lia | reflexivity]. Qed.
