(** C01 - C12: wire formats, fragmentation and reassembly. *)
From Verif Require Import Base BaseFacts Model_Payload Model_Transport Spec_Transport.
From Verif Require Import Proofs_Payload Proofs_Send Proofs_Send2 Proofs_Recv Proofs_Conn.

(** ** C01 *)
Theorem C01_fragment_roundtrip : forall oid fid data e rest,
  (oid < 2 ^ 64)%N -> (fid < 2 ^ 64)%N -> (N.of_nat (length data) < 2 ^ 32)%N ->
  exists b, create_fragment oid fid data e = Ok b
    /\ b = frag_bytes oid fid data e /\ length b = 21 + length data
    /\ unpack_fragment (b ++ rest) = Ok (mkFragment oid fid (fid =? 0)%N e data).
Proof.
  intros. exists (frag_bytes oid fid data e).
  split; [now apply create_fragment_ok|]. split; [reflexivity|]. split; [apply frag_bytes_length|].
  now apply unpack_frag_bytes.
Qed.
Print Assumptions C01_fragment_roundtrip.

Theorem C01_fragment_range : forall oid fid data e,
  (2 ^ 64 <= oid \/ 2 ^ 64 <= fid \/ 2 ^ 32 <= N.of_nat (length data))%N ->
  create_fragment oid fid data e = Err StructError.
Proof.
  intros oid fid data e H. destruct (create_fragment oid fid data e) as [b|x] eqn:E.
  - apply create_fragment_inv in E. lia.
  - apply create_fragment_err in E. now subst.
Qed.
Print Assumptions C01_fragment_range.

Example C01_example :
  create_fragment 258 0 [7; 8]%N true = Ok [0;0;0;0;0;0;1;2; 0;0;0;0;0;0;0;0; 3; 0;0;0;2; 7;8]%N
  /\ unpack_fragment [0;0;0;0;0;0;1;2; 0;0;0;0;0;0;0;1; 2; 0;0;0;2; 7;8;9;9]%N
     = Ok (mkFragment 258 1 false true [7;8]%N)
  /\ create_fragment (2 ^ 64) 0 [] true = Err StructError.
Proof. vm_compute. auto. Qed.

(** ** C02 *)
Theorem C02_message_roundtrip : forall client mt data rpid pid,
  In mt psrp_types -> (rpid < 2 ^ 128)%N -> match pid with Some p => (p < 2 ^ 128)%N | None => True end ->
  create_message client mt data rpid pid
    = message_layout (if client then 2 else 1) mt rpid (match pid with Some p => p | None => 0%N end) data
  /\ unpack_message (create_message client mt data rpid pid)
    = Ok (mkMessage (if client then 2 else 1) mt rpid
            (match pid with Some p => if (p =? 0)%N then None else Some p | None => None end)
            (without_bom data)).
Proof.
  intros. split; [now apply create_message_layout|].
  rewrite unpack_create_message by (auto; now apply known_type_In). now rewrite strip_bom_spec.
Qed.
Print Assumptions C02_message_roundtrip.

Theorem C02_message_malformed : forall data,
  (exists m, unpack_message data = Ok m) <-> (40 <= length data /\ In (le_val (slice 4 8 data)) psrp_types).
Proof. intros. rewrite unpack_message_accepts. now rewrite known_type_In. Qed.
Print Assumptions C02_message_malformed.

Example C02_example :
  unpack_message (create_message true 0x00021006 [0xEF;0xBB;0xBF;1;2]%N (2 ^ 127 + 5) (Some 77%N))
  = Ok (mkMessage 2 0x00021006 (2 ^ 127 + 5) (Some 77%N) [1;2]%N)
  /\ unpack_message (repeat 0%N 40) = Err ValueError.
Proof. vm_compute. auto. Qed.

(** ** C03, C04 (one step), C06 *)
Theorem C03_payload_size : forall ops a,
  Forall sop_ok ops -> (N.of_nat (length ops) < 2 ^ 64)%N ->
  (match a with Some n => (22 <= n)%Z | None => True end) ->
  let s := h_s (srun ops) in
  match data_to_send s a with
  | (s', Ok None) => s_queue s = [] /\ s' = s
  | (s', Ok (Some p)) =>
      s_queue s <> [] /\ 22 <= length (p_data p) /\ (forall n, a = Some n -> (Z.of_nat (length (p_data p)) <= n)%Z)
  | (_, Err _) => False
  end.
Proof.
  intros ops a H1 H2 H3. pose proof (data_to_send_reach ops a H1 H2) as H. cbv zeta in *.
  specialize (H ltac:(destruct a; exact H3)).
  destruct (data_to_send (h_s (srun ops)) a) as [s' [[p|]|e]]; tauto.
Qed.
Print Assumptions C03_payload_size.

Theorem C03_payload_too_small : forall s n, (n < 22)%Z -> data_to_send s (Some n) = (s, Err ValueError).
Proof. exact data_to_send_small. Qed.
Print Assumptions C03_payload_too_small.

(** Every call sends at least one byte that had not been sent, and repeated calls empty the queue. *)
Theorem C04_progress : forall ops a,
  Forall sop_ok ops -> (N.of_nat (length ops) < 2 ^ 64)%N ->
  (match a with Some n => (22 <= n)%Z | None => True end) ->
  let s := h_s (srun ops) in
  s_queue s <> [] ->
  exists s' p, data_to_send s a = (s', Ok (Some p)) /\ pending (s_queue s') < pending (s_queue s).
Proof.
  intros ops a H1 H2 H3. pose proof (data_to_send_reach ops a H1 H2) as H. cbv zeta in *.
  specialize (H ltac:(destruct a; exact H3)). intros Hq.
  destruct (data_to_send (h_s (srun ops)) a) as [s' [[p|]|e]]; [|tauto|tauto].
  exists s', p. tauto.
Qed.
Print Assumptions C04_progress.

Theorem C04_drain : forall ops amounts,
  Forall sop_ok ops -> Forall (fun a => match a with Some n => (22 <= n)%Z | None => True end) amounts ->
  (N.of_nat (length ops + length amounts) < 2 ^ 64)%N ->
  pending (s_queue (h_s (srun ops))) <= length amounts ->
  s_queue (h_s (srun (ops ++ map SSend amounts))) = [].
Proof. exact drain_send. Qed.
Print Assumptions C04_drain.

Definition ex_ops : list sop :=
  [SQueue (repeat 1%N 50) None SDefault; SSend (Some 30%Z); SQueue (repeat 2%N 3) (Some 9%N) SDefault; SSend (Some 22%Z)].
Example C03_example :
  Forall sop_ok ex_ops /\ s_queue (h_s (srun ex_ops)) <> []
  /\ match data_to_send (h_s (srun ex_ops)) (Some 40%Z) with (_, Ok (Some p)) => length (p_data p) = 40 | _ => False end.
Proof. split; [repeat constructor; simpl; lia|]. split; [discriminate|vm_compute; reflexivity]. Qed.
Example C04_example : s_queue (h_s (srun (ex_ops ++ map SSend (repeat (Some 22%Z) 43)))) = []
  /\ s_queue (h_s (srun (ex_ops ++ map SSend (repeat (Some 22%Z) 42)))) <> [].
Proof. vm_compute. split; [reflexivity|discriminate]. Qed.

(** ** C05 *)
Theorem C05_delivery : forall client ops,
  Forall cop_ok ops -> (N.of_nat (length ops) < 2 ^ 64)%N ->
  let c := crun client ops in
  cn_errs c = [] /\ prefix (cn_got c) (map expected (cn_sent c))
  /\ (s_queue (cn_s c) = [] -> cn_wire c = [] -> forall r', next_message (cn_r c) = (r', Ok None) ->
      cn_got c = map expected (cn_sent c)).
Proof. exact delivery_lemma. Qed.
Print Assumptions C05_delivery.

(** From any point enough sends, deliveries and next_event calls complete the transfer. *)
Theorem C05_eventually : forall client ops,
  Forall cop_ok ops ->
  let c := crun client ops in
  forall n, pending (s_queue (cn_s c)) <= n -> length (cn_wire c) + pending (s_queue (cn_s c)) <= n ->
  length (cn_sent c) <= n ->
  (N.of_nat (length ops + (n + (n + n))) < 2 ^ 64)%N ->
  cn_got (crun client (ops ++ repeat (CSend None) n ++ repeat CDeliver n ++ repeat CNext n))
  = map expected (cn_sent c).
Proof. exact eventually_lemma. Qed.
Print Assumptions C05_eventually.

Definition ex_m1 := mkCM 0x00021006 [1;2;3;4;5]%N 5 (Some 9%N) SDefault.
Definition ex_m2 := mkCM 0x00010002 [0xEF;0xBB;0xBF;9]%N 0 None SPrompt.
Definition ex_conn : list cop :=
  [CQueue ex_m1; CSend (Some 30%Z); CQueue ex_m2; CNext; CDeliver; CNext; CSend (Some 60%Z); CSend None; CSend None;
   CDeliver; CNext; CDeliver; CNext; CDeliver; CNext; CNext].
Example C05_example :
  Forall cop_ok ex_conn
  /\ cn_got (crun true ex_conn) = [expected ex_m1; expected ex_m2]
  /\ s_queue (cn_s (crun true ex_conn)) = [] /\ cn_wire (crun true ex_conn) = [].
Proof.
  split; [|vm_compute; auto].
  unfold ex_conn, ex_m1, ex_m2. repeat (constructor; [simpl; try exact I; try (split; [reflexivity|split; [lia|split; [try exact I; try lia|lia]]]); try lia|]).
  constructor.
Qed.

(** ** C06 *)
Theorem C06_single_target : forall ops a,
  Forall sop_ok ops -> (N.of_nat (length ops) < 2 ^ 64)%N ->
  (match a with Some n => (22 <= n)%Z | None => True end) ->
  let s := h_s (srun ops) in
  forall s' p, data_to_send s a = (s', Ok (Some p)) ->
  exists FR, p_data p = wire FR /\ Forall frag_fits FR /\ FR <> []
    /\ (forall f, In f FR -> In (f_oid f) (map q_oid (s_queue s)))
    /\ (forall f m, In f FR -> In m (s_queue s) -> q_oid m = f_oid f -> q_pid m = p_pid p).
Proof.
  intros ops a H1 H2 H3. pose proof (data_to_send_reach ops a H1 H2) as H. cbv zeta in *.
  specialize (H ltac:(destruct a; exact H3)). intros s' p E. rewrite E in H.
  destruct H as (_ & _ & _ & _ & _ & FR & G1 & G2 & G3 & G4 & G5 & _). exists FR. auto.
Qed.
Print Assumptions C06_single_target.

Example C06_example :
  match data_to_send (h_s (srun [SQueue (repeat 1%N 50) None SDefault; SQueue (repeat 2%N 3) (Some 9%N) SDefault])) None with
  | (s', Ok (Some p)) => p_pid p = None /\ length (p_data p) = 71 /\ map q_pid (s_queue s') = [Some 9%N]
  | _ => False
  end.
Proof. vm_compute. auto. Qed.

(** ** C07 *)
Theorem C07_numbering : forall ops,
  Forall sop_ok ops -> (N.of_nat (length ops) < 2 ^ 64)%N ->
  let h := srun ops in
  h_errs h = [] /\ NoDup (map i_oid (h_items h)) /\
  exists FR, concat (map p_data (h_out h)) = wire FR /\ Forall frag_fits FR
    /\ (forall f, In f FR -> In (f_oid f) (map i_oid (h_items h)))
    /\ forall it, In it (h_items h) ->
       let fs := frags_of (i_oid it) FR in
       exists rest, concat (map f_data fs) ++ rest = i_bytes it
         /\ numbered fs (match rest with [] => true | _ => false end)
         /\ (rest = [] -> fs <> [] /\ forall m, In m (s_queue (h_s h)) -> q_oid m <> i_oid it)
         /\ (rest <> [] -> exists m, In m (s_queue (h_s h)) /\ q_oid m = i_oid it /\ q_data m = rest).
Proof. exact numbering_lemma. Qed.
Print Assumptions C07_numbering.

Example C07_example :
  concat (map p_data (h_out (srun ex_ops)))
  = wire [mkFragment 1 0 true false (repeat 1%N 9); mkFragment 1 1 false false [1%N]].
Proof. vm_compute. reflexivity. Qed.

(** ** C08 *)
Theorem C08_bad_fragment_id : forall r f rest,
  frag_fits f -> rx_buf r = wire [f] ++ rest ->
  f_fid f <> N.of_nat (length (collected r (f_oid f))) ->
  exists r', next_message r = (r', Err PSRPCoreError)
    /\ rx_buf r' = rest /\ rx_msgs r' = rx_msgs r /\ (forall oid, collected r' oid = collected r oid).
Proof. exact bad_id_lemma. Qed.
Print Assumptions C08_bad_fragment_id.

(** The same after any number of correct fragments in front of it. *)
Theorem C08_bad_fragment_id_later : forall ops F f rest,
  well_sequenced (fed ops ++ F) -> frag_fits f ->
  f_fid f <> N.of_nat (length (in_progress (fed ops ++ F) (f_oid f))) ->
  let h := rrun ops in
  let all := fed ops ++ F in
  exists r', next_message (receive_data (rh_r h) (wire F ++ wire [f] ++ rest)) = (r', Err PSRPCoreError)
    /\ rx_buf r' = rest
    /\ map Some (rh_got h ++ rx_msgs r') = map (object_message all) (finished all)
    /\ (forall oid, collected r' oid = map f_data (in_progress all oid)).
Proof. exact bad_id_later_lemma. Qed.
Print Assumptions C08_bad_fragment_id_later.

Example C08_example :
  let r := mkRx (wire [mkFragment 3 2 false true [5%N]] ++ [1;2]%N) [(3%N, [[7]%N])] [] in
  next_message r = (mkRx [1;2]%N [(3%N, [[7]%N])] [], Err PSRPCoreError).
Proof. vm_compute. reflexivity. Qed.

(** ** C09 *)
Theorem C09_next_event_total : forall r,
  let '(r', x) := next_message r in
  match x with
  | Ok None => rx_buf r' = []
  | Ok (Some (oid, m)) => (In (oid, m) (rx_msgs r) \/ completed_in (rx_buf r) oid m) /\ rx_buf r' = []
  | Err e => e = StructError \/ e = ValueError \/ e = PSRPCoreError
  end.
Proof. exact next_total_lemma. Qed.
Print Assumptions C09_next_event_total.

Theorem C09_short_tail_kept : forall r, 0 < length (rx_buf r) < 21 -> next_message r = (r, Err StructError).
Proof. exact short_tail_lemma. Qed.
Print Assumptions C09_short_tail_kept.

Example C09_example :
  snd (next_message (mkRx (repeat 255%N 100) [] [])) = Err PSRPCoreError
  /\ snd (next_message (mkRx (repeat 0%N 20) [] [])) = Err StructError
  /\ snd (next_message (mkRx (repeat 0%N 21) [] [])) = Ok None.
Proof. vm_compute. auto. Qed.

(** ** C10: false as stated - a cut inside a fragment's data with next_event called at that point loses the message. *)
Definition chunk_witness : list Fragment :=
  [mkFragment 1 0 true true (create_message false 0x00010002 [9%N] 5 None)].
Theorem C10_chunking_refuted : exists fs a b,
  well_sequenced fs /\ wire fs = a ++ b
  /\ map snd (bh_got (brun [BFeed (a ++ b); BNext; BNext])) = [mkR 0x00010002 [9%N] 5 None]
  /\ bh_errs (brun [BFeed (a ++ b); BNext; BNext]) = []
  /\ bh_got (brun [BFeed a; BNext; BFeed b; BNext; BNext; BNext; BNext]) = []
  /\ bh_errs (brun [BFeed a; BNext; BFeed b; BNext; BNext; BNext; BNext]) <> [].
Proof.
  exists chunk_witness, (firstn 40 (wire chunk_witness)), (skipn 40 (wire chunk_witness)).
  split; [|split; [symmetry; apply firstn_skipn|vm_compute; repeat split; discriminate]].
  split.
  - constructor; [|constructor]. unfold frag_fits. simpl. repeat split; vm_compute; reflexivity.
  - intros oid. destruct (N.eq_dec oid 1) as [->|H].
    + exists true. split; [vm_compute; repeat split|]. intros _ _. vm_compute. reflexivity.
    + exists true. unfold chunk_witness. rewrite frags_of_other by (simpl; congruence).
      split; [apply numbered_nil|]. intros _ Hx. congruence.
Qed.
Print Assumptions C10_chunking_refuted.

(** Worse: a truncated body can be delivered as if it were complete. *)
Theorem C10_truncated_body_accepted_refuted : exists fs a,
  well_sequenced fs /\ prefix a (wire fs)
  /\ map snd (bh_got (brun [BFeed (wire fs); BNext])) = [mkR 0x00010002 [9; 8; 7]%N 5 None]
  /\ map snd (bh_got (brun [BFeed a; BNext])) = [mkR 0x00010002 [9]%N 5 None].
Proof.
  pose (fs := [mkFragment 1 0 true true (create_message false 0x00010002 [9;8;7]%N 5 None)]).
  exists fs, (firstn 62 (wire fs)).
  split; [|split; [exists (skipn 62 (wire fs)); symmetry; apply firstn_skipn|vm_compute; auto]].
  split.
  - constructor; [|constructor]. unfold frag_fits. simpl. repeat split; vm_compute; reflexivity.
  - intros oid. destruct (N.eq_dec oid 1) as [->|H].
    + exists true. split; [vm_compute; repeat split|]. intros _ _. vm_compute. reflexivity.
    + exists true. unfold fs. rewrite frags_of_other by (simpl; congruence).
      split; [apply numbered_nil|]. intros _ Hx. congruence.
Qed.
Print Assumptions C10_truncated_body_accepted_refuted.

(** What does hold: pieces may be cut anywhere, if next_event is only called when the bytes so far end at a fragment
    boundary or within a fragment header.  Missing from the full claim: calls made while the bytes so far end
    inside a fragment's data. *)
Theorem C10_chunking_partial : forall fs ops,
  well_sequenced fs ->
  (forall ops1 ops2, ops = ops1 ++ BNext :: ops2 -> ends_in_header fs (bytes_fed ops1)) ->
  let h := brun ops in
  let all := map (object_message fs) (finished fs) in
  Forall (eq StructError) (bh_errs h) /\ prefix (map Some (bh_got h)) all
  /\ (bytes_fed ops = wire fs -> forall r', next_message (bh_r h) = (r', Ok None) -> map Some (bh_got h) = all).
Proof. exact chunk_lemma. Qed.
Print Assumptions C10_chunking_partial.

Example C10_example :
  let w := wire chunk_witness in
  let h := brun [BFeed (firstn 5 w); BNext; BFeed (firstn 10 (skipn 5 w)); BNext; BFeed (skipn 15 w); BNext] in
  map snd (bh_got h) = [mkR 0x00010002 [9%N] 5 None] /\ bh_errs h = [StructError; StructError].
Proof. vm_compute. auto. Qed.

(** ** C11 *)
Theorem C11_interleaving : forall ops,
  well_sequenced (fed ops) ->
  let h := rrun ops in
  let all := map (object_message (fed ops)) (finished (fed ops)) in
  rh_errs h = [] /\ prefix (map Some (rh_got h)) all
  /\ (forall r', next_message (rh_r h) = (r', Ok None) -> map Some (rh_got h) = all).
Proof. exact interleave_lemma. Qed.
Print Assumptions C11_interleaving.

Example C11_example :
  let m1 := create_message false 0x00010002 [1;1]%N 5 None in
  let m2 := create_message false 0x00010004 [2;2]%N 5 (Some 6%N) in
  let h := rrun [RFeed [mkFragment 1 0 true false (firstn 20 m1); mkFragment 2 0 true false (firstn 41 m2)]; RNext;
                 RFeed [mkFragment 2 1 false true (skipn 41 m2)]; RNext; RFeed [mkFragment 1 1 false true (skipn 20 m1)]; RNext; RNext] in
  rh_got h = [(2%N, mkR 0x00010004 [2;2]%N 5 (Some 6%N)); (1%N, mkR 0x00010002 [1;1]%N 5 None)] /\ rh_errs h = [].
Proof. vm_compute. auto. Qed.

(** ** C12: false as stated *)
Theorem C12_streams_mixed_refuted : exists ops s' p,
  Forall sop_ok ops /\ data_to_send (h_s (srun ops)) None = (s', Ok (Some p))
  /\ exists f m, (exists pre post, p_data p = pre ++ wire [f] ++ post) /\ In m (s_queue (h_s (srun ops)))
     /\ q_oid m = f_oid f /\ q_data m = f_data f /\ q_stream m <> p_stream p.
Proof.
  exists [SQueue [1%N] (Some 7%N) SDefault; SQueue [2%N] (Some 7%N) SPrompt].
  eexists _, _. split; [repeat constructor|]. split; [vm_compute; reflexivity|].
  exists (mkFragment 2 0 true true [2%N]), (mkQ 2 (Some 7%N) SPrompt [2%N] 0). simpl.
  split; [|repeat split; auto; discriminate].
  exists (wire [mkFragment 1 0 true true [1%N]]), []. vm_compute. reflexivity.
Qed.
Print Assumptions C12_streams_mixed_refuted.

(** What does hold: the label is the stream of the first message, and everything for the payload's target that has
    a uniform stream type is labelled with it.  Missing: targets with both kinds queued. *)
Theorem C12_streams_partial : forall ops a,
  Forall sop_ok ops -> (N.of_nat (length ops) < 2 ^ 64)%N ->
  (match a with Some n => (22 <= n)%Z | None => True end) ->
  let s := h_s (srun ops) in
  forall s' p, data_to_send s a = (s', Ok (Some p)) ->
  (exists m t, s_queue s = m :: t /\ p_stream p = q_stream m /\ p_pid p = q_pid m) /\
  ((forall m1 m2, In m1 (s_queue s) -> In m2 (s_queue s) -> q_pid m1 = q_pid m2 -> q_stream m1 = q_stream m2) ->
   exists FR, p_data p = wire FR /\ Forall frag_fits FR
     /\ forall f m, In f FR -> In m (s_queue s) -> q_oid m = f_oid f -> q_stream m = p_stream p).
Proof.
  intros ops a H1 H2 H3. pose proof (data_to_send_reach ops a H1 H2) as H. cbv zeta in *.
  specialize (H ltac:(destruct a; exact H3)). intros s' p E. rewrite E in H.
  destruct H as (_ & _ & _ & _ & _ & FR & G1 & G2 & G3 & G4 & G5 & G6). split; [exact G6|].
  intros Hu. exists FR. split; [exact G1|]. split; [exact G2|].
  intros f m Hf Hm Ho. destruct G6 as (m0 & t & Hq & Hs & Hp). rewrite Hs. apply Hu; [exact Hm| |].
  - rewrite Hq. now left.
  - rewrite <- Hp. eapply G4; eauto.
Qed.
Print Assumptions C12_streams_partial.

Example C12_example :
  match data_to_send (h_s (srun [SQueue [1%N] (Some 7%N) SPrompt; SQueue [2%N] (Some 7%N) SPrompt])) None with
  | (_, Ok (Some p)) => p_stream p = SPrompt /\ length (p_data p) = 44 | _ => False end.
Proof. vm_compute. auto. Qed.
