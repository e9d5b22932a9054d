(** Sender and receiver together: C05. *)
From Verif Require Import Base BaseFacts Model_Payload Model_Transport Spec_Transport Proofs_Payload Proofs_Send Proofs_Send2 Proofs_Recv.

Lemma strip_bom_spec d : strip_bom d = without_bom d.
Proof.
  unfold strip_bom, without_bom. destruct d as [|a [|b [|c t]]]; simpl; try reflexivity.
  - now rewrite andb_false_r.
  - now rewrite !andb_false_r.
  - rewrite !andb_true_r, andb_assoc. destruct (_ && _); reflexivity.
Qed.

Definition msg_bytes (client : bool) (m : cmsg) : list N :=
  create_message client (c_type m) (c_data m) (c_rpid m) (c_pid m).
Definition cmsg_ok (m : cmsg) : Prop := cop_ok (CQueue m).
Definition item_of (client : bool) (it : item) (m : cmsg) : Prop :=
  i_bytes it = msg_bytes client m /\ i_pid it = c_pid m /\ i_stream it = c_stream m.

(** The sender operations of a connection history. *)
Definition sproj (client : bool) (o : cop) : list sop :=
  match o with
  | CQueue m => [SQueue (msg_bytes client m) (c_pid m) (c_stream m)]
  | CSend a => [SSend a]
  | _ => []
  end.

Lemma sproj_ok client o : cop_ok o -> Forall sop_ok (sproj client o).
Proof.
  destruct o as [m|a| |]; cbn [sproj]; intros H; try apply Forall_nil; apply Forall_cons; try apply Forall_nil.
  - destruct H as (_ & _ & H). cbn [sop_ok]. unfold msg_bytes. rewrite create_message_length. lia.
  - destruct a; auto.
Qed.
Lemma sproj_len client o : length (sproj client o) <= 1.
Proof. destruct o; simpl; lia. Qed.

Record CInv (client : bool) (c : conn) (h : shist) (FR A F : list Fragment)
    (W : list (list Fragment)) (G : list (N * RMsg)) : Prop := {
  ci_s : SInv h FR;
  ci_hs : h_s h = cn_s c;
  ci_items : Forall2 (item_of client) (h_items h) (cn_sent c);
  ci_ok : Forall cmsg_ok (cn_sent c);
  ci_wire : map p_data (cn_wire c) = map wire W;
  ci_split : FR = A ++ F ++ concat W;
  ci_r : RInv (cn_r c) G A;
  ci_buf : rx_buf (cn_r c) = wire F;
  ci_got : cn_got c = map snd G;
  ci_errs : cn_errs c = [] }.

Lemma item_message client it m :
  item_of client it m -> cmsg_ok m -> exists x, unpack_message (i_bytes it) = Ok x /\ rmsg_of x = expected m.
Proof.
  intros (Hb & _ & _) (Hk & Hr & Hp & Hl). rewrite Hb. unfold msg_bytes.
  rewrite unpack_create_message; auto.
  - eexists. split; [reflexivity|]. unfold rmsg_of, expected. simpl. rewrite strip_bom_spec. f_equal.
    unfold norm_pid. destruct (c_pid m) as [p|]; [|reflexivity]. destruct p; reflexivity.
Qed.

Lemma Forall2_len {A B} (R : A -> B -> Prop) l1 l2 : Forall2 R l1 l2 -> length l1 = length l2.
Proof. induction 1; simpl; congruence. Qed.

Lemma Forall2_in_l {A B} (R : A -> B -> Prop) l1 l2 x : Forall2 R l1 l2 -> In x l1 -> exists y, In y l2 /\ R x y.
Proof.
  induction 1 as [|a b l1 l2 HR H IH]; intros Hx; [destruct Hx|].
  destruct Hx as [<-|Hx]; [exists b; simpl; auto|]. destruct (IH Hx) as (y & Hy & Hr). exists y. simpl. auto.
Qed.

Lemma cinv_seq client c h FR A F W G : CInv client c h FR A F W G -> well_sequenced FR.
Proof.
  intros HC. pose proof (ci_s _ _ _ _ _ _ _ _ HC) as HI. split; [apply HI|].
  intros oid. destruct (in_dec N.eq_dec oid (map i_oid (h_items h))) as [Hin|Hno].
  - apply in_map_iff in Hin. destruct Hin as (it & <- & Hit).
    pose proof (si_track _ _ HI) as HT. rewrite Forall_forall in HT.
    destruct (HT it Hit) as [(m & Hm & Ho & Hp & Hs & Hc & Hf & Hn)|(Hnq & Hc & Hn & Hne)].
    + exists false. split; [exact Hn|discriminate].
    + exists true. split; [exact Hn|]. intros _ _. rewrite Hc.
      destruct (Forall2_in_l _ _ _ _ (ci_items _ _ _ _ _ _ _ _ HC) Hit) as (m & Hm & Him).
      pose proof (ci_ok _ _ _ _ _ _ _ _ HC) as Hok. rewrite Forall_forall in Hok.
      destruct (item_message _ _ _ Him (Hok m Hm)) as (x & Hx & _). now rewrite Hx.
  - exists false. rewrite frags_of_none.
    + split; [apply numbered_nil|discriminate].
    + intros f Hf E. apply Hno. rewrite <- E. now apply (si_frin _ _ HI).
Qed.

Lemma wire_nil_inv F : wire F = [] -> F = [].
Proof.
  destruct F as [|f F]; [reflexivity|]. rewrite wire_cons. intros H. now apply frag_bytes_cons in H.
Qed.

Lemma cstep_inv client c h FR A F W G o : CInv client c h FR A F W G -> cop_ok o -> (N.of_nat (length (h_items h)) + 1 < 2 ^ 64)%N ->
  exists FR' A' F' W' G',
    CInv client (cstep client c o) (fold_left sstep (sproj client o) h) FR' A' F' W' G'.
Proof.
  intros HC Ho Hb.
  pose proof (cinv_seq _ _ _ _ _ _ _ _ HC) as Hseq.
  pose proof (ci_s _ _ _ _ _ _ _ _ HC) as HI.
  destruct o as [m|a| |].
  - (* queue *)
    destruct (sstep_inv h FR (SQueue (msg_bytes client m) (c_pid m) (c_stream m)) HI) as [X HX].
    { pose proof (sproj_ok client (CQueue m) Ho) as Hs. inversion Hs; assumption. }
    { exact Hb. }
    assert (X = []) as ->.
    { apply wire_nil_inv. pose proof (si_out _ _ HX) as H1. cbn [sstep h_out] in H1.
      rewrite (si_out _ _ HI), wire_app in H1. symmetry in H1.
      rewrite <- (app_nil_r (wire FR)) in H1 at 2. now apply app_inv_head in H1. }
    rewrite app_nil_r in HX.
    exists FR, A, F, W, G. destruct HC as [_ Hhs Hit Hok Hw Hsp HR Hbuf Hg He].
    constructor; auto.
    + simpl. now rewrite Hhs.
    + simpl. apply Forall2_app; [exact Hit|]. constructor; [|constructor]. repeat split.
    + simpl. apply Forall_app. split; [exact Hok|]. constructor; [exact Ho|constructor].
  - (* send *)
    destruct (sstep_inv h FR (SSend a) HI) as [X HX]; [destruct a; exact Ho|exact Hb|].
    destruct HC as [_ Hhs Hit Hok Hw Hsp HR Hbuf Hg He].
    pose proof (si_out _ _ HX) as H1. rewrite wire_app, <- (si_out _ _ HI) in H1.
    pose proof (si_errs _ _ HX) as H2.
    cbn [sproj fold_left].
    cbn [cstep]. cbn [sstep] in *. rewrite Hhs in *.
    destruct (data_to_send (cn_s c) a) as [s' [[p|]|e]] eqn:Ed; cbn [h_out h_errs h_s h_items] in *.
    + rewrite map_app, concat_app in H1. apply app_inv_head in H1. simpl in H1. rewrite app_nil_r in H1.
      exists (FR ++ X), A, F, (W ++ [X]), G. constructor; auto.
      * cbn [cn_wire]. rewrite !map_app, Hw. simpl. now rewrite H1.
      * rewrite concat_app. simpl. rewrite app_nil_r, Hsp, <- !app_assoc. reflexivity.
    + assert (X = []) as ->.
      { apply wire_nil_inv. rewrite <- (app_nil_r (concat _)) in H1 at 1. apply app_inv_head in H1. auto. }
      rewrite app_nil_r in HX.
      exists FR, A, F, W, G. constructor; auto.
    + destruct (h_errs h); discriminate.
  - (* deliver *)
    cbn [sproj fold_left]. destruct HC as [_ Hhs Hit Hok Hw Hsp HR Hbuf Hg He].
    cbn [cstep]. destruct (cn_wire c) as [|p t] eqn:Ew.
    + exists FR, A, F, W, G. constructor; auto. now rewrite Ew.
    + destruct W as [|w W]; [discriminate|]. simpl in Hw. injection Hw as Hp Hw.
      exists FR, A, (F ++ w), W, G. constructor; auto.
      * rewrite Hsp. simpl. now rewrite <- !app_assoc.
      * apply (rinv_buf _ _ _ (rx_buf (cn_r c) ++ p_data p) HR).
      * cbn [cn_r receive_data rx_buf]. now rewrite wire_app, Hbuf, Hp.
  - (* next *)
    cbn [sproj fold_left]. destruct HC as [_ Hhs Hit Hok Hw Hsp HR Hbuf Hg He].
    rewrite Hsp, app_assoc in Hseq. apply well_sequenced_app_inv in Hseq.
    cbn [cstep].
    destruct (next_wire F (cn_r c) G A HR Hseq Hbuf) as [(r' & [oid x] & Hn & HR' & Hb')|(r' & Hn & HR' & Hb' & _)];
      rewrite Hn.
    + exists FR, (A ++ F), [], W, (G ++ [(oid, x)]). constructor; auto.
      * rewrite Hsp, <- app_assoc. reflexivity.
      * cbn [cn_got]. rewrite map_app, Hg. reflexivity.
    + exists FR, (A ++ F), [], W, G. constructor; auto. rewrite Hsp, <- app_assoc. reflexivity.
Qed.

Lemma sproj_items client h o : length (h_items (fold_left sstep (sproj client o) h)) <= S (length (h_items h)).
Proof. destruct o; cbn [sproj fold_left]; try lia; apply sstep_items_length. Qed.

Lemma crun_inv_aux client ops : forall c h FR A F W G,
  CInv client c h FR A F W G -> Forall cop_ok ops -> (N.of_nat (length (h_items h) + length ops) < 2 ^ 64)%N ->
  exists FR' A' F' W' G',
    CInv client (fold_left (cstep client) ops c)
         (fold_left sstep (flat_map (sproj client) ops) h) FR' A' F' W' G'.
Proof.
  induction ops as [|o ops IH]; intros c h FR A F W G HC Hok Hb.
  - simpl. eauto 6.
  - inversion Hok; subst. simpl in Hb.
    destruct (cstep_inv client c h FR A F W G o HC) as (FR1 & A1 & F1 & W1 & G1 & HC1); [assumption|lia|].
    cbn [fold_left flat_map]. rewrite fold_left_app. eapply IH; [exact HC1|assumption|].
    pose proof (sproj_items client h o). lia.
Qed.

Lemma cinv_init client : CInv client conn_init shist_init [] [] [] [] [].
Proof. constructor; simpl; auto. - apply sinv_init. - apply rinv_init. Qed.

Lemma crun_inv client ops : Forall cop_ok ops -> (N.of_nat (length ops) < 2 ^ 64)%N ->
  exists FR A F W G, CInv client (crun client ops) (srun (flat_map (sproj client) ops)) FR A F W G.
Proof. intros Hok Hb. eapply crun_inv_aux; eauto. apply cinv_init. Qed.

(** The messages finished so far are the first messages queued. *)
Lemma finished_expected client FR items sent q :
  Forall2 (item_of client) items sent -> Forall cmsg_ok sent -> NoDup (map i_oid items) ->
  finished FR ++ map q_oid q = map i_oid items ->
  Forall (tracked q FR) items -> well_sequenced FR ->
  exists k, map (object_message FR) (finished FR)
            = map (fun p => Some (i_oid (fst p), expected (snd p))) (firstn k (combine items sent))
       /\ k = length (finished FR).
Proof.
  intros H2 Hok Hnd Hord Htr Hws. exists (length (finished FR)). split; [|reflexivity].
  assert (Hfin : finished FR = map i_oid (firstn (length (finished FR)) items)).
  { rewrite <- firstn_map, <- Hord. rewrite firstn_app, Nat.sub_diag, firstn_all. simpl. now rewrite app_nil_r. }
  set (k := length (finished FR)) in *.
  assert (Hk : forall it m, In (it, m) (firstn k (combine items sent)) ->
     object_message FR (i_oid it) = Some (i_oid it, expected m)).
  { intros it m Hin.
    assert (Hin2 : In (it, m) (combine items sent)).
    { rewrite <- (firstn_skipn k (combine items sent)). apply in_or_app. now left. }
    assert (Him : item_of client it m /\ In it items /\ cmsg_ok m).
    { clear -H2 Hok Hin2. induction H2 as [|a b l1 l2 HR H IH]; [destruct Hin2|]. simpl in Hin2.
      inversion Hok as [|? ? Hk1 Hk2]; subst. destruct Hin2 as [[= -> ->]|Hin2]; [simpl; auto|].
      destruct (IH Hk2 Hin2) as (H5 & H6 & H7). simpl. auto. }
    destruct Him as (Him & Hit & Hmok).
    assert (Hinf : In (i_oid it) (finished FR)).
    { rewrite Hfin. apply in_map. clear -Hin. revert items sent Hin. induction k as [|k IH]; intros [|a items] [|b sent] Hin;
      simpl in *; try tauto. destruct Hin as [[= -> ->]|Hin]; [auto|right; eauto]. }
    rewrite Forall_forall in Htr. destruct (Htr it Hit) as [(x & Hx & _ & _ & _ & _ & _ & Hn)|(Hnq & Hc & Hn & Hne)].
    - apply numbered_false_noend in Hn. apply in_finished in Hinf. congruence.
    - unfold object_message. rewrite Hc. destruct (item_message _ _ _ Him Hmok) as (x & -> & <-). reflexivity. }
  assert (Hlen : length items = length sent) by (eapply Forall2_len; eauto).
  clearbody k.
  rewrite Hfin. rewrite map_map.
  clear -Hk Hlen. revert sent k Hk Hlen. induction items as [|it items IH]; intros [|m sent] k Hk Hlen; try discriminate.
  - destruct k; reflexivity.
  - destruct k as [|k]; [reflexivity|]. simpl. f_equal.
    + apply Hk. now left.
    + apply IH; [|now injection Hlen]. intros. apply Hk. now right.
Qed.

Lemma map_some_inj {A} (a b : list A) : map Some a = map Some b -> a = b.
Proof. revert b. induction a; intros [|y b]; simpl; try discriminate; [reflexivity|]. intros [= -> H]. f_equal; auto. Qed.

Lemma firstn_combine_snd {A B} (l1 : list A) (l2 : list B) k : length l1 = length l2 ->
  map snd (firstn k (combine l1 l2)) = firstn k l2.
Proof.
  revert l2 k. induction l1 as [|a l1 IH]; intros [|b l2] [|k]; simpl; try discriminate; auto.
  intros [= H]. f_equal. auto.
Qed.

Lemma cinv_msgs client c h FR A F W G : CInv client c h FR A F W G ->
  map snd (G ++ rx_msgs (cn_r c)) = map expected (firstn (length (finished A)) (cn_sent c))
  /\ (s_queue (cn_s c) = [] -> length (finished FR) = length (cn_sent c)).
Proof.
  intros HC. pose proof (cinv_seq _ _ _ _ _ _ _ _ HC) as Hseq.
  destruct HC as [HI Hhs Hit Hok Hw Hsp HR Hbuf Hg He].
  assert (Hlen : length (h_items h) = length (cn_sent c)) by (eapply Forall2_len; eauto).
  assert (Hnd : NoDup (map i_oid (h_items h))).
  { rewrite (si_oids _ _ HI). apply FinFun.Injective_map_NoDup; [|apply seq_NoDup]. intros x y Hxy. lia. }
  split.
  - destruct (finished_expected client FR _ _ _ Hit Hok Hnd (si_order _ _ HI) (si_track _ _ HI) Hseq) as (k & Hm & Hk).
    assert (Hm2 : map (object_message A) (finished A) =
       map (fun p => Some (i_oid (fst p), expected (snd p)))
           (firstn (length (finished A)) (combine (h_items h) (cn_sent c)))).
    { rewrite Hsp in Hseq. rewrite <- (object_message_ext A (F ++ concat W) Hseq), <- Hsp.
      assert (Hf : finished A = firstn (length (finished A)) (finished FR)).
      { rewrite Hsp, finished_app, firstn_app, Nat.sub_diag, firstn_all. simpl. now rewrite app_nil_r. }
      rewrite Hf at 1. rewrite <- firstn_map, Hm, firstn_map, firstn_firstn. f_equal. f_equal.
      rewrite Hk, Hsp, finished_app, app_length. lia. }
    rewrite <- (ri_msgs _ _ _ HR) in Hm2.
    rewrite <- (map_map (fun p => (i_oid (fst p), expected (snd p))) Some) in Hm2.
    apply map_some_inj in Hm2. rewrite Hm2, map_map. simpl.
    rewrite <- (firstn_combine_snd (h_items h) (cn_sent c)), map_map by exact Hlen. reflexivity.
  - intros Hq. rewrite <- Hhs in Hq. pose proof (si_order _ _ HI) as H. rewrite Hq in H. simpl in H. rewrite app_nil_r in H.
    apply (f_equal (@length _)) in H. rewrite map_length in H. congruence.
Qed.

Lemma delivery_lemma client ops :
  Forall cop_ok ops -> (N.of_nat (length ops) < 2 ^ 64)%N ->
  let c := crun client ops in
  cn_errs c = [] /\ prefix (cn_got c) (map expected (cn_sent c))
  /\ (s_queue (cn_s c) = [] -> cn_wire c = [] -> forall r', next_message (cn_r c) = (r', Ok None) ->
      cn_got c = map expected (cn_sent c)).
Proof.
  intros Hok Hb. cbv zeta.
  destruct (crun_inv client ops Hok Hb) as (FR & A & F & W & G & HC).
  set (c := crun client ops) in *.
  destruct (cinv_msgs _ _ _ _ _ _ _ _ HC) as [Hm Hfull].
  split; [apply HC|]. split.
  - rewrite (ci_got _ _ _ _ _ _ _ _ HC).
    exists (map snd (rx_msgs (cn_r c)) ++ map expected (skipn (length (finished A)) (cn_sent c))).
    rewrite app_assoc, <- map_app, Hm, <- map_app, firstn_skipn. reflexivity.
  - intros Hq Hw r' Hn.
    pose proof (cinv_seq _ _ _ _ _ _ _ _ HC) as Hseq.
    destruct HC as [HI Hhs Hit Hcok Hwire Hsp HR Hbuf Hg He].
    rewrite Hw in Hwire. destruct W; [|discriminate]. simpl in Hsp. rewrite app_nil_r in Hsp.
    rewrite Hsp in Hseq.
    destruct (next_wire F (cn_r c) G A HR Hseq Hbuf) as [(r2 & x & Hn2 & _)|(r2 & Hn2 & HR2 & Hb2 & Hm2)];
      [congruence|].
    rewrite Hn in Hn2. injection Hn2 as <-.
    (* the state after this next_event *)
    assert (HC2 : CInv client (mkC (cn_s c) (cn_wire c) r' (cn_sent c) (cn_got c) (cn_errs c))
                   (srun (flat_map (sproj client) ops)) FR (A ++ F) [] [] G).
    { constructor; auto; simpl; rewrite ?Hw; auto. now rewrite !app_nil_r. }
    destruct (cinv_msgs _ _ _ _ _ _ _ _ HC2) as [Hm3 _]. simpl in Hm3.
    rewrite Hm2, app_nil_r, <- Hsp, (Hfull Hq), firstn_all in Hm3. now rewrite Hg.
Qed.

(** Eventually everything arrives. *)
Lemma crun_app client a b : crun client (a ++ b) = fold_left (cstep client) b (crun client a).
Proof. unfold crun. apply fold_left_app. Qed.

Lemma cn_s_srun client ops : cn_s (crun client ops) = h_s (srun (flat_map (sproj client) ops)).
Proof.
  assert (H : forall ops c h, cn_s c = h_s h ->
    cn_s (fold_left (cstep client) ops c) = h_s (fold_left sstep (flat_map (sproj client) ops) h)).
  { clear. induction ops as [|o ops IH]; intros c h H; [exact H|].
    cbn [fold_left flat_map]. rewrite fold_left_app. apply IH. destruct o as [m|a| |]; cbn [sproj fold_left].
    - simpl. now rewrite H.
    - simpl. rewrite H. destruct (data_to_send (h_s h) a) as [s' [[p|]|e]]; reflexivity.
    - simpl. destruct (cn_wire c); exact H.
    - simpl. destruct (next_message (cn_r c)) as [r' [[[o m]|]|e]]; exact H. }
  apply H. reflexivity.
Qed.

Lemma eventually_lemma client ops :
  Forall cop_ok ops ->
  let c := crun client ops in
  forall n, pending (s_queue (cn_s c)) <= n -> length (cn_wire c) + pending (s_queue (cn_s c)) <= n ->
  length (cn_sent c) <= n ->
  (N.of_nat (length ops + (n + (n + n))) < 2 ^ 64)%N ->
  cn_got (crun client (ops ++ repeat (CSend None) n ++ repeat CDeliver n ++ repeat CNext n))
  = map expected (cn_sent c).
Proof.
  intros Hok c n Hp Hwl Hs Hb.
  set (ops1 := ops ++ repeat (CSend None) n).
  assert (Hok1 : Forall cop_ok ops1).
  { apply Forall_app. split; [exact Hok|]. apply Forall_forall. intros x Hx. apply repeat_spec in Hx. now subst. }
  assert (Hq1 : s_queue (cn_s (crun client ops1)) = []).
  { rewrite cn_s_srun. unfold ops1. rewrite flat_map_app.
    replace (flat_map (sproj client) (repeat (CSend None) n)) with (map SSend (repeat None n))
      by (clear; induction n; simpl; congruence).
    assert (Hlen : length (flat_map (sproj client) ops) <= length ops).
    { clear. induction ops as [|o ops IH]; simpl; [lia|]. rewrite app_length. pose proof (sproj_len client o). lia. }
    apply drain_send.
    - clear -Hok. induction Hok; simpl; [constructor|]. apply Forall_app. split; [now apply sproj_ok|assumption].
    - apply Forall_forall. intros x Hx. apply repeat_spec in Hx. subst. exact I.
    - rewrite repeat_length. lia.
    - rewrite repeat_length, <- cn_s_srun. exact Hp. }
  (* sending adds at most one payload per pending byte *)
  assert (Hsnd : forall k, k <= n ->
     let c' := crun client (ops ++ repeat (CSend None) k) in
     length (cn_wire c') + pending (s_queue (cn_s c')) <= n /\ cn_sent c' = cn_sent c).
  { induction k as [|k IH]; intros Hk; cbv zeta.
    - simpl. rewrite app_nil_r. fold c. auto.
    - destruct (IH ltac:(lia)) as [IH1 IH2]. cbv zeta in IH1.
      replace (repeat (CSend None) (S k)) with (repeat (CSend None) k ++ [CSend None]) by (rewrite <- repeat_cons; reflexivity).
      rewrite app_assoc, crun_app. set (c1 := crun client (ops ++ repeat (CSend None) k)) in *.
      cbn [fold_left cstep].
      assert (Hc1 : cn_s c1 = h_s (srun (flat_map (sproj client) (ops ++ repeat (CSend None) k)))) by apply cn_s_srun.
      pose proof (data_to_send_reach (flat_map (sproj client) (ops ++ repeat (CSend None) k)) None) as Hreach.
      rewrite <- Hc1 in Hreach. cbv zeta in Hreach.
      assert (Hlen : forall l, length (flat_map (sproj client) l) <= length l).
      { clear. induction l as [|o l IH]; simpl; [lia|]. rewrite app_length. pose proof (sproj_len client o). lia. }
      specialize (Hlen (ops ++ repeat (CSend None) k)). rewrite app_length, repeat_length in Hlen.
      assert (Hok2 : Forall sop_ok (flat_map (sproj client) (ops ++ repeat (CSend None) k))).
      { assert (Hk2 : Forall cop_ok (ops ++ repeat (CSend None) k)).
        { apply Forall_app. split; [exact Hok|]. apply Forall_forall. intros x Hx. apply repeat_spec in Hx. now subst. }
        clear -Hk2. induction Hk2; simpl; [constructor|]. apply Forall_app. split; [now apply sproj_ok|assumption]. }
      specialize (Hreach Hok2 ltac:(lia) I).
      destruct (data_to_send (cn_s c1) None) as [s' [[p|]|e]]; cbn [cn_wire cn_s cn_sent].
      + destruct Hreach as (_ & _ & Hpos & _). rewrite app_length. simpl. split; [lia|exact IH2].
      + destruct Hreach as (_ & _ & ->). auto.
      + tauto. }
  destruct (Hsnd n (le_n _)) as [Hw1 Hsent1]. fold ops1 in Hw1, Hsent1. rewrite Hq1 in Hw1.
  (* deliveries *)
  assert (Hdel : forall k c0, length (cn_wire c0) <= k ->
     let c' := fold_left (cstep client) (repeat CDeliver k) c0 in
     cn_wire c' = [] /\ cn_s c' = cn_s c0 /\ cn_sent c' = cn_sent c0).
  { clear. induction k as [|k IH]; intros c0 Hk; cbv zeta.
    - simpl. destruct (cn_wire c0); [auto|simpl in Hk; lia].
    - cbn [repeat fold_left]. 
      destruct (IH (cstep client c0 CDeliver)) as (H1 & H2 & H3).
      + cbn [cstep]. destruct (cn_wire c0) as [|p t] eqn:E; [rewrite E; simpl; lia|simpl in *; lia].
      + rewrite H1, H2, H3. cbn [cstep]. destruct (cn_wire c0); auto. }
  destruct (Hdel n (crun client ops1)) as (Hw2 & Hs2 & Hsent2); [simpl in Hw1; lia|].
  rewrite <- crun_app in Hw2, Hs2, Hsent2.
  set (ops2 := ops1 ++ repeat CDeliver n) in *.
  assert (Hok2 : Forall cop_ok ops2).
  { apply Forall_app. split; [exact Hok1|]. apply Forall_forall. intros x Hx. apply repeat_spec in Hx. now subst. }
  (* events *)
  assert (Hnx : forall k, k <= n ->
     let c' := crun client (ops2 ++ repeat CNext k) in
     cn_wire c' = [] /\ s_queue (cn_s c') = [] /\ cn_sent c' = cn_sent c /\
     (cn_got c' = map expected (cn_sent c) \/ k <= length (cn_got c'))).
  { induction k as [|k IH]; intros Hk; cbv zeta.
    - simpl. rewrite app_nil_r. rewrite Hs2, Hsent2, Hsent1. repeat split; auto. right. lia.
    - destruct (IH ltac:(lia)) as (I1 & I2 & I3 & I4). cbv zeta in *.
      replace (repeat CNext (S k)) with (repeat CNext k ++ [CNext]) by (rewrite <- repeat_cons; reflexivity).
      rewrite app_assoc.
      assert (Hok3 : Forall cop_ok (ops2 ++ repeat CNext k)).
      { apply Forall_app. split; [exact Hok2|]. apply Forall_forall. intros x Hx. apply repeat_spec in Hx. now subst. }
      assert (Hok4 : Forall cop_ok ((ops2 ++ repeat CNext k) ++ [CNext])).
      { apply Forall_app. split; [exact Hok3|repeat constructor]. }
      assert (Hlen3 : length (ops2 ++ repeat CNext k) <= length ops + (n + (n + k))).
      { unfold ops2, ops1. rewrite !app_length, !repeat_length. lia. }
      destruct (delivery_lemma client _ Hok3 ltac:(lia)) as (E3 & P3 & D3).
      destruct (delivery_lemma client _ Hok4) as (E4 & P4 & D4).
      { rewrite app_length. simpl. lia. }
      cbv zeta in *. rewrite (crun_app _ (ops2 ++ repeat CNext k) [CNext]) in *. set (c3 := crun client (ops2 ++ repeat CNext k)) in *.
      cbn [fold_left cstep] in *.
      destruct (next_message (cn_r c3)) as [r' [[[o m]|]|e]] eqn:En; cbn [cn_wire cn_s cn_sent cn_got cn_errs] in *.
      + split; [auto|]. split; [auto|]. split; [auto|]. destruct I4 as [I4|I4]; [|right; rewrite app_length; simpl; lia].
        exfalso. rewrite I4, I3 in P4. destruct P4 as [z Hz]. apply (f_equal (@length _)) in Hz.
        rewrite !app_length in Hz. simpl in Hz. lia.
      + split; [auto|]. split; [auto|]. split; [auto|]. left. rewrite <- I3. eapply D3; eauto.
      + destruct (cn_errs c3); discriminate. }
  destruct (Hnx n (le_n _)) as (_ & _ & Hs5 & H). cbv zeta in *.
  replace (ops ++ repeat (CSend None) n ++ repeat CDeliver n ++ repeat CNext n) with (ops2 ++ repeat CNext n)
    by (unfold ops2, ops1; now rewrite <- !app_assoc).
  destruct H as [H|H]; [exact H|].
  assert (Hok5 : Forall cop_ok (ops2 ++ repeat CNext n)).
  { apply Forall_app. split; [exact Hok2|]. apply Forall_forall. intros x Hx. apply repeat_spec in Hx. now subst. }
  destruct (delivery_lemma client _ Hok5) as (_ & [z Hz] & _).
  { unfold ops2, ops1. rewrite !app_length, !repeat_length. lia. }
  rewrite Hs5 in Hz. assert (length z = 0).
  { apply (f_equal (@length _)) in Hz. rewrite map_length, app_length in Hz. lia. }
  destruct z; [|discriminate]. now rewrite app_nil_r in Hz.
Qed.

(** *** C02: layout *)
Lemma le_bytes_S n v : le_bytes (S n) v = (v mod 256)%N :: le_bytes n (v / 256).
Proof. reflexivity. Qed.
Lemma le_bytes_app a b v : le_bytes (a + b) v = le_bytes a v ++ le_bytes b (v / 256 ^ N.of_nat a).
Proof.
  revert v. induction a as [|a IH]; intros v; cbn [Nat.add].
  - change (256 ^ N.of_nat 0)%N with 1%N. now rewrite N.div_1_r.
  - rewrite !le_bytes_S, IH. cbn [app]. f_equal. f_equal. f_equal. rewrite pow256_S.
    rewrite N.div_div; [reflexivity| lia|]. apply N.pow_nonzero. lia.
Qed.
Lemma le_bytes_mod a v : le_bytes a (v mod 256 ^ N.of_nat a) = le_bytes a v.
Proof.
  revert v. induction a as [|a IH]; intros v; [reflexivity|]. rewrite !le_bytes_S, pow256_S.
  assert (Hp : (256 ^ N.of_nat a <> 0)%N) by (apply N.pow_nonzero; lia).
  rewrite N.mod_mul_r by lia. f_equal.
  - rewrite (N.mul_comm 256), N.mod_add by lia. now rewrite N.mod_mod by lia.
  - rewrite (N.mul_comm 256), N.div_add by lia. rewrite (N.div_small (v mod 256)) by (apply N.mod_lt; lia).
    rewrite N.add_0_l. apply IH.
Qed.

Lemma uuid_layout u : (u < 2 ^ 128)%N -> uuid_bytes_le u = guid_layout u.
Proof.
  intros Hu. unfold uuid_bytes_le, uuid_bytes, guid_layout.
  assert (H : be_bytes 16 u = rev (le_bytes 4 (u / 2 ^ 96)) ++ rev (le_bytes 2 (u / 2 ^ 80)) ++
                              rev (le_bytes 2 (u / 2 ^ 64)) ++ rev (le_bytes 8 u)).
  { unfold be_bytes. change 16 with (8 + (2 + (2 + 4))). rewrite le_bytes_app, le_bytes_app, le_bytes_app.
    change (256 ^ N.of_nat 8)%N with (2 ^ 64)%N. change (256 ^ N.of_nat 2)%N with (2 ^ 16)%N.
    rewrite !N.div_div by lia.
    change (2 ^ 64 * 2 ^ 16)%N with (2 ^ 80)%N. change (2 ^ 80 * 2 ^ 16)%N with (2 ^ 96)%N.
    rewrite ?N.div_div by lia. change (2 ^ 80 * 2 ^ 16)%N with (2 ^ 96)%N. rewrite !rev_app_distr, <- !app_assoc.
    reflexivity. }
  rewrite H. unfold be_bytes.
  change (2 ^ 64)%N with (256 ^ N.of_nat 8)%N at 3. rewrite le_bytes_mod.
  change (2 ^ 16)%N with (256 ^ N.of_nat 2)%N. rewrite !le_bytes_mod.
  set (A := le_bytes 4 _). set (B := le_bytes 2 (u / 2 ^ 80)). set (C := le_bytes 2 (u / 2 ^ 64)). set (D := rev (le_bytes 8 u)).
  assert (HA : length (rev A) = 4) by (rewrite rev_length; apply le_bytes_length).
  assert (HB : length (rev B) = 2) by (rewrite rev_length; apply le_bytes_length).
  assert (HC : length (rev C) = 2) by (rewrite rev_length; apply le_bytes_length).
  unfold guid_swap.
  set (l := rev A ++ rev B ++ rev C ++ D).
  assert (S1 : slice 0 4 l = rev A) by (apply (slice_app_mid [] (rev A)); simpl; auto).
  assert (S2 : slice 4 6 l = rev B) by (apply (slice_app_mid (rev A) (rev B)); simpl; auto).
  assert (S3 : slice 6 8 l = rev C).
  { unfold l. rewrite (app_assoc (rev A)). apply (slice_app_mid (rev A ++ rev B) (rev C)); rewrite ?app_length; lia. }
  assert (S4 : skipn 8 l = D).
  { unfold l. rewrite (app_assoc (rev A)), (app_assoc (rev A ++ rev B)), app_skipn_len; [reflexivity|rewrite !app_length; lia]. }
  rewrite S1, S2, S3, S4.
  now rewrite !rev_involutive.
Qed.

Lemma create_message_layout c mt d r p :
  (r < 2 ^ 128)%N -> match p with Some q => (q < 2 ^ 128)%N | None => True end ->
  create_message c mt d r p
  = message_layout (if c then 2 else 1) mt r (match p with Some q => q | None => 0%N end) d.
Proof.
  intros Hr Hp. unfold create_message, message_layout. rewrite !uuid_layout; auto.
  destruct p; [exact Hp|lia].
Qed.

(** *** C10: byte-level histories *)
Lemma wire_length_ge F : 21 * length F <= length (wire F).
Proof.
  induction F as [|f F IH]; [simpl; lia|]. rewrite wire_cons, app_length, frag_bytes_length. cbn [length]. lia.
Qed.

Lemma app_eq_split {A} (a b c d : list A) : a ++ b = c ++ d ->
  (exists l, c = a ++ l /\ b = l ++ d) \/ (exists l, a = c ++ l /\ d = l ++ b).
Proof.
  revert c. induction a as [|x a IH]; intros c H.
  - left. exists c. auto.
  - destruct c as [|y c].
    + right. exists (x :: a). auto.
    + simpl in H. injection H as -> H. destruct (IH c H) as [(l & -> & Hl)|(l & -> & Hl)]; [left|right]; exists l; auto.
Qed.

Lemma header_order fs F1 F1' h1 x F2 F2' h2 :
  fs = F1 ++ F1' -> fs = F2 ++ F2' -> (wire F1 ++ h1) ++ x = wire F2 ++ h2 -> length h2 < 21 ->
  exists X, F2 = F1 ++ X /\ h1 ++ x = wire X ++ h2.
Proof.
  intros E1 E2 Hw Hl. rewrite E1 in E2. apply app_eq_split in E2. destruct E2 as [(l & -> & E2)|(l & -> & E2)].
  - exists l. split; [reflexivity|]. rewrite wire_app, <- !app_assoc in Hw. now apply app_inv_head in Hw.
  - rewrite wire_app, <- !app_assoc in Hw. apply app_inv_head in Hw.
    destruct l as [|f l].
    + exists []. rewrite !app_nil_r. split; [reflexivity|exact Hw].
    + exfalso. apply (f_equal (@length _)) in Hw. rewrite !app_length in Hw.
      pose proof (wire_length_ge (f :: l)) as Hge. cbn [length] in Hge. lia.
Qed.

(** [sofar] bytes have been fed; next_event is only called at positions [ok]. *)
Fixpoint cuts_ok (fs : list Fragment) (sofar : list N) (ops : list bop) : Prop :=
  match ops with
  | [] => True
  | BFeed b :: t => cuts_ok fs (sofar ++ b) t
  | BNext :: t => ends_in_header fs sofar /\ cuts_ok fs sofar t
  end.

Lemma cuts_ok_spec fs ops : (forall ops1 ops2, ops = ops1 ++ BNext :: ops2 -> ends_in_header fs (bytes_fed ops1)) ->
  cuts_ok fs [] ops.
Proof.
  assert (H : forall ops sofar, (forall ops1 ops2, ops = ops1 ++ BNext :: ops2 -> ends_in_header fs (sofar ++ bytes_fed ops1)) ->
    cuts_ok fs sofar ops).
  { clear. induction ops as [|[b|] ops IH]; intros sofar H; simpl; [exact I| |].
    - apply IH. intros o1 o2 ->. rewrite <- app_assoc. apply (H (BFeed b :: o1) o2). reflexivity.
    - split.
      + specialize (H [] ops eq_refl). simpl in H. now rewrite app_nil_r in H.
      + apply IH. intros o1 o2 ->. apply (H (BNext :: o1) o2). reflexivity. }
  intros H'. apply (H ops []). exact H'.
Qed.

Lemma next_wire_tail F r G A h :
  RInv r G A -> well_sequenced (A ++ F) -> rx_buf r = wire F ++ h -> 0 < length h < 21 ->
  exists r', next_message r = (r', Err StructError) /\ RInv r' G (A ++ F) /\ rx_buf r' = h.
Proof.
  intros HI Hs Hb Hh.
  destruct (pump_wire F (length (rx_buf r)) r G A h HI Hs Hb (le_n _)) as (r' & Hp & HI' & Hb').
  exists r'. split; [|auto]. unfold next_message. rewrite Hp.
  destruct (length h) as [|n] eqn:El; [lia|].
  rewrite pump_S by (rewrite Hb'; destruct h; [discriminate|congruence]).
  rewrite Hb', unpack_fragment_short by lia. reflexivity.
Qed.

Record BInv (fs : list Fragment) (h : bhist) (A A' : list Fragment) (sofar buf : list N) : Prop := {
  bi_split : fs = A ++ A';
  bi_far : sofar = wire A ++ buf;
  bi_buf : rx_buf (bh_r h) = buf;
  bi_r : RInv (bh_r h) (bh_got h) A;
  bi_errs : Forall (eq StructError) (bh_errs h) }.

Lemma bnext_inv fs h A A' sofar buf :
  well_sequenced fs -> BInv fs h A A' sofar buf -> ends_in_header fs sofar ->
  exists A2 A2' buf2, BInv fs (bstep h BNext) A2 A2' sofar buf2.
Proof.
  intros Hws [Hsp Hfar Hbuf HR Herr] (F & F' & t & E & Hso & Ht).
  destruct (header_order fs A A' buf [] F F' t Hsp E) as (X & -> & HX); [now rewrite app_nil_r, <- Hfar|exact Ht|].
  rewrite app_nil_r in HX.
  assert (Hws2 : well_sequenced (A ++ X)) by (rewrite E in Hws; now apply well_sequenced_app_inv in Hws).
  destruct t as [|b t].
  - rewrite app_nil_r in *. rewrite <- Hbuf in HX.
    exists (A ++ X), F', []. cbn [bstep].
    destruct (next_wire X (bh_r h) (bh_got h) A HR Hws2 HX) as [(r' & x & Hn & HR' & Hb')|(r' & Hn & HR' & Hb' & _)]; rewrite Hn;
      constructor; auto; now rewrite app_nil_r.
  - rewrite <- Hbuf in HX.
    destruct (next_wire_tail X (bh_r h) (bh_got h) A (b :: t) HR Hws2 HX) as (r' & Hn & HR' & Hb'); [simpl in *; lia|].
    exists (A ++ X), F', (b :: t). cbn [bstep]. rewrite Hn. constructor; auto. simpl. apply Forall_app. auto.
Qed.

Lemma brun_inv fs ops : well_sequenced fs -> forall h A A' sofar buf,
  BInv fs h A A' sofar buf -> cuts_ok fs sofar ops ->
  exists A2 A2' buf2, BInv fs (fold_left bstep ops h) A2 A2' (sofar ++ bytes_fed ops) buf2.
Proof.
  intros Hws. induction ops as [|[b|] ops IH]; intros h A A' sofar buf HB Hc; cbn [fold_left].
  - simpl. rewrite app_nil_r. eauto.
  - simpl in Hc. change (bytes_fed (BFeed b :: ops)) with (b ++ bytes_fed ops). rewrite app_assoc.
    eapply (IH (bstep h (BFeed b)) A A' _ (buf ++ b)); [|exact Hc]. destruct HB as [Hsp Hfar Hbuf HR Herr].
    constructor; auto.
    + now rewrite Hfar, <- app_assoc.
    + simpl. now rewrite Hbuf.
    + simpl. apply (rinv_buf _ _ _ (rx_buf (bh_r h) ++ b) HR).
  - destruct Hc as [He Hc]. destruct (bnext_inv _ _ _ _ _ _ Hws HB He) as (A2 & A2' & buf2 & HB2).
    change (bytes_fed (BNext :: ops)) with (bytes_fed ops). eapply IH; eauto.
Qed.

Lemma chunk_lemma fs ops :
  well_sequenced fs ->
  (forall ops1 ops2, ops = ops1 ++ BNext :: ops2 -> ends_in_header fs (bytes_fed ops1)) ->
  let h := brun ops in
  let all := map (object_message fs) (finished fs) in
  Forall (eq StructError) (bh_errs h) /\ prefix (map Some (bh_got h)) all
  /\ (bytes_fed ops = wire fs -> forall r', next_message (bh_r h) = (r', Ok None) -> map Some (bh_got h) = all).
Proof.
  intros Hws Hc. cbv zeta. apply cuts_ok_spec in Hc.
  destruct (brun_inv fs ops Hws bhist_init [] fs [] []) as (A & A' & buf & HB).
  { constructor; simpl; auto. apply rinv_init. }
  { exact Hc. }
  fold (brun ops) in HB. simpl in HB. destruct HB as [Hsp Hfar Hbuf HR Herr].
  split; [exact Herr|]. rewrite Hsp in Hws.
  assert (Hext := object_message_ext A A' Hws). split.
  - exists (map Some (rx_msgs (bh_r (brun ops))) ++ map (object_message fs) (finished A')).
    rewrite Hsp, finished_app, map_app, Hext, <- (ri_msgs _ _ _ HR), map_app, app_assoc. reflexivity.
  - intros Hall r' Hn. rewrite Hall, Hsp, wire_app in Hfar. apply app_inv_head in Hfar.
    destruct (next_wire A' (bh_r (brun ops)) (bh_got (brun ops)) A HR Hws) as [(r2 & x & Hn2 & _)|(r2 & Hn2 & HI2 & _ & Hm)].
    + congruence.
    + congruence.
    + rewrite Hsp, <- (ri_msgs _ _ _ HI2), Hm, app_nil_r. reflexivity.
Qed.
