(** Histories of queueing and sending. *)
From Coq Require FinFun.
From Verif Require Import Base BaseFacts Model_Payload Model_Transport Spec_Transport Proofs_Payload Proofs_Send.

Lemma frags_of_app oid a b : frags_of oid (a ++ b) = frags_of oid a ++ frags_of oid b.
Proof. unfold frags_of. apply filter_app. Qed.

Lemma seq_snoc n : seq 0 (S n) = seq 0 n ++ [n].
Proof. rewrite seq_S. reflexivity. Qed.

Lemma numbered_nil b : numbered [] b.
Proof. repeat split. Qed.

Lemma numbered_snoc fs f b :
  numbered fs false -> f_fid f = N.of_nat (length fs) -> f_start f = (f_fid f =? 0)%N -> f_end f = b ->
  numbered (fs ++ [f]) b.
Proof.
  intros (H1 & H2 & H3) Hid Hs He. unfold numbered.
  rewrite !app_length, !map_app. simpl. rewrite Nat.add_1_r, seq_snoc, !map_app. simpl.
  repeat split.
  - now rewrite H1, Hid.
  - rewrite H2, Hs, Hid. f_equal. f_equal. lia.
  - rewrite H3, He. f_equal.
    + apply map_ext_in. intros i Hi. apply in_seq in Hi. rewrite andb_false_r.
      destruct (Nat.eqb_spec i (length fs)); [lia|reflexivity].
    + now rewrite Nat.eqb_refl.
Qed.

Definition live (q : list QMsg) (FR : list Fragment) (it : item) : Prop :=
  exists m, In m q /\ q_oid m = i_oid it /\ q_pid m = i_pid it /\ q_stream m = i_stream it
    /\ concat (map f_data (frags_of (i_oid it) FR)) ++ q_data m = i_bytes it
    /\ q_fc m = N.of_nat (length (frags_of (i_oid it) FR)) /\ numbered (frags_of (i_oid it) FR) false.
Definition done (q : list QMsg) (FR : list Fragment) (it : item) : Prop :=
  (forall m, In m q -> q_oid m <> i_oid it)
  /\ concat (map f_data (frags_of (i_oid it) FR)) = i_bytes it
  /\ numbered (frags_of (i_oid it) FR) true /\ frags_of (i_oid it) FR <> [].
Definition tracked q FR it := live q FR it \/ done q FR it.

Lemma emit_oids q f q' : emit q f q' ->
  In (f_oid f) (map q_oid q) /\ (forall x, In x (map q_oid q') -> In x (map q_oid q))
  /\ (NoDup (map q_oid q) -> NoDup (map q_oid q')).
Proof.
  intros H; inversion H; subst; simpl; repeat split; auto.
  intros Hn; inversion Hn; auto.
Qed.

Lemma frags_of_other oid f : f_oid f <> oid -> frags_of oid [f] = [].
Proof. intros H. unfold frags_of. simpl. destruct (N.eqb_spec (f_oid f) oid); congruence. Qed.
Lemma frags_of_same oid f : f_oid f = oid -> frags_of oid [f] = [f].
Proof. intros H. unfold frags_of. simpl. destruct (N.eqb_spec (f_oid f) oid); congruence. Qed.

Lemma emit_tracked q f q' FR it :
  emit q f q' -> NoDup (map q_oid q) -> tracked q FR it -> tracked q' (FR ++ [f]) it.
Proof.
  intros He Hn Ht.
  assert (Hhead : exists m t, q = m :: t /\ f_oid f = q_oid m) by (inversion He; subst; eauto).
  destruct Hhead as (h & t & -> & Hfo).
  destruct (N.eq_dec (q_oid h) (i_oid it)) as [Heq|Hne].
  - (* the head is this item *)
    destruct Ht as [(m & Hin & Hoid & Hp & Hst & Hcat & Hfc & Hnum)|(Hno & _)].
    2:{ exfalso. apply (Hno h); [now left|congruence]. }
    assert (m = h) as ->.
    { destruct Hin as [->|Hin]; [reflexivity|]. exfalso. simpl in Hn. inversion Hn as [|? ? Hni _]; subst.
      apply Hni. rewrite Heq, <- Hoid. now apply in_map. }
    assert (Hof : f_oid f = i_oid it) by congruence.
    assert (HF : frags_of (i_oid it) (FR ++ [f]) = frags_of (i_oid it) FR ++ [f])
      by now rewrite frags_of_app, frags_of_same.
    inversion He; subst; simpl in *.
    + right. unfold done. rewrite HF, map_app, concat_app. simpl. rewrite app_nil_r.
      split; [|split; [|split]].
      * intros m Hm Hmo. inversion Hn as [|? ? Hni _]; subst. apply Hni. rewrite Heq, <- Hmo. now apply in_map.
      * exact Hcat.
      * apply numbered_snoc; auto.
      * intros E. apply app_eq_nil in E. destruct E; discriminate.
    + left. unfold live. rewrite HF, map_app, concat_app. simpl. rewrite app_nil_r.
      eexists. split; [left; reflexivity|]. simpl.
      split; [exact Heq|]. split; [exact Hp|]. split; [exact Hst|]. split; [|split].
      * rewrite <- app_assoc, firstn_skipn. exact Hcat.
      * rewrite app_length. simpl. rewrite Hfc. lia.
      * apply numbered_snoc; auto.
  - (* another item *)
    assert (HF : frags_of (i_oid it) (FR ++ [f]) = frags_of (i_oid it) FR)
      by (rewrite frags_of_app, frags_of_other by congruence; apply app_nil_r).
    destruct Ht as [(m & Hin & Hoid & Hrest)|(Hno & Hrest)].
    + left. exists m. rewrite HF. split; [|tauto].
      destruct Hin as [->|Hin]; [congruence|]. inversion He; subst; [exact Hin|now right].
    + right. unfold done. rewrite HF. split; [|tauto].
      intros m Hm. inversion He; subst; [apply Hno; now right|].
      destruct Hm as [<-|Hm]; simpl; [congruence|apply Hno; now right].
Qed.

Lemma emits_tracked q fs q' : emits q fs q' -> forall FR its,
  NoDup (map q_oid q) -> Forall (tracked q FR) its ->
  NoDup (map q_oid q') /\ Forall (tracked q' (FR ++ fs)) its
  /\ (forall x, In x (map q_oid q') -> In x (map q_oid q))
  /\ (forall f, In f fs -> In (f_oid f) (map q_oid q)).
Proof.
  induction 1 as [q|q f q1 fs q2 He Hes IH]; intros FR its Hn Ht.
  - rewrite app_nil_r. repeat split; auto. intros f [].
  - destruct (emit_oids _ _ _ He) as (Hf & Hsub & Hnd).
    assert (Ht1 : Forall (tracked q1 (FR ++ [f])) its).
    { eapply Forall_impl; [|exact Ht]. intros it Hit. eapply emit_tracked; eauto. }
    destruct (IH (FR ++ [f]) its (Hnd Hn) Ht1) as (H1 & H2 & H3 & H4).
    rewrite <- app_assoc in H2. simpl in H2. repeat split; auto.
    intros g [<-|Hg]; auto.
Qed.

Lemma emits_order q fs q' : emits q fs q' -> finished fs ++ map q_oid q' = map q_oid q.
Proof.
  induction 1 as [q|q f q1 fs q2 He Hes IH]; [reflexivity|].
  inversion He; subst; unfold finished in *; simpl in *; now rewrite IH.
Qed.

(** The invariant of a sender history. *)
Record SInv (h : shist) (FR : list Fragment) : Prop := {
  si_wf : wfq (s_queue (h_s h));
  si_next : s_next (h_s h) = (1 + N.of_nat (length (h_items h)))%N;
  si_oids : map i_oid (h_items h) = map (fun i => (1 + N.of_nat i)%N) (seq 0 (length (h_items h)));
  si_nd : NoDup (map q_oid (s_queue (h_s h)));
  si_qin : forall x, In x (map q_oid (s_queue (h_s h))) -> In x (map i_oid (h_items h));
  si_track : Forall (tracked (s_queue (h_s h)) FR) (h_items h);
  si_out : concat (map p_data (h_out h)) = wire FR;
  si_fits : Forall frag_fits FR;
  si_frin : forall f, In f FR -> In (f_oid f) (map i_oid (h_items h));
  si_order : finished FR ++ map q_oid (s_queue (h_s h)) = map i_oid (h_items h);
  si_errs : h_errs h = [] }.

Lemma items_oid_bound h FR x : SInv h FR -> In x (map i_oid (h_items h)) -> (x < s_next (h_s h))%N.
Proof.
  intros HI Hx. rewrite (si_oids _ _ HI) in Hx. apply in_map_iff in Hx. destruct Hx as (i & <- & Hi).
  apply in_seq in Hi. rewrite (si_next _ _ HI). lia.
Qed.

Lemma tracked_enqueue q FR it m : q_oid m <> i_oid it -> tracked q FR it -> tracked (q ++ [m]) FR it.
Proof.
  intros Hm [(x & Hin & H)|(Hno & H)].
  - left. exists x. split; [apply in_or_app; now left|exact H].
  - right. split; [|exact H]. intros y Hy. apply in_app_or in Hy. destruct Hy as [Hy|[<-|[]]]; auto.
Qed.

Lemma wfq_snoc q m : wfq q -> wf_tail m -> wfq (q ++ [m]).
Proof.
  intros Hq Hm. destruct q as [|x q]; simpl in *.
  - split; [now apply wf_tail_head|constructor].
  - destruct Hq. split; [assumption|]. apply Forall_app; split; auto.
Qed.

Lemma frags_of_none oid FR : (forall f, In f FR -> f_oid f <> oid) -> frags_of oid FR = [].
Proof.
  intros H. unfold frags_of. induction FR as [|f FR IH]; simpl; [reflexivity|].
  destruct (N.eqb_spec (f_oid f) oid) as [E|]; [exfalso; apply (H f); [now left|exact E]|].
  apply IH. intros g Hg. apply H. now right.
Qed.

Lemma sstep_inv h FR o :
  SInv h FR -> sop_ok o -> (N.of_nat (length (h_items h)) + 1 < 2 ^ 64)%N ->
  exists FR', SInv (sstep h o) (FR ++ FR').
Proof.
  intros HI Ho Hb. destruct o as [b p st|a].
  - exists []. rewrite app_nil_r. simpl in *.
    assert (Hfresh : ~ In (s_next (h_s h)) (map i_oid (h_items h))).
    { intros Hx. apply (items_oid_bound h FR) in Hx; [lia|exact HI]. }
    assert (Hbl : b <> []) by (apply length_pos; lia).
    constructor; simpl.
    + apply wfq_snoc; [apply HI|]. unfold wf_tail; simpl. rewrite (si_next _ _ HI). repeat split; auto; lia.
    + rewrite app_length. simpl. rewrite (si_next _ _ HI). lia.
    + rewrite app_length, map_app. simpl. rewrite Nat.add_1_r, seq_snoc, map_app, (si_oids _ _ HI), (si_next _ _ HI).
      reflexivity.
    + rewrite map_app. simpl. apply NoDup_app_single; [apply HI|]. intros Hx. apply Hfresh. now apply (si_qin _ _ HI).
    + intros x Hx. rewrite map_app in *. apply in_app_or in Hx. apply in_or_app.
      destruct Hx as [Hx|Hx]; [left; now apply (si_qin _ _ HI)|right; exact Hx].
    + apply Forall_app. split.
      * eapply Forall_impl with (P := fun it => tracked (s_queue (h_s h)) FR it /\ In it (h_items h)).
        { intros it [Ht Hin]. apply tracked_enqueue; [|exact Ht]. simpl. intros E. apply Hfresh. rewrite E.
          now apply in_map. }
        apply Forall_forall. intros it Hin. split; [|exact Hin]. pose proof (si_track _ _ HI) as HT.
        rewrite Forall_forall in HT. now apply HT.
      * constructor; [|constructor]. left.
        assert (Hnone : frags_of (s_next (h_s h)) FR = []).
        { apply frags_of_none. intros f Hf E. apply Hfresh. rewrite <- E. now apply (si_frin _ _ HI). }
        eexists. split; [apply in_or_app; right; left; reflexivity|]. simpl. rewrite Hnone. simpl.
        repeat split; auto.
    + apply HI.
    + apply HI.
    + intros f Hf. rewrite map_app. apply in_or_app. left. now apply (si_frin _ _ HI).
    + rewrite !map_app, app_assoc, (si_order _ _ HI). reflexivity.
    + apply HI.
  - simpl.
    assert (Hge : amount_ge a 22) by (destruct a; simpl in *; auto).
    unfold data_to_send.
    replace (match a with Some a0 => (a0 <? 22)%Z | None => false end) with false
      by (destruct a; simpl in *; [symmetry; apply Z.ltb_ge; lia|reflexivity]).
    destruct (send_loop_spec (s_queue (h_s h)) a [] SDefault None (si_wf _ _ HI) (or_introl Hge))
      as (frs & q' & st' & pid' & E & Hem & Hff & Hwq & _ & _ & _ & _ & _ & _).
    rewrite E. cbn [app].
    destruct (emits_tracked _ _ _ Hem FR (h_items h) (si_nd _ _ HI) (si_track _ _ HI)) as (Hnd & Htr & Hsub & Hin).
    assert (Hcommon : forall out, concat (map p_data out) = wire (FR ++ frs) ->
      SInv (mkH (mkS (s_next (h_s h)) q') (h_items h) out (h_errs h)) (FR ++ frs)).
    { intros out Hout. constructor; simpl; auto; try apply HI.
      - intros x Hx. apply (si_qin _ _ HI). auto.
      - apply Forall_app; split; [apply HI|exact Hff].
      - intros f Hf. apply in_app_or in Hf. destruct Hf as [Hf|Hf]; [now apply (si_frin _ _ HI)|]. apply (si_qin _ _ HI). auto.
      - unfold finished. rewrite filter_app, map_app, <- app_assoc. fold (finished FR) (finished frs).
        rewrite (emits_order _ _ _ Hem). apply HI. }
    exists frs. destruct (wire frs) as [|w ws] eqn:Ew; apply Hcommon.
    + rewrite wire_app, Ew, app_nil_r. apply HI.
    + rewrite map_app, concat_app. simpl. rewrite app_nil_r, wire_app, Ew, (si_out _ _ HI). reflexivity.
Qed.

Lemma sstep_items_length h o : length (h_items (sstep h o)) <= S (length (h_items h)).
Proof.
  destruct o; simpl; [rewrite app_length; simpl; lia|].
  destruct (data_to_send _ _) as [s [[p|]|e]]; simpl; lia.
Qed.

Lemma srun_inv_aux ops : forall h FR, SInv h FR -> Forall sop_ok ops ->
  (N.of_nat (length (h_items h) + length ops) < 2 ^ 64)%N ->
  exists FR', SInv (fold_left sstep ops h) (FR ++ FR').
Proof.
  induction ops as [|o ops IH]; intros h FR HI Hok Hb; simpl.
  - exists []. now rewrite app_nil_r.
  - inversion Hok; subst. simpl in Hb.
    destruct (sstep_inv h FR o HI) as [F1 H1']; [assumption|lia|].
    destruct (IH _ _ H1' ltac:(assumption)) as [F2 H2'].
    + pose proof (sstep_items_length h o). lia.
    + exists (F1 ++ F2). now rewrite app_assoc.
Qed.

Lemma sinv_init : SInv shist_init [].
Proof. constructor; simpl; auto; try constructor. Qed.

Lemma srun_inv ops : Forall sop_ok ops -> (N.of_nat (length ops) < 2 ^ 64)%N ->
  exists FR, SInv (srun ops) FR.
Proof.
  intros H1 H2. destruct (srun_inv_aux ops shist_init [] sinv_init H1) as [FR H]; [exact H2|].
  exists FR. exact H.
Qed.

(** *** C07 *)
Lemma numbering_lemma ops :
  Forall sop_ok ops -> (N.of_nat (length ops) < 2 ^ 64)%N ->
  let h := srun ops in
  h_errs h = [] /\ NoDup (map i_oid (h_items h)) /\
  exists FR, concat (map p_data (h_out h)) = wire FR /\ Forall frag_fits FR
    /\ (forall f, In f FR -> In (f_oid f) (map i_oid (h_items h)))
    /\ forall it, In it (h_items h) ->
       let fs := frags_of (i_oid it) FR in
       exists rest, concat (map f_data fs) ++ rest = i_bytes it
         /\ numbered fs (match rest with [] => true | _ => false end)
         /\ (rest = [] -> fs <> [] /\ forall m, In m (s_queue (h_s h)) -> q_oid m <> i_oid it)
         /\ (rest <> [] -> exists m, In m (s_queue (h_s h)) /\ q_oid m = i_oid it /\ q_data m = rest).
Proof.
  intros H1 H2. destruct (srun_inv ops H1 H2) as [FR HI]. cbv zeta. split; [apply HI|]. split.
  - rewrite (si_oids _ _ HI). apply FinFun.Injective_map_NoDup; [|apply seq_NoDup].
    intros x y Hxy. lia.
  - exists FR. split; [apply HI|]. split; [apply HI|]. split; [apply HI|].
    intros it Hit. pose proof (si_track _ _ HI) as HT. rewrite Forall_forall in HT.
    destruct (HT it Hit) as [(m & Hin & Ho & Hp & Hs & Hc & Hf & Hn)|(Hno & Hc & Hn & Hne)].
    + exists (q_data m). split; [exact Hc|].
      assert (Hmd : q_data m <> []).
      { pose proof (si_wf _ _ HI) as Hw. destruct (s_queue (h_s (srun ops))) as [|z zs]; [destruct Hin|].
        simpl in Hw. destruct Hw as [Hw1 Hw2]. destruct Hin as [->|Hin]; [apply Hw1|].
        rewrite Forall_forall in Hw2. now apply Hw2. }
      split. { destruct (q_data m); [congruence|exact Hn]. }
      split; [congruence|]. intros _. exists m. auto.
    + exists []. rewrite app_nil_r. split; [exact Hc|]. split; [exact Hn|]. split; [auto|congruence].
Qed.

Lemma firstn_In_mono {A} (l : list A) n m x : n <= m -> In x (firstn n l) -> In x (firstn m l).
Proof.
  intros Hnm Hx. replace n with (Nat.min n m) in Hx by lia. rewrite <- firstn_firstn in Hx.
  rewrite <- (firstn_skipn n (firstn m l)). apply in_or_app. now left.
Qed.

(** *** C03 / C04 / C06 on reachable queues *)
Lemma data_to_send_reach ops a :
  Forall sop_ok ops -> (N.of_nat (length ops) < 2 ^ 64)%N -> amount_ge a 22 ->
  let s := h_s (srun ops) in
  let '(s', r) := data_to_send s a in
  s_next s' = s_next s /\
  match r with
  | Err _ => False
  | Ok None => s_queue s = [] /\ s' = s
  | Ok (Some p) =>
      s_queue s <> [] /\ pending (s_queue s') < pending (s_queue s) /\ 22 <= length (p_data p)
      /\ (forall n, a = Some n -> (Z.of_nat (length (p_data p)) <= n)%Z)
      /\ exists FR, p_data p = wire FR /\ Forall frag_fits FR /\ FR <> []
         /\ (forall f m, In f FR -> In m (s_queue s) -> q_oid m = f_oid f -> q_pid m = p_pid p)
         /\ (forall f, In f FR -> In (f_oid f) (map q_oid (s_queue s)))
         /\ (exists m t, s_queue s = m :: t /\ p_stream p = q_stream m /\ p_pid p = q_pid m)
  end.
Proof.
  intros H1 H2 Ha s. destruct (srun_inv ops H1 H2) as [FR HI]. subst s.
  set (s := h_s (srun ops)) in *. unfold data_to_send.
  replace (match a with Some a0 => (a0 <? 22)%Z | None => false end) with false
    by (destruct a; simpl in *; [symmetry; apply Z.ltb_ge; lia|reflexivity]).
  pose proof (si_wf _ _ HI) as Hwf. pose proof (si_nd _ _ HI) as Hnd. fold s in Hwf, Hnd.
  destruct (send_loop_spec (s_queue s) a [] SDefault None Hwf (or_introl Ha))
    as (frs & q' & st' & pid' & E & Hem & Hff & Hwq & _ & Hpids & Hsz & Hfirst & Hprog & Hpend).
  rewrite E. cbn [app]. cbn [s_next s_queue]. split; [reflexivity|].
  destruct (s_queue s) as [|m0 t0] eqn:Eq.
  - inversion Hem as [|? f ? ? ? Hbad _]; subst; [|inversion Hbad]. simpl.
    split; [reflexivity|]. destruct s; simpl in *; now subst.
  - assert (Ha21 : amount_ge a 21) by (destruct a; simpl in *; [lia|auto]).
    destruct (Hfirst eq_refl ltac:(congruence) Ha21) as [Hne (m1 & t1 & E1 & Hst & Hpid)].
    injection E1 as <- <-.
    assert (Hpos : pending q' < pending (m0 :: t0)) by (apply Hprog; [exact Ha|reflexivity|congruence]).
    (* at least 22 bytes: either a non-empty first fragment or ... *)
    assert (Hlen : 22 <= length (wire frs)).
    { destruct frs as [|f frs']; [congruence|]. rewrite wire_cons, app_length, frag_bytes_length.
      destruct (f_data f) as [|d ds] eqn:Ed; [|simpl; lia].
      destruct frs' as [|g gs]; [|rewrite wire_cons, app_length, frag_bytes_length; lia].
      exfalso. inversion Hem as [|? ? q1 ? ? Hstep Hrest]; subst. inversion Hrest; subst.
      simpl in Hwf. destruct Hwf as [(Hd & _) _].
      inversion Hstep; subst; simpl in Ed.
      - congruence.
      - unfold pending in Hpos. simpl in Hpos. rewrite skipn_length in Hpos.
        apply (f_equal (@length _)) in Ed. rewrite firstn_length in Ed. simpl in Ed. lia. }
    destruct (wire frs) as [|w ws] eqn:Ew; [simpl in Hlen; lia|]. rewrite <- Ew in *.
    cbn [p_data p_pid p_stream].
    split; [congruence|]. split; [exact Hpos|]. split; [lia|].
    split. { intros n ->. specialize (Hsz n eq_refl). simpl in Ha. lia. }
    exists frs. split; [reflexivity|]. split; [exact Hff|]. split; [exact Hne|].
    (* targets *)
    assert (Hall : forall f, In f frs -> exists m, In m (firstn (length frs) (m0 :: t0)) /\ q_oid m = f_oid f).
    { clear -Hem. revert Hem. generalize (m0 :: t0) as q. intros q Hem.
      assert (Hgen : forall q fs q2, emits q fs q2 ->
                forall f, In f fs -> exists m, In m (firstn (length fs) q) /\ q_oid m = f_oid f).
      { clear. induction 1 as [q|q f q1 fs q2 He Hes IH]; intros g Hg; [destruct Hg|].
        inversion He; subst.
        - destruct Hg as [<-|Hg]; [exists m; simpl; auto|].
          destruct (IH g Hg) as (x & Hx & Hxo). exists x. split; [right; exact Hx|exact Hxo].
        - destruct Hg as [<-|Hg]; [exists m; simpl; auto|].
          destruct (IH g Hg) as (x & Hx & Hxo). 
          destruct fs as [|f1 fs]; [destruct Hg|]. cbn [length firstn] in Hx |- *.
          destruct Hx as [<-|Hx].
          + exists m. split; [now left|]. simpl in *. congruence.
          + exists x. split; [|exact Hxo]. right.
            change (In x (firstn (S (length fs)) q0)). eapply firstn_In_mono; [|exact Hx]. lia. }
      intros f Hf. eapply Hgen; eauto. }
    split.
    { intros f m Hf Hm Hmo. destruct (Hall f Hf) as (x & Hx & Hxo).
      rewrite Forall_forall in Hpids. rewrite <- (Hpids x Hx).
      assert (Hxq : In x (m0 :: t0)).
      { rewrite <- (firstn_skipn (length frs) (m0 :: t0)). apply in_or_app. now left. }
      assert (x = m) as ->; [|reflexivity].
      clear -Hnd Hm Hxq Hmo Hxo. assert (Hoo : q_oid x = q_oid m) by congruence. clear Hmo Hxo.
      revert Hnd Hm Hxq. generalize (m0 :: t0) as q. induction q as [|y q IH]; intros Hn Hm Hx; [destruct Hm|].
      simpl in Hn. inversion Hn as [|? ? Hy Hq]; subst.
      destruct Hm as [->|Hm], Hx as [->|Hx]; auto.
      - exfalso. apply Hy. rewrite <- Hoo. now apply in_map.
      - exfalso. apply Hy. rewrite Hoo. now apply in_map. }
    split.
    { intros f Hf. destruct (Hall f Hf) as (x & Hx & Hxo). rewrite <- Hxo. apply in_map.
      rewrite <- (firstn_skipn (length frs) (m0 :: t0)). apply in_or_app. now left. }
    exists m0, t0. auto.
Qed.

Lemma data_to_send_small s n : (n < 22)%Z -> data_to_send s (Some n) = (s, Err ValueError).
Proof. intros H. unfold data_to_send. destruct (Z.ltb_spec n 22); [reflexivity|lia]. Qed.

(** *** Draining *)
Lemma pending_zero q : wfq q -> pending q = 0 -> q = [].
Proof.
  destruct q as [|m q]; [reflexivity|]. intros [Hm _] H. unfold pending in H. simpl in H.
  destruct Hm as (Hd & _). apply length_pos in Hd. lia.
Qed.

Lemma srun_app a b : srun (a ++ b) = fold_left sstep b (srun a).
Proof. unfold srun. apply fold_left_app. Qed.

Lemma drain_send ops amounts :
  Forall sop_ok ops -> Forall (fun a => amount_ge a 22) amounts ->
  (N.of_nat (length ops + length amounts) < 2 ^ 64)%N ->
  pending (s_queue (h_s (srun ops))) <= length amounts ->
  s_queue (h_s (srun (ops ++ map SSend amounts))) = [].
Proof.
  revert ops. induction amounts as [|a amounts IH]; intros ops Hok Ham Hb Hp.
  - simpl. rewrite app_nil_r. destruct (srun_inv ops Hok) as [FR HI]; [simpl in Hb; lia|].
    apply pending_zero; [apply HI|]. simpl in Hp. lia.
  - inversion Ham as [|? ? Ha1 Ham1]; subst. simpl map.
    change (SSend a :: map SSend amounts) with ([SSend a] ++ map SSend amounts). rewrite app_assoc.
    assert (Hok2 : Forall sop_ok (ops ++ [SSend a])).
    { apply Forall_app. split; [assumption|]. constructor; [|constructor]. destruct a; simpl in *; auto. }
    apply IH; auto.
    + rewrite app_length. simpl in *. lia.
    + rewrite srun_app. simpl fold_left. simpl in Hb.
      pose proof (data_to_send_reach ops a Hok ltac:(lia) Ha1) as HR. cbv zeta in HR.
      unfold sstep. destruct (data_to_send (h_s (srun ops)) a) as [s' [[p|]|e]]; simpl.
      * destruct HR as (_ & _ & HR & _). simpl in Hp. lia.
      * destruct HR as (_ & HR & ->). rewrite HR. unfold pending. simpl. lia.
      * destruct HR as (_ & []).
Qed.
