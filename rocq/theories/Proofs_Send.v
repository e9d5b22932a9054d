(** The sending side: data_to_send. *)
From Verif Require Import Base BaseFacts Model_Payload Model_Transport Spec_Transport Proofs_Payload.

#[global] Arguments frag_bytes : simpl never.
#[global] Arguments be_bytes : simpl never.
#[global] Arguments le_bytes : simpl never.

Lemma wire_cons f fs : wire (f :: fs) = frag_bytes (f_oid f) (f_fid f) (f_data f) (f_end f) ++ wire fs.
Proof. reflexivity. Qed.
Lemma wire_app a b : wire (a ++ b) = wire a ++ wire b.
Proof. unfold wire. now rewrite flat_map_app. Qed.

(** ** One emitted fragment *)
Inductive emit : list QMsg -> Fragment -> list QMsg -> Prop :=
| emit_full m q :
    emit (m :: q) (mkFragment (q_oid m) (q_fc m) (q_fc m =? 0)%N true (q_data m)) q
| emit_part m q k :
    k < length (q_data m) ->
    emit (m :: q) (mkFragment (q_oid m) (q_fc m) (q_fc m =? 0)%N false (firstn k (q_data m)))
         (mkQ (q_oid m) (q_pid m) (q_stream m) (skipn k (q_data m)) (q_fc m + 1) :: q).
Inductive emits : list QMsg -> list Fragment -> list QMsg -> Prop :=
| emits_nil q : emits q [] q
| emits_cons q f q1 fs q2 : emit q f q1 -> emits q1 fs q2 -> emits q (f :: fs) q2.

Definition wf_tail (m : QMsg) : Prop :=
  q_data m <> [] /\ (q_oid m < 2 ^ 64)%N /\ (N.of_nat (length (q_data m)) < 2 ^ 32)%N /\ q_fc m = 0%N.
Definition wf_head (m : QMsg) : Prop :=
  q_data m <> [] /\ (q_oid m < 2 ^ 64)%N /\ (N.of_nat (length (q_data m)) < 2 ^ 32)%N
  /\ (q_fc m + N.of_nat (length (q_data m)) <= 2 ^ 32)%N.
Definition wfq (q : list QMsg) : Prop :=
  match q with [] => True | m :: t => wf_head m /\ Forall wf_tail t end.

Lemma wf_tail_head m : wf_tail m -> wf_head m.
Proof. intros (H1 & H2 & H3 & H4). unfold wf_head. rewrite H4. repeat split; auto. lia. Qed.
Lemma wfq_tail q : Forall wf_tail q -> wfq q.
Proof. intros H. destruct q; simpl; [exact I|]. inversion H; subst. split; auto using wf_tail_head. Qed.

Lemma pid_eqb_eq a b : pid_eqb a b = true <-> a = b.
Proof. apply opt_eqb_spec. apply N.eqb_eq. Qed.

Lemma length_pos {A} (l : list A) : l <> [] <-> 0 < length l.
Proof. destruct l; simpl; split; try congruence; lia. Qed.

Definition amount_ge (a : option Z) (n : Z) : Prop := match a with None => True | Some x => (n <= x)%Z end.

Lemma send_loop_stop rest a cur st pid : (a < 21)%Z -> send_loop rest (Some a) cur st pid = (rest, Ok (cur, st, pid)).
Proof. destruct rest as [|m r]; simpl; [reflexivity|]. intros H. destruct (Z.ltb_spec a 21); [reflexivity|lia]. Qed.

(** Everything the loop does, in one statement. *)
Lemma send_loop_spec q : forall a cur st pid,
  wfq q -> (amount_ge a 22 \/ Forall wf_tail q) ->
  exists frs q' st' pid',
    send_loop q a cur st pid = (q', Ok (cur ++ wire frs, st', pid'))
    /\ emits q frs q' /\ Forall frag_fits frs /\ wfq q'
    /\ (cur <> [] -> st' = st /\ pid' = pid)
    /\ Forall (fun m => q_pid m = pid') (firstn (length frs) q)
    /\ (forall x, a = Some x -> (Z.of_nat (length (wire frs)) <= Z.max 0 x)%Z)
    /\ (cur = [] -> q <> [] -> amount_ge a 21 ->
        frs <> [] /\ (exists m t, q = m :: t /\ st' = q_stream m /\ pid' = q_pid m))
    /\ (amount_ge a 22 -> cur = [] -> q <> [] -> pending q' < pending q)
    /\ pending q' <= pending q.
Proof.
  induction q as [|m rest IH]; intros a cur st pid Hwf Ha.
  { exists [], [], st, pid. simpl. rewrite app_nil_r.
    split; [reflexivity|]. split; [apply emits_nil|]. split; [constructor|]. split; [exact I|].
    split; [auto|]. split; [constructor|]. split; [intros; simpl; lia|].
    split; [congruence|]. split; [congruence|lia]. }
  destruct Hwf as [Hm Hrest].
  assert (Hrq : wfq rest) by now apply wfq_tail.
  simpl send_loop.
  destruct (match a with Some a0 => (a0 <? 21)%Z | None => false end) eqn:Hstop.
  { exists [], (m :: rest), st, pid. simpl. rewrite app_nil_r.
    destruct a as [x|]; [|discriminate].
    split; [reflexivity|]. split; [apply emits_nil|]. split; [constructor|]. split; [now split|].
    split; [auto|]. split; [constructor|]. split; [intros; simpl; lia|].
    split; [simpl; lia|]. split; [simpl; lia|lia]. }
  set (sp := match cur with [] => (q_stream m, q_pid m) | _ => (st, pid) end).
  destruct sp as [st' pid'] eqn:Hsp.
  destruct (pid_eqb pid' (q_pid m)) eqn:Hpe.
  2:{ (* different target: stop *)
    cbn [negb]. exists [], (m :: rest), st', pid'. simpl. rewrite app_nil_r.
    assert (Hc : cur <> []).
    { intros ->. subst sp. injection Hsp as <- <-.
      assert (pid_eqb (q_pid m) (q_pid m) = true) by now apply pid_eqb_eq. congruence. }
    assert (st' = st /\ pid' = pid) as [-> ->].
    { subst sp. destruct cur; [congruence|]. injection Hsp as <- <-; auto. }
    split; [reflexivity|]. split; [apply emits_nil|]. split; [constructor|]. split; [now split|].
    split; [auto|]. split; [constructor|]. split; [intros; simpl; lia|].
    split; [congruence|]. split; [congruence|lia]. }
  apply pid_eqb_eq in Hpe. cbn [negb].
  assert (Hsp' : cur <> [] -> st' = st /\ pid' = pid).
  { intros Hc. subst sp. destruct cur; [congruence|]. injection Hsp as <- <-; auto. }
  assert (Hst' : cur = [] -> st' = q_stream m /\ pid' = q_pid m).
  { intros ->. subst sp. injection Hsp as <- <-. auto. }
  destruct Hm as (Hd & Hoid & Hlen & Hfc).
  assert (Hdl : 0 < length (q_data m)) by now apply length_pos.
  (* the allowed length and the amount left *)
  set (al := match a with
      | None => (length (q_data m), None)
      | Some a0 => (Z.to_nat (a0 - 21), Some (a0 - (21 + Z.of_nat (length (q_data m))))%Z)
      end).
  destruct al as [allowed amount'] eqn:Hal.
  unfold q_fragment. cbn [f_oid f_fid f_data f_end q_data q_oid q_pid q_stream q_fc].
  destruct (Nat.ltb_spec allowed (length (q_data m))) as [Hpart|Hfull].
  - (* partial: only with an amount *)
    destruct a as [x|]; subst al; injection Hal as Hal1 Hal2; [|lia].
    assert (Hx : (21 <= x)%Z) by lia.
    assert (Hsk : skipn allowed (q_data m) <> []).
    { apply length_pos. rewrite skipn_length. lia. }
    assert (Hf1 : length (firstn allowed (q_data m)) = allowed) by (rewrite firstn_length; lia).
    set (e := match skipn allowed (q_data m) with [] => true | _ => false end).
    assert (He : e = false) by (unfold e; destruct (skipn allowed (q_data m)); congruence).
    rewrite He.
    rewrite create_fragment_ok; [|assumption|lia|rewrite Hf1; lia].
    subst amount'. rewrite send_loop_stop by lia.
    set (m' := mkQ (q_oid m) (q_pid m) (q_stream m) (skipn allowed (q_data m)) (q_fc m + 1)).
    set (fr := mkFragment (q_oid m) (q_fc m) (q_fc m =? 0)%N false (firstn allowed (q_data m))).
    exists [fr], (m' :: rest), st', pid'.
    assert (Hw : wire [fr] = frag_bytes (q_oid m) (q_fc m) (firstn allowed (q_data m)) false)
      by (rewrite wire_cons; apply app_nil_r).
    assert (Hpart2 : pending (m' :: rest) <= pending (m :: rest)).
    { unfold pending. simpl. rewrite skipn_length. lia. }
    rewrite Hw.
    split. { destruct (skipn allowed (q_data m)); [congruence|reflexivity]. }
    split. { econstructor; [|constructor]. now apply emit_part. }
    split. { constructor; [|constructor]. unfold frag_fits; simpl. rewrite Hf1. repeat split; auto; lia. }
    split.
    { split; [|assumption]. unfold wf_head, m'. cbn [q_data q_oid q_fc]. rewrite skipn_length.
      repeat split; auto; [lia|].
      destruct Ha as [Ha|Ha].
      - simpl in Ha. lia.
      - inversion Ha as [|? ? Ht _]; subst. destruct Ht as (_ & _ & _ & Ht). lia. }
    split. { exact Hsp'. }
    split. { simpl. constructor; [congruence|constructor]. }
    split. { intros y [= <-]. rewrite frag_bytes_length. lia. }
    split. { intros Hc _ _. split; [discriminate|]. exists m, rest. destruct (Hst' Hc); auto. }
    split; [|exact Hpart2].
    intros Hge _ _. simpl in Hge. unfold pending. simpl. rewrite skipn_length. lia.
  - (* the whole remaining message *)
    assert (Hfn : firstn allowed (q_data m) = q_data m) by now apply firstn_all2.
    assert (Hsn : skipn allowed (q_data m) = []) by now apply skipn_all2.
    rewrite Hfn, Hsn.
    rewrite create_fragment_ok; [|assumption|lia|lia].
    destruct (IH amount' (cur ++ frag_bytes (q_oid m) (q_fc m) (q_data m) true) st' pid' Hrq (or_intror Hrest))
      as (frs & q' & st2 & pid2 & E & Hem & Hff & Hwq & Hk & Hpids & Hsz & _ & _ & Hpend).
    rewrite E.
    set (fr := mkFragment (q_oid m) (q_fc m) (q_fc m =? 0)%N true (q_data m)).
    exists (fr :: frs), q', st2, pid2.
    assert (Hw : wire (fr :: frs) = frag_bytes (q_oid m) (q_fc m) (q_data m) true ++ wire frs) by reflexivity.
    rewrite Hw.
    destruct Hk as [-> ->].
    { intros Hnil. apply (f_equal (@length _)) in Hnil. rewrite app_length, frag_bytes_length in Hnil.
      simpl in Hnil. lia. }
    split. { now rewrite <- app_assoc. }
    split. { econstructor; [|exact Hem]. apply emit_full. }
    split. { constructor; [|exact Hff]. unfold frag_fits; simpl. repeat split; auto; lia. }
    split. { exact Hwq. }
    split. { exact Hsp'. }
    split. { simpl. constructor; [congruence|exact Hpids]. }
    split.
    { intros y ->. subst al. injection Hal as Hal1 Hal2.
      rewrite app_length, frag_bytes_length. specialize (Hsz _ (eq_sym Hal2)).
      assert (21 <= y)%Z by lia. lia. }
    split. { intros Hc _ _. split; [discriminate|]. exists m, rest. destruct (Hst' Hc); auto. }
    assert (Hle : pending q' < pending (m :: rest)).
    { unfold pending in *. simpl. lia. }
    split; [intros; exact Hle|lia].
Qed.
