(** Proofs for C80. *)
From Coq Require Import String.
From Verif Require Import Base BaseFacts Model_Scalars Model_Object Model_Clixml Model_Xml Model_Messages Model_Pipeline Model_Metadata Model_Notices.
From Verif Require Import Spec_Strings Spec_Scalars Spec_Clixml Spec_Xml Spec_Messages Spec_HostWire Spec_Pipeline Spec_Metadata Spec_Notices.
From Verif Require Import Proofs_Messages Proofs_HostWire Proofs_HostWire2 Proofs_Lines Proofs_Pipeline Proofs_Pipeline2 Proofs_Pipeline3 Proofs_Metadata.
Local Open Scope list_scope.

Lemma or_else_is {A} (d : A) x y : or_else d x y -> if_none x d = y.
Proof. now intros []. Qed.

(** A message with one list made for it. *)
Section One.
  Variable reg : registry.
  Variable lx : lexicon.
  Hypothesis US : usual reg lx.
  Variable h : heap.
  Variable n : N.
  Hypothesis F0 : free_from h n.
  Hypothesis G0 : good_graph reg lx h.
  Hypothesis L0 : legible_graph h.
  Hypothesis C0 : closed h.
  Variable t : tree.
  Hypothesis T0 : good_tree reg lx h t.
  Variable M : value -> message.
  Hypothesis MG : forall v, good_value reg lx v -> safe_value v -> good_message reg lx (M v).
  Hypothesis MV : forall h' v, (forall w, here h w -> here h' w) -> here h' v -> Forall (here h') (values (M v)).
  Hypothesis MC : forall v, counts_fit (M v).
  Definition one_data (fuel : nat) : result (list N) := let '(n1, k, v) := place t n in message_data fuel (h ++ k) n1 (M v).

  Lemma one_placed : exists k n1 v, (forall fuel, one_data fuel = message_data fuel (h ++ k) n1 (M v)) /\ good_message reg lx (M v)
    /\ Forall (here (h ++ k)) (values (M v)) /\ placed reg lx h n n1 k /\ stands eq (h ++ k) t v.
  Proof using US F0 T0 MG MV.
    assert (Forall (good_tree reg lx h) [t]) as GT by (apply Forall_cons; [exact T0|constructor]).
    destruct (place_all [t] n) as [[n3 k] vs] eqn:E.
    assert (Forall (can_place reg lx h n) [t]) as CP by (apply Forall_forall; intros x _; now apply place_ok).
    destruct (place_all_ok reg lx h n F0 _ CP GT n (N.le_refl n) _ _ _ E) as (B & W & S).
    cbn [place_all] in E. unfold one_data. destruct (place t n) as [[n1 k1] v]. injection E as -> <- <-. rewrite app_nil_r in *.
    inversion W as [|? ? (W1 & W2 & W3) _]; subst. inversion S as [|? ? ? ? S1 _]; subst. exists k1, n3, v.
    split; [reflexivity|]. split; [now apply MG|]. split; [|split; [exact B|exact S1]].
    apply MV; [|exact W3]. intros w Hw a ->. destruct (Hw a eq_refl) as (o & Ho). exists o. rewrite Proofs_HostWire2.aget_app. now rewrite Ho.
  Qed.
  Lemma one_written rank : ranked h rank -> exists fuel data, one_data fuel = Ok data.
  Proof using US F0 G0 L0 C0 T0 MG MV MC.
    intros RK. destruct one_placed as (k & n1 & v & D & GM & HV & B & _).
    destruct (whole reg lx h n F0 G0 L0 C0 n n1 k (N.le_refl n) B) as (G1 & L1 & C1 & A1).
    destruct (whole_ranked reg lx h n F0 C0 rank n n1 k (N.le_refl n) B RK) as (rank' & RK').
    destruct (writes (h ++ k) n1 _ rank' C1 RK' A1 HV (MC v)) as (fuel & data & E). exists fuel, data. now rewrite D.
  Qed.
  Lemma one_seen fuel data : one_data fuel = Ok data ->
    exists k v m' h' R, read_message reg (kind (M v)) data = Ok (m', h') /\ skeleton m' = skeleton (M v) /\ Forall2 (same_value R) (values (M v)) (values m')
    /\ stands eq (h ++ k) t v /\ same_graph reg (heap_lines (h ++ k)) h' R.
  Proof using US F0 G0 L0 C0 T0 MG MV.
    intros E. destruct one_placed as (k & n1 & v & D & GM & HV & B & S). rewrite D in E.
    destruct (whole reg lx h n F0 G0 L0 C0 n n1 k (N.le_refl n) B) as (G1 & L1 & C1 & A1).
    destruct (message_lines reg lx (h ++ k) n1 _ fuel data G1 L1 C1 A1 GM HV E) as (w' & h' & R & Ed & [SK SV] & SG).
    exists k, v, w', h', R. auto.
  Qed.
End One.

(** Arguments that are lists. *)
Lemma list_tree reg lx h g l : lists h g l -> Forall (can_send reg lx h) l ->
  exists t, notice_tags h g = t /\ event_args h g = t /\ good_tree reg lx h t
  /\ forall R h' v, same_graph reg (heap_lines h) h' R -> stands (same_value R) h' t v -> listed h' (same_value R) l v.
Proof.
  intros A F. assert (good_tree reg lx h (TList [])) as GN by (apply GList; constructor).
  assert (forall R h' v, stands (same_value R) h' (TList []) v -> listed h' (same_value R) ([] : list value) v) as SN.
  { intros R h' v S. inversion S as [|? a o k vs Ha Hb Fv|]; subst. inversion Fv; subst. exists a, o, k, []. split; [reflexivity|]. split; [exact Ha|]. split; [exact Hb|constructor]. }
  destruct A as [|g l A].
  - exists (TList []). split; [reflexivity|]. split; [reflexivity|]. split; [exact GN|]. intros R h' v _. apply SN.
  - assert (is_filled h g = false -> l = []) as E.
    { inversion A as [|l'|a o l' Ha Hb]; subst; cbn [is_filled]; [destruct l; [reflexivity|discriminate]|]. unfold items. rewrite Ha, Hb. destruct l; [reflexivity|discriminate]. }
    assert (event_args h g = notice_tags h g) as ->.
    { unfold event_args, notice_tags. inversion A; subst; reflexivity. }
    exists (notice_tags h g). split; [reflexivity|]. split; [reflexivity|]. unfold notice_tags. destruct (is_filled h g) eqn:Q.
    + split; [exact (cast_good reg lx h _ _ A F)|]. intros R h' v SG S. exact (cast_kept reg h R h' _ _ _ SG A S).
    + rewrite (E eq_refl). split; [exact GN|]. intros R h' v _. apply SN.
Qed.
Lemma here_app h k w : here h w -> here (h ++ k) w.
Proof. intros H a ->. destruct (H a eq_refl) as (o & Ho). exists o. rewrite Proofs_HostWire2.aget_app. now rewrite Ho. Qed.

Section Both.
  Variable reg : registry.
  Variable lx : lexicon.
  Hypothesis US : usual reg lx.
  Variable h : heap.
  Variable n : N.
  Hypothesis F0 : free_from h n.
  Hypothesis G0 : good_graph reg lx h.
  Hypothesis L0 : legible_graph h.
  Hypothesis C0 : closed h.
  Variable s : surroundings.

  Section Event.
    Variables (e : user_event) (id : N) (time : datetime) (computer : list N) (args : list value).
    Hypothesis E1 : or_else (sr_now s) (ue_time e) time.
    Hypothesis E2 : or_else (sr_node s) (ue_computer e) computer.
    Hypothesis E3 : lists h (ue_args e) args.
    Hypothesis E4 : Forall (can_send reg lx h) (ue_sender e :: ue_data e :: args).
    Hypothesis E5 : can_date time.
    Hypothesis E6 : can_say (ue_source e) /\ can_say computer.
    Hypothesis E7 : is_int (ue_id e).
    Hypothesis E8 : (id < 2 ^ 128)%N.
    Let M (v : value) := WUserEvent (Some (ue_id e)) (Some (ue_source e)) (Some time) (ue_sender e) v (ue_data e) (Some computer) (Some id).

    Lemma event_one fuel : event_data fuel h n id s e = one_data h n (event_args h (ue_args e)) M fuel.
    Proof using E1 E2. unfold event_data, one_data, M. now rewrite (or_else_is _ _ _ E1), (or_else_is _ _ _ E2). Qed.
    Lemma event_good v : good_value reg lx v -> safe_value v -> good_message reg lx (M v).
    Proof using E4 E5 E6 E7 E8.
      intros A B. inversion E4 as [|? ? (S1 & S2 & S3) E4']; subst. inversion E4' as [|? ? (D1 & D2 & D3) _]; subst. destruct E6 as [(X1 & X2) (X3 & X4)].
      split; [|split; [|exact I]]; cbn [fields M Spec_Messages.or_null]; repeat (apply Forall_cons; [first [exact I|assumption]|]); apply Forall_nil.
    Qed.
    Lemma event_here h' v : (forall w, here h w -> here h' w) -> here h' v -> Forall (here h') (values (M v)).
    Proof using E4.
      intros K A. inversion E4 as [|? ? (S1 & S2 & S3) E4']; subst. inversion E4' as [|? ? (D1 & D2 & D3) _]; subst.
      cbn [values M]. apply Forall_cons; [auto|]. apply Forall_cons; [auto|]. apply Forall_cons; [auto|constructor].
    Qed.
    Lemma event_counts v : counts_fit (M v).
    Proof using E7. apply Forall_cons; [exact E7|constructor]. Qed.
    Theorem event_written rank : ranked h rank -> exists fuel data, event_data fuel h n id s e = Ok data.
    Proof using All.
      intros RK. assert (Forall (can_send reg lx h) args) as FA by (inversion E4 as [|? ? _ Q]; inversion Q; assumption).
      destruct (list_tree reg lx h _ _ E3 FA) as (t & _ & Et & GT & _).
      destruct (one_written reg lx US h n F0 G0 L0 C0 t GT M event_good event_here event_counts rank RK) as (fuel & data & E).
      exists fuel, data. now rewrite event_one, Et.
    Qed.
    Theorem event_seen fuel data : event_data fuel h n id s e = Ok data ->
      exists sender v d h' R, read_event reg data = Ok (WUserEvent (Some (ue_id e)) (Some (ue_source e)) (Some time) sender v d (Some computer) (Some id), h')
      /\ same_value R (ue_sender e) sender /\ listed h' (same_value R) args v /\ same_value R (ue_data e) d /\ same_graph reg (heap_lines h) h' R.
    Proof using All.
      intros E. inversion E4 as [|? ? (S1 & S2 & S3) Q]; subst. inversion Q as [|? ? (D1 & D2 & D3) FA]; subst.
      destruct (list_tree reg lx h _ _ E3 FA) as (t & _ & Et & GT & KT). rewrite event_one, Et in E.
      destruct (one_seen reg lx US h n F0 G0 L0 C0 t GT M event_good event_here fuel data E) as (k & v & m' & h' & R & Ed & SK & SV & ST & SG).
      destruct m'; try discriminate SK; try (match type of SK with skeleton (WPipelineOutput ?x) = _ => destruct x; discriminate SK end).
      cbn in SK. injection SK as -> -> -> -> ->. cbn in SV. inversion SV as [|? ? ? ? V1 SV']; subst. inversion SV' as [|? ? ? ? V2 SV'']; subst. inversion SV'' as [|? ? ? ? V3 _]; subst.
      pose proof (narrow_graph R h reg k h' C0 SG) as NG. eexists _, _, _, h', (within R h). split; [exact Ed|].
      split; [exact (narrow R h _ _ S3 V1)|]. split; [|split; [exact (narrow R h _ _ D3 V3)|exact NG]].
      apply KT; [exact NG|]. eapply stands_within; [exact GT|]. eapply stands_kept; eassumption.
    Qed.
  End Event.

  Section Notice.
    Variables (r : notice) (time : datetime) (user computer : list N) (process native managed : Z) (tags : list value).
    Hypothesis E1 : or_else (sr_now s) (nt_time r) time.
    Hypothesis E2 : or_else (sr_user s) (nt_user r) user.
    Hypothesis E3 : or_else (sr_node s) (nt_computer r) computer.
    Hypothesis E4 : or_else (sr_process s) (nt_process r) process.
    Hypothesis E5 : or_else (sr_thread s) (nt_native r) native.
    Hypothesis E6 : or_else 0%Z (nt_managed r) managed.
    Hypothesis E7 : lists h (nt_tags r) tags.
    Hypothesis E8 : Forall (can_send reg lx h) (nt_data r :: tags).
    Hypothesis E9 : can_date time.
    Hypothesis E10 : Forall can_say [nt_source r; user; computer].
    Hypothesis E11 : Forall is_uint [process; native; managed].
    Let M (v : value) := WInformationRecord (nt_data r) (Some (nt_source r)) (Some time) v (Some user) (Some computer) (Some process) (Some native) (Some managed).

    Lemma notice_one fuel : notice_data fuel h n s r = one_data h n (notice_tags h (nt_tags r)) M fuel.
    Proof using E1 E2 E3 E4 E5 E6.
      unfold notice_data, one_data, M.
      now rewrite (or_else_is _ _ _ E1), (or_else_is _ _ _ E2), (or_else_is _ _ _ E3), (or_else_is _ _ _ E4), (or_else_is _ _ _ E5), (or_else_is _ _ _ E6).
    Qed.
    Lemma notice_good v : good_value reg lx v -> safe_value v -> good_message reg lx (M v).
    Proof using E8 E9 E10 E11.
      intros A B. inversion E8 as [|? ? (D1 & D2 & D3) _]; subst.
      inversion E10 as [|? ? (X1 & X2) Q]; subst. inversion Q as [|? ? (X3 & X4) Q']; subst. inversion Q' as [|? ? (X5 & X6) _]; subst.
      inversion E11 as [|? ? Y1 P]; subst. inversion P as [|? ? Y2 P']; subst. inversion P' as [|? ? Y3 _]; subst.
      split; [|split; [|exact I]]; cbn [fields M Spec_Messages.or_null]; repeat (apply Forall_cons; [first [exact I|assumption]|]); apply Forall_nil.
    Qed.
    Lemma notice_here h' v : (forall w, here h w -> here h' w) -> here h' v -> Forall (here h') (values (M v)).
    Proof using E8.
      intros K A. inversion E8 as [|? ? (D1 & D2 & D3) _]; subst. cbn [values M]. apply Forall_cons; [auto|]. apply Forall_cons; [auto|constructor].
    Qed.
    Lemma notice_counts v : counts_fit (M v).
    Proof using E11.
      inversion E11 as [|? ? Y1 P]; subst. inversion P as [|? ? Y2 P']; subst. inversion P' as [|? ? Y3 _]; subst.
      unfold counts_fit. cbn [counts M app]. apply Forall_cons; [exact Y1|]. apply Forall_cons; [exact Y2|]. apply Forall_cons; [exact Y3|constructor].
    Qed.
    Theorem notice_written rank : ranked h rank -> exists fuel data, notice_data fuel h n s r = Ok data.
    Proof using All.
      intros RK. assert (Forall (can_send reg lx h) tags) as FA by (inversion E8; assumption).
      destruct (list_tree reg lx h _ _ E7 FA) as (t & Et & _ & GT & _).
      destruct (one_written reg lx US h n F0 G0 L0 C0 t GT M notice_good notice_here notice_counts rank RK) as (fuel & data & E).
      exists fuel, data. now rewrite notice_one, Et.
    Qed.
    Theorem notice_seen fuel data : notice_data fuel h n s r = Ok data ->
      exists d v h' R,
        read_notice reg data = Ok (WInformationRecord d (Some (nt_source r)) (Some time) v (Some user) (Some computer) (Some process) (Some native) (Some managed), h')
      /\ same_value R (nt_data r) d /\ listed h' (same_value R) tags v /\ same_graph reg (heap_lines h) h' R.
    Proof using All.
      intros E. inversion E8 as [|? ? (D1 & D2 & D3) FA]; subst.
      destruct (list_tree reg lx h _ _ E7 FA) as (t & Et & _ & GT & KT). rewrite notice_one, Et in E.
      destruct (one_seen reg lx US h n F0 G0 L0 C0 t GT M notice_good notice_here fuel data E) as (k & v & m' & h' & R & Ed & SK & SV & ST & SG).
      destruct m'; try discriminate SK; try (match type of SK with skeleton (WPipelineOutput ?x) = _ => destruct x; discriminate SK end).
      cbn in SK. injection SK as -> -> -> -> -> -> ->. cbn in SV. inversion SV as [|? ? ? ? V1 SV']; subst. inversion SV' as [|? ? ? ? V2 _]; subst.
      pose proof (narrow_graph R h reg k h' C0 SG) as NG. eexists _, _, h', (within R h). split; [exact Ed|].
      split; [exact (narrow R h _ _ D3 V1)|]. split; [|exact NG].
      apply KT; [exact NG|]. eapply stands_within; [exact GT|]. eapply stands_kept; eassumption.
    Qed.
  End Notice.
End Both.
