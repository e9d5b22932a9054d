From Verif Require Import Base Model_Scalars Model_Object Model_Clixml Model_Command Model_Builder Model_Pipeline Model_Journey.
From Verif Require Import Spec_Strings Spec_Scalars Spec_Clixml Spec_Xml Spec_Command Spec_Messages Spec_Builder Spec_Pipeline Spec_Journey.
From Verif Require Import Proofs_Command Proofs_Builder Proofs_Pipeline.

(** ** The old words on errors *)
Lemma old_error_snoc {V} (c : command V) xs x : old_error xs (c_my c) (c_to c) -> old_error (xs ++ [x]) (c_my (do_call c x)) (c_to (do_call c x)).
Proof.
  intros O. pose proof (do_call_my c x) as Q.
  assert (to_somewhere x \/ ~ to_somewhere x) as [T|T].
  { unfold to_somewhere. destruct (acceptedb SError x) eqn:B.
    - apply acceptedb_spec in B. destruct (N.eq_dec (Spec_Command.target x) 8); [right; tauto|left; tauto].
    - right. intros [A _]. apply acceptedb_spec in A. congruence. }
  - assert (last_of to_somewhere (xs ++ [x]) x) as L by (apply last_of_snoc; left; auto).
    destruct T as [A N]. rewrite (proj2 (acceptedb_spec SError x) A) in Q. destruct A as [_ K]. destruct K as [K|[K|K]]; [| |congruence].
    + rewrite K in Q. injection Q as -> ->. right. split; [right; exists x; auto|]. auto.
    + rewrite K in Q. injection Q as -> ->. left. exists x. auto.
  - assert (c_my (do_call c x) = c_my c /\ c_to (do_call c x) = c_to c) as [-> ->].
    { destruct (acceptedb SError x) eqn:B; [|injection Q as -> ->; auto]. apply acceptedb_spec in B.
      destruct (N.eq_dec (Spec_Command.target x) 8) as [E|E]; [|destruct T; split; auto]. rewrite E in Q. injection Q as -> ->. auto. }
    destruct O as [(y & L & O)|([F|(y & L & O)] & O')].
    + left. exists y. split; [apply last_of_snoc; auto|exact O].
    + right. split; [left; apply Forall_app; split; [exact F|constructor; [exact T|constructor]]|exact O'].
    + right. split; [right; exists y; split; [apply last_of_snoc; auto|exact O]|exact O'].
Qed.
Lemma old_error_calls {V} xs : let e := fold_left do_call xs (@new_command V [] false None) in old_error xs (c_my e) (c_to e).
Proof.
  cbv zeta. induction xs as [|x xs IH] using rev_ind; [right; split; [left; constructor|split; reflexivity]|].
  rewrite fold_left_app. now apply old_error_snoc.
Qed.
Lemma old_error_small xs my to : old_error xs my to -> (my < 16)%N /\ (to < 16)%N.
Proof. intros [(x & _ & _ & -> & ->)|(_ & -> & ->)]; split; reflexivity. Qed.
Lemma goes_small s xs t : goes_to s xs t -> (t < 16)%N.
Proof. intros [(x & (a & b & _ & (_ & K) & _) & <-)|(_ & ->)]; [destruct K as [-> |[-> | ->]]|]; reflexivity. Qed.

Section Journey.
  Context (reg : registry) (lx : lexicon) (g : heap).
  Notation fine := (call_sendable reg lx g).
  Definition change_fine (x : change (V := value)) : Prop :=
    match x with Given n v => opt_all can_say n /\ can_send reg lx g v | _ => True end.
  Lemma true_fine : can_send reg lx g (VBool true).
  Proof. split; [exact I|]. split; [exact I|]. intros a E. discriminate. Qed.
  Lemma changes_fine o : fine o -> Forall change_fine (changes (VBool true) o).
  Proof.
    assert (forall v, opt_all (can_send reg lx g) v -> can_send reg lx g (valued (VBool true) v)) as W.
    { intros [v|] H; [exact H|exact true_fine]. }
    assert (forall l : list (list N * value), Forall (fun x => can_say (fst x) /\ can_send reg lx g (snd x)) l ->
      Forall change_fine (map (fun x => Given (Some (fst x)) (snd x)) l)) as L.
    { induction 1 as [|x l [A B] H IH]; [constructor|]. apply Forall_cons; [split; assumption|exact IH]. }
    destruct o; cbn [call_sendable changes]; intros H; try (apply L; exact H); try apply Forall_nil; (apply Forall_cons; [|apply Forall_nil]); cbn; auto.
    - destruct H as [A B]. split; [exact A|]. now apply W.
    - destruct H as [A B]. split; [exact A|]. now apply W.
  Qed.
  Lemma story_fine h a cs : story (VBool true) h a cs -> Forall fine h -> Forall change_fine cs.
  Proof.
    induction 1 as [a|o h a cs H IH A|o h a cs H IH A]; intros F; [constructor| |]; inversion F; subst; auto.
    apply Forall_app. split; [auto|]. now apply changes_fine.
  Qed.
  Lemma creation_fine h a w : Forall fine h -> nth_error (creations h) a = Some w -> good_str (fst (fst w)) /\ attr_ok (fst (fst w)).
  Proof.
    intros F E. apply nth_error_In in E. induction F as [|o h Fo F IH]; [destruct E|]. cbn [creations] in E. apply in_app_or in E as [E|E]; [auto|].
    destruct o; cbn in E; try contradiction; destruct E as [<- |[]]; exact Fo.
  Qed.
  Lemma given_fine cs : Forall change_fine cs -> Forall (fun p => opt_all can_say (fst p) /\ can_send reg lx g (snd p)) (given cs).
  Proof.
    induction 1 as [|x cs H F IH]; [constructor|]. unfold given. cbn [flat_map]. apply Forall_app. split; [|exact IH].
    destruct x; try apply Forall_nil. apply Forall_cons; [exact H|apply Forall_nil].
  Qed.
  Lemma command_fine h a w cs c : Forall fine h -> nth_error (creations h) a = Some w -> story (VBool true) h a cs -> made_by w cs c ->
    good_command reg lx g c.
  Proof.
    intros F E S (T1 & _ & _ & P & _ & _ & G & M). cbv zeta in M. destruct M as [M1 M2].
    destruct (creation_fine h a w F E) as [A B]. unfold good_command. rewrite T1, P. split; [exact A|]. split; [exact B|].
    split; [apply given_fine; now apply (story_fine h a)|].
    destruct (old_error_small _ _ _ (old_error_calls (V := value) (sent cs))) as [O1 O2].
    unfold flags_of. rewrite M1, M2.
    pose proof (fun s => goes_small s _ _ (G s)) as Q.
    pose proof (Q SError). pose proof (Q SWarning). pose proof (Q SVerbose). pose proof (Q SDebug). pose proof (Q SInformation).
    repeat (apply Forall_cons; [assumption|]). apply Forall_nil.
  Qed.

  (** ** What the server holds of one command *)
  Lemma settings_seen pv (c : command value) s : setting s (seen_by pv c) =
    if (match s with SInformation => version_ge pv pv23 | _ => version_ge pv pv22 end) then setting s c else 0%N.
  Proof. destruct s; reflexivity. Qed.
  Lemma carried_b pv s : carried pv s <-> (match s with SInformation => version_ge pv pv23 | _ => version_ge pv pv22 end) = true.
  Proof. destruct s; reflexivity. Qed.
  Lemma one_reached R pv w cs c d e last : made_by w cs c ->
    (c_text d = c_text c /\ c_script d = c_script c /\ c_local d = c_local c /\ c_params d = c_params c /\ c_unclaimed d = c_unclaimed c
     /\ c_my d = c_my c /\ c_to d = c_to c) ->
    (forall s, setting s d = setting s (seen_by pv c)) -> (if last : bool then c_eos d = true else c_eos d = c_eos c) ->
    same_command R d e -> reached R pv w cs last e.
  Proof.
    intros (T1 & T2 & T3 & P & E & U & G & M) (D1 & D2 & D3 & D4 & D5 & D6 & D7) Ds De
      (S1 & S2 & S3 & S4 & S5 & S6 & S7 & S8 & S9 & S10 & S11 & S12 & S13).
    cbv zeta in M. destruct M as [M1 M2].
    assert (forall s, setting s e = setting s d) as Se by (intros []; assumption).
    unfold reached. rewrite S1, S2, S3, S5, S6, S7, S8, D1, D2, D3, D5, D6, D7. split; [exact T1|]. split; [exact T2|]. split; [exact T3|].
    split; [rewrite <- P, <- D4; exact S4|]. split; [destruct last; [exact De|rewrite De; exact E]|]. split; [exact U|].
    split; [|split].
    - intros s C. apply carried_b in C. rewrite Se, Ds, settings_seen, C. apply G.
    - intros s C. rewrite Se, Ds, settings_seen. destruct (match s with SInformation => _ | _ => _ end) eqn:B; [|reflexivity].
      destruct C. now apply carried_b.
    - rewrite M1, M2. apply (old_error_calls (V := value)).
  Qed.
  Lemma all_reached R pv h l cs ds : Forall2 (fun a c => exists w cs, nth_error (creations h) a = Some w /\ story (VBool true) h a cs /\ made_by w cs c) l cs ->
    Forall2 (same_command R) (map (seen_by pv) cs) ds -> Forall2 (command_reached R pv h false) l ds.
  Proof.
    intros F. revert ds. induction F as [|a c l cs (w & st & E & S & M) F IH]; intros ds H; inversion H as [|? d ? ds' H1 H2]; subst; [constructor|].
    constructor; [|auto]. exists w, st. split; [exact E|]. split; [exact S|].
    apply (one_reached R pv w st c (seen_by pv c) d false M); [repeat split|reflexivity|reflexivity|exact H1].
  Qed.
  Lemma whole_reached R pv h p nobody pool o cs q : program h ->
    cs = commands (run (VBool true) b_empty (rev h)) p ->
    arrives R pv (client_pipeline pool nobody o cs) q -> journey R pv h p (chosen pool (o_apartment o)) nobody o q.
  Proof.
    intros G Ec ((front & last & last' & E & L & F) & A1 & A2 & A3 & A4 & A5 & A6 & A7 & A8).
    split; [|split; [exact A1|split; [exact A2|split; [exact A3|split; [exact A4|split; [exact A5|split; [exact A6|split; [exact A7|exact A8]]]]]]]].
    cbn [client_pipeline ps_commands] in E. pose proof (history_holds (VBool true) h p G) as H. rewrite <- Ec, E in H.
    apply Forall2_app_inv_r in H as (f & l & H1 & H2 & Ea). inversion H2 as [|a ? ? ? (w & st & W & S & M) H3]; subst. inversion H3; subst.
    apply Forall2_app_inv_l in F as (before & fin & F1 & F2 & Eq). inversion F2 as [|? final ? ? F3 F4]; subst. inversion F4; subst.
    exists f, a, before, final. split; [exact Ea|]. split; [exact Eq|]. split; [eapply all_reached; eassumption|].
    exists w, st. split; [exact W|]. split; [exact S|].
    destruct L as (L1 & L2 & L3 & L4 & L5 & L6 & L7 & L8 & L9 & L10 & L11 & L12 & L13).
    apply (one_reached R pv w st last last' final true M); [|intros []; assumption|exact L1|exact F3].
    repeat (split; [assumption|]). assumption.
  Qed.
  Lemma pipeline_fine h p nobody pool o : program h -> Forall fine h -> added h p <> [] -> options_sendable reg lx g pool nobody o ->
    good_pipeline reg lx g (client_pipeline pool nobody o (commands (run (VBool true) b_empty (rev h)) p)).
  Proof.
    intros G F N [O1 O2 O3 O4 O5 O6]. pose proof (history_holds (VBool true) h p G) as H.
    split; cbn [client_pipeline ps_commands ps_history ps_host ps_apartment ps_streams]; auto.
    - intros Z. rewrite Z in H. inversion H. congruence.
    - clear N. induction H as [|a c l cs (w & st & W & S & M) H IH]; [constructor|]. apply Forall_cons; [|exact IH]. eapply command_fine; eassumption.
    - destruct (o_host o); assumption.
    - eexists. split; [reflexivity|]. unfold chosen. destruct (o_apartment o) as [e|]; [|exact O4]. destruct (truthy e); assumption.
  Qed.
End Journey.
