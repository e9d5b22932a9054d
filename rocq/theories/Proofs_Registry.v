From Coq Require Import String.
From Verif Require Import Base BaseFacts Model_Scalars Model_Text Model_Clixml Model_Messages Model_Registry Spec_Registry.
Local Open Scope list_scope.

Lemma same_text_iff a : forall b, same_text a b = true <-> a = b.
Proof.
  unfold same_text. induction a as [|x a IH]; intros [|y b]; cbn [list_eqb]; try (split; [discriminate|discriminate]); [split; reflexivity|].
  rewrite andb_true_iff, N.eqb_eq, IH. split; [intros [-> ->]; reflexivity|intros E; injection E as -> ->; auto].
Qed.
Lemma code_same a b : code a = code b -> a = b.
Proof. destruct a; destruct b; intros E; solve [reflexivity | discriminate E]. Qed.
Lemma begins_iff a : forall b, begins a b = true <-> exists t, b = a ++ t.
Proof.
  induction a as [|x a IH]; intros b; [split; [intros _; now exists b|reflexivity]|]. destruct b as [|y b]; cbn [begins].
  - split; [discriminate|intros (t & E); discriminate E].
  - rewrite andb_true_iff, N.eqb_eq, IH. split; [intros [-> (t & ->)]; now exists t|intros (t & E); injection E as -> ->; eauto].
Qed.
Lemma within_iff a b : within a b = true <-> exists p t, b = p ++ a ++ t.
Proof.
  induction b as [|y b IH]; cbn [within]; rewrite orb_true_iff, begins_iff.
  - split; [intros [(t & ->)|E]; [now exists [], t|discriminate E]|]. intros (p & t & E). left. symmetry in E. apply app_eq_nil in E as [-> E]. now exists t.
  - rewrite IH. split.
    + intros [(t & ->)|(p & t & ->)]; [now exists [], t|now exists (y :: p), t].
    + intros (p & t & E). destruct p as [|z p]; [left; now exists t|right]. injection E as -> ->. now exists p, t.
Qed.
Lemma after_snoc r ds d : after r (ds ++ [d]) = match perform (after r ds) d with Ok r' => r' | Err _ => after r ds end.
Proof. unfold after. now rewrite fold_left_app. Qed.
Lemma after_app r ds ds' : after r (ds ++ ds') = after (after r ds) ds'.
Proof. unfold after. now rewrite fold_left_app. Qed.
Lemma last_or {A} (l : list A) : l = [] \/ exists l' x, l = l' ++ [x].
Proof. destruct l as [|x l]; [now left|right]. destruct (exists_last (l := x :: l)) as (l' & y & E); [discriminate|eauto]. Qed.
Lemma snoc_app {A} (l : list A) (x : A) (b : list A) (y : A) (a : list A) : l ++ [x] = b ++ y :: a ->
  a = [] /\ b = l /\ x = y \/ exists a', a = a' ++ [x] /\ l = b ++ y :: a'.
Proof.
  destruct (last_or a) as [->|(a' & z & ->)]; intros E.
  - apply app_inj_tail in E as [-> ->]. left. auto.
  - right. exists a'. change (y :: a' ++ [z]) with ((y :: a') ++ [z]) in E. rewrite app_assoc in E. apply app_inj_tail in E as [-> ->]. auto.
Qed.
Lemma class_for_snoc ds d c k : class_for (ds ++ [d]) c k <-> d = Declare c k \/ class_for ds c k /\ forall k', d <> Declare c k'.
Proof.
  split.
  - intros (b & a & E & N0). apply snoc_app in E as [(-> & -> & ->)|(a' & -> & ->)]; [now left|right]. split.
    + exists b, a'. split; [reflexivity|]. intros k' I0. apply (N0 k'). apply in_app_iff. now left.
    + intros k' ->. apply (N0 k'). apply in_app_iff. right. now left.
  - intros [->|[(b & a & -> & N0) D]]; [exists ds, []; split; [reflexivity|intros k' []]|]. exists b, (a ++ [d]). split; [now rewrite <- app_assoc|].
    intros k' I0. apply in_app_iff in I0 as [I0|[I0|[]]]; [now apply (N0 k')|now apply (D k')].
Qed.
Lemma class_iff ds c k : class_kind (after none_yet ds) c = Some k <-> class_for ds c k.
Proof.
  induction ds as [|d ds IH] using rev_ind; [split; [discriminate|]; intros (b & a & E & _); now apply app_cons_not_nil in E|].
  rewrite after_snoc, class_for_snoc. destruct d as [c' k'|e].
  - cbn [perform]. unfold class_kind in *. cbn [classes find fst]. destruct (same_text c' c) eqn:S.
    + apply same_text_iff in S as ->. cbn [option_map snd]. split; [intros E; injection E as ->; now left|]. intros [E|[_ N0]]; [now injection E as ->|]. now destruct (N0 k').
    + rewrite IH. assert (c' <> c) as N0 by (intros ->; rewrite (proj2 (same_text_iff c c) eq_refl) in S; discriminate S).
      split; [intros H; right; split; [exact H|intros k2 E; injection E as E _; contradiction]|]. intros [E|[H _]]; [injection E as E _; contradiction|exact H].
  - assert (forall r', perform (after none_yet ds) (Register e) = Ok r' -> classes r' = classes (after none_yet ds)) as C.
    { intros r'. cbn [perform]. destruct (message_id (after none_yet ds) e) as [[k0|]|x]; cbn [bind]; intros E; [injection E as <-; reflexivity|now injection E as <-|discriminate E]. }
    assert (class_kind (match perform (after none_yet ds) (Register e) with Ok r' => r' | Err _ => after none_yet ds end) c = class_kind (after none_yet ds) c) as ->.
    { destruct (perform (after none_yet ds) (Register e)) as [r'|x]; [|reflexivity]. unfold class_kind. now rewrite (C r' eq_refl). }
    rewrite IH. split; [intros H; right; split; [exact H|discriminate]|intros [E|[H _]]; [discriminate E|exact H]].
Qed.
Lemma meant_iff ds e k : message_id (after none_yet ds) e = Ok (Some k) <-> meant ds e k.
Proof.
  unfold message_id, meant. destruct (ev_arg e) as [c|].
  - rewrite <- class_iff. destruct (class_kind (after none_yet ds) c) as [k'|]; [|split; discriminate]. split; intros E; injection E as ->; reflexivity.
  - fold events_module. rewrite <- within_iff. destruct (within (ev_module e) events_module); [|split; [discriminate|intros [E _]; discriminate E]].
    destruct (same_text (ev_name e) (tx "PipelineInputEvent")) eqn:S1; [|destruct (same_text (ev_name e) (tx "PipelineOutputEvent")) eqn:S2].
    + apply same_text_iff in S1. split; [intros E; injection E as <-; auto|]. intros [_ [[_ ->]|[S2 _]]]; [reflexivity|]. rewrite S1 in S2. discriminate S2.
    + apply same_text_iff in S2. split; [intros E; injection E as <-; auto|]. intros [_ [[S3 _]|[_ ->]]]; [|reflexivity]. rewrite S2 in S3. discriminate S3.
    + split; [discriminate|]. intros [_ [[S3 _]|[S3 _]]]; apply same_text_iff in S3; congruence.
Qed.
Lemma serves_snoc ds d k e : serves (ds ++ [d]) k e <-> d = Register e /\ meant ds e k \/ serves ds k e /\ forall e', d = Register e' -> ~ meant ds e' k.
Proof.
  split.
  - intros (b & a & E & M & N0). apply snoc_app in E as [(-> & -> & ->)|(a' & -> & ->)]; [now left|right]. split.
    + exists b, a'. split; [reflexivity|]. split; [exact M|]. intros b2 e' a2 ->. apply (N0 b2 e' (a2 ++ [d])). now rewrite <- app_assoc.
    + intros e' ->. now apply (N0 a' e' []).
  - intros [[-> M]|[(b & a & -> & M & N0) D]].
    + exists ds, []. split; [reflexivity|]. split; [exact M|]. intros b e' a E. now apply app_cons_not_nil in E.
    + exists b, (a ++ [d]). split; [now rewrite <- app_assoc|]. split; [exact M|]. intros b2 e' a2 E. apply snoc_app in E as [(-> & -> & ->)|(a' & -> & ->)].
      * now apply D.
      * now apply (N0 b2 e' a').
Qed.
Lemma serves_iff ds k e : kind_event (after none_yet ds) k = Some e <-> serves ds k e.
Proof.
  revert e. induction ds as [|d ds IH] using rev_ind; intros e; [split; [discriminate|]; intros (b & a & E & _); now apply app_cons_not_nil in E|].
  rewrite after_snoc, serves_snoc. destruct d as [c' k'|e0].
  - cbn [perform]. unfold kind_event in *. cbn [events]. rewrite IH. split; [intros H; right; split; [exact H|discriminate]|intros [[E _]|[H _]]; [discriminate E|exact H]].
  - pose proof (meant_iff ds e0) as M. cbn [perform]. destruct (message_id (after none_yet ds) e0) as [[k0|]|x]; cbn [bind].
    + unfold kind_event in *. cbn [events find fst]. destruct (N.eqb_spec (code k0) (code k)) as [E|E].
      * apply code_same in E as ->. cbn [option_map snd]. assert (meant ds e0 k) as Q by now apply M. split; [intros E; injection E as ->; left; auto|].
        intros [[E _]|[_ N0]]; [now injection E as ->|]. now destruct (N0 e0 eq_refl).
      * rewrite IH. assert (~ meant ds e0 k) as Q by (rewrite <- M; intros Z0; injection Z0 as ->; now apply E).
        split; [intros H; right; split; [exact H|intros e' Z0; now injection Z0 as <-]|]. intros [[Z0 Q2]|[H _]]; [injection Z0 as ->; contradiction|exact H].
    + rewrite IH. assert (~ meant ds e0 k) as Q by (rewrite <- M; discriminate).
      split; [intros H; right; split; [exact H|intros e' Z0; now injection Z0 as <-]|]. intros [[Z0 Q2]|[H _]]; [injection Z0 as ->; contradiction|exact H].
    + rewrite IH. assert (~ meant ds e0 k) as Q by (rewrite <- M; discriminate).
      split; [intros H; right; split; [exact H|intros e' Z0; now injection Z0 as <-]|]. intros [[Z0 Q2]|[H _]]; [injection Z0 as ->; contradiction|exact H].
Qed.
(** Nothing that is declared later takes an event away. *)
Lemma event_stays ds : forall r k, kind_event r k <> None -> kind_event (after r ds) k <> None.
Proof.
  induction ds as [|d ds IH] using rev_ind; intros r k H; [exact H|]. rewrite after_snoc. specialize (IH r k H).
  destruct d as [c' k'|e0]; cbn [perform]; [exact IH|]. destruct (message_id (after r ds) e0) as [[k0|]|x]; cbn [bind]; [|exact IH|exact IH].
  unfold kind_event in *. cbn [events find fst]. destruct (code k0 =? code k)%N; [discriminate|exact IH].
Qed.
