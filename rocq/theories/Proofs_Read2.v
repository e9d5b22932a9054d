(** Reading documents of any writer: what references and type name references stand for. *)
From Coq Require Import String.
From Verif Require Import Base BaseFacts Model_Scalars Model_Strings Model_Text Model_Object Model_Clixml.
From Verif Require Import Spec_Strings Spec_Scalars Spec_Clixml Proofs_Clixml1 Proofs_Clixml3 Proofs_Read.
Local Open Scope list_scope.
Local Open Scope nat_scope.

(** The tables keep every number that the elements [ms] do not define. *)
Definition frame (ms : list mark) (d d' : dst) : Prop :=
  (forall r, ~ In (MObj r) ms -> sget r (d_refs d') = sget r (d_refs d))
  /\ (forall r, ~ In (MTN r) ms -> sget r (d_tns d') = sget r (d_tns d)).
Lemma frame_refl ms d : frame ms d d.
Proof. split; reflexivity. Qed.
Lemma frame_trans ms a b c : frame ms a b -> frame ms b c -> frame ms a c.
Proof. intros [H1 H2] [H3 H4]. split; intros r Hr; [rewrite H3, H1|rewrite H4, H2]; auto. Qed.
Lemma frame_incl ms ms' a b : incl ms ms' -> frame ms a b -> frame ms' a b.
Proof. intros Hi [H1 H2]. split; intros r Hr; [apply H1|apply H2]; auto. Qed.
Lemma frame_same ms d d' : d_refs d' = d_refs d -> d_tns d' = d_tns d -> frame ms d d'.
Proof. intros E1 E2. split; intros; congruence. Qed.
Lemma frame_modify ms d a f : frame ms d (modify d a f).
Proof. apply frame_same; [apply modify_refs|apply modify_tns]. Qed.
Lemma frame_alloc ms d o : frame ms d (snd (alloc d o)).
Proof. apply frame_same; reflexivity. Qed.
Definition own (rid : option (list N)) : list mark := match rid with Some r => [MObj r] | None => [] end.
Lemma frame_update ms d rid v : incl (own rid) ms -> frame ms d (update_ref d rid v).
Proof.
  intros Hi. split; [|intros; now rewrite update_tns]. intros r Hr. unfold update_ref.
  destruct rid as [k|]; [|reflexivity]. destruct (name_eqb r k) eqn:E.
  - apply name_eqb_iff in E. subst k. elim Hr. apply Hi. left. reflexivity.
  - destruct v; cbn [d_refs]; rewrite ?sget_sset, ?E; reflexivity.
Qed.
Lemma marks_elem x : marks x = own_marks x ++ flat_map marks (x_kids x).
Proof. destruct x. reflexivity. Qed.
Lemma marks_kids x : incl (flat_map marks (x_kids x)) (marks x).
Proof. rewrite marks_elem. apply incl_appr, incl_refl. Qed.
Lemma marks_in x l : In x l -> incl (marks x) (flat_map marks l).
Proof. intros H m Hm. apply in_flat_map. eauto. Qed.
Lemma find_n_in n l x : find_n n l = Some x -> In x l.
Proof.
  induction l as [|y l IH]; cbn [find_n]; [discriminate|].
  destruct (match attr_get AtN (x_attrs y) with Some m => name_eqb m n | None => false end); [intros E; injection E as ->; now left|right; auto].
Qed.
Lemma find_tag_in f l x : find_tag f l = Some x -> In x l /\ f (x_tag x) = true.
Proof.
  induction l as [|y l IH]; cbn [find_tag]; [discriminate|].
  destruct (f (x_tag y)) eqn:E; [intros H; injection H as ->; split; [now left|exact E]|intros H; destruct (IH H); split; [now right|assumption]].
Qed.

Definition frames (go : dst -> xml -> result (value * dst)) : Prop := forall d x r, go d x = Ok r -> frame (marks x) d (snd r).
Section Frames.
  Variable reg : registry.
  Variable go : dst -> xml -> result (value * dst).
  Hypothesis HF : frames go.
  Lemma go_frame ms d x r : incl (marks x) ms -> go d x = Ok r -> frame ms d (snd r).
  Proof. intros Hi H. eapply frame_incl; [exact Hi|]. apply HF. exact H. Qed.
  Lemma items_frame ms a l : incl (flat_map marks l) ms -> forall d d', read_items go d a l = Ok d' -> frame ms d d'.
  Proof.
    induction l as [|x l IH]; intros Hi d d' H; cbn [read_items] in H; [injection H as <-; apply frame_refl|].
    cbn [flat_map] in Hi. apply incl_app_inv in Hi. destruct Hi as [H1 H2]. binds H.
    eapply frame_trans; [exact (go_frame _ _ _ _ H1 E)|]. eapply frame_trans; [apply frame_modify|]. exact (IH H2 _ _ H).
  Qed.
  Lemma entries_frame ms a l : incl (flat_map marks l) ms -> forall d d', read_entries go d a l = Ok d' -> frame ms d d'.
  Proof.
    induction l as [|x l IH]; intros Hi d d' H; cbn [read_entries] in H; [injection H as <-; apply frame_refl|].
    cbn [flat_map] in Hi. apply incl_app_inv in Hi. destruct Hi as [H1 H2].
    destruct (find_n (tx "Key") (x_kids x)) as [xk|] eqn:Ek; [|discriminate]. destruct (find_n (tx "Value") (x_kids x)) as [xv|] eqn:Ev; [|discriminate].
    binds H. destruct (hash (d_heap (snd r0)) (fst r0)) as [hk|]; [|discriminate]. cbv zeta in H.
    assert (forall y, In y (x_kids x) -> incl (marks y) ms) as Hk.
    { intros y Hy. eapply incl_tran; [apply (marks_in y _ Hy)|]. eapply incl_tran; [apply marks_kids|exact H1]. }
    eapply frame_trans; [exact (go_frame _ _ _ _ (Hk _ (find_n_in _ _ _ Ev)) E)|].
    eapply frame_trans; [exact (go_frame _ _ _ _ (Hk _ (find_n_in _ _ _ Ek)) E0)|].
    eapply frame_trans; [apply frame_modify|]. exact (IH H2 _ _ H).
  Qed.
  Lemma props_frame ms put1 a l : incl (flat_map marks l) ms -> forall d d', read_props go put1 d a l = Ok d' -> frame ms d d'.
  Proof.
    induction l as [|x l IH]; intros Hi d d' H; cbn [read_props] in H; [injection H as <-; apply frame_refl|].
    cbn [flat_map] in Hi. apply incl_app_inv in Hi. destruct Hi as [H1 H2].
    destruct (attr_get AtN (x_attrs x)) as [s|]; [|discriminate]. binds H.
    eapply frame_trans; [exact (go_frame _ _ _ _ H1 E0)|]. eapply frame_trans; [apply frame_modify|]. exact (IH H2 _ _ H).
  Qed.
  Lemma dropped_frame ms l : incl (flat_map marks l) ms -> forall d d', read_dropped go d l = Ok d' -> frame ms d d'.
  Proof.
    induction l as [|x l IH]; intros Hi d d' H; cbn [read_dropped] in H; [injection H as <-; apply frame_refl|].
    cbn [flat_map] in Hi. apply incl_app_inv in Hi. destruct Hi as [H1 H2].
    destruct (attr_get AtN (x_attrs x)) as [s|]; [|discriminate]. binds H.
    eapply frame_trans; [exact (go_frame _ _ _ _ H1 E0)|]. exact (IH H2 _ _ H).
  Qed.

  (** Between two children: what belongs to the element's own number, and the elements set aside. *)
  Definition recorded (rid : option (list N)) (l : loc) : Prop :=
    match rid, l_val l with
    | Some r, Some v => v = VNull \/ sget r (d_refs (l_d l)) = Some v
    | _, _ => True
    end.
  Definition aside (ms : list mark) (l : loc) : Prop :=
    (forall ps, l_props l = Some ps -> incl (flat_map marks ps) ms) /\ (forall ps, l_ms l = Some ps -> incl (flat_map marks ps) ms).
  Lemma update_recorded d r v : v = VNull \/ sget r (d_refs (update_ref d (Some r) v)) = Some v.
  Proof. unfold update_ref. destruct v; [now left|right..]; cbn [d_refs]; rewrite sget_sset, name_eqb_refl; reflexivity. Qed.
  Lemma child_frame ms rid en l x l' : incl (marks x) ms -> aside ms l -> read_child go rid en l x = Ok l' ->
    frame (own rid ++ ms) (l_d l) (l_d l') /\ aside ms l'
    /\ (forall r, rid = Some r -> ~ In (MObj r) ms -> recorded rid l -> recorded rid l').
  Proof.
    intros Hi Ha H. assert (incl (flat_map marks (x_kids x)) ms) as Hkids by (eapply incl_tran; [apply marks_kids|exact Hi]).
    assert (incl (own rid) (own rid ++ ms)) as Ho by (apply incl_appl, incl_refl).
    assert (incl ms (own rid ++ ms)) as Hm by (apply incl_appr, incl_refl).
    assert (forall keep c fill, (forall d a d', fill d a = Ok d' -> frame ms d d') ->
      match l_val l with
      | None => Err RuntimeError
      | Some v =>
        if (keep : bool) then match v with VRef a => let! d := fill (l_d l) a in
                       Ok (mkL d (l_val l) (l_cls l) (l_props l) (l_ms l) (l_str l)) | _ => Err AttributeError end
        else let (a, d1) := alloc (l_d l) (blank c) in
             let! d := fill (update_ref d1 rid (VRef a)) a in
             Ok (mkL d (Some (VRef a)) (Some c) (l_props l) (l_ms l) (l_str l))
      end = Ok l' ->
      frame (own rid ++ ms) (l_d l) (l_d l') /\ aside ms l'
      /\ (forall r, rid = Some r -> ~ In (MObj r) ms -> recorded rid l -> recorded rid l')) as Hc.
    { intros keep c fill Hfill Hl. destruct (l_val l) as [v|] eqn:Ev; [|discriminate]. destruct keep.
      - destruct v as [| | | |a]; try discriminate. binds Hl. injection Hl as <-. cbn [l_d].
        pose proof (Hfill _ _ _ E) as F1. split; [eapply frame_incl; [exact Hm|exact F1]|]. split; [exact Ha|].
        intros k -> Hk. unfold recorded. cbn [l_val l_d]. rewrite Ev. intros [R|R]; [now left|right].
        rewrite (proj1 F1 k Hk). exact R.
      - pose proof (frame_alloc (own rid ++ ms) (l_d l) (blank c)) as F1.
        destruct (alloc (l_d l) (blank c)) as [a d1]. cbn [snd] in F1. binds Hl. injection Hl as <-. cbn [l_d].
        pose proof (Hfill _ _ _ E) as F2. split; [|split; [exact Ha|]].
        + eapply frame_trans; [exact F1|]. eapply frame_trans; [exact (frame_update _ d1 rid (VRef a) Ho)|].
          eapply frame_incl; [exact Hm|exact F2].
        + intros k -> Hk _. unfold recorded. cbn [l_val l_d]. rewrite (proj1 F2 k Hk). apply update_recorded. }
    assert (forall r d v, go (l_d l) x = Ok r -> frame ms (snd r) d ->
      frame (own rid ++ ms) (l_d l) (update_ref d rid v)
      /\ aside ms (mkL (update_ref d rid v) (Some v) None (l_props l) (l_ms l) (l_str l))
      /\ (forall k, rid = Some k -> ~ In (MObj k) ms -> recorded rid l ->
          recorded rid (mkL (update_ref d rid v) (Some v) None (l_props l) (l_ms l) (l_str l)))) as Hfin.
    { intros r d v Er F1. split; [|split; [exact Ha|]].
      - eapply frame_trans; [exact (go_frame _ _ _ _ (incl_tran Hi Hm) Er)|].
        eapply frame_trans; [exact (frame_incl _ _ _ _ Hm F1)|]. apply frame_update. exact Ho.
      - intros k -> _ _. unfold recorded. cbn [l_val l_d]. apply update_recorded. }
    assert (forall r c, go (l_d l) x = Ok r ->
      (let! e := make_member c (fst r) in
       Ok (mkL (update_ref (snd r) rid (VEnum e)) (Some (VEnum e)) None (l_props l) (l_ms l) (l_str l))) = Ok l' ->
      frame (own rid ++ ms) (l_d l) (l_d l') /\ aside ms l'
      /\ (forall r, rid = Some r -> ~ In (MObj r) ms -> recorded rid l -> recorded rid l')) as Hme.
    { intros r c Er Hl. binds Hl. injection Hl as <-. exact (Hfin r (snd r) (VEnum r0) Er (frame_refl _ _)). }
    assert (forall r names, go (l_d l) x = Ok r ->
      (let fin d v := Ok (mkL (update_ref d rid v) (Some v) None (l_props l) (l_ms l) (l_str l)) in
        match fst r with
        | VPrim p => let (a, d1) := alloc (snd r) (mkG (BPrim p) (match names with [] => prim_names p | _ => names end) None [] []) in
                     fin d1 (VRef a)
        | VRef a => fin (match names with [] => snd r | _ => modify (snd r) a (fun o => with_names o names) end) (VRef a)
        | VEnum e => fin (snd r) (VEnum e)
        | v => match names with [] => fin (snd r) v | _ => Err AttributeError end
        end) = Ok l' ->
      frame (own rid ++ ms) (l_d l) (l_d l') /\ aside ms l'
      /\ (forall r, rid = Some r -> ~ In (MObj r) ms -> recorded rid l -> recorded rid l')) as Hp.
    { intros r names Er Hl. cbv zeta in Hl. destruct (fst r) as [|b|p|e|a] eqn:Ef.
      - destruct names; [|discriminate]. injection Hl as <-. exact (Hfin r (snd r) _ Er (frame_refl _ _)).
      - destruct names; [|discriminate]. injection Hl as <-. exact (Hfin r (snd r) _ Er (frame_refl _ _)).
      - match type of Hl with (let (a, d1) := alloc ?d ?o in _) = _ => pose proof (frame_alloc ms d o) as F1; destruct (alloc d o) as [a d1] end.
        cbn [snd] in F1. injection Hl as <-. exact (Hfin r d1 _ Er F1).
      - injection Hl as <-. exact (Hfin r (snd r) _ Er (frame_refl _ _)).
      - destruct names as [|n0 ns]; injection Hl as <-; [exact (Hfin r (snd r) _ Er (frame_refl _ _))|].
        exact (Hfin r _ _ Er (frame_modify _ _ _ _)). }
    unfold read_child in H. cbv zeta in H.
    destruct (x_tag x);
      try (binds H; destruct en as [c|]; [exact (Hme _ _ E H)|exact (Hp _ _ E H)]);
      try (injection H as <-; split; [apply frame_refl|split; [exact Ha|auto]]).
    - injection H as <-. split; [apply frame_refl|]. split; [|auto]. destruct Ha as [A1 A2]. split; cbn [l_props l_ms]; [|exact A2].
      intros ps E. injection E as <-. exact Hkids.
    - injection H as <-. split; [apply frame_refl|]. split; [|auto]. destruct Ha as [A1 A2]. split; cbn [l_props l_ms]; [exact A1|].
      intros ps E. injection E as <-. exact Hkids.
    - binds H. injection H as <-. split; [apply frame_refl|split; [exact Ha|auto]].
    - eapply (Hc false _ (fun d a => read_items go d a (x_kids x))); [|exact H].
      intros d a d' Hd. eapply items_frame; eassumption.
    - match type of H with match _ with Some v => if ?k then _ else _ | None => _ end = _ =>
        eapply (Hc k cls_queue (fun d a => read_items go d a (x_kids x))); [|exact H] end.
      intros d a d' Hd. eapply items_frame; eassumption.
    - eapply (Hc false _ (fun d a => read_entries go d a (x_kids x))); [|exact H].
      intros d a d' Hd. eapply entries_frame; eassumption.
  Qed.
  Lemma children_frame ms rid en kids : incl (flat_map marks kids) ms -> forall l l', aside ms l -> read_children go rid en l kids = Ok l' ->
    frame (own rid ++ ms) (l_d l) (l_d l') /\ aside ms l'
    /\ (forall r, rid = Some r -> ~ In (MObj r) ms -> recorded rid l -> recorded rid l').
  Proof.
    induction kids as [|x kids IH]; intros Hi l l' Ha H; cbn [read_children] in H.
    - injection H as <-. split; [apply frame_refl|]. auto.
    - cbn [flat_map] in Hi. apply incl_app_inv in Hi. destruct Hi as [H1 H2]. binds H.
      destruct (child_frame _ _ _ _ _ _ H1 Ha E) as (F1 & A1 & R1). destruct (IH H2 _ _ A1 H) as (F2 & A2 & R2).
      split; [eapply frame_trans; eassumption|]. split; [exact A2|]. intros r0 Er Hr HR. eapply R2; eauto.
  Qed.
  Lemma names_frame d kids r : read_names d kids = Ok r -> frame (flat_map marks kids) d (snd r).
  Proof.
    intros H. unfold read_names in H. destruct (tn_texts kids) as [|n0 ns].
    - destruct (find_tag is_tnref kids) as [y|]; [|injection H as <-; apply frame_refl].
      destruct (attr_get AtRefId (x_attrs y)) as [k|]; [|discriminate].
      destruct (sget k (d_tns d)); [|discriminate]. injection H as <-. apply frame_refl.
    - destruct (find_tag is_tn kids) as [y|] eqn:Ey; [|injection H as <-; apply frame_refl].
      destruct (attr_get AtRefId (x_attrs y)) as [k|] eqn:Ek; [|discriminate]. injection H as <-.
      split; [reflexivity|]. intros q Hr. cbn [snd d_tns]. rewrite sget_sset. destruct (name_eqb q k) eqn:E; [|reflexivity].
      apply name_eqb_iff in E. subst k. elim Hr. destruct (find_tag_in _ _ _ Ey) as [Hin Ht].
      apply in_flat_map. exists y. split; [exact Hin|]. rewrite marks_elem. apply in_or_app. left. unfold own_marks. rewrite Ek.
      destruct (x_tag y); try discriminate Ht. left. reflexivity.
  Qed.
  Lemma rehydrate_frame d names rid v c en o d' : rehydrate reg d names rid = (v, c, en, o, d') ->
    frame (own rid) d d' /\ (match rid, v with Some r, Some w => w = VNull \/ sget r (d_refs d') = Some w | _, _ => True end).
  Proof.
    intros H. unfold rehydrate in H. cbv zeta in H.
    assert (forall ob k,
      (let (a, d1) := alloc d ob in (Some (VRef a), k, @None cls, o, update_ref d1 rid (VRef a))) = (v, c, en, o, d') ->
      frame (own rid) d d' /\ (match rid, v with Some r, Some w => w = VNull \/ sget r (d_refs d') = Some w | _, _ => True end)) as Hn.
    { intros ob k H2. pose proof (frame_alloc (own rid) d ob) as F1. destruct (alloc d ob) as [a d1]. cbn [snd] in F1.
      injection H2 as <- <- <- <-. split.
      - eapply frame_trans; [exact F1|]. apply frame_update, incl_refl.
      - destruct rid as [r|]; [apply update_recorded|exact I]. }
    match type of H with match ?f with _ => _ end = _ => destruct f as [cl|] end.
    - destruct (c_kind cl) eqn:Ek;
        try (apply (Hn (blank cl) (Some cl)); destruct (alloc d (blank cl)); injection H as <- <- <- <- <-; reflexivity).
      injection H as <- <- <- <- <-. split; [apply frame_refl|destruct rid; exact I].
    - apply (Hn (mkG BPlain (map deserialized names) None [] []) None).
      destruct (alloc d (mkG BPlain (map deserialized names) None [] [])); injection H as <- <- <- <- <-; reflexivity.
  Qed.
  Lemma object_frame d attrs kids r : read_object reg go d attrs kids = Ok r ->
    frame (own (attr_get AtRefId attrs) ++ flat_map marks kids) d (snd r)
    /\ (forall k, attr_get AtRefId attrs = Some k -> ~ In (MObj k) (flat_map marks kids) ->
        fst r = VNull \/ sget k (d_refs (snd r)) = Some (fst r)).
  Proof.
    intros H. unfold read_object in H. cbv zeta in H. set (rid := attr_get AtRefId attrs) in *. set (ms := flat_map marks kids).
    assert (incl (own rid) (own rid ++ ms)) as Ho by (apply incl_appl, incl_refl).
    assert (incl ms (own rid ++ ms)) as Hm by (apply incl_appr, incl_refl).
    binds H. pose proof (names_frame _ _ _ E) as F1.
    destruct (rehydrate reg (snd r0) (fst r0) rid) as [[[[v0 c0] en] original] d1] eqn:Er.
    destruct (rehydrate_frame _ _ _ _ _ _ _ _ Er) as [F2 R2]. binds H.
    assert (aside ms (mkL d1 v0 c0 None None None)) as A0 by (split; cbn [l_props l_ms]; intros; discriminate).
    destruct (children_frame ms rid en kids (incl_refl _) _ _ A0 E0) as (F3 & A3 & R3). cbn [l_d] in F3.
    assert (frame (own rid ++ ms) d (l_d r1)) as F.
    { eapply frame_trans; [exact (frame_incl _ _ _ _ Hm F1)|]. eapply frame_trans; [exact (frame_incl _ _ _ _ Ho F2)|exact F3]. }
    assert (forall k, rid = Some k -> ~ In (MObj k) ms -> recorded rid r1) as R.
    { intros k Ek Hk. apply (R3 k Ek Hk). unfold recorded. cbn [l_val l_d]. rewrite Ek in *. destruct v0; [exact R2|exact I]. }
    clear F1 F2 F3 R2 R3 A0.
    destruct (l_val r1) as [v|] eqn:Ev; [|discriminate].
    assert (forall u, r = (u, l_d r1) -> u = v ->
      frame (own rid ++ ms) d (snd r) /\ (forall k, rid = Some k -> ~ In (MObj k) ms -> fst r = VNull \/ sget k (d_refs (snd r)) = Some (fst r))) as Hsimple.
    { intros u -> ->. cbn [fst snd]. split; [exact F|]. intros k Ek Hk. specialize (R k Ek Hk). unfold recorded in R. rewrite Ek, Ev in R. exact R. }
    destruct v as [|b|p|e|a].
    - destruct (l_str r1); [discriminate|]. injection H as <-. now apply (Hsimple VNull).
    - destruct (l_str r1); [discriminate|]. injection H as <-. now apply (Hsimple (VBool b)).
    - destruct (l_str r1); [discriminate|]. injection H as <-. now apply (Hsimple (VPrim p)).
    - binds H.
      assert (frame ms (l_d r1) r2) as G4.
      { destruct (l_props r1) eqn:Ep; [eapply dropped_frame; [exact (proj1 A3 _ Ep)|eassumption]|].
        match goal with X : Ok _ = Ok r2 |- _ => injection X as <- end. apply frame_refl. }
      assert (frame ms r2 r3) as G5.
      { destruct (l_ms r1) eqn:Ep; [eapply dropped_frame; [exact (proj2 A3 _ Ep)|eassumption]|].
        match goal with X : Ok _ = Ok r3 |- _ => injection X as <- end. apply frame_refl. }
      injection H as <-. cbn [fst snd]. split.
      + eapply frame_trans; [exact F|]. eapply frame_trans; [exact (frame_incl _ _ _ _ Hm G4)|].
        eapply frame_trans; [exact (frame_incl _ _ _ _ Hm G5)|]. apply frame_update. exact Ho.
      + intros k Ek Hk. rewrite Ek. apply update_recorded.
    - cbv zeta in H.
      set (d2 := match l_str r1 with Some s => modify (l_d r1) a (fun o => with_string o s) | None => l_d r1 end) in H.
      assert (frame ms (l_d r1) d2) as G4 by (unfold d2; destruct (l_str r1); [apply frame_modify|apply frame_refl]).
      set (d3 := match original with [] => d2 | _ => modify d2 a (fun o => with_names o original) end) in H.
      assert (frame ms d2 d3) as G5 by (unfold d3; destruct original; [apply frame_refl|apply frame_modify]).
      clearbody d2 d3. binds H.
      assert (frame ms d3 r2) as G6.
      { destruct (l_props r1) eqn:Ep; [eapply props_frame; [exact (proj1 A3 _ Ep)|eassumption]|].
        match goal with X : Ok _ = Ok r2 |- _ => injection X as <- end. apply frame_refl. }
      assert (frame ms r2 r3) as G7.
      { destruct (l_ms r1) eqn:Ep; [eapply props_frame; [exact (proj2 A3 _ Ep)|eassumption]|].
        match goal with X : Ok _ = Ok r3 |- _ => injection X as <- end. apply frame_refl. }
      injection H as <-. cbn [fst snd].
      assert (frame ms (l_d r1) r3) as G8.
      { eapply frame_trans; [exact G4|]. eapply frame_trans; [exact G5|]. eapply frame_trans; eassumption. }
      split; [eapply frame_trans; [exact F|exact (frame_incl _ _ _ _ Hm G8)]|].
      intros k Ek Hk. specialize (R k Ek Hk). unfold recorded in R. rewrite Ek, Ev in R. rewrite (proj1 G8 k Hk). exact R.
  Qed.
End Frames.
Theorem deser_frames reg f : frames (deser reg f).
Proof.
  induction f as [|f IH]; intros d x r H; [discriminate|]. destruct x as [t attrs text kids]. cbn [deser] in H.
  assert (forall p, (let! q := p in Ok (VPrim q, d)) = Ok r -> frame (marks (Elem t attrs text kids)) d (snd r)) as Hp.
  { intros p Hq. binds Hq. injection Hq as <-. apply frame_refl. }
  destruct t; try (injection H as <-; apply frame_refl); try discriminate H;
    try (cbn [read_prim] in H; eapply Hp; exact H).
  - destruct (object_frame reg _ IH _ _ _ _ H) as [F _]. eapply frame_incl; [|exact F].
    rewrite marks_elem. cbn [x_kids]. apply incl_app; [|apply incl_appr, incl_refl]. apply incl_appl.
    unfold own_marks. cbn [x_attrs x_tag]. destruct (attr_get AtRefId attrs); apply incl_refl.
  - destruct (attr_get AtRefId attrs) as [k|]; [|discriminate]. destruct (sget k (d_refs d)) as [v|]; [|discriminate].
    injection H as <-. apply frame_refl.
  - binds H. injection H as <-. apply frame_refl.
Qed.
Theorem deser_recorded reg d attrs text kids v d' k : deserialize reg d (Elem TgObj attrs text kids) = Ok (v, d') ->
  attr_get AtRefId attrs = Some k -> ~ In (MObj k) (flat_map marks kids) -> v = VNull \/ sget k (d_refs d') = Some v.
Proof.
  unfold deserialize. cbn [height deser]. intros H Hk Hn.
  destruct (object_frame reg _ (deser_frames reg _) _ _ _ _ H) as [_ R]. exact (R k Hk Hn).
Qed.
