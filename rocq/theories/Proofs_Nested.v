(** Proofs for C82. *)
From Coq Require Import String.
From Verif Require Import Base BaseFacts Model_Scalars Model_Strings Model_Text Model_Object Model_Clixml Model_FromHook.
From Verif Require Import Spec_Strings Spec_Scalars Spec_Clixml Spec_Read Spec_FromHook Spec_Nested.
From Verif Require Import Proofs_Clixml1 Proofs_Clixml2 Proofs_Clixml3 Proofs_Clixml4 Proofs_Read Proofs_Read2 Proofs_Read3 Proofs_Read4 Proofs_FromHook.
Local Open Scope list_scope.
Local Open Scope nat_scope.

(** ** What was there before stays as it is *)
Definition spares (n : N) (d d' : dst) : Prop := (d_next d <= d_next d')%N /\ forall b, (b < n)%N -> aget b (d_heap d') = aget b (d_heap d).
Lemma spares_refl n d : spares n d d.
Proof. split; [lia|reflexivity]. Qed.
Lemma spares_trans n a b c : spares n a b -> spares n b c -> spares n a c.
Proof. intros [L1 H1] [L2 H2]. split; [lia|]. intros x Hx. rewrite H2, H1; auto. Qed.
Lemma spares_le n m d d' : (n <= m)%N -> spares m d d' -> spares n d d'.
Proof. intros L [H1 H2]. split; [exact H1|]. intros b Hb. apply H2. lia. Qed.
Lemma spares_modify n d a f : (n <= a)%N -> spares n d (modify d a f).
Proof.
  intros L. split; [rewrite modify_next; lia|]. intros b Hb. unfold modify. destruct (aget a (d_heap d)); [|reflexivity]. cbn [put d_heap]. rewrite aget_aset.
  destruct (N.eqb_spec b a); [lia|reflexivity].
Qed.
Lemma spares_update n d r v : spares n d (update_ref d r v).
Proof. split; [rewrite update_next; lia|]. intros b _. now rewrite update_heap. Qed.
Lemma spares_alloc n d o : (n <= d_next d)%N -> spares n d (snd (alloc d o)).
Proof.
  intros L. split; cbn [alloc snd d_next d_heap]; [lia|]. intros b Hb. rewrite aget_aset. destruct (N.eqb_spec b (d_next d)); [lia|reflexivity].
Qed.
Definition unlinked (v : value) : Prop := match v with VRef _ => False | _ => True end.
Lemma straight_kid x y : straight x -> In y (x_kids x) -> straight y.
Proof. intros H I z w Hz. apply H. eapply PartKid; eassumption. Qed.
Lemma straight_kids x : straight x -> Forall straight (x_kids x).
Proof. intros H. apply Forall_forall. intros y Hy. eapply straight_kid; eassumption. Qed.
Section Go.
  Variable reg : registry.
  Variable go : dst -> xml -> result (value * dst).
  Hypothesis HG : forall d x r, straight x -> go d x = Ok r -> spares (d_next d) d (snd r).
  Hypothesis HU : forall d x r, x_tag x <> TgObj -> x_tag x <> TgRef -> go d x = Ok r -> unlinked (fst r).
  Lemma go_spare n d x r : (n <= d_next d)%N -> straight x -> go d x = Ok r -> spares n d (snd r).
  Proof using HG HU. intros L Hx H. eapply spares_le; [exact L|]. now apply HG with (x := x). Qed.
  Lemma items_spare n a l : (n <= a)%N -> Forall straight l -> forall d d', (n <= d_next d)%N -> read_items go d a l = Ok d' -> spares n d d'.
  Proof using HG HU.
    intros La. induction 1 as [|x l Hx HF IH]; intros d d' L H; cbn [read_items] in H; [injection H as <-; apply spares_refl|]. binds H.
    pose proof (go_spare _ _ _ _ L Hx E) as G. eapply spares_trans; [exact G|]. eapply spares_trans; [apply spares_modify; exact La|]. eapply IH; [|exact H].
    rewrite modify_next. destruct G. lia.
  Qed.
  Lemma entries_spare n a l : (n <= a)%N -> Forall straight l -> forall d d', (n <= d_next d)%N -> read_entries go d a l = Ok d' -> spares n d d'.
  Proof using HG HU.
    intros La. induction 1 as [|x l Hx HF IH]; intros d d' L H; cbn [read_entries] in H; [injection H as <-; apply spares_refl|].
    destruct (find_n (tx "Key") (x_kids x)) as [xk|] eqn:Ek; [|discriminate]. destruct (find_n (tx "Value") (x_kids x)) as [xv|] eqn:Ev; [|discriminate].
    binds H. pose proof (go_spare _ _ _ _ L (straight_kid _ _ Hx (find_n_in _ _ _ Ev)) E) as G1.
    assert (n <= d_next (snd r))%N as L1 by (destruct G1; lia). pose proof (go_spare _ _ _ _ L1 (straight_kid _ _ Hx (find_n_in _ _ _ Ek)) E0) as G2.
    destruct (hash _ _); [|discriminate]. eapply spares_trans; [exact G1|]. eapply spares_trans; [exact G2|]. eapply spares_trans; [apply spares_modify; exact La|].
    eapply IH; [|exact H]. rewrite modify_next. destruct G2. lia.
  Qed.
  Lemma props_spare put1 n a l : (n <= a)%N -> Forall straight l -> forall d d', (n <= d_next d)%N -> read_props go put1 d a l = Ok d' -> spares n d d'.
  Proof using HG HU.
    intros La. induction 1 as [|x l Hx HF IH]; intros d d' L H; cbn [read_props] in H; [injection H as <-; apply spares_refl|].
    destruct (attr_get AtN (x_attrs x)); [|discriminate]. binds H.
    pose proof (go_spare _ _ _ _ L Hx E0) as G. eapply spares_trans; [exact G|]. eapply spares_trans; [apply spares_modify; exact La|]. eapply IH; [|exact H].
    rewrite modify_next. destruct G. lia.
  Qed.
  Lemma dropped_spare n l : Forall straight l -> forall d d', (n <= d_next d)%N -> read_dropped go d l = Ok d' -> spares n d d'.
  Proof using HG HU.
    induction 1 as [|x l Hx HF IH]; intros d d' L H; cbn [read_dropped] in H; [injection H as <-; apply spares_refl|].
    destruct (attr_get AtN (x_attrs x)); [|discriminate]. binds H.
    pose proof (go_spare _ _ _ _ L Hx E0) as G. eapply spares_trans; [exact G|]. eapply IH; [|exact H]. destruct G. lia.
  Qed.
  Definition fresh_loc (n : N) (l : loc) : Prop :=
    (n <= d_next (l_d l))%N /\ (forall a, l_val l = Some (VRef a) -> (n <= a)%N)
    /\ (forall ps, l_props l = Some ps -> Forall straight ps) /\ (forall ps, l_ms l = Some ps -> Forall straight ps).
  Lemma child_spare n rid en l x l' : straight x -> x_tag x <> TgObj -> x_tag x <> TgRef -> fresh_loc n l -> read_child go rid en l x = Ok l' ->
    spares n (l_d l) (l_d l') /\ fresh_loc n l'.
  Proof using HG HU.
    intros Hx T1 T2 (L & A & B & C) H.
    assert (forall d v c ps ms s, spares n (l_d l) d -> (forall a, v = Some (VRef a) -> (n <= a)%N) -> (forall q, ps = Some q -> Forall straight q) -> (forall q, ms = Some q -> Forall straight q) ->
      spares n (l_d l) (l_d (mkL d v c ps ms s)) /\ fresh_loc n (mkL d v c ps ms s)) as K.
    { intros d v c ps ms s Q1 Q2 Q3 Q4. split; [exact Q1|]. split; [destruct Q1; cbn [l_d]; lia|]. split; [exact Q2|split; [exact Q3|exact Q4]]. }
    pose proof (straight_kids _ Hx) as Hk.
    assert (forall (c : cls) fill, (forall d d' a, (n <= a)%N -> (n <= d_next d)%N -> fill d a = Ok d' -> spares n d d') ->
      (let (a, d1) := alloc (l_d l) (blank c) in let! d := fill (update_ref d1 rid (VRef a)) a in Ok (mkL d (Some (VRef a)) (Some c) (l_props l) (l_ms l) (l_str l))) = Ok l' ->
      spares n (l_d l) (l_d l') /\ fresh_loc n l') as KC.
    { clear H. intros c fill Hf H. pose proof (spares_alloc n (l_d l) (blank c) L) as G. unfold alloc in H. binds H. injection H as <-.
      assert (spares n (l_d l) r) as G1.
      { eapply spares_trans; [exact G|]. eapply spares_trans; [apply (spares_update n _ rid (VRef (d_next (l_d l))))|]. eapply Hf; [exact L| |exact E]. rewrite update_next. cbn [alloc snd d_next]. lia. }
      apply K; [exact G1| |exact B|exact C]. intros a Q. injection Q as <-. exact L. }
    assert (forall r, go (l_d l) x = Ok r -> spares n (l_d l) (snd r) /\ unlinked (fst r)) as Hg by (intros r Hr; split; [exact (go_spare _ _ _ _ L Hx Hr)|exact (HU _ _ _ T1 T2 Hr)]).
    assert ((let! r := go (l_d l) x in
        match en with
        | Some c => let! e := make_member c (fst r) in Ok (mkL (update_ref (snd r) rid (VEnum e)) (Some (VEnum e)) None (l_props l) (l_ms l) (l_str l))
        | None =>
          let names := match l_val l with Some (VRef a) => match aget a (d_heap (l_d l)) with Some o => g_names o | None => [] end | Some (VEnum e) => e_names e | _ => [] end in
          let fin d v := Ok (mkL (update_ref d rid v) (Some v) None (l_props l) (l_ms l) (l_str l)) in
          match fst r with
          | VPrim p => let (a, d1) := alloc (snd r) (mkG (BPrim p) (match names with [] => prim_names p | _ => names end) None [] []) in fin d1 (VRef a)
          | VRef a => fin (match names with [] => snd r | _ => modify (snd r) a (fun o => with_names o names) end) (VRef a)
          | VEnum e => fin (snd r) (VEnum e)
          | v => match names with [] => fin (snd r) v | _ => Err AttributeError end
          end
        end) = Ok l' -> spares n (l_d l) (l_d l') /\ fresh_loc n l') as Hgo.
    { clear H. intros H. binds H. destruct (Hg _ E) as [G1 G2]. destruct en as [c|].
      - binds H. injection H as <-. apply K; [eapply spares_trans; [exact G1|apply spares_update]|intros a Q; discriminate Q|exact B|exact C].
      - cbv zeta in H. destruct (fst r) as [|b|p|e|a]; [| | | |destruct G2].
        + match type of H with context [match ?m with [] => Ok _ | _ => _ end] => destruct m; [|discriminate] end. injection H as <-.
          apply K; [eapply spares_trans; [exact G1|apply spares_update]|intros a Q; discriminate Q|exact B|exact C].
        + match type of H with context [match ?m with [] => Ok _ | _ => _ end] => destruct m; [|discriminate] end. injection H as <-.
          apply K; [eapply spares_trans; [exact G1|apply spares_update]|intros a Q; discriminate Q|exact B|exact C].
        + unfold alloc in H. injection H as <-. assert (n <= d_next (snd r))%N as L1 by (destruct G1; lia). apply K; [|intros a Q; injection Q as <-; exact L1|exact B|exact C].
          eapply spares_trans; [exact G1|]. eapply spares_trans; [|apply spares_update]. exact (spares_alloc n (snd r) _ L1).
        + injection H as <-. apply K; [eapply spares_trans; [exact G1|apply spares_update]|intros a Q; discriminate Q|exact B|exact C]. }
    unfold read_child in H. cbv zeta in H. destruct (x_tag x) eqn:Et; try exact (Hgo H);
      try (injection H as <-; split; [apply spares_refl|split; [exact L|split; [exact A|split; [exact B|exact C]]]]; fail).
    - injection H as <-. apply K; [apply spares_refl|exact A| |exact C]. intros q Q. injection Q as <-. exact Hk.
    - injection H as <-. apply K; [apply spares_refl|exact A|exact B|]. intros q Q. injection Q as <-. exact Hk.
    - binds H. injection H as <-. apply K; [apply spares_refl|exact A|exact B|exact C].
    - destruct (l_val l); [|discriminate]. eapply (KC _ (fun d a => read_items go d a (x_kids x))); [|exact H]. cbv beta. intros d d' a Ha Hd. apply items_spare; assumption.
    - destruct (l_val l) as [v|] eqn:Ev; [|discriminate]. match type of H with (if ?k then _ else _) = _ => destruct k end.
      + destruct v as [|b|p|e|a]; try discriminate. binds H. injection H as <-. apply K; [|exact A|exact B|exact C].
        eapply items_spare; [apply A; reflexivity|exact Hk|exact L|exact E].
      + eapply (KC _ (fun d a => read_items go d a (x_kids x))); [|exact H]. cbv beta. intros d d' a Ha Hd. apply items_spare; assumption.
    - destruct (l_val l); [|discriminate]. eapply (KC _ (fun d a => read_entries go d a (x_kids x))); [|exact H]. cbv beta. intros d d' a Ha Hd. apply entries_spare; assumption.
  Qed.
  Lemma children_spare n rid en kids : Forall (fun x => straight x /\ x_tag x <> TgObj /\ x_tag x <> TgRef) kids -> forall l l', fresh_loc n l ->
    read_children go rid en l kids = Ok l' -> spares n (l_d l) (l_d l') /\ fresh_loc n l'.
  Proof using HG HU.
    induction 1 as [|x kids (H1 & H2 & H3) HF IH]; intros l l' Hl H; cbn [read_children] in H; [injection H as <-; split; [apply spares_refl|exact Hl]|].
    binds H. destruct (child_spare _ _ _ _ _ _ H1 H2 H3 Hl E) as [G1 G2]. destruct (IH _ _ G2 H) as [G3 G4]. split; [eapply spares_trans; eassumption|exact G4].
  Qed.
  Lemma object_spare d attrs kids r : Forall (fun x => straight x /\ x_tag x <> TgObj /\ x_tag x <> TgRef) kids -> read_object reg go d attrs kids = Ok r ->
    spares (d_next d) d (snd r) /\ forall a, fst r = VRef a -> (d_next d <= a)%N.
  Proof using HG HU.
    intros Hk H. unfold read_object in H. cbv zeta in H. binds H.
    assert (spares (d_next d) d (snd r0) /\ d_next (snd r0) = d_next d) as [G0 N0].
    { unfold read_names in E. destruct (tn_texts kids).
      - destruct (find_tag is_tnref kids); [|injection E as <-; split; [apply spares_refl|reflexivity]]. destruct (attr_get _ _); [|discriminate].
        destruct (sget _ _); [|discriminate]. injection E as <-. split; [apply spares_refl|reflexivity].
      - destruct (find_tag is_tn kids); [|injection E as <-; split; [apply spares_refl|reflexivity]]. destruct (attr_get _ _); [|discriminate].
        injection E as <-. split; [split; [cbn [snd d_next]; lia|reflexivity]|reflexivity]. }
    destruct (rehydrate reg (snd r0) (fst r0) (attr_get AtRefId attrs)) as [[[[v0 c0] en] original] d1] eqn:Er.
    assert (spares (d_next d) d d1 /\ forall a, v0 = Some (VRef a) -> (d_next d <= a)%N) as [G1 A1].
    { unfold rehydrate in Er. cbv zeta in Er. assert (d_next d <= d_next (snd r0))%N as L0 by lia.
      assert (forall o, spares (d_next d) d (update_ref (snd (alloc (snd r0) o)) (attr_get AtRefId attrs) (VRef (fst (alloc (snd r0) o))))) as KO.
      { intros o. eapply spares_trans; [exact G0|]. eapply spares_trans; [apply (spares_alloc _ _ o L0)|apply spares_update]. }
      destruct (match fst r0 with [] => None | n :: _ => match n with [] => None | _ => reg n end end) as [c|].
      - destruct (c_kind c); try (injection Er as <- _ _ _ <-; split; [exact (KO (blank c))|intros a Q; injection Q as <-; exact L0]).
        injection Er as <- _ _ _ <-. split; [exact G0|intros a Q; discriminate Q].
      - injection Er as <- _ _ _ <-. split; [exact (KO _)|intros a Q; injection Q as <-; exact L0]. }
    binds H. assert (fresh_loc (d_next d) (mkL d1 v0 c0 None None None)) as F0.
    { split; [destruct G1; cbn [l_d]; lia|]. split; [exact A1|]. split; intros ps Q; discriminate Q. }
    destruct (children_spare _ _ _ _ Hk _ _ F0 E0) as [G2 (L2 & A2 & B2 & C2)]. cbn [l_d] in G2.
    assert (spares (d_next d) d (l_d r1)) as G3 by (eapply spares_trans; eassumption).
    destruct (l_val r1) as [v|]; [|discriminate]. destruct v as [|b|p|e|a].
    - destruct (l_str r1); [discriminate|]. injection H as <-. split; [exact G3|intros a Q; discriminate Q].
    - destruct (l_str r1); [discriminate|]. injection H as <-. split; [exact G3|intros a Q; discriminate Q].
    - destruct (l_str r1); [discriminate|]. injection H as <-. split; [exact G3|intros a Q; discriminate Q].
    - binds H. injection H as <-. cbn [fst snd]. split; [|intros a Q; discriminate Q].
      assert (spares (d_next d) (l_d r1) r2) as G4 by (destruct (l_props r1); [eapply dropped_spare; [apply B2; reflexivity|exact L2|exact E1]|injection E1 as <-; apply spares_refl]).
      assert (spares (d_next d) r2 r3) as G5 by (destruct (l_ms r1); [eapply dropped_spare; [apply C2; reflexivity| |exact E2]; destruct G4; lia|injection E2 as <-; apply spares_refl]).
      eapply spares_trans; [exact G3|]. eapply spares_trans; [exact G4|]. eapply spares_trans; [exact G5|]. apply spares_update.
    - specialize (A2 a eq_refl). binds H. injection H as <-. cbn [fst snd]. split; [|intros b Q; injection Q as <-; exact A2].
      match type of E1 with match _ with Some ps => read_props _ _ ?x _ _ | None => _ end = _ => set (d3 := x) in * end.
      assert (spares (d_next d) (l_d r1) d3) as G4.
      { subst d3. assert (forall d0, spares (d_next d) (l_d r1) d0 -> spares (d_next d) (l_d r1) (match original with [] => d0 | _ => modify d0 a (fun o => with_names o original) end)) as Q.
        { intros d0 Q0. destruct original; [exact Q0|]. eapply spares_trans; [exact Q0|]. now apply spares_modify. }
        apply Q. destruct (l_str r1); [now apply spares_modify|apply spares_refl]. }
      assert (spares (d_next d) d d3) as G4' by (eapply spares_trans; eassumption). clearbody d3.
      assert (spares (d_next d) d3 r2) as G5 by (destruct (l_props r1); [eapply props_spare; [exact A2|apply B2; reflexivity| |exact E1]; destruct G4'; lia|injection E1 as <-; apply spares_refl]).
      assert (spares (d_next d) d r2) as G5' by (eapply spares_trans; eassumption).
      assert (spares (d_next d) r2 r3) as G6 by (destruct (l_ms r1); [eapply props_spare; [exact A2|apply C2; reflexivity| |exact E2]; destruct G5'; lia|injection E2 as <-; apply spares_refl]).
      eapply spares_trans; eassumption.
  Qed.
End Go.

Section Hooked.
  Variable hooks : from_hooks.
  Variable reg : registry.
  Hypothesis HS : forall c f, hooks c = Some f -> sparing f.
  Lemma hdeser_unlinked f d x r : x_tag x <> TgObj -> x_tag x <> TgRef -> hdeser hooks reg f d x = Ok r -> snd r = d /\ unlinked (fst r).
  Proof.
    intros T1 T2 H. destruct f as [|f]; [discriminate|]. destruct r as [v d1].
    assert (deserialize reg d x = Ok (v, d1)) as H'.
    { destruct x as [t a s kids]. unfold deserialize. cbn [height]. cbn [x_tag] in *. cbn [hdeser deser x_tag] in *. destruct t; try exact H; contradiction. }
    destruct (flat_read reg d x v d1 T1 H') as [-> _]. pose proof (flat_plain reg d x v d T1 T2 H') as P.
    split; [reflexivity|]. cbn [fst]. destruct v; try exact I. destruct P.
  Qed.
  Theorem hdeser_spares f : forall d x r, straight x -> hdeser hooks reg f d x = Ok r -> spares (d_next d) d (snd r).
  Proof using HS.
    induction f as [|f IH]; intros d x r Hx H; [discriminate|].
    assert ({x_tag x = TgObj} + {x_tag x <> TgObj}) as [T|T] by (destruct (x_tag x); (left; reflexivity) || (right; intros Q; discriminate Q)).
    - cbn [hdeser] in H. rewrite T in H. unfold read_hooked in H. apply bind_Ok in H as (r0 & E & H).
      destruct (object_spare reg (hdeser hooks reg f)) with (d := d) (attrs := x_attrs x) (kids := x_kids x) (r := r0) as [G A].
      + exact IH.
      + intros d0 x0 r1 T1 T2 E1. exact (proj2 (hdeser_unlinked _ _ _ _ T1 T2 E1)).
      + apply Forall_forall. intros y Hy. split; [exact (straight_kid _ _ Hx Hy)|]. exact (Hx x y (PartSelf x) T Hy).
      + exact E.
      + unfold transform in H. destruct (class_read _ _ _ _ _) as [c|]; [|injection H as <-; exact G].
        destruct (fst r0) as [| | | |a] eqn:Ea; try (injection H as <-; exact G). destruct (hooks c) as [h|] eqn:Ec; [|injection H as <-; exact G].
        apply bind_Ok in H as ([v d'] & Ef & H). injection H as <-. cbn [fst snd] in *. destruct (HS c h Ec _ _ _ _ Ef) as [L K].
        eapply spares_trans; [exact G|]. eapply spares_trans; [|apply spares_update]. split; [exact L|]. intros b Hb. specialize (A a eq_refl). apply K; [lia|]. destruct G. lia.
    - assert ({x_tag x = TgRef} + {x_tag x <> TgRef}) as [T2|T2] by (destruct (x_tag x); (left; reflexivity) || (right; intros Q; discriminate Q)).
      + cbn [hdeser] in H. rewrite T2 in H. destruct x as [t a s kids]. cbn [x_tag] in T2. subst t. cbn [deser] in H. destruct (attr_get AtRefId a); [|discriminate].
        destruct (sget _ _); [|discriminate]. injection H as <-. apply spares_refl.
      + destruct (hdeser_unlinked _ _ _ _ T T2 H) as [-> _]. apply spares_refl.
  Qed.
  Theorem hreading_spares xs : Forall straight xs -> forall d vs d', hread_values hooks reg d xs = Ok (vs, d') -> spares (d_next d) d d'.
  Proof using HS.
    induction 1 as [|x xs Hx HF IH]; intros d vs d' H; cbn [hread_values] in H; [injection H as _ <-; apply spares_refl|].
    binds H. destruct r0 as [vs0 d0]. injection H as _ <-. pose proof (hdeser_spares _ _ _ _ Hx E) as G. cbn [snd] in *.
    eapply spares_trans; [exact G|]. eapply spares_le; [|exact (IH _ _ _ E0)]. destruct G. exact H.
  Qed.

  (** ** The recursion bound does not matter *)
  Lemma class_agree go go' g d attrs kids : (forall d x, height x <= g -> go d x = go' d x) -> hmax g kids -> class_read reg go d attrs kids = class_read reg go' d attrs kids.
  Proof.
    intros HA Hk. unfold class_read. cbv zeta. destruct (read_names d kids) as [rn|]; [|reflexivity]. destruct (rehydrate _ _ _ _) as [[[[v0 c0] en] original] d1].
    now rewrite (children_agree go go' g HA _ _ _ Hk).
  Qed.
  Lemma hdeser_fuel f : forall f' d x, height x <= f -> height x <= f' -> hdeser hooks reg f d x = hdeser hooks reg f' d x.
  Proof.
    induction f as [|f IH]; intros f' d [t attrs text kids] H H'; [cbn [height] in H; lia|]. destruct f' as [|f']; [cbn [height] in H'; lia|].
    cbn [hdeser x_tag]. destruct t; try (apply deser_fuel; assumption). cbn [x_attrs x_kids].
    assert (forall d x, height x <= Nat.min f f' -> hdeser hooks reg f d x = hdeser hooks reg f' d x) as HA by (intros; apply IH; lia).
    assert (hmax (Nat.min f f') kids) as Hk.
    { apply height_kids in H. apply height_kids in H'. unfold hmax in *. rewrite Forall_forall in *. intros x Hx. specialize (H x Hx). specialize (H' x Hx). lia. }
    unfold read_hooked. rewrite (object_agree reg _ _ _ HA _ _ _ Hk), (class_agree _ _ _ _ _ _ HA Hk). reflexivity.
  Qed.
  Lemma hdeserialize_fuel f d x : height x <= f -> hdeser hooks reg f d x = hdeserialize hooks reg d x.
  Proof. intros H. apply hdeser_fuel; [exact H|lia]. Qed.

  (** ** Filling *)
  Lemma modify_filling a d f : filling a d (modify d a f).
  Proof.
    split; [apply modify_refs|]. split; [apply modify_tns|]. split; [apply modify_next|]. intros b Hb. unfold modify. destruct (aget a (d_heap d)); [|reflexivity].
    cbn [put d_heap]. rewrite aget_aset. destruct (N.eqb_spec b a); [contradiction|reflexivity].
  Qed.
  Lemma items_nested f a l : Forall straight l -> hmax f l -> forall d d' o b, (a < d_next d)%N -> aget a (d_heap d) = Some o -> list_like (g_body o) [] = Some b ->
    read_items (hdeser hooks reg f) d a l = Ok d' ->
    exists vs b', list_like (g_body o) vs = Some b' /\ aget a (d_heap d') = Some (with_body o b') /\ one_by_one (hdeserialize hooks reg) a d l vs d'.
  Proof using HS.
    intros HF. induction HF as [|x l Hx HF IH]; intros Hh d d' o b La Ho Hb H; cbn [read_items] in H.
    - injection H as <-. exists [], b. split; [exact Hb|]. split; [|constructor].
      rewrite Ho. destruct o as [bo ? ? ? ?]. cbn [g_body] in Hb. destruct bo; try discriminate; injection Hb as <-; cbn; rewrite app_nil_r; reflexivity.
    - inversion Hh as [|? ? Hhx Hhl]; subst. binds H. pose proof (hdeser_spares _ _ _ _ Hx E) as [L K]. destruct r as [v d1]. cbn [fst snd] in *.
      rewrite <- (K a La) in Ho.
      assert (exists o1 b1, aget a (d_heap (modify d1 a (append_item v))) = Some o1 /\ list_like (g_body o1) [] = Some b1
        /\ forall vs, list_like (g_body o1) vs = list_like (g_body o) (v :: vs)
        /\ forall b', with_body o1 b' = with_body o b') as (o1 & b1 & H1 & H3 & H4).
      { rewrite (modify_get _ _ _ _ Ho). destruct o as [bo ? ? ? ?]. cbn [g_body] in Hb. unfold append_item. cbn [g_body].
        destruct bo; try discriminate; do 2 eexists; (split; [reflexivity|]); cbn [with_body g_body list_like];
          (split; [reflexivity|]); intros vs; rewrite <- app_assoc; split; reflexivity. }
      assert (a < d_next (modify d1 a (append_item v)))%N as La1 by (rewrite modify_next; lia).
      destruct (IH Hhl _ _ _ _ La1 H1 H3 H) as (vs & b' & G1 & G2 & G3).
      exists (v :: vs), b'. destruct (H4 vs) as [H5 H6]. rewrite H6 in G2. rewrite <- H5. split; [exact G1|]. split; [exact G2|].
      eapply ObCons; [rewrite hdeserialize_fuel in E by assumption; exact E|apply modify_filling|exact G3].
  Qed.
  Variable put1 : name -> value -> gobj -> gobj.
  Variable proj : gobj -> list (name * value).
  Hypothesis Hproj : forall n v o, proj (put1 n v o) = prop_put n v (proj o).
  Variable rest : gobj -> gobj.
  Hypothesis Hrest : forall n v o, rest (put1 n v o) = rest o.
  Lemma props_nested f a l : Forall straight l -> hmax f l -> forall d d' o, (a < d_next d)%N -> aget a (d_heap d) = Some o -> NoDup (map fst (proj o)) ->
    read_props (hdeser hooks reg f) put1 d a l = Ok d' ->
    exists o' ns vs, aget a (d_heap d') = Some o' /\ rest o' = rest o /\ NoDup (map fst (proj o')) /\ (a < d_next d')%N
      /\ Forall2 (its_name names_prop) l ns /\ one_by_one (hdeserialize hooks reg) a d l vs d' /\ all_given (proj o) (combine ns vs) (proj o').
  Proof using HS Hproj Hrest.
    intros HF. induction HF as [|x l Hx HF IH]; intros Hh d d' o La Ho HN H; cbn [read_props] in H.
    - injection H as <-. exists o, [], []. split; [exact Ho|]. split; [reflexivity|]. split; [exact HN|]. split; [exact La|]. split; [constructor|]. split; constructor.
    - inversion Hh as [|? ? Hhx Hhl]; subst. destruct (attr_get AtN (x_attrs x)) as [s|] eqn:En; [|discriminate]. binds H.
      pose proof (hdeser_spares _ _ _ _ Hx E0) as [L K]. destruct r0 as [v d1]. cbn [fst snd] in *. rewrite <- (K a La) in Ho.
      pose proof (modify_get d1 a (put1 r v) o Ho) as Hm. destruct (prop_put_is r v (proj o) HN) as [P1 P2]. rewrite <- Hproj in P1, P2.
      assert (a < d_next (modify d1 a (put1 r v)))%N as La1 by (rewrite modify_next; lia).
      destruct (IH Hhl _ _ _ La1 Hm P2 H) as (o' & ns & vs & G1 & G2 & G3 & G4 & G5 & G6 & G7).
      exists o', (r :: ns), (v :: vs). split; [exact G1|]. split; [rewrite G2; apply Hrest|]. split; [exact G3|]. split; [exact G4|].
      split; [constructor; [exists s; split; [exact En|exact E]|exact G5]|]. split.
      + eapply ObCons; [rewrite hdeserialize_fuel in E0 by assumption; exact E0|apply modify_filling|exact G6].
      + cbn [combine]. eapply GvCons; [exact P1|exact G7].
  Qed.
End Hooked.

(** ** Elements *)
Lemma begun_update rid tn a d d0 : begun None tn a d d0 -> begun rid tn a d (update_ref d0 rid (VRef a)).
Proof.
  intros [H1 H2 H3 H4 H5 H6]. split.
  - now rewrite update_next.
  - now rewrite update_heap.
  - intros k ->. cbn [update_ref d_refs]. now rewrite sget_sset, name_eqb_refl.
  - intros k Hk. rewrite <- H4 by discriminate. unfold update_ref. destruct rid as [r|]; [|reflexivity]. cbn [d_refs]. rewrite sget_sset.
    destruct (name_eqb k r) eqn:E; [|reflexivity]. apply name_eqb_iff in E. congruence.
  - intros r ns. rewrite update_tns. apply H5.
  - intros r. rewrite update_tns. apply H6.
Qed.
Lemma begun_modify rid tn a d d0 f : begun rid tn a d d0 -> begun rid tn a d (modify d0 a f).
Proof.
  intros [H1 H2 H3 H4 H5 H6]. split; rewrite ?modify_next, ?modify_refs, ?modify_tns; auto.
  intros b Hb. rewrite (proj2 (spares_modify (d_next d) d0 a f (proj1 H1))) by exact Hb. now apply H2.
Qed.
Lemma begun_twice rid tn a d d0 o : begun None tn a d d0 -> begun rid tn (d_next d0) d (update_ref (snd (alloc (update_ref d0 rid (VRef a)) o)) rid (VRef (d_next d0))).
Proof.
  intros H0. pose proof (begun_update rid _ _ _ _ H0) as [H1 H2 H3 H4 H5 H6]. set (e := update_ref d0 rid (VRef a)) in *.
  assert (d_next e = d_next d0) as En by (subst e; apply update_next). clearbody e. split.
  - rewrite update_next. cbn [alloc snd d_next]. lia.
  - intros b Hb. rewrite update_heap. cbn [alloc snd d_heap]. rewrite aget_aset. destruct (N.eqb_spec b (d_next e)); [lia|now apply H2].
  - intros k ->. cbn [update_ref d_refs]. now rewrite sget_sset, name_eqb_refl.
  - intros k Hk. rewrite <- H4 by exact Hk. unfold update_ref. destruct rid as [r|]; [|reflexivity]. cbn [d_refs alloc snd]. rewrite sget_sset.
    destruct (name_eqb k r) eqn:E; [|reflexivity]. apply name_eqb_iff in E. congruence.
  - intros r ns. rewrite update_tns. apply H5.
  - intros r. rewrite update_tns. apply H6.
Qed.
Lemma begun_alloc d o : begun None None (d_next d) d (snd (alloc d o)).
Proof.
  split; cbn [alloc snd d_next d_heap d_refs d_tns]; try reflexivity; try (intros; discriminate); [lia|].
  intros b Hb. rewrite aget_aset. destruct (N.eqb_spec b (d_next d)); [lia|reflexivity].
Qed.
Lemma begun_known r ns d o : begun None (Some (r, ns)) (d_next d) d (snd (alloc (known d r ns) o)).
Proof.
  split; cbn [known alloc snd d_next d_heap d_refs d_tns]; try reflexivity; try (intros; discriminate); [lia| | |].
  - intros b Hb. rewrite aget_aset. destruct (N.eqb_spec b (d_next d)); [lia|reflexivity].
  - intros k m Q. injection Q as -> ->. now rewrite sget_sset, name_eqb_refl.
  - intros k Hk. rewrite sget_sset. destruct (name_eqb k r) eqn:E; [|reflexivity]. apply name_eqb_iff in E. subst k. now elim (Hk ns).
Qed.
Lemma in_height y l : In y l -> height y <= fold_right (fun y n => Nat.max (height y) n) 0 l.
Proof. induction l as [|z l IH]; cbn [In fold_right]; [tauto|]. intros [->|H]; [lia|]. specialize (IH H). lia. Qed.
Section Elements.
  Variable hooks : from_hooks.
  Variable reg : registry.
  Hypothesis HS : forall c f, hooks c = Some f -> sparing f.
  Lemma blank_elem_hooked d a s t b u l v d' : plain_collections hooks -> hdeserialize hooks reg d (Elem TgObj a s [Elem t b u l]) = Ok (v, d') ->
    (exists k, t = TgList k) \/ t = TgQUE ->
    let c := match t with TgList k => cls_list k | _ => cls_queue end in
    let d1 := update_ref (snd (alloc d (mkG BPlain [] None [] []))) (attr_get AtRefId a) (VRef (d_next d)) in
    let d2 := update_ref (snd (alloc d1 (blank c))) (attr_get AtRefId a) (VRef (d_next d1)) in
    exists f, height (Elem t b u l) <= f /\ v = VRef (d_next d1) /\ read_items (hdeser hooks reg f) d2 (d_next d1) l = Ok d'.
  Proof.
    intros (P1 & P2 & P3). unfold hdeserialize. cbn [height]. set (f := fold_right _ 0 _). intros H Ht.
    assert (height (Elem t b u l) <= f) as Hh by (subst f; cbn [fold_right]; apply Nat.le_max_l). clearbody f.
    cbn [hdeser x_tag x_attrs x_kids] in H. cbv zeta. exists f. split; [exact Hh|].
    unfold read_hooked, class_read, read_object, read_names, tn_texts in H. cbv zeta in H.
    destruct Ht as [(k & ->)| ->]; cbn [flat_map filter is_tn x_tag map find_tag is_tnref bind fst snd rehydrate] in H;
      unfold rehydrate, alloc in H; cbv zeta in H; cbn [map] in H; cbn [read_children] in H; unfold read_child in H;
      cbn [x_tag x_kids l_val l_cls l_d l_props l_ms l_str] in H; unfold alloc in H; cbv zeta in H; unfold alloc; cbn [snd];
      rewrite !update_next in *; cbn [d_next] in *;
      match type of H with context [bind ?x _] => match x with read_items _ _ _ _ => destruct x as [d3|e] eqn:E; [|discriminate] end end;
      cbn [bind l_val l_str l_d l_props l_ms l_cls] in H; unfold transform in H; cbn [fst snd] in H; rewrite ?P2, ?P3 in H; injection H as <- <-; (split; reflexivity).
  Qed.
  Theorem list_nested d a s k b u l v d' : plain_collections hooks -> hdeserialize hooks reg d (Elem TgObj a s [Elem (TgList k) b u l]) = Ok (v, d') -> Forall straight l ->
    exists ad d0 vs, v = VRef ad /\ begun (attr_get AtRefId a) None ad d d0 /\ one_by_one (hdeserialize hooks reg) ad d0 l vs d'
      /\ aget ad (d_heap d') = Some (mkG (BList k vs) (list_names k) None [] []).
  Proof using HS.
    intros HP H HF. destruct (blank_elem_hooked _ _ _ _ _ _ _ _ _ HP H (or_introl (ex_intro _ k eq_refl))) as (f & Hh & -> & E). clear H. cbv zeta in *.
    match type of E with read_items _ ?dd ?aa _ = _ => set (d2 := dd) in *; set (ad := aa) in * end.
    assert (begun (attr_get AtRefId a) None ad d d2) as HB.
    { subst d2 ad. rewrite update_next. apply (begun_twice _ None (d_next d) d (snd (alloc d (mkG BPlain [] None [] []))) (blank (cls_list k))). apply begun_alloc. }
    assert (aget ad (d_heap d2) = Some (blank (cls_list k))) as Ho.
    { subst d2 ad. rewrite update_heap. cbn [alloc snd d_heap]. rewrite aget_aset, N.eqb_refl. reflexivity. }
    destruct (items_nested hooks reg HS f ad l HF (inner_hmax _ _ _ _ _ Hh) d2 d' _ _ (proj2 (be_next _ _ _ _ _ HB)) Ho eq_refl E) as (vs & b' & G1 & G2 & G3).
    cbn in G1. injection G1 as <-. exists ad, d2, vs. split; [reflexivity|]. split; [exact HB|]. split; [exact G3|].
    rewrite G2. unfold with_body, blank. destruct k; reflexivity.
  Qed.
  Theorem queue_nested d a s b u l v d' : plain_collections hooks -> hdeserialize hooks reg d (Elem TgObj a s [Elem TgQUE b u l]) = Ok (v, d') -> Forall straight l ->
    exists ad d0 vs, v = VRef ad /\ begun (attr_get AtRefId a) None ad d d0 /\ one_by_one (hdeserialize hooks reg) ad d0 l vs d'
      /\ aget ad (d_heap d') = Some (mkG (BQueue vs) queue_names None [] []).
  Proof using HS.
    intros HP H HF. destruct (blank_elem_hooked _ _ _ _ _ _ _ _ _ HP H (or_intror eq_refl)) as (f & Hh & -> & E). clear H. cbv zeta in *.
    match type of E with read_items _ ?dd ?aa _ = _ => set (d2 := dd) in *; set (ad := aa) in * end.
    assert (begun (attr_get AtRefId a) None ad d d2) as HB.
    { subst d2 ad. rewrite update_next. apply (begun_twice _ None (d_next d) d (snd (alloc d (mkG BPlain [] None [] []))) (blank cls_queue)). apply begun_alloc. }
    assert (aget ad (d_heap d2) = Some (blank cls_queue)) as Ho.
    { subst d2 ad. rewrite update_heap. cbn [alloc snd d_heap]. rewrite aget_aset, N.eqb_refl. reflexivity. }
    destruct (items_nested hooks reg HS f ad l HF (inner_hmax _ _ _ _ _ Hh) d2 d' _ _ (proj2 (be_next _ _ _ _ _ HB)) Ho eq_refl E) as (vs & b' & G1 & G2 & G3).
    cbn in G1. injection G1 as <-. exists ad, d2, vs. split; [reflexivity|]. split; [exact HB|]. split; [exact G3|]. rewrite G2. reflexivity.
  Qed.
  (** Objects with properties: the names, the class, the declared properties. *)
  Theorem object_nested d a s r u0 ts ns kids3 text b1 u1 ps b2 u2 ms v d' :
    hdeserialize hooks reg d (Elem TgObj a s (Elem TgTN [(AtRefId, r)] u0 ts :: kids3 ++ [Elem TgProps b1 u1 ps; Elem TgMS b2 u2 ms])) = Ok (v, d') ->
    type_texts ts ns -> ns <> [] -> says names_prop kids3 text ->
    (forall c, registered reg ns = Some c -> c_kind c = CPlain /\ c_names c <> [] /\ NoDup (c_adapted c) /\ NoDup (c_extended c)) ->
    Forall straight ps -> Forall straight ms ->
    exists ad d0 d1 d2 ns1 vs1 ns2 vs2 es1 es2, begun (attr_get AtRefId a) (Some (r, ns)) ad d d0
      /\ Forall2 (its_name names_prop) ps ns1 /\ one_by_one (hdeserialize hooks reg) ad d0 ps vs1 d1 /\ all_given (declared reg c_adapted ns) (combine ns1 vs1) es1
      /\ Forall2 (its_name names_prop) ms ns2 /\ one_by_one (hdeserialize hooks reg) ad d1 ms vs2 d2 /\ all_given (declared reg c_extended ns) (combine ns2 vs2) es2
      /\ aget ad (d_heap d2) = Some (mkG BPlain (names_read reg ns) text es1 es2)
      /\ match registered reg ns with
         | Some c => match hooks c with
                     | Some f => exists d3, f d2 ad = Ok (v, d3) /\ d' = update_ref d3 (attr_get AtRefId a) v
                     | None => v = VRef ad /\ d' = d2
                     end
         | None => v = VRef ad /\ d' = d2
         end.
  Proof using HS.
    intros H Hts Hns Hsay Hreg Hps Hms. apply type_texts_are in Hts. unfold hdeserialize in H. cbn [height] in H.
    match type of H with hdeser _ _ (S ?g) _ _ = _ => set (m := g) in * end.
    assert (forall y, In y (Elem TgTN [(AtRefId, r)] u0 ts :: kids3 ++ [Elem TgProps b1 u1 ps; Elem TgMS b2 u2 ms]) -> height y <= m) as Hall.
    { intros y Hy. subst m. now apply in_height. }
    assert (hmax m ps /\ hmax m ms) as [Hp Hm].
    { split; [apply (inner_hmax TgProps b1 u1)|apply (inner_hmax TgMS b2 u2)]; apply Hall; right; apply in_or_app; right; cbn [In]; tauto. }
    clear Hall. clearbody m. cbn [hdeser x_tag x_attrs x_kids] in H. unfold read_hooked, class_read, read_object in H. cbv zeta in H.
    assert (read_names d (Elem TgTN [(AtRefId, r)] u0 ts :: kids3 ++ [Elem TgProps b1 u1 ps; Elem TgMS b2 u2 ms]) = Ok (ns, known d r ns)) as En.
    { unfold read_names, tn_texts. cbn [filter is_tn x_tag]. destruct Hsay; cbn [app filter is_tn x_tag flat_map x_kids find_tag x_attrs attr_get attr_eqb]; rewrite Hts, app_nil_r; (destruct ns; [now elim Hns|reflexivity]). }
    rewrite En in H. cbn [bind fst snd] in H. clear En.
    set (rid := attr_get AtRefId a) in *.
    assert (exists o c0 d00, rehydrate reg (known d r ns) ns rid = (Some (VRef (d_next d)), c0, None, names_read reg ns, d00) /\ begun rid (Some (r, ns)) (d_next d) d d00
      /\ aget (d_next d) (d_heap d00) = Some o /\ o = mkG BPlain (names_read reg ns) None (declared reg c_adapted ns) (declared reg c_extended ns) /\ c0 = registered reg ns) as (o & c0 & d00 & Er & HB & Ho & Eo & Ec).
    { unfold rehydrate, names_read, declared. cbv zeta. replace (match ns with [] => None | n :: _ => match n with [] => None | _ => reg n end end) with (registered reg ns) by (destruct ns as [|[|] ?]; reflexivity).
      destruct (registered reg ns) as [c|] eqn:Ereg.
      - destruct (Hreg c eq_refl) as (K1 & _). rewrite K1. unfold alloc. cbn [known d_next]. do 3 eexists. split; [reflexivity|].
        split; [apply begun_update; exact (begun_known r ns d (blank c))|]. split; [rewrite update_heap; cbn [d_heap known]; rewrite aget_aset, N.eqb_refl; reflexivity|].
        split; [unfold blank; rewrite K1; reflexivity|reflexivity].
      - unfold alloc. cbn [known d_next]. do 3 eexists. split; [reflexivity|].
        split; [apply begun_update; exact (begun_known r ns d (mkG BPlain (map deserialized ns) None [] []))|].
        split; [rewrite update_heap; cbn [d_heap known]; rewrite aget_aset, N.eqb_refl; reflexivity|]. split; reflexivity. }
    rewrite Er in H. clear Er.
    assert (read_children (hdeser hooks reg m) rid None (mkL d00 (Some (VRef (d_next d))) c0 None None None) (Elem TgTN [(AtRefId, r)] u0 ts :: kids3 ++ [Elem TgProps b1 u1 ps; Elem TgMS b2 u2 ms])
      = Ok (mkL d00 (Some (VRef (d_next d))) c0 (Some ps) (Some ms) text)) as Ech.
    { destruct Hsay as [|b s0 k t Ht]; cbn [app read_children]; unfold read_child; cbn [x_tag x_kids x_text bind l_d l_val l_cls l_props l_ms l_str]; [reflexivity|].
      unfold names_prop in Ht. rewrite Ht. reflexivity. }
    rewrite Ech in H. cbn [bind l_d l_val l_cls l_props l_ms l_str] in H. clear Ech.
    assert (names_read reg ns <> []) as Hfn.
    { unfold names_read. destruct (registered reg ns) as [c|] eqn:Ereg; [apply (Hreg c eq_refl)|]. destruct ns; [now elim Hns|discriminate]. }
    match type of H with context [read_props _ add_adapted ?x _ _] => set (d0 := x) in * end.
    assert (begun rid (Some (r, ns)) (d_next d) d d0 /\ aget (d_next d) (d_heap d0) = Some (mkG BPlain (names_read reg ns) text (declared reg c_adapted ns) (declared reg c_extended ns))) as [HB0 Ho0].
    { subst d0. assert (begun rid (Some (r, ns)) (d_next d) d (match text with Some s => modify d00 (d_next d) (fun o => with_string o s) | None => d00 end)
        /\ aget (d_next d) (d_heap (match text with Some s => modify d00 (d_next d) (fun o => with_string o s) | None => d00 end)) = Some (mkG BPlain (names_read reg ns) text (declared reg c_adapted ns) (declared reg c_extended ns))) as [K1 K2].
      { destruct text as [t|]; [|split; [exact HB|now rewrite Ho, Eo]]. split; [now apply begun_modify|]. rewrite (modify_get _ _ (fun o => with_string o t) _ Ho), Eo. reflexivity. }
      destruct (names_read reg ns) as [|n0 nr] eqn:Ef; [now elim Hfn|]. split; [now apply begun_modify|]. rewrite (modify_get _ _ (fun o => with_names o (n0 :: nr)) _ K2). reflexivity. }
    clearbody d0. clear HB Ho Eo d00 o.
    assert (NoDup (map fst (declared reg c_adapted ns)) /\ NoDup (map fst (declared reg c_extended ns))) as [Na Ne].
    { unfold declared. destruct (registered reg ns) as [c|] eqn:Ereg; [|split; constructor]. destruct (Hreg c eq_refl) as (_ & _ & K1 & K2). rewrite !map_map. cbn [fst]. now rewrite !map_id. }
    apply bind_Ok in H as (r0 & HO & H). binds HO. injection HO as <-.
    destruct (props_nested hooks reg HS add_adapted g_adapted ltac:(reflexivity) (fun o => mkG (g_body o) (g_names o) (g_string o) [] (g_extended o)) ltac:(reflexivity)
      m _ ps Hps Hp _ _ _ (proj2 (be_next _ _ _ _ _ HB0)) Ho0 Na E) as (o1 & ns1 & vs1 & A1 & A2 & A3 & A4 & A5 & A6 & A7).
    destruct o1 as [ob on os oa oe]. injection A2 as -> -> -> ->.
    destruct (props_nested hooks reg HS add_extended g_extended ltac:(reflexivity) (fun o => mkG (g_body o) (g_names o) (g_string o) (g_adapted o) []) ltac:(reflexivity)
      m _ ms Hms Hm _ _ _ A4 A1 Ne E0) as (o2 & ns2 & vs2 & B1 & B2 & B3 & B4 & B5 & B6 & B7).
    destruct o2 as [ob on os oa' oe]. injection B2 as -> -> -> ->. cbn [g_adapted g_extended] in *.
    exists (d_next d), d0. do 8 eexists. split; [exact HB0|]. split; [exact A5|]. split; [exact A6|]. split; [exact A7|]. split; [exact B5|]. split; [exact B6|]. split; [exact B7|].
    split; [exact B1|]. unfold transform in H. cbn [fst snd] in H. rewrite Ec in H. destruct (registered reg ns) as [c|]; [|injection H as <- <-; split; reflexivity].
    destruct (hooks c) as [f|]; [|injection H as <- <-; split; reflexivity]. apply bind_Ok in H as ([v1 d3] & Ef & H). injection H as <- <-. cbn [fst snd].
    exists d3. split; [exact Ef|reflexivity].
  Qed.
End Elements.

(** ** Tables *)
Section Tables.
  Variable hooks : from_hooks.
  Variable reg : registry.
  Hypothesis HS : forall c f, hooks c = Some f -> sparing f.
  Lemma loose_read f d x v d1 : x_tag x <> TgObj -> x_tag x <> TgRef -> hdeser hooks reg f d x = Ok (v, d1) ->
    d1 = d /\ plain_value v /\ forall d2, hdeserialize hooks reg d2 x = Ok (v, d2).
  Proof.
    intros T1 T2 H. destruct f as [|f]; [discriminate|].
    assert (deserialize reg d x = Ok (v, d1)) as H'.
    { destruct x as [t a s kids]. unfold deserialize. cbn [height]. cbn [x_tag] in *. cbn [hdeser deser x_tag] in *. destruct t; try exact H; contradiction. }
    destruct (flat_read reg d x v d1 T1 H') as [-> _]. split; [reflexivity|]. split; [exact (flat_plain reg d x v d T1 T2 H')|].
    intros d2. destruct x as [t a s kids]. unfold hdeserialize. cbn [height hdeser x_tag] in *. unfold deserialize in H'. cbn [height deser] in *.
    assert (forall r : option (result prim), match r with Some r => let! p := r in Ok (VPrim p, d) | None => Err ValueError end = Ok (v, d) ->
      match r with Some r => let! p := r in Ok (VPrim p, d2) | None => Err ValueError end = Ok (v, d2)) as Hp.
    { intros [[p|e]|]; cbn [bind]; try discriminate. intros E. injection E as <-. auto. }
    clear H. destruct t; try contradiction; try (apply Hp; exact H'); try (injection H' as <-; reflexivity).
    destruct (deserialize_string s); cbn [bind] in *; [|discriminate]. injection H' as <-. reflexivity.
  Qed.
  Lemma entries_nested f a l : Forall (fun x => straight x /\ loose_key x) l -> Forall (fun x => hmax f (x_kids x)) l -> forall d d' o e, (a < d_next d)%N ->
    aget a (d_heap d) = Some o -> g_body o = BDict e -> Forall (fun x => plain_value (fst x) /\ exists hx, hash [] (fst x) = Some hx) e ->
    read_entries (hdeser hooks reg f) d a l = Ok d' ->
    exists xk xv ks vs e', aget a (d_heap d') = Some (with_body o (BDict e')) /\ Forall2 its_key l xk /\ Forall2 its_value l xv
      /\ Forall2 (fun x k => forall d, hdeserialize hooks reg d x = Ok (k, d)) xk ks /\ one_by_one (hdeserialize hooks reg) a d xv vs d' /\ all_entered e (combine ks vs) e'.
  Proof using HS.
    intros HF. induction HF as [|x l [Hx Hk] HF IH]; intros Hh d d' o e La Ho Hb He H; cbn [read_entries] in H.
    - injection H as <-. exists [], [], [], [], e. split; [rewrite Ho; destruct o; cbn in Hb; subst; reflexivity|]. split; [constructor|]. split; [constructor|]. split; [constructor|]. split; constructor.
    - inversion Hh as [|? ? Hhx Hhl]; subst.
      destruct (find_n (tx "Key") (x_kids x)) as [xk|] eqn:Ek; [|discriminate]. destruct (find_n (tx "Value") (x_kids x)) as [xv|] eqn:Ev; [|discriminate].
      pose proof (find_n_in _ _ _ Ek) as Ik. pose proof (find_n_in _ _ _ Ev) as Iv. apply find_n_first in Ek. apply find_n_first in Ev.
      unfold hmax in Hhx. rewrite Forall_forall in Hhx. binds H. destruct (Hk xk Ek) as [T1 T2].
      pose proof (hdeser_spares hooks reg HS _ _ _ _ (straight_kid _ _ Hx Iv) E) as [L K]. destruct r as [v d1]. cbn [fst snd] in *. rewrite <- (K a La) in Ho.
      destruct r0 as [k d2]. cbn [fst snd] in *. destruct (loose_read _ _ _ _ _ T1 T2 E0) as (-> & Pk & Rk).
      destruct (hash (d_heap d1) k) as [hk|] eqn:Hhk; [|discriminate]. cbv zeta in H.
      match type of H with read_entries _ (modify _ _ ?g) _ _ = _ => pose proof (modify_get d1 a g o Ho) as Hm; set (g0 := g) in * end. unfold g0 in Hm at 2. rewrite Hb in Hm.
      assert (forall x0, In x0 (dict_put (d_heap d1) hk k v e) -> plain_value (fst x0) /\ exists hx, hash [] (fst x0) = Some hx) as He1.
      { intros y Hy. apply put_keys in Hy. destruct Hy as [->|(z & Hz & ->)].
        - split; [exact Pk|]. exists hk. rewrite <- Hhk. now apply plain_hash.
        - rewrite Forall_forall in He. now apply He. }
      assert (a < d_next (modify d1 a g0))%N as La1 by (rewrite modify_next; lia).
      destruct (IH Hhl _ _ _ _ La1 Hm eq_refl (proj2 (Forall_forall _ _) He1) H) as (xks & xvs & ks & vs & e' & G1 & G2 & G3 & G4 & G5 & G6).
      exists (xk :: xks), (xv :: xvs), (k :: ks), (v :: vs), e'. split; [rewrite G1; reflexivity|]. split; [now constructor|]. split; [now constructor|]. split; [now constructor|]. split.
      + eapply ObCons; [rewrite hdeserialize_fuel in E by (now apply Hhx); exact E|apply modify_filling|exact G5].
      + cbn [combine]. eapply EnCons; [|exact G6]. apply put_is; [exact Pk|exact Hhk|]. eapply Forall_impl; [|exact He]. cbv beta. intros y [Py [hy Hy]]. split; [exact Py|]. exists hy.
        rewrite <- Hy. now apply plain_hash.
  Qed.
  Theorem table_nested d a s b u l v d' : plain_collections hooks -> hdeserialize hooks reg d (Elem TgObj a s [Elem TgDCT b u l]) = Ok (v, d') ->
    Forall (fun x => straight x /\ loose_key x) l ->
    exists ad d0 xk xv ks vs e, v = VRef ad /\ begun (attr_get AtRefId a) None ad d d0 /\ Forall2 its_key l xk /\ Forall2 its_value l xv
      /\ Forall2 (fun x k => forall d, hdeserialize hooks reg d x = Ok (k, d)) xk ks /\ one_by_one (hdeserialize hooks reg) ad d0 xv vs d' /\ all_entered [] (combine ks vs) e
      /\ aget ad (d_heap d') = Some (mkG (BDict e) table_names None [] []).
  Proof using HS.
    intros (P1 & P2 & P3) H HF. unfold hdeserialize in H. cbn [height] in H. set (f := fold_right _ 0 _) in *.
    assert (height (Elem TgDCT b u l) <= f) as Hh by (subst f; cbn [fold_right]; apply Nat.le_max_l). clearbody f.
    cbn [hdeser x_tag x_attrs x_kids] in H. unfold read_hooked, class_read, read_object, read_names, tn_texts in H. cbv zeta in H.
    cbn [flat_map filter is_tn x_tag map find_tag is_tnref bind fst snd rehydrate] in H;
      unfold rehydrate, alloc in H; cbv zeta in H; cbn [map] in H; cbn [read_children] in H; unfold read_child in H;
      cbn [x_tag x_kids l_val l_cls l_d l_props l_ms l_str] in H; unfold alloc in H; cbv zeta in H; rewrite !update_next in *; cbn [d_next] in *.
    match type of H with context [bind ?x _] => match x with read_entries _ ?dd ?aa _ => destruct x as [d3|e] eqn:E; [|discriminate]; set (d2 := dd) in *; set (ad := aa) in * end end.
    cbn [bind l_val l_str l_d l_props l_ms l_cls] in H. unfold transform in H. cbn [fst snd] in H. rewrite P1 in H. injection H as <- <-.
    assert (begun (attr_get AtRefId a) None ad d d2) as HB.
    { subst d2 ad. pose proof (begun_twice (attr_get AtRefId a) None (d_next d) d (snd (alloc d (mkG BPlain [] None [] []))) (blank cls_dict) (begun_alloc _ _)) as Q.
      unfold alloc in Q. cbn [snd d_next d_heap d_refs d_tns] in Q. rewrite !update_next in Q. cbn [d_next] in Q. exact Q. }
    assert (aget ad (d_heap d2) = Some (blank cls_dict)) as Ho.
    { subst d2 ad. rewrite update_heap. cbn [d_heap]. rewrite aget_aset, N.eqb_refl. reflexivity. }
    assert (Forall (fun x => hmax f (x_kids x)) l) as Hl.
    { eapply Forall_impl; [|exact (inner_hmax _ _ _ _ _ Hh)]. intros y Hy. destruct y. eapply inner_hmax. exact Hy. }
    destruct (entries_nested f ad l HF Hl _ _ _ [] (proj2 (be_next _ _ _ _ _ HB)) Ho eq_refl (Forall_nil _) E) as (xk & xv & ks & vs & e' & G1 & G2 & G3 & G4 & G5 & G6).
    exists ad, d2, xk, xv, ks, vs, e'. split; [reflexivity|]. split; [exact HB|]. split; [exact G2|]. split; [exact G3|]. split; [exact G4|]. split; [exact G5|]. split; [exact G6|].
    rewrite G1. reflexivity.
  Qed.
End Tables.
