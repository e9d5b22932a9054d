(** Every plain value that can be sent can be put into an object graph the serializer accepts (C65). *)
From Coq Require Import String Ascii.
From Verif Require Import Base BaseFacts Model_Scalars Model_Object Model_Clixml Model_Host Spec_Strings Spec_Scalars Spec_Clixml Spec_Xml
  Spec_Messages Spec_HostWire Proofs_HostWire.
Local Open Scope list_scope.

Lemma aget_app {V} a (h k : list (N * V)) : aget a (h ++ k) = match aget a h with Some o => Some o | None => aget a k end.
Proof. induction h as [|[b o] h IH]; cbn; [reflexivity|]. destruct (a =? b)%N; [reflexivity|exact IH]. Qed.
Lemma fold_Forall {A} (P : A -> Prop) l : fold_right (fun y Q => P y /\ Q) True l <-> Forall P l.
Proof. induction l as [|y l IH]; cbn; [split; [constructor|auto]|]. split; [intros [? ?]; constructor; tauto|intros H; inversion H; tauto]. Qed.

Section Build.
  Variable reg : registry.
  Variable lx : lexicon.
  Hypothesis US : usual reg lx.
  (** Objects between [n] and [n'], each referring to earlier ones only. *)
  Definition built (n n' : N) (h : heap) : Prop :=
    (n <= n')%N /\ forall a o, aget a h = Some o ->
      (n <= a < n')%N /\ good_object reg lx o /\ safe_object o /\ (forall p, g_body o <> BPrim p)
      /\ forall b, mentions o (VRef b) -> (b < a)%N /\ exists o', aget b h = Some o'.
  Definition fine (h : heap) (v : value) : Prop := good_value reg lx v /\ safe_value v /\ here h v.
  Definition grows (h h' : heap) : Prop := forall a o, aget a h = Some o -> aget a h' = Some o.

  Lemma fine_more h h' v : grows h h' -> fine h v -> fine h' v.
  Proof. intros G (A & B & C). split; [exact A|]. split; [exact B|]. intros a E. destruct (C a E) as [o Ho]. exists o. auto. Qed.
  Lemma all_more h h' l vs : grows h h' -> Forall2 (looks h) l vs -> Forall2 (looks h') l vs.
  Proof. intros G. induction 1; constructor; auto. now apply (looks_more h). Qed.
  Lemma props_more h h' l vs : grows h h' -> Forall2 (looks_prop h) l vs -> Forall2 (looks_prop h') l vs.
  Proof. intros G. induction 1 as [|p q ? ? [H1 H2]]; constructor; auto. split; [exact H1|]. now apply (looks_more h). Qed.
  Lemma entries_more h h' l vs : grows h h' -> Forall2 (looks_entry h) l vs -> Forall2 (looks_entry h') l vs.
  Proof. intros G. induction 1 as [|p q ? ? [H1 H2]]; constructor; auto. split; [exact H1|]. now apply (looks_more h). Qed.
  Lemma built_app n1 n2 n3 h k : built n1 n2 h -> built n2 n3 k -> built n1 n3 (h ++ k) /\ grows h (h ++ k) /\ grows k (h ++ k).
  Proof.
    intros [L A] [L' B].
    assert (grows h (h ++ k)) as G by (intros a o E; rewrite aget_app, E; reflexivity).
    assert (grows k (h ++ k)) as G'.
    { intros a o E. rewrite aget_app. destruct (aget a h) as [o1|] eqn:E1; [|exact E].
      destruct (A _ _ E1) as [? _], (B _ _ E) as [? _]. lia. }
    split; [|auto]. split; [lia|]. intros a o E. rewrite aget_app in E. destruct (aget a h) as [o1|] eqn:E1.
    - injection E as <-. destruct (A _ _ E1) as (X & Y & Z & W & M). split; [lia|]. do 3 (split; [assumption|]).
      intros b Hb. destruct (M b Hb) as [? [o' Ho]]. split; [assumption|]. exists o'. auto.
    - destruct (B _ _ E) as (X & Y & Z & W & M). split; [lia|]. do 3 (split; [assumption|]).
      intros b Hb. destruct (M b Hb) as [? [o' Ho]]. split; [assumption|]. exists o'. auto.
  Qed.
  (** One more object, about values that are there. *)
  Lemma built_new n n' h o : built n n' h -> good_object reg lx o -> safe_object o -> (forall p, g_body o <> BPrim p) ->
    (forall v, mentions o v -> here h v) ->
    built n (n' + 1) (h ++ [(n', o)]) /\ grows h (h ++ [(n', o)]) /\ aget n' (h ++ [(n', o)]) = Some o /\ fine (h ++ [(n', o)]) (VRef n').
  Proof.
    intros [L A] Go So No M.
    assert (grows h (h ++ [(n', o)])) as G by (intros a o' E; rewrite aget_app, E; reflexivity).
    assert (aget n' (h ++ [(n', o)]) = Some o) as K.
    { rewrite aget_app. destruct (aget n' h) as [o1|] eqn:E1; [destruct (A _ _ E1) as [? _]; lia|]. cbn. now rewrite N.eqb_refl. }
    split; [|split; [exact G|split; [exact K|]]].
    - split; [lia|]. intros a o' E. rewrite aget_app in E. destruct (aget a h) as [o1|] eqn:E1.
      + injection E as <-. destruct (A _ _ E1) as (X & Y & Z & W & Mo). split; [lia|]. do 3 (split; [assumption|]).
        intros b Hb. destruct (Mo b Hb) as [? [o' Ho]]. split; [assumption|]. exists o'. auto.
      + cbn in E. destruct (N.eqb_spec a n') as [-> |]; [|discriminate]. injection E as <-. split; [lia|]. do 3 (split; [assumption|]).
        intros b Hb. destruct (M _ Hb b eq_refl) as [o' Ho]. destruct (A _ _ Ho) as [? _]. split; [lia|]. exists o'. auto.
    - split; [exact I|]. split; [exact I|]. intros a E. injection E as <-. now exists o.
  Qed.

  Definition can (x : hv) : Prop := sendable x -> forall n, exists n' h v, built n n' h /\ fine h v /\ looks h x v.
  Lemma build_nil n : built n n [].
  Proof. split; [lia|]. intros a o E. discriminate. Qed.
  Lemma build_all l : Forall can l -> Forall sendable l -> forall n, exists n' h vs, built n n' h /\ Forall (fine h) vs /\ Forall2 (looks h) l vs.
  Proof using US.
    induction l as [|x l IH]; intros C S n.
    - exists n, [], []. split; [apply build_nil|]. split; constructor.
    - inversion C as [|? ? C1 C2]; inversion S as [|? ? S1 S2]; subst. destruct (C1 S1 n) as (n1 & h1 & v & B1 & F1 & L1).
      destruct (IH C2 S2 n1) as (n2 & h2 & vs & B2 & F2 & L2). destruct (built_app _ _ _ _ _ B1 B2) as (B & G1 & G2).
      exists n2, (h1 ++ h2), (v :: vs). split; [exact B|]. split.
      + constructor; [now apply (fine_more h1)|]. eapply Forall_impl; [|exact F2]. intros w. now apply fine_more.
      + constructor; [now apply (looks_more h1)|]. clear - G2 L2. induction L2; constructor; auto. now apply (looks_more h2).
  Qed.
  Lemma text_lit s : forallb (fun c => (32 <=? c) && (c <? 127))%N s = true -> text_ok s.
  Proof.
    rewrite forallb_forall. intros H. apply Forall_forall. intros c Hc. specialize (H c Hc). apply andb_true_iff in H. destruct H as [A B].
    apply N.leb_le in A. apply N.ltb_lt in B. unfold valid_char. split; lia.
  Qed.
  Lemma build_list l : Forall can l -> can (HList l).
  Proof using US.
    intros C S n. cbn [sendable] in S. rewrite fold_Forall in S. destruct (build_all l C S n) as (n1 & h & vs & B & F & L).
    set (o := mkG (BList LList vs) list_names None [] []).
    assert (good_object reg lx o) as Go.
    { split; [cbn; eapply Forall_impl; [|exact F]; intros w H; apply H|]. cbn [g_body o]. split; [|split; [split; constructor|split; [split; constructor|intros _; constructor]]].
      destruct (us_list reg lx US) as [A Q]. split; [exact A|]. intros c Hc. apply Q in Hc. subst c. split; [reflexivity|]. split; [reflexivity|].
      split; exists []; reflexivity. }
    assert (forall v, mentions o v -> In v vs) as M.
    { intros v H. inversion H; subst; cbn in *; try contradiction; try discriminate. match goal with E : BList _ _ = BList _ _ |- _ => injection E as <- <- end. assumption. }
    assert (safe_object o) as So.
    { split; [repeat (constructor; [apply text_lit; reflexivity|]); constructor|]. split; [exact I|]. split; [constructor|]. split; [discriminate|]. split; [discriminate|].
      intros v Hv. apply M in Hv. rewrite Forall_forall in F. destruct (F v Hv) as (_ & ? & _). assumption. }
    destruct (built_new n n1 h o B Go So) as (B' & G & K & V); [discriminate|intros v Hv; apply M in Hv; rewrite Forall_forall in F; destruct (F v Hv) as (_ & _ & ?); assumption|].
    exists (n1 + 1)%N, (h ++ [(n1, o)]), (VRef n1). split; [exact B'|]. split; [exact V|]. rewrite looks_list.
    exists n1, o, LList, vs. split; [reflexivity|]. split; [exact K|]. split; [reflexivity|].
    now apply (all_more h).
  Qed.
  Lemma Forall_snd {A B} (P : B -> Prop) (l : list (A * B)) : Forall (fun p => P (snd p)) l -> Forall P (map snd l).
  Proof. induction 1; constructor; auto. Qed.
  Lemma build_obj l : Forall (fun p => can (snd p)) l -> can (HObj l).
  Proof using US.
    intros C S n. cbn [sendable] in S. destruct S as [ND S]. rewrite fold_Forall in S. apply Forall_snd in C.
    assert (Forall sendable (map snd l)) as S2 by (apply Forall_snd; eapply Forall_impl; [|exact S]; intros p H; apply H).
    destruct (build_all (map snd l) C S2 n) as (n1 & h & vs & B & F & L).
    set (ps := combine (map (fun p => tx (fst p)) l) vs).
    assert (Forall2 (looks_prop h) l ps) as LP.
    { subst ps. clear - L. revert vs L. induction l as [|[k x] l IH]; intros vs L; inversion L; subst; [constructor|]. cbn. constructor; [now split|auto]. }
    assert (map fst ps = map (fun p => tx (fst p)) l) as EN.
    { subst ps. clear - L. revert vs L. induction l as [|[k x] l IH]; intros vs L; inversion L; subst; [reflexivity|]. cbn. f_equal. auto. }
    assert (forall q, In q ps -> fine h (snd q)) as FP.
    { intros [k v] H. apply in_combine_r in H. rewrite Forall_forall in F. now apply F. }
    assert (forall q, In q ps -> good_str (fst q) /\ safe_str (fst q)) as SP.
    { intros [k v] H. apply in_combine_l in H. apply in_map_iff in H. destruct H as (p & <- & H). rewrite Forall_forall in S. destruct (S p H) as (? & ? & _). now split. }
    set (o := mkG BPlain [] None [] ps).
    assert (good_object reg lx o) as Go.
    { split; [exact I|]. cbn [g_body o]. split; [split; [now left|discriminate]|]. split; [split; constructor|]. split; [|intros []].
      split.
      - change (NoDup (map fst ps)). rewrite EN. clear - ND. induction l as [|[k x] l IH]; [constructor|]. inversion ND as [|? ? A1 A2]; subst. cbn. constructor; [|auto].
        intros H. apply A1. apply in_map_iff in H. destruct H as ([k' x'] & H & I). cbn in H. apply tx_inj in H. subst k'. apply in_map_iff. now exists (k, x').
      - apply Forall_forall. intros q H. split; [apply SP, H|apply FP, H]. }
    assert (forall v, mentions o v -> exists k, In (k, v) ps) as M.
    { intros v H. inversion H; subst; cbn in *; try contradiction; try discriminate. eauto. }
    assert (safe_object o) as So.
    { split; [constructor|]. split; [exact I|]. split; [cbn; apply Forall_forall; intros q H; apply SP, H|]. split; [discriminate|]. split; [discriminate|].
      intros v Hv. apply M in Hv. destruct Hv as [k Hv]. apply FP in Hv. apply Hv. }
    destruct (built_new n n1 h o B Go So) as (B' & G & K & V); [discriminate|intros v Hv; apply M in Hv; destruct Hv as [k Hv]; apply FP in Hv; apply Hv|].
    exists (n1 + 1)%N, (h ++ [(n1, o)]), (VRef n1). split; [exact B'|]. split; [exact V|]. rewrite looks_obj.
    exists n1, o. split; [reflexivity|]. split; [exact K|]. split; [reflexivity|]. split; [reflexivity|]. cbn [g_extended o].
    now apply (props_more h).
  Qed.
  Lemma build_dict l : Forall (fun p => can (snd p)) l -> can (HDict l).
  Proof using US.
    intros C S n. cbn [sendable] in S. destruct S as [ND S]. rewrite fold_Forall in S. apply Forall_snd in C.
    assert (Forall sendable (map snd l)) as S2 by (apply Forall_snd; eapply Forall_impl; [|exact S]; intros p H; apply H).
    destruct (build_all (map snd l) C S2 n) as (n1 & h & vs & B & F & L).
    set (ps := combine (map (fun p => VPrim (PPlainInt (fst p))) l) vs).
    assert (Forall2 (looks_entry h) l ps) as LP.
    { subst ps. clear - L. revert vs L. induction l as [|[k x] l IH]; intros vs L; inversion L; subst; [constructor|]. cbn. constructor; [split; [now left|assumption]|auto]. }
    assert (map fst ps = map (fun p => VPrim (PPlainInt (fst p))) l) as EN.
    { subst ps. clear - L. revert vs L. induction l as [|[k x] l IH]; intros vs L; inversion L; subst; [reflexivity|]. cbn. f_equal. auto. }
    assert (forall q, In q ps -> fine h (snd q)) as FP.
    { intros [k v] H. apply in_combine_r in H. rewrite Forall_forall in F. now apply F. }
    assert (forall q, In q ps -> exists z, fst q = VPrim (PPlainInt z) /\ (- 2 ^ 31 <= z < 2 ^ 63)%Z) as SP.
    { intros [k v] H. apply in_combine_l in H. apply in_map_iff in H. destruct H as (p & <- & H). rewrite Forall_forall in S. destruct (S p H) as (? & _). exists (fst p). now split. }
    set (o := mkG (BDict ps) dict_names None [] []).
    assert (good_object reg lx o) as Go.
    { split; [cbn; split|].
      - apply Forall_forall. intros q H. destruct (SP q H) as (z & -> & R). split; [exact R|]. split; [apply FP, H|exact I].
      - clear - EN ND. clearbody ps. revert ps EN. induction l as [|[k x] l IH]; intros [|[kk v] ps] EN; try discriminate; [constructor|].
        cbn in EN. injection EN as E1 E2. subst kk. inversion ND as [|? ? A1 A2]; subst. constructor; [|auto].
        apply Forall_forall. intros [k2 v2] H. cbn [fst]. intros Q. apply (in_map fst) in H. rewrite E2 in H. apply in_map_iff in H.
        destruct H as ([z y] & H & I). cbn in H. subst k2. apply A1. apply in_map_iff. exists (z, y). split; [|exact I]. cbn.
        inversion Q as [|? ? ? Q1 Q2| | |]; [reflexivity|]. subst. cbn in Q1, Q2. congruence.
      - cbn [g_body o]. split; [|split; [split; constructor|split; [split; constructor|intros _; constructor]]].
        destruct (us_dict reg lx US) as [A Q]. split; [exact A|]. intros c Hc. apply Q in Hc. subst c. split; [reflexivity|]. split; [reflexivity|].
        split; exists []; reflexivity. }
    assert (forall v, mentions o v -> (exists z, v = VPrim (PPlainInt z)) \/ exists k, In (k, v) ps) as M.
    { intros v H. inversion H; subst; cbn in *; try contradiction; try discriminate;
        match goal with E : BDict _ = BDict _ |- _ => injection E as <- end; [|eauto].
      left. match goal with E : In _ _ |- _ => destruct (SP _ E) as (z & Z & _) end. exists z. exact Z. }
    assert (safe_object o) as So.
    { split; [repeat (constructor; [apply text_lit; reflexivity|]); constructor|]. split; [exact I|]. split; [constructor|]. split; [discriminate|]. split; [discriminate|].
      intros v Hv. apply M in Hv. destruct Hv as [[z ->]|[k Hv]]; [exact I|]. apply FP in Hv. apply Hv. }
    destruct (built_new n n1 h o B Go So) as (B' & G & K & V);
      [discriminate|intros v Hv; apply M in Hv; destruct Hv as [[z ->]|[k Hv]]; [intros a Ha; discriminate|apply FP in Hv; apply Hv]|].
    exists (n1 + 1)%N, (h ++ [(n1, o)]), (VRef n1). split; [exact B'|]. split; [exact V|]. rewrite looks_dict.
    exists n1, o, ps. split; [reflexivity|]. split; [exact K|]. split; [reflexivity|].
    now apply (entries_more h).
  Qed.
  Lemma build_one x v : (forall h, looks h x v) -> good_value reg lx v -> safe_value v -> (forall a, v <> VRef a) -> forall n,
    exists n' h w, built n n' h /\ fine h w /\ looks h x w.
  Proof.
    intros L Gv Sv Nv n. exists n, [], v. split; [apply build_nil|]. split; [|apply L]. split; [exact Gv|]. split; [exact Sv|].
    intros a E. destruct (Nv a E).
  Qed.
  Lemma build x : can x.
  Proof using US.
    induction x as [| z | s | b | c | l IH | l IH | l IH | n] using plain_ind.
    - intros S. apply (build_one HNull VNull); easy.
    - intros S. apply (build_one (HInt z) (VPrim (PPlainInt z))); [intros h; now left|exact S|exact I|discriminate].
    - intros [S1 S2]. apply (build_one (HStr s) (VPrim (PStr KString s))); easy.
    - intros S. apply (build_one (HBool b) (VBool b)); easy.
    - intros S. apply (build_one (HChar c) (VPrim (PChar c))); easy.
    - now apply build_list.
    - now apply build_obj.
    - now apply build_dict.
    - intros [].
  Qed.
  Theorem representable x : sendable x -> exists h v a rank,
    good_graph reg lx h /\ safe_graph h /\ closed h /\ ranked h rank /\ aget a h = None
    /\ good_value reg lx v /\ safe_value v /\ here h v /\ looks h x v.
  Proof using US.
    intros S. destruct (build x S 0%N) as (n & h & v & [L B] & (F1 & F2 & F3) & LK). exists h, v, n, N.to_nat.
    split; [split|].
    - intros a o E. apply (B a o E).
    - intros a b o o' p q E E' P Q. destruct (B a o E) as (_ & _ & _ & N & _). destruct (N p P).
    - exact (us_custom reg lx US).
    - split; [intros a o E; apply (B a o E)|]. split; [intros a o b E M; apply (B a o E), M|].
      split; [intros a o b E _ M; destruct (B a o E) as (_ & _ & _ & _ & Q); destruct (Q b M) as [? _]; lia|].
      split; [destruct (aget n h) as [o|] eqn:E; [destruct (B n o E) as [? _]; lia|reflexivity]|]. auto.
  Qed.
End Build.
