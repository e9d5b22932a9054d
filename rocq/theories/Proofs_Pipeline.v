(** Placing trees of objects in a heap (C66). *)
From Coq Require Import String.
From Verif Require Import Base BaseFacts Model_Scalars Model_Object Model_Clixml Model_Xml Model_Command Model_Messages Model_Pipeline.
From Verif Require Import Spec_Strings Spec_Scalars Spec_Clixml Spec_Xml Spec_Messages Spec_HostWire Spec_Pipeline.
From Verif Require Import Proofs_HostWire Proofs_HostWire2 Proofs_Lines.
Local Open Scope list_scope.

Section Ind.
  Variable P : tree -> Prop.
  Hypothesis Hval : forall v, P (TVal v).
  Hypothesis Hlist : forall l, Forall P l -> P (TList l).
  Hypothesis Hobj : forall s l, Forall (fun p => P (snd p)) l -> P (TObj s l).
  Fixpoint tree_ind2 (x : tree) : P x :=
    match x with
    | TVal v => Hval v
    | TList l => Hlist l ((fix go l : Forall P l := match l with [] => Forall_nil _ | y :: t => Forall_cons y (tree_ind2 y) (go t) end) l)
    | TObj s l => Hobj s l ((fix go l : Forall (fun p => P (snd p)) l :=
        match l with [] => Forall_nil _ | y :: t => Forall_cons (P := fun p => P (snd p)) y (tree_ind2 (snd y)) (go t) end) l)
    end.
End Ind.

(** The loops of [place]. *)
Fixpoint place_all (l : list tree) (n : N) : N * heap * list value :=
  match l with
  | [] => (n, [], [])
  | t :: l' => let '(n1, h, v) := place t n in let '(n2, h', vs) := place_all l' n1 in (n2, h ++ h', v :: vs)
  end.
Lemma place_list l n : place (TList l) n =
  let '(n1, h, vs) := place_all l n in ((n1 + 1)%N, h ++ [(n1, list_object vs)], VRef n1).
Proof. reflexivity. Qed.
Lemma place_obj s ps n : place (TObj s ps) n =
  let '(n1, h, vs) := place_all (map snd ps) n in ((n1 + 1)%N, h ++ [(n1, note_object s (combine (map (fun p => tx (fst p)) ps) vs))], VRef n1).
Proof.
  cbn [place].
  set (go := fix all (l : list (string * tree)) (n : N) : N * heap * list (name * value) :=
         match l with
         | [] => (n, [], [])
         | (k, t) :: l' => let '(n1, h, v) := place t n in let '(n2, h', vs) := all l' n1 in (n2, h ++ h', (tx k, v) :: vs)
         end).
  assert (forall ps n, go ps n = let '(n1, h, vs) := place_all (map snd ps) n in (n1, h, combine (map (fun p => tx (fst p)) ps) vs)) as E.
  { clear. induction ps as [|[k t] ps IH]; intros n; [reflexivity|]. cbn [map snd place_all go fst].
    destruct (place t n) as [[n1 h] v]. rewrite IH. destruct (place_all (map snd ps) n1) as [[n2 h'] vs]. reflexivity. }
  rewrite E. destruct (place_all (map snd ps) n) as [[n1 h] vs]. reflexivity.
Qed.

(** A value of a heap stands for a tree; [Q] relates the caller's values. *)
Inductive stands (Q : value -> value -> Prop) (h : heap) : tree -> value -> Prop :=
| StVal w v : Q w v -> stands Q h (TVal w) v
| StList l a o k vs : aget a h = Some o -> g_body o = BList k vs -> Forall2 (stands Q h) l vs -> stands Q h (TList l) (VRef a)
| StObj s ps a o : aget a h = Some o -> g_body o = BPlain -> g_adapted o = [] ->
    map fst (g_extended o) = map (fun p => tx (fst p)) ps -> Forall2 (stands Q h) (map snd ps) (map snd (g_extended o)) ->
    stands Q h (TObj s ps) (VRef a).
Lemma all_impl {A B} (P Q : A -> B -> Prop) l m : Forall (fun x => forall y, P x y -> Q x y) l -> Forall2 P l m -> Forall2 Q l m.
Proof. intros F H. induction H; inversion F; subst; constructor; auto. Qed.
Lemma all2_impl {A B} (P Q : A -> B -> Prop) : (forall x y, P x y -> Q x y) -> forall l m, Forall2 P l m -> Forall2 Q l m.
Proof. intros F l m H. induction H; constructor; auto. Qed.
Lemma all2_length {A B} (P : A -> B -> Prop) l m : Forall2 P l m -> length l = length m.
Proof. induction 1; cbn; congruence. Qed.
Lemma stands_more Q h h' : grows h h' -> forall t v, stands Q h t v -> stands Q h' t v.
Proof.
  intros G t. induction t as [w|l IH|s l IH] using tree_ind2; intros v S; inversion S; subst.
  - now constructor.
  - econstructor; eauto. eapply all_impl; eauto.
  - econstructor; eauto. eapply all_impl; [|eassumption]. now apply Forall_snd.
Qed.

Lemma names_once {A} (ps : list (string * A)) : NoDup (map fst ps) -> NoDup (map (fun p => tx (fst p)) ps).
Proof.
  intros ND. induction ps as [|[k x] l IH]; [constructor|]. inversion ND as [|? ? A1 A2]; subst. cbn. constructor; [|auto].
  intros H. apply A1. apply in_map_iff in H. destruct H as ([k' x'] & H & I). cbn in H. apply tx_inj in H. subst k'. apply in_map_iff. now exists (k, x').
Qed.
(** Trees that can be placed. *)
Section Place.
  Variable reg : registry.
  Variable lx : lexicon.
  Hypothesis US : usual reg lx.
  Variable h0 : heap.
  Inductive good_tree : tree -> Prop :=
  | GVal v : can_send reg lx h0 v -> good_tree (TVal v)
  | GList l : Forall good_tree l -> good_tree (TList l)
  | GObj s ps : pystr s -> no_surrogates s -> attr_ok s -> NoDup (map fst ps) -> Forall (fun p => can_say (tx (fst p))) ps ->
      Forall good_tree (map snd ps) -> good_tree (TObj s ps).
  (** New objects between [n] and [n'], each referring to earlier ones or to those of [h0]. *)
  Definition placed (n n' : N) (k : heap) : Prop :=
    (n <= n')%N /\ forall a o, aget a k = Some o ->
      (n <= a < n')%N /\ good_object reg lx o /\ legible_object o /\ (forall p, g_body o <> BPrim p)
      /\ forall b, mentions o (VRef b) -> (b < a)%N /\ exists o', aget b (h0 ++ k) = Some o'.
  Lemma placed_nil n : placed n n [].
  Proof. split; [lia|]. intros a o E. discriminate. Qed.
  Lemma here_more h h' v : grows h h' -> here h v -> here h' v.
  Proof. intros G H a E. destruct (H a E) as [o Ho]. exists o. auto. Qed.
  Lemma can_more h h' v : grows h h' -> can_send reg lx h v -> can_send reg lx h' v.
  Proof. intros G (A & B & C). split; [exact A|]. split; [exact B|]. eapply here_more; eauto. Qed.
  Lemma grows_h0 k : grows h0 (h0 ++ k).
  Proof. intros a o E. rewrite aget_app, E. reflexivity. Qed.
  Lemma placed_app n1 n2 n3 h k : placed n1 n2 h -> placed n2 n3 k ->
    placed n1 n3 (h ++ k) /\ grows (h0 ++ h) (h0 ++ (h ++ k)) /\ grows (h0 ++ k) (h0 ++ (h ++ k)).
  Proof.
    intros [L A] [L' B].
    assert (grows (h0 ++ h) (h0 ++ (h ++ k))) as G.
    { intros a o E. rewrite app_assoc, aget_app, E. reflexivity. }
    assert (grows (h0 ++ k) (h0 ++ (h ++ k))) as G'.
    { intros a o E. rewrite !aget_app in *. destruct (aget a h0); [exact E|]. destruct (aget a h) as [o1|] eqn:E1; [|exact E].
      destruct (A _ _ E1) as [? _], (B _ _ E) as [? _]. lia. }
    split; [|auto]. split; [lia|]. intros a o E. rewrite aget_app in E. destruct (aget a h) as [o1|] eqn:E1.
    - injection E as <-. destruct (A _ _ E1) as (X & Y & Z & W & M). split; [lia|]. do 3 (split; [assumption|]).
      intros b Hb. destruct (M b Hb) as [? [o' Ho]]. split; [assumption|]. exists o'. auto.
    - destruct (B _ _ E) as (X & Y & Z & W & M). split; [lia|]. do 3 (split; [assumption|]).
      intros b Hb. destruct (M b Hb) as [? [o' Ho]]. split; [assumption|]. exists o'. auto.
  Qed.
  Variable n0 : N.
  Hypothesis F0 : free_from h0 n0.
  Lemma placed_new n n' k o : (n0 <= n)%N -> placed n n' k -> good_object reg lx o -> legible_object o -> (forall p, g_body o <> BPrim p) ->
    (forall v, mentions o v -> here (h0 ++ k) v) ->
    placed n (n' + 1) (k ++ [(n', o)]) /\ grows (h0 ++ k) (h0 ++ (k ++ [(n', o)])) /\ aget n' (h0 ++ (k ++ [(n', o)])) = Some o
    /\ can_send reg lx (h0 ++ (k ++ [(n', o)])) (VRef n').
  Proof using F0.
    intros Ln [L A] Go So No M.
    assert (grows (h0 ++ k) (h0 ++ (k ++ [(n', o)]))) as G by (intros a o' E; rewrite app_assoc, aget_app, E; reflexivity).
    assert (aget n' (h0 ++ (k ++ [(n', o)])) = Some o) as K.
    { rewrite aget_app. destruct (aget n' h0) as [o1|] eqn:E1; [apply F0 in E1; lia|]. rewrite aget_app.
      destruct (aget n' k) as [o1|] eqn:E2; [destruct (A _ _ E2) as [? _]; lia|]. cbn. now rewrite N.eqb_refl. }
    split; [|split; [exact G|split; [exact K|]]].
    - split; [lia|]. intros a o' E. rewrite aget_app in E. destruct (aget a k) as [o1|] eqn:E1.
      + injection E as <-. destruct (A _ _ E1) as (X & Y & Z & W & Mo). split; [lia|]. do 3 (split; [assumption|]).
        intros b Hb. destruct (Mo b Hb) as [? [o' Ho]]. split; [assumption|]. exists o'. auto.
      + cbn in E. destruct (N.eqb_spec a n') as [-> |]; [|discriminate]. injection E as <-. split; [lia|]. do 3 (split; [assumption|]).
        intros b Hb. destruct (M _ Hb b eq_refl) as [o' Ho]. split; [|exists o'; auto].
        rewrite aget_app in Ho. destruct (aget b h0) eqn:Eb; [apply F0 in Eb; lia|]. destruct (A _ _ Ho) as [? _]. lia.
    - split; [exact I|]. split; [exact I|]. intros a E. injection E as <-. now exists o.
  Qed.
  Definition well (l : list tree) (vs : list value) (k : heap) : Prop := Forall (can_send reg lx (h0 ++ k)) vs /\ Forall2 (stands eq (h0 ++ k)) l vs.
  Definition can_place (t : tree) : Prop := good_tree t -> forall n, (n0 <= n)%N -> forall n' k v, place t n = (n', k, v) ->
    placed n n' k /\ can_send reg lx (h0 ++ k) v /\ stands eq (h0 ++ k) t v.
  Lemma place_all_ok l : Forall can_place l -> Forall good_tree l -> forall n, (n0 <= n)%N -> forall n' k vs, place_all l n = (n', k, vs) ->
    placed n n' k /\ well l vs k.
  Proof using F0.
    induction l as [|t l IH]; intros C S n Ln n' k vs E; cbn [place_all] in E.
    - injection E as <- <- <-. split; [apply placed_nil|]. split; constructor.
    - inversion C as [|? ? C1 C2]; inversion S as [|? ? S1 S2]; subst. destruct (place t n) as [[n1 h1] v] eqn:E1.
      destruct (place_all l n1) as [[n2 h2] ws] eqn:E2. injection E as <- <- <-.
      destruct (C1 S1 n Ln _ _ _ E1) as (B1 & V1 & L1). assert (n0 <= n1)%N as Ln1 by (destruct B1; lia).
      destruct (IH C2 S2 n1 Ln1 _ _ _ E2) as (B2 & V2 & L2). destruct (placed_app _ _ _ _ _ B1 B2) as (B & G1 & G2).
      split; [exact B|]. split.
      + constructor; [exact (can_more _ _ _ G1 V1)|]. eapply Forall_impl; [|exact V2]. intros w Hw. exact (can_more _ _ _ G2 Hw).
      + constructor; [exact (stands_more _ _ _ G1 _ _ L1)|]. eapply all2_impl; [|exact L2]. exact (stands_more _ _ _ G2).
  Qed.
  Lemma place_list_ok l : Forall can_place l -> can_place (TList l).
  Proof using F0 US.
    intros C S n Ln n' k v E. inversion S as [|? S1|]; subst. rewrite place_list in E. destruct (place_all l n) as [[n1 h] vs] eqn:E1.
    injection E as <- <- <-. destruct (place_all_ok l C S1 n Ln _ _ _ E1) as (B & F & L).
    set (o := list_object vs).
    assert (good_object reg lx o) as Go.
    { split; [cbn; eapply Forall_impl; [|exact F]; intros w H; apply H|]. cbn [g_body o list_object]. split; [|split; [split; constructor|split; [split; constructor|intros _; constructor]]].
      destruct (us_list reg lx US) as [A Q]. split; [exact A|]. intros c Hc. apply Q in Hc. subst c. split; [reflexivity|]. split; [reflexivity|].
      split; exists []; reflexivity. }
    assert (forall v, mentions o v -> In v vs) as M.
    { intros v H. inversion H; subst; cbn in *; try contradiction; try discriminate. match goal with E : BList _ _ = BList _ _ |- _ => injection E as <- <- end. assumption. }
    rewrite Forall_forall in F.
    assert (legible_object o) as So.
    { split; [repeat (constructor; [apply text_lit; reflexivity|]); constructor|]. split; [exact I|]. split; [constructor|]. split; [discriminate|]. split; [discriminate|].
      intros v Hv. apply M in Hv. destruct (F v Hv) as (_ & ? & _). assumption. }
    destruct (placed_new n n1 h o Ln B Go So) as (B' & G & K & V); [discriminate|intros v Hv; apply M in Hv; destruct (F v Hv) as (_ & _ & ?); assumption|].
    split; [exact B'|]. split; [exact V|]. econstructor; [exact K|reflexivity|]. eapply all2_impl; [|exact L]. exact (stands_more _ _ _ G).
  Qed.
  Lemma combine_maps {A B} (a : list A) (b : list B) : length a = length b -> map fst (combine a b) = a /\ map snd (combine a b) = b.
  Proof. revert b. induction a as [|x a IH]; intros [|y b] E; try discriminate; [auto|]. cbn in *. destruct (IH b) as [P Q]; [lia|]. now rewrite P, Q. Qed.
  Lemma place_obj_ok s ps : Forall (fun p => can_place (snd p)) ps -> can_place (TObj s ps).
  Proof using F0 US.
    intros C S n Ln n' k v E. inversion S as [| |? ? Ps Ns As ND Sn S1]; subst. rewrite place_obj in E. destruct (place_all (map snd ps) n) as [[n1 h] vs] eqn:E1.
    injection E as <- <- <-. apply Forall_snd in C. destruct (place_all_ok _ C S1 n Ln _ _ _ E1) as (B & F & L).
    set (qs := combine (map (fun p => tx (fst p)) ps) vs).
    assert (map fst qs = map (fun p => tx (fst p)) ps /\ map snd qs = vs) as [EN EV].
    { apply combine_maps. rewrite map_length. apply all2_length in L. rewrite map_length in L. exact L. }
    clearbody qs. subst vs.
    set (o := note_object s qs). rewrite Forall_forall in F.
    assert (forall q, In q qs -> can_send reg lx (h0 ++ h) (snd q)) as FP.
    { intros q H. apply F. now apply in_map. }
    assert (forall q, In q qs -> can_say (fst q)) as SP.
    { intros q H. apply (in_map fst) in H. rewrite EN in H. apply in_map_iff in H. destruct H as (p & <- & H). rewrite Forall_forall in Sn. exact (Sn p H). }
    assert (good_object reg lx o) as Go.
    { split; [cbn; destruct s; [exact I|split; [discriminate|auto]]|]. cbn [g_body o note_object]. split; [split; [now left|discriminate]|]. split; [split; constructor|]. split; [|intros []].
      split.
      - change (NoDup (map fst qs)). rewrite EN. now apply names_once.
      - apply Forall_forall. intros q H. split; [apply SP, H|apply FP, H]. }
    assert (forall v, mentions o v -> exists k, In (k, v) qs) as M.
    { intros v H. inversion H; subst; cbn in *; try contradiction; try discriminate. eauto. }
    assert (legible_object o) as So.
    { split; [constructor|]. split; [cbn; destruct s; [exact I|exact As]|]. split; [cbn; apply Forall_forall; intros q H; apply SP, H|]. split; [discriminate|]. split; [discriminate|].
      intros v Hv. apply M in Hv. destruct Hv as [k Hv]. apply FP in Hv. apply Hv. }
    destruct (placed_new n n1 h o Ln B Go So) as (B' & G & K & V); [discriminate|intros v Hv; apply M in Hv; destruct Hv as [k Hv]; apply FP in Hv; apply Hv|].
    split; [exact B'|]. split; [exact V|]. econstructor; [exact K|reflexivity|reflexivity|exact EN|]. cbn [g_extended o note_object].
    eapply all2_impl; [|exact L]. exact (stands_more _ _ _ G).
  Qed.
  Theorem place_ok t : can_place t.
  Proof using F0 US.
    induction t as [w|l IH|s l IH] using tree_ind2; [|now apply place_list_ok|now apply place_obj_ok].
    intros S n Ln n' k v E. cbn in E. injection E as <- <- <-. rewrite app_nil_r. inversion S; subst. split; [apply placed_nil|]. split; [assumption|now constructor].
  Qed.

  (** The whole heap is as good as the caller's. *)
  Hypothesis G0 : good_graph reg lx h0.
  Hypothesis L0 : legible_graph h0.
  Hypothesis C0 : closed h0.
  Lemma whole_get k a o : aget a (h0 ++ k) = Some o -> aget a h0 = Some o \/ (aget a h0 = None /\ aget a k = Some o).
  Proof. rewrite aget_app. destruct (aget a h0); auto. Qed.
  Lemma whole n n' k : (n0 <= n)%N -> placed n n' k ->
    good_graph reg lx (h0 ++ k) /\ legible_graph (h0 ++ k) /\ closed (h0 ++ k) /\ aget n' (h0 ++ k) = None.
  Proof using F0 G0 L0 C0.
    intros Ln [L A]. destruct G0 as [GO GT GC]. split; [split|split; [|split]].
    - intros a o E. apply whole_get in E. destruct E as [E|[_ E]]; [eauto|apply (A a o E)].
    - intros a b o o' p q E E' P Q. apply whole_get in E, E'.
      destruct E as [E|[_ E]]; [|destruct (A a o E) as (_ & _ & _ & X & _); destruct (X p P)].
      destruct E' as [E'|[_ E']]; [|destruct (A b o' E') as (_ & _ & _ & X & _); destruct (X q Q)]. eapply GT; eauto.
    - exact GC.
    - intros a o E. apply whole_get in E. destruct E as [E|[_ E]]; [eauto|apply (A a o E)].
    - intros a o b E M. apply whole_get in E. destruct E as [E|[_ E]].
      + destruct (C0 a o b E M) as [o' Ho]. exists o'. now apply grows_h0.
      + destruct (A a o E) as (_ & _ & _ & _ & X). apply (X b M).
    - rewrite aget_app. destruct (aget n' h0) as [o|] eqn:E; [apply F0 in E; lia|]. destruct (aget n' k) as [o|] eqn:E'; [destruct (A _ _ E'); lia|reflexivity].
  Qed.
  Lemma whole_ranked rank n n' k : (n0 <= n)%N -> placed n n' k -> ranked h0 rank -> exists rank', ranked (h0 ++ k) rank'.
  Proof using F0 C0.
    intros Ln [L A] RK. set (top := S (list_max (map rank (map fst h0)))).
    exists (fun a => if (a <? n0)%N then rank a else top + N.to_nat a)%nat. intros a o b E BI M. apply whole_get in E. destruct E as [E|[_ E]].
    - destruct (C0 a o b E M) as [o' Ho]. rewrite (proj2 (N.ltb_lt _ _) (F0 _ _ E)), (proj2 (N.ltb_lt _ _) (F0 _ _ Ho)). eapply RK; eauto.
    - destruct (A a o E) as (X & _ & _ & _ & Y). destruct (Y b M) as [Lb [o' Ho]]. rewrite (proj2 (N.ltb_ge a n0)) by lia.
      destruct (N.ltb_spec b n0) as [Hb|Hb]; [|lia]. apply whole_get in Ho. destruct Ho as [Ho|[_ Ho]]; [|destruct (A _ _ Ho); lia].
      assert (rank b <= list_max (map rank (map fst h0)))%nat; [|lia].
      assert (Forall (fun x => x <= list_max (map rank (map fst h0)))%nat (map rank (map fst h0))) as FM by now apply list_max_le.
      rewrite Forall_forall in FM. apply FM. apply in_map. clear - Ho. induction h0 as [|[c o1] h IH]; [discriminate|]. cbn in *.
      destruct (N.eqb_spec b c); [left; congruence|right; auto].
  Qed.
End Place.

(** Through the document. *)
Theorem stands_kept reg h h' R : same_graph reg (heap_lines h) h' R -> forall t v v', stands eq h t v -> same_value R v v' -> stands (same_value R) h' t v'.
Proof.
  intros G t. induction t as [w|l IH|s l IH] using tree_ind2; intros v v' A S; inversion A; subst.
  - now constructor.
  - inversion S as [| | | |x y K]; subst. destruct (G _ _ K) as (o1 & o' & E & E' & Q). rewrite heap_lines_get in E.
    match goal with H : aget a h = Some _ |- _ => rewrite H in E end. cbn in E. injection E as <-. unfold same_object in Q. cbn [with_lines g_body] in Q.
    match goal with H : g_body _ = BList _ _ |- _ => rewrite H in Q end. destruct Q as ((l' & B & F) & _). econstructor; [exact E'|exact B|].
    match goal with H : Forall2 _ l vs |- _ => revert H end. clear - IH F. intros A. revert l' F.
    induction A as [|x v l vs H A IA]; intros l' F; inversion F; subst; [constructor|]. inversion IH; subst. constructor; eauto.
  - inversion S as [| | | |x y K]; subst. destruct (G _ _ K) as (o1 & o' & E & E' & Q). rewrite heap_lines_get in E.
    match goal with H : aget a h = Some _ |- _ => rewrite H in E end. cbn in E. injection E as <-. unfold same_object in Q. cbn [with_lines g_body g_string g_names g_adapted g_extended] in Q.
    match goal with H : g_body _ = BPlain |- _ => rewrite H in Q end. destruct Q as (B & _ & _ & C & D). econstructor; [exact E'|exact B| | |].
    + match goal with H : g_adapted o = [] |- _ => rewrite H in C end. inversion C. reflexivity.
    + match goal with H : map fst (g_extended o) = _ |- _ => rewrite <- H end. clear - D. induction D as [|? ? ? ? [D1 _] ? IH]; [reflexivity|]. cbn. now rewrite D1, IH.
    + apply (Forall_snd (fun t => forall v v', stands eq h t v -> same_value R v v' -> stands (same_value R) h' t v')) in IH. match goal with H : Forall2 _ (map snd l) _ |- _ => revert H end. clear - IH D. generalize dependent (map snd l). intros ts IH.
      revert ts IH. induction D as [|? ? ? ? [_ D2] ? ID]; intros ts IH A; inversion A; subst; [constructor|]. inversion IH; subst. constructor; eauto.
Qed.
