(** Plain values in object graphs: unique, unchanged by the serializer (C65). *)
From Coq Require Import String Ascii.
From Verif Require Import Base BaseFacts Model_Scalars Model_Object Model_Clixml Model_Host Spec_Strings Spec_Scalars Spec_Clixml Spec_Xml Spec_HostWire.
Local Open Scope list_scope.

Lemma tx_inj s t : tx s = tx t -> s = t.
Proof.
  unfold tx. revert t. induction s as [|c s IH]; intros [|d t] H; try discriminate; [reflexivity|]. cbn in H. injection H as A B.
  apply (f_equal ascii_of_N) in A. rewrite !ascii_N_embedding in A. subst d. f_equal. now apply IH.
Qed.
(** Induction over plain values. *)
Section Ind.
  Variable P : hv -> Prop.
  Hypothesis Hnull : P HNull.
  Hypothesis Hint : forall z, P (HInt z).
  Hypothesis Hstr : forall s, P (HStr s).
  Hypothesis Hbool : forall b, P (HBool b).
  Hypothesis Hchar : forall c, P (HChar c).
  Hypothesis Hlist : forall l, Forall P l -> P (HList l).
  Hypothesis Hobj : forall l, Forall (fun p => P (snd p)) l -> P (HObj l).
  Hypothesis Hdict : forall l, Forall (fun p => P (snd p)) l -> P (HDict l).
  Hypothesis Hopaque : forall n, P (HOpaque n).
  Fixpoint plain_ind (x : hv) : P x :=
    match x with
    | HNull => Hnull | HInt z => Hint z | HStr s => Hstr s | HBool b => Hbool b | HChar c => Hchar c
    | HList l => Hlist l ((fix go l : Forall P l := match l with [] => Forall_nil _ | y :: t => Forall_cons y (plain_ind y) (go t) end) l)
    | HObj l => Hobj l ((fix go l : Forall (fun p => P (snd p)) l :=
        match l with [] => Forall_nil _ | y :: t => Forall_cons (P := fun p => P (snd p)) y (plain_ind (snd y)) (go t) end) l)
    | HDict l => Hdict l ((fix go l : Forall (fun p => P (snd p)) l :=
        match l with [] => Forall_nil _ | y :: t => Forall_cons (P := fun p => P (snd p)) y (plain_ind (snd y)) (go t) end) l)
    | HOpaque n => Hopaque n
    end.
End Ind.
(** The inner loops of [looks] as Forall2. *)
Lemma looks_list h l v : looks h (HList l) v <-> exists a o k vs, v = VRef a /\ aget a h = Some o /\ g_body o = BList k vs /\ Forall2 (looks h) l vs.
Proof.
  cbn [looks]. split; intros (a & o & k & vs & A & B & C & D); exists a, o, k, vs; (split; [exact A|]); (split; [exact B|]); (split; [exact C|]).
  - clear A B C. revert vs D. induction l as [|y l IH]; intros [|w vs] D; try contradiction; [constructor|]. destruct D as [D E]. constructor; auto.
  - clear A B C. induction D; [exact I|]. split; auto.
Qed.
Definition looks_prop h (p : string * hv) (q : name * value) : Prop := fst q = tx (fst p) /\ looks h (snd p) (snd q).
Lemma looks_obj h l v : looks h (HObj l) v <->
  exists a o, v = VRef a /\ aget a h = Some o /\ g_body o = BPlain /\ g_adapted o = [] /\ Forall2 (looks_prop h) l (g_extended o).
Proof.
  cbn [looks]. split; intros (a & o & A & B & C & D & E); exists a, o; (split; [exact A|]); (split; [exact B|]); (split; [exact C|]); (split; [exact D|]).
  - clear A B C D. revert E. generalize (g_extended o). induction l as [|[n y] l IH]; intros [|[m w] vs] D; try contradiction; [constructor|].
    destruct D as [D E]. constructor; [exact D|auto].
  - clear A B C D. induction E as [|[n y] [m w] l vs H E IH]; [exact I|]. split; [exact H|exact IH].
Qed.
Definition looks_entry h (p : Z * hv) (q : value * value) : Prop := numeral (fst q) (fst p) /\ looks h (snd p) (snd q).
Lemma looks_dict h l v : looks h (HDict l) v <->
  exists a o es, v = VRef a /\ aget a h = Some o /\ g_body o = BDict es /\ Forall2 (looks_entry h) l es.
Proof.
  cbn [looks]. split; intros (a & o & es & A & B & C & E); exists a, o, es; (split; [exact A|]); (split; [exact B|]); (split; [exact C|]).
  - clear A B C. revert es E. induction l as [|[n y] l IH]; intros [|[m w] vs] D; try contradiction; [constructor|].
    destruct D as [D E]. constructor; [exact D|auto].
  - clear A B C. induction E as [|[n y] [m w] l vs H E IH]; [exact I|]. split; [exact H|exact IH].
Qed.

(** ** A value is one plain value only *)
Lemma numeral_unique v y z : numeral v y -> numeral v z -> y = z.
Proof.
  intros [-> |[[t ->]|(e & -> & A)]] [B|[[t' B]|(e' & B & C)]]; try discriminate; injection B; intros; subst; auto.
Qed.
Theorem looks_unique h x : forall y v, looks h x v -> looks h y v -> x = y.
Proof.
  induction x as [| z | s | b | c | l IH | l IH | l IH | n] using plain_ind; intros y v A B.
  1-5: cbn [looks] in A; try (destruct A as [-> |[[t ->]|(e & -> & A)]]); try subst v;
       destruct y; try contradiction; try discriminate B;
       try (rewrite looks_list in B; destruct B as (? & ? & ? & ? & B & _); discriminate);
       try (rewrite looks_obj in B; destruct B as (? & ? & B & _); discriminate);
       try (rewrite looks_dict in B; destruct B as (? & ? & ? & B & _); discriminate);
       cbn [looks] in B; try (destruct B as [B|[[t' B]|(e' & B & B')]]); try discriminate B; try congruence.
  - rewrite looks_list in A. destruct A as (a & o & k & vs & -> & Ha & Hb & A).
    destruct y; try discriminate B; try contradiction.
    + cbn in B. destruct B as [B|[[? B]|(? & B & _)]]; discriminate.
    + rewrite looks_list in B. destruct B as (a' & o' & k' & vs' & E & Ha' & Hb' & B). injection E as <-.
      rewrite Ha in Ha'. injection Ha' as <-. rewrite Hb in Hb'. injection Hb' as <- <-. f_equal. clear Ha Hb.
      revert l0 B. induction A as [|x v l vs H A IA]; intros m B; inversion B; subst; [reflexivity|].
      inversion IH; subst. f_equal; eauto.
    + rewrite looks_obj in B. destruct B as (a' & o' & E & Ha' & Hb' & B). injection E as <-. congruence.
    + rewrite looks_dict in B. destruct B as (a' & o' & es & E & Ha' & Hb' & B). injection E as <-. congruence.
  - rewrite looks_obj in A. destruct A as (a & o & -> & Ha & Hb & _ & A).
    destruct y; try discriminate B; try contradiction.
    + cbn in B. destruct B as [B|[[? B]|(? & B & _)]]; discriminate.
    + rewrite looks_list in B. destruct B as (a' & o' & k' & vs' & E & Ha' & Hb' & B). injection E as <-. congruence.
    + rewrite looks_obj in B. destruct B as (a' & o' & E & Ha' & Hb' & _ & B). injection E as <-.
      rewrite Ha in Ha'. injection Ha' as <-. f_equal. clear Ha Hb Hb'. revert ps B.
      induction A as [|[n x] [m v] l vs H A IA]; intros q B; inversion B as [|[n' x'] ? q' ? H' B']; subst; [reflexivity|].
      inversion IH as [|? ? I1 I2]; subst. destruct H as [H1 H2], H' as [H3 H4]. cbn [fst snd] in *.
      f_equal; [|eauto]. f_equal; [|eauto]. apply tx_inj. congruence.
    + rewrite looks_dict in B. destruct B as (a' & o' & es & E & Ha' & Hb' & B). injection E as <-. congruence.
  - rewrite looks_dict in A. destruct A as (a & o & es & -> & Ha & Hb & A).
    destruct y; try discriminate B; try contradiction.
    + cbn in B. destruct B as [B|[[? B]|(? & B & _)]]; discriminate.
    + rewrite looks_list in B. destruct B as (a' & o' & k' & vs' & E & Ha' & Hb' & B). injection E as <-. congruence.
    + rewrite looks_obj in B. destruct B as (a' & o' & E & Ha' & Hb' & B). injection E as <-. congruence.
    + rewrite looks_dict in B. destruct B as (a' & o' & es' & E & Ha' & Hb' & B). injection E as <-.
      rewrite Ha in Ha'. injection Ha' as <-. rewrite Hb in Hb'. injection Hb' as <-. f_equal. clear Ha Hb. revert l0 B.
      induction A as [|[n x] [m v] l vs H A IA]; intros q B; inversion B as [|[n' x'] ? q' ? H' B']; subst; [reflexivity|].
      inversion IH as [|? ? I1 I2]; subst. destruct H as [H1 H2], H' as [H3 H4]. cbn [fst snd] in *.
      f_equal; [|eauto]. f_equal; [|eauto]. eapply numeral_unique; eauto.
  - destruct A.
Qed.

(** ** The serializer keeps plain values *)
Lemma numeral_same R v v' z : numeral v z -> same_value R v v' -> numeral v' z.
Proof.
  intros [-> |[[t ->]|(e & -> & A)]] H; inversion H as [| |p q K| |]; subst.
  - destruct K as (t & _ & _ & ->). right. left. now exists t.
  - cbn in K. subst. right. left. now exists t.
  - right. right. now exists e.
Qed.
Theorem looks_kept reg h h' R : same_graph reg h h' R -> forall x v v', looks h x v -> same_value R v v' -> looks h' x v'.
Proof.
  intros G x. induction x as [| z | s | b | c | l IH | l IH | l IH | n] using plain_ind; intros v v' A S.
  - cbn in *. subst. inversion S. reflexivity.
  - eapply numeral_same; eauto.
  - cbn in *. subst. inversion S as [| |p q K| |]; subst. cbn in K. now subst.
  - cbn in *. subst. inversion S. reflexivity.
  - cbn in *. subst. inversion S as [| |p q K| |]; subst. cbn in K. now subst.
  - rewrite looks_list in *. destruct A as (a & o & k & vs & -> & Ha & Hb & A). inversion S as [| | | |x y K]; subst.
    destruct (G _ _ K) as (o1 & o' & E & E' & Q). rewrite Ha in E. injection E as <-. unfold same_object in Q. rewrite Hb in Q.
    destruct Q as ((l' & B & F) & _). exists y, o', k, l'. repeat split; auto. clear - IH A F.
    revert l' F. induction A as [|x v l vs H A IA]; intros l' F; inversion F; subst; [constructor|]. inversion IH; subst. constructor; eauto.
  - rewrite looks_obj in *. destruct A as (a & o & -> & Ha & Hb & Hd & A). inversion S as [| | | |x y K]; subst.
    destruct (G _ _ K) as (o1 & o' & E & E' & Q). rewrite Ha in E. injection E as <-. unfold same_object in Q. rewrite Hb in Q.
    destruct Q as (B & _ & _ & C & D). exists y, o'. split; [reflexivity|]. split; [exact E'|]. split; [exact B|].
    split; [rewrite Hd in C; inversion C; reflexivity|]. clear - IH A D. revert D. generalize (g_extended o').
    induction A as [|x v l vs H A IA]; intros l' D; inversion D as [|? ? ? ? [D1 D2] D3]; subst; [constructor|]. inversion IH; subst.
    destruct H as [K1 K2]. constructor; [split; [congruence|eauto]|auto].
  - rewrite looks_dict in *. destruct A as (a & o & es & -> & Ha & Hb & A). inversion S as [| | | |x y K]; subst.
    destruct (G _ _ K) as (o1 & o' & E & E' & Q). rewrite Ha in E. injection E as <-. unfold same_object in Q. rewrite Hb in Q.
    destruct Q as ((l' & B & D) & _). exists y, o', l'. split; [reflexivity|]. split; [exact E'|]. split; [exact B|].
    clear - IH A D. revert l' D.
    induction A as [|x v l vs H A IA]; intros l' D; inversion D as [|? ? ? ? [D1 D2] D3]; subst; [constructor|]. inversion IH; subst.
    destruct H as [K1 K2]. constructor; [split; [eapply numeral_same; eauto|eauto]|auto].
  - destruct A.
Qed.
Lemma looks_more h h' : (forall a o, aget a h = Some o -> aget a h' = Some o) -> forall x v, looks h x v -> looks h' x v.
Proof.
  intros G x. induction x as [| z | s | b | c | l IH | l IH | l IH | n] using plain_ind; intros v A; try exact A.
  - rewrite looks_list in *. destruct A as (a & o & k & vs & -> & Ha & Hb & A). exists a, o, k, vs. repeat split; auto.
    clear - IH A. induction A; [constructor|]. inversion IH; subst. constructor; auto.
  - rewrite looks_obj in *. destruct A as (a & o & -> & Ha & Hb & Hd & A). exists a, o. repeat split; auto.
    clear - IH A. induction A as [|x y l m [K1 K2] A IA]; [constructor|]. inversion IH; subst. constructor; [split; auto|auto].
  - rewrite looks_dict in *. destruct A as (a & o & es & -> & Ha & Hb & A). exists a, o, es. repeat split; auto.
    clear - IH A. induction A as [|x y l m [K1 K2] A IA]; [constructor|]. inversion IH; subst. constructor; [split; auto|auto].
Qed.
