(** C87: classes of enumerations. *)
From Coq Require Import String.
From Verif Require Import Base BaseFacts Model_Scalars Model_Clixml Model_EnumClass Spec_Scalars Spec_Numeral Spec_EnumClass Proofs_Scalars Proofs_Numeral.
Local Open Scope list_scope.

Lemma text_same (a b : list N) : list_eqb N.eqb a b = true <-> a = b.
Proof. apply list_eqb_spec. apply N.eqb_eq. Qed.
Lemma new_says t a z : new_int t a = Ok z <-> says t a z.
Proof.
  destruct a as [|v|v|s]; cbn [says].
  - cbn [new_int]. split; [intros E; now injection E|now intros ->].
  - cbn [new_int]. split; [intros E; now injection E|now intros ->].
  - split; [apply new_int_inv|]. intros [-> F]. now apply new_int_ok.
  - change (new_int t (AText s)) with (bind (parse_int s) (fun z => new_int t (AInt z))). rewrite <- parse_int_iff. split.
    + destruct (parse_int s) as [v|x]; cbn [bind]; [|discriminate]. intros E. apply new_int_inv in E as [-> F]. auto.
    + intros [-> F]. cbn [bind]. now apply new_int_ok.
Qed.
Lemma parse_int_error s x : parse_int s = Err x -> x = ValueError.
Proof.
  assert (forall n k t y, length t <= k -> grouped n t = Err y -> y = ValueError) as G.
  { intros n k. revert n. induction k as [|k IH]; intros n t y L; destruct t as [|c t]; cbn [grouped length] in *; try discriminate; try lia.
    destruct (is_digit c); [apply IH; lia|]. destruct (c =? 95)%N; [|congruence]. destruct t as [|d t]; [congruence|]. cbn [length] in L. destruct (is_digit d); [apply IH; lia|congruence]. }
  assert (forall t y, parse_nat t = Err y -> y = ValueError) as P.
  { intros [|c t] y; cbn [parse_nat]; [congruence|]. destruct (is_digit c); [|congruence]. now apply (G _ (length t)). }
  unfold parse_int. destruct (rev _) as [|c t]; [congruence|].
  destruct (c =? 45)%N; [|destruct (c =? 43)%N]; destruct (parse_nat _) as [v|y] eqn:E; cbn [bind]; try discriminate; intros Q; injection Q as <-; exact (P _ _ E).
Qed.
Lemma reused_iff body : reused body = false <-> NoDup (map fst body).
Proof.
  induction body as [|[n a] body IH]; cbn [reused map fst]; [split; [constructor|reflexivity]|].
  rewrite orb_false_iff, IH, NoDup_cons_iff. unfold name_in. enough (existsb (fun x => list_eqb N.eqb (fst x) n) body = false <-> ~ In n (map fst body)) as -> by reflexivity.
  rewrite <- not_true_iff_false, existsb_exists, in_map_iff. split; intros H (x & A & B); apply H; exists x; [split; [exact B|now apply text_same]|split; [now apply text_same|exact A]].
Qed.
Lemma cast_iff t body : forall l, cast_all t body = Ok l <-> Forall2 (fun x y => fst x = fst y /\ says t (snd x) (snd y)) body l.
Proof.
  induction body as [|[n a] body IH]; intros l; cbn [cast_all]; [split; [intros E; injection E as <-; constructor|intros F; now inversion F]|]. split.
  - destruct (new_int t a) as [z|x] eqn:E; [|discriminate]. cbn [bind]. destruct (cast_all t body) as [r|x]; [|discriminate]. cbn [bind]. intros Q. injection Q as <-.
    constructor; [split; [reflexivity|now apply new_says]|now apply IH].
  - intros F. inversion F as [|? [n' z] ? l' [E S] F']. subst. cbn [fst snd] in *. apply new_says in S as ->. apply IH in F' as ->. cbn [bind]. now subst.
Qed.
Lemma made_iff kw body c : make_enum kw body = Ok c <->
  asked_for kw (en_base c) /\ NoDup (map fst body) /\ Forall2 (fun x y => fst x = fst y /\ says (en_base c) (snd x) (snd y)) body (en_declared c)
  /\ en_members c = without_aliases [] (en_declared c).
Proof.
  unfold make_enum. rewrite <- reused_iff, <- cast_iff. split.
  - destruct (reused body); [discriminate|]. destruct (base_type kw) as [t|x] eqn:K; [|discriminate]. cbn [bind].
    destruct (cast_all t body) as [l|x] eqn:E; [|discriminate]. cbn [bind]. intros Q. injection Q as <-. cbn [en_base en_declared en_members].
    split; [|auto]. destruct kw as [[t'|]|]; try discriminate K; injection K as <-; [now left|right; auto].
  - intros (K & -> & E & M). assert (base_type kw = Ok (en_base c)) as -> by (destruct K as [->|[-> K]]; [reflexivity|now rewrite K]). cbn [bind]. rewrite E. cbn [bind].
    destruct c as [t l m]. cbn in *. now subst.
Qed.
(** A class is made exactly when its base type is one of the eight, no name is used twice and every value is one of that type. *)
Theorem C87_made : forall kw body t l, (exists c, make_enum kw body = Ok c /\ en_base c = t /\ en_declared c = l) <->
  asked_for kw t /\ NoDup (map fst body) /\ Forall2 (fun x y => fst x = fst y /\ says t (snd x) (snd y)) body l.
Proof.
  intros kw body t l. split.
  - intros (c & M & <- & <-). apply made_iff in M as (A & B & C & _). auto.
  - intros (A & B & C). exists {| en_base := t; en_declared := l; en_members := without_aliases [] l |}. split; [apply made_iff; auto|auto].
Qed.
Print Assumptions C87_made.
(** What stops it is a TypeError for its form and a ValueError for its values. *)
Theorem C87_refused : forall kw body x, make_enum kw body = Err x ->
  x = TypeError /\ (kw = Some None \/ ~ NoDup (map fst body)) \/ x = ValueError /\ exists n a, In (n, a) body /\ forall t z, asked_for kw t -> ~ says t a z.
Proof.
  intros kw body x. unfold make_enum. destruct (reused body) eqn:R.
  - intros E. injection E as <-. left. split; [reflexivity|right]. rewrite <- reused_iff. congruence.
  - destruct (base_type kw) as [t|y] eqn:K; cbn [bind].
    + intros E. right. assert (forall t', asked_for kw t' -> t' = t) as A by (intros t' [->|[-> ->]]; cbn in K; congruence).
      destruct (cast_all t body) as [l|y] eqn:C; [discriminate E|]. cbn [bind] in E. injection E as <-. clear R. induction body as [|[n a] body IH]; [discriminate C|].
      cbn [cast_all] in C. destruct (new_int t a) as [z|y'] eqn:Z0; cbn [bind] in C.
      * destruct (cast_all t body) as [l|y'']; [discriminate C|]. cbn [bind] in C. destruct (IH C) as (V & m & b & I0 & S). split; [exact V|]. exists m, b. split; [now right|exact S].
      * injection C as <-. split.
        { destruct a as [|v|v|s]; cbn [new_int] in Z0; try discriminate Z0; [destruct (_ || _)%bool; congruence|]. destruct (parse_int s) as [v|q] eqn:P; cbn [bind] in Z0.
          - destruct (_ || _)%bool; congruence.
          - injection Z0 as ->. now apply parse_int_error in P. }
        exists n, a. split; [now left|]. intros t' z T S. apply A in T as ->. apply new_says in S. congruence.
    + intros E. injection E as <-. left. destruct kw as [[t|]|]; try discriminate K. injection K as <-. auto.
Qed.
Print Assumptions C87_refused.
(** Values of a class that copies no member of another one are in the range of the base type. *)
Theorem C87_range : forall kw body c n z, make_enum kw body = Ok c -> (forall m v, ~ In (m, AEnum v) body) -> In (n, z) (en_declared c) -> fits (en_base c) z.
Proof.
  intros kw body c n z M N0 I0. apply made_iff in M as (_ & _ & F & _). revert N0 I0. induction F as [|[m a] [m' v] body' l [E S] F IH]; intros N0 I0; [destruct I0|].
  destruct I0 as [I0|I0]; [|apply IH; [intros m2 v2 J; now apply (N0 m2 v2); right|exact I0]]. injection I0 as -> ->. cbn [fst snd] in *. subst m.
  destruct a as [|w|w|s]; cbn [says] in S; [|destruct (N0 n w); now left|now destruct S|now destruct S].
  subst z. apply range_fits. destruct (en_base c); reflexivity.
Qed.
Print Assumptions C87_range.
Lemma first_iff l z : forall seen, match find (fun x => (snd x =? z)%Z) (without_aliases seen l) with
  | Some (n, v) => v = z /\ first_name l n z | None => In z seen \/ ~ In z (map snd l) end.
Proof.
  induction l as [|[m v] l IH]; intros seen; cbn [without_aliases find map snd]; [right; intros []|].
  assert (forall n, v <> z -> first_name l n z -> first_name ((m, v) :: l) n z) as Later.
  { intros n N0 (b & a & -> & H). exists ((m, v) :: b), a. split; [reflexivity|]. cbn [map snd]. intros [E|E]; contradiction. }
  destruct (existsb (Z.eqb v) seen) eqn:E.
  - apply existsb_exists in E as (w & I0 & E). apply Z.eqb_eq in E. subst w. specialize (IH seen). destruct (Z.eq_dec v z) as [->|N0].
    + destruct (find _ _) as [[n w]|] eqn:Q; [|now left]. exfalso. clear IH. revert seen I0 Q. clear. induction l as [|[m v] l IH]; intros seen I0 Q; [discriminate Q|].
      cbn [without_aliases] in Q. destruct (existsb (Z.eqb v) seen) eqn:E; [now apply (IH seen)|]. cbn [find snd] in Q. destruct (Z.eqb_spec v z) as [->|_].
      * assert (existsb (Z.eqb z) seen = true) as T by (apply existsb_exists; exists z; split; [exact I0|apply Z.eqb_refl]). congruence.
      * apply (IH (v :: seen)); [now right|exact Q].
    + destruct (find _ _) as [[n w]|]; [destruct IH as [-> IH]; split; [reflexivity|now apply Later]|]. destruct IH as [IH|IH]; [now left|right]. intros [Q|Q]; contradiction.
  - cbn [find snd]. destruct (Z.eqb_spec v z) as [->|N0].
    + split; [reflexivity|]. exists [], l. split; [reflexivity|intros []].
    + specialize (IH (v :: seen)). destruct (find _ _) as [[n w]|]; [destruct IH as [-> IH]; split; [reflexivity|now apply Later]|].
      destruct IH as [[Q|IH]|IH]; [contradiction|now left|right]. intros [Q|Q]; contradiction.
Qed.
Lemma first_one l n n' z : first_name l n z -> first_name l n' z -> n = n'.
Proof.
  intros (b & a & -> & H) (b' & a' & E & H'). revert b' H' E. induction b as [|x b IH]; intros b' H' E; destruct b' as [|x' b'].
  - now injection E.
  - injection E as <- _. destruct H'. now left.
  - injection E as -> _. destruct H. now left.
  - injection E as <- E. apply (IH) with (b' := b'); [intros Q; apply H; now right|intros Q; apply H'; now right|exact E].
Qed.
(** A value is the first name that was declared with it, and any other value is refused. *)
Theorem C87_value : forall kw body c z, make_enum kw body = Ok c ->
  (forall n, of_value c z = Ok n <-> first_name (en_declared c) n z) /\ (~ In z (map snd (en_declared c)) -> of_value c z = Err ValueError).
Proof.
  intros kw body c z M. apply made_iff in M as (_ & _ & _ & M). unfold of_value. rewrite M. pose proof (first_iff (en_declared c) z []) as F.
  destruct (find _ _) as [[m v]|]; cbn in F.
  - destruct F as [-> F]. split.
    + intros n. split; [intros E; now injection E as <-|]. intros G. f_equal. exact (first_one _ _ _ _ F G).
    + intros H. destruct F as (b & a & E & _). destruct H. rewrite E, map_app. apply in_app_iff. right. now left.
  - destruct F as [[]|F]. split; [|reflexivity]. intros n. split; [discriminate|]. intros (b & a & E & _). destruct F. rewrite E, map_app. apply in_app_iff. right. now left.
Qed.
Print Assumptions C87_value.
(** Every declared name is the member that its value is: an object that is read as its value is the one that was written. *)
Theorem C87_round : forall kw body c n z, make_enum kw body = Ok c -> In (n, z) (en_declared c) -> exists m, of_name c n = Ok m /\ of_value c z = Ok m /\ first_name (en_declared c) m z.
Proof.
  intros kw body c n z M I0. destruct (C87_value kw body c z M) as [V _]. pose proof (proj1 (made_iff kw body c) M) as (_ & D & F & E).
  assert (map fst body = map fst (en_declared c)) as ND by (clear - F; induction F as [|x y l l' [Q _] F IH]; cbn [map]; [reflexivity|now f_equal]).
  rewrite ND in D. assert (exists m, of_value c z = Ok m) as [m O].
  { unfold of_value. rewrite E. pose proof (first_iff (en_declared c) z []) as Q. destruct (find _ _) as [[m v]|]; [eauto|]. destruct Q as [[]|Q]. destruct Q. apply in_map_iff. now exists (n, z). }
  exists m. split; [|split; [exact O|now apply V]]. unfold of_name.
  assert (find (fun x => list_eqb N.eqb (fst x) n) (en_declared c) = Some (n, z)) as ->; [|exact O].
  clear - D I0. induction (en_declared c) as [|[m v] l IH]; [destruct I0|]. cbn [find fst map] in *. apply NoDup_cons_iff in D as [N0 D].
  destruct (list_eqb N.eqb m n) eqn:Q.
  - apply text_same in Q as ->. destruct I0 as [I0|I0]; [now injection I0 as ->|]. destruct N0. apply in_map_iff. now exists (n, z).
  - destruct I0 as [I0|I0]; [injection I0 as -> ->; rewrite (proj2 (text_same n n) eq_refl) in Q; discriminate Q|]. now apply IH.
Qed.
Print Assumptions C87_round.
(** The claim that a class keeps to the range it is declared for is false twice.  A member of another enumeration is copied
    unchecked: *)
Theorem C87_copy_refuted : exists body c n z, make_enum None body = Ok c /\ In (n, z) (en_declared c) /\ ~ fits (en_base c) z.
Proof.
  exists [(tx "Big", AEnum 18446744073709551615)]. eexists. exists (tx "Big"), 18446744073709551615%Z. split; [vm_compute; reflexivity|].
  split; [now left|]. rewrite <- range_fits. discriminate.
Qed.
Print Assumptions C87_copy_refuted.
(** and a class that is derived from one of bytes is one of PSInt, unless it says so again. *)
Theorem C87_inherit_refuted : exists parent c, make_enum (Some (Some TByte)) [] = Ok parent
  /\ derive_enum parent None [(tx "Large", AInt 256)] = Ok c /\ en_base c = TInt32 /\ of_name c (tx "Large") = Ok (tx "Large") /\ ~ fits (en_base parent) 256.
Proof.
  eexists. eexists. split; [vm_compute; reflexivity|]. split; [vm_compute; reflexivity|]. split; [reflexivity|]. split; [vm_compute; reflexivity|].
  rewrite <- range_fits. discriminate.
Qed.
Print Assumptions C87_inherit_refuted.
(** What can be derived from is a class without members. *)
Theorem C87_derived : forall parent kw body c, derive_enum parent kw body = Ok c <-> en_members parent = [] /\ make_enum kw body = Ok c.
Proof. intros parent kw body c. unfold derive_enum. destruct (en_members parent); [tauto|]. split; [discriminate|intros [E _]; discriminate E]. Qed.
Print Assumptions C87_derived.

Definition sizes : list (list N * int_arg) := [(tx "Small", AInt 1); (tx "Large", AText (tx " 2_55 ")); (tx "Little", AInt 1)].
Example C87_ex : exists c, make_enum (Some (Some TByte)) sizes = Ok c /\ en_members c = [(tx "Small", 1%Z); (tx "Large", 255%Z)]
  /\ of_name c (tx "Little") = Ok (tx "Small") /\ of_value c 255 = Ok (tx "Large") /\ of_value c 2 = Err ValueError
  /\ make_enum (Some (Some TSByte)) sizes = Err ValueError /\ make_enum (Some None) sizes = Err TypeError
  /\ make_enum None (sizes ++ [(tx "Small", AInt 1)]) = Err TypeError /\ derive_enum c None [] = Err TypeError /\ (forall m v, ~ In (m, AEnum v) sizes).
Proof.
  eexists. split; [vm_compute; reflexivity|]. repeat (split; [vm_compute; reflexivity|]). intros m v H.
  destruct H as [H|[H|[H|[]]]]; discriminate H.
Qed.
