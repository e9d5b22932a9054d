(** C88: operators on members of enumerations. *)
From Coq Require Import String.
From Verif Require Import Base BaseFacts Model_Scalars Model_Clixml Model_EnumClass Model_EnumOps Spec_Scalars Spec_Numeral Spec_EnumClass Spec_EnumOps Proofs_Scalars Properties_Scalars Properties_EnumClass.
Local Open Scope list_scope.

Lemma first_in l n z : first_name l n z -> In z (map snd l).
Proof. intros (b & a & -> & _). rewrite map_app. apply in_app_iff. right. now left. Qed.
Lemma value_in kw body c z : make_enum kw body = Ok c -> In z (map snd (en_declared c)) -> exists n, of_value c z = Ok n /\ first_name (en_declared c) n z.
Proof.
  intros M I0. apply in_map_iff in I0 as ([n v] & E & I0). cbn in E. subst v. destruct (C87_round kw body c n z M I0) as (m & _ & V & F). now exists m.
Qed.
(** An operator gives the member whose value is what the operator comes to on integers, and no other. *)
Theorem C88_op : forall kw body c m o n r, make_enum kw body = Ok c ->
  (member_op c m o = Ok (n, r) <-> op_means (snd m) o r /\ first_name (en_declared c) n r).
Proof.
  intros kw body c m o n r M. destruct (C87_value kw body c r M) as [V _]. rewrite <- V, <- op_means_iff. unfold member_op.
  destruct (raw_op (snd m) o) as [w|x]; cbn [bind]; [|split; [discriminate|intros [E _]; discriminate E]].
  split.
  - destruct (of_value c w) as [n'|x] eqn:E; cbn [bind]; [|discriminate]. intros Q. injection Q as -> ->. auto.
  - intros [E F]. injection E as ->. now rewrite F.
Qed.
Print Assumptions C88_op.
(** What is refused has no result on integers, or a result that no member has; the latter is a ValueError. *)
Theorem C88_refused : forall kw body c m o x, make_enum kw body = Ok c -> member_op c m o = Err x ->
  (forall r, ~ op_means (snd m) o r) \/ x = ValueError /\ exists r, op_means (snd m) o r /\ ~ In r (map snd (en_declared c)).
Proof.
  intros kw body c m o x M. unfold member_op. destruct (raw_op (snd m) o) as [w|y] eqn:R; cbn [bind].
  - intros E. right. assert (~ In w (map snd (en_declared c))) as N0.
    { intros I0. destruct (value_in kw body c w M I0) as (n & V & _). rewrite V in E. discriminate E. }
    destruct (C87_value kw body c w M) as [_ V]. rewrite (V N0) in E. injection E as <-. split; [reflexivity|]. exists w. split; [now apply op_means_iff|exact N0].
  - intros _. left. intros r H. apply op_means_iff in H. congruence.
Qed.
Print Assumptions C88_refused.
(** The same of any row of operators: it stays in the class from the first to the last. *)
Theorem C88_row : forall kw body c m os n r, make_enum kw body = Ok c -> first_name (en_declared c) (fst m) (snd m) ->
  (member_ops c m os = Ok (n, r) <-> comes_to (en_declared c) (snd m) os r /\ first_name (en_declared c) n r).
Proof.
  intros kw body c m os n r M. revert m. induction os as [|o os IH]; intros [k z] H; cbn [member_ops fst snd] in *.
  - split.
    + intros E. injection E as -> ->. split; [constructor|exact H].
    + intros [E F]. inversion E. subst. now rewrite (first_one _ _ _ _ H F).
  - split.
    + destruct (member_op c (k, z) o) as [[k' w]|x] eqn:E; cbn [bind]; [|discriminate]. apply (C88_op kw body) in E as [E F]; [|exact M].
      intros Q. apply IH in Q as [Q G]; [|exact F]. split; [|exact G]. apply comes_cons with w; [exact E|now apply first_in in F|exact Q].
    + intros [E G]. inversion E as [|? ? ? w ? A B C]. subst. destruct (value_in kw body c w M B) as (k' & _ & F).
      assert (member_op c (k, z) o = Ok (k', w)) as -> by (apply (C88_op kw body); auto). cbn [bind]. apply IH; auto.
Qed.
Print Assumptions C88_row.
(** Without copied members an operator never does what it would not do on integers of the base type. *)
Theorem C88_base : forall kw body c m o n r, make_enum kw body = Ok c -> (forall k v, ~ In (k, AEnum v) body) ->
  member_op c m o = Ok (n, r) -> int_method (en_base c) (snd m) o = Ok r.
Proof.
  intros kw body c m o n r M N0 E. apply (C88_op kw body) in E as [E F]; [|exact M]. apply C15_int_operators_meaning. split; [exact E|].
  apply (C87_range kw body c n r M N0). destruct F as (b & a & -> & _). apply in_app_iff. right. now left.
Qed.
Print Assumptions C88_base.
(** The claim that operators work as they do on the base type is false: the sum of two members may be no member, *)
Theorem C88_sum_refuted : exists body c m r, make_enum None body = Ok c /\ In m (en_members c) /\ op_means (snd m) (OOr 2) r /\ In 2%Z (map snd (en_declared c))
  /\ int_method (en_base c) (snd m) (OOr 2) = Ok r /\ member_op c m (OOr 2) = Err ValueError.
Proof.
  exists [(tx "One", AInt 1); (tx "Two", AInt 2)]. eexists. exists (tx "One", 1%Z), 3%Z. split; [vm_compute; reflexivity|]. split; [now left|].
  split; [apply op_means_iff; reflexivity|]. split; [right; now left|]. split; vm_compute; reflexivity.
Qed.
Print Assumptions C88_sum_refuted.
(** and it may not be taken back, although the number is there again. *)
Theorem C88_back_refuted : exists body c m r, make_enum None body = Ok c /\ In m (en_members c) /\ member_ops c m [OAdd 1; OSub 1] = Err ValueError
  /\ op_means (snd m) (OAdd 1) r /\ op_means r (OSub 1) (snd m) /\ fits (en_base c) r.
Proof.
  exists [(tx "One", AInt 1); (tx "Three", AInt 3)]. eexists. exists (tx "One", 1%Z), 2%Z. split; [vm_compute; reflexivity|]. split; [now left|].
  split; [vm_compute; reflexivity|]. split; [apply op_means_iff; reflexivity|]. split; [apply op_means_iff; reflexivity|]. rewrite <- range_fits. reflexivity.
Qed.
Print Assumptions C88_back_refuted.

Definition colours : list (list N * int_arg) := [(tx "Black", AInt 0); (tx "Blue", AInt 1); (tx "Green", AInt 2); (tx "Cyan", AInt 3); (tx "Azure", AInt 1)].
Example C88_ex : exists c, make_enum None colours = Ok c /\ first_name (en_declared c) (tx "Blue") 1
  /\ member_op c (tx "Blue", 1%Z) (OOr 2) = Ok (tx "Cyan", 3%Z) /\ member_ops c (tx "Blue", 1%Z) [OAdd 2; OFloorDiv 2] = Ok (tx "Blue", 1%Z)
  /\ member_op c (tx "Blue", 1%Z) ONeg = Err ValueError /\ member_op c (tx "Blue", 1%Z) (OLshift (-1)) = Err ValueError /\ (forall r, ~ op_means 1 (OLshift (-1)) r)
  /\ (forall k v, ~ In (k, AEnum v) colours).
Proof.
  eexists. split; [vm_compute; reflexivity|]. split; [exists [(tx "Black", 0%Z)]; eexists; split; [vm_compute; reflexivity|cbn; intros [E|[]]; discriminate E]|].
  split; [vm_compute; reflexivity|]. split; [vm_compute; reflexivity|]. split; [vm_compute; reflexivity|]. split; [vm_compute; reflexivity|]. split.
  - intros r H. apply op_means_iff in H. discriminate H.
  - intros k v H. repeat destruct H as [H|H]; try discriminate H. exact H.
Qed.
