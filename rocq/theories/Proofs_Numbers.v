(** Proofs for C83. *)
From Verif Require Import Base BaseFacts Model_Scalars Model_Numbers Spec_Scalars Spec_Numbers Proofs_Scalars Properties_Scalars.
Local Open Scope Z_scope.
Lemma bind_both {A B} (x : result A) (f : A -> result B) b : bind x f = Ok b -> exists a, x = Ok a /\ f a = Ok b.
Proof. destruct x as [a|]; cbn [bind]; [eauto|discriminate]. Qed.
Ltac binds H := repeat match type of H with
  | bind _ _ = Ok _ => let a := fresh "r" in let E := fresh "E" in apply bind_both in H; destruct H as (a & E & H)
  end.

Lemma unary_means o x r : raw_op x (unary_op o) = Ok r <-> un_means o x r.
Proof. rewrite op_means_iff. destruct o; cbn [unary_op op_means un_means]; lia. Qed.
Definition plain_op (o : binary) (y : Z) : option int_op :=
  match o with
  | BAnd => Some (OAnd y) | BAdd => Some (OAdd y) | BFloorDiv => Some (OFloorDiv y) | BLshift => Some (OLshift y)
  | BMod => Some (OMod y) | BMul => Some (OMul y) | BOr => Some (OOr y) | BPow => if 0 <=? y then Some (OPow (Z.to_N y)) else None
  | BRshift => Some (ORshift y) | BSub => Some (OSub y) | BXor => Some (OXor y)
  end.
Lemma plain_result o x y q : plain_op o y = Some q -> int_result o x y = (let! z := raw_op x q in Ok (inl z)).
Proof.
  unfold int_result. destruct o; cbn [plain_op]; intros Q; try (injection Q as <-; reflexivity).
  unfold int_power. destruct (0 <=? y); [|discriminate]. injection Q as <-. reflexivity.
Qed.
Lemma plain_means o x y q r : plain_op o y = Some q -> op_means x q r <-> bin_means o x y r.
Proof.
  destruct o; cbn [plain_op]; intros Q; try (injection Q as <-; cbn [op_means bin_means]; try reflexivity; lia).
  destruct (Z.leb_spec 0 y); [|discriminate]. injection Q as <-. cbn [op_means bin_means]. rewrite Z_N_nat. split; [auto|tauto].
Qed.
Lemma whole_result o x y r : int_result o x y = Ok (inl r) <-> bin_means o x y r.
Proof.
  destruct (plain_op o y) as [q|] eqn:E.
  - rewrite (plain_result _ _ _ _ E), <- (plain_means _ x _ _ r E), <- op_means_iff. destruct (raw_op x q); cbn [bind]; split; intros Q; try discriminate; try (injection Q as <-; reflexivity).
  - destruct o; try discriminate. cbn [plain_op] in E. cbn [int_result bin_means]. unfold int_power. destruct (Z.leb_spec 0 y); [discriminate|].
    split; [|lia]. destruct (x =? 0); [discriminate|]. destruct (y <? - 2 ^ 53); discriminate.
Qed.
Lemma power_even x n : x = -1 -> 0 <= n -> x ^ n = if Z.even n then 1 else -1.
Proof.
  intros -> Hn. replace (-1) with (- (1)) by reflexivity. destruct (Z.even n) eqn:E.
  - rewrite Z.pow_opp_even by (now apply Z.even_spec). now apply Z.pow_1_l.
  - rewrite Z.pow_opp_odd; [now rewrite Z.pow_1_l|]. apply Z.odd_spec. rewrite <- Z.negb_even, E. reflexivity.
Qed.
(** 1 / x^n without its fraction. *)
Definition cut (x n r : Z) : Prop := x <> 0 /\ (r * x ^ n = 1 \/ (r = 0 /\ 1 < Z.abs x)).
Lemma big_power x n : 1 < Z.abs x -> 0 < n -> 1 < Z.abs (x ^ n).
Proof. intros Hx Hn. rewrite Z.abs_pow. apply Z.pow_gt_1; lia. Qed.
Lemma cut_is x n r : 0 < n -> cut x n r -> r = if x =? 1 then 1 else if x =? -1 then (if Z.even n then 1 else -1) else 0.
Proof.
  intros Hn [Hx H]. destruct (Z.eqb_spec x 1) as [->|H1]; [rewrite Z.pow_1_l in H by lia; lia|]. destruct (Z.eqb_spec x (-1)) as [E|H2].
  - rewrite (power_even x n E) in H by lia. destruct (Z.even n); lia.
  - assert (1 < Z.abs x) as Hb by lia. pose proof (big_power x n Hb Hn) as P. destruct H as [H|[H _]]; [|exact H]. nia.
Qed.
Lemma is_cut x n : x <> 0 -> 0 < n -> cut x n (if x =? 1 then 1 else if x =? -1 then (if Z.even n then 1 else -1) else 0).
Proof.
  intros Hx Hn. split; [exact Hx|]. destruct (Z.eqb_spec x 1) as [->|H1]; [left; rewrite Z.pow_1_l; lia|]. destruct (Z.eqb_spec x (-1)) as [E|H2]; [|right; lia].
  left. rewrite (power_even x n E) by lia. destruct (Z.even n); reflexivity.
Qed.
Lemma cut_result o x y r : int_result o x y = Ok (inr r) <-> o = BPow /\ exists n, y = - n /\ 0 < n <= 2 ^ 53 /\ cut x n r.
Proof.
  split.
  - intros H. destruct (plain_op o y) as [q|] eqn:E; [rewrite (plain_result _ _ _ _ E) in H; destruct (raw_op x q); discriminate|].
    destruct o; try discriminate. split; [reflexivity|]. exists (- y). cbn [int_result] in H. unfold int_power in H. destruct (Z.leb_spec 0 y); [cbn [plain_op] in E; rewrite (proj2 (Z.leb_le 0 y)) in E by assumption; discriminate|].
    destruct (Z.eqb_spec x 0); [discriminate|]. destruct (Z.ltb_spec y (- 2 ^ 53)); [discriminate|]. injection H as <-. split; [lia|]. split; [lia|]. rewrite <- (Z.even_opp y). apply is_cut; lia.
  - intros (-> & n & -> & Hn & Hc). cbn [int_result]. unfold int_power. destruct (Z.leb_spec 0 (- n)); [lia|]. destruct (Z.eqb_spec x 0); [now destruct Hc|].
    destruct (Z.ltb_spec (- n) (- 2 ^ 53)); [lia|]. rewrite (cut_is x n r) by (lia || exact Hc). now rewrite Z.even_opp.
Qed.

Lemma worth_same e z : worth e z -> forall z', worth e z' -> z = z'.
Proof.
  induction 1 as [z|t z|o e x r He IH Hr|o l m x y r Hl IHl Hm IHm Hr|l m t x n r Ht Hl IHl Hm IHm Hn Hx Hr]; intros z' H'.
  - now inversion H'.
  - now inversion H'.
  - inversion H' as [| |? ? x' ? He' Hr'| |]; subst. apply IH in He'. subst x'. apply unary_means in Hr. apply unary_means in Hr'. congruence.
  - inversion H' as [| | |? ? ? x' y' ? Hl' Hm' Hr'|? ? t' x' n' ? Ht' Hl' Hm' Hn' Hx' Hr']; subst.
    + apply IHl in Hl'. apply IHm in Hm'. subst x' y'. apply whole_result in Hr. apply whole_result in Hr'. congruence.
    + apply IHm in Hm'. subst y. cbn [bin_means] in Hr. lia.
  - inversion H' as [| | |? ? ? x' y' ? Hl' Hm' Hr'|? ? t' x' n' ? Ht' Hl' Hm' Hn' Hx' Hr']; subst.
    + apply IHm in Hm'. subst y'. cbn [bin_means] in Hr'. lia.
    + apply IHl in Hl'. apply IHm in Hm'. assert (n' = n) as -> by lia. subst x'. rewrite (cut_is x n r), (cut_is x n z'); try (split; assumption); lia || reflexivity.
Qed.
Lemma typed_of e n : eval e = Ok n -> match n with Typed t _ => leftmost e = Some t | _ => leftmost e = None end.
Proof.
  revert n. induction e as [m|o e IH|o l IHl r IHr]; intros n H; cbn [eval leftmost] in *.
  - injection H as <-. now destruct m.
  - binds H. specialize (IH _ E). unfold apply1 in H. destruct r as [x|t x|].
    + binds H. injection H as <-. exact IH.
    + binds H. injection H as <-. exact IH.
    + destruct o; try discriminate; injection H as <-; exact IH.
  - binds H. specialize (IHl _ E). unfold apply2 in H. destruct r0 as [x|t x|].
    + destruct (num_val r1) as [y|].
      * binds H. injection H as <-. destruct r0; exact IHl.
      * destruct (bitwise o); [discriminate|]. injection H as <-. exact IHl.
    + destruct (num_val r1) as [y|]; [|discriminate]. binds H. injection H as <-. exact IHl.
    + destruct (bitwise o); [discriminate|]. injection H as <-. exact IHl.
Qed.
Lemma value_worth e : forall n z, eval e = Ok n -> num_val n = Some z -> worth e z.
Proof.
  induction e as [m|o e IH|o l IHl r IHr]; intros n z H Hv; cbn [eval] in H.
  - injection H as <-. destruct m; cbn [num_val] in Hv; try discriminate; injection Hv as <-; constructor.
  - binds H. unfold apply1 in H. destruct r as [x|t x|].
    + binds H. injection H as <-. cbn in Hv. injection Hv as <-. apply unary_means in E0. eapply WUn; [|exact E0]. eapply IH; [exact E|reflexivity].
    + binds H. injection H as <-. cbn in Hv. injection Hv as <-. apply new_int_inv in E1 as [-> _]. apply unary_means in E0. eapply WUn; [|exact E0]. eapply IH; [exact E|reflexivity].
    + destruct o; try discriminate; injection H as <-; discriminate.
  - binds H. unfold apply2 in H. destruct (num_val r1) as [y|] eqn:Ey.
    + pose proof (IHr _ _ E0 Ey) as Wr. destruct r0 as [x|t x|].
      * binds H. injection H as <-. destruct r0 as [w|w]; [|discriminate]. cbn in Hv. injection Hv as <-. apply whole_result in E1. eapply WBin; [eapply IHl; [exact E|reflexivity]|exact Wr|exact E1].
      * binds H. injection H as <-. cbn in Hv. injection Hv as <-. apply new_int_inv in E2 as [-> _]. destruct r0 as [w|w].
        -- apply whole_result in E1. eapply WBin; [eapply IHl; [exact E|reflexivity]|exact Wr|exact E1].
        -- apply cut_result in E1 as (-> & k & -> & Hk & Hx & Hc). eapply WCut; [exact (typed_of _ _ E)|eapply IHl; [exact E|reflexivity]|exact Wr|exact Hk|exact Hx|exact Hc].
      * destruct (bitwise o); [discriminate|]. injection H as <-. discriminate.
    + destruct r0 as [x|t x|]; [|discriminate|]; (destruct (bitwise o); [discriminate|]); injection H as <-; discriminate.
Qed.
Lemma sub_eval s e : standing_in s e -> forall n, eval e = Ok n -> exists m, eval s = Ok m.
Proof.
  induction 1 as [|o e H IH|o l r H IH|o l r H IH]; intros n E; [eauto| | |]; cbn [eval] in E; binds E; eauto.
Qed.
Lemma held e n t z : eval e = Ok n -> (forall m, e <> ENum m) -> n = Typed t z -> fits t z.
Proof.
  intros H Hn ->. destruct e as [m|o e|o l r]; [now elim (Hn m)| |]; cbn [eval] in H; binds H.
  - unfold apply1 in H. destruct r as [x|u x|]; [binds H; discriminate| |destruct o; discriminate]. binds H. injection H as <- <-. now apply new_int_inv in E1.
  - unfold apply2 in H. destruct r0 as [x|u x|].
    + destruct (num_val r1); [|destruct (bitwise o); discriminate]. binds H. destruct r0; discriminate.
    + destruct (num_val r1); [|discriminate]. binds H. injection H as <- <-. now apply new_int_inv in E2.
    + destruct (bitwise o); discriminate.
Qed.
Lemma value_fits e n : eval e = Ok n -> all_fit e.
Proof.
  intros H s t z Hs Hn Hl Hw. destruct (sub_eval _ _ Hs _ H) as (m & Em). pose proof (typed_of _ _ Em) as Ht. destruct m as [x|u x|]; try congruence.
  assert (u = t) as -> by congruence. pose proof (value_worth _ _ x Em eq_refl) as Wx. rewrite (worth_same _ _ Hw _ Wx). exact (held _ _ _ _ Em Hn eq_refl).
Qed.
Lemma worth_value e z : worth e z -> all_fit e -> eval e = Ok (with_type (leftmost e) z).
Proof.
  induction 1 as [z|t z|o e x r He IH Hr|o l m x y r Hl IHl Hm IHm Hr|l m t x n r Ht Hl IHl Hm IHm Hn Hx Hr]; intros HA; cbn [eval leftmost]; try reflexivity.
  - rewrite IH by (intros s t z Hs; apply HA; now constructor). pose proof (proj2 (unary_means _ _ _) Hr) as Er.
    pose proof (fun t H => HA (EUn o e) t r (InHere _) ltac:(discriminate) H (WUn _ _ _ _ He Hr)) as HF. cbn [leftmost] in HF.
    destruct (leftmost e) as [t|]; cbn [with_type bind apply1]; rewrite Er; cbn [bind]; [|reflexivity]. rewrite (new_int_ok t r (HF t eq_refl)). reflexivity.
  - rewrite IHl by (intros s t z Hs; apply HA; now apply InLeft). rewrite IHm by (intros s t z Hs; apply HA; now apply InRight). cbn [bind].
    pose proof (proj2 (whole_result _ _ _ _) Hr) as Er. pose proof (fun t H => HA (EBin o l m) t r (InHere _) ltac:(discriminate) H (WBin _ _ _ _ _ _ Hl Hm Hr)) as HF. cbn [leftmost] in HF.
    assert (num_val (with_type (leftmost m) y) = Some y) as Ey by now destruct (leftmost m).
    unfold apply2. rewrite Ey. destruct (leftmost l) as [t|]; cbn [with_type]; rewrite Er; cbn [bind]; [|reflexivity]. rewrite (new_int_ok t r (HF t eq_refl)). reflexivity.
  - rewrite IHl by (intros s u z Hs; apply HA; now apply InLeft). rewrite IHm by (intros s u z Hs; apply HA; now apply InRight). cbn [bind]. rewrite Ht.
    assert (num_val (with_type (leftmost m) (- n)) = Some (- n)) as Ey by now destruct (leftmost m).
    assert (int_result BPow x (- n) = Ok (inr r)) as Er by (apply cut_result; split; [reflexivity|]; exists n; split; [reflexivity|]; split; [exact Hn|split; assumption]).
    pose proof (HA (EBin BPow l m) t r (InHere _) ltac:(discriminate) Ht (WCut _ _ _ _ _ _ Ht Hl Hm Hn Hx Hr)) as HF.
    cbn [with_type]. unfold apply2. rewrite Ey, Er. cbn [bind]. rewrite (new_int_ok t r HF). reflexivity.
Qed.
Theorem exactly e z : eval e = Ok (with_type (leftmost e) z) <-> worth e z /\ all_fit e.
Proof.
  split; [|intros [H1 H2]; now apply worth_value]. intros H. split; [|now apply value_fits in H]. eapply value_worth; [exact H|]. now destruct (leftmost e).
Qed.

Lemma sum_plain l : forall a zs, Forall2 (fun n z => num_val n = Some z) l zs -> sum_from (Plain a) l = Ok (Plain (a + total zs)).
Proof.
  induction l as [|n l IH]; intros a zs H; inversion H as [|? z ? zs' Hn Hl]; subst; cbn [sum_from total]; [now rewrite Z.add_0_r|].
  unfold apply2. rewrite Hn. cbn [int_result raw_op bind]. rewrite (IH _ _ Hl). do 2 f_equal. lia.
Qed.
Theorem divided t x y : y <> 0 -> exists q r, x = y * q + r /\ (0 <= r < y \/ y < r <= 0)
  /\ (fits t q -> divide (Typed t x) y = Ok (Typed t q, Plain r)) /\ (~ fits t q -> divide (Typed t x) y = Err ValueError)
  /\ divide (Plain x) y = Ok (Plain q, Plain r).
Proof.
  intros Hy. exists (x / y), (x mod y). split; [now apply Z_div_mod_eq_full|]. split.
  - destruct (Z.lt_trichotomy y 0) as [H|[H|H]]; [right; pose proof (Z.mod_neg_bound x y H); lia|contradiction|left; now apply Z.mod_pos_bound].
  - cbn [divide raw_op]. destruct (Z.eqb_spec y 0); [contradiction|]. cbn [bind].
    split; [|split; [|reflexivity]]; intros F; [rewrite (new_int_ok _ _ F)|rewrite (new_int_bad _ _ F)]; reflexivity.
Qed.
