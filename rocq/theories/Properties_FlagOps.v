(** C89: flags and their operators. *)
From Coq Require Import String.
From Verif Require Import Base BaseFacts Model_Scalars Model_Clixml Model_Enum Model_FlagOps Spec_Scalars Spec_FlagOps Proofs_Scalars.
Local Open Scope list_scope.

Lemma mask_bit vs i : N.testbit (mask_of vs) i = true <-> exists w, In w vs /\ N.testbit w i = true.
Proof.
  induction vs as [|v vs IH]; cbn [mask_of fold_right]; [rewrite N.bits_0; split; [discriminate|intros (w & [] & _)]|].
  rewrite N.lor_spec, orb_true_iff. fold (mask_of vs). rewrite IH. split.
  - intros [H|(w & I0 & H)]; [exists v; split; [now left|exact H]|exists w; split; [now right|exact H]].
  - intros (w & [<-|I0] & H); [now left|right; eauto].
Qed.
Lemma flag_bit ms i : N.testbit (flag_mask ms) i = true <-> has_bit ms i.
Proof.
  unfold flag_mask, has_bit. rewrite mask_bit. split.
  - intros (w & I0 & H). apply in_map_iff in I0 as ([n v] & E & I0). cbn in E. subst v. eauto.
  - intros (n & w & I0 & H). exists w. split; [apply in_map_iff; now exists (n, w)|exact H].
Qed.
Lemma high_bit v i : N.testbit v i = true -> (2 ^ i <= v)%N.
Proof.
  intros H. destruct (N.le_gt_cases (2 ^ i) v) as [L|L]; [exact L|exfalso]. destruct (N.eq_dec v 0) as [->|N0]; [now rewrite N.bits_0 in H|].
  rewrite N.bits_above_log2 in H; [discriminate|]. apply N.log2_lt_pow2; lia.
Qed.
Lemma below k v : (forall i, N.testbit v i = true -> (i < k)%N) -> (v < 2 ^ k)%N.
Proof.
  intros H. destruct (N.eq_dec v 0) as [->|N0]; [apply N.neq_0_lt_0, N.pow_nonzero; discriminate|]. apply N.log2_lt_pow2; [lia|]. apply H, N.bit_log2, N0.
Qed.
Lemma known_iff ms v : ((all_bits ms <? v) || negb (N.land v (N.lxor (all_bits ms) (flag_mask ms)) =? 0))%N%bool = false <-> made_of ms v.
Proof.
  rewrite orb_false_iff, negb_false_iff, N.eqb_eq, N.ltb_ge. unfold all_bits. set (k := N.size (flag_mask ms)).
  assert (forall i, N.testbit (flag_mask ms) i = true -> (i < k)%N) as K.
  { intros i H. apply high_bit in H. pose proof (N.size_gt (flag_mask ms)) as G. fold k in G. apply (N.pow_lt_mono_r_iff 2); lia. }
  assert (0 < 2 ^ k)%N as P by (apply N.neq_0_lt_0, N.pow_nonzero; discriminate). split.
  - intros [L E] i H. apply flag_bit. pose proof (high_bit v i H) as G. rewrite N.ones_equiv in L.
    assert (i < k)%N as I0 by (apply (N.pow_lt_mono_r_iff 2); lia). apply (f_equal (fun x => N.testbit x i)) in E.
    rewrite N.land_spec, N.lxor_spec, H, N.bits_0, N.ones_spec_low in E by exact I0. cbn in E. destruct (N.testbit (flag_mask ms) i); [reflexivity|discriminate E].
  - intros M. split.
    + rewrite N.ones_equiv. enough (v < 2 ^ k)%N by lia. apply below. intros i H. apply K, flag_bit, M, H.
    + apply N.bits_inj. intros i. rewrite N.land_spec, N.lxor_spec, N.bits_0. destruct (N.testbit v i) eqn:H; [|reflexivity].
      apply M, flag_bit in H. rewrite H, N.ones_spec_low by (now apply K). reflexivity.
Qed.
Lemma width t : exists k, max_value t = (2 ^ Z.of_N k - 1)%Z.
Proof. destruct t; [exists 8%N|exists 7%N|exists 16%N|exists 15%N|exists 32%N|exists 31%N|exists 64%N|exists 63%N]; reflexivity. Qed.
Lemma made_fits t ms v : all_fit t ms -> made_of ms v -> new_int t (AInt (Z.of_N v)) = Ok (Z.of_N v).
Proof.
  intros A M. apply new_int_ok. apply range_fits. assert (min_value t <= 0)%Z as L by (destruct t; cbn; lia). destruct (width t) as [k W].
  assert (v < 2 ^ k)%N as B.
  { apply below. intros i H. apply M in H as (n & w & I0 & H). apply A in I0. apply range_fits in I0. apply high_bit in H.
    apply orb_false_iff in I0 as [_ I0]. rewrite Z.gtb_ltb, Z.ltb_ge in I0. apply (N.pow_lt_mono_r_iff 2); [lia|].
    apply N2Z.inj_lt. apply N2Z.inj_le in H. rewrite !N2Z.inj_pow in *. cbn [Z.of_N] in *. lia. }
  apply N2Z.inj_lt in B. rewrite N2Z.inj_pow in B. cbn [Z.of_N] in B. rewrite orb_false_iff, Z.gtb_ltb, !Z.ltb_ge. lia.
Qed.
(** A value is one of the class exactly when all its bits are in declared values; any other is refused.  The range of the base
    type never is what stops it. *)
Theorem C89_value : forall t ms v, all_fit t ms -> (made_of ms v -> flag_of t ms v = Ok v) /\ (~ made_of ms v -> flag_of t ms v = Err ValueError).
Proof.
  intros t ms v A. unfold flag_of. destruct (existsb (N.eqb v) (map snd ms)) eqn:E.
  - split; [reflexivity|]. intros N0. destruct N0. intros i H. apply existsb_exists in E as (w & I0 & E). apply N.eqb_eq in E. subst w.
    apply in_map_iff in I0 as ([n w] & E & I0). cbn in E. subst w. now exists n, v.
  - pose proof (known_iff ms v) as K. destruct (_ || _)%bool.
    + split; [|reflexivity]. intros M. apply K in M. discriminate M.
    + split; [|intros N0; destruct N0; now apply K]. intros M. now rewrite (made_fits t ms v A M).
Qed.
Print Assumptions C89_value.
Lemma bits_of o a b i : N.testbit (on_values o a b) i = by_bits o (N.testbit a i) (N.testbit b i).
Proof. destruct o; cbn [on_values by_bits]; [apply N.lor_spec|apply N.land_spec|]. rewrite N.lxor_spec. now destruct (N.testbit a i), (N.testbit b i). Qed.
(** The operators never fail on flags of the same class, give a flag of the class and work bit by bit. *)
Theorem C89_closed : forall t ms o a b, all_fit t ms -> made_of ms a -> made_of ms b ->
  exists r, operate t ms o a (WithFlag b) = Ok (AFlag r) /\ made_of ms r /\ forall i, N.testbit r i = by_bits o (N.testbit a i) (N.testbit b i).
Proof.
  intros t ms o a b A MA MB. exists (on_values o a b). assert (made_of ms (on_values o a b)) as M.
  { intros i. rewrite bits_of. specialize (MA i). specialize (MB i). destruct o, (N.testbit a i), (N.testbit b i); cbn; auto; discriminate. }
  split; [|split; [exact M|intros i; apply bits_of]]. cbn [operate]. destruct (C89_value t ms (on_values o a b) A) as [V _]. now rewrite (V M).
Qed.
Print Assumptions C89_closed.
(** With another integer of the library it is a flag exactly when the result has bits of the class only. *)
Theorem C89_other : forall t ms o a b, all_fit t ms ->
  (forall r, operate t ms o a (WithPS b) = Ok r <-> exists v, r = AFlag v /\ made_of ms v /\ forall i, N.testbit v i = by_bits o (N.testbit a i) (N.testbit b i))
  /\ (forall x, operate t ms o a (WithPS b) = Err x -> x = ValueError).
Proof.
  intros t ms o a b A. cbn [operate]. destruct (C89_value t ms (on_values o a b) A) as [V W]. pose proof (known_iff ms (on_values o a b)) as K. destruct (_ || _)%bool.
  - assert (~ made_of ms (on_values o a b)) as N0 by (intros M; apply K in M; discriminate M). rewrite (W N0). cbn [bind]. split; [|congruence].
    intros r. split; [discriminate|]. intros (v & _ & M & B). destruct N0. intros i. rewrite bits_of, <- B. apply M.
  - assert (made_of ms (on_values o a b)) as M by now apply K. rewrite (V M). cbn [bind]. split; [|discriminate]. intros r. split.
    + intros E. injection E as <-. exists (on_values o a b). split; [reflexivity|]. split; [exact M|]. intros i. apply bits_of.
    + intros (v & -> & _ & B). do 2 f_equal. apply N.bits_inj. intros i. now rewrite bits_of, B.
Qed.
Print Assumptions C89_other.
Lemma single_iff v : single_bit v = true <-> exists i, v = (2 ^ i)%N.
Proof.
  unfold single_bit. rewrite andb_true_iff, negb_true_iff, N.eqb_neq, N.eqb_eq. split.
  - intros [N0 E]. exists (N.log2 v). destruct (N.log2_spec v) as [L _]; [lia|]. apply N.le_antisymm; [|exact L].
    destruct (N.le_gt_cases v (2 ^ N.log2 v)) as [G|G]; [exact G|exfalso]. apply (f_equal (fun x => N.testbit x (N.log2 v))) in E.
    rewrite N.land_spec, N.bit_log2, N.bits_0 in E by exact N0. cbn in E.
    assert (N.log2 (v - 1) = N.log2 v) as Q. { apply N.log2_unique; [lia|]. destruct (N.log2_spec v) as [_ U]; lia. }
    assert (v - 1 <> 0)%N as N1. { assert (0 < 2 ^ N.log2 v)%N by (apply N.neq_0_lt_0, N.pow_nonzero; discriminate). lia. }
    rewrite <- Q in E. rewrite (N.bit_log2 _ N1) in E. discriminate E.
  - intros [i ->]. split; [apply N.pow_nonzero; discriminate|]. rewrite <- N.pred_sub, <- N.ones_equiv. apply N.bits_inj. intros j.
    rewrite N.land_spec, N.bits_0, N.pow2_bits_eqb. destruct (N.eqb_spec i j) as [->|_]; [|reflexivity]. rewrite N.ones_spec_high; [reflexivity|lia].
Qed.
Lemma singles_bit ms i : N.testbit (singles_mask ms) i = true <-> is_bit ms i.
Proof.
  unfold singles_mask, is_bit. rewrite mask_bit. split.
  - intros (w & I0 & H). apply filter_In in I0 as [I0 S]. apply single_iff in S as [j ->]. rewrite N.pow2_bits_eqb in H. apply N.eqb_eq in H as ->.
    apply in_map_iff in I0 as ([n w] & E & I0). cbn in E. subst w. now exists n.
  - intros [n I0]. exists (2 ^ i)%N. split; [|rewrite N.pow2_bits_eqb; apply N.eqb_refl]. apply filter_In. split; [apply in_map_iff; now exists (n, 2 ^ i)%N|].
    apply single_iff. now exists i.
Qed.
(** The inverse of a flag never fails: it has the single bits that the flag does not have. *)
Theorem C89_inverse : forall t ms a, all_fit t ms -> exists r, inverted t ms a = Ok r /\ made_of ms r /\ forall i, N.testbit r i = true <-> is_bit ms i /\ N.testbit a i = false.
Proof.
  intros t ms a A. exists (N.ldiff (singles_mask ms) a).
  assert (forall i, N.testbit (N.ldiff (singles_mask ms) a) i = true <-> is_bit ms i /\ N.testbit a i = false) as B
    by (intros i; now rewrite N.ldiff_spec, andb_true_iff, negb_true_iff, singles_bit).
  assert (made_of ms (N.ldiff (singles_mask ms) a)) as M.
  { intros i H. apply B in H as [[n H] _]. exists n, (2 ^ i)%N. split; [exact H|]. rewrite N.pow2_bits_eqb. apply N.eqb_refl. }
  split; [|auto]. unfold inverted. now apply C89_value.
Qed.
Print Assumptions C89_inverse.
(** Twice inverted, a flag of single bits is what it was; *)
Theorem C89_twice : forall t ms a r s, all_fit t ms -> (forall i, N.testbit a i = true -> is_bit ms i) -> inverted t ms a = Ok r -> inverted t ms r = Ok s -> s = a.
Proof.
  intros t ms a r s A S R Q. destruct (C89_inverse t ms a A) as (r' & R' & _ & BR). destruct (C89_inverse t ms r A) as (s' & S' & _ & BS).
  rewrite R' in R. injection R as ->. rewrite S' in Q. injection Q as ->. apply N.bits_inj. intros i. specialize (BR i). specialize (BS i). specialize (S i).
  destruct (N.testbit a i), (N.testbit r i), (N.testbit s i); try reflexivity; exfalso; intuition discriminate.
Qed.
Print Assumptions C89_twice.
(** others are lost: this is so for a value of two bits that are not declared one by one. *)
Theorem C89_twice_refuted : exists t ms a r s, all_fit t ms /\ made_of ms a /\ inverted t ms a = Ok r /\ inverted t ms r = Ok s /\ s <> a.
Proof.
  exists TInt32, [(tx "A", 1%N); (tx "B", 2%N); (tx "C", 12%N)], 12%N, 3%N, 0%N. split; [intros n w H; apply range_fits; repeat destruct H as [H|H]; try (injection H as <- <-; reflexivity); destruct H|].
  split; [intros i H; exists (tx "C"), 12%N; split; [right; right; now left|exact H]|]. split; [vm_compute; reflexivity|]. split; [vm_compute; reflexivity|discriminate].
Qed.
Print Assumptions C89_twice_refuted.
(** That operators keep the type is false where the other operand is an int of Python, also if it is the value of a flag. *)
Theorem C89_int_refuted : exists t ms a b r, all_fit t ms /\ made_of ms a /\ made_of ms b /\ operate t ms FOr a (WithFlag b) = Ok (AFlag r) /\ operate t ms FOr a (WithInt b) = Ok (APlain r).
Proof.
  exists TInt32, [(tx "A", 1%N); (tx "B", 2%N)], 1%N, 2%N, 3%N. split; [intros n w H; apply range_fits; repeat destruct H as [H|H]; try (injection H as <- <-; reflexivity); destruct H|].
  split; [intros i H; exists (tx "A"), 1%N; split; [now left|exact H]|]. split; [intros i H; exists (tx "B"), 2%N; split; [right; now left|exact H]|].
  split; vm_compute; reflexivity.
Qed.
Print Assumptions C89_int_refuted.

Definition options : list (list N * N) := [(tx "None", 0%N); (tx "Read", 1%N); (tx "Write", 2%N); (tx "Both", 12%N)].
Example C89_ex : all_fit TByte options /\ made_of options 5 /\ ~ made_of options 16 /\ flag_of TByte options 5 = Ok 5%N /\ flag_of TByte options 16 = Err ValueError
  /\ operate TByte options FXor 13 (WithFlag 5) = Ok (AFlag 8) /\ operate TByte options FOr 1 (WithPS 16) = Err ValueError /\ operate TByte options FAnd 1 (WithPS 17) = Ok (AFlag 1)
  /\ inverted TByte options 5 = Ok 2%N /\ (forall i, N.testbit 3 i = true -> is_bit options i).
Proof.
  assert (all_fit TByte options) as A by (intros n w H; apply range_fits; repeat destruct H as [H|H]; try (injection H as <- <-; reflexivity); destruct H).
  split; [exact A|]. split; [apply known_iff; vm_compute; reflexivity|]. split; [intros M; apply known_iff in M; vm_compute in M; discriminate M|].
  repeat (split; [vm_compute; reflexivity|]). intros i H. assert (i < 2)%N as L by (apply (N.pow_lt_mono_r_iff 2); [lia|]; apply high_bit in H; lia).
  assert (i = 0 \/ i = 1)%N as [->| ->] by lia; [exists (tx "Read"); right; now left|exists (tx "Write"); right; right; now left].
Qed.
