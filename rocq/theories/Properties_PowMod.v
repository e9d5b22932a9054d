(** C90: powers with a modulus. *)
From Coq Require Import ZArith Znumtheory.
From Verif Require Import Base BaseFacts Model_Scalars Model_PowMod Spec_Scalars Spec_PowMod Proofs_Scalars.
Local Open Scope Z_scope.

Definition settled (m x : Z) : Z := let r := x mod Z.abs m in if ((m <? 0) && negb (r =? 0))%bool then r - Z.abs m else r.
Lemma settled_ok m x : m <> 0 -> towards m (settled m x) /\ (m | x - settled m x).
Proof.
  intros N0. unfold settled, towards. pose proof (Z.mod_pos_bound x (Z.abs m) ltac:(lia)) as B.
  assert (m | x - x mod Z.abs m) as D.
  { apply Z.divide_abs_l. exists (x / Z.abs m). pose proof (Z.div_mod x (Z.abs m) ltac:(lia)). lia. }
  destruct (Z.ltb_spec m 0), (Z.eqb_spec (x mod Z.abs m) 0); cbn [andb negb]; (split; [lia|]); try exact D.
  replace (x - (x mod Z.abs m - Z.abs m)) with (x - x mod Z.abs m + Z.abs m) by lia. apply Z.divide_add_r; [exact D|]. apply Z.divide_abs_r. apply Z.divide_refl.
Qed.
Lemma towards_one m r s : m <> 0 -> towards m r -> towards m s -> (m | r - s) -> r = s.
Proof. intros N0 R S [k E]. unfold towards in *. assert (k = 0) by nia. lia. Qed.
Lemma one_power m y k : (m | y - 1) -> 0 <= k -> (m | y ^ k - 1).
Proof.
  intros D. revert k. apply natlike_ind; [exists 0; reflexivity|]. intros k K IH. rewrite Z.pow_succ_r by exact K.
  replace (y * y ^ k - 1) with (y * (y ^ k - 1) + (y - 1)) by ring. apply Z.divide_add_r; [now apply Z.divide_mul_r|exact D].
Qed.
Lemma mod_one c x : 0 < c -> (x mod c = 1 mod c <-> (c | x - 1)).
Proof.
  intros P. split.
  - intros E. apply Z.mod_divide; [lia|]. rewrite Zminus_mod, E, <- Zminus_mod. now rewrite Z.sub_diag, Z.mod_0_l by lia.
  - intros [k E]. replace x with (1 + k * c) by lia. apply Z.mod_add. lia.
Qed.
Lemma inverse_some a c i : 0 < c -> inverse_mod a c = Some i -> (c | a * i - 1).
Proof. intros P E. apply find_some in E as [_ E]. apply Z.eqb_eq in E. now apply mod_one. Qed.
Lemma inverse_none a c i : 0 < c -> inverse_mod a c = None -> ~ (c | a * i - 1).
Proof.
  intros P E D. pose proof (Z.mod_pos_bound i c P) as B.
  assert (In (i mod c) (map Z.of_nat (seq 0 (Z.to_nat c)))) as I0 by (apply in_map_iff; exists (Z.to_nat (i mod c)); split; [lia|apply in_seq; lia]).
  pose proof (find_none _ _ E _ I0) as Q. cbn beta in Q. apply Z.eqb_neq in Q. apply Q. rewrite Z.mul_mod_idemp_r by lia. now apply mod_one.
Qed.
(** The result of int.__pow__ is the number between zero and the modulus that is congruent to the power, or whose product with
    the power of the opposite exponent is congruent to one. *)
Theorem C90_power : forall z n m r, pow_mod z n m = Ok r <-> power_of z n m r.
Proof.
  intros z n m r. unfold pow_mod, power_of. destruct (Z.eqb_spec m 0) as [->|N0]; [split; [discriminate|intros [Q _]; now destruct Q]|].
  assert (0 < Z.abs m) as P by lia. destruct (Z.ltb_spec n 0) as [L|L].
  - destruct (inverse_mod z (Z.abs m)) as [i|] eqn:V; cbn [bind].
    + apply inverse_some in V; [|exact P]. apply (proj1 (Z.divide_abs_l m _)) in V. fold (settled m (i ^ Z.abs n)). destruct (settled_ok m (i ^ Z.abs n) N0) as [T D].
      replace (Z.abs n) with (- n) in * by lia. set (k := - n) in *. assert (0 <= k) as K by lia. pose proof (one_power m (z * i) k V K) as O. rewrite Z.pow_mul_l in O.
      split.
      * intros E. injection E as <-. split; [exact N0|]. split; [exact T|]. split; [lia|]. intros _.
        replace (settled m (i ^ k) * z ^ k - 1) with ((z ^ k * i ^ k - 1) - (i ^ k - settled m (i ^ k)) * z ^ k) by ring.
        apply Z.divide_sub_r; [exact O|now apply Z.divide_mul_l].
      * intros (_ & R & _ & Q). specialize (Q L). f_equal. apply (towards_one m); [exact N0|exact T|exact R|].
        replace (settled m (i ^ k) - r) with ((r * (z ^ k * i ^ k - 1)) - (r * z ^ k - 1) * i ^ k - (i ^ k - settled m (i ^ k))) by ring.
        apply Z.divide_sub_r; [apply Z.divide_sub_r; [now apply Z.divide_mul_r|now apply Z.divide_mul_l]|exact D].
    + split; [discriminate|]. intros (_ & _ & _ & Q). specialize (Q L). exfalso. apply (inverse_none z (Z.abs m) (r * z ^ (- n - 1)) P V). apply Z.divide_abs_l.
      replace (z * (r * z ^ (- n - 1))) with (r * z ^ (- n)); [exact Q|]. replace (- n) with (Z.succ (- n - 1)) at 1 by lia. rewrite Z.pow_succ_r by lia. ring.
  - cbn [bind]. replace (Z.abs n) with n by lia. fold (settled m (z ^ n)). destruct (settled_ok m (z ^ n) N0) as [T D]. split.
    + intros E. injection E as <-. split; [exact N0|]. split; [exact T|]. split; [now intros _|lia].
    + intros (_ & R & Q & _). specialize (Q L). f_equal. apply (towards_one m); [exact N0|exact T|exact R|].
      replace (settled m (z ^ n) - r) with ((z ^ n - r) - (z ^ n - settled m (z ^ n))) by ring. now apply Z.divide_sub_r.
Qed.
Print Assumptions C90_power.
(** What the method gives is that number as a value of the type; whatever else happens is a ValueError. *)
Theorem C90_method : forall t z n m r, int_pow_mod t z n m = Ok r <-> power_of z n m r /\ fits t r.
Proof.
  intros t z n m r. rewrite <- C90_power. unfold int_pow_mod. destruct (pow_mod z n m) as [w|x]; cbn [bind]; [|split; [discriminate|intros [E _]; discriminate E]]. split.
  - intros E. apply new_int_inv in E as [-> F]. auto.
  - intros [E F]. injection E as ->. now apply new_int_ok.
Qed.
Print Assumptions C90_method.
Theorem C90_error : forall t z n m x, int_pow_mod t z n m = Err x -> x = ValueError.
Proof.
  intros t z n m x. unfold int_pow_mod, pow_mod. destruct (m =? 0); cbn [bind]; [congruence|].
  destruct (n <? 0); [destruct (inverse_mod z (Z.abs m)); cbn [bind]; [|congruence]|cbn [bind]]; cbn [new_int]; destruct (_ || _)%bool in |- *; congruence.
Qed.
Print Assumptions C90_error.
(** With a modulus of the type itself and a number that has an inverse, or an exponent that is not negative, the power is there:
    the range is no obstacle, unlike without a modulus. *)
Theorem C90_there : forall t z n m, m <> 0 -> fits t m -> 0 <= n \/ (exists i, (m | z * i - 1)) -> exists r, int_pow_mod t z n m = Ok r.
Proof.
  intros t z n m N0 F H. assert (exists r, pow_mod z n m = Ok r) as [r E].
  { unfold pow_mod. destruct (Z.eqb_spec m 0) as [|_]; [contradiction|]. destruct (Z.ltb_spec n 0) as [L|L]; [|cbn [bind]; eauto].
    destruct (inverse_mod z (Z.abs m)) as [i|] eqn:V; [cbn [bind]; eauto|]. exfalso. destruct H as [H|[i H]]; [lia|]. apply (inverse_none z (Z.abs m) i ltac:(lia) V). now apply Z.divide_abs_l. }
  exists r. apply C90_method. apply C90_power in E. split; [exact E|]. destruct E as (_ & T & _). apply range_fits. apply range_fits in F.
  rewrite orb_false_iff, Z.gtb_ltb, !Z.ltb_ge in *. unfold towards in T. assert (min_value t <= 0 <= max_value t) by (destruct t; cbn; lia). lia.
Qed.
Print Assumptions C90_there.

Example C90_ex : int_pow_mod TByte 3 100 7 = Ok 4 /\ int_pow_mod TSByte 3 100 (-7) = Ok (-3) /\ int_pow_mod TByte 3 (-1) 7 = Ok 5 /\ int_pow_mod TByte 2 (-1) 4 = Err ValueError
  /\ int_pow_mod TByte 3 100 (-7) = Err ValueError /\ int_pow_mod TByte 3 2 0 = Err ValueError /\ int_pow_mod TByte 5 (-3) 1 = Ok 0 /\ fits TByte 7 /\ (7 | 3 * 5 - 1).
Proof. repeat (split; [vm_compute; reflexivity|]). split; [apply range_fits; reflexivity|now exists 2]. Qed.
