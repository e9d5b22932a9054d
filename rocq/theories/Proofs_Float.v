From Verif Require Import Base BaseFacts Model_Scalars Model_Decimal Model_Float Spec_Scalars Spec_Numeral Spec_Decimal Spec_Float.
Local Open Scope N_scope.

(** ** Rounding *)
Lemma pow_pos s : 0 < 2 ^ s.
Proof. apply N.neq_0_lt_0, N.pow_nonzero. lia. Qed.
Lemma half_even_spec p d : 0 < d -> let m := half_even p d in
  2 * dist (d * m) p <= d /\ (2 * dist (d * m) p = d -> N.Even m) /\ p / d <= m <= p / d + 1.
Proof.
  intros D. cbv zeta. unfold half_even, dist. pose proof (N.div_mod p d ltac:(lia)) as E. pose proof (N.mod_lt p d ltac:(lia)) as L.
  set (m0 := p / d) in *. set (r := p mod d) in *. clearbody m0 r.
  destruct (N.compare_spec (2 * r) d) as [C|C|C].
  - destruct (N.even m0) eqn:V.
    + split; [lia|]. split; [intros _; now apply N.even_spec|lia].
    + replace (d * (m0 + 1)) with (d * m0 + d) by lia. split; [lia|]. split; [|lia]. intros _. rewrite N.add_1_r. apply N.Even_succ.
      rewrite <- N.odd_spec, <- N.negb_even, V. reflexivity.
  - split; [lia|]. split; lia.
  - replace (d * (m0 + 1)) with (d * m0 + d) by lia. split; [lia|]. split; lia.
Qed.
Lemma half_even_best p d k : 0 < d -> let m := half_even p d in
  dist (d * m) p <= dist (d * k) p /\ (dist (d * m) p = dist (d * k) p -> k = m \/ N.Even m).
Proof.
  intros D. cbv zeta. destruct (half_even_spec p d D) as (H1 & H2 & _). set (m := half_even p d) in *. clearbody m.
  destruct (N.lt_trichotomy k m) as [L|[->|L]].
  - assert (exists j, m = k + 1 + j) as [j ->] by (exists (m - k - 1); lia). unfold dist in *. replace (d * (k + 1 + j)) with (d * k + d + d * j) in * by lia.
    set (x := d * k) in *. set (y := d * j) in *. clearbody x y. split; [lia|]. intros Q. right. apply H2. lia.
  - split; [lia|]. now left.
  - assert (exists j, k = m + 1 + j) as [j ->] by (exists (k - m - 1); lia). unfold dist in *. replace (d * (m + 1 + j)) with (d * m + d + d * j) in * by lia.
    set (x := d * m) in *. set (y := d * j) in *. clearbody x y. split; [lia|]. intros Q. right. apply H2. lia.
Qed.
Lemma grid_multiple y s : grid y -> 2 ^ (52 + s) <= y -> exists k, y = k * 2 ^ s.
Proof.
  intros (m & t & -> & M) H. destruct (N.le_gt_cases s t) as [L|L].
  - exists (m * 2 ^ (t - s)). rewrite <- N.mul_assoc, <- N.pow_add_r. f_equal. f_equal. lia.
  - exfalso. assert (2 ^ (53 + t) <= 2 ^ (52 + s)) as A by (apply N.pow_le_mono_r; lia).
    rewrite N.pow_add_r in A. pose proof (N.mul_lt_mono_pos_r (2 ^ t) m (2 ^ 53) (pow_pos t)) as B. apply B in M. lia.
Qed.
Lemma shift_bounds p q : 0 < q -> let s := shift_of p q in
  p / q / 2 ^ s < 2 ^ 53 /\ (s <> 0 -> 2 ^ 52 <= p / q / 2 ^ s).
Proof.
  intros Q. cbv zeta. unfold shift_of. set (a := p / q). clearbody a.
  destruct (N.le_gt_cases (N.log2 a) 52) as [L|L].
  - replace (N.log2 a - 52) with 0 by lia. rewrite N.pow_0_r, N.div_1_r. split; [|lia].
    destruct (N.eq_0_gt_0_cases a) as [->|P]; [reflexivity|]. pose proof (proj2 (N.log2_spec a P)) as B.
    eapply N.lt_le_trans; [exact B|]. apply N.pow_le_mono_r; lia.
  - assert (0 < a) as P by (destruct (N.eq_0_gt_0_cases a) as [->|P]; [discriminate L|exact P]).
    destruct (N.log2_spec a P) as [B1 B2]. set (s := N.log2 a - 52). assert (N.log2 a = 52 + s) as E by (unfold s; lia). rewrite E in *. clearbody s.
    rewrite <- N.add_succ_l in B2. rewrite N.pow_add_r in B1, B2. change (N.succ 52) with 53 in B2. pose proof (pow_pos s). split.
    + apply N.div_lt_upper_bound; lia.
    + intros _. apply N.div_le_lower_bound; lia.
Qed.
Theorem round_nearest p q : 0 < q -> nearest p q (round_units p q).
Proof.
  intros Q. unfold round_units. destruct (shift_bounds p q Q) as [B1 B2]. set (s := shift_of p q) in *. clearbody s.
  pose proof (pow_pos s) as S. assert (0 < q * 2 ^ s) as D by (apply N.mul_pos_pos; assumption).
  pose proof (half_even_spec p (q * 2 ^ s) D) as (_ & _ & M1 & M2). pose proof (half_even_best p (q * 2 ^ s)) as BEST.
  rewrite N.div_div in B1, B2 by lia. pose proof (N.mul_div_le p (q * 2 ^ s) ltac:(lia)) as LE.
  set (m := half_even p (q * 2 ^ s)) in *. set (m0 := p / (q * 2 ^ s)) in *. clearbody m0.
  assert (q * (m * 2 ^ s) = q * 2 ^ s * m) as E by lia.
  assert (forall k, q * (k * 2 ^ s) = q * 2 ^ s * k) as EK by (intros; lia).
  assert (N.Even m -> even_last (m * 2 ^ s)) as EV.
  { intros V. destruct (N.lt_ge_cases m (2 ^ 53)) as [L|L].
    - exists m, s. split; [reflexivity|]. split; [exact L|]. split; [exact V|]. destruct (N.eq_dec s 0) as [Z|Z]; [now left|right]. specialize (B2 Z). lia.
    - assert (m = 2 ^ 53) as -> by lia. exists (2 ^ 52), (1 + s). split; [rewrite N.pow_add_r; lia|]. split; [reflexivity|].
      split; [exists (2 ^ 51); reflexivity|right; lia]. }
  split.
  - destruct (N.lt_ge_cases m (2 ^ 53)) as [L|L]; [exists m, s; auto|]. assert (m = 2 ^ 53) as -> by lia.
    exists (2 ^ 52), (1 + s). split; [rewrite N.pow_add_r; lia|reflexivity].
  - intros y G. rewrite E. destruct (N.eq_dec s 0) as [Z|Z]; [|destruct (N.lt_ge_cases y (2 ^ (52 + s))) as [L|L]].
    + subst s. replace y with (y * 2 ^ 0) by (rewrite N.pow_0_r; lia). rewrite EK. destruct (BEST y D) as [C1 C2]. split; [exact C1|].
      intros T. destruct (C2 T) as [-> |V]; [now left|right; now apply EV].
    + destruct (BEST (2 ^ 52) D) as [C1 _]. rewrite N.pow_add_r in L. specialize (B2 Z).
      pose proof (N.mul_le_mono_l _ _ (q * 2 ^ s) B2) as B3. pose proof (proj1 (N.mul_lt_mono_pos_l q y _ Q) L) as L2.
      replace (q * (2 ^ 52 * 2 ^ s)) with (q * 2 ^ s * 2 ^ 52) in L2 by lia. unfold dist in *.
      set (X := q * 2 ^ s * 2 ^ 52) in *. set (Y := q * 2 ^ s * m) in *. set (W := q * y) in *. set (V := q * 2 ^ s * m0) in *. clearbody X Y W V. lia.
    + destruct (grid_multiple y s G L) as [k ->]. rewrite EK. destruct (BEST k D) as [C1 C2]. split; [exact C1|].
      intros T. destruct (C2 T) as [-> |V]; [now left|right; now apply EV].
Qed.
(** There is one nearest. *)
Lemma even_next u u' : even_last u -> grid u' -> u < u' -> exists m s, u = m * 2 ^ s /\ (m + 1) * 2 ^ s <= u' /\ grid ((m + 1) * 2 ^ s)
  /\ N.Even m /\ m < 2 ^ 53 /\ (s = 0 \/ 2 ^ 52 <= m).
Proof.
  intros (m & s & -> & M & V & C) G L. exists m, s. split; [reflexivity|].
  assert (m + 1 < 2 ^ 53) as M1 by (destruct V as [h ->]; change (2 ^ 53) with (2 * 2 ^ 52) in *; lia).
  split; [|split; [exists (m + 1), s; auto|auto]].
  pose proof (pow_pos s) as S. destruct C as [-> |C].
  - rewrite N.pow_0_r in *. lia.
  - destruct (grid_multiple u' s G) as [k ->].
    + rewrite N.pow_add_r. pose proof (N.mul_le_mono_r _ _ (2 ^ s) C). lia.
    + apply N.mul_lt_mono_pos_r in L; [|exact S]. apply N.mul_le_mono_r. lia.
Qed.
Lemma nearest_lt p q u u' : 0 < q -> nearest p q u -> nearest p q u' -> u < u' -> False.
Proof.
  intros Q [G B] [G' B'] L. destruct (B u' G') as [D1 T]. destruct (B' u G) as [D2 T'].
  assert (dist (q * u) p = dist (q * u') p) as E by lia. destruct (T E) as [-> |V]; [lia|]. destruct (T' (eq_sym E)) as [-> |V']; [lia|].
  destruct (even_next u u' V G' L) as (m & s & -> & N1 & N2 & (h & ->) & M & C).
  set (y := (2 * h + 1) * 2 ^ s) in *. assert (2 * h * 2 ^ s < y) as Y by (unfold y; pose proof (pow_pos s); lia).
  destruct (N.lt_ge_cases y u') as [L2|L2].
  - destruct (B y N2) as [D3 _]. pose proof (proj1 (N.mul_lt_mono_pos_l q _ _ Q) Y). pose proof (proj1 (N.mul_lt_mono_pos_l q _ _ Q) L2).
    unfold dist in *. clear - E D3 H H0. set (a := q * (2 * h * 2 ^ s)) in *. set (b := q * y) in *. set (c := q * u') in *. clearbody a b c. lia.
  - assert (u' = y) as -> by lia. unfold y in V'. destruct V' as (m' & s' & W & M' & (h' & ->) & C').
    destruct (N.le_gt_cases s s') as [A|A].
    + replace s' with (s + (s' - s)) in W by lia. rewrite N.pow_add_r in W.
      assert (2 * h + 1 = 2 * (h' * 2 ^ (s' - s))) as O; [|lia]. apply (N.mul_cancel_r _ _ (2 ^ s)); [pose proof (pow_pos s); lia|]. lia.
    + destruct C as [-> |C]; [lia|]. replace s with (s' + (1 + (s - s' - 1))) in W by lia. rewrite !N.pow_add_r in W.
      assert ((2 * h + 1) * (2 * 2 ^ (s - s' - 1)) = 2 * h') as O.
      { apply (N.mul_cancel_r _ _ (2 ^ s')); [pose proof (pow_pos s'); lia|]. rewrite N.pow_1_r in W. lia. }
      pose proof (pow_pos (s - s' - 1)) as P. set (z := 2 ^ (s - s' - 1)) in *. clearbody z.
      assert ((2 * h + 1) * (2 * 1) <= (2 * h + 1) * (2 * z)) as K by (apply N.mul_le_mono_l; lia).
      change (2 ^ 53) with (2 * 2 ^ 52) in *. lia.
Qed.
Theorem nearest_one p q u u' : 0 < q -> nearest p q u -> nearest p q u' -> u = u'.
Proof.
  intros Q A B. destruct (N.lt_trichotomy u u') as [L|[E|L]]; [now destruct (nearest_lt p q u u' Q A B)|exact E|now destruct (nearest_lt p q u' u Q B A)].
Qed.
(** Rounding depends on the number alone, and leaves doubles alone. *)
Lemma nearest_exact q u : 0 < q -> grid u -> nearest (q * u) q u.
Proof.
  intros Q G. split; [exact G|]. intros y Gy. unfold dist. split; [lia|]. intros E. left. assert (q * u = q * y) as E2 by lia.
  apply N.mul_cancel_l in E2; lia.
Qed.
Lemma round_exact q u : 0 < q -> grid u -> round_units (q * u) q = u.
Proof. intros Q G. eapply nearest_one; [exact Q|now apply round_nearest|now apply nearest_exact]. Qed.
Lemma dist_mul a b c : dist (a * c) (b * c) = dist a b * c.
Proof. unfold dist. rewrite <- !N.mul_sub_distr_r. lia. Qed.
Lemma nearest_scale p q c u : 0 < c -> nearest p q u -> nearest (p * c) (q * c) u.
Proof.
  intros C [G B]. split; [exact G|]. intros y Gy. destruct (B y Gy) as [D T].
  replace (q * c * u) with (q * u * c) by lia. replace (q * c * y) with (q * y * c) by lia. rewrite !dist_mul. split; [now apply N.mul_le_mono_r|].
  intros E. apply N.mul_cancel_r in E; [auto|lia].
Qed.
Lemma round_scale p q c : 0 < q -> 0 < c -> round_units (p * c) (q * c) = round_units p q.
Proof.
  intros Q C. apply (nearest_one (p * c) (q * c)); [now apply N.mul_pos_pos|apply round_nearest; now apply N.mul_pos_pos|].
  apply nearest_scale; [exact C|now apply round_nearest].
Qed.
Definition num_of (n : N) (e : Z) : N := n * 10 ^ Z.to_N e * 2 ^ 1074.
Definition den_of (e : Z) : N := 10 ^ Z.to_N (- e).
Lemma den_pos e : 0 < den_of e.
Proof. unfold den_of. apply N.neq_0_lt_0, N.pow_nonzero. lia. Qed.
Lemma to_units_eq n e : to_units n e = round_units (num_of n e) (den_of e).
Proof.
  unfold to_units, scaled, num_of, den_of, unit_places. destruct (Z.leb_spec 0 e) as [H|H]; cbn [fst snd].
  - replace (Z.to_N (- e)) with 0 by lia. reflexivity.
  - replace (Z.to_N e) with 0 by lia. rewrite N.pow_0_r, N.mul_1_r. reflexivity.
Qed.
Lemma to_units_ten n e : to_units (n * 10) (e - 1) = to_units n e.
Proof.
  rewrite !to_units_eq. unfold num_of, den_of. generalize (2 ^ 1074). intros w. destruct (Z.le_gt_cases 1 e) as [H|H].
  - replace (Z.to_N (- (e - 1))) with 0 by lia. replace (Z.to_N (- e)) with 0 by lia. f_equal.
    replace (Z.to_N e) with (N.succ (Z.to_N (e - 1))) by lia. rewrite N.pow_succ_r'. lia.
  - replace (Z.to_N (e - 1)) with 0 by lia. replace (Z.to_N e) with 0 by lia.
    replace (Z.to_N (- (e - 1))) with (N.succ (Z.to_N (- e))) by lia. rewrite N.pow_succ_r', (N.mul_comm 10).
    replace (n * 10 * 10 ^ 0 * w) with (n * 10 ^ 0 * w * 10) by lia. apply round_scale; [apply den_pos|lia].
Qed.
Lemma to_units_tens j : forall n e, to_units (n * 10 ^ N.of_nat j) (e - Z.of_nat j) = to_units n e.
Proof.
  induction j as [|j IH]; intros n e; [rewrite N.pow_0_r, N.mul_1_r; f_equal; lia|].
  rewrite Nat2N.inj_succ, N.pow_succ_r', <- (IH n e), <- (to_units_ten _ (e - Z.of_nat j)). f_equal; lia.
Qed.
Lemma closest_reads place u places r : closest_at place u places = Some r -> to_units (fst r) (snd r) = u.
Proof.
  intros E. unfold closest_at in E. cbv zeta in E. destruct (if (0 <=? place - Z.of_nat places)%Z then _ else _) as [p q] in E.
  match type of E with context [if to_units (fst ?a) (snd ?a) =? u then _ else _] => destruct (N.eqb_spec (to_units (fst a) (snd a)) u) as [E1|_] end.
  - injection E as <-. exact E1.
  - match type of E with context [if to_units (fst ?a) (snd ?a) =? u then _ else _] => destruct (N.eqb_spec (to_units (fst a) (snd a)) u) as [E2|_] end; [|discriminate].
    injection E as <-. exact E2.
Qed.
Lemma shortest_S f places u : shortest (S f) places u = match closest u places with Some r => r | None => shortest f (S places) u end.
Proof. reflexivity. Qed.
Lemma shortest_O places u : shortest O places u = (u * 5 ^ unit_places, (- Z.of_N unit_places)%Z).
Proof. reflexivity. Qed.
Lemma shortest_reads : forall fuel places u, grid u -> to_units (fst (shortest fuel places u)) (snd (shortest fuel places u)) = u.
Proof.
  induction fuel as [|f IH]; intros places u G.
  - rewrite shortest_O. cbn [fst snd]. unfold unit_places. change (- Z.of_N 1074)%Z with (-1074)%Z. rewrite to_units_eq. unfold num_of, den_of.
    change (Z.to_N (-1074)) with 0. change (Z.to_N (- (-1074))) with 1074. rewrite N.pow_0_r, N.mul_1_r.
    assert (10 ^ 1074 = 5 ^ 1074 * 2 ^ 1074) as -> by (rewrite <- N.pow_mul_l; reflexivity).
    set (a := 5 ^ 1074). set (b := 2 ^ 1074).
    assert (0 < a * b) as P by (apply N.mul_pos_pos; apply N.neq_0_lt_0, N.pow_nonzero; lia). clearbody a b.
    replace (u * a * b) with (a * b * u) by lia. now apply round_exact.
  - rewrite shortest_S. destruct (closest u places) as [r|] eqn:E; [|now apply IH]. exact (closest_reads (first_place u) u places r E).
Qed.
