From Verif Require Import Base BaseFacts Model_Scalars Model_Decimal Model_Float Spec_Scalars Spec_Numeral Spec_Decimal Spec_Float
  Proofs_Scalars Proofs_Numeral Proofs_Decimal Proofs_Decimal2 Proofs_Float Proofs_Float2.
Local Open Scope N_scope.

(** ** Rounding keeps the order *)
Lemma nearest_mono p q a p' q' b : 0 < q -> 0 < q' -> p * q' <= p' * q -> nearest p q a -> nearest p' q' b -> a <= b.
Proof.
  intros Q Q' L A B. destruct (N.le_gt_cases a b) as [H|H]; [exact H|]. exfalso.
  apply (nearest_scale _ _ q' _ Q') in A. apply (nearest_scale _ _ q _ Q) in B. replace (q' * q) with (q * q') in B by lia.
  assert (0 < q * q') as D by (now apply N.mul_pos_pos). set (d := q * q') in *. set (x := p * q') in *. set (y := p' * q) in *. clearbody d x y.
  assert (d * b < d * a) as M by (now apply N.mul_lt_mono_pos_l).
  pose proof (proj1 (proj2 A b (proj1 B))) as A1. pose proof (proj1 (proj2 B a (proj1 A))) as B1. unfold dist in A1, B1.
  assert (x = y) as E by lia. subst y. pose proof (nearest_one _ _ _ _ D A B). lia.
Qed.
Lemma units_mono n e n' e' : num_of n e * den_of e' <= num_of n' e' * den_of e -> to_units n e <= to_units n' e'.
Proof.
  intros H. rewrite !to_units_eq. eapply nearest_mono; [apply (den_pos e)|apply (den_pos e')|exact H|apply round_nearest, den_pos|apply round_nearest, den_pos].
Qed.
Lemma units_below n e u : grid u -> num_of n e <= u * den_of e -> to_units n e <= u.
Proof.
  intros G H. rewrite to_units_eq. eapply (nearest_mono _ (den_of e) _ (den_of e * u) (den_of e)); [apply den_pos|apply den_pos| |apply round_nearest, den_pos|apply nearest_exact; [apply den_pos|exact G]].
  apply N.mul_le_mono_r. lia.
Qed.
Lemma units_above n e u : grid u -> u * den_of e <= num_of n e -> u <= to_units n e.
Proof.
  intros G H. rewrite to_units_eq. eapply (nearest_mono (den_of e * u) (den_of e) _ _ (den_of e)); [apply den_pos|apply den_pos| |apply nearest_exact; [apply den_pos|exact G]|apply round_nearest, den_pos].
  apply N.mul_le_mono_r. lia.
Qed.
Lemma units_same_mono n n' e : n <= n' -> to_units n e <= to_units n' e.
Proof. intros H. apply units_mono. apply N.mul_le_mono_r. unfold num_of. apply N.mul_le_mono_r, N.mul_le_mono_r, H. Qed.

(** ** The first place *)
Definition above (u : N) (n : N) (e : Z) : Prop := num_of n e <= u * den_of e.
Lemma above_ten u n e : above u (n * 10) (e - 1) <-> above u n e.
Proof.
  unfold above, num_of, den_of. generalize (2 ^ 1074). intros w. destruct (Z.le_gt_cases 1 e) as [H|H].
  - replace (Z.to_N (- (e - 1))) with 0 by lia. replace (Z.to_N (- e)) with 0 by lia.
    replace (Z.to_N e) with (N.succ (Z.to_N (e - 1))) by lia. rewrite N.pow_succ_r'. replace (n * 10 * 10 ^ Z.to_N (e - 1)) with (n * (10 * 10 ^ Z.to_N (e - 1))) by lia. reflexivity.
  - replace (Z.to_N (e - 1)) with 0 by lia. replace (Z.to_N e) with 0 by lia.
    replace (Z.to_N (- (e - 1))) with (N.succ (Z.to_N (- e))) by lia. rewrite N.pow_succ_r', N.pow_0_r, !N.mul_1_r. generalize (10 ^ Z.to_N (- e)). intros b.
    replace (n * 10 * w) with (10 * (n * w)) by lia. replace (u * (10 * b)) with (10 * (u * b)) by lia. generalize (n * w), (u * b). lia.
Qed.
Lemma above_tens u j : forall n e, above u (n * 10 ^ N.of_nat j) (e - Z.of_nat j) <-> above u n e.
Proof.
  induction j as [|j IH]; intros n e; [rewrite N.pow_0_r, N.mul_1_r; replace (e - Z.of_nat 0)%Z with e by lia; reflexivity|].
  rewrite <- (IH n e), <- (above_ten u _ (e - Z.of_nat j)), Nat2N.inj_succ, N.pow_succ_r'.
  replace (n * (10 * 10 ^ N.of_nat j)) with (n * 10 ^ N.of_nat j * 10) by lia. replace (e - Z.of_nat (S j))%Z with (e - Z.of_nat j - 1)%Z by lia. reflexivity.
Qed.
Lemma above_less u n n' e : n' <= n -> above u n e -> above u n' e.
Proof. unfold above, num_of. intros H A. eapply N.le_trans; [|exact A]. apply N.mul_le_mono_r, N.mul_le_mono_r, H. Qed.
Lemma ten_some j : 1 <= 10 ^ N.of_nat j.
Proof. pose proof (N.pow_nonzero 10 (N.of_nat j)). lia. Qed.
(** [u] is at least 10^k. *)
Lemma above_down u k k' : (k' <= k)%Z -> above u 1 k -> above u 1 k'.
Proof.
  intros L A. apply (above_tens u (Z.to_nat (k - k'))) in A. replace (k - Z.of_nat (Z.to_nat (k - k')))%Z with k' in A by lia.
  eapply above_less; [|exact A]. pose proof (ten_some (Z.to_nat (k - k'))). lia.
Qed.
Lemma ten_below_iff k u : ten_below k u = true <-> above u 1 k.
Proof.
  unfold ten_below, above, num_of, den_of, unit_places. generalize (2 ^ 1074). intros w. destruct (Z.leb_spec 0 k) as [H|H]; rewrite N.leb_le.
  - replace (Z.to_N (- k)) with 0 by lia. rewrite N.pow_0_r, N.mul_1_r, N.mul_1_l. reflexivity.
  - replace (Z.to_N k) with 0 by lia. rewrite N.pow_0_r, !N.mul_1_l. reflexivity.
Qed.
Lemma down_right u f : forall k, above u 1 (k - 1 - Z.of_nat f) ->
  let k0 := places_down f k u in above u 1 (k0 - 1) /\ (k0 = k \/ ~ above u 1 k0) /\ (k0 <= k)%Z.
Proof.
  induction f as [|f IH]; intros k A; cbn [places_down].
  - replace (k - 1 - Z.of_nat 0)%Z with (k - 1)%Z in A by lia. split; [exact A|]. split; [now left|lia].
  - destruct (ten_below (k - 1) u) eqn:E; [apply ten_below_iff in E; split; [exact E|]; split; [now left|lia]|].
    assert (~ above u 1 (k - 1)) as N0 by (rewrite <- ten_below_iff, E; discriminate).
    destruct (IH (k - 1)%Z) as (I1 & I2 & I3); [replace (k - 1 - 1 - Z.of_nat f)%Z with (k - 1 - Z.of_nat (S f))%Z by lia; exact A|].
    split; [exact I1|]. split; [right; destruct I2 as [->|I2]; assumption|lia].
Qed.
Lemma up_right u f : forall k, above u 1 (k - 1) -> ~ above u 1 (k + Z.of_nat f) ->
  let k0 := places_up f k u in above u 1 (k0 - 1) /\ ~ above u 1 k0.
Proof.
  induction f as [|f IH]; intros k A B; cbn [places_up].
  - replace (k + Z.of_nat 0)%Z with k in B by lia. split; assumption.
  - destruct (ten_below k u) eqn:E.
    + apply ten_below_iff in E. apply IH; [replace (k + 1 - 1)%Z with k by lia; exact E|]. replace (k + 1 + Z.of_nat f)%Z with (k + Z.of_nat (S f))%Z by lia. exact B.
    + split; [exact A|]. rewrite <- ten_below_iff, E. discriminate.
Qed.
Lemma places_right u : 0 < u -> u < 2 ^ 2098 -> above u 1 (first_place u - 1) /\ ~ above u 1 (first_place u).
Proof.
  intros P L. unfold first_place. cbv zeta. set (guess := ((Z.of_N (N.log2 u) - 1074) * 30102999 / 100000000)%Z).
  assert (-400 <= guess <= 400)%Z as G.
  { unfold guess. assert (N.log2 u < 2098) as Q by (apply N.log2_lt_pow2; assumption). generalize dependent (N.log2 u). intros l Q.
    pose proof (Z.div_mod ((Z.of_N l - 1074) * 30102999) 100000000). pose proof (Z.mod_pos_bound ((Z.of_N l - 1074) * 30102999) 100000000). lia. }
  assert (above u 1 (-400)) as A.
  { unfold above, num_of, den_of. change (Z.to_N (-400)) with 0. change (Z.to_N (- -400)) with 400. rewrite N.pow_0_r, !N.mul_1_l.
    apply N.le_trans with (1 * 10 ^ 400); [|apply N.mul_le_mono_r; lia]. apply N.leb_le. vm_compute. reflexivity. }
  assert (~ above u 1 400) as B.
  { unfold above, num_of, den_of. change (Z.to_N 400) with 400. change (Z.to_N (- 400)) with 0. rewrite N.pow_0_r, N.mul_1_l, N.mul_1_r. apply N.lt_nge.
    eapply N.lt_trans; [exact L|]. apply N.ltb_lt. vm_compute. reflexivity. }
  clearbody guess. assert (2000 <= N.to_nat (N.size u) + 2000)%nat as F by lia. set (f := (N.to_nat (N.size u) + 2000)%nat) in *. clearbody f.
  destruct (down_right u f guess) as (D1 & D2 & D3); [eapply above_down; [|exact A]; lia|]. apply up_right; [exact D1|].
  intros C. destruct D2 as [E|N0]; [apply B; rewrite E in C|apply N0]; (eapply above_down; [|exact C]); lia.
Qed.

(** ** The candidates *)
Lemma unzeroed_units f : forall n e, to_units (fst (unzeroed f n e)) (snd (unzeroed f n e)) = to_units n e.
Proof.
  induction f as [|f IH]; intros n e; cbn [unzeroed]; [reflexivity|]. destruct (N.eqb_spec (n mod 10) 0) as [E|_]; [|reflexivity].
  rewrite IH, <- (to_units_ten (n / 10) (e + 1)). f_equal; [|lia]. pose proof (N.div_mod n 10). lia.
Qed.
Lemma unzeroed_le f : forall n e, fst (unzeroed f n e) <= n.
Proof.
  induction f as [|f IH]; intros n e; cbn [unzeroed]; [cbn [fst]; lia|]. destruct (N.eqb_spec (n mod 10) 0) as [E|_]; [|cbn [fst]; lia].
  eapply N.le_trans; [apply IH|]. pose proof (N.div_mod n 10). lia.
Qed.
Lemma unzeroed_small d n e : n <= 10 ^ N.of_nat (S d) -> fst (unzeroed (S d) n e) < 10 ^ N.of_nat (S d).
Proof.
  intros L. apply N.le_lteq in L as [L| ->]; [eapply N.le_lt_trans; [apply unzeroed_le|exact L]|]. cbn [unzeroed].
  rewrite Nat2N.inj_succ, N.pow_succ_r'. rewrite (N.mul_comm 10), N.mod_mul by discriminate. cbn [N.eqb]. rewrite N.div_mul by discriminate.
  eapply N.le_lt_trans; [apply unzeroed_le|]. pose proof (ten_some d). lia.
Qed.
Definition part (u : N) (e : Z) : N * N := (u * 10 ^ Z.to_N (- e), 2 ^ 1074 * 10 ^ Z.to_N e).
Lemma part_eq u e : (if (0 <=? e)%Z then (u, 2 ^ unit_places * 10 ^ Z.to_N e) else (u * 10 ^ Z.to_N (- e), 2 ^ unit_places)) = part u e.
Proof.
  unfold part, unit_places. destruct (Z.leb_spec 0 e) as [H|H].
  - replace (Z.to_N (- e)) with 0 by lia. now rewrite N.pow_0_r, N.mul_1_r.
  - replace (Z.to_N e) with 0 by lia. now rewrite N.pow_0_r, N.mul_1_r.
Qed.
Lemma part_above u n e : above u n e <-> n * snd (part u e) <= fst (part u e).
Proof. unfold above, num_of, den_of, part. cbn [fst snd]. replace (n * (2 ^ 1074 * 10 ^ Z.to_N e)) with (n * 10 ^ Z.to_N e * 2 ^ 1074) by (rewrite (N.mul_comm (2 ^ 1074)), N.mul_assoc; reflexivity). reflexivity. Qed.
Lemma part_pos u e : 0 < snd (part u e).
Proof. unfold part. cbn [snd]. apply N.mul_pos_pos; apply N.neq_0_lt_0, N.pow_nonzero; discriminate. Qed.
Lemma closest_cases place u places :
  let e := (place - Z.of_nat places)%Z in let p := fst (part u e) in let q := snd (part u e) in
  (to_units (p / q) e = u \/ to_units (p / q + 1) e = u -> exists r, closest_at place u places = Some r)
  /\ forall r, closest_at place u places = Some r -> fst r <= p / q + 1 /\ exists n, n <= p / q + 1 /\ r = unzeroed places n e.
Proof.
  intros e p q. unfold closest_at. cbv zeta. fold e. rewrite part_eq. rewrite (surjective_pairing (part u e)). fold p q.
  destruct (half_even_spec p q (part_pos u e)) as (_ & _ & H). set (low := p / q) in *. set (near := half_even p q) in *. clearbody low near. clear p q.
  assert (exists far, (if near =? low then low + 1 else low) = far /\ far <= low + 1 /\ (near = low /\ far = low + 1 \/ near = low + 1 /\ far = low)) as (far & -> & F1 & F2).
  { eexists. split; [reflexivity|]. destruct (N.eqb_spec near low); lia. }
  rewrite !unzeroed_units. split.
  - intros C. destruct (N.eqb_spec (to_units near e) u) as [_|N1]; [eexists; reflexivity|]. destruct (N.eqb_spec (to_units far e) u) as [_|N2]; [eexists; reflexivity|].
    exfalso. destruct F2 as [[-> ->]|[-> ->]]; destruct C; contradiction.
  - intros r E. destruct (N.eqb_spec (to_units near e) u) as [_|_]; [|destruct (N.eqb_spec (to_units far e) u) as [_|_]; [|discriminate E]];
      injection E as <-; (split; [eapply N.le_trans; [apply unzeroed_le|]; lia|eexists; split; [|reflexivity]; lia]).
Qed.
Section Candidates.
  Variables (u : N) (d : nat).
  Hypotheses (P : 0 < u) (L : u < 2 ^ 2098) (G : grid u).
  Let e := (first_place u - Z.of_nat (S d))%Z.
  Let p := fst (part u e).
  Let q := snd (part u e).
  Lemma low_above n : above u n e <-> n <= p / q.
  Proof.
    rewrite part_above. fold p q. pose proof (part_pos u e) as Q. fold q in Q. clearbody p q. clear - Q. split; intros H.
    - apply N.div_le_lower_bound; lia.
    - pose proof (N.mul_div_le p q). nia.
  Qed.
  Lemma low_many : 10 ^ N.of_nat d <= p / q.
  Proof.
    apply low_above. destruct (places_right u P L) as [A _]. apply (above_tens u d) in A. rewrite N.mul_1_l in A.
    replace e with (first_place u - 1 - Z.of_nat d)%Z by (unfold e; lia). exact A.
  Qed.
  Lemma low_few : p / q < 10 ^ N.of_nat (S d).
  Proof.
    apply N.lt_nge. rewrite <- low_above. intros A. apply (proj2 (places_right u P L)). apply (above_tens u (S d)). rewrite N.mul_1_l. exact A.
  Qed.
  (** Whatever number of so many digits is read as [u], one next to [u] is. *)
  Lemma neighbour n' e' : n' < 10 ^ N.of_nat (S d) -> to_units n' e' = u -> to_units (p / q) e = u \/ to_units (p / q + 1) e = u.
  Proof.
    intros N0 U. pose proof low_many as M.
    assert (to_units (p / q) e <= u) as Lo by (apply units_below; [exact G|]; apply low_above; reflexivity).
    assert (u <= to_units (p / q + 1) e) as Hi.
    { apply units_above; [exact G|]. apply N.lt_le_incl, N.lt_nge. fold (above u (p / q + 1) e). rewrite low_above. lia. }
    destruct (Z.le_gt_cases e e') as [E|E].
    - rewrite <- (to_units_tens (Z.to_nat (e' - e))) in U. replace (e' - Z.of_nat (Z.to_nat (e' - e)))%Z with e in U by lia.
      set (n2 := n' * 10 ^ N.of_nat (Z.to_nat (e' - e))) in *. clearbody n2. destruct (N.le_gt_cases n2 (p / q)) as [C|C].
      + left. apply (units_same_mono _ _ e) in C. lia.
      + right. assert (p / q + 1 <= n2) as C2 by lia. apply (units_same_mono _ _ e) in C2. lia.
    - left. enough (u <= to_units (p / q) e) by lia. rewrite <- U. rewrite <- (to_units_tens (Z.to_nat (e - e')) (p / q) e).
      replace (e - Z.of_nat (Z.to_nat (e - e')))%Z with e' by lia. apply units_same_mono.
      replace (Z.to_nat (e - e')) with (S (Z.to_nat (e - e' - 1))) by lia. rewrite Nat2N.inj_succ, N.pow_succ_r' in *.
      pose proof (ten_some (Z.to_nat (e - e' - 1))). set (t := 10 ^ N.of_nat (Z.to_nat (e - e' - 1))) in *. clearbody t. nia.
  Qed.
  Lemma found n' e' : n' < 10 ^ N.of_nat (S d) -> to_units n' e' = u -> exists r, closest u (S d) = Some r.
  Proof. intros N0 U. apply closest_cases. exact (neighbour n' e' N0 U). Qed.
  Lemma found_small r : closest u (S d) = Some r -> fst r < 10 ^ N.of_nat (S d).
  Proof.
    intros E. apply closest_cases in E as (_ & n & H & ->). apply unzeroed_small. pose proof low_few as F. fold e in H. fold p q in H. lia.
  Qed.
End Candidates.

(** ** Seventeen digits are enough *)
Lemma grid_gap a b : grid a -> grid b -> a < b -> b < 10 ^ 16 * (b - a).
Proof.
  intros (m & s & -> & M) (m' & s' & -> & M') H. change (10 ^ 16) with 10000000000000000. change (2 ^ 53) with 9007199254740992 in *.
  destruct (N.le_gt_cases s' s) as [C|C].
  - replace s with ((s - s') + s') in * by lia. rewrite N.pow_add_r, N.mul_assoc in *. set (m2 := m * 2 ^ (s - s')) in *. clearbody m2.
    rewrite <- N.mul_sub_distr_r. pose proof (pow_pos s') as W. set (w := 2 ^ s') in *. clearbody w.
    assert (m2 < m') as Q by (apply (N.mul_lt_mono_pos_r w); lia). assert (1 <= m' - m2) as Q2 by lia. set (x := m' - m2) in *. clearbody x. nia.
  - replace s' with ((s' - s) + s) in * by lia. rewrite N.pow_add_r, N.mul_assoc in *. set (m2 := m' * 2 ^ (s' - s)) in *. clearbody m2.
    rewrite <- N.mul_sub_distr_r. pose proof (pow_pos s) as W. set (w := 2 ^ s) in *. clearbody w.
    assert (m < m2) as Q by (apply (N.mul_lt_mono_pos_r w); lia). assert (exists x, m2 = m + x /\ 1 <= x) as (x & -> & X) by (exists (m2 - m); lia).
    replace (m + x - m) with x by lia. nia.
Qed.
Lemma grid_far u y : grid u -> grid y -> y <> u -> u < 10 ^ 16 * dist u y.
Proof.
  intros U Y N0. unfold dist. destruct (N.lt_trichotomy u y) as [H|[->|H]]; [|contradiction|].
  - pose proof (grid_gap u y U Y H) as Q. replace (u - y + (y - u)) with (y - u) by lia. lia.
  - pose proof (grid_gap y u Y U H) as Q. replace (u - y + (y - u)) with (u - y) by lia. lia.
Qed.
Lemma seventeen u : 0 < u -> u < 2 ^ 2098 -> grid u -> exists n e, n < 10 ^ N.of_nat 18 /\ to_units n e = u /\ exists r, closest u 17 = Some r.
Proof.
  intros P L G. set (e := (first_place u - Z.of_nat 17)%Z). set (p := fst (part u e)). set (q := snd (part u e)).
  destruct (half_even_spec p q (part_pos u e)) as (H1 & _ & H2). set (n := half_even p q) in *.
  pose proof (low_few u 16 P L) as F. pose proof (low_many u 16 P L) as M. fold e in F, M. fold p q in F, M.
  assert (to_units n e = u) as U.
  { rewrite to_units_eq. eapply nearest_one; [apply den_pos|apply round_nearest, den_pos|]. split; [exact G|]. intros y Y.
    destruct (N.eq_dec y u) as [->|N0]; [split; [lia|auto]|].
    enough (dist (den_of e * u) (num_of n e) < dist (den_of e * y) (num_of n e)) as Q by (split; lia).
    assert (p = den_of e * u) as EP by (unfold p, part, den_of; cbn [fst]; apply N.mul_comm).
    assert (num_of n e = q * n) as EN.
    { unfold q, part, num_of. cbn [snd]. generalize (2 ^ 1074), (10 ^ Z.to_N e). intros a b. lia. }
    rewrite EN. rewrite EP in H1. assert (10 ^ 16 * q <= den_of e * u) as B.
    { rewrite <- EP. change (10 ^ N.of_nat 16) with (10 ^ 16) in M. pose proof (N.mul_div_le p q) as D. pose proof (part_pos u e) as Q. fold q in Q.
      set (low := p / q) in *. clearbody low. set (t := 10 ^ 16) in *. clearbody t. clear - M D Q. nia. }
    pose proof (grid_far u y G Y N0) as D. pose proof (den_pos e) as W. set (w := den_of e) in *. clearbody w q n. set (t := 10 ^ 16) in *. assert (0 < t) as T by reflexivity. clearbody t.
    assert (q < w * dist u y) as Q. { apply (N.mul_lt_mono_pos_l t); [exact T|]. nia. }
    clear - H1 Q. unfold dist in *.
    assert (w * (u - y + (y - u)) = (w * u - w * y) + (w * y - w * u)) as E by (rewrite N.mul_add_distr_l, !N.mul_sub_distr_l; reflexivity). rewrite E in Q. lia. }
  exists n, e. split; [|split; [exact U|]].
  - change (N.of_nat 18) with (N.succ (N.of_nat 17)). rewrite N.pow_succ_r'. lia.
  - apply closest_cases. fold e. fold p q. assert (n = p / q \/ n = p / q + 1) as [E|E] by lia; rewrite <- E; auto.
Qed.
(** ** No number of fewer digits is read as the same float *)
Lemma shortest_few u : 0 < u -> u < 2 ^ 2098 -> grid u -> forall f d, (S d + f = 18)%nat -> (1 <= f)%nat ->
  fst (shortest f (S d) u) < 10 ^ 17 /\ forall n' e' d', (d <= d')%nat -> n' < 10 ^ N.of_nat (S d') -> to_units n' e' = u -> fst (shortest f (S d) u) < 10 ^ N.of_nat (S d').
Proof.
  intros P L G. induction f as [|f IH]; intros d S0 F; [lia|]. rewrite shortest_S. destruct (closest u (S d)) as [r|] eqn:E.
  - pose proof (found_small u d P L r E) as R. split.
    + eapply N.lt_le_trans; [exact R|]. apply (N.pow_le_mono_r 10 _ 17); lia.
    + intros n' e' d' D _ _. eapply N.lt_le_trans; [exact R|]. apply N.pow_le_mono_r; lia.
  - destruct f as [|f]; [assert (d = 16)%nat as -> by lia; destruct (seventeen u P L G) as (_ & _ & _ & _ & r & R); congruence|].
    destruct (IH (S d)) as [I1 I2]; [lia|lia|]. split; [exact I1|]. intros n' e' d' D N0 U.
    assert (d' = d \/ S d <= d')%nat as [->|D2] by lia; [destruct (found u d P L G n' e' N0 U) as [r R]; congruence|]. exact (I2 n' e' d' D2 N0 U).
Qed.

(** ** How long the text is *)
Lemma place_bounds n e u : n <> 0 -> to_units n e = u -> 0 < u -> u < 2 ^ 2098 -> (Z.abs_N (e + Z.of_nat (length (dec n)) - 1) < 1000).
Proof.
  intros N0 U P L. pose proof (dec_some n) as S1. assert (n < 10 ^ N.of_nat (length (dec n))) as Up by (apply dec_size; lia).
  assert (10 ^ N.of_nat (length (dec n) - 1) <= n) as Lo.
  { destruct (Nat.le_gt_cases 2 (length (dec n))) as [H|H].
    - apply N.nlt_ge. rewrite <- dec_size by lia. lia.
    - replace (length (dec n) - 1)%nat with 0%nat by lia. rewrite N.pow_0_r. lia. }
  set (len := length (dec n)) in *. clearbody len.
  assert (e + Z.of_nat len - 1 < 1000)%Z as A.
  { apply Z.lt_nge. intros H. apply (units_same_mono _ _ e) in Lo. rewrite U in Lo.
    assert (to_units (10 ^ N.of_nat (len - 1)) e = to_units 1 (e + Z.of_nat len - 1)) as E.
    { rewrite <- (to_units_tens (len - 1) 1). f_equal; lia. }
    rewrite E in Lo. enough (2 ^ 2098 <= to_units 1 (e + Z.of_nat len - 1)) as B by (apply N.lt_nge in L; apply L; eapply N.le_trans; eassumption).
    apply units_above; [exists 1, 2098; split; reflexivity|]. set (k := (e + Z.of_nat len - 1)%Z) in *. clearbody k. unfold num_of, den_of.
    replace (Z.to_N (- k)) with 0 by lia. rewrite N.pow_0_r, N.mul_1_r, N.mul_1_l.
    apply N.le_trans with (10 ^ 1000 * 2 ^ 1074); [apply N.leb_le; vm_compute; reflexivity|]. apply N.mul_le_mono_r, N.pow_le_mono_r; lia. }
  assert (-1000 < e + Z.of_nat len - 1)%Z as B; [|lia].
  apply Z.lt_nge. intros H. assert (n <= 10 ^ N.of_nat len) as Up2 by lia. apply (units_same_mono _ _ e) in Up2. rewrite U in Up2.
  assert (to_units (10 ^ N.of_nat len) e = to_units 1 (e + Z.of_nat len)) as E by (rewrite <- (to_units_tens len 1); f_equal; lia). rewrite E in Up2.
  set (k := (e + Z.of_nat len)%Z) in *. clearbody k. rewrite to_units_eq in Up2.
  destruct (round_nearest (num_of 1 k) (den_of k) (den_pos k)) as [_ R]. set (u' := round_units (num_of 1 k) (den_of k)) in *. clearbody u'.
  destruct (R 0) as [R1 _]; [exists 0, 0; split; reflexivity|].
  assert (2 * num_of 1 k < den_of k) as D.
  { unfold num_of, den_of. replace (Z.to_N k) with 0 by lia. rewrite N.pow_0_r, !N.mul_1_l.
    apply N.lt_le_trans with (10 ^ 999); [apply N.ltb_lt; vm_compute; reflexivity|apply N.pow_le_mono_r; lia]. }
  set (a := num_of 1 k) in *. set (b := den_of k) in *. clearbody a b. unfold dist in R1. rewrite N.mul_0_r in R1. assert (1 <= u') as Q by lia. clear - R1 D Q. nia.
Qed.
Lemma repr_length ds place : (1 <= length ds)%nat -> (length ds <= 17)%nat -> Z.abs_N (place - 1) < 1000 -> (length (repr_text ds place) <= 23)%nat.
Proof.
  intros S1 F B. unfold repr_text.
  destruct ((-4 <? place) && (place <=? 16))%Z eqn:E.
  - apply andb_true_iff in E as [E1 E2]. apply Z.ltb_lt in E1. apply Z.leb_le in E2. destruct (Z.leb_spec place 0) as [A|A].
    + rewrite !app_length, repeat_length. cbn [length]. lia.
    + rewrite Z.geb_leb. destruct (Z.leb_spec (Z.of_nat (length ds)) place) as [C|C]; rewrite !app_length.
      * rewrite repeat_length. cbn [length]. lia.
      * rewrite firstn_length, skipn_length. cbn [length]. lia.
  - assert (length (dec_pad 2 (Z.abs_N (place - 1))) <= 3)%nat as X.
    { unfold dec_pad, padl. rewrite app_length, repeat_length. assert (length (dec (Z.abs_N (place - 1))) <= 3)%nat by (apply (dec_size _ 3); [lia|exact B]). lia. }
    rewrite !app_length. assert (length (match skipn 1 ds with [] => [] | t => [46%N] ++ t end) <= length (skipn 1 ds) + 1)%nat as Y by (destruct (skipn 1 ds); cbn [length app]; lia).
    rewrite skipn_length in Y. rewrite firstn_length. cbn [length] in *. lia.
Qed.
Lemma written_length f : is_double f -> (length (write_float f) <= 24)%nat.
Proof.
  intros D. destruct f as [neg u|neg|]; [|destruct neg; cbn; lia|cbn; lia].
  destruct D as [G L]. change (1024 + 1074) with 2098 in L. cbn [write_float].
  assert (length (sign_of neg) <= 1)%nat as SG by (destruct neg; cbn; lia). rewrite app_length.
  destruct (N.eqb_spec u 0) as [->|U]; [cbn [length]; lia|]. assert (0 < u) as P by lia.
  pose proof (shortest_reads 17 1 u G) as R. destruct (shortest_few u P L G 17 0 eq_refl) as [F _]; [lia|].
  destruct (shortest 17 1 u) as [n e]. cbn [fst snd] in R, F.
  assert (n <> 0) as N0.
  { intros ->. assert (to_units 0 e = 0) as Z0; [|lia]. apply N.le_antisymm; [|lia]. apply units_below; [exists 0, 0; split; reflexivity|].
    unfold num_of. rewrite !N.mul_0_l. reflexivity. }
  pose proof (place_bounds n e u N0 R P L) as B. apply (dec_size n 17) in F; [|lia]. pose proof (dec_some n) as S1.
  pose proof (repr_length (dec n) _ S1 F B). lia.
Qed.
Lemma written_short neg u : is_double (FNum neg u) -> exists n e j, xs_double (write_float (FNum neg u)) (Fin neg (n * 10 ^ N.of_nat j) (e - Z.of_nat j)) /\ n < 10 ^ 17
  /\ forall n' e' d, becomes (Fin neg n' e') (FNum neg u) -> n' < 10 ^ N.of_nat d -> n < 10 ^ N.of_nat d.
Proof.
  intros [G L]. change (1024 + 1074) with 2098 in L. destruct (written_number neg u G) as (m & x & n & k & e & W & M & X & T & n0 & e0 & j & -> & E & C).
  exists n0, e0, j. split; [|split].
  - rewrite W. exists [], (sign_of neg ++ m ++ x), []. rewrite app_nil_r. split; [reflexivity|]. split; [constructor|]. split; [constructor|].
    left. exists (sign_of neg), neg, m, (n0 * 10 ^ N.of_nat j), k, x, e. rewrite E. auto using sign_written.
  - destruct C as [[_ ->]|[U C]]; [reflexivity|]. destruct (shortest_few u ltac:(lia) L G 17 0 eq_refl) as [F _]; [lia|]. rewrite <- C in F. exact F.
  - intros n' e' d H D. pose proof (ten_some d) as T1. destruct C as [[_ ->]|[U C]]; [lia|].
    destruct H as (u' & R & [[_ H]|[_ H]]); [|discriminate H]. injection H as <-.
    assert (to_units n' e' = u) as Q by (rewrite to_units_eq; eapply nearest_one; [apply den_pos|apply round_nearest, den_pos|exact R]).
    destruct (shortest_few u ltac:(lia) L G 17 0 eq_refl) as [_ F]; [lia|]. rewrite <- C in F. cbn [fst] in F.
    destruct d as [|d]; [|apply (F n' e' d); [lia|exact D|exact Q]].
    exfalso. rewrite N.pow_0_r in D. assert (n' = 0) as -> by lia. apply U. rewrite <- Q. apply N.le_antisymm; [|lia].
    apply units_below; [exists 0, 0; split; reflexivity|]. unfold num_of. rewrite !N.mul_0_l. reflexivity.
Qed.
