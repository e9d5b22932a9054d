(** Indexing: proofs. *)
From Coq Require Import Sorting.Sorted.
From Verif Require Import Base BaseFacts Model_Object Model_Index Spec_Index.
Local Open Scope Z_scope.

Lemma nth_error_ext_all {A} (l r : list A) : (forall i, nth_error l i = nth_error r i) -> l = r.
Proof.
  revert r; induction l as [|x l IH]; intros [|y r] H; auto; try (specialize (H O); discriminate).
  pose proof (H O) as H0. cbn in H0. injection H0 as ->. f_equal. apply IH. intros i. exact (H (S i)).
Qed.
(** ** Sequences *)
Section Seq.
  Context {A : Type}.
  Implicit Types l : list A.
  Lemma at_index_means l z x : at_index l z = Ok x <-> exists i, means (length l) z i /\ nth_error l i = Some x.
  Proof.
    unfold at_index, means, zlen. set (n := length l). split.
    - destruct (z <? 0) eqn:Z0; [apply Z.ltb_lt in Z0|apply Z.ltb_ge in Z0].
      + destruct (z + Z.of_nat n <? 0) eqn:Z1; [discriminate|]. apply Z.ltb_ge in Z1.
        destruct (nth_error l _) eqn:E; [|discriminate]. intros [= ->]. exists (Z.to_nat (z + Z.of_nat n)).
        split; [|exact E]. split; [apply nth_error_Some; congruence|right; lia].
      + destruct (z <? 0) eqn:Z1; [apply Z.ltb_lt in Z1; lia|].
        destruct (nth_error l _) eqn:E; [|discriminate]. intros [= ->]. exists (Z.to_nat z).
        split; [|exact E]. split; [apply nth_error_Some; congruence|left; lia].
    - intros (i & [Hi [-> | ->]] & E).
      + replace (Z.of_nat i <? 0) with false by (symmetry; apply Z.ltb_ge; lia).
        replace (Z.of_nat i <? 0) with false by (symmetry; apply Z.ltb_ge; lia). now rewrite Nat2Z.id, E.
      + replace (Z.of_nat i - Z.of_nat n <? 0) with true by (symmetry; apply Z.ltb_lt; lia).
        replace (Z.of_nat i - Z.of_nat n + Z.of_nat n) with (Z.of_nat i) by lia.
        replace (Z.of_nat i <? 0) with false by (symmetry; apply Z.ltb_ge; lia). now rewrite Nat2Z.id, E.
  Qed.
  Lemma at_index_none l z : (forall i, ~ means (length l) z i) <-> at_index l z = Err IndexError.
  Proof.
    split.
    - intros H. destruct (at_index l z) as [x|e] eqn:E.
      + apply at_index_means in E as (i & I & _). destruct (H i I).
      + unfold at_index in E. repeat match type of E with context [if ?c then _ else _] => destruct c end; try destruct (nth_error _ _); congruence.
    - intros E i I. assert (exists x, nth_error l i = Some x) as [x X].
      { destruct (nth_error l i) eqn:N; [eauto|]. apply nth_error_None in N. destruct I. lia. }
      rewrite (proj2 (at_index_means l z x)) in E by eauto. discriminate.
  Qed.
  Lemma means_unique n z i j : means n z i -> means n z j -> i = j.
  Proof. intros [A1 A2] [B1 B2]. lia. Qed.
  Lemma replace_length l i v : length (replace l i v) = length l.
  Proof. revert i; induction l as [|x l IH]; intros [|i]; cbn; auto. Qed.
  Lemma replace_nth l i v j : (i < length l)%nat ->
    nth_error (replace l i v) j = if Nat.eqb i j then Some v else nth_error l j.
  Proof.
    revert i j; induction l as [|x l IH]; intros i j H; [cbn in H; lia|]. destruct i as [|i], j as [|j]; cbn; auto.
    apply IH. cbn in H. lia.
  Qed.
  Lemma set_index_means l z v l' : set_index l z v = Ok l' <->
    exists i, means (length l) z i /\ length l' = length l
      /\ forall j, nth_error l' j = if Nat.eqb i j then Some v else nth_error l j.
  Proof.
    unfold set_index, zlen. set (n := length l).
    assert (forall i, (i < n)%nat -> forall l', l' = replace l i v <-> (length l' = n /\ forall j, nth_error l' j = if Nat.eqb i j then Some v else nth_error l j)) as R.
    { intros i Hi l0. split.
      - intros ->. split; [apply replace_length|]. intros j. now apply replace_nth.
      - intros [L N]. apply nth_error_ext_all. intros j. rewrite N, replace_nth by exact Hi. reflexivity. }
    set (y := if z <? 0 then z + Z.of_nat n else z).
    assert (forall i, means n z i <-> (i < n)%nat /\ y = Z.of_nat i) as Y.
    { intros i. unfold means, y. destruct (z <? 0) eqn:Z0; [apply Z.ltb_lt in Z0|apply Z.ltb_ge in Z0]; split; intros [? ?]; split; auto; lia. }
    destruct (y <? 0) eqn:Y0; [apply Z.ltb_lt in Y0|apply Z.ltb_ge in Y0]; cbn [orb].
    - split; [discriminate|]. intros (i & I & _). apply Y in I. lia.
    - destruct (Z.of_nat n <=? y) eqn:Y1; [apply Z.leb_le in Y1|apply Z.leb_gt in Y1].
      + split; [discriminate|]. intros (i & I & _). apply Y in I. lia.
      + split.
        * intros [= <-]. exists (Z.to_nat y). split; [apply Y; lia|]. apply R; [lia|reflexivity].
        * intros (i & I & H). apply Y in I as [I1 I2]. apply R in H; [|exact I1]. subst l'. now rewrite I2, Nat2Z.id.
  Qed.
  Lemma set_index_none l z v : (forall i, ~ means (length l) z i) <-> set_index l z v = Err IndexError.
  Proof.
    split.
    - intros H. destruct (set_index l z v) as [x|e] eqn:E.
      + apply set_index_means in E as (i & I & _). destruct (H i I).
      + unfold set_index in E. match type of E with (if ?c then _ else _) = _ => destruct c end; congruence.
    - intros E i I. unfold set_index, zlen in E. destruct I as [I1 I2].
      match type of E with (if ?c then _ else _) = _ => destruct c eqn:B end; [|discriminate]. apply orb_true_iff in B.
      destruct (z <? 0) eqn:Z0; [apply Z.ltb_lt in Z0|apply Z.ltb_ge in Z0];
        destruct B as [B | B]; first [apply Z.ltb_lt in B | apply Z.leb_le in B]; lia.
  Qed.
End Seq.

(** ** Slices *)
Definition steps (start step : Z) (count : nat) : list nat := map (fun k => Z.to_nat (start + Z.of_nat k * step)) (seq 0 count).
Lemma pick_steps {A} (l : list A) start step count :
  (forall k, (k < count)%nat -> 0 <= start + Z.of_nat k * step < zlen l) ->
  map Some (pick l start step count) = map (nth_error l) (steps start step count).
Proof.
  revert start; induction count as [|c IH]; intros start H; [reflexivity|].
  unfold steps. cbn [pick seq map]. replace (start + Z.of_nat 0 * step) with start by lia.
  destruct (nth_error l (Z.to_nat start)) as [x|] eqn:E.
  - cbn [map]. f_equal. rewrite IH.
    + unfold steps. rewrite <- seq_shift, !map_map. apply map_ext. intros k. f_equal. f_equal. lia.
    + intros k K. specialize (H (S k)). replace (start + step + Z.of_nat k * step) with (start + Z.of_nat (S k) * step) by lia. apply H. lia.
  - apply nth_error_None in E. specialize (H O). unfold zlen in H. lia.
Qed.
Lemma steps_in start step count i : In i (steps start step count) <-> exists k, (k < count)%nat /\ i = Z.to_nat (start + Z.of_nat k * step).
Proof.
  unfold steps. rewrite in_map_iff. split.
  - intros (k & <- & K). apply in_seq in K. exists k. split; [lia|reflexivity].
  - intros (k & K & ->). exists k. split; [reflexivity|]. apply in_seq. lia.
Qed.
Lemma steps_order start step count n : step <> 0 ->
  (forall k, (k < count)%nat -> 0 <= start + Z.of_nat k * step < n) -> in_order step (steps start step count).
Proof.
  intros S0 H. unfold in_order, steps. assert (forall m a, (a + m <= count)%nat ->
    StronglySorted (fun i j => if 0 <? step then (i < j)%nat else (j < i)%nat) (map (fun k => Z.to_nat (start + Z.of_nat k * step)) (seq a m))) as G.
  { induction m as [|m IH]; intros a Ha; cbn [seq map]; constructor; [apply IH; lia|].
    apply Forall_forall. intros j J. apply in_map_iff in J as (k & <- & K). apply in_seq in K.
    pose proof (H a ltac:(lia)) as H1. pose proof (H k ltac:(lia)) as H2.
    destruct (0 <? step) eqn:P; [apply Z.ltb_lt in P|apply Z.ltb_ge in P]; nia. }
  apply G. lia.
Qed.
Lemma div_le m s k : 0 < s -> k <= m / s <-> k * s <= m.
Proof.
  intros S. split.
  - intros K. pose proof (Z.mul_div_le m s S). nia.
  - intros K. apply Z.div_le_lower_bound; lia.
Qed.
Lemma slice_sliced {A} (l : list A) a b c r : slice l a b c = Ok r ->
  sliced l a b (match c with Some s => s | None => 1 end) r /\ match c with Some s => s | None => 1 end <> 0.
Proof.
  unfold slice, slice_indices. set (step := match c with Some s => s | None => 1 end). set (n := zlen l).
  destruct (step =? 0) eqn:S0; [discriminate|]. apply Z.eqb_neq in S0.
  cbn [bind]. set (start := match a with Some x => _ | None => _ end). set (stop := match b with Some x => _ | None => _ end).
  set (count := if step <? 0 then _ else _). intros [= <-]. split; [|exact S0].
  assert (N0 : 0 <= n) by (unfold n, zlen; lia).
  assert (K : forall k, 0 <= k -> k < count <-> (0 < step /\ start + k * step < stop) \/ (step < 0 /\ stop < start + k * step)).
  { intros k K0. unfold count. destruct (step <? 0) eqn:P; [apply Z.ltb_lt in P|apply Z.ltb_ge in P].
    - destruct (stop <? start) eqn:Q; [apply Z.ltb_lt in Q|apply Z.ltb_ge in Q].
      + pose proof (div_le (start - stop - 1) (- step) k ltac:(lia)) as D. split; [intros K1; right; split; [lia|]; nia|].
        intros [[? ?] | [_ K1]]; [lia|]. assert (k <= (start - stop - 1) / - step) by (apply D; nia). lia.
      + split; [lia|]. intros [[? ?] | [_ K1]]; [lia|]. nia.
    - destruct (start <? stop) eqn:Q; [apply Z.ltb_lt in Q|apply Z.ltb_ge in Q].
      + pose proof (div_le (stop - start - 1) step k ltac:(lia)) as D. split; [intros K1; left; split; [lia|]; nia|].
        intros [[_ K1] | [? ?]]; [|lia]. assert (k <= (stop - start - 1) / step) by (apply D; nia). lia.
      + split; [lia|]. intros [[_ K1] | [? ?]]; [nia|lia]. }
  assert (B : forall k, (k < Z.to_nat count)%nat -> 0 <= start + Z.of_nat k * step < n).
  { intros k Hk. assert (Z.of_nat k < count) as Hc by lia. apply K in Hc; [|lia].
    unfold start, stop, adjust, count in *. clear K count. revert Hc.
    destruct (step <? 0) eqn:P; [apply Z.ltb_lt in P|apply Z.ltb_ge in P];
      (destruct a as [x|]; [destruct (x <? 0) eqn:X0; [apply Z.ltb_lt in X0; destruct (x + n <? 0) eqn:X1; [apply Z.ltb_lt in X1|apply Z.ltb_ge in X1]
                                                      |apply Z.ltb_ge in X0; destruct (n <=? x) eqn:X1; [apply Z.leb_le in X1|apply Z.leb_gt in X1]]|]);
      (destruct b as [y|]; [destruct (y <? 0) eqn:Y0; [apply Z.ltb_lt in Y0; destruct (y + n <? 0) eqn:Y1; [apply Z.ltb_lt in Y1|apply Z.ltb_ge in Y1]
                                                      |apply Z.ltb_ge in Y0; destruct (n <=? y) eqn:Y1; [apply Z.leb_le in Y1|apply Z.leb_gt in Y1]]|]);
      intros [[? ?] | [? ?]]; try lia; split; nia. }
  exists (steps start step (Z.to_nat count)). split; [|split; [eapply steps_order; eauto|apply pick_steps; exact B]].
  intros i. rewrite steps_in. change (Z.of_nat (length l)) with n. unfold selects. change (Z.of_nat (length l)) with n.
  assert (NL : forall j, (j < length l)%nat <-> Z.of_nat j < n) by (intros; unfold n, zlen; lia).
  split.
  - intros (k & Hk & ->). pose proof (B k Hk) as Bk. assert (Z.of_nat k < count) as Hc by lia. apply K in Hc; [|lia].
    rewrite NL, Z2Nat.id by lia. split; [lia|].
    split; intros P; exists (Z.of_nat k); (split; [lia|]).
    + split.
      * f_equal. unfold start, adjust, bound in *. replace (step <? 0) with false in * by (symmetry; apply Z.ltb_ge; lia).
        destruct a as [x|]; [|reflexivity].
        destruct (x <? 0) eqn:X0; [apply Z.ltb_lt in X0; destruct (x + n <? 0) eqn:X1; [apply Z.ltb_lt in X1|apply Z.ltb_ge in X1]
                                                      |apply Z.ltb_ge in X0; destruct (n <=? x) eqn:X1; [apply Z.leb_le in X1|apply Z.leb_gt in X1]]; nia.
      * destruct Hc as [[_ Hc] | [? _]]; [|lia]. destruct b as [y|]; [|exact I]. unfold stop, adjust, bound in *.
        replace (step <? 0) with false in * by (symmetry; apply Z.ltb_ge; lia).
        destruct (y <? 0) eqn:Y0; [apply Z.ltb_lt in Y0; destruct (y + n <? 0) eqn:Y1; [apply Z.ltb_lt in Y1|apply Z.ltb_ge in Y1]
                                                      |apply Z.ltb_ge in Y0; destruct (n <=? y) eqn:Y1; [apply Z.leb_le in Y1|apply Z.leb_gt in Y1]]; lia.
    + split.
      * f_equal. unfold start, adjust, bound in *. replace (step <? 0) with true in * by (symmetry; apply Z.ltb_lt; lia).
        destruct a as [x|]; [|reflexivity].
        destruct (x <? 0) eqn:X0; [apply Z.ltb_lt in X0; destruct (x + n <? 0) eqn:X1; [apply Z.ltb_lt in X1|apply Z.ltb_ge in X1]
                                                      |apply Z.ltb_ge in X0; destruct (n <=? x) eqn:X1; [apply Z.leb_le in X1|apply Z.leb_gt in X1]]; nia.
      * destruct Hc as [[? _] | [_ Hc]]; [lia|]. destruct b as [y|]; [|exact I]. unfold stop, adjust, bound in *.
        replace (step <? 0) with true in * by (symmetry; apply Z.ltb_lt; lia).
        destruct (y <? 0) eqn:Y0; [apply Z.ltb_lt in Y0; destruct (y + n <? 0) eqn:Y1; [apply Z.ltb_lt in Y1|apply Z.ltb_ge in Y1]
                                                      |apply Z.ltb_ge in Y0; destruct (n <=? y) eqn:Y1; [apply Z.leb_le in Y1|apply Z.leb_gt in Y1]]; lia.
  - intros (Hi & Up & Down). apply NL in Hi.
    destruct (Z.lt_total 0 step) as [P | [P | P]]; [|congruence|].
    + destruct (Up P) as (k & K0 & E & S). clear Up Down.
      assert (E' : Z.of_nat i = start + k * step).
      { rewrite E. f_equal. unfold start, adjust, bound in *. replace (step <? 0) with false by (symmetry; apply Z.ltb_ge; lia).
        destruct a as [x|]; [|reflexivity].
        destruct (x <? 0) eqn:X0; [apply Z.ltb_lt in X0; destruct (x + n <? 0) eqn:X1; [apply Z.ltb_lt in X1|apply Z.ltb_ge in X1]
                                                      |apply Z.ltb_ge in X0; destruct (n <=? x) eqn:X1; [apply Z.leb_le in X1|apply Z.leb_gt in X1]]; nia. }
      exists (Z.to_nat k). rewrite Z2Nat.id by lia. split; [|lia]. assert (k < count); [|lia]. apply K; [exact K0|]. left. split; [exact P|].
      rewrite <- E'. unfold stop, adjust, bound in *. destruct b as [y|]; replace (step <? 0) with false by (symmetry; apply Z.ltb_ge; lia); [|lia].
      destruct (y <? 0) eqn:Y0; [apply Z.ltb_lt in Y0; destruct (y + n <? 0) eqn:Y1; [apply Z.ltb_lt in Y1|apply Z.ltb_ge in Y1]
                                                      |apply Z.ltb_ge in Y0; destruct (n <=? y) eqn:Y1; [apply Z.leb_le in Y1|apply Z.leb_gt in Y1]]; lia.
    + destruct (Down P) as (k & K0 & E & S). clear Up Down.
      assert (E' : Z.of_nat i = start + k * step).
      { rewrite E. f_equal. unfold start, adjust, bound in *. replace (step <? 0) with true by (symmetry; apply Z.ltb_lt; lia).
        destruct a as [x|]; [|reflexivity].
        destruct (x <? 0) eqn:X0; [apply Z.ltb_lt in X0; destruct (x + n <? 0) eqn:X1; [apply Z.ltb_lt in X1|apply Z.ltb_ge in X1]
                                                      |apply Z.ltb_ge in X0; destruct (n <=? x) eqn:X1; [apply Z.leb_le in X1|apply Z.leb_gt in X1]]; nia. }
      exists (Z.to_nat k). rewrite Z2Nat.id by lia. split; [|lia]. assert (k < count); [|lia]. apply K; [exact K0|]. right. split; [exact P|].
      rewrite <- E'. unfold stop, adjust, bound in *. destruct b as [y|]; replace (step <? 0) with true by (symmetry; apply Z.ltb_lt; lia); [|lia].
      destruct (y <? 0) eqn:Y0; [apply Z.ltb_lt in Y0; destruct (y + n <? 0) eqn:Y1; [apply Z.ltb_lt in Y1|apply Z.ltb_ge in Y1]
                                                      |apply Z.ltb_ge in Y0; destruct (n <=? y) eqn:Y1; [apply Z.leb_le in Y1|apply Z.leb_gt in Y1]]; lia.
Qed.
Lemma slice_defined {A} (l : list A) a b c : match c with Some s => s | None => 1 end <> 0 -> exists r, slice l a b c = Ok r.
Proof.
  intros S0. unfold slice, slice_indices. apply Z.eqb_neq in S0. rewrite S0. cbn [bind]. eauto.
Qed.
Lemma slice_zero {A} (l : list A) a b : slice l a b (Some 0) = Err ValueError.
Proof. reflexivity. Qed.
