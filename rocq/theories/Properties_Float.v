(** C85: floats and their texts. *)
From Coq Require Import String.
From Verif Require Import Base BaseFacts Model_Scalars Model_Clixml Model_Decimal Model_Float Spec_Numeral Spec_Decimal Spec_Float
  Proofs_Numeral Proofs_Decimal Proofs_Decimal2 Proofs_Float Proofs_Float2 Proofs_Float3.
Local Open Scope list_scope.

(** A float that is written is read back as it was, -0.0, infinities and NaN included. *)
Theorem C85_round : forall v, is_double v -> read_float (write_float v) = Ok v.
Proof.
  intros v D. destruct (written_said v D) as (said & S & H & _). apply read_float_iff. exists said. split; [now apply bare_float|].
  apply heard_becomes. now symmetry.
Qed.
Print Assumptions C85_round.
(** So two floats are never written alike. *)
Theorem C85_apart : forall v w, is_double v -> is_double w -> write_float v = write_float w -> v = w.
Proof. intros v w V W E. apply C85_round in V, W. rewrite E in V. congruence. Qed.
Print Assumptions C85_apart.
(** The text of an element is taken exactly when it says a number in Python's sense; the result is the nearest float to it, the
    even one of two, and infinity if that is too large. *)
Theorem C85_reads : forall s v, read_float s = Ok v <-> exists said, float_text s said /\ becomes said v.
Proof. exact read_float_iff. Qed.
Print Assumptions C85_reads.
(** Every number becomes one float, and that is a double. *)
Theorem C85_one : forall said, exists v, is_double v /\ forall w, becomes said w <-> w = v.
Proof.
  intros said. exists (heard said). split; [|intros w; apply heard_becomes].
  destruct said as [neg n e|neg|sig neg p]; [|exact I|exact I]. pose proof (proj2 (heard_becomes (Fin neg n e) _) eq_refl) as (u & [G _] & [[L ->]|[_ ->]]).
  - split; [exact G|exact L].
  - exact I.
Qed.
Print Assumptions C85_one.
(** Any other text raises ValueError, an element without text TypeError. *)
Theorem C85_refused : forall s, (forall said, ~ float_text s said) -> read_float s = Err (match s with [] => TypeError | _ => ValueError end).
Proof.
  intros s H. destruct s as [|c s]; [reflexivity|]. unfold read_float. destruct (parse_float (c :: s)) as [v|] eqn:E; [|reflexivity].
  apply parse_float_iff in E as (said & T & _). now apply H in T.
Qed.
Print Assumptions C85_refused.
(** A number that is a float is read as it is. *)
Theorem C85_exact : forall s neg n e u, float_text s (Fin neg n e) -> is_double (FNum neg u) ->
  (n * 10 ^ Z.to_N e * 2 ^ 1074 = 10 ^ Z.to_N (- e) * u)%N -> read_float s = Ok (FNum neg u).
Proof.
  intros s neg n e u T [G L] E. apply read_float_iff. exists (Fin neg n e). split; [exact T|]. exists u. split; [|left; split; [exact L|reflexivity]].
  rewrite E. apply nearest_exact; [apply den_pos|exact G].
Qed.
Print Assumptions C85_exact.
(** Every text of an xs:double is taken. *)
Theorem C85_schema : forall s said, xs_double s said -> exists v, becomes said v /\ read_float s = Ok v.
Proof.
  intros s said X. exists (heard said). assert (becomes said (heard said)) as B by now apply heard_becomes. split; [exact B|].
  apply read_float_iff. exists said. split; [now apply schema_float|exact B].
Qed.
Print Assumptions C85_schema.
(** Everything but NaN is written as an xs:double that becomes the float again. *)
Theorem C85_written_partial : forall v, is_double v -> v <> FNan -> exists said, xs_double (write_float v) said /\ becomes said v.
Proof.
  intros v D N0. destruct (written_said v D) as (said & _ & H & X). exists said. split; [now apply X|]. apply heard_becomes. now symmetry.
Qed.
Print Assumptions C85_written_partial.
(** No number of fewer digits is read as the same float: what is written is [n], of 17 digits at most, up to zeros at its end, and
    whatever number becomes the float has as many digits as [n] at least. *)
Theorem C85_short : forall neg u, is_double (FNum neg u) ->
  exists n e j, xs_double (write_float (FNum neg u)) (Fin neg (n * 10 ^ N.of_nat j) (e - Z.of_nat j)) /\ (n < 10 ^ 17)%N
  /\ forall n' e' d, becomes (Fin neg n' e') (FNum neg u) -> (n' < 10 ^ N.of_nat d)%N -> (n < 10 ^ N.of_nat d)%N.
Proof. exact written_short. Qed.
Print Assumptions C85_short.
(** The text has 24 characters at most, sign and exponent included. *)
Theorem C85_length : forall v, is_double v -> length (write_float v) <= 24.
Proof. exact written_length. Qed.
Print Assumptions C85_length.
(** The full claim, that every float is written as XML Schema asks for, is false: the upper-cased NAN is nothing there. *)
Theorem C85_nan_refuted : exists v, is_double v /\ write_float v = tx "NAN" /\ (forall said, ~ xs_double (write_float v) said)
  /\ xs_double (tx "NaN") (NotNumber false false 0) /\ read_float (tx "NaN") = Ok v.
Proof.
  exists FNan. split; [exact I|]. split; [reflexivity|]. split; [exact nan_no_schema|]. split; [|reflexivity].
  exists [], (tx "NaN"), []. repeat (split; [now auto|]). right. right. auto.
Qed.
Print Assumptions C85_nan_refuted.
(** Nor is a PSSingle one that System.Single holds: a tenth is kept with 53 bits. *)
Theorem C85_single_refuted : exists s said v, xs_double s said /\ read_float s = Ok v /\ ~ dotnet_single v.
Proof.
  exists (tx "0.1"), (Fin false 1 (-1)), (FNum false (3602879701896397 * 2 ^ 1019)%N). split; [|split].
  - exists [], (tx "0.1"), []. repeat (split; [now auto|]). left. exists [], false, (tx "0.1"), 1%N, 1, [], 0%Z.
    split; [reflexivity|]. split; [left; auto|]. split; [|split; [left; auto|reflexivity]].
    right. exists [48%N], [49%N]. split; [reflexivity|]. split; [discriminate|]. split; [|reflexivity]. exact (row_plain [48; 49]%N eq_refl).
  - vm_compute. reflexivity.
  - intros (m & k & E & M & _). rewrite <- N.mul_assoc, <- N.pow_add_r in E. change (1074 - 149)%N with 925%N in E.
    destruct (N.le_gt_cases (k + 925) 1019) as [L|L].
    + replace 1019%N with ((1019 - (k + 925)) + (k + 925))%N in E by lia. rewrite N.pow_add_r, N.mul_assoc in E.
      apply N.mul_cancel_r in E; [|now apply N.pow_nonzero]. subst m. assert (1 <= 2 ^ (1019 - (k + 925)))%N as P by (pose proof (N.pow_nonzero 2 (1019 - (k + 925)) ltac:(discriminate)); lia).
      change (2 ^ 24)%N with 16777216%N in M. nia.
    + replace (k + 925)%N with (N.succ (k + 925 - 1020) + 1019)%N in E by lia. rewrite N.pow_add_r, N.mul_assoc in E.
      apply N.mul_cancel_r in E; [|now apply N.pow_nonzero]. rewrite N.pow_succ_r' in E. lia.
Qed.
Print Assumptions C85_single_refuted.

(** Minus a half, written, read, and the same number in other clothes; a number half way between two floats. *)
Example C85_ex : is_double (FNum true (2 ^ 1073)) /\ write_float (FNum true (2 ^ 1073)) = tx "-0.5" /\ xs_double (tx "-0.5") (Fin true 5 (-1))
  /\ read_float (tx " -5_00.0E-03 ") = Ok (FNum true (2 ^ 1073)) /\ read_float [45; 46; 0x665]%N = Ok (FNum true (2 ^ 1073))
  /\ read_float (tx "9007199254740993") = Ok (FNum false (2 ^ 53 * 2 ^ 1074))
  /\ read_float (tx "1_.5") = Err ValueError /\ read_float [] = Err TypeError /\ read_float (tx "1e309") = Ok (FInf false)
  /\ read_float (tx "-infinity") = Ok (FInf true) /\ write_float (FNum true 0) = tx "-0.0" /\ read_float (tx "-0.0") = Ok (FNum true 0)
  /\ write_float (FNum true (2 ^ 1070)) = tx "-0.0625".
Proof.
  assert (is_double (FNum true (2 ^ 1073))) as D by (split; [exists 1%N, 1073%N; split; reflexivity|reflexivity]).
  assert (xs_double (tx "-0.5") (Fin true 5 (-1))) as X.
  { exists [], (tx "-0.5"), []. repeat (split; [now auto|]). left. exists [45%N], true, (tx "0.5"), 5%N, 1, [], 0%Z.
    split; [reflexivity|]. split; [right; auto|]. split; [|split; [left; auto|reflexivity]].
    right. exists [48%N], [53%N]. split; [reflexivity|]. split; [discriminate|]. split; [|reflexivity]. exact (row_plain [48; 53]%N eq_refl). }
  split; [exact D|]. split; [vm_compute; reflexivity|]. split; [exact X|]. repeat (split; [vm_compute; reflexivity|]). vm_compute. reflexivity.
Qed.
