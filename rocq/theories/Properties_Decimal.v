(** C84: decimals and their texts. *)
From Coq Require Import String.
From Verif Require Import Base BaseFacts Model_Scalars Model_Clixml Model_Decimal Spec_Numeral Spec_Decimal Proofs_Numeral Proofs_Decimal Proofs_Decimal2.
Local Open Scope list_scope.

(** A decimal that is written is read back as it was: sign, digits, exponent and all, infinities and NaNs included. *)
Theorem C84_round : forall v, holds v -> read_decimal (write_decimal v) = Taken v.
Proof. intros v H. apply read_iff. split; [apply bare_text, written_spells|exact H]. Qed.
Print Assumptions C84_round.
(** So two decimals are never written alike. *)
Theorem C84_apart : forall v w, write_decimal v = write_decimal w -> v = w.
Proof.
  intros v w E. pose proof (written_spells v) as V. pose proof (written_spells w) as W. rewrite E in V.
  apply bare_text, parse_decimal_iff in V, W. congruence.
Qed.
Print Assumptions C84_apart.
(** The text of an element is taken exactly when it is a decimal in Python's sense that a Decimal can hold; that decimal is the
    result, digits and exponent kept as they were written. *)
Theorem C84_reads : forall s v, read_decimal s = Taken v <-> decimal_text s v /\ holds v.
Proof. exact read_iff. Qed.
Print Assumptions C84_reads.
(** A text is at most one decimal. *)
Theorem C84_one : forall s v w, decimal_text s v -> decimal_text s w -> v = w.
Proof. intros s v w V W. apply parse_decimal_iff in V, W. congruence. Qed.
Print Assumptions C84_one.
(** Any other text raises InvalidOperation, an element without text TypeError. *)
Theorem C84_refused : forall s, (forall v, decimal_text s v -> ~ holds v) ->
  read_decimal s = match s with [] => NoText | _ => InvalidOperation end.
Proof.
  intros s H. destruct (read_decimal s) as [v| |] eqn:E.
  - apply read_iff in E as [A B]. now destruct (H v A).
  - destruct s; [discriminate E|reflexivity].
  - destruct s as [|c s]; [reflexivity|]. unfold read_decimal in E. destruct (parse_decimal (c :: s)) as [w|]; [destruct (kept w)|]; discriminate E.
Qed.
Print Assumptions C84_refused.
(** Every text that XML Schema takes for a decimal is read as that number, with as many places as it has. *)
Theorem C84_schema : forall s neg n k, xs_decimal s neg n k -> holds (Fin neg n (- Z.of_nat k)) -> read_decimal s = Taken (Fin neg n (- Z.of_nat k)).
Proof. intros s neg n k X H. apply read_iff. split; [now apply schema_text|exact H]. Qed.
Print Assumptions C84_schema.
(** What is written is a decimal for XML Schema, and the same one, exactly when the number needs no power of ten. *)
Theorem C84_written_partial : forall neg m e,
  (written_out m e -> xs_decimal (write_decimal (Fin neg m e)) neg m (Z.to_nat (- e)))
  /\ (forall neg' n k, xs_decimal (write_decimal (Fin neg m e)) neg' n k -> written_out m e).
Proof.
  intros neg m e. split; [apply written_out_schema|]. intros neg' n k X.
  destruct (Bool.bool_dec ((e <=? 0) && (e + Z.of_nat (length (dec m)) >? -6))%Z true) as [D|D]; [now apply written_out_place|].
  exfalso. apply (hard_schema neg m e neg' n k); [|exact X]. now rewrite written_out_place.
Qed.
Print Assumptions C84_written_partial.
(** Infinities and NaNs are written too, as texts that are nothing for XML Schema. *)
Theorem C84_special_refuted : exists v, holds v /\ (forall neg n k, ~ xs_decimal (write_decimal v) neg n k)
  /\ write_decimal v = tx "NAN".
Proof.
  exists (NotNumber false false 0). split; [exact I|]. split; [|reflexivity]. intros neg n k. now apply odd_schema.
Qed.
Print Assumptions C84_special_refuted.
(** The full claim, that any number System.Decimal holds is written as XML Schema asks for, is false: a ten millionth is
    written with an exponent. *)
Theorem C84_written_refuted : exists v, dotnet_decimal v /\ holds v /\ write_decimal v = tx "1E-7"
  /\ forall neg n k, ~ xs_decimal (write_decimal v) neg n k.
Proof.
  exists (Fin false 1 (-7)). split; [exists false, 1%N, 7; split; [reflexivity|]; split; [reflexivity|lia]|].
  split; [apply kept_holds; reflexivity|]. split; [reflexivity|]. intros neg n k X. apply C84_written_partial in X as [X|[_ X]]; [lia|now apply X].
Qed.
Print Assumptions C84_written_refuted.
(** Nor is a decimal that has been read one that System.Decimal holds: neither digits nor places are counted, and 1E+5 is
    written as it came. *)
Theorem C84_range_refuted : exists s v w, read_decimal s = Taken v /\ (exists neg n k, xs_decimal s neg n k) /\ ~ dotnet_decimal v
  /\ read_decimal (tx "1e5") = Taken w /\ write_decimal w = tx "1E+5".
Proof.
  exists (tx "79228162514264337593543950336"), (Fin false 79228162514264337593543950336 0), (Fin false 1 5).
  split; [reflexivity|]. split.
  - exists false, 79228162514264337593543950336%N, 0. change (tx "79228162514264337593543950336") with (write_decimal (Fin false 79228162514264337593543950336 0)).
    apply (C84_written_partial false 79228162514264337593543950336 0). left. lia.
  - split; [|split; reflexivity]. intros (neg & m & k & E & B & _). injection E as _ <- _. now vm_compute in B.
Qed.
Print Assumptions C84_range_refuted.

(** Minus twelve and a half thousandths, written, read, and the same number in other clothes. *)
Example C84_ex : write_decimal (Fin true 125 (-4)) = tx "-0.0125" /\ read_decimal (tx "-0.0125") = Taken (Fin true 125 (-4))
  /\ holds (Fin true 125 (-4)) /\ written_out 125 (-4) /\ xs_decimal (tx "-0.0125") true 125 4
  /\ read_decimal (tx " -.01_25e0 ") = Taken (Fin true 125 (-4))
  /\ read_decimal (tx "-1.25E-2") = Taken (Fin true 125 (-4))
  /\ read_decimal [45; 0x661; 0x662; 0x665; 101; 45; 0xFF14]%N = Taken (Fin true 125 (-4))
  /\ read_decimal (tx "1.2.5") = InvalidOperation /\ read_decimal (tx "1E+1000000000000000000") = InvalidOperation /\ read_decimal [] = NoText
  /\ write_decimal (Fin false 12345 (-9)) = tx "0.000012345" /\ write_decimal (Fin false 12345 (-12)) = tx "1.2345E-8"
  /\ write_decimal (Fin false 0 3) = tx "0E+3"
  /\ read_decimal (write_decimal (NotNumber true true 12)) = Taken (NotNumber true true 12)
  /\ read_decimal (tx "infinity") = Taken (Infinite false).
Proof.
  assert (written_out 125 (-4)) as W by (left; lia).
  repeat (split; [first [exact W | reflexivity | apply kept_holds; reflexivity | exact (proj1 (C84_written_partial true 125 (-4)) W)]|]). reflexivity.
Qed.
