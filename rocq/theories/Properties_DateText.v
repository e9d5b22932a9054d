(** C74: which texts are date-times, and which ones. *)
From Coq Require Import String Ascii.
From Verif Require Import Base BaseFacts Model_Scalars Spec_Numeral Spec_Duration Spec_Dates Spec_DateText Proofs_Scalars Proofs_Duration
  Proofs_Numeral Proofs_Duration2 Proofs_DateText.
From Verif Require Proofs_Read3 Proofs_Dates.
Local Open Scope list_scope.
Local Open Scope N_scope.

(** The texts that are read, and what they say; every other one is refused with ValueError. *)
Theorem C74_taken : forall s d, read_datetime s = Ok d <-> date_text s d.
Proof. intros s d. split; [apply date_inv|apply date_fwd]. Qed.
Print Assumptions C74_taken.
Theorem C74_refused : forall s, (forall d, ~ date_text s d) -> read_datetime s = Err ValueError.
Proof.
  intros s H. destruct (read_datetime s) as [d|e] eqn:E; [now apply date_inv in E; apply H in E|].
  pose proof (Proofs_Read3.datetime_calm s) as C. rewrite E in C. destruct C as [<-|[]]. reflexivity.
Qed.
Print Assumptions C74_refused.
(** No text says two things. *)
Theorem C74_one : forall s d d', date_text s d -> date_text s d' -> d = d'.
Proof. intros s d d' H H'. apply date_fwd in H, H'. congruence. Qed.
Print Assumptions C74_one.

(** Every xs:dateTime with up to seven digits of fraction is read as what it says. *)
Lemma xs_two s n : xs_digits 2 s n -> s = [0x30 + n / 10; 0x30 + n mod 10] /\ n / 10 < 10.
Proof.
  intros (P & L). apply plain_digits in P as (D & _ & <-). destruct s as [|a [|b [|]]]; try discriminate. cbn [forallb] in D. unfold is_digit in D.
  change [a; b] with ([a] ++ [b])%list. rewrite digits_val_app, !digits_val_one. cbn [length]. change (10 ^ N.of_nat 1) with 10.
  replace ((a - 48) * 10 + (b - 48)) with (10 * (a - 48) + (b - 48)) by lia. destruct (ten (a - 48) (b - 48)) as [-> ->]; [lia|].
  split; [|lia]. cbn [app]. apply f_equal2; [lia|]. apply f_equal2; [lia|reflexivity].
Qed.
Lemma plain_number s n : plain_numeral s n -> number s n.
Proof. induction 1 as [c d L ->|s n c d _ IH L ->]; [apply number_one|apply number_next; [exact IH|]]; now apply digit_ascii. Qed.
Lemma xs_sixty s n : xs_digits 2 s n -> n < 60 -> sixty_says s n.
Proof.
  intros X B. apply xs_two in X as [-> L]. split; [exact B|]. right. exists (0x30 + n mod 10). split; [|reflexivity].
  apply digit_ascii. apply N.mod_lt. lia.
Qed.
Lemma plain_last s n : plain_numeral s n -> length s = 1%nat \/ exists t c k m, s = t ++ [c] /\ plain_numeral t m /\ k < 10 /\ c = 0x30 + k /\ n = 10 * m + k.
Proof. intros [c d L ->|t m c d P L ->]; [now left|right]. exists t, (0x30 + d), d, m. tauto. Qed.
Theorem C74_schema : forall s d, xs_date_time 7 s d -> read_datetime s = Ok d.
Proof.
  intros s d (y & mo & da & h & mi & se & f & z & -> & (Y & YL) & MO & DA & H & MI & SE & Y1 & (n & ML & D1 & DN) & BH & BM & BS & F & Z).
  apply C74_taken. pose proof (Proofs_Dates.month_long_bound _ _ _ ML) as [MB NB].
  set (head := y ++ [0x2D] ++ mo ++ [0x2D] ++ da ++ [0x54] ++ h ++ [0x3A] ++ mi ++ [0x3A] ++ se).
  assert (length head = 19%nat) as L19.
  { unfold head. destruct MO as [_ L1], DA as [_ L2], H as [_ L3], MI as [_ L4], SE as [_ L5]. rewrite !app_length, YL, L1, L2, L3, L4, L5. reflexivity. }
  exists head, f, z, []. split; [unfold head; rewrite app_nil_r; repeat (rewrite <- app_assoc; cbn [app]); reflexivity|]. split; [|split; [|split; [|split; [now left|split; [exact Y1|exists n; now split]]]]].
  - exists y, mo, da, 0x54, h, mi, se. split; [reflexivity|]. split; [now apply plain_number|]. split; [exact YL|].
    split; [apply xs_two in MO as [-> _]; split; [exact MB|now right]|]. split; [apply xs_two in DA as [-> _]; split; [lia|right; now left]|].
    split; [now left|]. split; [apply xs_two in H as [-> _]; split; [exact BH|right; now left]|]. split; now apply xs_sixty.
  - destruct F as [F|(g & k & -> & P & L & NB9 & E)]; [now left|]. destruct (Nat.eq_dec (length g) 7) as [L7|L7].
    + right. right. split; [exact L19|]. destruct (plain_last _ _ P) as [Q|(t & c & x & m & -> & T & X & -> & ->)]; [lia|].
      rewrite app_length in L7. cbn [length] in L7. exists t, (0x30 + x), x. rewrite app_length in E. cbn [length] in E.
      replace (length t + 1)%nat with 7%nat in E by lia. change (10 ^ N.of_nat 7) with 10000000 in E.
      assert (dt_micro d = m /\ dt_nano d = 100 * x) as [-> ->] by lia. split; [exact T|]. split; [lia|]. split; [now apply digit_ascii|]. split; reflexivity.
    + right. left. exists g, k. split; [exact P|]. split; [lia|]. split; [reflexivity|].
      assert (1000000000 = 1000 * 10 ^ (6 - N.of_nat (length g)) * 10 ^ N.of_nat (length g)) as Q.
      { rewrite <- N.mul_assoc, <- N.pow_add_r. replace (6 - N.of_nat (length g) + N.of_nat (length g)) with 6 by lia. reflexivity. }
      rewrite Q, N.mul_assoc in E. apply N.mul_cancel_r in E; [|apply N.pow_nonzero; lia].
      set (w := 10 ^ (6 - N.of_nat (length g))) in *. clearbody w. clear - E NB9. set (v := k * w). replace (k * (1000 * w)) with (1000 * v) in E by (unfold v; lia).
      clearbody v. lia.
  - destruct Z as [Z|[Z|(c & hs & ms & a & b & -> & (HS & L1) & (MS & L2) & BA & BB & _ & C)]]; [now left|now right; left|]. right. right.
    exists c, hs, ms, a, b. split; [reflexivity|]. split; [now apply plain_number|]. split; [lia|]. split; [now apply plain_number|]. split; [lia|].
    split; [lia|]. split; [exact BB|exact C].
Qed.
Print Assumptions C74_schema.

Local Definition chars (s : string) : list N := map N_of_ascii (list_ascii_of_string s).
(** The characters of XML Schema's texts, and their length. *)
Definition xs_char (c : N) : Prop := 0x30 <= c <= 0x39 \/ In c [0x2B; 0x2D; 0x2E; 0x3A; 0x54; 0x5A].
Lemma plain_chars s n : plain_numeral s n -> Forall xs_char s.
Proof.
  intros P. apply plain_digits in P as (D & _). rewrite forallb_forall in D. apply Forall_forall. intros c I. apply D in I. unfold is_digit in I. left. lia.
Qed.
Lemma xs_chars places s d : xs_date_time places s d -> Forall xs_char s /\ (19 <= length s)%nat.
Proof.
  intros (y & mo & da & h & mi & se & f & z & -> & (Y & L0) & (MO & L1) & (DA & L2) & (H & L3) & (MI & L4) & (SE & L5) & _ & _ & _ & _ & _ & F & Z).
  split; [|rewrite !app_length, L0, L1, L2, L3, L4, L5; cbn [length]; lia].
  assert (forall c, In c [0x2B; 0x2D; 0x2E; 0x3A; 0x54; 0x5A] -> Forall xs_char [c]) as K by (intros c I; apply Forall_cons; [now right|apply Forall_nil]).
  pose proof (plain_chars _ _ Y). pose proof (plain_chars _ _ MO). pose proof (plain_chars _ _ DA). pose proof (plain_chars _ _ H).
  pose proof (plain_chars _ _ MI). pose proof (plain_chars _ _ SE).
  assert (Forall xs_char f) as FF.
  { destruct F as [(-> & _)|(g & k & -> & P & _)]; [apply Forall_nil|]. apply (Forall_app xs_char [0x2E] g). split; [apply K; cbn; tauto|now apply plain_chars in P]. }
  assert (Forall xs_char z) as ZZ.
  { destruct Z as [(-> & _)|[(-> & _)|(c & hs & ms & a & b & -> & (HS & _) & (MS & _) & _ & _ & _ & C)]]; [apply Forall_nil|apply K; cbn; tauto|].
    apply plain_chars in HS, MS. apply Forall_cons; [right; destruct C as [(-> & _)|(-> & _)]; cbn; tauto|].
    rewrite !Forall_app. split; [exact HS|]. split; [apply K; cbn; tauto|exact MS]. }
  rewrite !Forall_app. repeat (split; [first [assumption|apply K; cbn; tauto]|]). assumption.
Qed.
Lemma no_xs_char c s : In c s -> (c < 0x2B \/ 0x5A < c) -> forall places d, ~ xs_date_time places s d.
Proof.
  intros I B places d H. apply xs_chars in H as [H _]. rewrite Forall_forall in H. apply H in I as [I|I]; [lia|]. cbn [In] in I. lia.
Qed.
(** Behind a fraction, whatever follows a line feed is ignored. *)
Theorem C74_rest_refuted : forall rest, exists d,
  read_datetime (chars "2020-01-01T00:00:00.5Z" ++ [10] ++ rest) = Ok d
  /\ forall places d', ~ xs_date_time places (chars "2020-01-01T00:00:00.5Z" ++ [10] ++ rest) d'.
Proof.
  intros rest. exists (mkDT 2020 1 1 0 0 0 500000 0 (Some 0%Z)). split; [reflexivity|].
  intros places d'. apply (no_xs_char 10); [apply in_or_app; right; now left|lia].
Qed.
Print Assumptions C74_rest_refuted.
(** "2020-1- 1t0:0:0" is taken; eight digits of fraction are not. *)
Theorem C74_schema_refuted :
  (exists s d, read_datetime s = Ok d /\ (length s < 19)%nat /\ In 0x20 s /\ In 0x74 s /\ forall places d', ~ xs_date_time places s d')
  /\ (exists s d, xs_date_time 8 s d /\ read_datetime s = Err ValueError).
Proof.
  split.
  - exists (chars "2020-1- 1t0:0:0"), (mkDT 2020 1 1 0 0 0 0 0 None). split; [vm_compute; reflexivity|]. split; [cbn; lia|].
    split; [cbn; tauto|]. split; [cbn; tauto|]. intros places d' H. apply xs_chars in H as [_ H]. cbn in H. lia.
  - exists (chars "2020-01-01T00:00:00.50000000Z"), (mkDT 2020 1 1 0 0 0 500000 0 (Some 0%Z)). split; [|vm_compute; reflexivity].
    exists (chars "2020"), (chars "01"), (chars "01"), (chars "00"), (chars "00"), (chars "00"), (chars ".50000000"), (chars "Z").
    cbn [dt_year dt_month dt_day dt_hour dt_minute dt_second dt_micro dt_nano dt_tz].
    assert (forall s, (negb (Nat.eqb (length s) 0) && forallb is_digit s)%bool = true -> plain_numeral s (digits_val s)) as V.
    { intros s H. apply andb_prop in H as [H1 H2]. apply digits_plain; [now destruct s|exact H2]. }
    assert (plain_numeral (chars "01") 1 /\ plain_numeral (chars "00") 0) as [V1 V0] by (split; now apply V).
    split; [reflexivity|]. split; [split; [now apply (V (chars "2020"))|reflexivity]|]. split; [now split|]. split; [now split|]. split; [now split|]. split; [now split|].
    split; [now split|]. split; [lia|]. split; [exists 31; split; [unfold month_long; lia|lia]|]. split; [lia|]. split; [lia|]. split; [lia|].
    split; [|right; left; now split]. right. exists (chars "50000000"), 50000000. split; [reflexivity|]. split; [now apply (V (chars "50000000"))|].
    split; [cbn; lia|]. split; [lia|]. vm_compute. reflexivity.
Qed.
Print Assumptions C74_schema_refuted.

(** A leap day, seven digits and an offset; and neighbours that are refused: 60 seconds, 24 hours, 30 February, an offset of 24 hours, a line
    feed without a fraction, seven digits behind a head of 18 characters (six are taken). *)
Example C74_example : let s := chars "2024-02-29T23:59:59.1234567-05:30" in let d := mkDT 2024 2 29 23 59 59 123456 700 (Some (-330)%Z) in
  date_text s d /\ read_datetime s = Ok d
  /\ read_datetime (chars "2024-02-29T23:59:60Z") = Err ValueError /\ read_datetime (chars "2024-02-29T24:00:00Z") = Err ValueError
  /\ read_datetime (chars "2023-02-29T00:00:00Z") = Err ValueError /\ read_datetime (chars "2024-02-29T00:00:00+24:00") = Err ValueError
  /\ read_datetime (chars "2024-02-29T00:00:00Z" ++ [10]) = Err ValueError
  /\ read_datetime (chars "2024-2-29T00:00:00.1234567Z") = Err ValueError
  /\ read_datetime (chars "2024-2-29T00:00:00.123456Z") = Ok (mkDT 2024 2 29 0 0 0 123456 0 (Some 0%Z))
  /\ read_datetime ([0x0662; 0x0660; 0x0662; 0x0664] ++ chars "-02-29T1" ++ [0x0663] ++ chars ":00:00") = Ok (mkDT 2024 2 29 13 0 0 0 0 None)
  /\ read_datetime (chars "2024-02-29T2" ++ [0x0663] ++ chars ":00:00") = Err ValueError.
Proof. cbv zeta. split; [apply date_inv; vm_compute; reflexivity|vm_compute; repeat split; reflexivity]. Qed.
