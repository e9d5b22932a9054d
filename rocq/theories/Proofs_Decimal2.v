From Verif Require Import Base BaseFacts Model_Scalars Model_Decimal Spec_Scalars Spec_Numeral Spec_Decimal
  Proofs_Scalars Proofs_Numeral Proofs_Duration Proofs_Decimal.

(** ** Lengths *)
Lemma dec_size n k : 1 <= k -> length (dec n) <= k <-> (n < 10 ^ N.of_nat k)%N.
Proof.
  intros K. split.
  - intros H. pose proof (digits_val_bound (dec n) (dec_digits n)) as B. rewrite dec_val in B.
    eapply N.lt_le_trans; [exact B|]. apply N.pow_le_mono_r; lia.
  - intros H. destruct k as [|k]; [lia|]. now apply dec_length.
Qed.
Lemma dec_some n : 1 <= length (dec n).
Proof. destruct (dec n) eqn:E; [now apply dec_nonempty in E|cbn; lia]. Qed.
Lemma kept_holds v : kept v = true <-> holds v.
Proof.
  destruct v as [neg m e| |]; cbn [kept holds]; [|now split..]. change (10 ^ 18)%Z with 1000000000000000000%Z.
  pose proof (dec_some m) as L. rewrite andb_true_iff, !Z.leb_le. split.
  - intros [H1 H2]. assert (1 <= Z.to_nat (1000000000000000000 - e)) as K by lia. split; [lia|].
    pose proof (proj1 (dec_size m _ K)) as H. rewrite <- Z_nat_N in *. apply H. lia.
  - intros [H1 H2]. assert (1 <= Z.to_nat (1000000000000000000 - e)) as K by lia. split; [|lia].
    pose proof (proj2 (dec_size m _ K)) as H. rewrite <- Z_nat_N in *. specialize (H H2). lia.
Qed.

(** ** What is written *)
Lemma plainly_digit c : is_digit c = true -> plainly c = c.
Proof.
  intros D. unfold plainly, upper, to_ascii. unfold is_digit in D. rewrite (proj2 (N.ltb_lt c 127)) by lia.
  destruct ((97 <=? c) && (c <=? 122))%N eqn:E; lia.
Qed.
Lemma norm_digits s : forallb is_digit s = true -> norm s = s.
Proof. induction s as [|c s IH]; [reflexivity|]. cbn. intros H. apply andb_prop in H as [H1 H2]. now rewrite (plainly_digit c H1), (IH H2). Qed.
Lemma row_plain s : forallb is_digit s = true -> plain_row s (digits_val s).
Proof.
  induction s as [|c s IH] using rev_ind; intros H; [constructor|]. rewrite forallb_app in H. apply andb_prop in H as [H1 H2].
  cbn [forallb] in H2. rewrite andb_true_r in H2. rewrite digits_val_app, digits_val_one. cbn [length].
  change (10 ^ N.of_nat 1)%N with 10%N. rewrite N.mul_comm. unfold is_digit in H2.
  replace c with (48 + (c - 48))%N at 1 by lia. apply plain_more; [now apply IH|lia].
Qed.
Lemma plain_is_row s n : plain_row s n -> digit_row s n.
Proof.
  induction 1 as [|s n d P IH L]; [constructor|]. apply row_more; [exact IH|]. split; [exact L|]. exists 48%N. split; [now left|reflexivity].
Qed.
(** The digits with a point before the last [length ds - place] of them, zeros put in where needed. *)
Definition plain_mantissa (s : list N) (n : N) (k : nat) : Prop :=
  s <> [] /\ plain_row s n /\ k = 0
  \/ exists whole fraction, s = whole ++ [46%N] ++ fraction /\ whole ++ fraction <> [] /\ plain_row (whole ++ fraction) n /\ k = length fraction.
Lemma text_mantissa m place : (place <= Z.of_nat (length (dec m)))%Z ->
  plain_mantissa (digits_text (dec m) place) m (Z.to_nat (Z.of_nat (length (dec m)) - place)).
Proof.
  intros P. pose proof (row_plain (dec m) (dec_digits m)) as R. rewrite dec_val in R. pose proof (dec_some m) as L. unfold digits_text.
  destruct (Z.leb_spec place 0) as [A|A].
  - right. exists [48%N], (repeat 48%N (Z.to_nat (- place)) ++ dec m). split; [reflexivity|]. split; [discriminate|]. split.
    + change ([48%N] ++ repeat 48%N (Z.to_nat (- place)) ++ dec m) with (repeat 48%N (S (Z.to_nat (- place))) ++ dec m).
      assert (forallb is_digit (repeat 48%N (S (Z.to_nat (- place))) ++ dec m) = true) as D.
      { rewrite forallb_app, dec_digits, andb_true_r. induction (S (Z.to_nat (- place))); [reflexivity|assumption]. }
      pose proof (row_plain _ D) as Q. rewrite digits_val_app, digits_val_zeros, dec_val, N.mul_0_l, N.add_0_l in Q. exact Q.
    + rewrite app_length, repeat_length. lia.
  - rewrite Z.geb_leb. destruct (Z.leb_spec (Z.of_nat (length (dec m))) place) as [B|B].
    + assert (place = Z.of_nat (length (dec m))) as -> by lia. rewrite Nat2Z.id, Nat.sub_diag, Z.sub_diag. cbn [repeat]. rewrite app_nil_r. left.
      split; [apply dec_nonempty|]. split; [exact R|reflexivity].
    + right. exists (firstn (Z.to_nat place) (dec m)), (skipn (Z.to_nat place) (dec m)). split; [reflexivity|]. rewrite firstn_skipn.
      split; [apply dec_nonempty|]. split; [exact R|]. rewrite skipn_length. lia.
Qed.
Lemma plain_is_mantissa s n k : plain_mantissa s n k -> mantissa s n k.
Proof.
  intros [(A & B & C)|(i & f & A & B & C & D)]; [left; auto using plain_is_row|right]. exists i, f. auto using plain_is_row.
Qed.
Lemma place_le m e : (point_place m e <= Z.of_nat (length (dec m)))%Z.
Proof.
  pose proof (dec_some m). unfold point_place. cbv zeta.
  destruct ((e <=? 0) && (e + Z.of_nat (length (dec m)) >? -6))%Z eqn:E; lia.
Qed.
Lemma sign_written neg : sign_text (sign_of neg) neg.
Proof. destruct neg; [right|left]; auto. Qed.
Lemma signed_exponent z : exponent ([69%N] ++ signed z) z.
Proof.
  right. exists 69%N, [if (z <? 0)%Z then 45%N else 43%N], (z <? 0)%Z, (dec (Z.abs_N z)), (Z.abs_N z).
  split; [reflexivity|]. split; [now left|]. split; [destruct (z <? 0)%Z; [right|left]; auto|]. split; [apply dec_nonempty|]. split.
  - apply plain_is_row. pose proof (row_plain _ (dec_digits (Z.abs_N z))) as R. now rewrite dec_val in R.
  - destruct (Z.ltb_spec z 0); lia.
Qed.
Lemma dec_row n : digit_row (dec n) n.
Proof. apply plain_is_row. pose proof (row_plain _ (dec_digits n)) as R. now rewrite dec_val in R. Qed.
Lemma word_refl w : word w w.
Proof. induction w; constructor; [now left|assumption]. Qed.
Lemma written_spells v : spells (write_decimal v) v.
Proof.
  destruct v as [neg m e|neg|sig neg p]; cbn [write_decimal].
  - cbv zeta. pose proof (place_le m e) as P. set (place := point_place m e) in *. clearbody place.
    assert (exponent (if (e + Z.of_nat (length (dec m)) =? place)%Z then [] else [69%N] ++ signed (e + Z.of_nat (length (dec m)) - place))
              (e + Z.of_nat (length (dec m)) - place)) as X.
    { destruct (Z.eqb_spec (e + Z.of_nat (length (dec m))) place) as [Q|Q]; [left; split; [reflexivity|lia]|apply signed_exponent]. }
    pose proof (spell_number _ _ _ _ _ _ _ (sign_written neg) (plain_is_mantissa _ _ _ (text_mantissa m place P)) X) as S.
    replace (e + Z.of_nat (length (dec m)) - place - Z.of_nat (Z.to_nat (Z.of_nat (length (dec m)) - place)))%Z with e in S by lia. exact S.
  - constructor; [apply sign_written|right; apply word_refl].
  - assert (digit_row (if (p =? 0)%N then [] else dec p) p) as D.
    { destruct (N.eqb_spec p 0) as [->|_]; [constructor|apply dec_row]. }
    destruct sig.
    + rewrite (app_assoc [83%N]). apply spell_snan; [apply sign_written|apply word_refl|exact D].
    + apply (spell_nan _ neg [78; 65; 78]%N); [apply sign_written|apply word_refl|exact D].
Qed.
Lemma inter_refl s : ~ In 95%N s -> interspersed s s.
Proof.
  induction s as [|c s IH]; intros H; [constructor|]. constructor; [intros ->; apply H; now left|]. apply IH. intros I0. apply H. now right.
Qed.
Lemma spell_under s v : spells s v -> ~ In 95%N s.
Proof.
  assert (forall w l, capitals w -> word l w -> ~ In 95%N l) as LW.
  { intros w l C W. induction W as [|c k l w L W IH]; [intros []|]. inversion C; subst. intros [->|I0]; [destruct L; lia|now apply IH]. }
  assert (forall l n, digit_row l n -> ~ In 95%N l) as R.
  { intros l n H. induction H as [|l n c d H IH D]; [intros []|]. rewrite in_app_iff. intros [I0|[->|[]]]; [now apply IH|].
    apply plain_digit in D as [D _]. discriminate D. }
  assert (forall l b, sign_text l b -> ~ In 95%N l) as S.
  { intros l b [[_ [-> | ->]]|[_ ->]]; cbn; lia. }
  assert (forall l n k, mantissa l n k -> ~ In 95%N l) as MA.
  { intros l n k [(_ & H & _)|(i & f & -> & _ & H & _)]; [eauto|]. apply R in H. rewrite in_app_iff in *. cbn. intros [I0|[I0|I0]]; [tauto|lia|tauto]. }
  assert (forall l e, exponent l e -> ~ In 95%N l) as EX.
  { intros l e [[-> _]|(mk & sg & dn & ds & n & -> & M & G & _ & H & _)]; [intros []|]. intros [->|I0]; [destruct M; lia|].
    apply in_app_iff in I0 as [I0|I0]; [exact (S _ _ G I0)|exact (R _ _ H I0)]. }
  intros H. destruct H as [sg neg m n k x e G M X|sg neg w G [W|W]|sg neg w ds n G W D|sg neg w ds n G W D]; rewrite ?in_app_iff;
    intros Q; repeat destruct Q as [Q|Q]; try exact (S _ _ G Q); try exact (MA _ _ _ M Q); try exact (EX _ _ X Q); try exact (R _ _ D Q);
    revert Q; eapply LW; try exact W; caps.
Qed.
Lemma bare_text s v : spells s v -> decimal_text s v.
Proof.
  intros H. exists [], s, s, []. rewrite app_nil_r. split; [reflexivity|]. split; [constructor|]. split; [constructor|].
  split; [apply inter_refl; now apply (spell_under s v)|exact H].
Qed.
Lemma text_some s v : decimal_text s v -> s <> [].
Proof. intros H ->. apply parse_decimal_iff in H. discriminate H. Qed.
Lemma read_iff s v : read_decimal s = Taken v <-> decimal_text s v /\ holds v.
Proof.
  unfold read_decimal. split.
  - destruct s as [|c s]; [discriminate|]. destruct (parse_decimal (c :: s)) as [w|] eqn:E; [|discriminate]. destruct (kept w) eqn:K; [|discriminate].
    intros Q. injection Q as <-. split; [now apply parse_decimal_iff|now apply kept_holds].
  - intros [T H]. pose proof (text_some s v T) as N0. apply parse_decimal_iff in T. apply kept_holds in H. destruct s as [|c s]; [contradiction|].
    now rewrite T, H.
Qed.

(** ** XML Schema *)
Lemma schema_text s neg n k : xs_decimal s neg n k -> decimal_text s (Fin neg n (- Z.of_nat k)).
Proof.
  intros (a & sg & m & b & -> & A & B & S & M).
  assert (spells (sg ++ m ++ []) (Fin neg n (0 - Z.of_nat k))) as P.
  { apply spell_number; [exact S|exact (plain_is_mantissa _ _ _ M)|left; auto]. }
  rewrite app_nil_r in P. exists a, (sg ++ m), (sg ++ m), b. split; [now rewrite <- app_assoc|].
  assert (forall l, Forall xml_blank l -> Forall any_blank l) as X.
  { intros l H. eapply Forall_impl; [|exact H]. intros c I0. left. unfold xml_blank in I0. unfold blank. cbn [In] in *. lia. }
  split; [auto|]. split; [auto|]. split; [apply inter_refl; now apply (spell_under _ _ P)|exact P].
Qed.
Definition schema_char (c : N) : Prop := In c [9; 10; 13; 32; 43; 45; 46]%N \/ (48 <= c <= 57)%N.
Lemma schema_chars s neg n k : xs_decimal s neg n k -> Forall schema_char s.
Proof.
  intros (a & sg & m & b & -> & A & B & S & M). unfold schema_char.
  assert (forall l, Forall xml_blank l -> Forall schema_char l) as X.
  { intros l H. eapply Forall_impl; [|exact H]. intros c I0. left. unfold xml_blank in I0. cbn [In] in *. tauto. }
  assert (forall l p, plain_row l p -> Forall schema_char l) as R.
  { intros l p H. induction H as [|l p d H IH L]; [constructor|]. apply Forall_app. split; [exact IH|]. constructor; [right; lia|constructor]. }
  repeat (apply Forall_app; split); [now apply X| | |now apply X].
  - destruct S as [[_ [-> | ->]]|[_ ->]]; [constructor| |]; (constructor; [left; cbn; tauto|constructor]).
  - destruct M as [(_ & M & _)|(i & f & -> & _ & M & _)]; [eapply R; exact M|]. apply R in M. apply Forall_app in M as [M1 M2].
    apply Forall_app. split; [exact M1|]. constructor; [left; cbn; tauto|exact M2].
Qed.
Lemma written_out_place m e : written_out m e <-> ((e <=? 0) && (e + Z.of_nat (length (dec m)) >? -6))%Z = true.
Proof.
  rewrite andb_true_iff, Z.leb_le, Z.gtb_lt. pose proof (dec_some m) as L. unfold written_out.
  destruct (Z.le_gt_cases (-6) e) as [A|A]; [split; [intros [H|H]; lia|intros [H _]; left; lia]|].
  assert (1 <= Z.to_nat (-6 - e)) as K by lia. pose proof (dec_size m _ K) as Q. rewrite <- Z_nat_N.
  split.
  - intros [H|[_ H]]; [lia|]. split; [lia|]. assert (~ length (dec m) <= Z.to_nat (-6 - e)) as N0; [|lia]. rewrite Q. lia.
  - intros [_ H]. right. split; [lia|]. assert (~ length (dec m) <= Z.to_nat (-6 - e)) as N0 by lia. rewrite Q in N0. lia.
Qed.
Lemma written_out_schema neg m e : written_out m e -> xs_decimal (write_decimal (Fin neg m e)) neg m (Z.to_nat (- e)).
Proof.
  intros H. apply written_out_place in H. cbn [write_decimal]. cbv zeta.
  assert (point_place m e = e + Z.of_nat (length (dec m)))%Z as P by (unfold point_place; cbv zeta; now rewrite H).
  pose proof (text_mantissa m _ (place_le m e)) as M. rewrite P in *. rewrite Z.eqb_refl, app_nil_r.
  exists [], (sign_of neg), (digits_text (dec m) (e + Z.of_nat (length (dec m)))), []. rewrite app_nil_r. split; [reflexivity|].
  split; [constructor|]. split; [constructor|]. split; [apply sign_written|].
  replace (Z.of_nat (length (dec m)) - (e + Z.of_nat (length (dec m))))%Z with (- e)%Z in M by lia. exact M.
Qed.
Lemma hard_schema neg m e neg' n k : ~ written_out m e -> ~ xs_decimal (write_decimal (Fin neg m e)) neg' n k.
Proof.
  intros H X. apply schema_chars in X. rewrite written_out_place in H. apply not_true_is_false in H. cbn [write_decimal] in X. cbv zeta in X.
  assert (point_place m e = 1)%Z as P by (unfold point_place; cbv zeta; now rewrite H). rewrite P in X.
  pose proof (dec_some m). destruct (Z.eqb_spec (e + Z.of_nat (length (dec m))) 1) as [Q|Q]; [lia|].
  apply Forall_app in X as [_ X]. apply Forall_app in X as [_ X]. inversion X as [|? ? [C|C] _]; [cbn in C; lia|lia].
Qed.
Lemma odd_schema v neg n k : (forall g m e, v <> Fin g m e) -> ~ xs_decimal (write_decimal v) neg n k.
Proof.
  intros H X. apply schema_chars in X. rewrite Forall_forall in X. destruct v as [g m e|g|sig g p]; [now destruct (H g m e)| |].
  - destruct (X 73%N) as [C|C]; [cbn [write_decimal]; apply in_app_iff; right; now left|cbn in C; lia|lia].
  - destruct (X 78%N) as [C|C]; [|cbn in C; lia|lia]. cbn [write_decimal]. apply in_app_iff. right. apply in_app_iff. right. now left.
Qed.
