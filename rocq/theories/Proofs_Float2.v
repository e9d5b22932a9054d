From Verif Require Import Base BaseFacts Model_Scalars Model_Decimal Model_Float Spec_Scalars Spec_Numeral Spec_Decimal Spec_Float
  Proofs_Scalars Proofs_Numeral Proofs_Decimal Proofs_Decimal2 Proofs_Float.

(** ** Underscores *)
Lemma under_same c : to_ascii c = 95%N <-> c = 95%N.
Proof. now apply ascii_same. Qed.
Lemma no_under_at s t : between s t -> forall b, no_under b (map to_ascii s) = Some (map to_ascii t).
Proof.
  induction 1 as [|c s t N0 H IH|c x d y s t D1 D2 H IH]; intros b; [reflexivity| |].
  - cbn [map no_under]. destruct (N.eqb_spec (to_ascii c) 95) as [E|_]; [apply (proj1 (under_same c)) in E; contradiction|]. now rewrite IH.
  - apply ascii_digit in D1 as [D1 _], D2 as [D2 _]. specialize (IH false). cbn [map] in IH |- *. change (to_ascii 95) with 95%N.
    assert (forall t', no_under true (95%N :: to_ascii d :: t') = no_under false (to_ascii d :: t')) as U by (intros t'; cbn [no_under]; rewrite N.eqb_refl; cbn [andb]; now rewrite D2).
    assert (forall t', no_under b (to_ascii c :: t') = match no_under (is_digit (to_ascii c)) t' with Some r => Some (to_ascii c :: r) | None => None end) as V.
    { intros t'. cbn [no_under]. destruct (N.eqb_spec (to_ascii c) 95) as [E|_]; [rewrite E in D1; discriminate D1|reflexivity]. }
    now rewrite V, D1, U, IH.
Qed.
Lemma no_under_cut : forall k s r, length s <= k -> no_under false (map to_ascii s) = Some r -> exists t, r = map to_ascii t /\ between s t.
Proof.
  induction k as [|k IH]; intros s r L E; (destruct s as [|c s]; [injection E as <-; exists []; split; [reflexivity|constructor]|]); cbn [length] in L; [lia|].
  cbn [map no_under] in E. destruct (N.eqb_spec (to_ascii c) 95) as [Q|Q].
  - destruct (map to_ascii s); discriminate E.
  - assert (c <> 95%N) as C by (intros ->; now apply Q).
    destruct s as [|d s]; [cbn in E; injection E as <-; exists [c]; split; [reflexivity|constructor; [exact C|constructor]]|].
    destruct (N.eq_dec d 95) as [->|ND].
    + cbn [map no_under] in E. change (to_ascii 95) with 95%N in E. rewrite N.eqb_refl in E. destruct s as [|x s]; [discriminate E|]. cbn [map] in E.
      destruct (is_digit (to_ascii c)) eqn:D1; [|discriminate E]. destruct (is_digit (to_ascii x)) eqn:D2; [|discriminate E]. cbn [andb] in E.
      destruct (no_under false (to_ascii x :: map to_ascii s)) as [r'|] eqn:E'; [|discriminate E]. injection E as <-.
      destruct (IH (x :: s) r') as (t & -> & B); [cbn [length] in *; lia|exact E'|]. exists (c :: t). split; [reflexivity|].
      eapply between_under; [apply ascii_digit; split; [exact D1|reflexivity]|apply ascii_digit; split; [exact D2|reflexivity]|exact B].
    + assert (forall b, no_under b (map to_ascii (d :: s)) = no_under false (map to_ascii (d :: s))) as I0.
      { intros b. cbn [map no_under]. destruct (N.eqb_spec (to_ascii d) 95) as [Z|_]; [apply (proj1 (under_same d)) in Z; contradiction|reflexivity]. }
      rewrite I0 in E. destruct (no_under false (map to_ascii (d :: s))) as [r'|] eqn:E'; [|discriminate E]. injection E as <-.
      destruct (IH (d :: s) r') as (t & -> & B); [cbn [length] in *; lia|exact E'|]. exists (c :: t). split; [reflexivity|now constructor].
Qed.
Lemma between_inter s t : between s t -> interspersed s t.
Proof.
  induction 1 as [|c s t N0 H IH|c x d y s t D1 D2 H IH]; [constructor|now constructor|]. constructor; [|now constructor].
  intros ->. apply ascii_digit in D1 as [D1 _]. discriminate D1.
Qed.
Lemma between_same s : ~ In 95%N s -> between s s.
Proof.
  induction s as [|c s IH]; intros H; [constructor|]. constructor; [intros ->; apply H; now left|]. apply IH. intros I0. apply H. now right.
Qed.

(** ** Words and numbers *)
Lemma float_is s v : float_spells s v -> spells s v.
Proof.
  intros H. destruct H; [now constructor|now constructor|]. rewrite <- (app_nil_r w). apply spell_nan; [assumption|assumption|constructor].
Qed.
Definition heard (v : decimal_value) : float_value :=
  match v with Fin neg n e => to_float neg n e | Infinite neg => FInf neg | NotNumber _ _ _ => FNan end.
Lemma float_at s v : float_spells s v -> (let '(neg, t) := take_sign (norm s) in float_unsigned neg t) = Some (heard v).
Proof.
  intros H. unfold float_unsigned. destruct H as [sg neg m n k x e S M X|sg neg w S [W|W]|sg neg w S W]; rewrite map_app.
  - destruct (number_head m n k x e M X) as (c & t & E & D).
    rewrite (sign_at sg neg (norm (m ++ x)) S) by (rewrite E; unfold is_digit in D; lia).
    rewrite !after_none; [rewrite map_app, (finite_at neg m n k x e M X); reflexivity| |]; intros t' E'; rewrite E in E'; injection E' as -> _;
      destruct D as [D|D]; (discriminate D).
  - apply word_at in W; [|caps]. rewrite W, (sign_at sg neg _ S) by (split; discriminate). reflexivity.
  - apply word_at in W; [|caps]. rewrite W, (sign_at sg neg _ S) by (split; discriminate). reflexivity.
  - apply word_at in W; [|caps]. rewrite W, (sign_at sg neg _ S) by (split; discriminate). reflexivity.
Qed.
Lemma float_cut s f : (let '(neg, t) := take_sign (norm s) in float_unsigned neg t) = Some f -> exists v, float_spells s v /\ f = heard v.
Proof.
  destruct (take_sign (norm s)) as [neg t] eqn:T. apply sign_cut in T as (sg & u & -> & -> & S). unfold float_unsigned.
  destruct (after_word [73; 78; 70]%N (norm u)) as [t|] eqn:E1.
  - apply after_iff in E1. destruct t as [|c t].
    + intros E. injection E as <-. exists (Infinite neg). split; [|reflexivity]. constructor; [exact S|left; apply word_at; [caps|exact E1]].
    + destruct (after_word _ (c :: t)) as [[|]|] eqn:E2; try discriminate. apply after_iff in E2. intros E. injection E as <-.
      exists (Infinite neg). split; [|reflexivity]. constructor; [exact S|right; apply word_at; [caps|]]. now rewrite E1, E2.
  - clear E1. destruct (after_word [78; 65; 78]%N (norm u)) as [t|] eqn:E1.
    + apply after_iff in E1. destruct t; [|discriminate]. intros E. injection E as <-. exists (NotNumber false neg 0). split; [|reflexivity].
      constructor; [exact S|apply word_at; [caps|exact E1]].
    + destruct (parse_finite neg (norm u)) as [w|] eqn:F; [|discriminate]. apply finite_cut in F as (m & n & k & x & e & -> & M & X & ->).
      intros E. injection E as <-. exists (Fin neg n (e - Z.of_nat k)). split; [now constructor|reflexivity].
Qed.
Lemma norm_upper s : map upper (map to_ascii s) = norm s.
Proof. rewrite map_map. reflexivity. Qed.
Lemma space_dark u : Forall (fun c => text_space c = false) u -> Forall (fun c => ascii_space c = false) (map to_ascii u).
Proof.
  intros F. rewrite Forall_map. eapply Forall_impl; [|exact F]. cbn. intros c. unfold text_space. destruct (ascii_space (to_ascii c)); [discriminate|reflexivity].
Qed.
Lemma parse_float_iff s f : parse_float s = Some f <-> exists v, float_text s v /\ f = heard v.
Proof.
  unfold parse_float. change (rev (skip_spaces (rev (skip_spaces (map to_ascii s))))) with (trim (read s)). split.
  - destruct (trim_split (read s)) as (a & b & E & A & B). apply map_split in E as (a' & r1 & -> & EA & E). apply map_split in E as (u & b' & -> & EU & EB).
    rewrite <- EU. destruct (no_under false (map to_ascii u)) as [r|] eqn:U; [|discriminate]. apply (no_under_cut (length u)) in U as (t & -> & BT); [|lia].
    rewrite norm_upper. intros F. apply float_cut in F as (v & F & ->). exists v. split; [|reflexivity].
    exists a', u, t, b'. split; [reflexivity|]. split; [apply blanks; unfold read; now rewrite EA|]. split; [apply blanks; unfold read; now rewrite EB|]. auto.
  - intros (v & (a & core & bare & b & -> & A & B & BT & F) & ->).
    pose proof (inter_dark _ _ (between_inter _ _ BT) (spell_dark _ _ (float_is _ _ F))) as D. apply space_dark in D.
    assert (core <> []) as N0 by (intros ->; inversion BT; subst; apply float_is, spells_iff in F; discriminate F).
    unfold read. rewrite !map_app. rewrite trim_app.
    + rewrite (no_under_at _ _ BT false), norm_upper. now apply float_at.
    + now apply blanks.
    + now apply blanks.
    + destruct core; [contradiction|discriminate].
    + destruct D; [exact I|assumption].
    + apply Forall_rev in D. destruct D; [exact I|assumption].
Qed.
Lemma heard_becomes v f : becomes v f <-> f = heard v.
Proof.
  destruct v as [neg n e|neg|sig neg p]; cbn [becomes heard]; [|reflexivity|reflexivity]. unfold to_float. rewrite to_units_eq. unfold unit_limit.
  change (1024 + 1074)%N with 2098%N. pose proof (round_nearest (num_of n e) (den_of e) (den_pos e)) as R. fold (num_of n e). fold (den_of e).
  set (u := round_units (num_of n e) (den_of e)) in *. split.
  - intros (u' & H & C). assert (u' = u) as -> by (eapply nearest_one; [apply den_pos|exact H|exact R]). clear H R. clearbody u.
    destruct C as [[L ->]|[L ->]]; destruct (N.ltb_spec u (2 ^ 2098)); try reflexivity; exfalso; revert L; [apply N.le_ngt|apply N.lt_nge]; assumption.
  - intros ->. exists u. split; [exact R|]. clear R. clearbody u. destruct (N.ltb_spec u (2 ^ 2098)); [left|right]; auto.
Qed.
Lemma float_some s v : float_text s v -> s <> [].
Proof.
  intros H ->. assert (exists w, float_text [] w /\ heard v = heard w) as Q by eauto. apply parse_float_iff in Q. discriminate Q.
Qed.
Lemma read_float_iff s f : read_float s = Ok f <-> exists v, float_text s v /\ becomes v f.
Proof.
  unfold read_float. split.
  - destruct s as [|c s]; [discriminate|]. destruct (parse_float (c :: s)) as [w|] eqn:E; [|discriminate]. intros Q. injection Q as <-.
    apply parse_float_iff in E as (v & T & ->). exists v. split; [exact T|now apply heard_becomes].
  - intros (v & T & B). apply heard_becomes in B as ->. pose proof (float_some s v T) as N0. destruct s as [|c s]; [contradiction|].
    assert (parse_float (c :: s) = Some (heard v)) as -> by (apply parse_float_iff; eauto). reflexivity.
Qed.

(** ** What is written *)
Lemma plain_mant s n k : xs_mantissa s n k -> mantissa s n k.
Proof. exact (plain_is_mantissa s n k). Qed.
Lemma plain_exp s e : xs_exponent s e -> exponent s e.
Proof. intros [H|(mk & sg & dn & ds & n & E & L & S & N0 & R & Q)]; [now left|right]. exists mk, sg, dn, ds, n. repeat (split; [now auto using plain_is_row|]). exact Q. Qed.
Lemma pad_exponent z : xs_exponent ([69%N; if (z <? 0)%Z then 45%N else 43%N] ++ dec_pad 2 (Z.abs_N z)) z.
Proof.
  right. exists 69%N, [if (z <? 0)%Z then 45%N else 43%N], (z <? 0)%Z, (dec_pad 2 (Z.abs_N z)), (Z.abs_N z).
  split; [reflexivity|]. split; [now left|]. split; [destruct (z <? 0)%Z; [right|left]; auto|]. split.
  - unfold dec_pad, padl. intros E. apply app_eq_nil in E as [_ E]. now apply dec_nonempty in E.
  - split; [|destruct (Z.ltb_spec z 0); lia]. pose proof (row_plain _ (dec_pad_digits 2 (Z.abs_N z))) as R. now rewrite dec_pad_val in R.
Qed.
(** The text of [n * 10^e] is one for XML Schema, of a number that becomes the same float. *)
Lemma repr_says n e : exists m x n' k e', repr_text (dec n) (e + Z.of_nat (length (dec n))) = m ++ x /\ xs_mantissa m n' k /\ xs_exponent x e'
  /\ exists j, n' = (n * 10 ^ N.of_nat j)%N /\ (e' - Z.of_nat k = e - Z.of_nat j)%Z.
Proof.
  unfold repr_text. pose proof (dec_some n) as L. pose proof (row_plain (dec n) (dec_digits n)) as R. rewrite dec_val in R.
  set (place := (e + Z.of_nat (length (dec n)))%Z). destruct ((-4 <? place) && (place <=? 16))%Z eqn:B.
  - destruct (Z.leb_spec place 0) as [A|A]; [|rewrite Z.geb_leb; destruct (Z.leb_spec (Z.of_nat (length (dec n))) place) as [C|C]].
    + exists ([48; 46]%N ++ repeat 48%N (Z.to_nat (- place)) ++ dec n), [], n, (length (repeat 48%N (Z.to_nat (- place)) ++ dec n)), 0%Z.
      rewrite app_nil_r. split; [reflexivity|]. split; [|split; [now left|exists 0; split; [now rewrite N.mul_1_r|rewrite app_length, repeat_length; lia]]]. right.
      exists [48%N], (repeat 48%N (Z.to_nat (- place)) ++ dec n). split; [reflexivity|]. split; [discriminate|]. split; [|reflexivity].
      assert (forallb is_digit (repeat 48%N (S (Z.to_nat (- place))) ++ dec n) = true) as D.
      { rewrite forallb_app, dec_digits, andb_true_r. induction (S (Z.to_nat (- place))); [reflexivity|assumption]. }
      pose proof (row_plain _ D) as Q. rewrite digits_val_app, digits_val_zeros, dec_val, N.mul_0_l, N.add_0_l in Q. exact Q.
    + set (z := Z.to_nat place - length (dec n)). assert (Z.of_nat z = e) as Z0 by (unfold z, place in *; lia). clearbody z.
      exists (dec n ++ repeat 48%N z ++ [46; 48]%N), [], (n * 10 ^ N.of_nat (z + 1))%N, 1, 0%Z. rewrite app_nil_r. split; [reflexivity|].
      split; [|split; [now left|]].
      * right. exists (dec n ++ repeat 48%N z), [48%N]. split; [now rewrite <- app_assoc|]. split; [intros E; now apply app_eq_nil in E as [_ E]|].
        split; [|reflexivity]. rewrite <- app_assoc. change [48%N] with (repeat 48%N 1). rewrite <- repeat_app.
        assert (forallb is_digit (dec n ++ repeat 48%N (z + 1)) = true) as D.
        { rewrite forallb_app, dec_digits. induction (z + 1); [reflexivity|assumption]. }
        pose proof (row_plain _ D) as Q. rewrite digits_val_app, digits_val_zeros, dec_val, repeat_length, N.add_0_r in Q. exact Q.
      * exists (z + 1). split; [reflexivity|lia].
    + exists (firstn (Z.to_nat place) (dec n) ++ [46%N] ++ skipn (Z.to_nat place) (dec n)), [], n, (length (skipn (Z.to_nat place) (dec n))), 0%Z.
      rewrite app_nil_r. split; [reflexivity|]. split; [|split; [now left|exists 0; split; [now rewrite N.mul_1_r|rewrite skipn_length; unfold place in *; lia]]]. right.
      exists (firstn (Z.to_nat place) (dec n)), (skipn (Z.to_nat place) (dec n)). rewrite firstn_skipn. split; [reflexivity|]. split; [apply dec_nonempty|]. auto.
  - destruct (skipn 1 (dec n)) as [|c t] eqn:K.
    + exists (dec n), ([69%N; if (place - 1 <? 0)%Z then 45%N else 43%N] ++ dec_pad 2 (Z.abs_N (place - 1))), n, 0, (place - 1)%Z.
      assert (firstn 1 (dec n) = dec n) as F by (rewrite <- (firstn_skipn 1 (dec n)) at 2; now rewrite K, app_nil_r).
      split; [rewrite F; reflexivity|]. split; [left; split; [apply dec_nonempty|auto]|]. split; [apply pad_exponent|]. exists 0. split; [now rewrite N.mul_1_r|].
      assert (length (dec n) = 1) as Q; [|unfold place; lia]. pose proof (skipn_length 1 (dec n)) as Q. rewrite K in Q. cbn [length] in Q. lia.
    + exists (firstn 1 (dec n) ++ [46%N] ++ c :: t), ([69%N; if (place - 1 <? 0)%Z then 45%N else 43%N] ++ dec_pad 2 (Z.abs_N (place - 1))), n, (length (c :: t)), (place - 1)%Z.
      split; [rewrite <- ?app_assoc; reflexivity|]. split; [|split; [apply pad_exponent|exists 0; split; [now rewrite N.mul_1_r|]]]; [|pose proof (skipn_length 1 (dec n)) as Q; rewrite K in Q; cbn [length] in Q |- *; unfold place; lia]. right.
      exists (firstn 1 (dec n)), (c :: t). split; [reflexivity|]. rewrite <- K, firstn_skipn. split; [apply dec_nonempty|]. auto.
Qed.
Lemma written_number neg u : grid u -> exists m x n k e, write_float (FNum neg u) = sign_of neg ++ m ++ x /\ xs_mantissa m n k /\ xs_exponent x e
  /\ to_units n (e - Z.of_nat k) = u
  /\ exists n0 e0 j, n = (n0 * 10 ^ N.of_nat j)%N /\ (e - Z.of_nat k = e0 - Z.of_nat j)%Z /\ (u = 0%N /\ n0 = 0%N \/ u <> 0%N /\ (n0, e0) = shortest 17 1 u).
Proof.
  intros G. cbn [write_float]. destruct (N.eqb_spec u 0) as [->|U].
  - exists [48; 46; 48]%N, [], 0%N, 1, 0%Z. rewrite app_nil_r. split; [reflexivity|]. split; [|split; [now left|split; [|exists 0%N, 0%Z, 1; split; [reflexivity|]; auto]]].
    + right. exists [48%N], [48%N]. split; [reflexivity|]. split; [discriminate|]. split; [|reflexivity]. exact (row_plain [48; 48]%N eq_refl).
    + rewrite to_units_eq. unfold num_of. rewrite !N.mul_0_l. rewrite <- (N.mul_0_r (den_of (0 - Z.of_nat 1))). apply round_exact; [apply den_pos|].
      exists 0%N, 0%N. split; reflexivity.
  - pose proof (shortest_reads 17 1 u G) as S. destruct (shortest 17 1 u) as [n e]. cbn [fst snd] in S.
    destruct (repr_says n e) as (m & x & n' & k & e' & E & M & X & j & J1 & J2). exists m, x, n', k, e'. rewrite E. split; [reflexivity|]. split; [exact M|]. split; [exact X|].
    split; [rewrite J1, J2, to_units_tens; exact S|]. exists n, e, j. auto.
Qed.
Lemma bare_float s v : float_spells s v -> float_text s v.
Proof.
  intros H. exists [], s, s, []. rewrite app_nil_r. split; [reflexivity|]. split; [constructor|]. split; [constructor|].
  split; [apply between_same; apply (spell_under s v); now apply float_is|exact H].
Qed.
Lemma written_said f : is_double f -> exists v, float_spells (write_float f) v /\ heard v = f /\ (f <> FNan -> xs_double (write_float f) v).
Proof.
  intros D. destruct f as [neg u|neg|].
  - destruct D as [G L]. destruct (written_number neg u G) as (m & x & n & k & e & -> & M & X & T & _).
    exists (Fin neg n (e - Z.of_nat k)). split; [constructor; [apply sign_written|now apply plain_mant|now apply plain_exp]|]. split.
    + cbn [heard]. unfold to_float. rewrite T. unfold unit_limit. change (2 ^ (1024 + 1074))%N with (2 ^ 2098)%N in L. apply N.ltb_lt in L. now rewrite L.
    + intros _. exists [], (sign_of neg ++ m ++ x), []. rewrite app_nil_r. split; [reflexivity|]. split; [constructor|]. split; [constructor|].
      left. exists (sign_of neg), neg, m, n, k, x, e. auto using sign_written.
  - exists (Infinite neg). split; [constructor; [apply sign_written|left; apply word_refl]|]. split; [reflexivity|].
    intros _. exists [], (sign_of neg ++ [73; 78; 70]%N), []. rewrite app_nil_r. split; [reflexivity|]. split; [constructor|]. split; [constructor|].
    right. left. exists (sign_of neg), neg. auto using sign_written.
  - exists (NotNumber false false 0). split; [apply (float_nan [] false); [left; auto|apply word_refl]|]. split; [reflexivity|]. intros H. now destruct H.
Qed.

(** ** XML Schema *)
Lemma schema_float s v : xs_double s v -> float_text s v.
Proof.
  intros (a & t & b & -> & A & B & H).
  assert (float_spells t v) as P.
  { destruct H as [(sg & neg & m & n & k & x & e & -> & S & M & X & ->)|[(sg & neg & -> & S & ->)|[-> ->]]].
    - constructor; [exact S|now apply plain_mant|now apply plain_exp].
    - constructor; [exact S|left; apply word_refl].
    - apply (float_nan [] false); [left; auto|]. apply word_at; [caps|reflexivity]. }
  assert (forall l, Forall xml_blank l -> Forall blank l) as X.
  { intros l F. eapply Forall_impl; [|exact F]. intros c I0. unfold xml_blank in I0. unfold blank. cbn [In] in *. lia. }
  exists a, t, t, b. split; [reflexivity|]. split; [auto|]. split; [auto|]. split; [apply between_same; apply (spell_under t v); now apply float_is|exact P].
Qed.
Lemma nan_no_schema v : ~ xs_double [78; 65; 78]%N v.
Proof.
  intros X. pose proof (schema_float _ _ X) as T. destruct X as (a & t & b & E & A & B & H).
  assert (forall c l l', [78; 65; 78]%N = l ++ c :: l' -> In c [78; 65]%N) as I0.
  { intros c l l' Q. assert (In c [78; 65; 78]%N) as J by (rewrite Q; apply in_app_iff; right; now left). cbn in *. lia. }
  destruct a as [|c a]; [|inversion A as [|? ? J _]; specialize (I0 c [] _ E); unfold xml_blank in J; cbn in I0, J; lia].
  destruct H as [(sg & neg & m & n & k & x & e & -> & S & M & X & ->)|[(sg & neg & -> & S & ->)|[-> ->]]].
  - assert (exists c l, sg ++ m ++ x = c :: l /\ (c <> 78)%N) as (c & l & Q & C).
    { destruct S as [[_ [-> | ->]]|[_ ->]]; cbn [app]; [|eexists _, _; split; [reflexivity|lia]..].
      destruct (number_head m n k x e (plain_mant _ _ _ M) (plain_exp _ _ X)) as (c & l & Q & C). destruct (m ++ x) as [|d r]; [discriminate Q|].
      exists d, r. split; [reflexivity|]. intros ->. cbn in Q. injection Q as <- _. destruct C as [C|C]; discriminate C. }
    cbn [app] in E. rewrite Q in E. cbn [app] in E. injection E as <- _. now apply C.
  - destruct S as [[_ [-> | ->]]|[_ ->]]; discriminate E.
  - discriminate E.
Qed.
