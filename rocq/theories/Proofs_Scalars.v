(** Decimal text, integers, versions. *)
From Verif Require Import Base BaseFacts Model_Scalars Spec_Scalars.

(** ** Decimal text *)
Lemma digits_fuel f : forall g n, (n < 2 ^ N.of_nat f)%N -> (n < 2 ^ N.of_nat g)%N -> digits (S f) n = digits (S g) n.
Proof.
  induction f as [|f IH]; intros g n Hf Hg.
  - assert (n = 0)%N by (change (2 ^ N.of_nat 0)%N with 1%N in Hf; lia). subst. reflexivity.
  - destruct g as [|g].
    + assert (n = 0)%N by (change (2 ^ N.of_nat 0)%N with 1%N in Hg; lia). subst. reflexivity.
    + cbn [digits]. destruct (n <? 10)%N eqn:E; [reflexivity|]. f_equal.
      rewrite Nat2N.inj_succ, N.pow_succ_r' in Hf, Hg. apply (IH g); lia.
Qed.
Lemma size_bound n : (n < 2 ^ N.of_nat (N.size_nat n))%N.
Proof.
  destruct n as [|p]; [vm_compute; reflexivity|]. cbn [N.size_nat].
  assert (forall p, (Npos p < 2 ^ N.of_nat (Pos.size_nat p))%N) as H.
  { clear. induction p; cbn [Pos.size_nat]; rewrite ?Nat2N.inj_succ, ?N.pow_succ_r';
      [lia|lia|vm_compute; reflexivity]. }
  apply H.
Qed.
Lemma dec_small n : (n < 10)%N -> dec n = [48 + n]%N.
Proof. intros H. unfold dec. cbn [digits]. replace (n <? 10)%N with true by lia. reflexivity. Qed.
Lemma dec_step n : (10 <= n)%N -> dec n = dec (n / 10) ++ [48 + n mod 10]%N.
Proof.
  intros H. unfold dec.
  destruct (N.size_nat n) as [|k] eqn:E.
  { pose proof (size_bound n) as Hb. rewrite E in Hb. change (2 ^ N.of_nat 0)%N with 1%N in Hb. lia. }
  replace (digits (S (S k)) n) with (n mod 10 :: digits (S k) (n / 10))%N
    by (cbn [digits]; replace (n <? 10)%N with false by lia; reflexivity).
  cbn [rev]. rewrite map_app. f_equal. do 2 f_equal. apply digits_fuel.
  - pose proof (size_bound n) as Hb. rewrite E in Hb. rewrite Nat2N.inj_succ, N.pow_succ_r' in Hb. lia.
  - apply size_bound.
Qed.
Lemma dec_ind (P : N -> Prop) : (forall n, (n < 10)%N -> P n) ->
  (forall n, (10 <= n)%N -> P (n / 10)%N -> P n) -> forall n, P n.
Proof.
  intros H1 H2 n. induction n as [n IH] using (well_founded_induction N.lt_wf_0).
  destruct (N.lt_ge_cases n 10) as [Hn|Hn]; [now apply H1|]. apply H2; [exact Hn|]. apply IH. lia.
Qed.
Lemma digits_val_app a b : digits_val (a ++ b) = (digits_val a * 10 ^ N.of_nat (length b) + digits_val b)%N.
Proof.
  unfold digits_val. rewrite fold_left_app. generalize (fold_left (fun a c => a * 10 + (c - 48)) a 0)%N as x.
  assert (forall b x y, fold_left (fun a c => a * 10 + (c - 48)) b (x * 10 ^ 0 + y)
           = x * 10 ^ N.of_nat (length b) + fold_left (fun a c => a * 10 + (c - 48)) b y)%N as H.
  { clear. induction b as [|c b IH]; intros x y; cbn [fold_left length].
    - reflexivity.
    - rewrite Nat2N.inj_succ, N.pow_succ_r'.
      replace ((x * 10 ^ 0 + y) * 10 + (c - 48))%N with ((x * 10) * 10 ^ 0 + (y * 10 + (c - 48)))%N
        by (rewrite N.pow_0_r; lia).
      rewrite IH. lia. }
  intros x. specialize (H b x 0%N). rewrite N.pow_0_r in H. rewrite <- H. f_equal. lia.
Qed.
Lemma digits_val_one c : digits_val [c] = (c - 48)%N.
Proof. unfold digits_val. cbn [fold_left]. lia. Qed.
Lemma dec_val n : digits_val (dec n) = n.
Proof.
  induction n as [n H|n H IH] using dec_ind.
  - rewrite dec_small by lia. rewrite digits_val_one. lia.
  - rewrite dec_step, digits_val_app, IH, digits_val_one by lia. cbn [length]. change (10 ^ N.of_nat 1)%N with 10%N. lia.
Qed.
Lemma dec_digits n : forallb is_digit (dec n) = true.
Proof.
  induction n as [n H|n H IH] using dec_ind.
  - rewrite dec_small by lia. cbn [forallb]. unfold is_digit. lia.
  - rewrite dec_step by lia. rewrite forallb_app, IH. cbn [forallb]. unfold is_digit. lia.
Qed.
Lemma dec_cons n : exists c t, dec n = c :: t /\ is_digit c = true /\ (c = 48%N -> t = []).
Proof.
  induction n as [n H|n H IH] using dec_ind.
  - rewrite dec_small by lia. exists (48 + n)%N, []. repeat split. unfold is_digit. lia.
  - rewrite dec_step by lia. destruct IH as (c & t & E & Hc & Hz). rewrite E. exists c, (t ++ [48 + n mod 10]%N).
    repeat split; [exact Hc|]. intros ->. exfalso. specialize (Hz eq_refl). subst t.
    pose proof (dec_val (n / 10)) as Hv. rewrite E, digits_val_one in Hv. lia.
Qed.
Lemma dec_nonempty n : dec n <> [].
Proof. destruct (dec_cons n) as (c & t & E & _). rewrite E. discriminate. Qed.
Lemma dec_length w : forall n, (n < 10 ^ N.of_nat (S w))%N -> length (dec n) <= S w.
Proof.
  induction w as [|w IH]; intros n H.
  - change (10 ^ N.of_nat 1)%N with 10%N in H. rewrite dec_small by lia. simpl. lia.
  - destruct (N.lt_ge_cases n 10) as [Hn|Hn]; [rewrite dec_small by lia; simpl; lia|].
    rewrite dec_step by lia. rewrite app_length. cbn [length].
    rewrite Nat2N.inj_succ, N.pow_succ_r' in H. specialize (IH (n / 10)%N ltac:(lia)). lia.
Qed.
Lemma digits_val_zeros k : digits_val (repeat 48%N k) = 0%N.
Proof.
  induction k as [|k IH]; [reflexivity|]. change (repeat 48%N (S k)) with ([48%N] ++ repeat 48%N k).
  rewrite digits_val_app, IH, digits_val_one. lia.
Qed.
Lemma dec_pad_val w n : digits_val (dec_pad w n) = n.
Proof. unfold dec_pad, padl. rewrite digits_val_app, digits_val_zeros, dec_val. lia. Qed.
Lemma dec_pad_digits w n : forallb is_digit (dec_pad w n) = true.
Proof.
  unfold dec_pad, padl. rewrite forallb_app, dec_digits, andb_true_r.
  induction (w - length (dec n)); [reflexivity|]. cbn [repeat forallb]. now rewrite IHn0.
Qed.
Lemma dec_pad_length w n : (n < 10 ^ N.of_nat (S w))%N -> length (dec_pad (S w) n) = S w.
Proof.
  intros H. unfold dec_pad, padl. rewrite app_length, repeat_length. pose proof (dec_length w n H). lia.
Qed.
Lemma grouped_digits t : forall n, forallb is_digit t = true -> grouped n t = Ok (n * 10 ^ N.of_nat (length t) + digits_val t)%N.
Proof.
  induction t as [|c t IH]; intros n H; cbn [grouped].
  - cbn [length]. unfold digits_val. cbn [fold_left]. f_equal. change (10 ^ N.of_nat 0)%N with 1%N. lia.
  - cbn [forallb] in H. apply andb_prop in H as [H1 H2]. rewrite H1, (IH _ H2). f_equal.
    change (c :: t) with ([c] ++ t). rewrite digits_val_app, digits_val_one. cbn [length app]. rewrite Nat2N.inj_succ, N.pow_succ_r'. lia.
Qed.
Lemma parse_nat_digits s : s <> [] -> forallb is_digit s = true -> parse_nat s = Ok (digits_val s).
Proof.
  destruct s as [|c t]; [congruence|]. intros _ H. cbn [forallb] in H. apply andb_prop in H as [H1 H2].
  unfold parse_nat. rewrite H1, (grouped_digits t _ H2). change (c :: t) with ([c] ++ t). rewrite digits_val_app, digits_val_one. reflexivity.
Qed.
Lemma parse_nat_dec n : parse_nat (dec n) = Ok n.
Proof. rewrite parse_nat_digits; [now rewrite dec_val|apply dec_nonempty|apply dec_digits]. Qed.
Lemma dec_first_digit n c t : dec n = c :: t -> is_digit c = true.
Proof. intros E. pose proof (dec_digits n) as H. rewrite E in H. cbn [forallb] in H. now apply andb_prop in H. Qed.
(** Text without white space and beyond-ASCII characters is parsed as it is. *)
Lemma skip_none s : (match s with c :: _ => ascii_space c = false | [] => True end) -> skip_spaces s = s.
Proof. destruct s as [|c t]; [reflexivity|]. intros H. cbn [skip_spaces]. now rewrite H. Qed.
Definition dark (c : N) : bool := ((33 <=? c) && (c <? 127))%N.
Lemma trimmed s : forallb dark s = true -> rev (skip_spaces (rev (skip_spaces (map to_ascii s)))) = s.
Proof.
  intros H. assert (map to_ascii s = s) as ->.
  { rewrite forallb_forall in H. rewrite <- (map_id s) at 2. apply map_ext_in. intros c I. specialize (H c I). unfold dark in H. unfold to_ascii. now replace (c <? 127)%N with true by lia. }
  assert (forall t, (forall c, In c t -> dark c = true) -> skip_spaces t = t) as K.
  { intros t G. apply skip_none. destruct t as [|c t]; [exact I|]. specialize (G c (or_introl eq_refl)). unfold dark in G. unfold ascii_space. lia. }
  rewrite forallb_forall in H. rewrite (K s H), K, rev_involutive; [reflexivity|]. intros c I. apply H. now apply in_rev.
Qed.
Lemma dark_digits s : forallb is_digit s = true -> forallb dark s = true.
Proof. intros H. rewrite forallb_forall in *. intros c I. specialize (H c I). unfold is_digit in H. unfold dark. lia. Qed.
Lemma parse_int_dec n : parse_int (dec n) = Ok (Z.of_N n).
Proof.
  unfold parse_int. rewrite (trimmed (dec n) (dark_digits _ (dec_digits n))).
  destruct (dec n) as [|c t] eqn:E; [now pose proof (dec_nonempty n)|].
  pose proof (dec_first_digit _ _ _ E) as Hc. unfold is_digit in Hc.
  replace (c =? 45)%N with false by lia. replace (c =? 43)%N with false by lia.
  rewrite <- E, parse_nat_dec. reflexivity.
Qed.
Lemma parse_str_int z : parse_int (str_int z) = Ok z.
Proof.
  destruct z as [|p|p]; unfold str_int.
  - apply (parse_int_dec 0).
  - now rewrite parse_int_dec.
  - unfold parse_int. rewrite trimmed by (cbn [forallb]; rewrite (dark_digits _ (dec_digits _)); reflexivity).
    change (45 =? 45)%N with true. cbv iota. rewrite parse_nat_dec. reflexivity.
Qed.

(** ** Integers *)
Lemma range_fits t z : ((z <? min_value t) || (z >? max_value t))%Z = false <-> fits t z.
Proof. unfold fits. destruct t; cbn [int_signed int_bits min_value max_value];
  match goal with |- context [(2 ^ ?k)%Z] => let v := eval vm_compute in (2 ^ k)%Z in change (2 ^ k)%Z with v end; lia. Qed.
Lemma new_int_ok t z : fits t z -> new_int t (AInt z) = Ok z.
Proof. intros H. apply range_fits in H. unfold new_int. now rewrite H. Qed.
Lemma new_int_bad t z : ~ fits t z -> new_int t (AInt z) = Err ValueError.
Proof.
  intros H. unfold new_int. destruct ((z <? min_value t) || (z >? max_value t))%Z eqn:E; [reflexivity|].
  now apply range_fits in E.
Qed.
Lemma new_int_inv t z v : new_int t (AInt z) = Ok v -> v = z /\ fits t v.
Proof.
  unfold new_int. destruct ((z <? min_value t) || (z >? max_value t))%Z eqn:E; [discriminate|].
  intros H. injection H as <-. split; [reflexivity|]. now apply range_fits.
Qed.
Lemma read_write_int t z : read_int t (write_int z) = new_int t (AInt z).
Proof. unfold read_int, write_int, new_int. now rewrite parse_str_int. Qed.

(** ** Versions *)
Lemma split_join_digits parts : parts <> [] -> Forall (fun p => forallb is_digit p = true) parts ->
  split_on 46 (join [46]%N parts) = parts.
Proof.
  assert (forall p, forallb is_digit p = true -> split_on 46 p = [p]) as H0.
  { induction p as [|c p IH]; intros H; [reflexivity|]. cbn [forallb] in H. apply andb_prop in H. destruct H as [Hc Hp].
    cbn [split_on]. unfold is_digit in Hc. replace (c =? 46)%N with false by lia. now rewrite IH. }
  assert (forall p r, forallb is_digit p = true -> split_on 46 (p ++ [46]%N ++ r) = p :: split_on 46 r) as H1.
  { induction p as [|c p IH]; intros r H; [reflexivity|].
    cbn [forallb] in H. apply andb_prop in H. destruct H as [Hc Hp].
    cbn [app split_on]. unfold is_digit in Hc. replace (c =? 46)%N with false by lia.
    specialize (IH r Hp). cbn [app] in IH. now rewrite IH. }
  induction parts as [|p parts IH]; intros Hne HF; [congruence|]. inversion HF; subst.
  destruct parts as [|q parts]; [now apply H0|].
  change (join [46]%N (p :: q :: parts)) with (p ++ [46]%N ++ join [46]%N (q :: parts)).
  rewrite H1 by assumption. rewrite IH; [reflexivity|discriminate|assumption].
Qed.
Lemma drop_newline_id s : (forall r, rev s <> 10%N :: r) -> drop_newline s = s.
Proof.
  intros H. unfold drop_newline. destruct (rev s) as [|c r] eqn:E; [reflexivity|].
  destruct (N.eq_dec c 10) as [->|Hc]; [now destruct (H r)|].
  destruct c as [|p]; [reflexivity|]. do 4 (destruct p; try reflexivity). congruence.
Qed.
(** ASCII digits are read as they are. *)
Definition ascii_text (s : list N) : Prop := Forall (fun c => (c < 128)%N) s.
Lemma to_digit_ascii c : (c < 128)%N -> to_digit c = c.
Proof.
  intros H. unfold to_digit, decimal. destruct (find _ zeros) as [z|] eqn:E; [|reflexivity].
  apply find_some in E as [I E].
  assert (forallb (fun z => (z =? 48) || (1632 <=? z))%N zeros = true) as W by (vm_compute; reflexivity).
  rewrite forallb_forall in W. apply W in I. lia.
Qed.
Lemma map_ascii s : ascii_text s -> map to_digit s = s.
Proof. induction 1 as [|c s H _ IH]; [reflexivity|]. cbn [map]. now rewrite IH, to_digit_ascii. Qed.
Lemma ascii_digits d : forallb is_digit d = true -> ascii_text d.
Proof. intros H. rewrite forallb_forall in H. apply Forall_forall. intros c Hc. apply H in Hc. unfold is_digit in Hc. lia. Qed.
Lemma version_part_dec n : version_part (dec n) = Ok n.
Proof.
  destruct (dec_cons n) as (c & t & E & Hc & Hz). unfold version_part. pose proof (dec_digits n) as D. rewrite E in *.
  cbn [forallb] in D. apply andb_prop in D. destruct D as [D1 D2].
  assert (forallb any_digit t = true) as ->.
  { rewrite forallb_forall in *. intros x Hx. unfold any_digit. specialize (D2 x Hx). rewrite to_digit_ascii; [exact D2|].
    unfold is_digit in D2. lia. }
  rewrite <- E, map_ascii, dec_val by (apply ascii_digits, dec_digits). unfold is_digit in D1.
  destruct (N.eqb_spec c 48) as [->|Hn]; [rewrite (Hz eq_refl); reflexivity|].
  replace ((49 <=? c) && (c <=? 57))%N with true by lia. reflexivity.
Qed.
Lemma join_no_newline parts : Forall (fun p => forallb is_digit p = true) parts ->
  forallb (fun c => is_digit c || (c =? 46)%N) (join [46]%N parts) = true.
Proof.
  assert (forall p, forallb is_digit p = true -> forallb (fun c => is_digit c || (c =? 46)%N) p = true) as Hw.
  { intros p. rewrite !forallb_forall. intros H x Hx. now rewrite (H x Hx). }
  induction parts as [|p parts IH]; intros HF; [reflexivity|]. inversion HF; subst.
  destruct parts as [|q parts]; [now apply Hw|].
  change (join [46]%N (p :: q :: parts)) with (p ++ [46]%N ++ join [46]%N (q :: parts)).
  rewrite !forallb_app, Hw, IH by assumption. reflexivity.
Qed.
Lemma read_write_version v : version_wf v -> read_version (write_version v) = Ok v.
Proof.
  intros Hwf. unfold read_version, write_version.
  assert (Forall (fun p => forallb is_digit p = true) (map dec (version_tuple v))) as HF.
  { apply Forall_forall. intros p Hp. apply in_map_iff in Hp. destruct Hp as (n & <- & _). apply dec_digits. }
  rewrite drop_newline_id.
  2:{ intros r E. pose proof (join_no_newline _ HF) as H. rewrite forallb_forall in H.
      assert (In 10%N (join [46]%N (map dec (version_tuple v)))) as Hin by (rewrite in_rev, E; now left).
      specialize (H _ Hin). vm_compute in H. discriminate. }
  rewrite split_join_digits; [|destruct v; discriminate|exact HF].
  destruct v as [a b [c|] [d|]]; unfold version_tuple; cbn [v_major v_minor v_build v_revision app map];
    rewrite ?version_part_dec; cbn [bind]; try reflexivity.
  exfalso. unfold version_wf in Hwf. cbn in Hwf. apply Hwf; [discriminate|reflexivity].
Qed.

Lemma tuple_lt_irrefl a : tuple_lt a a = false.
Proof. induction a; cbn [tuple_lt]; [reflexivity|]. now rewrite N.eqb_refl. Qed.
Lemma tuple_lt_trans a : forall b c, tuple_lt a b = true -> tuple_lt b c = true -> tuple_lt a c = true.
Proof.
  induction a as [|x a IH]; intros [|y b] [|z c]; cbn [tuple_lt]; try congruence.
  destruct (N.eqb_spec x y), (N.eqb_spec y z), (N.eqb_spec x z); try lia; subst; eauto; try congruence.
Qed.
Lemma tuple_trichotomy a : forall b, tuple_lt a b = true \/ a = b \/ tuple_lt b a = true.
Proof.
  induction a as [|x a IH]; intros [|y b]; cbn [tuple_lt]; auto.
  destruct (N.eqb_spec x y), (N.eqb_spec y x); try lia; subst.
  - destruct (IH b) as [H|[H|H]]; subst; auto.
Qed.
Lemma tuple_eq_iff a : forall b, tuple_eq a b = true <-> a = b.
Proof.
  unfold tuple_eq. induction a as [|x a IH]; intros [|y b]; cbn [list_eqb]; split; intros H; try congruence; try reflexivity.
  - apply andb_prop in H. destruct H as [H1 H2]. apply N.eqb_eq in H1. apply IH in H2. congruence.
  - injection H as -> ->. rewrite N.eqb_refl. now apply IH.
Qed.
Lemma version_tuple_inj a b : version_wf a -> version_wf b -> version_tuple a = version_tuple b -> a = b.
Proof.
  unfold version_wf, version_tuple. destruct a as [a1 a2 [a3|] [a4|]], b as [b1 b2 [b3|] [b4|]]; cbn; intros Ha Hb E;
    try (exfalso; now apply Ha); try (exfalso; now apply Hb); congruence.
Qed.
Lemma component_nth v i : version_wf v -> component v i = nth_error (version_tuple v) i.
Proof.
  unfold version_wf, version_tuple. destruct v as [a b [c|] [d|]]; cbn [v_major v_minor v_build v_revision app]; intros H;
    try (exfalso; now apply H); do 4 (destruct i as [|i]; [reflexivity|]); destruct i; reflexivity.
Qed.
Lemma tuple_lt_iff a : forall b, tuple_lt a b = true <->
  exists i, (forall j, j < i -> nth_error a j = nth_error b j) /\ comp_lt (nth_error a i) (nth_error b i).
Proof.
  induction a as [|x a IH]; intros [|y b]; cbn [tuple_lt].
  - split; [congruence|]. intros (i & _ & H). destruct i; simpl in H; contradiction.
  - split; [|congruence]. intros _. exists 0. split; [lia|]. exact I.
  - split; [congruence|]. intros (i & _ & H). destruct i; simpl in H; try contradiction.
    destruct (nth_error a i); contradiction.
  - destruct (N.eqb_spec x y) as [->|Hn].
    + rewrite IH. split; intros (i & H1 & H2).
      * exists (S i). split; [|exact H2]. intros [|j] Hj; [reflexivity|]. apply H1. lia.
      * destruct i as [|i]; [simpl in H2; lia|]. exists i. split; [|exact H2]. intros j Hj. apply (H1 (S j)). lia.
    + split.
      * intros H. exists 0. split; [lia|]. simpl. lia.
      * intros (i & H1 & H2). destruct i as [|i]; [simpl in H2; lia|]. specialize (H1 0 ltac:(lia)). simpl in H1. congruence.
Qed.
Lemma version_lt_iff a b : version_wf a -> version_wf b -> (version_lt a b = true <-> version_before a b).
Proof.
  intros Ha Hb. unfold version_lt, version_before. rewrite tuple_lt_iff.
  split; intros (i & H1 & H2); exists i; (split; [intros j Hj; specialize (H1 j Hj)|]);
    rewrite ?component_nth in * by assumption; assumption.
Qed.

(** ** Characters and booleans *)
Lemma read_write_char c : (c < 65536)%N -> read_char (write_char c) = Ok c.
Proof.
  intros H. unfold read_char, write_char. rewrite parse_str_int. cbn [bind]. unfold new_char.
  replace ((Z.of_N c <? 0) || (Z.of_N c >? 65535))%Z with false by lia. now rewrite N2Z.id.
Qed.
Lemma read_write_bool b : read_bool (write_bool b) = b.
Proof. destruct b; vm_compute; reflexivity. Qed.
