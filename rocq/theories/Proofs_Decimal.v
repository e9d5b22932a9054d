From Verif Require Import Base BaseFacts Model_Scalars Model_Decimal Spec_Scalars Spec_Numeral Spec_Decimal
  Proofs_Scalars Proofs_Numeral.

(** ** Characters *)
Lemma plain_digit c d : is_digit (plainly c) = true /\ (plainly c - 48)%N = d <-> digit c d.
Proof.
  rewrite <- ascii_digit. unfold plainly, upper. destruct ((97 <=? to_ascii c) && (to_ascii c <=? 122))%N eqn:E; [|reflexivity].
  unfold is_digit. split; intros [H _]; lia.
Qed.
Lemma digit_plain c : is_digit (plainly c) = true -> digit c (plainly c - 48).
Proof. intros H. now apply plain_digit. Qed.
Lemma plain_letter c k : (65 <= k <= 90)%N -> plainly c = k <-> letter c k.
Proof.
  intros B. unfold plainly, upper, letter.
  pose proof (ascii_same c k) as A. pose proof (ascii_same c (k + 32)%N) as A'.
  assert (is_digit k = false /\ ascii_space k = false /\ is_digit (k + 32) = false /\ ascii_space (k + 32) = false) as (D1 & D2 & D3 & D4)
    by (unfold is_digit, ascii_space; lia).
  assert (k < 127 /\ k <> 63 /\ k + 32 < 127 /\ k + 32 <> 63)%N as (D5 & D6 & D7 & D8) by lia.
  specialize (A D5 D1 D2 D6). specialize (A' D7 D3 D4 D8).
  rewrite <- A, <- A'. destruct ((97 <=? to_ascii c) && (to_ascii c <=? 122))%N eqn:E; lia.
Qed.
Lemma plain_mark c k : (k < 65)%N -> is_digit k = false -> ascii_space k = false -> k <> 63%N -> plainly c = k <-> c = k.
Proof.
  intros B D S Q. assert (k < 127)%N as L by lia. rewrite <- (ascii_same c k L D S Q). unfold plainly, upper. destruct ((97 <=? to_ascii c) && (to_ascii c <=? 122))%N eqn:E; lia.
Qed.
Lemma blank_space c : text_space c = true <-> any_blank c.
Proof.
  unfold text_space, any_blank. rewrite orb_true_iff, ascii_blank. assert ((28 <=? c) && (c <=? 31) = true <-> 28 <= c <= 31)%N as H by lia.
  now rewrite H.
Qed.

(** ** Rows of digits *)
Notation norm := (map plainly).
Lemma row_val s n : digit_row s n -> forallb is_digit (norm s) = true /\ digits_val (norm s) = n.
Proof.
  induction 1 as [|s n c d R [I1 I2] D]; [split; reflexivity|]. apply plain_digit in D as [D1 D2].
  rewrite map_app, forallb_app, digits_val_app, I1, I2. cbn [map forallb length]. rewrite D1, digits_val_one, D2.
  split; [reflexivity|]. change (10 ^ N.of_nat 1)%N with 10%N. lia.
Qed.
Lemma val_row s : forallb is_digit (norm s) = true -> digit_row s (digits_val (norm s)).
Proof.
  induction s as [|c s IH] using rev_ind; intros H; [constructor|]. rewrite map_app, forallb_app in *. apply andb_prop in H as [H1 H2].
  cbn [map forallb] in *. rewrite andb_true_r in H2. rewrite digits_val_app, digits_val_one. cbn [length].
  change (10 ^ N.of_nat 1)%N with 10%N. rewrite N.mul_comm. apply row_more; [now apply IH|now apply digit_plain].
Qed.
Definition stopped (r : list N) : Prop := match r with [] => True | c :: _ => is_digit c = false end.
Lemma span_at d r : forallb is_digit d = true -> stopped r -> span_digits (d ++ r) = (d, r).
Proof.
  intros H S. induction d as [|c d IH]; cbn [app forallb span_digits] in *.
  - destruct r as [|c r]; [reflexivity|]. cbn in *. now rewrite S.
  - apply andb_prop in H as [H1 H2]. now rewrite H1, (IH H2).
Qed.
Lemma span_cut s : forall d r, span_digits s = (d, r) -> s = d ++ r /\ forallb is_digit d = true /\ stopped r.
Proof.
  induction s as [|c s IH]; intros d r E; cbn [span_digits] in E; [injection E as <- <-; now repeat split|].
  destruct (is_digit c) eqn:D; [|injection E as <- <-; now repeat split].
  destruct (span_digits s) as [a b]. injection E as <- <-. destruct (IH a b eq_refl) as (-> & H1 & H2).
  split; [reflexivity|]. split; [cbn; now rewrite D|exact H2].
Qed.

(** ** Signs *)
Lemma sign_at sg neg t : sign_text sg neg -> (match t with [] => True | c :: _ => c <> 45%N /\ c <> 43%N end) ->
  take_sign (norm sg ++ t) = (neg, t).
Proof.
  intros S T. assert (take_sign t = (false, t)) as P.
  { destruct t as [|c t]; [reflexivity|]. cbn. destruct T as [T1 T2].
    destruct (N.eqb_spec c 45); [contradiction|]. destruct (N.eqb_spec c 43); [contradiction|reflexivity]. }
  destruct S as [[-> [-> | ->]]|[-> ->]]; [exact P|reflexivity|reflexivity].
Qed.
Lemma sign_cut s neg t : take_sign (norm s) = (neg, t) -> exists sg u, s = sg ++ u /\ t = norm u /\ sign_text sg neg.
Proof.
  destruct s as [|c s]; cbn [map take_sign].
  - intros E. injection E as <- <-. exists [], []. split; [reflexivity|]. split; [reflexivity|]. left. auto.
  - destruct (N.eqb_spec (plainly c) 45) as [C|_]; [|destruct (N.eqb_spec (plainly c) 43) as [C|_]]; intros E; injection E as <- <-.
    + apply (plain_mark c 45 ltac:(lia) eq_refl eq_refl ltac:(lia)) in C as ->. exists [45%N], s. split; [reflexivity|]. split; [reflexivity|]. right. auto.
    + apply (plain_mark c 43 ltac:(lia) eq_refl eq_refl ltac:(lia)) in C as ->. exists [43%N], s. split; [reflexivity|]. split; [reflexivity|]. left. auto.
    + exists [], (c :: s). split; [reflexivity|]. split; [reflexivity|]. left. auto.
Qed.
Lemma all_row ds n : ds <> [] -> digit_row ds n -> all_digits (norm ds) = true /\ digits_val (norm ds) = n.
Proof. intros N0 R. apply row_val in R as [R1 R2]. split; [|exact R2]. destruct ds; [contradiction|exact R1]. Qed.
Lemma row_all ds : all_digits (norm ds) = true -> ds <> [] /\ digit_row ds (digits_val (norm ds)).
Proof. intros H. destruct ds as [|c ds]; [discriminate|]. split; [discriminate|]. now apply val_row. Qed.
Lemma digit_head ds : ds <> [] -> forallb is_digit ds = true -> exists c t, ds = c :: t /\ is_digit c = true.
Proof. intros N0 H. destruct ds as [|c t]; [contradiction|]. cbn in H. apply andb_prop in H as [H _]. eauto. Qed.

(** ** Numbers *)
Lemma finite_at neg m n k x e : mantissa m n k -> exponent x e -> parse_finite neg (norm m ++ norm x) = Some (Fin neg n (e - Z.of_nat k)).
Proof.
  intros M X. unfold parse_finite.
  assert (stopped (norm x)) as SX.
  { destruct X as [[-> _]|(mk & sg & dn & ds & p & -> & L & _)]; [exact I|]. cbn [map stopped].
    apply (plain_letter mk 69) in L as ->; [reflexivity|lia]. }
  assert (forall (i f : list N) r, i ++ f <> [] -> r = norm x ->
    match i ++ f with
    | [] => None
    | _ => let m := digits_val (i ++ f) in let e := (- Z.of_nat (length f))%Z in
      match r with
      | [] => Some (Fin neg m e)
      | c :: t => if (c =? 69)%N then let '(down, ds) := take_sign t in
          if all_digits ds then Some (Fin neg m ((if down then - Z.of_N (digits_val ds) else Z.of_N (digits_val ds)) + e)%Z) else None
        else None end
    end = Some (Fin neg (digits_val (i ++ f)) (e - Z.of_nat (length f)))) as FIN.
  { intros i f r NE ->. destruct (i ++ f) as [|c0 t0] eqn:Q; [contradiction|]. cbv zeta.
    destruct X as [[-> ->]|(mk & sg & dn & ds & p & -> & L & S & N0 & R & ->)]; [reflexivity|]. cbn [map].
    apply (plain_letter mk 69) in L as ->; [|lia]. rewrite N.eqb_refl, map_app. apply (all_row ds p N0) in R as [R1 R2].
    rewrite (sign_at sg dn (norm ds) S).
    - rewrite R1, R2. destruct dn; reflexivity.
    - destruct (digit_head (norm ds)) as (c & t & -> & D); [destruct ds; [contradiction|discriminate]|destruct ds; [discriminate|exact R1]|].
      unfold is_digit in D. lia. }
  destruct M as [(N0 & R & ->)|(i & f & -> & N0 & R & ->)].
  - apply row_val in R as [R1 R2]. rewrite (span_at (norm m) (norm x) R1 SX).
    assert ((match norm x with c :: t => if (c =? 46)%N then span_digits t else ([], norm x) | [] => ([], []) end) = ([], norm x)) as ->.
    { destruct X as [[-> _]|(mk & sg & dn & ds & p & -> & L & _)]; [reflexivity|]. cbn [map].
      apply (plain_letter mk 69) in L as ->; [reflexivity|lia]. }
    etransitivity; [apply (FIN (norm m) [] (norm x)); [rewrite app_nil_r; destruct m; [contradiction|discriminate]|reflexivity]|].
    rewrite app_nil_r, R2. reflexivity.
  - pose proof (row_val _ _ R) as [R1 R2]. rewrite map_app, forallb_app in R1. apply andb_prop in R1 as [R0 R1].
    rewrite !map_app, <- !app_assoc. cbn [map app]. change (plainly 46) with 46%N.
    rewrite (span_at (norm i) (46%N :: norm f ++ norm x) R0 eq_refl). rewrite N.eqb_refl, (span_at (norm f) (norm x) R1 SX).
    etransitivity; [apply (FIN (norm i) (norm f) (norm x)); [rewrite <- map_app; destruct (i ++ f); [contradiction|discriminate]|reflexivity]|].
    now rewrite <- map_app, R2, map_length.
Qed.
Lemma finite_cut neg s v : parse_finite neg (norm s) = Some v -> exists m n k x e, s = m ++ x /\ mantissa m n k /\ exponent x e
  /\ v = Fin neg n (e - Z.of_nat k).
Proof.
  unfold parse_finite. destruct (span_digits (norm s)) as [i r] eqn:E1. apply span_cut in E1 as (E1 & D1 & S1).
  apply map_eq_app in E1 as (i' & r' & -> & <- & <-).
  assert (exists f' y k, (match norm r' with c :: t => if (c =? 46)%N then span_digits t else ([], norm r') | [] => ([], []) end) = (norm f', norm y)
    /\ (norm i' ++ norm f' <> [] -> exists m, i' ++ r' = m ++ y /\ mantissa m (digits_val (norm i' ++ norm f')) k) /\ k = length f') as (f' & y & k & Q & MM & ->).
  { assert (r' = [] \/ r' <> []) as [-> |NR] by (destruct r'; [now left|now right]).
    - exists [], [], 0. split; [reflexivity|]. split; [|reflexivity]. intros N0. exists i'. split; [reflexivity|]. left.
      cbn [map] in *. rewrite app_nil_r in *. split; [intros ->; now apply N0|]. split; [now apply val_row|reflexivity].
    - destruct r' as [|c r']; [contradiction|]. cbn [map]. destruct (N.eqb_spec (plainly c) 46) as [C|C].
      + apply (plain_mark c 46 ltac:(lia) eq_refl eq_refl ltac:(lia)) in C as ->.
        destruct (span_digits (norm r')) as [f y] eqn:E2. apply span_cut in E2 as (E2 & D2 & S2).
        apply map_eq_app in E2 as (f' & y' & -> & <- & <-). exists f', y', (length f'). split; [reflexivity|]. split; [|reflexivity].
        intros N0. exists (i' ++ [46%N] ++ f'). split; [cbn; now rewrite <- app_assoc|]. right. exists i', f'. split; [reflexivity|].
        rewrite <- map_app in *. split; [intros Z; rewrite Z in N0; now apply N0|]. split; [|reflexivity]. apply val_row. now rewrite map_app, forallb_app, D1, D2.
      + exists [], (c :: r'), 0. split; [reflexivity|]. split; [|reflexivity]. intros N0. exists i'. split; [reflexivity|]. left.
        cbn [map] in *. rewrite app_nil_r in *. split; [intros ->; now apply N0|]. split; [now apply val_row|reflexivity]. }
  rewrite Q. destruct (norm i' ++ norm f') as [|c0 t0] eqn:NE; [discriminate|]. rewrite <- NE. cbv zeta.
  destruct MM as (m & -> & MM); [discriminate|]. rewrite <- NE in MM.
  destruct y as [|c y]; cbn [map].
  - intros E. injection E as <-. exists m, (digits_val (norm i' ++ norm f')), (length f'), [], 0%Z. split; [reflexivity|]. split; [exact MM|]. split; [now left|].
    rewrite map_length. f_equal.
  - destruct (N.eqb_spec (plainly c) 69) as [C|_]; [|discriminate]. apply (plain_letter c 69) in C; [|lia].
    destruct (take_sign (norm y)) as [dn ds] eqn:T. apply sign_cut in T as (sg & ds' & -> & -> & S). destruct (all_digits (norm ds')) eqn:A; [|discriminate].
    apply row_all in A as [A1 A2]. intros E. injection E as <-.
    exists m, (digits_val (norm i' ++ norm f')), (length f'), (c :: sg ++ ds'), (if dn then - Z.of_N (digits_val (norm ds')) else Z.of_N (digits_val (norm ds')))%Z.
    split; [reflexivity|]. split; [exact MM|]. split; [right; exists c, sg, dn, ds', (digits_val (norm ds')); auto 8|]. rewrite map_length. destruct dn; reflexivity.
Qed.

(** ** Words *)
Lemma after_iff p : forall s t, after_word p s = Some t <-> s = p ++ t.
Proof.
  induction p as [|a p IH]; intros s t; cbn [after_word app]; [split; congruence|].
  destruct s as [|c s]; [split; discriminate|]. destruct (N.eqb_spec a c) as [->|N0].
  - rewrite IH. split; congruence.
  - split; [discriminate|congruence].
Qed.
Lemma after_word_at p t : after_word p (p ++ t) = Some t.
Proof. now apply after_iff. Qed.
Lemma after_none p s : (forall t, s <> p ++ t) -> after_word p s = None.
Proof. intros H. destruct (after_word p s) as [t|] eqn:E; [apply after_iff in E; now apply H in E|reflexivity]. Qed.
Definition capitals (w : list N) : Prop := Forall (fun k => 65 <= k <= 90)%N w.
Lemma word_at s w : capitals w -> word s w <-> norm s = w.
Proof.
  revert s. induction w as [|k w IH]; intros s H.
  - split; [intros W; inversion W; reflexivity|]. intros E. destruct s; [constructor|discriminate].
  - inversion H as [|? ? B H']; subst. destruct s as [|c s]; [split; [intros W; inversion W|discriminate]|]. cbn [map]. split.
    + intros W. inversion W as [|? ? ? ? L W']; subst. apply (plain_letter c k B) in L. apply (IH s H') in W'. congruence.
    + intros E. injection E as E1 E2. constructor; [now apply (plain_letter c k B)|now apply (IH s H')].
Qed.
Ltac caps := repeat (apply Forall_cons; [lia|]); apply Forall_nil.

(** ** The text without its sign *)
Inductive body : list N -> bool -> decimal_value -> Prop :=
| body_number neg m n k x e : mantissa m n k -> exponent x e -> body (m ++ x) neg (Fin neg n (e - Z.of_nat k))
| body_infinity neg w : word w [73; 78; 70]%N \/ word w [73; 78; 70; 73; 78; 73; 84; 89]%N -> body w neg (Infinite neg)
| body_nan neg w ds n : word w [78; 65; 78]%N -> digit_row ds n -> body (w ++ ds) neg (NotNumber false neg n)
| body_snan neg w ds n : word w [83; 78; 65; 78]%N -> digit_row ds n -> body (w ++ ds) neg (NotNumber true neg n).
Lemma spells_body s v : spells s v <-> exists sg neg u, s = sg ++ u /\ sign_text sg neg /\ body u neg v.
Proof.
  split.
  - intros H. destruct H; eexists _, neg, _; (split; [reflexivity|]); (split; [eassumption|]); now constructor.
  - intros (sg & neg & u & -> & S & B). destruct B; econstructor; eassumption.
Qed.
Lemma number_head m n k x e : mantissa m n k -> exponent x e -> exists c t, norm (m ++ x) = c :: t /\ (is_digit c = true \/ c = 46%N).
Proof.
  intros M _. rewrite map_app. destruct M as [(N0 & R & _)|(i & f & -> & N0 & R & _)]; apply row_val in R as [R _].
  - destruct (digit_head (norm m)) as (c & t & -> & D); [destruct m; [contradiction|discriminate]|exact R|]. cbn. eauto.
  - rewrite map_app, forallb_app in R. apply andb_prop in R as [R _]. rewrite !map_app, <- !app_assoc. destruct i as [|c i].
    + cbn. eauto.
    + cbn [map forallb] in R. apply andb_prop in R as [R _]. cbn [map app]. eauto.
Qed.
Lemma body_at u neg v : body u neg v -> parse_unsigned neg (norm u) = Some v.
Proof.
  intros B. unfold parse_unsigned. destruct B as [neg m n k x e M X|neg w [W|W]|neg w ds n W R|neg w ds n W R].
  - destruct (number_head m n k x e M X) as (c & t & E & D).
    rewrite !after_none; [rewrite map_app; now apply finite_at| | |]; intros t' E'; rewrite E in E'; injection E' as -> _;
      destruct D as [D|D]; (discriminate D).
  - apply word_at in W; [|caps]. rewrite W. reflexivity.
  - apply word_at in W; [|caps]. rewrite W. reflexivity.
  - apply word_at in W; [|caps]. rewrite map_app, W.
    rewrite after_none by (intros; discriminate). rewrite after_none by (intros; discriminate).
    rewrite (after_word_at [78; 65; 78]%N). apply row_val in R as [-> ->]. reflexivity.
  - apply word_at in W; [|caps]. rewrite map_app, W.
    rewrite after_none by (intros; discriminate). rewrite (after_word_at [83; 78; 65; 78]%N). apply row_val in R as [-> ->]. reflexivity.
Qed.
Lemma body_cut u neg v : parse_unsigned neg (norm u) = Some v -> body u neg v.
Proof.
  unfold parse_unsigned. destruct (after_word [73; 78; 70]%N (norm u)) as [t|] eqn:E1.
  - apply after_iff in E1. destruct t as [|c t].
    + intros E. injection E as <-. constructor. left. apply word_at; [caps|exact E1].
    + destruct (after_word _ (c :: t)) as [[|]|] eqn:E2; try discriminate. apply after_iff in E2. intros E. injection E as <-. constructor.
      right. apply word_at; [caps|]. now rewrite E1, E2.
  - clear E1. destruct (after_word [83; 78; 65; 78]%N (norm u)) as [t|] eqn:E1.
    + apply after_iff in E1. apply map_eq_app in E1 as (w & ds & -> & W & <-). destruct (forallb is_digit (norm ds)) eqn:D; [|discriminate].
      intros E. injection E as <-. constructor; [apply word_at; [caps|exact W]|now apply val_row].
    + clear E1. destruct (after_word [78; 65; 78]%N (norm u)) as [t|] eqn:E1.
      * apply after_iff in E1. apply map_eq_app in E1 as (w & ds & -> & W & <-). destruct (forallb is_digit (norm ds)) eqn:D; [|discriminate].
        intros E. injection E as <-. constructor; [apply word_at; [caps|exact W]|now apply val_row].
      * intros E. apply finite_cut in E as (m & n & k & x & e & -> & M & X & ->). now constructor.
Qed.
Lemma body_head u neg v : body u neg v -> exists c t, norm u = c :: t /\ c <> 45%N /\ c <> 43%N /\ is_digit c || (65 <=? c)%N || (c =? 46)%N = true.
Proof.
  intros B. destruct B as [neg m n k x e M X|neg w [W|W]|neg w ds n W R|neg w ds n W R].
  - destruct (number_head m n k x e M X) as (c & t & -> & D). exists c, t. split; [reflexivity|]. unfold is_digit in *. lia.
  - apply word_at in W; [|caps]. rewrite W. eexists _, _. split; [reflexivity|]. repeat split; discriminate.
  - apply word_at in W; [|caps]. rewrite W. eexists _, _. split; [reflexivity|]. repeat split; discriminate.
  - apply word_at in W; [|caps]. rewrite map_app, W. eexists _, _. split; [reflexivity|]. repeat split; discriminate.
  - apply word_at in W; [|caps]. rewrite map_app, W. eexists _, _. split; [reflexivity|]. repeat split; discriminate.
Qed.
Lemma spells_iff s v : spells s v <-> (let '(neg, t) := take_sign (norm s) in parse_unsigned neg t) = Some v.
Proof.
  rewrite spells_body. split.
  - intros (sg & neg & u & -> & S & B). rewrite map_app, (sign_at sg neg (norm u) S); [now apply body_at|].
    destruct (body_head u neg v B) as (c & t & -> & C1 & C2 & _). auto.
  - destruct (take_sign (norm s)) as [neg t] eqn:T. apply sign_cut in T as (sg & u & -> & -> & S). intros E. exists sg, neg, u.
    split; [reflexivity|]. split; [exact S|]. now apply body_cut.
Qed.

(** ** White space and underscores *)
Notation spare := (filter (fun c => negb (c =? 95)%N)).
Lemma inter_filter s t : interspersed s t <-> spare s = t.
Proof.
  split.
  - intros H. induction H as [|c s t N0 H IH|s t H IH]; cbn [filter]; [reflexivity| |exact IH].
    destruct (N.eqb_spec c 95); [contradiction|]. cbn. congruence.
  - intros <-. induction s as [|c s IH]; cbn [filter]; [constructor|]. destruct (N.eqb_spec c 95) as [->|N0]; cbn; now constructor.
Qed.
Lemma spell_dark s v : spells s v -> Forall (fun c => text_space c = false) s.
Proof.
  assert (forall c k, (65 <= k <= 90)%N -> plainly c = k -> text_space c = false) as L.
  { intros c k B E. apply (plain_letter c k B) in E. unfold text_space, to_ascii, ascii_space. destruct E as [-> | ->].
    - rewrite (proj2 (N.ltb_lt k 127)) by lia. lia.
    - rewrite (proj2 (N.ltb_lt (k + 32) 127)) by lia. lia. }
  assert (forall w l, capitals w -> word l w -> Forall (fun c => text_space c = false) l) as LW.
  { intros w l C W. apply (word_at l w C) in W. subst w. unfold capitals in C. rewrite Forall_map in C.
    eapply Forall_impl; [|exact C]. cbn. intros c B. exact (L c _ B eq_refl). }
  assert (forall l n, digit_row l n -> Forall (fun c => text_space c = false) l) as R.
  { intros l n H. induction H as [|l n c d H IH D]; [constructor|]. apply Forall_app. split; [exact IH|]. constructor; [|constructor].
    unfold text_space. rewrite (dark_digit c d D). apply plain_digit in D as [D _].
    destruct ((28 <=? c) && (c <=? 31))%N eqn:Q; [|reflexivity]. exfalso. unfold plainly, upper, to_ascii in D.
    rewrite (proj2 (N.ltb_lt c 127)) in D by lia. unfold is_digit in D. destruct ((97 <=? c) && (c <=? 122))%N eqn:Q2; lia. }
  assert (forall l b, sign_text l b -> Forall (fun c => text_space c = false) l) as S.
  { intros l b [[_ [-> | ->]]|[_ ->]]; repeat constructor. }
  assert (forall l n k, mantissa l n k -> Forall (fun c => text_space c = false) l) as MA.
  { intros l n k [(_ & H & _)|(i & f & -> & _ & H & _)]; [eauto|]. apply R in H. apply Forall_app in H as [H1 H2]. apply Forall_app. split; [exact H1|].
    constructor; [reflexivity|exact H2]. }
  assert (forall l e, exponent l e -> Forall (fun c => text_space c = false) l) as EX.
  { intros l e [[-> _]|(mk & sg & dn & ds & n & -> & M & G & _ & H & _)]; [constructor|]. constructor.
    - apply (plain_letter mk 69) in M; [|lia]. eapply L; [|exact M]. lia.
    - apply Forall_app. split; eauto. }
  intros H. destruct H as [sg neg m n k x e G M X|sg neg w G [W|W]|sg neg w ds n G W D|sg neg w ds n G W D];
    repeat (apply Forall_app; split); eauto; eapply LW; try exact W; caps.
Qed.
Lemma lstrip_at p a u : Forall (fun c => p c = true) a -> (match u with [] => True | c :: _ => p c = false end) -> lstrip p (a ++ u) = u.
Proof.
  intros A U. induction A as [|c a C A IH]; cbn [app lstrip]; [destruct u as [|c u]; [reflexivity|cbn; now rewrite U]|]. now rewrite C.
Qed.
Lemma lstrip_cut p s : exists a, s = a ++ lstrip p s /\ Forall (fun c => p c = true) a /\ (match lstrip p s with [] => True | c :: _ => p c = false end).
Proof.
  induction s as [|c s (a & E & A & U)]; cbn [lstrip]; [exists []; repeat constructor|]. destruct (p c) eqn:C.
  - exists (c :: a). split; [cbn; congruence|]. split; [now constructor|exact U].
  - exists []. split; [reflexivity|]. split; [constructor|exact C].
Qed.
Definition dark_ends (u : list N) : Prop :=
  (match u with [] => True | c :: _ => text_space c = false end) /\ (match rev u with [] => True | c :: _ => text_space c = false end).
Lemma strip_at a u b : Forall any_blank a -> Forall any_blank b -> u <> [] -> dark_ends u ->
  rstrip text_space (lstrip text_space (a ++ u ++ b)) = u.
Proof.
  intros A B N0 [U1 U2]. rewrite lstrip_at.
  - unfold rstrip. rewrite rev_app_distr, lstrip_at; [apply rev_involutive| |exact U2].
    apply Forall_rev. eapply Forall_impl; [|exact B]. intros c. apply blank_space.
  - eapply Forall_impl; [|exact A]. intros c. apply blank_space.
  - destruct u as [|c u]; [contradiction|exact U1].
Qed.
Lemma strip_cut s : exists a b, s = a ++ rstrip text_space (lstrip text_space s) ++ b /\ Forall any_blank a /\ Forall any_blank b.
Proof.
  destruct (lstrip_cut text_space s) as (a & E & A & _). destruct (lstrip_cut text_space (rev (lstrip text_space s))) as (b & E' & B & _).
  exists a, (rev b). split.
  - rewrite E at 1. f_equal. unfold rstrip. rewrite <- rev_app_distr, <- E'. symmetry. apply rev_involutive.
  - split; [|apply Forall_rev]; (eapply Forall_impl; [|eassumption]); intros c; apply blank_space.
Qed.
Lemma inter_dark core bare : interspersed core bare -> Forall (fun c => text_space c = false) bare -> Forall (fun c => text_space c = false) core.
Proof.
  intros H. induction H as [|c s t N0 H IH|s t H IH]; intros F; [constructor| |constructor; [reflexivity|auto]].
  inversion F; subst. constructor; auto.
Qed.
Lemma dark_both u : Forall (fun c => text_space c = false) u -> dark_ends u.
Proof.
  intros F. split; [destruct F; [exact I|assumption]|]. apply Forall_rev in F. destruct F; [exact I|assumption].
Qed.
Lemma parse_decimal_iff s v : parse_decimal s = Some v <-> decimal_text s v.
Proof.
  unfold parse_decimal, tidy, decimal_text. split.
  - intros E. apply spells_iff in E. destruct (strip_cut s) as (a & b & S & A & B).
    exists a, (rstrip text_space (lstrip text_space s)), (spare (rstrip text_space (lstrip text_space s))), b.
    split; [exact S|]. split; [exact A|]. split; [exact B|]. split; [now apply inter_filter|exact E].
  - intros (a & core & bare & b & -> & A & B & I0 & S). apply spells_iff.
    pose proof (inter_dark _ _ I0 (spell_dark _ _ S)) as D. rewrite strip_at; [|exact A|exact B| |now apply dark_both].
    + apply inter_filter in I0 as ->. exact S.
    + intros ->. inversion I0; subst. apply spells_iff in S. discriminate S.
Qed.
