From Verif Require Import Base BaseFacts Model_Scalars Spec_Scalars Spec_Numeral Proofs_Scalars.

(** ** Characters *)
Fixpoint spaced (l : list N) : bool :=
  match l with a :: (b :: _) as t => ((a + 10 <=? b)%N && spaced t)%bool | _ => true end.
Lemma spaced_low a l z : spaced (a :: l) = true -> In z l -> (a + 10 <= z)%N.
Proof.
  revert a. induction l as [|b l IH]; intros a H I; [destruct I|]. cbn [spaced] in H. apply andb_prop in H as [H1 H2].
  destruct I as [<- |I]; [lia|]. specialize (IH b H2 I). lia.
Qed.
Lemma find_row c l : spaced l = true -> forall z, find (fun z => (z <=? c) && (c <=? z + 9))%N l = Some z <-> In z l /\ (z <= c <= z + 9)%N.
Proof.
  induction l as [|a l IH]; intros S z; cbn [find]; [split; [discriminate|intros [[] _]]|].
  assert (spaced l = true) as S' by (destruct l as [|b l]; [reflexivity|cbn [spaced] in S; now apply andb_prop in S]).
  destruct ((a <=? c) && (c <=? a + 9))%N eqn:E.
  - split; [intros Q; injection Q as <-; split; [now left|lia]|]. intros [[<- |I] B]; [reflexivity|]. pose proof (spaced_low a l z S I). lia.
  - rewrite (IH S' z). split; [intros [I B]; split; [now right|exact B]|]. intros [[<- |I] B]; [lia|]. auto.
Qed.
Lemma zeros_rows : zeros = rows.
Proof. reflexivity. Qed.
Lemma decimal_digit c d : decimal c = Some d <-> digit c d.
Proof.
  unfold decimal, digit. rewrite zeros_rows. split.
  - destruct (find _ rows) as [z|] eqn:E; [|discriminate]. intros Q. injection Q as <-. apply (find_row c rows eq_refl) in E as [I B].
    split; [lia|]. exists z. split; [exact I|lia].
  - intros (L & z & I & ->). rewrite (proj2 (find_row (z + d) rows eq_refl z)); [f_equal; lia|]. split; [exact I|lia].
Qed.
Lemma digit_low c d : digit c d -> (c < 127)%N -> c = (48 + d)%N.
Proof.
  intros (L & z & I & ->) B. unfold rows in I. destruct I as [<- |I]; [reflexivity|].
  assert (1000 <= z)%N; [|lia]. repeat (destruct I as [<- |I]; [lia|]). destruct I.
Qed.
Lemma wide_blank c : wide_space c = true -> blank c.
Proof.
  unfold wide_space, blank. intros H. rewrite !orb_true_iff, andb_true_iff, !N.eqb_eq, !N.leb_le in H. cbn [In]. 
  repeat destruct H as [H|H]; try (subst; tauto); right; left; lia.
Qed.
Lemma ascii_digit c d : is_digit (to_ascii c) = true /\ (to_ascii c - 48)%N = d <-> digit c d.
Proof.
  unfold to_ascii. split.
  - intros [H E]. destruct (N.ltb_spec c 127).
    + unfold is_digit in H. split; [lia|]. exists 48%N. split; [now left|lia].
    + destruct (wide_space c); [discriminate H|]. destruct (decimal c) as [e|] eqn:D; [|discriminate H].
      assert (e = d) as <- by lia. now apply decimal_digit.
  - intros H. destruct (N.ltb_spec c 127) as [B|B].
    + rewrite (digit_low c d H B). destruct H as [L _]. unfold is_digit. lia.
    + destruct (wide_space c) eqn:W.
      * exfalso. destruct H as (L & z & I & E). unfold wide_space in W. rewrite !orb_true_iff, andb_true_iff, !N.eqb_eq, !N.leb_le in W.
        unfold rows in I. cbn [In] in I. repeat (destruct I as [<- |I]; [lia|]). destruct I.
      * rewrite (proj2 (decimal_digit c d) H). destruct H as [L _]. unfold is_digit. lia.
Qed.
Lemma ascii_blank c : ascii_space (to_ascii c) = true <-> blank c.
Proof.
  unfold to_ascii. destruct (N.ltb_spec c 127) as [B|B].
  - unfold ascii_space, blank. cbn [In]. rewrite orb_true_iff, andb_true_iff, !N.leb_le, N.eqb_eq. split.
    + intros [H|H]; [left; lia|right; right; left; lia].
    + intros [H|[H|H]]; [left; lia|lia|]. repeat (destruct H as [<- |H]; [lia|]). destruct H.
  - destruct (wide_space c) eqn:W.
    + split; [intros _; now apply wide_blank|reflexivity].
    + split; [|intros H; exfalso].
      * destruct (decimal c) as [e|] eqn:D; [|discriminate]. apply decimal_digit in D. destruct D as [L _]. unfold ascii_space. lia.
      * unfold wide_space in W. unfold blank in H. cbn [In] in H.
        destruct H as [H|[H|H]]; [lia|lia|]. repeat (destruct H as [<- |H]; [discriminate W || lia|]). destruct H.
Qed.
Lemma ascii_same c k : (k < 127)%N -> is_digit k = false -> ascii_space k = false -> k <> 63%N -> to_ascii c = k <-> c = k.
Proof.
  intros L D S Q. unfold to_ascii. destruct (N.ltb_spec c 127); [reflexivity|]. split; [|lia]. intros E. exfalso.
  destruct (wide_space c); [subst k; discriminate S|]. destruct (decimal c) as [d|] eqn:G; [|congruence].
  apply decimal_digit in G. destruct G as [G _]. unfold is_digit in D. lia.
Qed.

(** ** Digits *)
Definition read (s : list N) : list N := map to_ascii s.
Lemma grouped_numeral : forall k u s0 m n, length u <= k -> numeral s0 m -> grouped m (read u) = Ok n -> numeral (s0 ++ u) n.
Proof.
  induction k as [|k IH]; intros u s0 m n L N0 G; (destruct u as [|c u]; [cbn in G; injection G as <-; now rewrite app_nil_r|]); cbn [length] in L; [lia|].
  cbn [read map grouped] in G. destruct (is_digit (to_ascii c)) eqn:D.
  - replace (s0 ++ c :: u) with ((s0 ++ [c]) ++ u) by now rewrite <- app_assoc. eapply IH; [lia| |exact G].
    rewrite (N.mul_comm m 10). apply numeral_next; [exact N0|]. apply ascii_digit. auto.
  - destruct (N.eqb_spec (to_ascii c) 95) as [E|E]; [|discriminate]. apply (ascii_same c 95) in E; try reflexivity; try discriminate. subst c.
    destruct u as [|d u]; [discriminate|]. cbn [map] in G. destruct (is_digit (to_ascii d)) eqn:D'; [|discriminate].
    replace (s0 ++ 95%N :: d :: u) with ((s0 ++ [95%N; d]) ++ u) by now rewrite <- app_assoc. cbn [length] in L. eapply IH; [lia| |exact G].
    rewrite (N.mul_comm m 10). apply numeral_under; [exact N0|]. apply ascii_digit. auto.
Qed.
Lemma nat_numeral u n : parse_nat (read u) = Ok n -> numeral u n.
Proof.
  destruct u as [|c u]; [discriminate|]. cbn [read map parse_nat]. destruct (is_digit (to_ascii c)) eqn:D; [|discriminate]. intros G.
  change (c :: u) with ([c] ++ u). eapply grouped_numeral; [apply le_n| |exact G]. apply numeral_one. apply ascii_digit. auto.
Qed.
Lemma grouped_snoc : forall k t m n c, length t <= k -> grouped m t = Ok n -> is_digit c = true ->
  grouped m (t ++ [c]) = Ok (n * 10 + (c - 48))%N /\ grouped m (t ++ [95%N; c]) = Ok (n * 10 + (c - 48))%N.
Proof.
  induction k as [|k IH]; intros t m n c L G D; (destruct t as [|x t]; [cbn in G; injection G as <-; cbn [app grouped]; rewrite D; split; reflexivity|]); cbn [length] in L; [lia|].
  cbn [app grouped] in *. destruct (is_digit x); [apply IH; [lia|exact G|exact D]|]. destruct (x =? 95)%N; [|discriminate].
  destruct t as [|y t]; [discriminate|]. cbn [app]. destruct (is_digit y); [|discriminate]. cbn [length] in L. apply IH; [lia|exact G|exact D].
Qed.
Lemma numeral_nat u n : numeral u n -> parse_nat (read u) = Ok n.
Proof.
  induction 1 as [c d D|s n c d N0 IH D|s n c d N0 IH D]; apply ascii_digit in D as [D E].
  - cbn [read map parse_nat grouped]. now rewrite D, E.
  - destruct s as [|x s]; [inversion N0 as [| |? ? ? ? ? ? Q]; subst; exfalso; eapply app_cons_not_nil; symmetry; eassumption|].
    cbn [app read map parse_nat] in *. destruct (is_digit (to_ascii x)); [|discriminate IH]. rewrite map_app.
    destruct (grouped_snoc _ _ _ _ _ (le_n _) IH D) as [Q _]. cbn [map]. rewrite Q, E. f_equal. lia.
  - destruct s as [|x s]; [inversion N0 as [| |? ? ? ? ? ? Q]; subst; exfalso; eapply app_cons_not_nil; symmetry; eassumption|].
    cbn [app read map parse_nat] in *. destruct (is_digit (to_ascii x)); [|discriminate IH]. rewrite map_app.
    destruct (grouped_snoc _ _ _ _ _ (le_n _) IH D) as [_ Q]. cbn [map]. change (to_ascii 95) with 95%N. rewrite Q, E. f_equal. lia.
Qed.

(** ** White space *)
Definition trim (t : list N) : list N := rev (skip_spaces (rev (skip_spaces t))).
Definition starts_dark (u : list N) : Prop := match u with c :: _ => ascii_space c = false | [] => True end.
Lemma skip_spec t : exists b, t = b ++ skip_spaces t /\ Forall (fun c => ascii_space c = true) b.
Proof.
  induction t as [|c t (b & E & F)]; [exists []; auto|]. cbn [skip_spaces]. destruct (ascii_space c) eqn:S.
  - exists (c :: b). split; [cbn [app]; now f_equal|now constructor].
  - exists []. split; [reflexivity|constructor].
Qed.
Lemma skip_app b u : Forall (fun c => ascii_space c = true) b -> starts_dark u -> skip_spaces (b ++ u) = u.
Proof. intros F D. induction F as [|c b S F IH]; [destruct u as [|c u]; [reflexivity|cbn in *; now rewrite D]|]. cbn [app skip_spaces]. now rewrite S. Qed.
Lemma trim_split t : exists a b, t = a ++ trim t ++ b /\ Forall (fun c => ascii_space c = true) a /\ Forall (fun c => ascii_space c = true) b.
Proof.
  destruct (skip_spec t) as (a & E & F). destruct (skip_spec (rev (skip_spaces t))) as (b & E' & F'). exists a, (rev b).
  split; [|split; [exact F|now apply Forall_rev]]. rewrite E at 1. f_equal. unfold trim. rewrite <- (rev_involutive (skip_spaces t)) at 1.
  rewrite E' at 1. now rewrite rev_app_distr.
Qed.
Lemma trim_app a u b : Forall (fun c => ascii_space c = true) a -> Forall (fun c => ascii_space c = true) b -> u <> [] ->
  starts_dark u -> starts_dark (rev u) -> trim (a ++ u ++ b) = u.
Proof.
  intros A B N D D'. unfold trim. rewrite skip_app; [|exact A|destruct u; [congruence|exact D]].
  rewrite rev_app_distr, skip_app; [apply rev_involutive|now apply Forall_rev|exact D'].
Qed.
Lemma map_split {A B} (f : A -> B) s : forall a b, map f s = a ++ b -> exists a' b', s = a' ++ b' /\ map f a' = a /\ map f b' = b.
Proof.
  induction s as [|x s IH]; intros a b E.
  - symmetry in E. apply app_eq_nil in E as [-> ->]. exists [], []. auto.
  - destruct a as [|y a]; [exists [], (x :: s); auto|]. cbn in E. injection E as E1 E2. destruct (IH _ _ E2) as (a' & b' & -> & <- & <-).
    exists (x :: a'), b'. rewrite <- E1. auto.
Qed.
Lemma blanks s : Forall (fun c => ascii_space c = true) (read s) <-> Forall blank s.
Proof.
  unfold read. rewrite Forall_map. split; intros H; (eapply Forall_impl; [|exact H]); intros c; apply ascii_blank.
Qed.
Lemma dark_digit c d : digit c d -> ascii_space (to_ascii c) = false.
Proof. intros H. apply ascii_digit in H as [H _]. unfold is_digit in H. unfold ascii_space. lia. Qed.
Lemma numeral_ends u n : numeral u n -> u <> [] /\ starts_dark (read u) /\ starts_dark (rev (read u))
  /\ exists c t, u = c :: t /\ exists d, digit c d.
Proof.
  unfold read. induction 1 as [c d D|s n c d N0 (I1 & I2 & I3 & x & t & -> & I4) D|s n c d N0 (I1 & I2 & I3 & x & t & -> & I4) D].
  - split; [discriminate|]. cbn. rewrite (dark_digit c d D). split; [reflexivity|]. split; [reflexivity|]. eauto.
  - split; [discriminate|]. split; [exact I2|]. rewrite map_app, rev_app_distr. cbn [map rev app starts_dark]. split; [exact (dark_digit c d D)|]. eexists _, _. split; [reflexivity|exact I4].
  - split; [discriminate|]. split; [exact I2|]. rewrite map_app, rev_app_distr. cbn [map rev app starts_dark]. split; [exact (dark_digit c d D)|]. eexists _, _. split; [reflexivity|exact I4].
Qed.

(** ** Integers *)
Lemma parse_int_eq s : parse_int s =
  match trim (read s) with
  | c :: t =>
    if (c =? 45)%N then (let! n := parse_nat t in Ok (- Z.of_N n)%Z)
    else if (c =? 43)%N then (let! n := parse_nat t in Ok (Z.of_N n))
    else (let! n := parse_nat (c :: t) in Ok (Z.of_N n))
  | [] => Err ValueError
  end.
Proof. reflexivity. Qed.
Lemma int_text_parse s z : int_text s z -> parse_int s = Ok z.
Proof.
  intros (a & g & u & b & n & -> & A & B & U & Z). rewrite parse_int_eq.
  destruct (numeral_ends u n U) as (N0 & D1 & D2 & c & t & -> & d & Dc).
  assert (trim (read (a ++ g ++ (c :: t) ++ b)) = read (g ++ c :: t)) as ->.
  { unfold read. rewrite !map_app. rewrite (app_assoc (map to_ascii g)). rewrite <- (map_app to_ascii g). apply trim_app.
    - now apply blanks.
    - now apply blanks.
    - destruct g; discriminate.
    - destruct Z as [[[-> | ->] _]|[-> _]]; [exact D1|reflexivity|reflexivity].
    - rewrite map_app, rev_app_distr. destruct (rev (map to_ascii (c :: t))) as [|y l] eqn:E; [|unfold read in D2; rewrite E in D2; exact D2].
      apply (f_equal (@length N)) in E. rewrite rev_length, map_length in E. discriminate. }
  pose proof (numeral_nat _ _ U) as P. apply ascii_digit in Dc as [Dc _].
  destruct Z as [[[-> | ->] ->]|[-> ->]]; cbn [app read map].
  - replace (to_ascii c =? 45)%N with false by (unfold is_digit in Dc; lia). replace (to_ascii c =? 43)%N with false by (unfold is_digit in Dc; lia).
    cbn [read map] in P. rewrite P. reflexivity.
  - change (to_ascii 43) with 43%N. change (43 =? 45)%N with false. change (43 =? 43)%N with true. cbv iota. cbn [read map] in P. rewrite P. reflexivity.
  - change (to_ascii 45) with 45%N. change (45 =? 45)%N with true. cbv iota. cbn [read map] in P. rewrite P. reflexivity.
Qed.
Lemma parse_int_text s z : parse_int s = Ok z -> int_text s z.
Proof.
  rewrite parse_int_eq. destruct (trim_split (read s)) as (a & b & E & A & B).
  destruct (trim (read s)) as [|c t] eqn:T; [discriminate|]. unfold read in E.
  apply map_split in E as (a' & s1 & -> & Ea & E1). apply map_split in E1 as (u & b' & -> & Eu & Eb).
  destruct u as [|c' t']; [discriminate|]. cbn [map] in Eu. injection Eu as Ec Et. subst a b c t. intros H.
  apply blanks in A. apply blanks in B.
  destruct (N.eqb_spec (to_ascii c') 45) as [Q|Q].
  - apply (ascii_same c' 45) in Q; try reflexivity; try discriminate. subst c'. destruct (parse_nat (map to_ascii t')) as [n|] eqn:P; [|discriminate].
    injection H as <-. exists a', [45%N], t', b', n. split; [reflexivity|]. split; [exact A|]. split; [exact B|]. split; [now apply nat_numeral|auto].
  - destruct (N.eqb_spec (to_ascii c') 43) as [Q'|Q'].
    + apply (ascii_same c' 43) in Q'; try reflexivity; try discriminate. subst c'. destruct (parse_nat (map to_ascii t')) as [n|] eqn:P; [|discriminate].
      injection H as <-. exists a', [43%N], t', b', n. split; [reflexivity|]. split; [exact A|]. split; [exact B|]. split; [now apply nat_numeral|auto].
    + destruct (parse_nat (to_ascii c' :: map to_ascii t')) as [n|] eqn:P; [|discriminate].
      injection H as <-. exists a', [], (c' :: t'), b', n. split; [reflexivity|]. split; [exact A|]. split; [exact B|]. split; [now apply nat_numeral|auto].
Qed.
Lemma parse_int_iff s z : parse_int s = Ok z <-> int_text s z.
Proof. split; [apply parse_int_text|apply int_text_parse]. Qed.
Lemma plain_is s n : plain_numeral s n -> numeral s n.
Proof.
  assert (forall d, (d < 10)%N -> digit (48 + d) d) as D by (intros d L; split; [exact L|exists 48%N; split; [now left|reflexivity]]).
  induction 1 as [c d L ->|s n c d P IH L ->]; [apply numeral_one|apply numeral_next; [exact IH|]]; now apply D.
Qed.
Lemma xs_is s z : xs_integer s z -> int_text s z.
Proof.
  assert (forall l, Forall xml_blank l -> Forall blank l) as W.
  { intros l H. eapply Forall_impl; [|exact H]. intros c I. unfold xml_blank in I. cbn [In] in I. unfold blank. cbn [In]. destruct I as [<- |[<- |[<- |[<- |[]]]]]; [left; lia|left; lia|left; lia|tauto]. }
  intros (a & g & u & b & n & -> & A & B & U & Z). exists a, g, u, b, n. split; [reflexivity|]. split; [auto|]. split; [auto|]. split; [now apply plain_is|exact Z].
Qed.
