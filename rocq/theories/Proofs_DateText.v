(** Proofs about the texts of date-times. *)
From Verif Require Import Base BaseFacts Model_Scalars Spec_Scalars Spec_Dates Spec_Numeral Spec_Duration Spec_DateText
  Proofs_Scalars Proofs_Duration Proofs_Numeral Proofs_Duration2 Proofs_Datetime.
From Verif Require Proofs_Dates.

(** ** Digits *)
Lemma any_is c : any_digit c = true -> digit c (to_digit c - 48).
Proof. apply to_digit_is. Qed.
Lemma digit_any c k : digit c k -> any_digit c = true.
Proof. intros D. unfold any_digit. rewrite (to_digit_digit _ _ D). apply digit_small in D. unfold is_digit. lia. Qed.
Lemma digit_num c k : digit c k -> (to_digit c - 48 = k)%N.
Proof. intros D. rewrite (to_digit_digit _ _ D). lia. Qed.
Lemma digit_ascii n : (n < 10)%N -> digit (48 + n) n.
Proof. intros H. split; [exact H|]. exists 48%N. split; [now left|reflexivity]. Qed.
Lemma num_ascii n : (n < 10)%N -> (to_digit (48 + n) - 48 = n)%N.
Proof. intros H. now apply digit_num, digit_ascii. Qed.
Lemma any_other k : (k < 128)%N -> is_digit k = false -> any_digit k = false.
Proof. intros B H. now rewrite any_ascii. Qed.
Lemma ten a b : (b < 10)%N -> ((10 * a + b) / 10 = a /\ (10 * a + b) mod 10 = b)%N.
Proof.
  intros H. split; [symmetry; apply (N.div_unique _ _ _ b); [exact H|reflexivity]|symmetry; apply (N.mod_unique _ _ a); [exact H|reflexivity]].
Qed.
Lemma tens n : (n = 10 * (n / 10) + n mod 10 /\ n mod 10 < 10)%N.
Proof. split; [apply N.div_mod'|apply N.mod_lt; lia]. Qed.
(** What follows a field. *)
Definition stops (r : list N) : Prop := match r with [] => True | c :: _ => any_digit c = false end.

(** ** Fields *)
Lemma field_pair ps one a b r : existsb (fun p => fst p a && snd p b)%bool ps = true ->
  Model_Scalars.field ps one (a :: b :: r) = Ok (10 * (to_digit a - 48) + (to_digit b - 48), r)%N.
Proof. intros H. cbn. now rewrite H. Qed.
Lemma field_one ps one a r : (forall p c, In p ps -> snd p c = true -> any_digit c = true) -> stops r -> one a = true ->
  Model_Scalars.field ps one (a :: r) = Ok (to_digit a - 48, r)%N.
Proof.
  intros C T O. destruct r as [|b r]; cbn; [now rewrite O|]. cbn [stops] in T.
  destruct (existsb _ ps) eqn:E; [|now rewrite O]. exfalso. apply existsb_exists in E. destruct E as (p & I & E).
  apply andb_prop in E. destruct E as [_ E]. specialize (C p b I E). congruence.
Qed.
Lemma field_inv ps one s n r : Model_Scalars.field ps one s = Ok (n, r) ->
  (exists a b, s = [a; b] ++ r /\ existsb (fun p => fst p a && snd p b)%bool ps = true /\ n = (10 * (to_digit a - 48) + (to_digit b - 48))%N)
  \/ (exists a, s = [a] ++ r /\ one a = true /\ n = (to_digit a - 48)%N).
Proof.
  destruct s as [|a [|b t]]; cbn; [discriminate| |].
  - destruct (one a) eqn:O; [|discriminate]. intros [= <- <-]. right. now exists a.
  - destruct (existsb _ ps) eqn:E.
    + intros [= <- <-]. left. now exists a, b.
    + destruct (one a) eqn:O; [|discriminate]. intros [= <- <-]. right. now exists a.
Qed.
Lemma within_any a b c : (48 <= a)%N -> (b <= 57)%N -> within a b c = true -> any_digit c = true.
Proof. intros A B H. unfold within in H. rewrite any_ascii by lia. unfold is_digit. lia. Qed.
Ltac classes := intros p c I S; cbn [In] in I;
  repeat (destruct I as [<- | I]; [cbn [snd] in S; first [exact S | apply (within_any _ _ _) in S; [exact S|lia|lia]]|]); destruct I.
Ltac two := first [apply f_equal2; [lia|apply f_equal2; [lia|reflexivity]] | apply f_equal2; [lia|reflexivity]].
Ltac low := unfold within in *; rewrite ?Bool.orb_false_r; lia.

Lemma month_fwd s n r : month_says s n -> stops r -> month_field (s ++ r) = Ok (n, r).
Proof.
  intros (B & [(L & ->) | ->]) T; cbn [app]; unfold month_field.
  - rewrite field_one; [now rewrite num_ascii|classes|exact T|low].
  - destruct (tens n) as [E M]. assert (n / 10 < 10)%N by lia. rewrite field_pair; [rewrite !num_ascii by lia; now rewrite <- E|].
    cbn [existsb fst snd]. low.
Qed.
Lemma month_inv s n r : month_field s = Ok (n, r) -> exists p, s = p ++ r /\ month_says p n.
Proof.
  unfold month_field. intros H. apply field_inv in H. destruct H as [(a & b & -> & C & ->) | (a & -> & C & ->)].
  - exists [a; b]. split; [reflexivity|]. cbn [existsb fst snd] in C. assert (48 <= a <= 57 /\ 48 <= b <= 57)%N as [A B] by low.
    rewrite !to_digit_ascii by lia. destruct (ten (a - 48) (b - 48)) as [E M]; [lia|]. split; [low|]. right. rewrite E, M. two.
  - exists [a]. split; [reflexivity|]. assert (49 <= a <= 57)%N by low. rewrite !to_digit_ascii by lia. split; [lia|].
    left. split; [lia|]. f_equal; lia.
Qed.
Lemma day_fwd s n r : day_says s n -> stops r -> day_field (s ++ r) = Ok (n, r).
Proof.
  intros (B & [(L & [-> | ->]) | [-> | (L & b & D & ->)]]) T; cbn [app]; unfold day_field.
  - rewrite field_one; [now rewrite num_ascii|classes|exact T|low].
  - rewrite field_pair; [rewrite num_ascii by exact L; now rewrite to_digit_ascii by lia|]. cbn [existsb fst snd]. low.
  - destruct (tens n) as [E M]. assert (n / 10 < 10)%N by lia. rewrite field_pair; [rewrite !num_ascii by lia; now rewrite <- E|].
    cbn [existsb fst snd]. rewrite (any_ascii (48 + n mod 10)) by lia. unfold is_digit. low.
  - destruct (tens n) as [E M]. assert (n / 10 < 10)%N by lia. rewrite field_pair; [rewrite num_ascii by lia; rewrite (digit_num _ _ D); now rewrite <- E|].
    cbn [existsb fst snd]. rewrite (digit_any _ _ D). low.
Qed.
Lemma day_inv s n r : day_field s = Ok (n, r) -> exists p, s = p ++ r /\ day_says p n.
Proof.
  unfold day_field. intros H. apply field_inv in H. destruct H as [(a & b & -> & C & ->) | (a & -> & C & ->)].
  - exists [a; b]. split; [reflexivity|]. cbn [existsb fst snd] in C.
    destruct (within 49 50 a) eqn:W.
    + assert (49 <= a <= 50)%N by low. destruct (any_digit b) eqn:D; [|low]. apply any_is in D. set (k := (to_digit b - 48)%N) in *.
      clearbody k. pose proof (digit_small _ _ D). rewrite to_digit_ascii by lia. destruct (ten (a - 48) k) as [E M]; [lia|].
      split; [lia|]. right. right. split; [lia|]. exists b. rewrite E, M. split; [exact D|]. two.
    + assert (49 <= b <= 57 /\ (a = 32 \/ a = 48) \/ a = 51 /\ 48 <= b <= 49)%N as A by low. assert (a < 128 /\ 48 <= b <= 57)%N by lia.
      rewrite !to_digit_ascii by lia. destruct (ten (a - 48) (b - 48)) as [E M]; [lia|]. split; [lia|].
      destruct A as [(A & [-> | ->]) | (-> & A)].
      * left. split; [lia|]. right. two.
      * right. left. rewrite E, M. two.
      * right. left. rewrite E, M. two.
  - exists [a]. split; [reflexivity|]. assert (49 <= a <= 57)%N by low. rewrite !to_digit_ascii by lia. split; [lia|].
    left. split; [lia|]. left. f_equal; lia.
Qed.
Lemma hour_fwd s n r : hour_says s n -> stops r -> hour_field (s ++ r) = Ok (n, r).
Proof.
  intros (B & [(b & D & ->) | [-> | (L & b & D & ->)]]) T; cbn [app]; unfold hour_field.
  - rewrite field_one; [now rewrite (digit_num _ _ D)|classes|exact T|now apply (digit_any _ n)].
  - destruct (tens n) as [E M]. assert (n / 10 < 10)%N by lia. rewrite field_pair; [rewrite !num_ascii by lia; now rewrite <- E|].
    cbn [existsb fst snd]. rewrite (any_ascii (48 + n mod 10)) by lia. unfold is_digit. low.
  - destruct (tens n) as [E M]. assert (n / 10 < 10)%N by lia. rewrite field_pair; [rewrite num_ascii by lia; rewrite (digit_num _ _ D); now rewrite <- E|].
    cbn [existsb fst snd]. rewrite (digit_any _ _ D). low.
Qed.
Lemma hour_inv s n r : hour_field s = Ok (n, r) -> exists p, s = p ++ r /\ hour_says p n.
Proof.
  unfold hour_field. intros H. apply field_inv in H. destruct H as [(a & b & -> & C & ->) | (a & -> & C & ->)].
  - exists [a; b]. split; [reflexivity|]. cbn [existsb fst snd] in C.
    destruct (within 48 49 a) eqn:W.
    + assert (48 <= a <= 49)%N by low. destruct (any_digit b) eqn:D; [|low]. apply any_is in D. set (k := (to_digit b - 48)%N) in *.
      clearbody k. pose proof (digit_small _ _ D). rewrite to_digit_ascii by lia. destruct (ten (a - 48) k) as [E M]; [lia|].
      split; [lia|]. right. right. split; [lia|]. exists b. rewrite E, M. split; [exact D|]. two.
    + assert (a = 50 /\ 48 <= b <= 51)%N as [-> A] by low.
      rewrite !to_digit_ascii by lia. destruct (ten (50 - 48) (b - 48)) as [E M]; [lia|]. split; [lia|].
      right. left. rewrite E, M. two.
  - exists [a]. split; [reflexivity|]. apply any_is in C. split; [pose proof (digit_small _ _ C); lia|]. left. now exists a.
Qed.
Lemma minute_fwd s n r : sixty_says s n -> stops r -> minute_field (s ++ r) = Ok (n, r).
Proof.
  intros (B & [(b & D & ->) | (b & D & ->)]) T; cbn [app]; unfold minute_field.
  - rewrite field_one; [now rewrite (digit_num _ _ D)|classes|exact T|now apply (digit_any _ n)].
  - destruct (tens n) as [E M]. assert (n / 10 < 10)%N by lia. rewrite field_pair; [rewrite num_ascii by lia; rewrite (digit_num _ _ D); now rewrite <- E|].
    cbn [existsb fst snd]. rewrite (digit_any _ _ D). low.
Qed.
Lemma minute_inv s n r : minute_field s = Ok (n, r) -> exists p, s = p ++ r /\ sixty_says p n.
Proof.
  unfold minute_field. intros H. apply field_inv in H. destruct H as [(a & b & -> & C & ->) | (a & -> & C & ->)].
  - exists [a; b]. split; [reflexivity|]. cbn [existsb fst snd] in C.
    destruct (any_digit b) eqn:D; [|low]. assert (48 <= a <= 53)%N by low. apply any_is in D. set (k := (to_digit b - 48)%N) in *.
    clearbody k. pose proof (digit_small _ _ D). rewrite to_digit_ascii by lia. destruct (ten (a - 48) k) as [E M]; [lia|].
    split; [lia|]. right. exists b. rewrite E, M. split; [exact D|]. two.
  - exists [a]. split; [reflexivity|]. apply any_is in C. split; [pose proof (digit_small _ _ C); lia|]. left. now exists a.
Qed.
Lemma second_fwd s n r : sixty_says s n -> stops r -> second_field (s ++ r) = Ok (n, r).
Proof.
  intros (B & [(b & D & ->) | (b & D & ->)]) T; cbn [app]; unfold second_field.
  - rewrite field_one; [now rewrite (digit_num _ _ D)|classes|exact T|now apply (digit_any _ n)].
  - destruct (tens n) as [E M]. assert (n / 10 < 10)%N by lia. rewrite field_pair; [rewrite num_ascii by lia; rewrite (digit_num _ _ D); now rewrite <- E|].
    cbn [existsb fst snd]. rewrite (digit_any _ _ D). low.
Qed.
Lemma second_inv s n r : second_field s = Ok (n, r) -> (n < 60)%N -> exists p, s = p ++ r /\ sixty_says p n.
Proof.
  unfold second_field. intros H L. apply field_inv in H. destruct H as [(a & b & -> & C & ->) | (a & -> & C & ->)].
  - exists [a; b]. split; [reflexivity|]. cbn [existsb fst snd] in C.
    destruct (within 48 53 a) eqn:W.
    + destruct (any_digit b) eqn:D; [|low]. assert (48 <= a <= 53)%N by low. apply any_is in D. set (k := (to_digit b - 48)%N) in *.
      clearbody k. pose proof (digit_small _ _ D). rewrite to_digit_ascii by lia. destruct (ten (a - 48) k) as [E M]; [lia|].
      split; [lia|]. right. exists b. rewrite E, M. split; [exact D|]. two.
    + exfalso. assert (a = 54 /\ 48 <= b <= 49)%N as [-> A] by low. rewrite !to_digit_ascii in L by lia. lia.
  - exists [a]. split; [reflexivity|]. apply any_is in C. split; [pose proof (digit_small _ _ C); lia|]. left. now exists a.
Qed.
Lemma year_fwd y n r : number y n -> length y = 4 -> year_field (y ++ r) = Ok (n, r).
Proof.
  intros H L. unfold year_field. rewrite (app_firstn_len _ _ _ L), (app_skipn_len _ _ _ L), L. apply number_val in H. destruct H as (_ & D & V).
  assert (forallb any_digit y = true) as ->; [|now rewrite V]. unfold any_digit. unfold digits in D. clear L V. induction y as [|c y IH]; [reflexivity|].
  cbn in *. apply andb_prop in D. destruct D as [-> D]. now apply IH.
Qed.
Lemma forallb_plain y : forallb any_digit y = forallb is_digit (plain y).
Proof. induction y as [|c y IH]; [reflexivity|]. cbn. now rewrite IH. Qed.
Lemma year_inv s n r : year_field s = Ok (n, r) -> exists y, s = y ++ r /\ number y n /\ length y = 4.
Proof.
  unfold year_field. cbv zeta. pose proof (firstn_skipn 4 s) as K. revert K. generalize (firstn 4 s), (skipn 4 s). intros y q K.
  destruct (_ && _)%bool eqn:E; [|discriminate]. intros [= <- <-]. apply andb_prop in E. destruct E as [L D].
  apply Nat.eqb_eq in L. exists y. split; [now symmetry|]. split; [|exact L].
  apply val_number; [now destruct y|]. unfold digits. now rewrite <- forallb_plain.
Qed.

(** ** The head *)
Lemma any_span u t : forallb any_digit u = true -> stops t -> span_any (u ++ t) = (u, t).
Proof.
  induction u as [|c u IH]; intros H T.
  - destruct t as [|c t]; [reflexivity|]. cbn [app span_any]. cbn [stops] in T. now rewrite T.
  - cbn [forallb] in H. apply andb_prop in H. destruct H as [C H]. cbn [app span_any]. now rewrite C, (IH H T).
Qed.
Lemma span_any_inv s d r : span_any s = (d, r) -> s = d ++ r /\ forallb any_digit d = true /\ stops r.
Proof.
  revert d r. induction s as [|c s IH]; intros d r E; cbn [span_any] in E.
  - now injection E as <- <-.
  - destruct (any_digit c) eqn:D.
    + destruct (span_any s) as [a b]. injection E as <- <-. destruct (IH a b eq_refl) as (-> & H1 & H2).
      split; [reflexivity|]. split; [|exact H2]. cbn [forallb]. now rewrite D.
    + injection E as <- <-. now split; [|split].
Qed.
Lemma number_any y n : number y n -> forallb any_digit y = true /\ y <> [] /\ digits_val (plain y) = n.
Proof.
  intros H. apply number_val in H. destruct H as (E & D & V). rewrite forallb_plain. split; [exact D|]. split; [|exact V]. now intros ->.
Qed.
Lemma any_number y : y <> [] -> forallb any_digit y = true -> number y (digits_val (plain y)).
Proof. intros E D. apply val_number; [now destruct y|]. unfold digits. now rewrite <- forallb_plain. Qed.
Lemma plain_digits g n : plain_numeral g n -> forallb is_digit g = true /\ g <> [] /\ digits_val g = n.
Proof.
  induction 1 as [c d L ->|s n c d _ (IH1 & IH2 & IH3) L ->].
  - cbn [forallb]. rewrite digits_val_one. unfold is_digit. split; [lia|]. split; [discriminate|lia].
  - rewrite forallb_app, IH1, digits_val_app, IH3, digits_val_one. cbn [forallb length]. unfold is_digit.
    split; [lia|]. split; [now destruct s|]. change (10 ^ N.of_nat 1)%N with 10%N. lia.
Qed.
Lemma digits_plain g : g <> [] -> forallb is_digit g = true -> plain_numeral g (digits_val g).
Proof.
  induction g as [|c g IH] using rev_ind; intros E D; [easy|]. rewrite forallb_app in D. apply andb_prop in D. destruct D as [D C].
  cbn [forallb] in C. unfold is_digit in C. destruct g as [|x g].
  - cbn [app]. rewrite digits_val_one. apply plain_one; lia.
  - rewrite digits_val_app, digits_val_one. cbn [length]. change (10 ^ N.of_nat 1)%N with 10%N.
    replace (digits_val (x :: g) * 10 + (c - 48))%N with (10 * digits_val (x :: g) + (c - 48))%N by lia.
    apply plain_next; [now apply IH|lia|lia].
Qed.
Lemma any_of_plain g : forallb is_digit g = true -> forallb any_digit g = true.
Proof.
  intros D. rewrite forallb_forall in *. intros c I. apply D in I. unfold is_digit in I. rewrite any_ascii by lia. unfold is_digit. lia.
Qed.

(** Characters of the fields. *)
Definition mild (c : N) : Prop := any_digit c = true \/ c = 32%N.
Lemma mild_not c k : mild c -> (k < 128)%N -> is_digit k = false -> k <> 32%N -> c <> k.
Proof. intros [M | ->] B D K E; [|lia]. subst c. rewrite any_ascii in M by exact B. congruence. Qed.
Lemma month_mild s n : month_says s n -> forallb any_digit s = true /\ s <> [].
Proof.
  intros (B & [(L & ->) | ->]); (split; [|discriminate]); cbn [forallb].
  - now rewrite (digit_any _ n (digit_ascii n L)).
  - destruct (tens n) as [E M]. now rewrite (digit_any _ _ (digit_ascii (n / 10) ltac:(lia))), (digit_any _ _ (digit_ascii _ M)).
Qed.
Lemma day_mild s n : day_says s n -> Forall mild s /\ s <> [] /\ (forallb any_digit s = true \/ exists t, s = 32%N :: t).
Proof.
  intros (B & K). destruct (tens n) as [E M]. assert (any_digit (48 + n / 10) = true) as A1 by (apply (digit_any _ (n / 10)), digit_ascii; lia).
  destruct K as [(L & [-> | ->]) | [-> | (L & b & D & ->)]]; (split; [|split; [discriminate|]]).
  - repeat (apply Forall_cons || apply Forall_nil). left. apply (digit_any _ _ (digit_ascii n L)).
  - left. cbn [forallb]. now rewrite (digit_any _ n (digit_ascii n L)).
  - apply Forall_cons; [now right|]. apply Forall_cons; [|apply Forall_nil]. left. apply (digit_any _ _ (digit_ascii n L)).
  - right. eauto.
  - apply Forall_cons; [now left|]. apply Forall_cons; [|apply Forall_nil]. left. apply (digit_any _ _ (digit_ascii _ M)).
  - left. cbn [forallb]. now rewrite A1, (digit_any _ _ (digit_ascii _ M)).
  - apply Forall_cons; [now left|]. apply Forall_cons; [|apply Forall_nil]. left. apply (digit_any _ _ D).
  - left. cbn [forallb]. now rewrite A1, (digit_any _ _ D).
Qed.
Lemma hour_mild s n : hour_says s n -> forallb any_digit s = true /\ s <> [].
Proof.
  intros (B & K). destruct (tens n) as [E M]. assert (any_digit (48 + n / 10) = true) as A1 by (apply (digit_any _ (n / 10)), digit_ascii; lia).
  destruct K as [(b & D & ->) | [-> | (L & b & D & ->)]]; (split; [|discriminate]); cbn [forallb].
  - now rewrite (digit_any _ _ D).
  - now rewrite A1, (digit_any _ _ (digit_ascii _ M)).
  - now rewrite A1, (digit_any _ _ D).
Qed.
Lemma sixty_mild s n : sixty_says s n -> forallb any_digit s = true /\ s <> [].
Proof.
  intros (B & K). destruct (tens n) as [E M]. assert (any_digit (48 + n / 10) = true) as A1 by (apply (digit_any _ (n / 10)), digit_ascii; lia).
  destruct K as [(b & D & ->) | (b & D & ->)]; (split; [|discriminate]); cbn [forallb].
  - now rewrite (digit_any _ _ D).
  - now rewrite A1, (digit_any _ _ D).
Qed.
Lemma all_mild s : forallb any_digit s = true -> Forall mild s.
Proof. intros H. rewrite forallb_forall in H. apply Forall_forall. intros c I. left. now apply H. Qed.

(** Looking for the zone. *)
Lemma find_cons c t : tz_at (c :: t) = None -> find_tz (c :: t) = pre [c] (find_tz t).
Proof. intros H. cbn [find_tz]. rewrite H. destruct (find_tz t) as [[p x]|]; reflexivity. Qed.
Definition no_sign (c : N) : Prop := c <> 43%N /\ c <> 45%N.
Lemma find_nosign u t : Forall no_sign u -> find_tz (u ++ t) = pre u (find_tz t).
Proof.
  induction 1 as [|c u (A & B) _ IH]; [cbn [app]; now destruct (find_tz t) as [[p x]|]|].
  cbn [app]. rewrite find_cons, IH, pre_pre; [reflexivity|]. unfold tz_at. now replace ((c =? 43) || (c =? 45))%N with false by lia.
Qed.
Lemma mild_nosign s : Forall mild s -> Forall no_sign s.
Proof.
  intros H. eapply Forall_impl; [|exact H]. intros c M. split; (apply mild_not; [exact M|lia|reflexivity|lia]).
Qed.
Lemma find_dash u c t : forallb any_digit u = true -> any_digit c = false -> c <> 58%N ->
  find_tz (45%N :: u ++ c :: t) = pre [45%N] (find_tz (u ++ c :: t)).
Proof.
  intros U C K. apply find_cons. unfold tz_at. change ((45 =? 43) || (45 =? 45))%N with true. cbv iota.
  rewrite any_span by (exact U || exact C). destruct (span_any t) as [m r]. now replace (c =? 58)%N with false by lia.
Qed.

Lemma head_find s d t : head_says s d -> find_tz (s ++ t) = pre s (find_tz t).
Proof.
  intros (y & mo & da & T & h & mi & se & -> & Y & _ & MO & DA & HT & H & MI & SE). apply number_any in Y. destruct Y as [Y _].
  apply month_mild in MO. destruct MO as [MO _]. apply day_mild in DA. destruct DA as (DA & DN & DA').
  apply hour_mild in H. destruct H as [H _]. apply sixty_mild in MI, SE. destruct MI as [MI _], SE as [SE _].
  assert (any_digit T = false /\ T <> 58%N /\ no_sign T) as (T1 & T2 & T3) by (unfold no_sign; destruct HT as [-> | ->]; (split; [now apply any_other|lia])).
  repeat (rewrite <- app_assoc; cbn [app]).
  rewrite (find_nosign y) by now apply mild_nosign, all_mild.
  rewrite (find_dash mo) by (assumption || discriminate || reflexivity). rewrite (find_nosign mo) by now apply mild_nosign, all_mild.
  assert (forall r, find_tz (45%N :: da ++ T :: r) = pre [45%N] (find_tz (da ++ T :: r))) as DD.
  { intros r. destruct DA' as [DA' | (q & ->)]; [now apply find_dash|]. cbn [app]. change (32%N :: q ++ T :: r) with ([] ++ 32%N :: (q ++ T :: r)).
    apply find_dash; [reflexivity|now apply any_other|lia]. }
  rewrite DD. rewrite (find_nosign da) by now apply mild_nosign.
  change (T :: ?x) with ([T] ++ x). rewrite (find_nosign [T]) by (apply Forall_cons; [exact T3|apply Forall_nil]).
  rewrite (find_nosign h) by now apply mild_nosign, all_mild.
  change (58%N :: mi ++ 58%N :: se ++ t) with ([58%N] ++ mi ++ [58%N] ++ se ++ t).
  assert (Forall no_sign [58%N]) as C by (apply Forall_cons; [split; discriminate|apply Forall_nil]).
  rewrite (find_nosign [58%N]) by exact C. rewrite (find_nosign mi) by now apply mild_nosign, all_mild. rewrite (find_nosign [58%N]) by exact C.
  rewrite (find_nosign se) by now apply mild_nosign, all_mild. rewrite !pre_pre. f_equal. repeat (rewrite <- app_assoc; cbn [app]). reflexivity.
Qed.
Lemma mild_no46 s : Forall mild s -> ~ In 46%N s.
Proof. intros H I. rewrite Forall_forall in H. apply H in I. revert I. now intros [K | K]. Qed.
Lemma head_no46 s d : head_says s d -> ~ In 46%N s.
Proof.
  intros (y & mo & da & T & h & mi & se & -> & Y & _ & MO & DA & HT & H & MI & SE). apply number_any in Y. destruct Y as [Y _].
  apply month_mild in MO. destruct MO as [MO _]. apply day_mild in DA. destruct DA as (DA & DN & DA').
  apply hour_mild in H. destruct H as [H _]. apply sixty_mild in MI, SE. destruct MI as [MI _], SE as [SE _].
  apply all_mild, mild_no46 in Y, MO, H, MI, SE. apply mild_no46 in DA. rewrite !in_app_iff. cbn [In].
  assert (T <> 46%N) by lia. intuition discriminate.
Qed.
Lemma head_last s d : head_says s d -> exists p c, s = p ++ [c] /\ any_digit c = true.
Proof.
  intros (y & mo & da & T & h & mi & se & -> & _ & _ & _ & _ & _ & _ & _ & SE). apply sixty_mild in SE. destruct SE as [SE SN].
  destruct (exists_last SN) as (p & c & ->). rewrite forallb_app in SE. apply andb_prop in SE. destruct SE as [_ SE]. cbn [forallb] in SE.
  apply andb_prop in SE. destruct SE as [SE _].
  exists (y ++ [45%N] ++ mo ++ [45%N] ++ da ++ [T] ++ h ++ [58%N] ++ mi ++ [58%N] ++ p), c. split; [|exact SE].
  repeat (rewrite <- app_assoc; cbn [app]). reflexivity.
Qed.

(** ** strptime *)
Lemma head_fwd s d t wf wz : head_says s d -> stops t -> strptime (s ++ t) wf wz = Proofs_Dates.rest wf wz d t.
Proof.
  intros (y & mo & da & T & h & mi & se & -> & Y & YL & MO & DA & HT & H & MI & SE) ST.
  repeat (rewrite <- app_assoc; cbn [app]). unfold strptime.
  rewrite (year_fwd _ _ _ Y YL). cbn [bind expect]. change (45 =? 45)%N with true. cbn [bind].
  rewrite (month_fwd _ _ _ MO) by reflexivity. cbn [bind expect]. change (45 =? 45)%N with true. cbn [bind].
  rewrite (day_fwd _ _ _ DA) by (cbn [stops]; destruct HT as [-> | ->]; now apply any_other). cbn [bind expect_T].
  replace ((T =? 84) || (T =? 116))%N with true by lia. cbn [bind].
  rewrite (hour_fwd _ _ _ H) by reflexivity. cbn [bind expect]. change (58 =? 58)%N with true. cbn [bind].
  rewrite (minute_fwd _ _ _ MI) by reflexivity. cbn [bind expect]. change (58 =? 58)%N with true. cbn [bind].
  rewrite (second_fwd _ _ _ SE ST). cbn [bind]. reflexivity.
Qed.
Lemma expect_inv c s r : expect c s = Ok r -> s = [c] ++ r.
Proof. destruct s as [|x t]; cbn; [discriminate|]. destruct (x =? c)%N eqn:E; [|discriminate]. intros [= <-]. f_equal. lia. Qed.
Lemma expect_T_inv s r : expect_T s = Ok r -> exists c, s = [c] ++ r /\ (c = 84%N \/ c = 116%N).
Proof.
  destruct s as [|x t]; cbn; [discriminate|]. destruct (_ || _)%bool eqn:E; [|discriminate]. intros [= <-]. exists x. split; [reflexivity|lia].
Qed.
Lemma bind_inv {A B} (a : result A) (k : A -> result B) r : bind a k = Ok r -> exists x, a = Ok x /\ k x = Ok r.
Proof. destruct a as [x|e]; cbn; [eauto|discriminate]. Qed.
Lemma rest_ok wf wz d t r : Proofs_Dates.rest wf wz d t = Ok r ->
  dt_year r = dt_year d /\ dt_month r = dt_month d /\ dt_day r = dt_day d /\ dt_hour r = dt_hour d /\ dt_minute r = dt_minute d
  /\ dt_second r = dt_second d /\ dt_nano r = 0%N /\ datetime_ok r = true.
Proof.
  unfold Proofs_Dates.rest. intros H. apply bind_inv in H. destruct H as ([us s12] & _ & H).
  apply bind_inv in H. destruct H as ([tz s13] & _ & H). destruct s13; [|discriminate]. cbv zeta in H.
  destruct (datetime_ok _) eqn:E; [|discriminate]. injection H as <-. cbn. easy.
Qed.
Lemma rest_same wf wz d d' t : dt_year d = dt_year d' -> dt_month d = dt_month d' -> dt_day d = dt_day d' -> dt_hour d = dt_hour d' ->
  dt_minute d = dt_minute d' -> dt_second d = dt_second d' -> Proofs_Dates.rest wf wz d t = Proofs_Dates.rest wf wz d' t.
Proof. unfold Proofs_Dates.rest. now intros -> -> -> -> -> ->. Qed.
Lemma head_inv s wf wz r : strptime s wf wz = Ok r -> exists head t, s = head ++ t /\ head_says head r /\ Proofs_Dates.rest wf wz r t = Ok r.
Proof.
  unfold strptime. intros H.
  apply bind_inv in H. destruct H as ([y s1] & Y & H). apply bind_inv in H. destruct H as (s2 & E1 & H).
  apply bind_inv in H. destruct H as ([mo s3] & MO & H). apply bind_inv in H. destruct H as (s4 & E2 & H).
  apply bind_inv in H. destruct H as ([da s5] & DA & H). apply bind_inv in H. destruct H as (s6 & E3 & H).
  apply bind_inv in H. destruct H as ([h s7] & HH & H). apply bind_inv in H. destruct H as (s8 & E4 & H).
  apply bind_inv in H. destruct H as ([mi s9] & MI & H). apply bind_inv in H. destruct H as (s10 & E5 & H).
  apply bind_inv in H. destruct H as ([se s11] & SE & H).
  set (d := mkDT y mo da h mi se 0 0 None). change (Proofs_Dates.rest wf wz d s11 = Ok r) in H.
  pose proof (rest_ok _ _ _ _ _ H) as (F1 & F2 & F3 & F4 & F5 & F6 & _ & G). unfold d in F1, F2, F3, F4, F5, F6.
  cbn [dt_year dt_month dt_day dt_hour dt_minute dt_second] in *.
  apply year_inv in Y. destruct Y as (py & -> & Y & YL). apply expect_inv in E1, E2, E4, E5. apply expect_T_inv in E3. destruct E3 as (T & -> & HT).
  apply month_inv in MO. destruct MO as (pmo & -> & MO). apply day_inv in DA. destruct DA as (pda & -> & DA).
  apply hour_inv in HH. destruct HH as (ph & -> & HH). apply minute_inv in MI. destruct MI as (pmi & -> & MI).
  assert (se < 60)%N as L. { unfold datetime_ok in G. rewrite F6 in G. lia. }
  apply second_inv in SE; [|exact L]. destruct SE as (ps & -> & SE). subst s1 s3 s7 s9.
  exists (py ++ [45%N] ++ pmo ++ [45%N] ++ pda ++ [T] ++ ph ++ [58%N] ++ pmi ++ [58%N] ++ ps), s11.
  split; [repeat (rewrite <- app_assoc; cbn [app]); reflexivity|]. split.
  - exists py, pmo, pda, T, ph, pmi, ps. rewrite F1, F2, F3, F4, F5, F6. split; [reflexivity|]. tauto.
  - rewrite <- H. apply rest_same; assumption.
Qed.
(** The fraction and the zone as strptime sees them. *)
Definition shorts (f : list N) (us : N) : Prop :=
  exists g n, plain_numeral g n /\ length g <= 6 /\ f = 46%N :: g /\ us = (n * 10 ^ (6 - N.of_nat (length g)))%N.
Definition compact (z : list N) (tz : option Z) : Prop :=
  exists c a b, z = c :: a ++ b /\ length a = 2 /\ length b = 2 /\ forallb is_digit a = true /\ forallb is_digit b = true
  /\ (digits_val b < 60)%N
  /\ (c = 43%N /\ tz = Some (Z.of_N (60 * digits_val a + digits_val b)) \/ c = 45%N /\ tz = Some (- Z.of_N (60 * digits_val a + digits_val b))%Z).
Lemma zone_shape {A} (t : list N) (k : N * list N -> result A) r n : bind (take_digits n t) k = Ok r ->
  exists a t', t = a ++ t' /\ length a = n /\ forallb is_digit a = true /\ k (digits_val a, t') = Ok r.
Proof.
  unfold take_digits. cbv zeta. pose proof (firstn_skipn n t) as K. revert K. generalize (firstn n t), (skipn n t). intros y q <-.
  destruct (_ && _)%bool eqn:E; [|discriminate]. cbn [bind]. intros H. apply andb_prop in E. destruct E as [L D]. apply Nat.eqb_eq in L.
  exists y, q. tauto.
Qed.
Lemma rest_inv wf wz d t r : Proofs_Dates.rest wf wz d t = Ok r ->
  exists f z, t = f ++ z
  /\ (wf = false /\ f = [] /\ dt_micro r = 0%N \/ wf = true /\ shorts f (dt_micro r))
  /\ (wz = false /\ z = [] /\ dt_tz r = None \/ wz = true /\ compact z (dt_tz r)).
Proof.
  unfold Proofs_Dates.rest. intros H. apply bind_inv in H. destruct H as ([us s12] & F & H).
  apply bind_inv in H. destruct H as ([tz s13] & Z & H). destruct s13; [|discriminate]. cbv zeta in H.
  destruct (datetime_ok _) eqn:OKD; [|discriminate]. injection H as <-. cbn [dt_micro dt_tz].
  assert (exists f, t = f ++ s12 /\ (wf = false /\ f = [] /\ us = 0%N \/ wf = true /\ shorts f us)) as (f & -> & HF).
  { destruct wf; [|injection F as <- <-; exists []; split; [reflexivity|]; left; tauto].
    apply bind_inv in F. destruct F as (u & E & F). apply expect_inv in E. destruct (span_digits u) as [g q] eqn:S.
    apply span_spec in S. destruct S as (-> & D & _). destruct (_ || _)%bool eqn:L; [discriminate|].
    assert (us = digits_val (g ++ repeat 48%N (6 - length g)) /\ s12 = q) as [-> ->] by (split; congruence). clear F.
    exists (46%N :: g). split; [now rewrite E|]. right. split; [reflexivity|]. exists g, (digits_val g).
    split; [apply digits_plain; [destruct g; easy|exact D]|]. split; [lia|]. split; [reflexivity|].
    rewrite digits_val_app, digits_val_zeros, repeat_length, N.add_0_r.
    replace (N.of_nat (6 - length g)) with (6 - N.of_nat (length g))%N by (clear; lia). reflexivity. }
  exists f, s12. split; [reflexivity|]. split; [exact HF|]. destruct wz; [|injection Z as <- <-; left; tauto]. right. split; [reflexivity|].
  destruct s12 as [|c u]; [discriminate|]. destruct (negb _) eqn:C; [discriminate|]. apply zone_shape in Z.
  destruct Z as (a & t' & -> & LA & DA & Z). apply zone_shape in Z. destruct Z as (b & t2 & -> & LB & DB & Z).
  destruct (_ <? 60)%N eqn:B; [|discriminate]. cbv zeta in Z. injection Z as <- ->. exists c, a, b. rewrite app_nil_r. split; [reflexivity|].
  split; [exact LA|]. split; [exact LB|]. split; [exact DA|]. split; [exact DB|]. split; [lia|].
  destruct (c =? 45)%N eqn:E; [right|left]; (split; [lia|]); f_equal; lia.
Qed.
Lemma take_fwd a t n : length a = n -> forallb is_digit a = true -> take_digits n (a ++ t) = Ok (digits_val a, t).
Proof.
  intros L D. unfold take_digits. cbv zeta. rewrite (app_firstn_len _ _ _ L), (app_skipn_len _ _ _ L), L, Nat.eqb_refl, D. reflexivity.
Qed.
Definition dated (d : datetime) (us : N) (tz : option Z) : datetime :=
  mkDT (dt_year d) (dt_month d) (dt_day d) (dt_hour d) (dt_minute d) (dt_second d) us 0 tz.
Lemma rest_fwd (wf wz : bool) d f z us tz :
  (wf = false /\ f = [] /\ us = 0%N \/ wf = true /\ shorts f us) ->
  (wz = false /\ z = [] /\ tz = None \/ wz = true /\ compact z tz) ->
  datetime_ok (dated d us tz) = true -> Proofs_Dates.rest wf wz d (f ++ z) = Ok (dated d us tz).
Proof.
  intros F Z G. unfold Proofs_Dates.rest.
  assert (match z with [] => True | c :: _ => is_digit c = false end) as ST.
  { destruct Z as [(_ & -> & _) | (_ & c & a & b & -> & _ & _ & _ & _ & _ & [(-> & _) | (-> & _)])]; [exact I|reflexivity|reflexivity]. }
  match goal with |- bind ?x _ = _ => assert (x = Ok (us, z)) as -> end.
  { destruct F as [(-> & -> & ->) | (-> & g & n & P & L & -> & ->)]; [reflexivity|]. cbn [app expect]. change (46 =? 46)%N with true. cbn [bind].
    apply plain_digits in P. destruct P as (D & N0 & V). rewrite span_digits_end by assumption.
    replace (Nat.eqb (length g) 0) with false by (destruct g; easy). replace (Nat.leb (length g) 6) with true by lia. cbn [orb negb].
    rewrite digits_val_app, digits_val_zeros, repeat_length, N.add_0_r, V.
    replace (N.of_nat (6 - length g)) with (6 - N.of_nat (length g))%N by lia. reflexivity. }
  cbn [bind].
  match goal with |- bind ?x _ = _ => assert (x = Ok (tz, [])) as -> end.
  { destruct Z as [(-> & -> & ->) | (-> & c & a & b & -> & LA & LB & DA & DB & B & C)]; [reflexivity|].
    replace (negb ((c =? 43) || (c =? 45))%N) with false by lia. rewrite take_fwd by assumption. cbn [bind].
    rewrite <- (app_nil_r b), take_fwd by assumption. cbn [bind]. replace (digits_val b <? 60)%N with true by lia. cbv zeta.
    destruct C as [(-> & ->) | (-> & ->)]; [change (43 =? 45)%N with false|change (45 =? 45)%N with true]; cbv iota; do 3 f_equal; lia. }
  cbn [bind]. cbv zeta. fold (dated d us tz). now rewrite G.
Qed.

(** ** The zone *)
Lemma pad_two h : (h < 100)%N -> length (dec_pad 2 h) = 2.
Proof. intros H. change 2 with (S 1) at 1. apply dec_pad_length. exact H. Qed.
Lemma val_two y : forallb any_digit y = true -> length y <= 2 -> (digits_val (plain y) < 100)%N.
Proof.
  intros D L. rewrite forallb_plain in D. apply digits_val_bound in D. rewrite map_length in D.
  eapply N.lt_le_trans; [exact D|]. change 100%N with (10 ^ 2)%N. apply N.pow_le_mono_r; lia.
Qed.
Lemma tz_fwd c hs ms h m : (c = 43%N \/ c = 45%N) -> number hs h -> length hs <= 2 -> number ms m -> length ms <= 2 ->
  tz_at (c :: hs ++ 58%N :: ms) = Some ([], ((c =? 45)%N, h, m)).
Proof.
  intros C H LH M LM. apply number_any in H, M. destruct H as (DH & NH & VH), M as (DM & NM & VM). unfold tz_at.
  replace ((c =? 43) || (c =? 45))%N with true by lia. rewrite (any_span hs (58%N :: ms)) by (exact DH || reflexivity).
  rewrite <- (app_nil_r ms) at 1. rewrite (any_span ms []) by (exact DM || exact I).
  change (58 =? 58)%N with true. replace (Nat.eqb (length hs) 0) with false by (destruct hs; easy).
  replace (Nat.eqb (length ms) 0) with false by (destruct ms; easy). replace (Nat.leb (length hs) 2) with true by lia.
  replace (Nat.leb (length ms) 2) with true by lia. cbn [andb negb]. now rewrite VH, VM.
Qed.
(** What a zone becomes. *)
Definition zoned_text (z : list N) (z' : list N) (zoned : bool) (tz : option Z) : Prop :=
  zoned = false /\ z' = [] /\ tz = None \/ zoned = true /\ compact z' tz.
Lemma zone_fwd P z tz : zone_says z tz -> (exists p c, P = p ++ [c] /\ any_digit c = true) -> find_tz (P ++ z) = pre P (find_tz z) ->
  exists z' zoned, rewrite_zone (P ++ z) = (P ++ z', zoned) /\ zoned_text z z' zoned tz.
Proof.
  intros [(-> & ->) | [(-> & ->) | (c & hs & ms & h & m & -> & H & LH & M & LM & BH & BM & C)]] (p & x & -> & X) F; unfold rewrite_zone; rewrite F.
  - exists [], false. split; [|left; tauto]. cbn [find_tz tz_at pre]. rewrite app_nil_r, rev_app_distr. cbn [rev app].
    replace (x =? 90)%N with false; [reflexivity|]. symmetry. apply N.eqb_neq. intros ->. rewrite any_other in X; [discriminate|lia|reflexivity].
  - exists [43; 48; 48; 48; 48]%N, true. split.
    + change (find_tz [90%N]) with (@None (list N * (bool * N * N))). cbn [pre]. rewrite rev_app_distr. cbn [rev app].
      change (90 =? 90)%N with true. cbv iota. f_equal. f_equal. rewrite rev_app_distr. cbn [rev app]. now rewrite rev_involutive.
    + right. split; [reflexivity|]. exists 43%N, [48; 48]%N, [48; 48]%N. repeat (split; [reflexivity|]). left. split; reflexivity.
  - exists (c :: dec_pad 2 h ++ dec_pad 2 m), true. split.
    + cbn [app]. cbn [find_tz]. rewrite (tz_fwd c hs ms h m) by (assumption || lia). cbn [pre]. rewrite app_nil_r. repeat f_equal.
      destruct C as [(-> & _) | (-> & _)]; reflexivity.
    + right. split; [reflexivity|]. exists c, (dec_pad 2 h), (dec_pad 2 m). split; [reflexivity|].
      rewrite !dec_pad_val, !dec_pad_digits. split; [apply pad_two; lia|]. split; [apply pad_two; lia|]. split; [reflexivity|].
      split; [reflexivity|]. split; [exact BM|exact C].
Qed.
Lemma tz_inv s p neg h m : tz_at s = Some (p, (neg, h, m)) ->
  exists c hs ms tail, s = c :: hs ++ 58%N :: ms ++ tail /\ number hs h /\ length hs <= 2 /\ number ms m /\ length ms <= 2
  /\ (c = 43%N /\ neg = false \/ c = 45%N /\ neg = true) /\ (tail = [] /\ p = [] \/ tail = [10%N] /\ p = [c]).
Proof.
  destruct s as [|c t]; [discriminate|]. unfold tz_at. destruct ((c =? 43) || (c =? 45))%N eqn:C; [|discriminate].
  destruct (span_any t) as [hs r] eqn:S1. destruct r as [|col r2]; [discriminate|]. destruct (span_any r2) as [ms r3] eqn:S2.
  destruct (_ && _)%bool eqn:E; [|discriminate]. apply span_any_inv in S1, S2. destruct S1 as (-> & DH & _), S2 as (-> & DM & _).
  repeat (apply andb_prop in E; let E' := fresh "E" in destruct E as [E E']). apply N.eqb_eq in E as ->.
  assert (number hs (digits_val (plain hs))) as NH by (apply any_number; [destruct hs; easy|exact DH]).
  assert (number ms (digits_val (plain ms))) as NM by (apply any_number; [destruct ms; easy|exact DM]).
  intros K. cbv zeta in K.
  assert (exists tail, r3 = tail /\ (tail = [] /\ p = [] \/ tail = [10%N] /\ p = [c]) /\ ((c =? 45)%N, digits_val (plain hs), digits_val (plain ms)) = (neg, h, m))
    as (tail & -> & KT & K').
  { destruct r3 as [|x r4]; [injection K; intros; subst; exists []; tauto|]. destruct (_ && _)%bool eqn:X; [|discriminate].
    apply andb_prop in X. destruct X as [X1 X2]. destruct r4; [|discriminate]. apply N.eqb_eq in X1 as ->. injection K; intros; subst.
    exists [10%N]. tauto. }
  injection K' as <- <- <-. exists c, hs, ms, tail. split; [reflexivity|]. split; [exact NH|]. split; [lia|]. split; [exact NM|]. split; [lia|].
  split; [|exact KT]. destruct (c =? 45)%N eqn:Q; [right|left]; (split; [lia|reflexivity]).
Qed.
Lemma find_inv s p x : find_tz s = Some (p, x) -> exists q t p', s = q ++ t /\ p = q ++ p' /\ tz_at t = Some (p', x).
Proof.
  revert p. induction s as [|c s IH]; intros p; [discriminate|]. cbn [find_tz]. destruct (tz_at (c :: s)) as [[p0 x0]|] eqn:E.
  - intros [= -> ->]. exists [], (c :: s), p. tauto.
  - destruct (find_tz s) as [[p0 x0]|]; [|discriminate]. intros [= <- ->]. destruct (IH p0 eq_refl) as (q & t & p' & -> & -> & K).
    exists (c :: q), t, p'. tauto.
Qed.
Lemma same_front {A} (a b c d : list A) : a ++ b = c ++ d -> length a = length c -> a = c /\ b = d.
Proof.
  revert c. induction a as [|x a IH]; intros [|y c] E L; cbn in *; try discriminate; [easy|].
  injection E as <- E. destruct (IH c E) as [-> ->]; [lia|easy].
Qed.
Lemma same_back {A} (a b c d : list A) : a ++ b = c ++ d -> length b = length d -> a = c /\ b = d.
Proof. intros E L. apply same_front; [exact E|]. apply (f_equal (@length A)) in E. rewrite !app_length in E. lia. Qed.
Lemma zone_inv s1 P z' zoned tz : rewrite_zone s1 = (P ++ z', zoned) -> (exists p c, P = p ++ [c] /\ any_digit c = true) ->
  zoned_text [] z' zoned tz -> (match tz with Some m => -1440 < m < 1440 | None => True end)%Z ->
  exists z, s1 = P ++ z /\ zone_says z tz.
Proof.
  intros R (p0 & x & -> & X) C B. unfold rewrite_zone in R. destruct (find_tz s1) as [[p [[neg h] m]]|] eqn:F.
  - injection R as R1 R2. subst zoned. destruct C as [(Q & _) | (_ & c & a & b & -> & LA & LB & DA & DB & B60 & C)]; [discriminate|].
    apply find_inv in F. destruct F as (q & t & p' & -> & -> & T). apply tz_inv in T.
    destruct T as (c' & hs & ms & tail & -> & H & LH & M & LM & SG & TL).
    pose proof (number_any _ _ H) as (DH & _ & VH). pose proof (number_any _ _ M) as (DM & _ & VM).
    assert (h < 100 /\ m < 100)%N as [BH BM] by (rewrite <- VH, <- VM; split; now apply val_two).
    assert (dec_pad 2 h ++ dec_pad 2 m = a ++ b /\ (q ++ p') ++ [c'] = (p0 ++ [x]) ++ [c]) as [E1 E2].
    { replace (if neg then [45%N] else [43%N]) with [c'] in R1 by (destruct SG as [(-> & ->) | (-> & ->)]; reflexivity).
      change (c :: a ++ b) with ([c] ++ a ++ b) in R1. rewrite (app_assoc _ [c']), (app_assoc _ [c]) in R1.
      apply same_back in R1; [easy|]. rewrite !app_length, !pad_two, LA, LB by assumption. reflexivity. }
    apply same_front in E1; [|now rewrite pad_two]. destruct E1 as [E1 E3]. subst a b. rewrite !dec_pad_val in *.
    apply app_inj_tail in E2. destruct E2 as [E2 ->]. destruct TL as [(-> & ->) | (-> & ->)].
    + rewrite app_nil_r in E2. subst q. exists (c :: hs ++ [58%N] ++ ms). rewrite app_nil_r. split; [reflexivity|]. right. right.
      exists c, hs, ms, h, m. split; [reflexivity|]. split; [exact H|]. split; [exact LH|]. split; [exact M|]. split; [exact LM|].
      destruct C as [(-> & ->) | (-> & ->)]; (split; [lia|]); (split; [exact B60|]); [now left|now right].
    + exfalso. apply app_inj_tail in E2. destruct E2 as [_ <-]. assert (c = 43 \/ c = 45)%N as [-> | ->] by (destruct C as [(-> & _) | (-> & _)]; tauto); discriminate X.
  - destruct (rev s1) as [|c r] eqn:E.
    + injection R as R1 R2. destruct s1; [now destruct p0|]. cbn in E. now destruct (rev s1).
    + assert (s1 = rev r ++ [c]) as -> by (rewrite <- (rev_involutive s1), E; reflexivity). destruct (c =? 90)%N eqn:Z.
      * apply N.eqb_eq in Z as ->. injection R as R1 R2. subst zoned. destruct C as [(Q & _) | (_ & c & a & b & -> & LA & LB & DA & DB & B60 & C)]; [discriminate|].
        apply same_back in R1; [|cbn; rewrite app_length, LA, LB; reflexivity]. destruct R1 as [-> R1]. exists [90%N]. split; [reflexivity|]. right. left. split; [reflexivity|].
        injection R1 as <- R1. change [48; 48; 48; 48]%N with ([48; 48] ++ [48; 48])%N in R1. apply same_front in R1; [|now rewrite LA]. destruct R1 as [<- <-].
        destruct C as [(_ & ->) | (Q & _)]; [reflexivity|discriminate].
      * injection R as R1 R2. subst zoned. destruct C as [(_ & -> & ->) | (Q & _)]; [|discriminate]. exists []. split; [exact R1|]. now left.
Qed.

(** ** The fraction *)
Lemma split_none s : ~ In 46%N (skipn 19 s) -> split_fraction s = (s, 0%N).
Proof.
  unfold split_fraction. destruct (skipn 19 s) as [|c t]; [reflexivity|]. intros H. destruct (span_any t) as [f r].
  destruct (c =? 46)%N eqn:E; [|reflexivity]. exfalso. apply H. left. lia.
Qed.
Lemma first_line_app z tail : ~ In 10%N z -> (tail = [] \/ exists r, tail = 10%N :: r) -> first_line (z ++ tail) = z.
Proof.
  intros N0 T. induction z as [|c z IH].
  - destruct T as [-> | (r & ->)]; reflexivity.
  - cbn [app first_line]. replace (c =? 10)%N with false; [|symmetry; apply N.eqb_neq; intros ->; apply N0; now left].
    f_equal. apply IH. intros I. apply N0. now right.
Qed.
Lemma first_line_inv r : exists tail, r = first_line r ++ tail /\ (tail = [] \/ exists q, tail = 10%N :: q).
Proof.
  induction r as [|c r (t & E & T)]; [exists []; split; [reflexivity|now left]|]. cbn [first_line]. destruct (c =? 10)%N eqn:C.
  - apply N.eqb_eq in C as ->. exists (10%N :: r). split; [reflexivity|right; eauto].
  - exists t. split; [cbn [app]; now rewrite <- E|exact T].
Qed.
Lemma split_at head f t : length head = 19 -> forallb any_digit f = true -> f <> [] -> stops t ->
  split_fraction (head ++ 46%N :: f ++ t) =
  if Nat.ltb 6 (length f) then (head ++ [46]%N ++ removelast f ++ first_line t, (to_digit (last f 48) - 48) * 10 ^ N.of_nat (9 - length f))%N
  else (head ++ [46]%N ++ f ++ first_line t, 0%N).
Proof.
  intros L D NE T. unfold split_fraction. rewrite (app_skipn_len _ _ _ L), (app_firstn_len _ _ _ L), (any_span f t) by assumption.
  change (46 =? 46)%N with true. replace (Nat.eqb (length f) 0) with false by (destruct f; easy). reflexivity.
Qed.
Lemma zone_chars z tz : zone_says z tz -> ~ In 46%N z /\ ~ In 10%N z /\ stops z.
Proof.
  intros [(-> & _) | [(-> & _) | (c & hs & ms & h & m & -> & H & LH & M & LM & BH & BM & C)]].
  - repeat split; intros [].
  - split; [|split; [|now apply any_other]]; (intros [Q | []]; discriminate).
  - apply number_any in H, M. destruct H as (H & _), M as (M & _). apply all_mild in H, M.
    assert (forall k, (k < 43)%N \/ k = 46%N -> is_digit k = false -> k <> 32%N -> ~ In k (c :: hs ++ [58%N] ++ ms)) as K.
    { intros k K1 K2 K3 I. cbn [In app] in I. rewrite in_app_iff in I. cbn [In] in I. rewrite Forall_forall in H, M.
      destruct I as [I | [I | [I | I]]]; [destruct C as [(-> & _) | (-> & _)]; lia| |lia|].
      - apply H in I. revert I. intros I. apply (mild_not k k I); lia || assumption || reflexivity.
      - apply M in I. apply (mild_not k k I); lia || assumption || reflexivity. }
    split; [apply K; lia || reflexivity|]. split; [apply K; lia || reflexivity|]. cbn [stops].
    destruct C as [(-> & _) | (-> & _)]; now apply any_other.
Qed.
Lemma stops_app z t : stops z -> stops t -> stops (z ++ t).
Proof. destruct z; easy. Qed.

(** ** The calendar *)
Lemma days_month_long y m : (1 <= m <= 12)%N -> month_long y m (days_in_month y m).
Proof.
  intros B. assert (is_leap y = true <-> leap y) as HL.
  { unfold is_leap, leap. rewrite andb_true_iff, orb_true_iff, negb_true_iff, !N.eqb_eq, N.eqb_neq. tauto. }
  unfold days_in_month, month_long. destruct (m =? 2)%N eqn:E.
  - left. split; [lia|]. destruct (is_leap y); [left; split; [tauto|reflexivity]|right]. split; [|reflexivity]. intros Q. apply HL in Q. discriminate.
  - right. destruct (_ || _)%bool eqn:F; [left|right]; (split; [lia|reflexivity]).
Qed.
Lemma zone_bound z tz : zone_says z tz -> (match tz with Some m => -1440 < m < 1440 | None => True end)%Z.
Proof.
  intros [(_ & ->) | [(_ & ->) | (c & hs & ms & h & m & _ & _ & _ & _ & _ & BH & BM & [(_ & ->) | (_ & ->)])]]; [exact I|lia|lia|lia].
Qed.
Lemma number_bound y n : number y n -> (n < 10 ^ N.of_nat (length y))%N.
Proof. intros H. apply number_val in H. destruct H as (_ & D & <-). apply digits_val_bound in D. now rewrite map_length in D. Qed.
Lemma plain_bound g n : plain_numeral g n -> (n < 10 ^ N.of_nat (length g))%N.
Proof. intros H. apply plain_digits in H. destruct H as (D & _ & <-). now apply digits_val_bound. Qed.
Lemma micro_bound g n : plain_numeral g n -> length g <= 6 -> (n * 10 ^ (6 - N.of_nat (length g)) < 1000000)%N.
Proof.
  intros P L. apply plain_bound in P. change 1000000%N with (10 ^ 6)%N.
  replace (10 ^ 6)%N with (10 ^ N.of_nat (length g) * 10 ^ (6 - N.of_nat (length g)))%N by (rewrite <- N.pow_add_r; f_equal; lia).
  apply N.mul_lt_mono_pos_r; [|exact P]. apply N.neq_0_lt_0, N.pow_nonzero. lia.
Qed.
Lemma head_okay head d us tz n : head_says head d -> (1 <= dt_year d)%N -> month_long (dt_year d) (dt_month d) n -> (dt_day d <= n)%N ->
  (us < 1000000)%N -> (match tz with Some m => -1440 < m < 1440 | None => True end)%Z -> datetime_ok (dated d us tz) = true.
Proof.
  intros (y & mo & da & T & h & mi & se & _ & Y & YL & (MO & _) & (DA & _) & _ & (H & _) & (MI & _) & (SE & _)) Y1 ML LE U Z.
  apply number_bound in Y. rewrite YL in Y. change (10 ^ N.of_nat 4)%N with 10000%N in Y. apply Proofs_Dates.month_long_days in ML.
  unfold datetime_ok, dated. cbn [dt_year dt_month dt_day dt_hour dt_minute dt_second dt_micro dt_tz]. rewrite ML.
  assert ((match tz with Some m => ((-1440 <? m) && (m <? 1440))%Z | None => true end) = true) as -> by (destruct tz; [lia|reflexivity]). lia.
Qed.

(** ** Reading what is written *)
Lemma read_pieces head d f6 z us tz n : head_says head d -> (f6 = [] /\ us = 0%N \/ shorts f6 us) -> zone_says z tz ->
  (1 <= dt_year d)%N -> month_long (dt_year d) (dt_month d) n -> (dt_day d <= n)%N ->
  exists s2 zoned, rewrite_zone (head ++ f6 ++ z) = (s2, zoned)
  /\ (match strptime s2 true zoned with Ok d => Ok d | Err ValueError => strptime s2 false zoned | Err e => Err e end) = Ok (dated d us tz).
Proof.
  intros HS F Z Y1 ML LE. pose proof (zone_chars _ _ Z) as (_ & _ & ST).
  assert (us < 1000000)%N as U by (destruct F as [(_ & ->) | (g & k & P & L & _ & ->)]; [lia|now apply micro_bound]).
  pose proof (head_okay _ _ us tz _ HS Y1 ML LE U (zone_bound _ _ Z)) as G.
  assert ((exists p c, head ++ f6 = p ++ [c] /\ any_digit c = true) /\ find_tz ((head ++ f6) ++ z) = pre (head ++ f6) (find_tz z)) as [LA FI].
  { destruct F as [(-> & _) | (g & k & P & L & -> & _)].
    - rewrite app_nil_r. split; [now apply (head_last _ d)|now apply (head_find _ d)].
    - apply plain_digits in P. destruct P as (D & NE & _). apply any_of_plain in D. split.
      + destruct (exists_last NE) as (p & c & ->). exists (head ++ 46%N :: p), c. split; [now rewrite <- app_assoc|].
        rewrite forallb_app in D. apply andb_prop in D. destruct D as [_ D]. cbn [forallb] in D. now apply andb_prop in D.
      + rewrite <- app_assoc, (head_find _ d) by exact HS. change ((46%N :: g) ++ z) with ([46%N] ++ g ++ z).
        rewrite (find_nosign [46%N]) by (apply Forall_cons; [split; discriminate|apply Forall_nil]).
        rewrite (find_nosign g) by now apply mild_nosign, all_mild. rewrite !pre_pre. f_equal. now rewrite <- app_assoc. }
  destruct (zone_fwd (head ++ f6) z tz Z LA FI) as (z' & zoned & R & C). exists ((head ++ f6) ++ z'), zoned. rewrite app_assoc. split; [exact R|].
  rewrite <- app_assoc.
  assert (stops z' /\ (match z' with 46%N :: _ => False | _ => True end)) as [SZ N46].
  { destruct C as [(_ & -> & _) | (_ & c & a & b & -> & _ & _ & _ & _ & _ & [(-> & _) | (-> & _)])]; split; try exact I; now apply any_other. }
  destruct F as [(-> & ->) | F].
  - cbn [app]. rewrite !(head_fwd _ d) by assumption.
    assert (Proofs_Dates.rest true zoned d z' = Err ValueError) as ->.
    { unfold Proofs_Dates.rest. destruct z' as [|c q]; [reflexivity|]. cbn [expect]. destruct (c =? 46)%N eqn:E; [|reflexivity].
      apply N.eqb_eq in E as ->. destruct N46. }
    apply (rest_fwd false zoned d [] z' 0%N tz); [left; tauto|exact C|exact G].
  - assert (stops (f6 ++ z')) as S6 by (destruct F as (g & k & _ & _ & -> & _); reflexivity).
    rewrite !(head_fwd _ d) by assumption. rewrite (rest_fwd true zoned d f6 z' us tz); [reflexivity|right; tauto|exact C|exact G].
Qed.
Lemma date_fwd s d : date_text s d -> read_datetime s = Ok d.
Proof.
  intros (head & f & z & tail & -> & HS & F & Z & T & Y1 & n & ML & LE).
  pose proof (zone_chars _ _ Z) as (Z46 & Z10 & ZS). pose proof (head_no46 _ _ HS) as H46.
  assert (exists f6, split_fraction (head ++ f ++ z ++ tail) = (head ++ f6 ++ z, dt_nano d) /\ (f6 = [] /\ dt_micro d = 0%N \/ shorts f6 (dt_micro d)))
    as (f6 & E & F6).
  { assert (tail = [] \/ exists r, tail = 10%N :: r) as TT by (destruct T as [-> | (_ & _ & T)]; [now left|now right]).
    assert (stops (z ++ tail)) as ZT by (apply stops_app; [exact ZS|]; destruct TT as [-> | (r & ->)]; [exact I|now apply any_other]).
    destruct F as [(-> & U & ->) | [(g & k & P & L & -> & U & ->) | (L19 & g & x & k & P & L & X & -> & ->)]].
    - exists []. split; [|now left]. destruct T as [-> | (Q & _)]; [|easy]. rewrite app_nil_r. cbn [app]. apply split_none.
      intros I. assert (In 46%N (head ++ z)) as I' by (rewrite <- (firstn_skipn 19 (head ++ z)); apply in_or_app; now right).
      apply in_app_or in I'. tauto.
    - exists (46%N :: g). split; [|right; exists g, k; tauto]. pose proof (plain_digits _ _ P) as (D & NE & _). apply any_of_plain in D.
      destruct (Nat.eq_dec (length head) 19) as [L19|L19].
      + cbn [app]. rewrite split_at by assumption. replace (Nat.ltb 6 (length g)) with false by lia. now rewrite first_line_app.
      + assert (length head < 19) as L19'.
        { clear - HS L19. destruct HS as (y & mo & da & t & h & mi & se & -> & _ & YL & (_ & MO) & (_ & DA) & _ & (_ & H) & (_ & MI) & (_ & SE)).
          rewrite !app_length in *. cbn [length] in *.
          assert (length mo <= 2) by (destruct MO as [(_ & ->) | ->]; cbn; lia).
          assert (length da <= 2) by (destruct DA as [(_ & [-> | ->]) | [-> | (_ & b & _ & ->)]]; cbn; lia).
          assert (length h <= 2) by (destruct H as [(b & _ & ->) | [-> | (_ & b & _ & ->)]]; cbn; lia).
          assert (length mi <= 2) by (destruct MI as [(b & _ & ->) | (b & _ & ->)]; cbn; lia).
          assert (length se <= 2) by (destruct SE as [(b & _ & ->) | (b & _ & ->)]; cbn; lia). lia. }
        destruct T as [-> | (_ & Q & _)]; [|lia]. rewrite app_nil_r. apply split_none. rewrite skipn_app.
        rewrite (skipn_all2 head) by lia. cbn [app]. destruct (19 - length head) as [|k'] eqn:K; [lia|]. cbn [skipn].
        intros I. assert (In 46%N (g ++ z)) as I' by (rewrite <- (firstn_skipn k' (g ++ z)); apply in_or_app; now right).
        apply in_app_or in I'. destruct I' as [I' | I']; [|tauto]. exact (mild_no46 _ (all_mild _ D) I').
    - exists (46%N :: g). split; [|right; exists g, (dt_micro d); rewrite L; change (6 - N.of_nat 6)%N with 0%N; rewrite N.pow_0_r, N.mul_1_r; (split; [exact P|]); (split; [clear; lia|]); now split].
      pose proof (plain_digits _ _ P) as (D & NE & _). apply any_of_plain in D. cbn [app]. rewrite split_at; [|exact L19| |now destruct g|exact ZT].
      + rewrite app_length, L. cbn [length]. change (Nat.ltb 6 (6 + 1)) with true. cbv iota. rewrite removelast_last, last_last, (digit_num _ _ X), first_line_app by assumption.
        f_equal. change (N.of_nat (9 - (6 + 1))) with 2%N. change (10 ^ 2)%N with 100%N. lia.
      + rewrite forallb_app, D. cbn [forallb]. now rewrite (digit_any _ _ X). }
  unfold read_datetime. rewrite E. destruct (read_pieces head d f6 z (dt_micro d) (dt_tz d) n HS F6 Z Y1 ML LE) as (s2 & zoned & R & S2).
  rewrite R, S2. cbn [bind dated dt_year dt_month dt_day dt_hour dt_minute dt_second dt_micro dt_tz]. now destruct d.
Qed.

(** ** Only what is written like that is read *)
Lemma one_dot {A} (c : A) u x head y : u ++ c :: x = head ++ c :: y -> ~ In c head -> ~ In c y -> u = head /\ x = y.
Proof.
  revert head. induction u as [|a u IH]; intros [|b head] E H Y; cbn in *.
  - injection E as ->. easy.
  - injection E as -> _. tauto.
  - injection E as -> <-. exfalso. apply Y. apply in_or_app. right. now left.
  - injection E as -> E. destruct (IH head E) as [-> ->]; [tauto|exact Y|easy].
Qed.
Lemma split_inv s s1 nano : split_fraction s = (s1, nano) ->
  s1 = s /\ nano = 0%N
  \/ exists u f r, s = u ++ 46%N :: f ++ r /\ length u = 19 /\ forallb any_digit f = true /\ f <> [] /\ stops r
     /\ (length f <= 6 /\ s1 = u ++ 46%N :: f ++ first_line r /\ nano = 0%N
         \/ exists g x, f = g ++ [x] /\ 6 <= length g /\ s1 = u ++ 46%N :: g ++ first_line r /\ nano = ((to_digit x - 48) * 10 ^ N.of_nat (9 - length f))%N).
Proof.
  intros H. destruct (skipn 19 s) as [|c t] eqn:K.
  - unfold split_fraction in H. rewrite K in H. injection H as <- <-. now left.
  - assert (length (firstn 19 s) = 19) as L.
    { rewrite firstn_length. apply (f_equal (@length N)) in K. rewrite skipn_length in K. cbn in K. lia. }
    pose proof (firstn_skipn 19 s) as E. rewrite K in E. destruct (span_any t) as [f r] eqn:S. pose proof S as S'. apply span_any_inv in S'.
    destruct S' as (-> & D & ST). unfold split_fraction in H. rewrite K, S in H. destruct (_ && _)%bool eqn:C.
    + apply andb_prop in C. destruct C as [C NE]. apply N.eqb_eq in C as ->. assert (f <> []) as NE' by (now destruct f).
      right. exists (firstn 19 s), f, r. split; [now symmetry|]. split; [exact L|]. split; [exact D|]. split; [exact NE'|]. split; [exact ST|].
      destruct (Nat.ltb 6 (length f)) eqn:LT.
      * right. destruct (exists_last NE') as (g & x & ->). rewrite removelast_last, last_last in H. injection H as <- <-. exists g, x. split; [reflexivity|].
        rewrite app_length in LT. cbn [length] in LT. split; [apply Nat.ltb_lt in LT; lia|]. now split.
      * left. injection H as <- <-. apply Nat.ltb_ge in LT. split; [exact LT|]. now split.
    + injection H as <- <-. now left.
Qed.
Lemma two_ends g z f r : forallb any_digit g = true -> forallb any_digit f = true -> stops z -> stops r -> f ++ r = g ++ z -> f = g /\ r = z.
Proof. intros G F Z R E. pose proof (any_span f r F R) as H. rewrite E, (any_span g z G Z) in H. now injection H. Qed.
Lemma first_stops r : stops r -> stops (first_line r).
Proof. destruct r as [|c r]; cbn; [easy|]. now destruct (c =? 10)%N. Qed.
Lemma date_inv s d : read_datetime s = Ok d -> date_text s d.
Proof.
  unfold read_datetime. destruct (split_fraction s) as [s1 nano] eqn:SF. destruct (rewrite_zone s1) as [s2 zoned] eqn:RZ.
  intros H. apply bind_inv in H. destruct H as (r & H & E). injection E as <-.
  assert (exists wf, strptime s2 wf zoned = Ok r) as (wf & P).
  { destruct (strptime s2 true zoned) as [x|e] eqn:E1; [injection H as ->; eauto|]. destruct e; try discriminate. eauto. }
  clear H. apply head_inv in P. destruct P as (head & t & -> & HS & R). pose proof (rest_ok _ _ _ _ _ R) as (_ & _ & _ & _ & _ & _ & _ & G).
  apply rest_inv in R. destruct R as (f & z' & -> & F & ZC).
  assert ((1 <= dt_year r)%N /\ (1 <= dt_month r <= 12)%N /\ (dt_day r <= days_in_month (dt_year r) (dt_month r))%N
    /\ (match dt_tz r with Some m => -1440 < m < 1440 | None => True end)%Z) as (Y1 & MB & DB & TB).
  { unfold datetime_ok in G. destruct (dt_tz r); lia. }
  assert (f = [] /\ dt_micro r = 0%N \/ shorts f (dt_micro r)) as F' by tauto.
  assert (exists p c, head ++ f = p ++ [c] /\ any_digit c = true) as LA.
  { destruct F' as [(-> & _) | (g & k & P & L & -> & _)]; [rewrite app_nil_r; now apply (head_last _ r)|].
    apply plain_digits in P. destruct P as (D & NE & _). apply any_of_plain in D.
    destruct (exists_last NE) as (p & c & ->). exists (head ++ 46%N :: p), c. split; [now rewrite <- app_assoc|].
    rewrite forallb_app in D. apply andb_prop in D. destruct D as [_ D]. cbn [forallb] in D. now apply andb_prop in D. }
  rewrite app_assoc in RZ. destruct (zone_inv s1 (head ++ f) z' zoned (dt_tz r) RZ LA ZC TB) as (z & -> & Z). rewrite <- app_assoc in *.
  pose proof (zone_chars _ _ Z) as (Z46 & Z10 & ZS). pose proof (head_no46 _ _ HS) as H46.
  set (d := mkDT _ _ _ _ _ _ _ _ _). assert (head_says head d) as HD by exact HS.
  assert ((1 <= dt_year d)%N /\ exists n, month_long (dt_year d) (dt_month d) n /\ (dt_day d <= n)%N) as CAL.
  { split; [exact Y1|]. exists (days_in_month (dt_year r) (dt_month r)). split; [now apply days_month_long|exact DB]. }
  apply split_inv in SF. destruct SF as [(<- & ->) | (u & ff & q & -> & LU & DF & NF & SQ & K)].
  - exists head, f, z, []. rewrite app_nil_r. split; [reflexivity|]. split; [exact HD|].
    split; [|split; [exact Z|]; split; [now left|exact CAL]]. unfold d. cbn [dt_micro dt_nano].
    destruct F' as [(-> & U) | (g & k & P & L & -> & U)]; [left; tauto|right; left; exists g, k; tauto].
  - assert (exists g', f = 46%N :: g' /\ u = head /\ first_line q = z /\ (ff = g' /\ nano = 0%N
      \/ exists x, ff = g' ++ [x] /\ 6 <= length g' /\ nano = ((to_digit x - 48) * 10 ^ N.of_nat (9 - length ff))%N)) as (g' & -> & -> & QZ & KK).
    { assert (forall a, head ++ f ++ z = u ++ 46%N :: a ++ first_line q -> forallb any_digit a = true ->
        exists g', f = 46%N :: g' /\ u = head /\ first_line q = z /\ a = g') as CORE.
      { intros a E DA. destruct F' as [(-> & _) | (g & k & P & L & -> & _)].
        - exfalso. assert (In 46%N (head ++ z)) as I by (cbn [app] in E; rewrite E; apply in_or_app; right; now left). apply in_app_or in I. tauto.
        - apply plain_digits in P. destruct P as (D & NE & _). apply any_of_plain in D. cbn [app] in E. symmetry in E.
          apply one_dot in E; [|exact H46|].
          + destruct E as [-> E]. apply two_ends in E; [|exact D|exact DA|exact ZS|now apply first_stops]. destruct E as [-> ->]. exists g. tauto.
          + intros I. apply in_app_or in I. destruct I as [I|I]; [exact (mild_no46 _ (all_mild _ D) I)|tauto]. }
      destruct K as [(L & E & ->) | (g & x & -> & L & E & ->)].
      - destruct (CORE ff E DF) as (g' & -> & -> & Q & ->). exists g'. tauto.
      - rewrite forallb_app in DF. apply andb_prop in DF. destruct DF as [DG _].
        destruct (CORE g E DG) as (g' & -> & -> & Q & ->). exists g'. split; [reflexivity|]. split; [reflexivity|]. split; [exact Q|]. right. exists x. tauto. }
    destruct F' as [(Q & _) | (g & k & P & L & Q & U)]; [discriminate|]. injection Q as ->.
    destruct (first_line_inv q) as (tail & QE & TE). rewrite QZ in QE.
    exists head, (46%N :: ff), z, tail. split; [now rewrite QE|]. split; [exact HD|]. split; [|split; [exact Z|]; split; [|exact CAL]].
    + destruct KK as [(-> & ->) | (x & -> & L6 & ->)].
      * right. left. exists g, k. unfold d. cbn [dt_micro dt_nano]. tauto.
      * right. right. split; [exact LU|]. assert (length g = 6) as LG by lia. rewrite forallb_app in DF. apply andb_prop in DF. destruct DF as [_ DX].
        cbn [forallb] in DX. apply andb_prop in DX. destruct DX as [DX _]. apply any_is in DX. exists g, x, (to_digit x - 48)%N. unfold d. cbn [dt_micro dt_nano].
        rewrite app_length, LG in *. cbn [length]. change (6 - N.of_nat 6)%N with 0%N in U. rewrite N.pow_0_r, N.mul_1_r in U. rewrite U.
        change (N.of_nat (9 - (6 + 1))) with 2%N. change (10 ^ 2)%N with 100%N. split; [exact P|]. split; [reflexivity|]. split; [exact DX|]. split; [reflexivity|lia].
    + destruct TE as [-> | (q' & ->)]; [now left|right]. split; [discriminate|]. split; [exact LU|eauto].
Qed.
