(** Proofs about the texts of durations. *)
From Verif Require Import Base BaseFacts Model_Scalars Spec_Numeral Spec_Duration Proofs_Scalars Proofs_Duration Proofs_Numeral.

(** ** Digits of every script *)
Lemma to_digit_digit c d : digit c d -> to_digit c = (48 + d)%N.
Proof. intros H. apply decimal_digit in H. unfold to_digit. now rewrite H. Qed.
Lemma digit_small c d : digit c d -> (d < 10)%N.
Proof. now intros (H & _). Qed.
Lemma to_digit_is c : is_digit (to_digit c) = true -> digit c (to_digit c - 48).
Proof.
  intros H. unfold to_digit in *. destruct (decimal c) as [d|] eqn:E.
  - replace (48 + d - 48)%N with d by lia. now apply decimal_digit.
  - exfalso. assert (digit c (c - 48)) as D.
    { unfold is_digit in H. split; [lia|]. exists 48%N. split; [now left|lia]. }
    apply decimal_digit in D. congruence.
Qed.
Lemma to_digit_same c k : (k < 128)%N -> is_digit k = false -> to_digit c = k <-> c = k.
Proof.
  intros B H. split.
  - intros E. destruct (is_digit (to_digit c)) eqn:D; [congruence|]. unfold to_digit in *. destruct (decimal c) as [d|] eqn:G; [|exact E].
    apply decimal_digit in G. apply digit_small in G. unfold is_digit in D. lia.
  - intros ->. now apply to_digit_ascii.
Qed.
Notation plain := (map to_digit).
Definition digits (t : list N) : Prop := forallb is_digit t = true.
Lemma number_val s n : number s n -> plain s <> [] /\ digits (plain s) /\ digits_val (plain s) = n.
Proof.
  unfold digits. induction 1 as [c d D|s n c d _ IH D].
  - cbn [map forallb]. rewrite (to_digit_digit _ _ D), digits_val_one. apply digit_small in D. unfold is_digit.
    split; [discriminate|]. split; lia.
  - destruct IH as (_ & IH1 & IH2). rewrite map_app, forallb_app, digits_val_app, IH1, IH2. cbn [map forallb length].
    rewrite (to_digit_digit _ _ D), digits_val_one. apply digit_small in D. unfold is_digit.
    split; [now destruct (plain s)|]. change (10 ^ N.of_nat 1)%N with 10%N. split; lia.
Qed.
Lemma val_number s : plain s <> [] -> digits (plain s) -> number s (digits_val (plain s)).
Proof.
  unfold digits. induction s as [|c s IH] using rev_ind; intros N0 H; [now elim N0|].
  rewrite map_app, forallb_app in H. apply andb_prop in H as [H1 H2]. cbn [map forallb] in H2. rewrite andb_true_r in H2.
  rewrite map_app, digits_val_app. cbn [map length]. rewrite digits_val_one. change (10 ^ N.of_nat 1)%N with 10%N. apply to_digit_is in H2.
  destruct s as [|c0 s].
  - cbn [map app]. change (digits_val []) with 0%N. rewrite N.mul_0_l, N.add_0_l. now apply number_one.
  - rewrite N.mul_comm. apply number_next; [|exact H2]. apply IH; [discriminate|exact H1].
Qed.

(** ** One field *)
Lemma span_spec s d r : span_digits s = (d, r) ->
  s = d ++ r /\ digits d /\ (r = [] \/ exists c r', r = c :: r' /\ is_digit c = false).
Proof.
  revert d r. induction s as [|c s IH]; intros d r E; cbn [span_digits] in E.
  - injection E as <- <-. split; [reflexivity|]. split; [reflexivity|now left].
  - destruct (is_digit c) eqn:D.
    + destruct (span_digits s) as [a b]. injection E as <- <-. destruct (IH a b eq_refl) as (-> & H1 & H2).
      split; [reflexivity|]. split; [|exact H2]. unfold digits. cbn [forallb]. now rewrite D.
    + injection E as <- <-. split; [reflexivity|]. split; [reflexivity|]. right. eauto.
Qed.
Lemma plain_split s a b : plain s = a ++ b -> exists x y, s = x ++ y /\ a = plain x /\ b = plain y.
Proof. intros E. apply map_eq_app in E as (x & y & -> & <- & <-). eauto. Qed.
Lemma plain_cons s c b : plain s = c :: b -> exists x y, s = x :: y /\ c = to_digit x /\ b = plain y.
Proof. destruct s as [|x y]; cbn [map]; intros E; [discriminate|]. injection E as <- <-. eauto. Qed.

Definition mark (L : N) : Prop := (L < 128)%N /\ is_digit L = false.
Lemma unit_inv L s n r : mark L -> opt_unit L (plain s) = (n, r) -> exists p y, s = p ++ y /\ r = plain y /\ field L p n.
Proof.
  intros [B D] E. unfold opt_unit in E. destruct (span_digits (plain s)) as [d r0] eqn:S0. apply span_spec in S0 as (S1 & S2 & _).
  destruct d as [|x d]; [injection E as <- <-; exists [], s; split; [reflexivity|]; split; [reflexivity|]; now left|].
  destruct r0 as [|c r0]; [injection E as <- <-; exists [], s; split; [reflexivity|]; split; [reflexivity|]; now left|].
  destruct (N.eqb_spec c L) as [->|_]; injection E as <- <-; [|exists [], s; split; [reflexivity|]; split; [reflexivity|]; now left].
  apply plain_split in S1 as (m & y & -> & M & Y). symmetry in Y. apply plain_cons in Y as (c & y' & -> & C & ->).
  symmetry in C. apply (proj1 (to_digit_same _ _ B D)) in C. subst c.
  exists (m ++ [L]), y'. split; [now rewrite <- app_assoc|]. split; [reflexivity|]. right. exists m. split; [reflexivity|].
  rewrite M. apply val_number; rewrite <- M; [discriminate|exact S2].
Qed.
(** No field of letter [L] stands here. *)
Definition clear_of (L : N) (t : list N) : Prop := exists d r, t = d ++ r /\ digits d /\ (r = [] \/ exists c r', r = c :: r' /\ is_digit c = false /\ c <> L).
Lemma span_all d : digits d -> span_digits d = (d, []).
Proof.
  unfold digits. induction d as [|c d IH]; [reflexivity|]. cbn [forallb span_digits]. intros H. apply andb_prop in H as [-> H]. now rewrite IH.
Qed.
Lemma unit_clear L t : clear_of L t -> opt_unit L t = (0%N, t).
Proof.
  intros (d & r & -> & D & [->|(c & r' & -> & C & N0)]); [|now apply opt_unit_miss].
  unfold opt_unit. rewrite app_nil_r, span_all by exact D. destruct d; reflexivity.
Qed.
Lemma unit_field L p n y : mark L -> field L p n -> clear_of L (plain y) -> opt_unit L (plain (p ++ y)) = (n, plain y).
Proof.
  intros [B D] [[-> ->]|(m & -> & M)] C; [now apply unit_clear|]. apply number_val in M as (M1 & M2 & <-).
  rewrite <- app_assoc, map_app. cbn [app map]. rewrite (to_digit_ascii L B). unfold opt_unit.
  rewrite span_digits_app by assumption. destruct (plain m) as [|x m'] eqn:E; [congruence|]. now rewrite N.eqb_refl.
Qed.
Lemma field_clear K L p n y : mark K -> K <> L -> field K p n -> clear_of L (plain y) -> clear_of L (plain (p ++ y)).
Proof.
  intros [B D] Q [[-> ->]|(m & -> & M)] C; [exact C|]. apply number_val in M as (M1 & M2 & _).
  rewrite <- app_assoc, map_app. cbn [app map]. rewrite (to_digit_ascii K B). exists (plain m), (K :: plain y).
  split; [reflexivity|]. split; [exact M2|]. right. eauto.
Qed.

(** ** Seconds *)
Definition near (W w : N) (fractional : bool) : Prop :=
  W = w \/ fractional = true /\ (1073741824 <= w)%N /\ W = (w + 1)%N \/ (9007199254740992 <= w)%N /\ (9007199254740992 <= W)%N.
Lemma half_even_le a b m : (0 < b)%N -> (a <= b * m)%N -> (half_even a b <= m)%N.
Proof.
  intros B H. unfold half_even. pose proof (N.div_mod a b ltac:(lia)) as E. pose proof (N.mod_lt a b ltac:(lia)) as L.
  set (q := (a / b)%N) in *. set (r := (a mod b)%N) in *. clearbody q r.
  destruct (2 * r <? b)%N eqn:E1; [nia|]. destruct (b <? 2 * r)%N eqn:E2; [nia|].
  pose proof (N.mod_lt q 2 ltac:(lia)). nia.
Qed.
Lemma float_near n k : k <= 7 -> near (float_whole n k) (n / 10 ^ N.of_nat k) (negb (Nat.eqb k 0)).
Proof.
  intros K. destruct (N.ltb_spec (n / 10 ^ N.of_nat k) 1073741824) as [S0|S0]; [left; now apply float_exact|].
  unfold float_whole. assert (0 < 10 ^ N.of_nat k <= 10000000)%N as D.
  { split; [apply N.neq_0_lt_0, N.pow_nonzero; lia|]. change 10000000%N with (10 ^ 7)%N. apply N.pow_le_mono_r; lia. }
  assert (k = 0 -> (10 ^ N.of_nat k = 1)%N) as D1 by (intros ->; reflexivity).
  set (d := (10 ^ N.of_nat k)%N) in *. clearbody d. set (q := (n / d)%N) in *. destruct (N.eqb_spec q 0) as [E|E]; [lia|].
  pose proof (N.log2_spec q ltac:(lia)) as [L1 L2].
  pose proof (N.div_mod n d ltac:(lia)) as M. pose proof (N.mod_lt n d ltac:(lia)) as R. fold q in M. set (r := (n mod d)%N) in *. clearbody q r.
  destruct (N.leb_spec (N.log2 q) 52) as [L3|L3].
  - set (p := (2 ^ (52 - N.log2 q))%N). assert (0 < p)%N as P by (apply N.neq_0_lt_0, N.pow_nonzero; lia). clearbody p.
    assert (p * q <= half_even (n * p) d)%N as H1 by (apply half_even_ge; [lia|]; subst n; nia).
    assert (half_even (n * p) d <= p * (q + 1))%N as H2 by (apply half_even_le; [lia|]; subst n; nia).
    destruct (Nat.eqb_spec k 0) as [K0|K0].
    + left. rewrite (D1 K0) in *. assert (half_even (n * p) 1 <= p * q)%N as H3 by (apply half_even_le; [lia|]; subst n; nia).
      replace (half_even (n * p) 1) with (q * p)%N by lia. apply N.div_mul. lia.
    + destruct (N.ltb_spec (half_even (n * p) d) (p * (q + 1))).
      * left. symmetry. apply (N.div_unique _ _ _ (half_even (n * p) d - p * q)%N); lia.
      * right. left. split; [reflexivity|]. split; [exact S0|]. replace (half_even (n * p) d) with ((q + 1) * p)%N by lia. apply N.div_mul. lia.
  - right. right.
    assert (9007199254740992 <= 2 ^ N.log2 q)%N as B. { change 9007199254740992%N with (2 ^ 53)%N. apply N.pow_le_mono_r; lia. }
    split; [lia|]. assert (2 ^ N.log2 q = 2 ^ 52 * 2 ^ (N.log2 q - 52))%N as Q. { rewrite <- N.pow_add_r. f_equal. lia. }
    set (p := (2 ^ (N.log2 q - 52))%N) in *. assert (0 < p)%N as P by (apply N.neq_0_lt_0, N.pow_nonzero; lia). clearbody p.
    assert (2 ^ 52 <= half_even n (d * p))%N as H. { apply half_even_ge; [nia|]. subst n. nia. }
    nia.
Qed.
Lemma ljust_val f : length f <= 7 -> digits_val (ljust7 f) = (digits_val f * 10 ^ (7 - N.of_nat (length f)))%N.
Proof.
  intros H. unfold ljust7. rewrite digits_val_app, digits_val_zeros, repeat_length. rewrite N.add_0_r. do 2 f_equal. lia.
Qed.
Lemma whole_div d f : digits f -> (digits_val (d ++ f) / 10 ^ N.of_nat (length f) = digits_val d)%N.
Proof.
  intros D. rewrite digits_val_app. symmetry. apply (N.div_unique _ _ _ (digits_val f)); [now apply digits_val_bound|lia].
Qed.
Lemma lead_val m w : m = [] /\ w = 0%N \/ number m w -> digits (plain m) /\ digits_val (plain m) = w.
Proof. intros [[-> ->]|H]; [split; reflexivity|]. now apply number_val in H as (_ & H1 & H2). Qed.
Lemma val_lead m : digits (plain m) -> m = [] /\ digits_val (plain m) = 0%N \/ number m (digits_val (plain m)).
Proof. intros H. destruct m as [|c m]; [left; split; reflexivity|]. right. now apply val_number. Qed.

Lemma seconds_fwd sec w fr ticks y : seconds sec w fr ticks -> y = [] \/ y = [10%N] ->
  exists W f, opt_seconds (plain (sec ++ y)) = (W, f, plain y) /\ near W w fr /\ digits_val (ljust7 f) = ticks.
Proof.
  intros [(-> & -> & -> & ->)|(m & M & S0)] Y.
  - exists 0%N, []. split; [|split; [now left|reflexivity]]. destruct Y as [->| ->]; reflexivity.
  - apply lead_val in M as [M1 M2]. destruct S0 as [(-> & -> & ->)|(f & n & F & L & -> & -> & ->)].
    + exists (float_whole w 0), []. rewrite <- app_assoc, map_app. cbn [app map]. change (to_digit 83) with 83%N. unfold opt_seconds.
      rewrite span_digits_app by (assumption || reflexivity). change (83 =? 83)%N with true. rewrite M2. split; [reflexivity|]. split; [|reflexivity].
      pose proof (float_near w 0 ltac:(lia)) as Q. change (10 ^ N.of_nat 0)%N with 1%N in Q. rewrite N.div_1_r in Q. exact Q.
    + apply number_val in F as (F1 & F2 & F3). assert (length (plain f) = length f) as LF by apply map_length.
      exists (float_whole (digits_val (plain m ++ plain f)) (length (plain f))), (plain f). rewrite <- !app_assoc. cbn [app].
      rewrite map_app. cbn [map]. rewrite map_app. cbn [map]. change (to_digit 83) with 83%N. change (to_digit 46) with 46%N.
      unfold opt_seconds. rewrite span_digits_app by (assumption || reflexivity).
      change (46 =? 83)%N with false. change (46 =? 46)%N with true. cbv iota. rewrite span_digits_app by (assumption || reflexivity).
      change (83 =? 83)%N with true.
      replace (Nat.eqb (length (plain f)) 0) with false by (destruct (plain f); [congruence|reflexivity]).
      replace (Nat.leb (length (plain f)) 7) with true by (symmetry; apply Nat.leb_le; lia).
      split; [reflexivity|]. split.
      * pose proof (float_near (digits_val (plain m ++ plain f)) (length (plain f)) ltac:(lia)) as Q. rewrite whole_div in Q by exact F2.
        rewrite M2 in Q. destruct (length (plain f)) as [|k] eqn:EL; [destruct (plain f); [congruence|discriminate]|]. exact Q.
      * rewrite ljust_val by lia. now rewrite F3, LF.
Qed.
Lemma seconds_inv s W f r : opt_seconds (plain s) = (W, f, r) ->
  exists p y w fr ticks, s = p ++ y /\ r = plain y /\ seconds p w fr ticks.
Proof.
  intros E. assert (r = plain s -> exists p y w fr ticks, s = p ++ y /\ r = plain y /\ seconds p w fr ticks) as none.
  { intros ->. exists [], s, 0%N, false, 0%N. split; [reflexivity|]. split; [reflexivity|]. left. repeat (split; [reflexivity|]). reflexivity. }
  unfold opt_seconds in E. destruct (span_digits (plain s)) as [d r0] eqn:S0. apply span_spec in S0 as (S1 & S2 & _).
  destruct r0 as [|c r0]; [injection E as _ _ <-; now apply none|].
  destruct (N.eqb_spec c 83) as [->|_].
  - injection E as _ _ <-. apply plain_split in S1 as (m & y & -> & -> & Y). symmetry in Y. apply plain_cons in Y as (c & y' & -> & C & ->).
    symmetry in C. apply (proj1 (to_digit_same c 83 eq_refl eq_refl)) in C. subst c. apply val_lead in S2.
    exists (m ++ [83%N]), y', (digits_val (plain m)), false, 0%N. split; [now rewrite <- app_assoc|]. split; [reflexivity|].
    right. exists m. split; [exact S2|]. left. split; [reflexivity|]. split; reflexivity.
  - destruct (N.eqb_spec c 46) as [->|_]; [|injection E as _ _ <-; now apply none].
    destruct (span_digits r0) as [g r2] eqn:S3. apply span_spec in S3 as (S4 & S5 & _).
    destruct r2 as [|c2 r3]; [injection E as _ _ <-; now apply none|].
    destruct ((c2 =? 83)%N && _ && _)%bool eqn:C2; [|injection E as _ _ <-; now apply none]. injection E as _ _ <-.
    apply andb_prop in C2 as [C2 C4]. apply andb_prop in C2 as [C2 C3]. apply N.eqb_eq in C2. subst c2. apply Nat.leb_le in C4.
    apply plain_split in S1 as (m & y & -> & -> & Y). symmetry in Y. apply plain_cons in Y as (c & y' & -> & C & Y).
    symmetry in C. apply (proj1 (to_digit_same c 46 eq_refl eq_refl)) in C. subst c. rewrite S4 in Y. symmetry in Y.
    apply plain_split in Y as (f0 & z & -> & -> & Z). symmetry in Z. apply plain_cons in Z as (c & z' & -> & C & ->).
    symmetry in C. apply (proj1 (to_digit_same c 83 eq_refl eq_refl)) in C. subst c. rewrite map_length in C4.
    apply val_lead in S2. apply val_number in S5; [|destruct f0; [discriminate C3|discriminate]].
    exists (m ++ 46%N :: f0 ++ [83%N]), z', (digits_val (plain m)), true, (digits_val (plain f0) * 10 ^ (7 - N.of_nat (length f0)))%N.
    split; [rewrite <- app_assoc; cbn [app]; now rewrite <- app_assoc|]. split; [reflexivity|].
    right. exists m. split; [exact S2|]. right. exists f0, (digits_val (plain f0)). split; [exact S5|]. split; [exact C4|]. split; [reflexivity|]. split; reflexivity.
Qed.
Lemma seconds_clear L sec w fr ticks y : L <> 83%N -> L <> 46%N -> L <> 10%N -> seconds sec w fr ticks -> y = [] \/ y = [10%N] -> clear_of L (plain (sec ++ y)).
Proof.
  intros L1 L2 L3 [(-> & -> & -> & ->)|(m & M & S0)] Y.
  - exists [], (plain y). split; [reflexivity|]. split; [reflexivity|]. destruct Y as [->| ->]; [now left|]. right. exists 10%N, []. split; [reflexivity|]. split; [reflexivity|congruence].
  - apply lead_val in M as [M1 _]. destruct S0 as [(-> & _)|(f & n & _ & _ & -> & _)]; rewrite <- app_assoc, map_app; cbn [app map].
    + exists (plain m), (83%N :: plain y). split; [reflexivity|]. split; [exact M1|]. right. exists 83%N, (plain y). split; [reflexivity|]. split; [reflexivity|congruence].
    + eexists (plain m), (46%N :: _). split; [reflexivity|]. split; [exact M1|]. right. eexists 46%N, _. split; [reflexivity|]. split; [reflexivity|congruence].
Qed.

(** ** The whole text *)
Lemma held_new z : held (new_duration z) z.
Proof.
  unfold held, holds, day, new_duration, duration_ok. destruct (_ && _)%bool eqn:E; [left|right]; (split; [lia|reflexivity]).
Qed.
Lemma held_one r z z' : held r z -> r = Ok z' -> z' = z /\ holds z.
Proof. intros [[H ->]|[H ->]] E; [injection E as <-; auto|discriminate]. Qed.
Lemma drop_tail y : y = [] \/ y = [10%N] -> drop_newline (plain y) = [].
Proof. intros [->| ->]; reflexivity. Qed.
Lemma total_eq (p : parts) (a b c W : N) (t : list N) :
  a = pt_days p -> b = pt_hours p -> c = pt_minutes p -> digits_val t = pt_ticks p ->
  (let total := (Z.of_N (W + c * 60 + b * 3600 + a * 86400) * 1000000000 + Z.of_N (digits_val t) * 100)%Z in
   if pt_neg p then (- total)%Z else total) = length_with p W.
Proof. intros -> -> -> ->. unfold length_with. cbv zeta. replace (W + pt_minutes p * 60 + pt_hours p * 3600 + pt_days p * 86400)%N with (pt_days p * 86400 + pt_hours p * 3600 + pt_minutes p * 60 + W)%N by lia. reflexivity. Qed.
Lemma duration_fwd s p : duration_text s p -> exists W, near W (pt_whole p) (pt_fractional p) /\ read_duration s = new_duration (length_with p W).
Proof.
  intros (sign & days & time & tail & -> & SG & D & T & N0 & Y).
  assert (read_duration (sign ++ [80%N] ++ days ++ time ++ tail) = read_tail (pt_neg p) (plain (days ++ time ++ tail))) as ->.
  { unfold read_duration. rewrite <- read_duration_tail. destruct SG as [[-> ->]|[-> ->]]; reflexivity. }
  destruct T as [(-> & T1 & T2 & T3 & T4 & T5)|(h & m & sec & -> & N1 & H & M & S0)].
  - exists (pt_whole p). split; [now left|]. rewrite app_nil_r in N0. destruct D as [[-> _]|D]; [now elim N0|].
    pose proof D as (d0 & Dd & Dn). apply number_val in Dn as (E1 & E2 & _).
    unfold read_tail. cbn [app].
    assert (opt_unit 68 (plain (days ++ tail)) = (pt_days p, plain tail)) as U.
    { apply unit_field; [split; reflexivity|now right|]. exists [], (plain tail). split; [reflexivity|]. split; [reflexivity|].
      destruct Y as [->| ->]; [now left|right]. exists 10%N, []. split; [reflexivity|]. split; [reflexivity|congruence]. }
    destruct (plain (days ++ tail)) as [|c0 r0] eqn:E; [subst days; rewrite <- app_assoc, map_app in E; destruct (plain d0); [congruence|discriminate]|].
    replace (c0 =? 10)%N with false.
    2:{ subst days. rewrite <- app_assoc, map_app in E. destruct (plain d0) as [|x0 d1]; [congruence|]. injection E as <- _. unfold digits in E2. cbn [forallb] in E2. unfold is_digit in E2. lia. }
    rewrite U. rewrite T3, <- (total_eq p (pt_days p) 0 0 0 (ljust7 [])) by (assumption || reflexivity || (symmetry; assumption)).
    destruct Y as [->| ->]; reflexivity.
  - destruct (seconds_fwd _ _ _ _ tail S0 Y) as (W & f & O & NR & TK). exists W. split; [exact NR|].
    assert (clear_of 77 (plain (sec ++ tail))) as C1 by (eapply seconds_clear; [congruence..|exact S0|exact Y]).
    assert (clear_of 72 (plain (m ++ sec ++ tail))) as C2.
    { eapply field_clear; [| |exact M|eapply seconds_clear; [congruence..|exact S0|exact Y]]; [split; reflexivity|congruence]. }
    pose proof (unit_field 72 h _ (m ++ sec ++ tail) ltac:(split; reflexivity) H C2) as U1.
    pose proof (unit_field 77 m _ (sec ++ tail) ltac:(split; reflexivity) M C1) as U2.
    assert (opt_unit 68 (plain (days ++ ([84%N] ++ h ++ m ++ sec) ++ tail)) = (pt_days p, 84%N :: plain (h ++ m ++ sec ++ tail))) as U.
    { replace (([84%N] ++ h ++ m ++ sec) ++ tail) with (84%N :: h ++ m ++ sec ++ tail) by (cbn [app]; now rewrite <- !app_assoc).
      change (84%N :: plain (h ++ m ++ sec ++ tail)) with (plain (84%N :: h ++ m ++ sec ++ tail)).
      apply unit_field; [split; reflexivity|exact D|]. eexists [], _. split; [reflexivity|]. split; [reflexivity|]. right.
      eexists 84%N, _. split; [reflexivity|]. split; [reflexivity|congruence]. }
    assert (forall t q, plain t = 10%N :: q -> exists t', t = 10%N :: t') as F.
    { intros t q E. apply plain_cons in E as (x & t' & -> & E & _). symmetry in E. apply (proj1 (to_digit_same x 10 eq_refl eq_refl)) in E. subst. eauto. }
    assert (forall L q n t, mark L -> L <> 10%N -> field L q n -> q ++ t = 10%N :: tl (q ++ t) -> q = []) as G.
    { intros L q n t [B K] L0 [[-> _]|(d0 & -> & Dn)] E; [reflexivity|]. exfalso. apply number_val in Dn as (E1 & E2 & _).
      destruct d0 as [|x d0]; [now elim E1|]. cbn [app] in E. injection E as -> . unfold digits in E2. cbn [map forallb] in E2. vm_compute (is_digit (to_digit 10)) in E2. discriminate E2. }
    assert (forall q, seconds q (pt_whole p) (pt_fractional p) (pt_ticks p) -> q ++ tail = 10%N :: tl (q ++ tail) -> q = []) as G3.
    { intros q [(-> & _)|(d0 & Dn & Q)] E; [reflexivity|]. exfalso. apply lead_val in Dn as [E2 _].
      destruct d0 as [|x d0].
      - destruct Q as [(-> & _)|(f0 & n0 & _ & _ & -> & _)]; discriminate E.
      - assert (x = 10%N) as ->. { destruct Q as [(-> & _)|(f0 & n0 & _ & _ & -> & _)]; cbn [app] in E; now injection E. }
        unfold digits in E2. cbn [map forallb] in E2. vm_compute (is_digit (to_digit 10)) in E2. discriminate E2. }
    unfold read_tail.
    destruct (plain (days ++ ([84%N] ++ h ++ m ++ sec) ++ tail)) as [|c0 r0] eqn:E; [destruct days; discriminate E|].
    replace (c0 =? 10)%N with false.
    2:{ symmetry. apply N.eqb_neq. intros ->. apply F in E as [t' E]. assert (days = []) as ->.
        { eapply (G 68%N days); [split; reflexivity|congruence|exact D|]. rewrite E. reflexivity. }
        discriminate E. }
    rewrite U. cbv iota.
    destruct (plain (h ++ m ++ sec ++ tail)) as [|c4 r4] eqn:E4.
    { exfalso. apply N1. apply map_eq_nil in E4. rewrite !app_assoc in E4. apply app_eq_nil in E4 as [E4 _]. now rewrite <- app_assoc in E4. }
    replace (c4 =? 10)%N with false.
    2:{ symmetry. apply N.eqb_neq. intros ->. apply F in E4 as [t' E4]. assert (h = []) as ->.
        { eapply (G 72%N h); [split; reflexivity|congruence|exact H|]. rewrite E4. reflexivity. }
        assert (m = []) as ->.
        { eapply (G 77%N m); [split; reflexivity|congruence|exact M|]. cbn [app] in E4. rewrite E4. reflexivity. }
        apply N1. cbn [app] in E4 |- *. apply G3; [exact S0|]. rewrite E4. reflexivity. }
    rewrite U1, U2, O, drop_tail by exact Y. now rewrite <- (total_eq p (pt_days p) (pt_hours p) (pt_minutes p) W (ljust7 f)).
Qed.
Lemma drop_inv y : drop_newline (plain y) = [] -> y = [] \/ y = [10%N].
Proof.
  intros H. destruct (rev (plain y)) as [|x r] eqn:E.
  - left. apply (f_equal (@rev N)) in E. rewrite rev_involutive in E. now apply map_eq_nil in E.
  - right. destruct (N.eq_dec x 10) as [->|X].
    + unfold drop_newline in H. rewrite E in H. apply (f_equal (@rev N)) in H. rewrite rev_involutive in H. cbn [rev] in H. subst r.
      apply (f_equal (@rev N)) in E. rewrite rev_involutive in E. cbn [rev app] in E. apply plain_cons in E as (c & y' & -> & C & Y).
      symmetry in C. apply (proj1 (to_digit_same c 10 eq_refl eq_refl)) in C. symmetry in Y. apply map_eq_nil in Y. now subst.
    + exfalso. rewrite drop_newline_id in H; [|intros r' Q; rewrite E in Q; congruence]. rewrite H in E. discriminate E.
Qed.
Lemma tail_inv neg t : read_tail neg (plain t) = Err ValueError
  \/ exists sign p, (sign = [] /\ pt_neg p = false \/ sign = [0x2D]%N /\ pt_neg p = true) /\ pt_neg p = neg /\ duration_text (sign ++ [0x50]%N ++ t) p.
Proof.
  assert (exists sign, sign = [] /\ neg = false \/ sign = [0x2D]%N /\ neg = true) as (sign & SG).
  { destruct neg; [exists [0x2D]%N; now right|exists []; now left]. }
  unfold read_tail. destruct (plain t) as [|c2 r2] eqn:E; [now left|]. destruct (c2 =? 10)%N eqn:C2; [now left|]. rewrite <- E.
  destruct (opt_unit 68 (plain t)) as [days s3] eqn:U. apply unit_inv in U as (dt & y & Ht & -> & D); [|split; reflexivity].
  assert (y <> [] \/ dt <> []) as NE. { destruct y; [right|now left; discriminate]. intros ->. subst t. discriminate E. }
  destruct (plain y) as [|c3 r3] eqn:Ey.
  - apply map_eq_nil in Ey. subst y. rewrite app_nil_r in Ht. subst dt. right. exists sign, (mkParts neg days 0 0 0 false 0).
    split; [exact SG|]. split; [reflexivity|]. exists sign, t, [], []. rewrite app_nil_r. split; [reflexivity|].
    split; [exact SG|]. split; [exact D|]. split; [left; repeat (split; [reflexivity|]); reflexivity|].
    split; [|now left]. rewrite app_nil_r. destruct NE as [NE|NE]; [now elim NE|exact NE].
  - destruct (N.eq_dec c3 84) as [->|C3].
    + apply plain_cons in Ey as (c & y' & -> & C & ->). symmetry in C. apply (proj1 (to_digit_same c 84 eq_refl eq_refl)) in C. subst c.
      destruct (plain y') as [|c4 r4] eqn:E4; [now left|]. destruct (c4 =? 10)%N eqn:C4; [now left|]. rewrite <- E4.
      destruct (opt_unit 72 (plain y')) as [h s5] eqn:U1. apply unit_inv in U1 as (ht & y1 & -> & -> & H); [|split; reflexivity].
      destruct (opt_unit 77 (plain y1)) as [m s6] eqn:U2. apply unit_inv in U2 as (mt & y2 & -> & -> & M); [|split; reflexivity].
      destruct (opt_seconds (plain y2)) as [[W f] s7] eqn:U3. apply seconds_inv in U3 as (sec & y3 & w & fr & ticks & -> & -> & S0).
      destruct (drop_newline (plain y3)) as [|] eqn:DN; [|now left]. apply drop_inv in DN.
      right. exists sign, (mkParts neg days h m w fr ticks). split; [exact SG|]. split; [reflexivity|].
      exists sign, dt, (84%N :: ht ++ mt ++ sec), y3. split; [subst t; cbn [app]; now rewrite <- !app_assoc|]. split; [exact SG|]. split; [exact D|].
      split; [|split; [now destruct dt|exact DN]]. right. exists ht, mt, sec. split; [reflexivity|]. split; [|auto].
      intros Q. rewrite !app_assoc in E4. rewrite <- (app_assoc ht), Q in E4. cbn [app] in E4. destruct DN as [->| ->]; [discriminate E4|].
      injection E4 as <- _. discriminate C4.
    + destruct (drop_newline (plain y)) as [|] eqn:DN.
      * apply drop_inv in DN as [->| ->]; [discriminate Ey|].
        destruct dt as [|x dt]; [cbn [app] in Ht; subst t; injection E as <- _; discriminate C2|].
        right. exists sign, (mkParts neg days 0 0 0 false 0).
        split; [exact SG|]. split; [reflexivity|]. exists sign, (x :: dt), [], [10%N]. split; [now subst t|].
        split; [exact SG|]. split; [exact D|]. split; [left; repeat (split; [reflexivity|]); reflexivity|].
        split; [discriminate|now right].
      * left. rewrite Ey in DN. cbv zeta. destruct c3 as [|q]; [now rewrite DN|]. do 7 (destruct q; try (rewrite DN; reflexivity)). congruence.
Qed.
Lemma duration_inv s : read_duration s = Err ValueError \/ exists p, duration_text s p.
Proof.
  assert (forall x y, to_digit x = 45%N -> x :: y = [45%N] ++ y) as minus.
  { intros x y H. apply (proj1 (to_digit_same x 45 eq_refl eq_refl)) in H. now subst. }
  unfold read_duration. destruct s as [|c s]; [now left|]. cbn [map]. destruct (N.eq_dec (to_digit c) 45) as [C|C].
  - rewrite (minus c s C), C. destruct s as [|c2 s]; [now left|]. cbn [map]. destruct (N.eq_dec (to_digit c2) 80) as [C2|C2].
    + rewrite C2. apply (proj1 (to_digit_same c2 80 eq_refl eq_refl)) in C2. subst c2.
      change (45%N :: 80%N :: plain s) with ([45%N] ++ [80%N] ++ plain s). rewrite (read_duration_tail true).
      destruct (tail_inv true s) as [T|(sign & p & [[-> P]|[-> P]] & P' & T)]; [now left|congruence|right]. exists p. exact T.
    + left. unfold parse_duration. change (45 =? 45)%N with true. cbv iota. replace (to_digit c2 =? 80)%N with false by lia. reflexivity.
  - destruct (N.eq_dec (to_digit c) 80) as [C2|C2].
    + rewrite C2. apply (proj1 (to_digit_same c 80 eq_refl eq_refl)) in C2. subst c.
      change (80%N :: plain s) with ([] ++ [80%N] ++ plain s). rewrite (read_duration_tail false).
      destruct (tail_inv false s) as [T|(sign & p & [[-> P]|[-> P]] & P' & T)]; [now left|right|congruence]. exists p. exact T.
    + left. unfold parse_duration. replace (to_digit c =? 45)%N with false by lia. replace (to_digit c =? 80)%N with false by lia. reflexivity.
Qed.
