(** Proofs about the texts that dates, durations and characters show. *)
From Verif Require Import Base BaseFacts Model_Scalars Model_Strings Model_Utf8 Model_Dates Spec_Scalars Spec_Dates
  Proofs_Scalars Proofs_Duration Proofs_Datetime Proofs_Dates.
From Verif Require Model_Time Spec_Time.

(** ** Digits *)
Lemma digits_of_val t : forallb is_digit t = true -> digits_of t (digits_val t).
Proof.
  induction t as [|c t IH] using rev_ind; intros H; [constructor|].
  rewrite forallb_app in H. cbn [forallb] in H. apply andb_prop in H. destruct H as [H1 H2].
  rewrite digits_val_app, digits_val_one. cbn [length]. change (10 ^ N.of_nat 1)%N with 10%N. unfold is_digit in H2.
  replace [c] with [48 + (c - 48)]%N by (f_equal; lia). constructor; [apply IH; exact H1|lia].
Qed.
Lemma dec_pad_wide w n : (n < 10 ^ N.of_nat (S w))%N -> wide (S w) (dec_pad (S w) n) n.
Proof.
  intros H. split; [|apply dec_pad_length; exact H].
  pose proof (digits_of_val _ (dec_pad_digits (S w) n)) as D. rewrite dec_pad_val in D. exact D.
Qed.
Lemma wide2 n : (n < 100)%N -> wide 2 (dec_pad 2 n) n.
Proof. intros H. apply dec_pad_wide. exact H. Qed.
Lemma wide6 n : (n < 1000000)%N -> wide 6 (dec_pad 6 n) n.
Proof. intros H. apply dec_pad_wide. exact H. Qed.
Lemma wide3 n : (n < 1000)%N -> wide 3 (dec_pad 3 n) n.
Proof. intros H. apply dec_pad_wide. exact H. Qed.
Lemma dec_numeral n : numeral (dec n) n.
Proof.
  split; [pose proof (digits_of_val _ (dec_digits n)) as D; rewrite dec_val in D; exact D|].
  split; [apply dec_nonempty|]. destruct (dec_cons n) as (c & t & E & _ & H). destruct (N.eq_dec c 48) as [->|Hc].
  - left. rewrite (H eq_refl) in E. rewrite <- (dec_val n), E. reflexivity.
  - right. rewrite E. cbn. congruence.
Qed.
Lemma pad_inv w a b r r' : (a < 10 ^ N.of_nat (S w))%N -> (b < 10 ^ N.of_nat (S w))%N ->
  dec_pad (S w) a ++ r = dec_pad (S w) b ++ r' -> a = b /\ r = r'.
Proof.
  intros Ha Hb E. assert (take_digits (S w) (dec_pad (S w) a ++ r) = take_digits (S w) (dec_pad (S w) b ++ r')) as F by now rewrite E.
  rewrite !take_pad in F by assumption. injection F as -> ->. split; reflexivity.
Qed.
Lemma pad2_inv a b r r' : (a < 100)%N -> (b < 100)%N -> dec_pad 2 a ++ r = dec_pad 2 b ++ r' -> a = b /\ r = r'.
Proof. exact (pad_inv 1 a b r r'). Qed.
Lemma pad6_inv a b r r' : (a < 1000000)%N -> (b < 1000000)%N -> dec_pad 6 a ++ r = dec_pad 6 b ++ r' -> a = b /\ r = r'.
Proof. exact (pad_inv 5 a b r r'). Qed.
Lemma dec_inv a b c d r r' : is_digit c = false -> is_digit d = false -> dec a ++ c :: r = dec b ++ d :: r' -> a = b /\ c = d /\ r = r'.
Proof.
  intros Hc Hd E. assert (span_digits (dec a ++ c :: r) = span_digits (dec b ++ d :: r')) as F by now rewrite E.
  rewrite !span_digits_app in F by (assumption || apply dec_digits). injection F as F1 F2 F3.
  split; [rewrite <- (dec_val a), F1; apply dec_val|]. split; assumption.
Qed.

(** ** Fractions *)
Definition frac (us ns : N) : list N :=
  if (negb (us =? 0) || negb (ns =? 0))%N then [46]%N ++ dec_pad 6 us ++ (if (ns =? 0)%N then [] else dec_pad 3 ns) else [].
Lemma frac_shown us ns : (us < 1000000)%N -> (ns < 1000)%N -> fraction_shown (frac us ns) us ns.
Proof.
  intros Hu Hn. unfold frac, fraction_shown. destruct (N.eqb_spec us 0) as [->|Eu]; destruct (N.eqb_spec ns 0) as [->|En]; cbn [negb orb].
  - left. split; [reflexivity|]. split; reflexivity.
  - right. right. split; [exact En|]. exists (dec_pad 6 0), (dec_pad 3 ns). split; [apply wide6; lia|]. split; [apply wide3; lia|reflexivity].
  - right. left. split; [exact Eu|]. split; [reflexivity|]. exists (dec_pad 6 us). split; [apply wide6; lia|]. rewrite app_nil_r. reflexivity.
  - right. right. split; [exact En|]. exists (dec_pad 6 us), (dec_pad 3 ns). split; [apply wide6; lia|]. split; [apply wide3; lia|reflexivity].
Qed.
Lemma frac_inv us ns z us' ns' z' : (us < 1000000)%N -> (us' < 1000000)%N -> zone_fine z -> zone_fine z' ->
  frac us ns ++ z = frac us' ns' ++ z' -> us = us' /\ ns = ns' /\ z = z'.
Proof.
  intros Hu Hu' Hz Hz' E. unfold frac in E.
  destruct (negb (us =? 0) || negb (ns =? 0))%N eqn:A; destruct (negb (us' =? 0) || negb (ns' =? 0))%N eqn:B; cbn [app] in E.
  - injection E as E.
    assert (forall u n, forallb is_digit (dec_pad 6 u ++ (if (n =? 0)%N then [] else dec_pad 3 n)) = true) as D.
    { intros u n. rewrite forallb_app, dec_pad_digits. destruct (n =? 0)%N; [reflexivity|apply dec_pad_digits]. }
    assert (span_digits ((dec_pad 6 us ++ (if (ns =? 0)%N then [] else dec_pad 3 ns)) ++ z)
            = span_digits ((dec_pad 6 us' ++ (if (ns' =? 0)%N then [] else dec_pad 3 ns')) ++ z')) as F by now rewrite E.
    rewrite !span_digits_end in F; try (apply D); try (now apply zone_fine_plain).
    assert (forall (a b c d : list N), (a, b) = (c, d) -> a = c /\ b = d) as K by (intros ? ? ? ? Q; injection Q; auto).
    apply K in F. destruct F as [F1 F2]. apply pad6_inv in F1; [|assumption..]. destruct F1 as [F0 F1].
    split; [exact F0|]. split; [|exact F2].
    destruct (N.eqb_spec ns 0) as [->|G]; destruct (N.eqb_spec ns' 0) as [->|G'].
    + reflexivity.
    + destruct (dec_pad_head 3 ns') as (c & t & Q & _). rewrite Q in F1. discriminate.
    + destruct (dec_pad_head 3 ns) as (c & t & Q & _). rewrite Q in F1. discriminate.
    + rewrite <- (dec_pad_val 3 ns), F1. apply dec_pad_val.
  - rewrite <- E in Hz'. cbn [zone_fine] in Hz'. destruct Hz' as [_ Hz']. congruence.
  - rewrite E in Hz. cbn [zone_fine] in Hz. destruct Hz as [_ Hz]. congruence.
  - split; [lia|]. split; [lia|exact E].
Qed.

(** ** Dates *)
Definition shown_zone (off : option Z) : list N :=
  match off with
  | None => []
  | Some o => (if (o <? 0)%Z then 45%N else 43%N) :: dec_pad 2 (Z.abs_N o / 3600000000) ++ 58%N
              :: dec_pad 2 (Z.abs_N o mod 3600000000 / 60000000)
  end.
Lemma date_str_text d off : date_str d off =
  dec_pad 4 (dt_year d) ++ 45%N :: dec_pad 2 (dt_month d) ++ 45%N :: dec_pad 2 (dt_day d) ++ 32%N
  :: dec_pad 2 (dt_hour d) ++ 58%N :: dec_pad 2 (dt_minute d) ++ 58%N :: dec_pad 2 (dt_second d)
  ++ frac (dt_micro d) (dt_nano d) ++ shown_zone off.
Proof.
  unfold date_str, frac, shown_zone. cbv zeta. repeat (rewrite <- app_assoc; cbn [app]).
  destruct off as [o|]; [|reflexivity]. destruct (o <? 0)%Z; reflexivity.
Qed.
Lemma shown_zone_fine off : zone_fine (shown_zone off).
Proof. destruct off as [o|]; [|exact I]. cbn [shown_zone zone_fine]. destruct (o <? 0)%Z; split; (reflexivity || discriminate). Qed.
Lemma offset_parts o : (- whole_day < o < whole_day)%Z ->
  (Z.abs_N o / 3600000000 < 100 /\ Z.abs_N o mod 3600000000 / 60000000 < 60)%N.
Proof. intros H. unfold whole_day, minute in H. split; lia. Qed.
Lemma date_shown_str d off : creatable d off -> (dt_nano d < 1000)%N -> date_shown (date_str d off) d off.
Proof.
  intros C Hn. pose proof (creatable_plain d off C) as (H1 & H2 & _ & H3 & H4 & H5 & H6 & H7). destruct C as [_ Ho].
  rewrite date_str_text.
  exists (dec_pad 4 (dt_year d)), (dec_pad 2 (dt_month d)), (dec_pad 2 (dt_day d)), (dec_pad 2 (dt_hour d)),
    (dec_pad 2 (dt_minute d)), (dec_pad 2 (dt_second d)), (frac (dt_micro d) (dt_nano d)), (shown_zone off).
  split; [apply (dec_pad_wide 3); change (10 ^ N.of_nat 4)%N with 10000%N; lia|].
  split; [apply wide2; lia|]. split; [apply wide2; lia|]. split; [apply wide2; lia|]. split; [apply wide2; lia|].
  split; [apply wide2; lia|]. split; [apply frac_shown; lia|]. split; [|reflexivity].
  destruct off as [o|]; [|reflexivity]. cbn [offset_shown shown_zone].
  destruct (offset_parts o Ho) as [P1 P2].
  exists (Z.abs_N o / 3600000000)%N, (Z.abs_N o mod 3600000000 / 60000000)%N, (Z.abs_N o mod 60000000)%N.
  eexists _, _. split; [clear; lia|]. split; [split; [exact P2|clear; lia]|]. split; [apply wide2; exact P1|].
  split; [apply wide2; lia|]. destruct (o <? 0)%Z eqn:E; [right|left]; (split; [lia|reflexivity]).
Qed.
Lemma zone_inv a b : (match a with None => True | Some o => - whole_day < o < whole_day end)%Z ->
  (match b with None => True | Some o => - whole_day < o < whole_day end)%Z ->
  (shown_zone a = shown_zone b <-> same_minute a b).
Proof.
  intros Ha Hb. destruct a as [x|]; destruct b as [y|]; cbn [same_minute].
  - pose proof (offset_parts x Ha) as [A1 A2]. pose proof (offset_parts y Hb) as [B1 B2]. cbn [shown_zone].
    assert (forall o, Z.of_N (Z.abs_N o / 3600000000 * 60 + Z.abs_N o mod 3600000000 / 60000000) = (Z.abs o / minute)%Z) as K
      by (intros o; unfold minute; lia).
    split.
    + intros E. injection E as E1 E2. apply pad2_inv in E2; [|lia..]. destruct E2 as [E2 E3]. injection E3 as E3.
      rewrite <- (app_nil_r (dec_pad 2 _)) in E3. rewrite <- (app_nil_r (dec_pad 2 (Z.abs_N y mod _ / _))) in E3.
      apply pad2_inv in E3; [|lia..]. destruct E3 as [E3 _]. split.
      * destruct (x <? 0)%Z eqn:X; destruct (y <? 0)%Z eqn:Y; try discriminate E1; lia.
      * rewrite <- !K, E2, E3. reflexivity.
    + intros [S1 S2]. rewrite <- !K in S2. apply N2Z.inj in S2.
      assert (Z.abs_N x / 3600000000 = Z.abs_N y / 3600000000 /\
              Z.abs_N x mod 3600000000 / 60000000 = Z.abs_N y mod 3600000000 / 60000000)%N as [-> ->].
      { set (p := (Z.abs_N x / 3600000000)%N) in *. set (q := (Z.abs_N x mod 3600000000 / 60000000)%N) in *.
        set (p' := (Z.abs_N y / 3600000000)%N) in *. set (q' := (Z.abs_N y mod 3600000000 / 60000000)%N) in *.
        clearbody p q p' q'. lia. }
      replace (x <? 0)%Z with (y <? 0)%Z by lia. reflexivity.
  - split; [discriminate|contradiction].
  - split; [discriminate|contradiction].
  - split; auto.
Qed.
Lemma date_str_tells d off e off' : creatable d off -> creatable e off' ->
  (date_str d off = date_str e off' <-> same_fields d e /\ same_minute off off').
Proof.
  intros C C'. pose proof (creatable_plain d off C) as (H1 & H2 & _ & H3 & H4 & H5 & H6 & H7).
  pose proof (creatable_plain e off' C') as (G1 & G2 & _ & G3 & G4 & G5 & G6 & G7).
  destruct C as [_ Ho]. destruct C' as [_ Ho']. rewrite !date_str_text. split.
  - intros E. apply (pad_inv 3) in E; [|change (10 ^ N.of_nat 4)%N with 10000%N; lia..]. destruct E as [E1 E]. injection E as E.
    apply pad2_inv in E; [|lia..]. destruct E as [E2 E]. injection E as E.
    apply pad2_inv in E; [|lia..]. destruct E as [E3 E]. injection E as E.
    apply pad2_inv in E; [|lia..]. destruct E as [E4 E]. injection E as E.
    apply pad2_inv in E; [|lia..]. destruct E as [E5 E]. injection E as E.
    apply pad2_inv in E; [|lia..]. destruct E as [E6 E].
    apply frac_inv in E; [|assumption|assumption|apply shown_zone_fine..]. destruct E as (E7 & E8 & E9).
    split; [unfold same_fields; tauto|]. apply zone_inv in E9; assumption.
  - intros [(-> & -> & -> & -> & -> & -> & -> & ->) Z]. apply zone_inv in Z; [|assumption..]. rewrite Z. reflexivity.
Qed.

(** ** Durations *)
Lemma duration_parts us :
  (us = ((Model_Time.days us * 24 + Model_Time.seconds us / 60 / 60) * 60 + Model_Time.seconds us / 60 mod 60) * 60 * 1000000
        + Model_Time.seconds us mod 60 * 1000000 + Model_Time.microseconds us
   /\ 0 <= Model_Time.seconds us < 86400 /\ 0 <= Model_Time.microseconds us < 1000000)%Z.
Proof.
  unfold Model_Time.days, Model_Time.seconds, Model_Time.microseconds, Model_Time.us_per_day, Model_Time.us_per_second.
  assert (us mod 1000000 = (us mod (86400 * 1000000)) mod 1000000)%Z as -> .
  { rewrite <- Znumtheory.Zmod_div_mod; [reflexivity|lia|lia|]. exists 86400%Z. reflexivity. }
  pose proof (Z.div_mod us (86400 * 1000000) ltac:(lia)) as E. pose proof (Z.mod_pos_bound us (86400 * 1000000) ltac:(lia)) as B.
  set (r := (us mod (86400 * 1000000))%Z) in *. set (q := (us / (86400 * 1000000))%Z) in *. clearbody q r. subst us. lia.
Qed.
Definition day_text (d : Z) : list N :=
  if (d =? 0)%Z then [] else str_int d ++ [32; 100; 97; 121]%N ++ (if (Z.abs d =? 1)%Z then [] else [115]%N) ++ [44; 32]%N.
Lemma duration_str_text us ns : duration_str us ns =
  let s := Z.to_N (Model_Time.seconds us) in
  day_text (Model_Time.days us) ++ dec (s / 60 / 60) ++ 58%N :: dec_pad 2 (s / 60 mod 60) ++ 58%N :: dec_pad 2 (s mod 60)
  ++ frac (Z.to_N (Model_Time.microseconds us)) (Z.to_N ns).
Proof. reflexivity. Qed.
Lemma duration_shown_str us ns : (0 <= ns < 1000)%Z -> duration_shown (duration_str us ns) us ns.
Proof.
  intros Hn. rewrite duration_str_text. cbv zeta. pose proof (duration_parts us) as (E & Hs & Hu).
  set (s := Model_Time.seconds us) in *. set (u := Model_Time.microseconds us) in *. set (d := Model_Time.days us) in *.
  clearbody s u d.
  exists d, (Z.to_N s / 60 / 60)%N, (Z.to_N s / 60 mod 60)%N, (Z.to_N s mod 60)%N, (Z.to_N u), (Z.to_N ns).
  exists (day_text d). eexists _, _, _, _.
  split; [subst us; lia|]. split; [lia|]. split; [lia|]. split.
  2:{ split; [apply dec_numeral|]. split; [apply wide2; lia|]. split; [apply wide2; lia|]. split; [apply frac_shown; lia|reflexivity]. }
  unfold day_text. destruct (Z.eqb_spec d 0) as [->|Hd]; [left; split; reflexivity|right].
  exists (dec (Z.abs_N d)), (if (Z.abs d =? 1)%Z then [] else [115]%N). split; [apply dec_numeral|].
  split; [destruct (Z.eqb_spec (Z.abs d) 1); [left|right]; (split; [lia|reflexivity])|].
  destruct d as [|p|p]; [congruence|left|right]; (split; [lia|reflexivity]).
Qed.
Lemma clock_head a t d r : is_digit d = true -> dec a ++ 58%N :: t <> 45%N :: r.
Proof. intros _ E. destruct (dec_cons a) as (c & s & Q & Hc & _). rewrite Q in E. injection E as -> _. discriminate Hc. Qed.
Lemma day_inv d d' a a' t t' : day_text d ++ dec a ++ 58%N :: t = day_text d' ++ dec a' ++ 58%N :: t' -> d = d' /\ a = a' /\ t = t'.
Proof.
  assert (forall d, d <> 0%Z -> forall r, exists w, day_text d ++ r = str_int d ++ 32%N :: w) as Hday.
  { intros e He r. unfold day_text. replace (e =? 0)%Z with false by lia. rewrite <- app_assoc. cbn [app]. eexists. reflexivity. }
  intros E. assert (d = d') as <-.
  { destruct (Z.eq_dec d 0) as [->|Hd]; destruct (Z.eq_dec d' 0) as [->|Hd'].
    - reflexivity.
    - exfalso. destruct (Hday d' Hd' (dec a' ++ 58%N :: t')) as [w Q]. rewrite Q in E. clear Q. cbn [day_text] in E.
      change (day_text 0) with (@nil N) in E. cbn [app] in E. destruct d' as [|p|p]; [congruence| |].
      + cbn [str_int] in E. apply dec_inv in E; [|reflexivity..]. destruct E as (_ & E & _). discriminate.
      + cbn [str_int app] in E. destruct (dec_cons a) as (c & s & Q & Hc & _). rewrite Q in E. injection E as -> _. discriminate Hc.
    - exfalso. destruct (Hday d Hd (dec a ++ 58%N :: t)) as [w Q]. rewrite Q in E. clear Q.
      change (day_text 0) with (@nil N) in E. cbn [app] in E. destruct d as [|p|p]; [congruence| |].
      + cbn [str_int] in E. apply dec_inv in E; [|reflexivity..]. destruct E as (_ & E & _). discriminate.
      + cbn [str_int app] in E. destruct (dec_cons a') as (c & s & Q & Hc & _). rewrite Q in E. injection E as <- _. discriminate Hc.
    - destruct (Hday d Hd (dec a ++ 58%N :: t)) as [w Q]. rewrite Q in E. clear Q.
      destruct (Hday d' Hd' (dec a' ++ 58%N :: t')) as [w' Q]. rewrite Q in E. clear Q.
      destruct d as [|p|p]; [congruence| |]; (destruct d' as [|q|q]; [congruence| |]); cbn [str_int app] in E.
      + apply dec_inv in E; [|reflexivity..]. destruct E as (E & _). congruence.
      + destruct (dec_cons (N.pos p)) as (c & s & Q & Hc & _). rewrite Q in E. injection E as -> _. discriminate Hc.
      + destruct (dec_cons (N.pos q)) as (c & s & Q & Hc & _). rewrite Q in E. injection E as <- _. discriminate Hc.
      + injection E as E. apply dec_inv in E; [|reflexivity..]. destruct E as (E & _). congruence. }
  apply app_inv_head in E. apply dec_inv in E; [|reflexivity..]. tauto.
Qed.
Lemma duration_str_tells us ns us' ns' : (0 <= ns < 1000)%Z -> (0 <= ns' < 1000)%Z ->
  duration_str us ns = duration_str us' ns' -> us = us' /\ ns = ns'.
Proof.
  intros Hn Hn' E. rewrite !duration_str_text in E. cbv zeta in E.
  pose proof (duration_parts us) as (P & Hs & Hu). pose proof (duration_parts us') as (P' & Hs' & Hu').
  apply day_inv in E. destruct E as (E1 & E2 & E).
  apply pad2_inv in E; [|lia..]. destruct E as [E3 E]. injection E as E.
  apply pad2_inv in E; [|lia..]. destruct E as [E4 E].
  rewrite <- (app_nil_r (frac (Z.to_N (Model_Time.microseconds us)) _)) in E.
  rewrite <- (app_nil_r (frac (Z.to_N (Model_Time.microseconds us')) _)) in E.
  apply frac_inv in E; [|lia|lia|exact I..]. destruct E as (E5 & E6 & _).
  split; [|lia]. set (s := Model_Time.seconds us) in *. set (s' := Model_Time.seconds us') in *.
  set (u := Model_Time.microseconds us) in *. set (u' := Model_Time.microseconds us') in *.
  set (d := Model_Time.days us) in *. set (d' := Model_Time.days us') in *. clearbody s s' u u' d d'.
  assert (s = s') by lia. assert (u = u') by lia. subst. reflexivity.
Qed.
Lemma duration_repr_call us ns : Model_Time.delta_ok us = true -> (0 <= ns < 1000)%Z ->
  duration_call (duration_repr us ns) = Ok (Model_Time.Duration us ns).
Proof.
  intros Hu Hn.
  assert (forall a b c e, (forall k, given k (filter (fun kv => negb (snd kv =? 0)%Z) [(0, a); (1, b); (2, c); (3, e)])
             = match k with 0 => a | 1 => b | 2 => c | 3 => e | _ => 0%Z end)) as G.
  { intros a b c e k. unfold given, filter. cbn [snd].
    destruct (Z.eqb_spec a 0) as [->|]; destruct (Z.eqb_spec b 0) as [->|]; destruct (Z.eqb_spec c 0) as [->|];
      destruct (Z.eqb_spec e 0) as [->|]; cbn [negb find fst]; destruct k as [|[|[|[|k]]]]; reflexivity. }
  unfold duration_call, duration_repr. rewrite !G.
  assert (Model_Time.days us * Model_Time.us_per_day + Model_Time.seconds us * Model_Time.us_per_second + Model_Time.microseconds us = us)%Z as ->.
  { pose proof (duration_parts us) as (P & Hs & Hm). unfold Model_Time.us_per_day, Model_Time.us_per_second in *.
    set (s := Model_Time.seconds us) in *. set (u := Model_Time.microseconds us) in *. set (d := Model_Time.days us) in *. clearbody s u d. subst us. lia. }
  unfold Model_Time.new_delta. rewrite Hu. cbn [bind]. unfold Model_Time.new_duration, Model_Time.total_nanoseconds.
  assert ((ns + (0 + Model_Time.microseconds us * 1000 + Model_Time.seconds us * 1000000000 + Model_Time.days us * 86400000000000)) = us * 1000 + ns)%Z as ->.
  { pose proof (duration_parts us) as (P & Hs & Hm). set (s := Model_Time.seconds us) in *. set (u := Model_Time.microseconds us) in *.
    set (d := Model_Time.days us) in *. clearbody s u d. subst us. lia. }
  replace ((us * 1000 + ns) / 1000)%Z with us by (apply Z.div_unique with ns; lia).
  replace ((us * 1000 + ns) mod 1000)%Z with ns by (apply Z.mod_unique with us; lia).
  cbv zeta. unfold Model_Time.new_delta. rewrite Hu. reflexivity.
Qed.

(** ** Characters *)
Lemma char_of_text_spec s c : char_of_text s = Ok c <-> s = [c] /\ (c < 65536)%N /\ ~ (0xD800 <= c <= 0xDFFF)%N.
Proof.
  unfold char_of_text. split.
  - destruct (existsb is_surrogate s) eqn:E; [discriminate|]. destruct s as [|x t]; [discriminate|].
    cbn [flat_map existsb] in *. apply orb_false_elim in E. destruct E as [E _]. unfold utf16 at 1.
    destruct (N.ltb_spec x 65536) as [Hx|Hx]; cbn [app].
    + destruct t as [|y t]; cbn [flat_map].
      * unfold new_char. destruct ((Z.of_N x <? 0) || (Z.of_N x >? 65535))%Z eqn:G; [discriminate|]. intros Q. injection Q as Q.
        rewrite N2Z.id in Q. subst c. split; [reflexivity|]. split; [exact Hx|]. unfold is_surrogate, in_range in E. lia.
      * unfold utf16 at 1. destruct (y <? 65536)%N; discriminate.
    + discriminate.
  - intros (-> & Hc & Hs). cbn [existsb flat_map]. replace (is_surrogate c) with false by (unfold is_surrogate, in_range; lia).
    cbn [orb]. unfold utf16. replace (c <? 65536)%N with true by lia. cbn [app]. unfold new_char.
    replace ((Z.of_N c <? 0) || (Z.of_N c >? 65535))%Z with false by lia. rewrite N2Z.id. reflexivity.
Qed.
