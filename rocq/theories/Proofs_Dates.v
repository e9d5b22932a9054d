(** Proofs about date-times in full and about texts shown. *)
From Verif Require Import Base BaseFacts Model_Scalars Model_Strings Model_Utf8 Model_Dates Spec_Scalars Spec_Dates
  Proofs_Scalars Proofs_Duration Proofs_Datetime.
From Verif Require Model_Time.

(** ** The reader only takes texts that begin with four digits *)
Definition four (s : list N) : bool := (Nat.eqb (length (firstn 4 s)) 4 && forallb any_digit (firstn 4 s))%bool.
Lemma strptime_four s wf wz : four s = false -> strptime s wf wz = Err ValueError.
Proof. intros H. unfold strptime, year_field. unfold four in H. rewrite H. reflexivity. Qed.
Lemma firstn4_19 (s : list N) t : length s >= 19 -> firstn 4 (firstn 19 s ++ t) = firstn 4 s.
Proof.
  intros H. do 4 (destruct s as [|? s]; [cbn [length] in H; lia|]). reflexivity.
Qed.
Lemma split_fraction_four s : four s = false -> four (fst (split_fraction s)) = false.
Proof.
  intros H. unfold split_fraction. destruct (skipn 19 s) as [|c t] eqn:E; [exact H|].
  assert (length s >= 19) as HL.
  { destruct (le_lt_dec 19 (length s)) as [G|G]; [lia|]. rewrite skipn_all2 in E by lia. discriminate. }
  destruct (span_any t) as [f z].
  destruct ((c =? 46)%N && negb (Nat.eqb (length f) 0))%bool; [|exact H].
  destruct (Nat.ltb 6 (length f)); cbn [fst]; unfold four in *; rewrite firstn4_19 by exact HL; exact H.
Qed.
Lemma find_tz_split s p x : find_tz s = Some (p, x) -> exists q c r, s = q ++ c :: r /\ any_digit c = false /\ (p = q \/ p = q ++ [c]).
Proof.
  revert p. induction s as [|c t IH]; intros p H; [discriminate|]. cbn [find_tz] in H.
  destruct (tz_at (c :: t)) as [y|] eqn:E.
  - injection H as ->. exists [], c, t. split; [reflexivity|]. unfold tz_at in E.
    destruct ((c =? 43) || (c =? 45))%N eqn:G; [|discriminate]. split.
    + rewrite any_ascii by lia. unfold is_digit. lia.
    + destruct (span_any t) as [h [|col r2]]; [discriminate|]. destruct (span_any r2) as [m r3]. destruct (_ && _)%bool; [|discriminate].
      destruct r3 as [|x0 r4]; [injection E as <- _; now left|]. destruct (_ && _)%bool; [|discriminate]. injection E as <- _. now right.
  - destruct (find_tz t) as [[q y]|] eqn:F; [|discriminate]. injection H as <- <-.
    destruct (IH q eq_refl) as (q' & d & r & -> & G & [->| ->]); exists (c :: q'), d, r; (split; [reflexivity|]; split; [exact G|]); auto.
Qed.
Lemma four_at p c r r' c' : any_digit c = false -> any_digit c' = false -> four (p ++ c :: r) = false -> four (p ++ c' :: r') = false.
Proof.
  intros Hc Hc' H. destruct p as [|p0 p]; [unfold four; cbn [app firstn forallb]; rewrite Hc'; apply andb_false_r|].
  destruct p as [|p1 p]; [unfold four; cbn [app firstn forallb]; rewrite Hc'; rewrite !andb_false_r; reflexivity|].
  destruct p as [|p2 p]; [unfold four; cbn [app firstn forallb]; rewrite Hc'; rewrite !andb_false_r; reflexivity|].
  destruct p as [|p3 p]; [unfold four; cbn [app firstn forallb]; rewrite Hc'; rewrite !andb_false_r; reflexivity|].
  exact H.
Qed.
Lemma rewrite_zone_four s : four s = false -> four (fst (rewrite_zone s)) = false.
Proof.
  intros H. unfold rewrite_zone. destruct (find_tz s) as [[p [[neg h] m]]|] eqn:E.
  - cbn [fst]. destruct (find_tz_split s p _ E) as (q & c & r & -> & Hc & [->| ->]).
    + destruct neg; cbn [app]; eapply four_at; eauto.
    + rewrite <- app_assoc. cbn [app]. eapply four_at; eauto.
  - destruct (rev s) as [|c r] eqn:R; [exact H|]. destruct (N.eqb_spec c 90) as [->|Hn]; [|exact H]. cbn [fst].
    assert (s = rev r ++ [90%N]) as -> by (rewrite <- (rev_involutive s), R; reflexivity).
    eapply four_at; [| |exact H]; reflexivity.
Qed.
Lemma read_four s : four s = false -> read_datetime s = Err ValueError.
Proof.
  intros H. unfold read_datetime. pose proof (split_fraction_four s H) as H1.
  destruct (split_fraction s) as [s1 nano]. cbn [fst] in H1. pose proof (rewrite_zone_four s1 H1) as H2.
  destruct (rewrite_zone s1) as [s2 z]. cbn [fst] in H2. rewrite !strptime_four by exact H2. reflexivity.
Qed.

(** ** The text of a date *)
Lemma month_long_bound y m n : month_long y m n -> (1 <= m <= 12 /\ n <= 31)%N.
Proof. intros [(-> & [(_ & ->)|(_ & ->)])|[(H & ->)|(H & ->)]]; lia. Qed.
Lemma month_long_days y m n : month_long y m n -> days_in_month y m = n.
Proof.
  assert (is_leap y = true <-> leap y) as HL.
  { unfold is_leap, leap. rewrite andb_true_iff, orb_true_iff, negb_true_iff, !N.eqb_eq, N.eqb_neq. tauto. }
  intros [(-> & H)|[(H & ->)|(H & ->)]].
  - unfold days_in_month. destruct (is_leap y); destruct H as [(H & ->)|(H & ->)]; try reflexivity.
    + exfalso. apply H. now apply HL.
    + apply HL in H. discriminate.
  - destruct H as [->|[->|[->| ->]]]; reflexivity.
  - destruct H as [->|[->|[->|[->|[->|[->| ->]]]]]]; reflexivity.
Qed.
(** The part before the fraction has 19 characters whenever the year has four. *)
Definition plain (d : datetime) : Prop :=
  (1 <= dt_year d <= 9999 /\ 1 <= dt_month d <= 12 /\ 1 <= dt_day d <= days_in_month (dt_year d) (dt_month d)
   /\ dt_day d < 100 /\ dt_hour d < 24 /\ dt_minute d < 60 /\ dt_second d < 60 /\ dt_micro d < 1000000)%N.
Lemma creatable_plain d off : creatable d off -> plain d.
Proof.
  intros ((Hy & (n & Hm & Hd) & Hh & Hmi & Hs & Hu) & _). unfold plain. pose proof (month_long_days _ _ _ Hm) as E.
  apply month_long_bound in Hm. rewrite E. lia.
Qed.
Lemma plain_length d : plain d -> length (body_date d) = 19.
Proof.
  intros (H1 & H2 & _ & H3 & H4 & H5 & H6 & _). unfold body_date. repeat (rewrite app_length; cbn [length]).
  change (dec_pad 4) with (dec_pad (S 3)). change (dec_pad 2) with (dec_pad (S 1)).
  rewrite !dec_pad_length; [reflexivity|..]; change (10 ^ N.of_nat 2)%N with 100%N; change (10 ^ N.of_nat 4)%N with 10000%N; lia.
Qed.
Definition rest (wf wz : bool) (d : datetime) (t : list N) : result datetime :=
  let! '(us, s12) :=
    (if wf then
       let! t := expect 46 t in
       let '(f, r) := span_digits t in
       if ((Nat.eqb (length f) 0) || negb (Nat.leb (length f) 6))%bool then Err ValueError
       else Ok (digits_val (f ++ repeat 48%N (6 - length f)), r)
     else Ok (0%N, t)) in
  let! '(tz, s13) :=
    (if wz then
       match s12 with
       | c :: t =>
         if negb ((c =? 43) || (c =? 45))%N then Err ValueError else
         let! '(zh, t1) := take_digits 2 t in let! '(zm, t2) := take_digits 2 t1 in
         if (zm <? 60)%N then
           let m := (Z.of_N zh * 60 + Z.of_N zm)%Z in
           Ok (Some (if (c =? 45)%N then (- m)%Z else m), t2)
         else Err ValueError
       | [] => Err ValueError
       end
     else Ok (None, s12)) in
  match s13 with
  | [] => let r := mkDT (dt_year d) (dt_month d) (dt_day d) (dt_hour d) (dt_minute d) (dt_second d) us 0 tz in
          if datetime_ok r then Ok r else Err ValueError
  | _ => Err ValueError
  end.
Lemma strptime_plain d t wf wz : plain d -> strptime (body_date d ++ t) wf wz = rest wf wz d t.
Proof.
  intros (H1 & H2 & H3 & _ & H4 & H5 & H6 & _).
  assert (days_in_month (dt_year d) (dt_month d) <= 31)%N as B.
  { unfold days_in_month. destruct (_ =? _)%N; [destruct (is_leap _); lia|]. destruct (_ || _)%bool; lia. }
  unfold strptime. rewrite body_fields by lia. reflexivity.
Qed.

(** ** Refused forms of what follows *)
(** A fraction with more than six digits after the first step. *)
Lemma rest_long wf wz d f t : forallb is_digit f = true -> 6 < length f ->
  match t with [] => True | c :: _ => is_digit c = false end -> rest wf wz d (46%N :: f ++ t) = Err ValueError.
Proof.
  intros Hf HL Ht. unfold rest. destruct wf.
  - cbn [expect bind]. change (46 =? 46)%N with true. cbn [bind]. rewrite span_digits_end by assumption.
    replace (Nat.leb (length f) 6) with false by lia. cbn [negb]. rewrite orb_true_r. reflexivity.
  - cbn [bind]. destruct wz; [reflexivity|]. reflexivity.
Qed.
(** Something left over that is no zone. *)
Lemma rest_left wf d c t : c <> 46%N -> rest wf false d (c :: t) = Err ValueError.
Proof.
  intros Hc. unfold rest. destruct wf; cbn [expect bind].
  - replace (c =? 46)%N with false by lia. reflexivity.
  - reflexivity.
Qed.
Lemma rest_left_frac wf d f c t : forallb is_digit f = true -> is_digit c = false -> rest wf false d (46%N :: f ++ c :: t) = Err ValueError.
Proof.
  intros Hf Hc. unfold rest. destruct wf; cbn [expect bind].
  - change (46 =? 46)%N with true. cbn [bind]. rewrite span_digits_app by assumption.
    destruct (Nat.eqb (length f) 0 || negb (Nat.leb (length f) 6))%bool; reflexivity.
  - reflexivity.
Qed.
(** Rewriting the zone leaves what precedes it. *)
Lemma zone0_after P z : find0 (P ++ z) = pre P (find0 z) -> (z = [] -> hd 0%N (rev P) <> 90%N) ->
  zone0 (P ++ z) = (P ++ fst (zone0 z), snd (zone0 z)).
Proof.
  intros HF HZ. unfold zone0. rewrite HF. destruct (find0 z) as [[p [[neg h] m]]|] eqn:E.
  - cbn [pre fst snd]. rewrite <- app_assoc. reflexivity.
  - cbn [pre]. destruct z as [|c t].
    + rewrite app_nil_r in *. specialize (HZ eq_refl). cbn [rev fst snd]. rewrite app_nil_r. destruct (rev P) as [|x r] eqn:R; [reflexivity|].
      cbn [hd] in HZ. replace (x =? 90)%N with false by lia. reflexivity.
    + destruct (@exists_last _ (c :: t)) as (l & x & El); [discriminate|]. rewrite El, app_assoc, !rev_unit.
      destruct (x =? 90)%N; cbn [fst snd].
      * rewrite !rev_involutive, <- app_assoc. reflexivity.
      * rewrite <- app_assoc. reflexivity.
Qed.
Lemma find0_split s p x : find0 s = Some (p, x) -> exists c r, s = p ++ c :: r /\ is_digit c = false.
Proof.
  revert p. induction s as [|c t IH]; intros p H; [discriminate|]. cbn [find0] in H.
  destruct (tz0 (c :: t)) as [y|] eqn:E.
  - injection H as <- <-. exists c, t. split; [reflexivity|]. unfold tz0 in E.
    destruct ((c =? 43) || (c =? 45))%N eqn:G; [|discriminate]. unfold is_digit. lia.
  - destruct (find0 t) as [[q y]|] eqn:F; [|discriminate]. injection H as <- <-.
    destruct (IH q eq_refl) as (d & r & -> & G). exists d, r. split; [reflexivity|exact G].
Qed.
Definition starts_plain (z : list N) : Prop := match z with [] => True | c :: _ => is_digit c = false end.
Lemma zone0_head z : starts_plain z -> starts_plain (fst (zone0 z)).
Proof.
  intros Hz. destruct z as [|c t]; [exact I|]. cbn [starts_plain] in Hz. unfold zone0.
  destruct (find0 (c :: t)) as [[p [[neg h] m]]|] eqn:E.
  - cbn [fst]. destruct p as [|p0 p]; [destruct neg; reflexivity|].
    destruct (find0_split _ _ _ E) as (c0 & r & G & _). injection G as -> _. exact Hz.
  - destruct (@exists_last _ (c :: t)) as (l & x & El); [discriminate|]. rewrite El, rev_unit.
    destruct (x =? 90)%N; cbn [fst].
    + rewrite rev_involutive. destruct l as [|l0 l]; [reflexivity|]. injection El as <- _. exact Hz.
    + rewrite <- El. exact Hz.
Qed.
(** The part before the zone. *)
Definition front (d : datetime) (f : list N) : list N := body_date d ++ f.
Definition fine_front (f : list N) : Prop := f = [] \/ exists g, f = 46%N :: g /\ forallb is_digit g = true /\ g <> [].
Lemma front_zone d f z : fine_front f ->
  zone0 (body_date d ++ f ++ z) = (body_date d ++ f ++ fst (zone0 z), snd (zone0 z)).
Proof.
  intros Hf. rewrite !(app_assoc (body_date d) f). apply zone0_after.
  - rewrite <- app_assoc, find0_body. destruct Hf as [->|(g & -> & Hg & _)].
    + rewrite app_nil_r. reflexivity.
    + cbn [app]. rewrite find0_plain by discriminate. rewrite find0_digits by exact Hg. rewrite !pre_pre, <- app_assoc. reflexivity.
  - intros _. assert (exists P g, body_date d ++ f = P ++ g /\ g <> [] /\ forallb is_digit g = true) as (P & g & E & Hn & Hg).
    { destruct Hf as [->|(g & -> & Hg & Hn)].
      - rewrite app_nil_r. exists (dec_pad 4 (dt_year d) ++ 45%N :: dec_pad 2 (dt_month d) ++ 45%N :: dec_pad 2 (dt_day d) ++ 84%N
           :: dec_pad 2 (dt_hour d) ++ 58%N :: dec_pad 2 (dt_minute d) ++ [58%N]), (dec_pad 2 (dt_second d)).
        split; [unfold body_date; repeat (rewrite <- app_assoc; cbn [app]); reflexivity|]. split; [|apply dec_pad_digits].
        destruct (dec_pad_head 2 (dt_second d)) as (c & t & -> & _). discriminate.
      - exists (body_date d ++ [46%N]), g. split; [rewrite <- app_assoc; reflexivity|]. split; [exact Hn|exact Hg]. }
    rewrite E. destruct (exists_last Hn) as (l & x & ->). rewrite app_assoc, rev_unit. cbn [hd].
    rewrite forallb_app in Hg. cbn [forallb] in Hg. unfold is_digit in Hg. lia.
Qed.
Lemma zone_alone tz : (match tz with None => True | Some m => (-1440 < m < 1440)%Z end) ->
  zone0 (zone_text tz) = (zone_compact tz, is_some tz).
Proof.
  intros H. pose (d0 := mkDT 2000 1 1 0 0 0 0 0 tz).
  assert (valid_datetime d0) as V.
  { unfold valid_datetime. cbn -[N.le N.lt]. split; [lia|]. split; [lia|]. split; [vm_compute; split; discriminate|].
    split; [lia|]. split; [lia|]. split; [lia|]. split; [lia|]. split; [exists 0%N; lia|exact H]. }
  pose proof (zone0_write d0 V) as E. change (frac6 d0) with (@nil N) in E. change (dt_tz d0) with tz in E.
  pose proof (front_zone d0 [] (zone_text tz) (or_introl eq_refl)) as F. rewrite E in F.
  assert (forall a b c e : list N, forall x y : bool, (a ++ [] ++ b, x) = (a ++ [] ++ c, y) -> b = c /\ x = y) as K.
  { intros a b c _ x y Q. cbn [app] in Q. injection Q as Q1 Q2. split; [eapply app_inv_head; exact Q1|exact Q2]. }
  destruct (K _ _ _ [] _ _ F) as [K1 K2]. rewrite K1, K2. apply surjective_pairing.
Qed.

(** ** Fractions *)
Lemma pad6 u : (u < 1000000)%N -> length (dec_pad 6 u) = 6.
Proof. intros H. apply (dec_pad_length 5). change (10 ^ N.of_nat 6)%N with 1000000%N. exact H. Qed.
Definition zone_fine (z : list N) : Prop := match z with [] => True | c :: _ => is_digit c = false /\ c <> 46%N end.
Lemma zone_fine_plain z : zone_fine z -> starts_plain z.
Proof. destruct z; cbn; tauto. Qed.
Lemma split_short d z : plain d -> (dt_nano d < 1000)%N -> zone_fine z ->
  split0 (body_date d ++ frac_text d ++ z) = (body_date d ++ frac6 d ++ z, (100 * (dt_nano d / 100))%N).
Proof.
  intros V Hn Hz. pose proof (plain_length d V) as HL. destruct V as (_ & _ & _ & _ & _ & _ & _ & Hus).
  unfold split0. rewrite (app_firstn_len _ _ _ HL), (app_skipn_len _ _ _ HL). unfold frac_text, frac6.
  destruct (negb (dt_micro d =? 0) || negb (dt_nano d =? 0))%N eqn:E.
  - cbn [app]. rewrite span_digits_end.
    2:{ rewrite forallb_app, dec_pad_digits. destruct (dt_nano d =? 0)%N; [reflexivity|apply dec_digits]. }
    2:{ now apply zone_fine_plain. }
    change (46 =? 46)%N with true. rewrite app_length, pad6 by exact Hus.
    destruct (N.eqb_spec (dt_nano d) 0) as [H0|H0].
    + cbn [length]. change (Nat.ltb 6 (6 + 0)) with false. cbn [Nat.eqb Nat.add negb andb].
      rewrite app_nil_r, H0. reflexivity.
    + rewrite (dec_small (dt_nano d / 100)) by lia. cbn [length].
      change (Nat.ltb 6 (6 + 1)) with true. cbn [Nat.eqb Nat.add negb andb].
      rewrite removelast_last, last_last. f_equal. change (10 ^ N.of_nat (9 - 7))%N with 100%N. lia.
  - cbn [app]. assert (dt_nano d = 0)%N as -> by lia.
    destruct z as [|c t]; [reflexivity|]. cbn [zone_fine] in Hz.
    destruct (span_digits t) as [f r]. replace (c =? 46)%N with false by lia. reflexivity.
Qed.
Lemma dec_long n : (10 <= n)%N -> 2 <= length (dec n).
Proof. intros H. rewrite dec_step by exact H. rewrite app_length. cbn [length]. pose proof (dec_nonempty (n / 10)). destruct (dec (n / 10)); [congruence|cbn [length]; lia]. Qed.
Lemma split_long d z : plain d -> (1000 <= dt_nano d)%N -> zone_fine z ->
  exists f k, split0 (body_date d ++ frac_text d ++ z) = (body_date d ++ (46%N :: f) ++ z, k)
            /\ forallb is_digit f = true /\ 6 < length f.
Proof.
  intros V Hn Hz. pose proof (plain_length d V) as HL. destruct V as (_ & _ & _ & _ & _ & _ & _ & Hus).
  unfold split0. rewrite (app_firstn_len _ _ _ HL), (app_skipn_len _ _ _ HL). unfold frac_text.
  replace (negb (dt_micro d =? 0) || negb (dt_nano d =? 0))%N with true by lia.
  replace (dt_nano d =? 0)%N with false by lia. cbn [app].
  assert (forallb is_digit (dec_pad 6 (dt_micro d) ++ dec (dt_nano d / 100)) = true) as HD
    by (rewrite forallb_app, dec_pad_digits; apply dec_digits).
  rewrite span_digits_end; [|exact HD|now apply zone_fine_plain].
  change (46 =? 46)%N with true.
  pose proof (dec_long (dt_nano d / 100)) as H2.
  assert (8 <= length (dec_pad 6 (dt_micro d) ++ dec (dt_nano d / 100))) as HL2.
  { rewrite app_length, pad6 by exact Hus. assert (10 <= dt_nano d / 100)%N by lia. specialize (H2 H). lia. }
  set (F := dec_pad 6 (dt_micro d) ++ dec (dt_nano d / 100)) in *. clearbody F.
  replace (Nat.eqb (length F) 0) with false by lia. replace (Nat.ltb 6 (length F)) with true by lia. cbn [negb andb].
  exists (removelast F). eexists. split; [reflexivity|].
  destruct (@exists_last _ F) as (l & x & ->); [destruct F; [cbn [length] in HL2; lia|discriminate]|].
  rewrite removelast_last. rewrite forallb_app in HD. rewrite app_length in HL2. cbn [length] in HL2.
  apply andb_prop in HD. split; [tauto|lia].
Qed.

(** ** The zone of any offset *)
Definition zone_any (off : option Z) : list N :=
  match off with
  | None => []
  | Some o => if (o =? 0)%Z then [90]%N else firstn 3 (strf_offset o) ++ [58]%N ++ skipn 3 (strf_offset o)
  end.
Lemma dec_four y : (1000 <= y)%N -> dec y = dec_pad 4 y.
Proof.
  intros H. unfold dec_pad, padl. assert (4 <= length (dec y)) as HL.
  { rewrite (dec_step y) by lia. rewrite (dec_step (y / 10)) by lia. rewrite (dec_step (y / 10 / 10)) by lia.
    rewrite !app_length. cbn [length]. pose proof (dec_nonempty (y / 10 / 10 / 10)).
    destruct (dec (y / 10 / 10 / 10)); [congruence|cbn [length]; lia]. }
  replace (4 - length (dec y)) with 0 by lia. reflexivity.
Qed.
Lemma write_date_text padded d off : padded = true \/ (1000 <= dt_year d)%N ->
  write_date padded d off = body_date d ++ frac_text d ++ zone_any off.
Proof.
  intros H. unfold write_date. assert (strf_year padded (dt_year d) = dec_pad 4 (dt_year d)) as ->.
  { unfold strf_year. destruct padded; [reflexivity|]. destruct H as [H|H]; [discriminate|]. now apply dec_four. }
  rewrite body_app. reflexivity.
Qed.
Lemma strf_offset_form o : strf_offset o =
  (if (o <? 0)%Z then 45%N else 43%N) :: dec_pad 2 (Z.abs_N o / 1000000 / 3600)
  ++ dec_pad 2 (Z.abs_N o / 1000000 / 60 mod 60)
  ++ (if ((Z.abs_N o / 1000000 mod 60 =? 0) && (Z.abs_N o mod 1000000 =? 0))%N then [] else dec_pad 2 (Z.abs_N o / 1000000 mod 60))
  ++ (if (Z.abs_N o mod 1000000 =? 0)%N then [] else [46]%N ++ dec_pad 6 (Z.abs_N o mod 1000000)).
Proof. unfold strf_offset. destruct (o <? 0)%Z; reflexivity. Qed.
Lemma pad2 n : (n < 100)%N -> length (dec_pad 2 n) = 2.
Proof. intros H. apply (dec_pad_length 1). change (10 ^ N.of_nat 2)%N with 100%N. exact H. Qed.
Lemma zone_any_some o : (- whole_day < o < whole_day)%Z -> o <> 0%Z -> zone_any (Some o) =
  (if (o <? 0)%Z then 45%N else 43%N) :: dec_pad 2 (Z.abs_N o / 1000000 / 3600) ++ 58%N
  :: dec_pad 2 (Z.abs_N o / 1000000 / 60 mod 60)
  ++ (if ((Z.abs_N o / 1000000 mod 60 =? 0) && (Z.abs_N o mod 1000000 =? 0))%N then [] else dec_pad 2 (Z.abs_N o / 1000000 mod 60))
  ++ (if (Z.abs_N o mod 1000000 =? 0)%N then [] else [46]%N ++ dec_pad 6 (Z.abs_N o mod 1000000)).
Proof.
  intros H Hz. unfold zone_any. replace (o =? 0)%Z with false by lia. rewrite strf_offset_form.
  unfold whole_day, minute in H. assert (length (dec_pad 2 (Z.abs_N o / 1000000 / 3600)) = 2) as HL by (apply pad2; lia).
  rewrite firstn_cons, skipn_cons, (app_firstn_len _ _ _ HL), (app_skipn_len _ _ _ HL). reflexivity.
Qed.
Lemma zone_any_fine off : (match off with None => True | Some o => - whole_day < o < whole_day end)%Z -> zone_fine (zone_any off).
Proof.
  destruct off as [o|]; [|intros _; exact I]. intros H. destruct (Z.eq_dec o 0) as [->|Hz].
  - cbn. split; [reflexivity|discriminate].
  - rewrite zone_any_some by assumption. destruct (o <? 0)%Z; split; (reflexivity || discriminate).
Qed.
Lemma zone_any_whole m : (- whole_day < m * minute < whole_day)%Z -> zone_any (Some (m * minute)%Z) = zone_text (Some m) /\ (-1440 < m < 1440)%Z.
Proof.
  intros H. assert (-1440 < m < 1440)%Z as Hm by (unfold whole_day, minute in H; lia). split; [|exact Hm].
  destruct (Z.eq_dec m 0) as [->|Hz]; [reflexivity|].
  rewrite zone_any_some, zone_text_some; [|exact Hm|exact Hz|exact H|unfold minute; lia].
  assert (Z.abs_N (m * minute) = Z.abs_N m * 60000000)%N as -> by (unfold minute; lia).
  replace (m * minute <? 0)%Z with (m <? 0)%Z by (unfold minute; lia).
  set (a := Z.abs_N m) in *.
  replace (a * 60000000 / 1000000)%N with (a * 60)%N by (apply N.div_unique with 0%N; lia).
  replace (a * 60000000 mod 1000000)%N with 0%N by (apply N.mod_unique with (a * 60)%N; lia).
  replace (a * 60 mod 60)%N with 0%N by (apply N.mod_unique with a; lia).
  replace (a * 60 / 60)%N with a by (apply N.div_unique with 0%N; lia).
  replace (a * 60 / 3600)%N with (a / 60)%N.
  2:{ apply N.div_unique with (60 * (a mod 60))%N; [pose proof (N.mod_lt a 60 ltac:(discriminate)); lia|].
      pose proof (N.div_mod a 60 ltac:(discriminate)). lia. }
  change ((0 =? 0) && (0 =? 0))%N with true. change (0 =? 0)%N with true. cbn [app]. rewrite app_nil_r. reflexivity.
Qed.
(** An offset with seconds: no zone is found. *)
Lemma zone_any_odd o : (- whole_day < o < whole_day)%Z -> ~ (minute | o)%Z ->
  zone0 (zone_any (Some o)) = (zone_any (Some o), false).
Proof.
  intros H Hodd. assert (o <> 0)%Z as Hz by (intros ->; apply Hodd; apply Z.divide_0_r).
  rewrite zone_any_some by assumption.
  set (a := Z.abs_N o). assert ((a / 1000000 mod 60 =? 0) && (a mod 1000000 =? 0) = false)%N as E.
  { destruct ((a / 1000000 mod 60 =? 0) && (a mod 1000000 =? 0))%N eqn:E; [|reflexivity]. exfalso. apply Hodd.
    apply andb_prop in E. destruct E as [E1 E2]. apply N.eqb_eq in E1, E2.
    assert (a = 60000000 * (a / 60000000))%N as Ea by lia.
    apply Z.divide_abs_r. exists (Z.of_N (a / 60000000)). unfold minute. unfold a in *. lia. }
  rewrite E. set (S2 := dec_pad 2 (a / 1000000 mod 60)). set (M2 := dec_pad 2 (a / 1000000 / 60 mod 60)).
  set (H2 := dec_pad 2 (a / 1000000 / 3600)).
  assert (length S2 = 2) as LS by (apply pad2; lia). assert (length M2 = 2) as LM by (apply pad2; lia).
  assert (length H2 = 2) as LH by (apply pad2; unfold a; unfold whole_day, minute in H; lia).
  assert (forallb is_digit S2 = true) as DS by apply dec_pad_digits.
  assert (forallb is_digit M2 = true) as DM by apply dec_pad_digits.
  assert (forallb is_digit H2 = true) as DH by apply dec_pad_digits.
  set (T := if (a mod 1000000 =? 0)%N then [] else [46]%N ++ dec_pad 6 (a mod 1000000)).
  assert (T = [] \/ T <> [] /\ exists t, T = 46%N :: t /\ forallb is_digit t = true /\ t <> []) as HT.
  { unfold T. destruct (a mod 1000000 =? 0)%N; [left; reflexivity|right]. split; [discriminate|].
    eexists. split; [reflexivity|]. split; [apply dec_pad_digits|]. destruct (dec_pad_head 6 (a mod 1000000)) as (c & t & -> & _). discriminate. }
  assert (find0 T = None) as FT.
  { unfold T. destruct (a mod 1000000 =? 0)%N; [reflexivity|]. cbn [app]. rewrite find0_plain by discriminate.
    rewrite <- (app_nil_r (dec_pad 6 _)). rewrite find0_digits by apply dec_pad_digits. reflexivity. }
  assert (starts_plain T) as PT.
  { unfold T. destruct (a mod 1000000 =? 0)%N; exact I || reflexivity. }
  set (c := if (o <? 0)%Z then 45%N else 43%N).
  assert (find0 (c :: H2 ++ 58%N :: M2 ++ S2 ++ T) = None) as F.
  { rewrite find0_cons.
    - rewrite find0_digits by exact DH. rewrite find0_plain by discriminate. rewrite find0_digits by exact DM.
      rewrite find0_digits by exact DS. rewrite FT. reflexivity.
    - unfold tz0. destruct ((c =? 43) || (c =? 45))%N; [|reflexivity].
      rewrite span_digits_app by (exact DH || reflexivity). rewrite app_assoc.
      rewrite span_digits_end; [|rewrite forallb_app, DM, DS; reflexivity|exact PT].
      rewrite app_length, LM, LS. change (58 =? 58)%N with true. cbn [Nat.add Nat.leb andb].
      destruct T; rewrite ?andb_false_r; reflexivity. }
  unfold zone0. rewrite F.
  assert (exists l x, c :: H2 ++ 58%N :: M2 ++ S2 ++ T = l ++ [x] /\ is_digit x = true) as (l & x & El & Hx).
  { assert (exists P g, c :: H2 ++ 58%N :: M2 ++ S2 ++ T = P ++ g /\ forallb is_digit g = true /\ g <> []) as (P & g & -> & Hg & Hn).
    { destruct HT as [HT|(_ & t & HT & Ht & Hn)]; [|rewrite HT].
      - exists (c :: H2 ++ 58%N :: M2), S2. rewrite HT, app_nil_r. split; [rewrite <- app_comm_cons, <- app_assoc; reflexivity|].
        split; [exact DS|]. destruct S2; [discriminate LS|discriminate].
      - exists (c :: H2 ++ 58%N :: M2 ++ S2 ++ [46%N]), t. split; [|split; assumption].
        rewrite <- app_comm_cons, <- app_assoc. cbn [app]. rewrite <- app_assoc, <- app_assoc. reflexivity. }
    destruct (exists_last Hn) as (l & x & ->). exists (P ++ l), x. split; [apply app_assoc|].
    rewrite forallb_app in Hg. cbn [forallb] in Hg. apply andb_prop in Hg. destruct Hg as [_ Hg]. apply andb_prop in Hg. tauto. }
  rewrite El, rev_unit. unfold is_digit in Hx. replace (x =? 90)%N with false by lia. reflexivity.
Qed.

(** ** Reading what was written *)
Lemma read_text d s2 z nano s1 s : quiet s -> plain d -> split0 s = (s1, nano) -> zone0 s1 = (body_date d ++ s2, z) ->
  read_datetime s =
  let! d := (match rest true z d s2 with Ok d => Ok d | Err ValueError => rest false z d s2 | Err e => Err e end) in
  Ok (mkDT (dt_year d) (dt_month d) (dt_day d) (dt_hour d) (dt_minute d) (dt_second d) (dt_micro d) nano (dt_tz d)).
Proof. intros Q V E1 E2. rewrite read_quiet by exact Q. unfold read0. rewrite E1, E2, !strptime_plain by exact V. reflexivity. Qed.
Lemma frac6_fine d : fine_front (frac6 d).
Proof.
  unfold frac6. destruct (negb (dt_micro d =? 0) || negb (dt_nano d =? 0))%N; [right|left; reflexivity].
  eexists. split; [reflexivity|]. split; [apply dec_pad_digits|]. destruct (dec_pad_head 6 (dt_micro d)) as (c & t & -> & _). discriminate.
Qed.
Lemma zone_compact_plain tz : starts_plain (zone_compact tz).
Proof. destruct tz as [m|]; [|exact I]. cbn [zone_compact]. destruct (m <? 0)%Z; reflexivity. Qed.
Lemma rest_whole d tz : plain d -> (match tz with None => True | Some m => (-1440 < m < 1440)%Z end) ->
  (match rest true (is_some tz) d (frac6 d ++ zone_compact tz) with
   | Ok d => Ok d | Err ValueError => rest false (is_some tz) d (frac6 d ++ zone_compact tz) | Err e => Err e end)
  = Ok (mkDT (dt_year d) (dt_month d) (dt_day d) (dt_hour d) (dt_minute d) (dt_second d) (dt_micro d) 0 tz).
Proof.
  intros V Htz.
  assert (datetime_ok (mkDT (dt_year d) (dt_month d) (dt_day d) (dt_hour d) (dt_minute d) (dt_second d) (dt_micro d) 0 tz) = true) as Hok.
  { destruct V as (H1 & H2 & H3 & H4 & H5 & H6 & H7 & H8). unfold datetime_ok.
    cbn [dt_year dt_month dt_day dt_hour dt_minute dt_second dt_micro dt_tz]. destruct tz as [m|]; lia. }
  destruct V as (_ & _ & _ & _ & _ & _ & _ & Hus). unfold rest, frac6.
  destruct (negb (dt_micro d =? 0) || negb (dt_nano d =? 0))%N eqn:E.
  - cbn [app expect]. rewrite N.eqb_refl. cbn [bind]. rewrite span_digits_end; [|apply dec_pad_digits|apply zone_compact_plain].
    rewrite pad6 by exact Hus.
    cbn [Nat.eqb Nat.leb negb orb Nat.sub repeat]. rewrite app_nil_r, dec_pad_val. cbn [bind].
    rewrite zone_parse by exact Htz. cbn [bind]. cbv zeta. rewrite Hok. reflexivity.
  - cbn [app]. assert (dt_micro d = 0)%N as Hm by lia. rewrite Hm in *.
    assert (expect 46 (zone_compact tz) = Err ValueError) as ->.
    { destruct tz as [m|]; [|reflexivity]. cbn [zone_compact expect]. destruct (m <? 0)%Z; reflexivity. }
    cbn [bind]. rewrite zone_parse by exact Htz. cbn [bind]. cbv zeta. rewrite Hok. reflexivity.
Qed.
Lemma zone_any_quiet off : (match off with None => True | Some o => - whole_day < o < whole_day end)%Z -> quiet (zone_any off).
Proof.
  destruct off as [o|]; [|intros _; apply Forall_nil]. intros H. destruct (Z.eq_dec o 0) as [->|Hz]; [cbn [zone_any]; change (0 =? 0)%Z with true; cbv iota; quietly|].
  rewrite zone_any_some by assumption. destruct (o <? 0)%Z; quietly.
Qed.
Lemma text_quiet d off : (match off with None => True | Some o => - whole_day < o < whole_day end)%Z -> quiet (body_date d ++ frac_text d ++ zone_any off).
Proof. intros H. apply quiet_app. split; [apply body_quiet|]. apply quiet_app. split; [apply frac_quiet|now apply zone_any_quiet]. Qed.
Lemma travelling padded d off : creatable d off -> travels padded d off ->
  exists r, read_datetime (write_date padded d off) = Ok r /\ arriving d off r.
Proof.
  intros C (Hy & Hn & Hw). pose proof (creatable_plain d off C) as V. destruct C as [_ Ho].
  rewrite write_date_text by exact Hy. pose proof (text_quiet d off Ho) as QT. revert QT.
  assert (exists tz, zone_any off = zone_text tz /\ (match tz with None => True | Some m => (-1440 < m < 1440)%Z end)
           /\ match off, tz with None, None => True | Some o, Some m => o = (m * minute)%Z | _, _ => False end) as (tz & -> & Htz & Hsame).
  { destruct off as [o|]; [|exists None; repeat split]. destruct Hw as [m ->]. exists (Some m).
    destruct (zone_any_whole m Ho) as [E Hm]. split; [exact E|]. split; [exact Hm|reflexivity]. }
  intros QT.
  assert (zone_fine (zone_text tz)) as Hz by (apply zone_head; exact Htz).
  eexists. split.
  - rewrite (read_text d (frac6 d ++ zone_compact tz) (is_some tz) _ _ _ QT V (split_short d _ V Hn Hz)).
    2:{ rewrite front_zone by apply frac6_fine. rewrite zone_alone by exact Htz. reflexivity. }
    rewrite rest_whole by assumption. reflexivity.
  - unfold arriving. cbn [dt_year dt_month dt_day dt_hour dt_minute dt_second dt_micro dt_nano dt_tz].
    split; [reflexivity|]. split; [reflexivity|]. split; [reflexivity|]. split; [reflexivity|]. split; [reflexivity|].
    split; [reflexivity|]. split; [reflexivity|]. split; [exists (dt_nano d / 100)%N; lia|exact Hsame].
Qed.
Lemma early_text y t : (y < 1000)%N -> four (dec y ++ 45%N :: t) = false.
Proof.
  intros H. assert (length (dec y) <= 3) as HL by (apply (dec_length 2); change (10 ^ N.of_nat 3)%N with 1000%N; exact H).
  destruct (dec y) as [|a [|b [|c [|e l]]]].
  5: cbn [length] in HL; lia.
  all: unfold four; cbn [app firstn forallb]; change (is_digit 45) with false; cbn [andb]; rewrite ?andb_false_r; reflexivity.
Qed.
Lemma minutes_only_dec off : minutes_only off \/ exists o, off = Some o /\ ~ (minute | o)%Z.
Proof.
  destruct off as [o|]; [|left; exact I]. destruct (Znumtheory.Zdivide_dec minute o) as [H|H]; [left; exact H|right; eauto].
Qed.
Lemma staying padded d off : creatable d off -> ~ travels padded d off ->
  read_datetime (write_date padded d off) = Err ValueError.
Proof.
  intros C T. pose proof (creatable_plain d off C) as V. destruct C as [_ Ho].
  assert ((padded = true \/ (1000 <= dt_year d)%N) \/ (padded = false /\ (dt_year d < 1000)%N)) as [Hy|[-> Hy]].
  { destruct padded; [left; left; reflexivity|]. destruct (N.lt_ge_cases (dt_year d) 1000); [right|left; right]; auto. }
  2:{ apply read_four. unfold write_date, strf_year. now apply early_text. }
  rewrite write_date_text by exact Hy. pose proof (zone_any_fine off Ho) as Hz. pose proof (text_quiet d off Ho) as QT.
  destruct (N.lt_ge_cases (dt_nano d) 1000) as [Hn|Hn].
  - destruct (minutes_only_dec off) as [Hw|(o & -> & Hw)]; [exfalso; apply T; split; [exact Hy|split; [exact Hn|exact Hw]]|].
    rewrite (read_text d (frac6 d ++ zone_any (Some o)) false _ _ _ QT V (split_short d _ V Hn Hz)).
    2:{ rewrite front_zone by apply frac6_fine. rewrite zone_any_odd by assumption. reflexivity. }
    assert (exists c t, zone_any (Some o) = c :: t) as (c & t & E).
    { rewrite zone_any_some; [eauto|exact Ho|]. intros ->. apply Hw. apply Z.divide_0_r. }
    rewrite E in *. cbn [zone_fine] in Hz. destruct Hz as [Hc Hc2].
    assert (forall wf, rest wf false d (frac6 d ++ c :: t) = Err ValueError) as R.
    { intros wf. destruct (frac6_fine d) as [->|(g & -> & Hg & _)].
      - apply rest_left. exact Hc2.
      - apply rest_left_frac; assumption. }
    rewrite !R. reflexivity.
  - destruct (split_long d _ V Hn Hz) as (f & k & E & Hf & HL).
    rewrite (read_text d ((46%N :: f) ++ fst (zone0 (zone_any off))) (snd (zone0 (zone_any off))) _ _ _ QT V E).
    2:{ apply front_zone. right. exists f. split; [reflexivity|]. split; [exact Hf|]. destruct f; [cbn [length] in HL; lia|discriminate]. }
    assert (starts_plain (fst (zone0 (zone_any off)))) as Hp by (apply zone0_head, zone_fine_plain, Hz).
    cbn [app]. rewrite !rest_long; [reflexivity|assumption..].
Qed.
Lemma write_date_before padded d : (1000 <= dt_year d)%N -> (match dt_tz d with None => True | Some m => (-1440 < m < 1440)%Z end) ->
  write_date padded d (option_map (fun m => (m * minute)%Z) (dt_tz d)) = write_datetime d.
Proof.
  intros Hy Htz. rewrite write_date_text by (right; exact Hy). rewrite write_datetime_text. f_equal. f_equal.
  destruct (dt_tz d) as [m|]; [|reflexivity]. apply zone_any_whole. unfold whole_day, minute. lia.
Qed.
