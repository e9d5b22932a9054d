(** Date-time text. *)
From Verif Require Import Base BaseFacts Model_Scalars Spec_Scalars Proofs_Scalars Proofs_Duration.

Lemma firstn_app_len {A} (a b : list A) : firstn (length a) (a ++ b) = a.
Proof. rewrite firstn_app, Nat.sub_diag, firstn_all. simpl. apply app_nil_r. Qed.
Lemma skipn_app_len {A} (a b : list A) : skipn (length a) (a ++ b) = b.
Proof. rewrite skipn_app, Nat.sub_diag, skipn_all. reflexivity. Qed.
Lemma take_pad w n r : (n < 10 ^ N.of_nat (S w))%N -> take_digits (S w) (dec_pad (S w) n ++ r) = Ok (n, r).
Proof.
  intros H. unfold take_digits. pose proof (dec_pad_length w n H) as HL.
  rewrite (app_firstn_len _ _ _ HL), (app_skipn_len _ _ _ HL), HL, Nat.eqb_refl, dec_pad_digits, dec_pad_val. reflexivity.
Qed.
Definition body_date (d : datetime) : list N :=
  dec_pad 4 (dt_year d) ++ 45%N :: dec_pad 2 (dt_month d) ++ 45%N :: dec_pad 2 (dt_day d) ++ 84%N
  :: dec_pad 2 (dt_hour d) ++ 58%N :: dec_pad 2 (dt_minute d) ++ 58%N :: dec_pad 2 (dt_second d).
Lemma body_app d t : body_date d ++ t =
  dec_pad 4 (dt_year d) ++ 45%N :: dec_pad 2 (dt_month d) ++ 45%N :: dec_pad 2 (dt_day d) ++ 84%N
  :: dec_pad 2 (dt_hour d) ++ 58%N :: dec_pad 2 (dt_minute d) ++ 58%N :: dec_pad 2 (dt_second d) ++ t.
Proof. unfold body_date. repeat (rewrite <- app_assoc; cbn [app]). reflexivity. Qed.

Definition zone_text (tz : option Z) : list N :=
  match tz with
  | None => []
  | Some m => if (m =? 0)%Z then [90]%N else firstn 3 (strf_z m) ++ [58]%N ++ skipn 3 (strf_z m)
  end.
Definition frac_text (d : datetime) : list N :=
  if (negb (dt_micro d =? 0) || negb (dt_nano d =? 0))%N then
    46%N :: dec_pad 6 (dt_micro d) ++ (if (dt_nano d =? 0)%N then [] else dec (dt_nano d / 100))
  else [].
Lemma write_datetime_text d : write_datetime d = body_date d ++ frac_text d ++ zone_text (dt_tz d).
Proof. unfold write_datetime. rewrite body_app. cbn [app]. reflexivity. Qed.

Lemma body_length d : valid_datetime d -> length (body_date d) = 19.
Proof.
  intros (H1 & H2 & H3 & H4 & H5 & H6 & _). unfold body_date.
  repeat (rewrite app_length; cbn [length]).
  assert (dt_day d < 100)%N by (revert H3; repeat (match goal with |- context [match ?x with _ => _ end] => destruct x end); lia).
  change (dec_pad 4) with (dec_pad (S 3)). change (dec_pad 2) with (dec_pad (S 1)).
  rewrite !dec_pad_length; [reflexivity|..]; change (10 ^ N.of_nat 2)%N with 100%N; change (10 ^ N.of_nat 4)%N with 10000%N; lia.
Qed.

(** ** On quiet texts *)
(** ASCII without line feeds: there the patterns are simpler. *)
Definition tz0 (s : list N) : option (bool * N * N) :=
  match s with
  | c :: t =>
    if ((c =? 43) || (c =? 45))%N then
      let '(h, r) := span_digits t in
      match r with
      | col :: r2 =>
        let '(m, r3) := span_digits r2 in
        if ((col =? 58)%N && negb (Nat.eqb (length h) 0) && Nat.leb (length h) 2
            && negb (Nat.eqb (length m) 0) && Nat.leb (length m) 2
            && match r3 with [] => true | _ => false end)%bool
        then Some ((c =? 45)%N, digits_val h, digits_val m) else None
      | [] => None
      end
    else None
  | [] => None
  end.
Fixpoint find0 (s : list N) : option (list N * (bool * N * N)) :=
  match tz0 s with
  | Some x => Some ([], x)
  | None => match s with
            | [] => None
            | c :: t => match find0 t with Some (p, x) => Some (c :: p, x) | None => None end
            end
  end.

Definition split0 (value : list N) : list N * N :=
  match skipn 19 value with
  | c :: t =>
    let '(f, zone) := span_digits t in
    if ((c =? 46)%N && negb (Nat.eqb (length f) 0))%bool then
      if Nat.ltb 6 (length f) then
        (firstn 19 value ++ [46]%N ++ removelast f ++ zone,
         (last f 48 - 48) * 10 ^ N.of_nat (9 - length f))%N
      else (firstn 19 value ++ [46]%N ++ f ++ zone, 0%N)
    else (value, 0%N)
  | [] => (value, 0%N)
  end.
Definition zone0 (s : list N) : list N * bool :=
  match find0 s with
  | Some (p, (neg, h, m)) => (p ++ (if neg then [45]%N else [43]%N) ++ dec_pad 2 h ++ dec_pad 2 m, true)
  | None => match rev s with
            | c :: r => if (c =? 90)%N then (rev r ++ [43; 48; 48; 48; 48]%N, true) else (s, false)
            | [] => (s, false)
            end
  end.

Definition quiet (s : list N) : Prop := Forall (fun c => (c < 128)%N /\ c <> 10%N) s.
Lemma any_ascii c : (c < 128)%N -> any_digit c = is_digit c.
Proof. intros H. unfold any_digit. now rewrite to_digit_ascii. Qed.
Lemma span_quiet s : quiet s -> span_any s = span_digits s /\ quiet (fst (span_digits s)) /\ quiet (snd (span_digits s)).
Proof.
  induction 1 as [|c s [H H'] Hs IH]; [split; [reflexivity|split; apply Forall_nil]|]. cbn [span_any span_digits]. rewrite any_ascii by exact H.
  destruct IH as (-> & I1 & I2). destruct (is_digit c); [|split; [reflexivity|split; [apply Forall_nil|apply Forall_cons; auto]]].
  destruct (span_digits s) as [a b]. cbn [fst snd] in *. split; [reflexivity|]. split; [apply Forall_cons; auto|exact I2].
Qed.
Lemma quiet_ascii s : quiet s -> ascii_text s.
Proof. apply Forall_impl. tauto. Qed.
Lemma tz_quiet s : quiet s -> tz_at s = match tz0 s with Some x => Some ([], x) | None => None end.
Proof.
  intros Q. destruct Q as [|c t [C1 C2] Q]; [reflexivity|]. unfold tz_at, tz0. destruct ((c =? 43) || (c =? 45))%N; [|reflexivity].
  destruct (span_quiet t Q) as (-> & Q1 & Q2). destruct (span_digits t) as [h r]. cbn [fst snd] in *. destruct Q2 as [|col r2 _ Q2]; [reflexivity|].
  destruct (span_quiet r2 Q2) as (-> & Q3 & Q4). destruct (span_digits r2) as [m r3]. cbn [fst snd] in *.
  destruct ((col =? 58)%N && _ && _ && _ && _)%bool; [|reflexivity]. rewrite !map_ascii by (now apply quiet_ascii).
  destruct Q4 as [|x r4 [_ X] _]; [reflexivity|]. replace (x =? 10)%N with false by lia. reflexivity.
Qed.
Lemma find_quiet s : quiet s -> find_tz s = find0 s.
Proof.
  induction s as [|c s IH]; intros Q; [reflexivity|]. cbn [find_tz find0]. rewrite tz_quiet by exact Q.
  destruct (tz0 (c :: s)) as [x|]; [reflexivity|]. inversion Q as [|? ? _ Q']. now rewrite IH.
Qed.
Lemma zone_quiet s : quiet s -> rewrite_zone s = zone0 s.
Proof. intros Q. unfold rewrite_zone, zone0. rewrite find_quiet by exact Q. destruct (find0 s) as [[p [[neg h] m]]|]; reflexivity. Qed.
Lemma line_quiet s : quiet s -> first_line s = s.
Proof. induction 1 as [|c s [_ C] _ IH]; [reflexivity|]. cbn [first_line]. replace (c =? 10)%N with false by lia. now rewrite IH. Qed.
Lemma quiet_app a b : quiet (a ++ b) <-> quiet a /\ quiet b.
Proof. apply Forall_app. Qed.
Lemma quiet_last f : quiet f -> to_digit (last f 48%N) = last f 48%N.
Proof.
  intros Q. apply to_digit_ascii. destruct f as [|c f]; [reflexivity|]. destruct (@exists_last _ (c :: f)) as (l & x & E); [discriminate|].
  rewrite E in *. apply quiet_app in Q as [_ Q]. rewrite last_last. now inversion Q as [|? ? [X _]].
Qed.
Lemma split_quiet s : quiet s -> split_fraction s = split0 s /\ quiet (fst (split0 s)).
Proof.
  intros Q. assert (quiet (firstn 19 s) /\ quiet (skipn 19 s)) as [Q1 Q2] by (apply quiet_app; now rewrite firstn_skipn).
  unfold split_fraction, split0. destruct Q2 as [|c t [C1 C2] Q2]; [split; [reflexivity|exact Q]|].
  destruct (span_quiet t Q2) as (-> & Q3 & Q4). destruct (span_digits t) as [f r]. cbn [fst snd] in *.
  rewrite line_quiet by exact Q4. rewrite quiet_last by exact Q3. split; [reflexivity|].
  destruct ((c =? 46)%N && _)%bool; [|exact Q].
  assert (quiet [46%N]) as Q5 by (apply Forall_cons; [split; [reflexivity|discriminate]|apply Forall_nil]).
  destruct (Nat.ltb 6 (length f)); cbn [fst]; (apply quiet_app; split; [exact Q1|]; apply quiet_app; split; [exact Q5|]; apply quiet_app; split; [|exact Q4]).
  - destruct f as [|x f]; [exact Q3|]. destruct (@exists_last _ (x :: f)) as (l & y & E); [discriminate|]. rewrite E in *. rewrite removelast_last. now apply quiet_app in Q3.
  - exact Q3.
Qed.
(** On such texts the reader is the simpler one. *)
Definition read0 (s : list N) : result datetime :=
  let '(str1, nano) := split0 s in
  let '(str2, zoned) := zone0 str1 in
  let! d := (match strptime str2 true zoned with Ok d => Ok d | Err ValueError => strptime str2 false zoned | Err e => Err e end) in
  Ok (mkDT (dt_year d) (dt_month d) (dt_day d) (dt_hour d) (dt_minute d) (dt_second d) (dt_micro d) nano (dt_tz d)).
Lemma read_quiet s : quiet s -> read_datetime s = read0 s.
Proof.
  intros Q. unfold read_datetime, read0. destruct (split_quiet s Q) as [-> Q1]. destruct (split0 s) as [s1 nano]. cbn [fst] in Q1.
  now rewrite zone_quiet.
Qed.
(** Fields of two digits. *)
Lemma field_two ps one a b v r : field ps one [a; b] = Ok (v, []) -> field ps one (a :: b :: r) = Ok (v, r).
Proof.
  unfold field. destruct (existsb _ ps); [intros E; injection E as <-; reflexivity|]. destruct (one a); discriminate.
Qed.
Lemma field_pad ps one lo hi : (hi < 100)%N ->
  forallb (fun k => let n := N.of_nat k in if ((lo <=? n) && (n <=? hi))%N then
     match field ps one (dec_pad 2 n) with Ok (v, []) => (v =? n)%N | _ => false end else true) (seq 0 100) = true ->
  forall n r, (lo <= n <= hi)%N -> field ps one (dec_pad 2 n ++ r) = Ok (n, r).
Proof.
  intros H C n r B. rewrite forallb_forall in C. specialize (C (N.to_nat n)). rewrite in_seq in C. specialize (C ltac:(lia)). cbv zeta in C.
  rewrite N2Nat.id in C. replace ((lo <=? n) && (n <=? hi))%N with true in C by lia.
  assert (length (dec_pad 2 n) = 2) as L by (apply (dec_pad_length 1); change (10 ^ N.of_nat 2)%N with 100%N; lia).
  destruct (dec_pad 2 n) as [|a [|b [|? ?]]]; try discriminate L. cbn [app]. apply field_two.
  destruct (field ps one [a; b]) as [[v [|? ?]]|]; try discriminate C. apply N.eqb_eq in C. now subst.
Qed.
Lemma year_pad n r : (n < 10000)%N -> year_field (dec_pad 4 n ++ r) = Ok (n, r).
Proof.
  intros H. unfold year_field. pose proof (dec_pad_length 3 n) as HL. change (10 ^ N.of_nat 4)%N with 10000%N in HL. specialize (HL H).
  rewrite (app_firstn_len _ _ _ HL), (app_skipn_len _ _ _ HL), HL, Nat.eqb_refl.
  pose proof (ascii_digits _ (dec_pad_digits 4 n)) as A. rewrite map_ascii by exact A.
  replace (forallb any_digit (dec_pad 4 n)) with true; [now rewrite dec_pad_val|].
  symmetry. rewrite forallb_forall. intros c I. rewrite any_ascii; [|exact (proj1 (Forall_forall _ _) A c I)].
  exact (proj1 (forallb_forall _ _) (dec_pad_digits 4 n) c I).
Qed.
Lemma month_pad n r : (1 <= n <= 12)%N -> month_field (dec_pad 2 n ++ r) = Ok (n, r).
Proof. apply (field_pad _ _ 1 12 eq_refl). vm_compute. reflexivity. Qed.
Lemma day_pad n r : (1 <= n <= 31)%N -> day_field (dec_pad 2 n ++ r) = Ok (n, r).
Proof. apply (field_pad _ _ 1 31 eq_refl). vm_compute. reflexivity. Qed.
Lemma hour_pad n r : (0 <= n <= 23)%N -> hour_field (dec_pad 2 n ++ r) = Ok (n, r).
Proof. apply (field_pad _ _ 0 23 eq_refl). vm_compute. reflexivity. Qed.
Lemma minute_pad n r : (0 <= n <= 59)%N -> minute_field (dec_pad 2 n ++ r) = Ok (n, r).
Proof. apply (field_pad _ _ 0 59 eq_refl). vm_compute. reflexivity. Qed.
Lemma second_pad n r : (0 <= n <= 59)%N -> second_field (dec_pad 2 n ++ r) = Ok (n, r).
Proof. apply (field_pad _ _ 0 59 eq_refl). vm_compute. reflexivity. Qed.
Lemma body_fields d t (k : N -> N -> N -> N -> N -> N -> list N -> result datetime) :
  (dt_year d < 10000 /\ 1 <= dt_month d <= 12 /\ 1 <= dt_day d <= 31 /\ dt_hour d < 24 /\ dt_minute d < 60 /\ dt_second d < 60)%N ->
  (let! '(y, s1) := year_field (body_date d ++ t) in let! s2 := expect 45 s1 in
   let! '(mo, s3) := month_field s2 in let! s4 := expect 45 s3 in
   let! '(dd, s5) := day_field s4 in let! s6 := expect_T s5 in
   let! '(h, s7) := hour_field s6 in let! s8 := expect 58 s7 in
   let! '(mi, s9) := minute_field s8 in let! s10 := expect 58 s9 in
   let! '(se, s11) := second_field s10 in k y mo dd h mi se s11)
  = k (dt_year d) (dt_month d) (dt_day d) (dt_hour d) (dt_minute d) (dt_second d) t.
Proof.
  intros (H1 & H2 & H3 & H4 & H5 & H6). rewrite body_app.
  rewrite year_pad by exact H1. cbn [bind expect]. rewrite N.eqb_refl. cbn [bind].
  rewrite month_pad by exact H2. cbn [bind expect]. rewrite N.eqb_refl. cbn [bind].
  rewrite day_pad by exact H3. cbn [bind expect_T]. change ((84 =? 84) || (84 =? 116))%N with true. cbn [bind].
  rewrite hour_pad by lia. cbn [bind expect]. rewrite N.eqb_refl. cbn [bind].
  rewrite minute_pad by lia. cbn [bind expect]. rewrite N.eqb_refl. cbn [bind].
  rewrite second_pad by lia. cbn [bind]. reflexivity.
Qed.

(** ** Looking for the zone *)
Definition pre {A B} (p : list A) (r : option (list A * B)) : option (list A * B) :=
  match r with Some (q, x) => Some (p ++ q, x) | None => None end.
Lemma find0_cons c t : tz0 (c :: t) = None -> find0 (c :: t) = pre [c] (find0 t).
Proof. intros H. cbn [find0]. rewrite H. destruct (find0 t) as [[p x]|]; reflexivity. Qed.
Lemma pre_pre {A B} p q (r : option (list A * B)) : pre p (pre q r) = pre (p ++ q) r.
Proof. destruct r as [[a x]|]; cbn [pre]; [now rewrite app_assoc|reflexivity]. Qed.
Lemma find0_digits s t : forallb is_digit s = true -> find0 (s ++ t) = pre s (find0 t).
Proof.
  induction s as [|c s IH]; intros H; [cbn [app]; destruct (find0 t) as [[p x]|]; reflexivity|].
  cbn [forallb] in H. apply andb_prop in H. destruct H as [Hc Hs]. cbn [app].
  rewrite find0_cons, IH, pre_pre; [reflexivity|assumption|].
  unfold tz0, is_digit in *. replace ((c =? 43) || (c =? 45))%N with false by lia. reflexivity.
Qed.
Lemma find0_plain c t : c <> 43%N -> c <> 45%N -> find0 (c :: t) = pre [c] (find0 t).
Proof. intros H1 H2. apply find0_cons. unfold tz0. replace ((c =? 43) || (c =? 45))%N with false by lia. reflexivity. Qed.
Lemma find0_dash d c t : forallb is_digit d = true -> is_digit c = false -> c <> 58%N ->
  find0 (45%N :: d ++ c :: t) = pre [45%N] (find0 (d ++ c :: t)).
Proof.
  intros Hd Hc Hn. apply find0_cons. unfold tz0. change ((45 =? 43) || (45 =? 45))%N with true. cbv iota.
  rewrite span_digits_app by assumption. destruct (span_digits t) as [m r3].
  replace (c =? 58)%N with false by lia. reflexivity.
Qed.
Lemma find0_body d t : find0 (body_date d ++ t) = pre (body_date d) (find0 t).
Proof.
  rewrite body_app. rewrite find0_digits by apply dec_pad_digits.
  rewrite find0_dash by (apply dec_pad_digits || reflexivity || discriminate).
  rewrite find0_digits by apply dec_pad_digits.
  rewrite find0_dash by (apply dec_pad_digits || reflexivity || discriminate).
  rewrite find0_digits by apply dec_pad_digits. rewrite find0_plain by discriminate.
  rewrite find0_digits by apply dec_pad_digits. rewrite find0_plain by discriminate.
  rewrite find0_digits by apply dec_pad_digits. rewrite find0_plain by discriminate.
  rewrite find0_digits by apply dec_pad_digits. rewrite !pre_pre. f_equal.
  unfold body_date. repeat (rewrite <- app_assoc; cbn [app]). reflexivity.
Qed.
(** The fraction with six digits. *)
Definition frac6 (d : datetime) : list N :=
  if (negb (dt_micro d =? 0) || negb (dt_nano d =? 0))%N then 46%N :: dec_pad 6 (dt_micro d) else [].
Lemma find0_frac d t : find0 (frac6 d ++ t) = pre (frac6 d) (find0 t).
Proof.
  unfold frac6. destruct (negb (dt_micro d =? 0) || negb (dt_nano d =? 0))%N.
  - cbn [app]. rewrite find0_plain by discriminate. rewrite find0_digits by apply dec_pad_digits. rewrite pre_pre. reflexivity.
  - cbn [app]. destruct (find0 t) as [[p x]|]; reflexivity.
Qed.

(** ** The fraction *)
Lemma span_digits_end d t : forallb is_digit d = true -> (match t with [] => True | c :: _ => is_digit c = false end) ->
  span_digits (d ++ t) = (d, t).
Proof.
  intros Hd Ht. destruct t as [|c t]; [|now apply span_digits_app]. rewrite app_nil_r.
  induction d as [|x d IH]; [reflexivity|]. cbn [forallb] in Hd. apply andb_prop in Hd. destruct Hd as [H1 H2].
  cbn [span_digits]. now rewrite H1, IH.
Qed.
Lemma strf_z_form m : (-1440 < m < 1440)%Z -> strf_z m =
  (if (m <? 0)%Z then 45%N else 43%N) :: dec_pad 2 (Z.abs_N m / 60) ++ dec_pad 2 (Z.abs_N m mod 60).
Proof. intros H. unfold strf_z. destruct (m <? 0)%Z; reflexivity. Qed.
Lemma zone_text_some m : (-1440 < m < 1440)%Z -> m <> 0%Z -> zone_text (Some m) =
  (if (m <? 0)%Z then 45%N else 43%N) :: dec_pad 2 (Z.abs_N m / 60) ++ 58%N :: dec_pad 2 (Z.abs_N m mod 60).
Proof.
  intros H Hz. unfold zone_text. replace (m =? 0)%Z with false by lia. rewrite strf_z_form by lia.
  assert (length (dec_pad 2 (Z.abs_N m / 60)) = 2) as HL
    by (apply (dec_pad_length 1); change (10 ^ N.of_nat 2)%N with 100%N; lia).
  rewrite firstn_cons, skipn_cons.
  rewrite (app_firstn_len _ _ _ HL), (app_skipn_len _ _ _ HL). reflexivity.
Qed.
Lemma zone_head tz : (match tz with None => True | Some m => (-1440 < m < 1440)%Z end) ->
  match zone_text tz with [] => True | c :: _ => is_digit c = false /\ c <> 46%N end.
Proof.
  destruct tz as [m|]; [|now intros]. intros H. destruct (Z.eq_dec m 0) as [->|Hm].
  - cbn. split; [reflexivity|discriminate].
  - rewrite zone_text_some by assumption. destruct (m <? 0)%Z; split; (reflexivity || discriminate).
Qed.

Lemma split0_write d : valid_datetime d ->
  split0 (write_datetime d) = (body_date d ++ frac6 d ++ zone_text (dt_tz d), dt_nano d).
Proof.
  intros V. pose proof (body_length d V) as HL. destruct V as (_ & _ & _ & _ & _ & _ & Hus & (k & Hk & Hnano) & Htz).
  rewrite write_datetime_text. unfold split0.
  rewrite (app_firstn_len _ _ _ HL), (app_skipn_len _ _ _ HL).
  pose proof (zone_head _ Htz) as Hz. unfold frac_text, frac6.
  destruct (negb (dt_micro d =? 0) || negb (dt_nano d =? 0))%N eqn:E.
  - cbn [app]. rewrite <- app_assoc.
    assert (length (dec_pad 6 (dt_micro d)) = 6) as H6
      by (apply (dec_pad_length 5); change (10 ^ N.of_nat 6)%N with 1000000%N; lia).
    rewrite app_assoc. rewrite span_digits_end.
    2:{ rewrite forallb_app, dec_pad_digits. destruct (dt_nano d =? 0)%N; [reflexivity|apply dec_digits]. }
    2:{ destruct (zone_text (dt_tz d)); tauto. }
    change (46 =? 46)%N with true. rewrite app_length, H6.
    destruct (N.eqb_spec (dt_nano d) 0) as [Hn|Hn].
    + cbn [length]. change (Nat.ltb 6 (6 + 0)) with false. cbn [Nat.eqb Nat.add negb andb].
      rewrite app_nil_r, Hn. reflexivity.
    + assert (dt_nano d / 100 = k)%N as -> by lia. rewrite (dec_small k) by lia. cbn [length].
      change (Nat.ltb 6 (6 + 1)) with true. cbn [Nat.eqb Nat.add negb andb].
      rewrite removelast_last, last_last. rewrite Hnano. f_equal. change (10 ^ N.of_nat (9 - 7))%N with 100%N. lia.
  - cbn [app]. assert (dt_nano d = 0)%N as -> by lia.
    destruct (zone_text (dt_tz d)) as [|c t]; [reflexivity|].
    destruct (span_digits t) as [f z]. replace (c =? 46)%N with false by lia. reflexivity.
Qed.

(** ** The zone *)
Definition zone_compact (tz : option Z) : list N :=
  match tz with
  | None => []
  | Some m => (if (m <? 0)%Z then 45%N else 43%N) :: dec_pad 2 (Z.abs_N m / 60) ++ dec_pad 2 (Z.abs_N m mod 60)
  end.
Definition is_some {A} (o : option A) : bool := match o with Some _ => true | None => false end.

Lemma zone0_write d : valid_datetime d ->
  zone0 (body_date d ++ frac6 d ++ zone_text (dt_tz d))
  = (body_date d ++ frac6 d ++ zone_compact (dt_tz d), is_some (dt_tz d)).
Proof.
  intros V. destruct V as (_ & _ & _ & _ & _ & _ & Hus & _ & Htz).
  unfold zone0. rewrite find0_body, find0_frac, pre_pre. set (B := body_date d ++ frac6 d).
  rewrite (app_assoc (body_date d) (frac6 d) (zone_text _)). rewrite (app_assoc (body_date d) (frac6 d) (zone_compact _)).
  fold B. destruct (dt_tz d) as [m|].
  - destruct (Z.eq_dec m 0) as [->|Hm].
    + cbn [zone_text]. change (0 =? 0)%Z with true. cbv iota. replace (find0 [90%N]) with (@None (list N * (bool * N * N))) by reflexivity.
      cbn [pre]. rewrite rev_unit. change (90 =? 90)%N with true. cbv iota. now rewrite rev_involutive.
    + rewrite zone_text_some by assumption.
      assert (find0 ((if (m <? 0)%Z then 45%N else 43%N) :: dec_pad 2 (Z.abs_N m / 60) ++ 58%N :: dec_pad 2 (Z.abs_N m mod 60))
              = Some ([], ((m <? 0)%Z, (Z.abs_N m / 60)%N, (Z.abs_N m mod 60)%N))) as ->.
      { set (c := if (m <? 0)%Z then 45%N else 43%N).
        assert (tz0 (c :: dec_pad 2 (Z.abs_N m / 60) ++ 58%N :: dec_pad 2 (Z.abs_N m mod 60))
                = Some ((m <? 0)%Z, (Z.abs_N m / 60)%N, (Z.abs_N m mod 60)%N)) as H.
        { unfold tz0. replace ((c =? 43) || (c =? 45))%N with true by (unfold c; destruct (m <? 0)%Z; reflexivity).
          rewrite span_digits_app by (apply dec_pad_digits || reflexivity).
          rewrite <- (app_nil_r (dec_pad 2 (Z.abs_N m mod 60))). rewrite span_digits_end by (apply dec_pad_digits || exact I).
          change (dec_pad 2) with (dec_pad (S 1)).
          rewrite !dec_pad_length by (change (10 ^ N.of_nat 2)%N with 100%N; lia).
          change (58 =? 58)%N with true. cbn [Nat.eqb Nat.leb negb andb]. rewrite !dec_pad_val.
          f_equal. f_equal. f_equal. unfold c. destruct (m <? 0)%Z; reflexivity. }
        cbn [find0]. now rewrite H. }
      cbn [pre]. rewrite app_nil_r. cbn [zone_compact is_some]. f_equal. f_equal.
      destruct (m <? 0)%Z; reflexivity.
  - cbn [zone_text find0 tz0 pre]. cbn [zone_compact]. rewrite app_nil_r.
    assert (exists a n w, B = a ++ dec_pad (S w) n /\ w < 6 /\ forallb is_digit (dec_pad (S w) n) = true /\ dec_pad (S w) n <> []) as
      (a & n & w & E & _ & Hd & Hne).
    { unfold B, frac6. destruct (negb (dt_micro d =? 0) || negb (dt_nano d =? 0))%N.
      - exists (body_date d ++ [46%N]), (dt_micro d), 5. rewrite <- app_assoc. cbn [app].
        split; [reflexivity|]. split; [lia|]. split; [apply dec_pad_digits|].
        unfold dec_pad, padl. intros H. apply app_eq_nil in H. destruct H as [_ H]. now apply dec_nonempty in H.
      - unfold body_date. rewrite app_nil_r.
        eexists (dec_pad 4 (dt_year d) ++ 45%N :: dec_pad 2 (dt_month d) ++ 45%N :: dec_pad 2 (dt_day d) ++ 84%N
           :: dec_pad 2 (dt_hour d) ++ 58%N :: dec_pad 2 (dt_minute d) ++ [58%N]), (dt_second d), 1.
        split; [repeat (rewrite <- app_assoc; cbn [app]); reflexivity|]. split; [lia|]. split; [apply dec_pad_digits|].
        unfold dec_pad, padl. intros H. apply app_eq_nil in H. destruct H as [_ H]. now apply dec_nonempty in H. }
    rewrite E. set (L := dec_pad (S w) n) in *. destruct (exists_last Hne) as (l & c & El). rewrite El, app_assoc, rev_unit.
    rewrite El, forallb_app in Hd. cbn [forallb] in Hd. unfold is_digit in Hd.
    replace (c =? 90)%N with false by lia. reflexivity.
Qed.

(** ** strptime *)
Lemma dec_pad_head w n : exists c t, dec_pad w n = c :: t /\ is_digit c = true.
Proof.
  pose proof (dec_pad_digits w n) as H. destruct (dec_pad w n) as [|c t] eqn:E.
  - unfold dec_pad, padl in E. apply app_eq_nil in E. destruct E as [_ E]. now apply dec_nonempty in E.
  - exists c, t. split; [reflexivity|]. cbn [forallb] in H. apply andb_prop in H. tauto.
Qed.
Lemma day_bound d : valid_datetime d -> (1 <= dt_day d <= 31)%N.
Proof. intros (_ & _ & H & _). revert H. repeat (match goal with |- context [match ?x with _ => _ end] => destruct x end); lia. Qed.
Lemma valid_ok d : valid_datetime d -> datetime_ok (mkDT (dt_year d) (dt_month d) (dt_day d) (dt_hour d) (dt_minute d) (dt_second d) (dt_micro d) 0 (dt_tz d)) = true.
Proof.
  intros (H1 & H2 & H3 & H4 & H5 & H6 & H7 & H8 & H9). unfold datetime_ok.
  cbn [dt_year dt_month dt_day dt_hour dt_minute dt_second dt_micro dt_tz].
  assert (dt_day d <= days_in_month (dt_year d) (dt_month d))%N as Hd.
  { unfold days_in_month, is_leap. clear -H2 H3. revert H2 H3. generalize (dt_month d). intros m H2 H3.
    assert (m = 1 \/ m = 2 \/ m = 3 \/ m = 4 \/ m = 5 \/ m = 6 \/ m = 7 \/ m = 8 \/ m = 9 \/ m = 10 \/ m = 11 \/ m = 12)%N as HM by lia.
    decompose [or] HM; subst m; exact (proj2 H3). }
  destruct (dt_tz d) as [m|]; lia.
Qed.

Lemma strptime_body d t wf wz : valid_datetime d ->
  strptime (body_date d ++ t) wf wz =
  let! '(us, s12) :=
    (if wf then
       let! t := expect 46 t in
       let '(f, r) := span_digits t in
       if ((Nat.eqb (length f) 0) || negb (Nat.leb (length f) 6))%bool then Err ValueError
       else Ok (digits_val (f ++ repeat 48%N (6 - length f)), r)
     else Ok (0%N, t)) in
  let! '(tz, s13) :=
    (if wz then
       match s12 with
       | c :: t =>
         if negb ((c =? 43) || (c =? 45))%N then Err ValueError else
         let! '(zh, t1) := take_digits 2 t in let! '(zm, t2) := take_digits 2 t1 in
         if (zm <? 60)%N then
           let m := (Z.of_N zh * 60 + Z.of_N zm)%Z in
           Ok (Some (if (c =? 45)%N then (- m)%Z else m), t2)
         else Err ValueError
       | [] => Err ValueError
       end
     else Ok (None, s12)) in
  match s13 with
  | [] => let r := mkDT (dt_year d) (dt_month d) (dt_day d) (dt_hour d) (dt_minute d) (dt_second d) us 0 tz in
          if datetime_ok r then Ok r else Err ValueError
  | _ => Err ValueError
  end.
Proof.
  intros V. pose proof (day_bound d V) as Hd. destruct V as (H1 & H2 & _ & H4 & H5 & H6 & _).
  unfold strptime. rewrite body_fields by lia. reflexivity.
Qed.

Lemma zone_parse tz : (match tz with None => True | Some m => (-1440 < m < 1440)%Z end) ->
  (if is_some tz then
       match zone_compact tz with
       | c :: t =>
         if negb ((c =? 43) || (c =? 45))%N then Err ValueError else
         let! '(zh, t1) := take_digits 2 t in let! '(zm, t2) := take_digits 2 t1 in
         if (zm <? 60)%N then
           let m := (Z.of_N zh * 60 + Z.of_N zm)%Z in
           Ok (Some (if (c =? 45)%N then (- m)%Z else m), t2)
         else Err ValueError
       | [] => Err ValueError
       end
     else Ok (None, zone_compact tz)) = Ok (tz, []).
Proof.
  intros H. destruct tz as [m|]; [|reflexivity]. cbn [is_some zone_compact].
  set (c := if (m <? 0)%Z then 45%N else 43%N).
  replace (negb ((c =? 43) || (c =? 45))%N) with false by (unfold c; destruct (m <? 0)%Z; reflexivity).
  change (dec_pad 2) with (dec_pad (S 1)).
  rewrite (take_pad 1) by (change (10 ^ N.of_nat 2)%N with 100%N; lia). cbn [bind].
  rewrite <- (app_nil_r (dec_pad (S 1) (Z.abs_N m mod 60))).
  rewrite (take_pad 1) by (change (10 ^ N.of_nat 2)%N with 100%N; lia). cbn [bind].
  replace (Z.abs_N m mod 60 <? 60)%N with true by lia. f_equal. f_equal. f_equal.
  unfold c. destruct (m <? 0)%Z eqn:E; [change (45 =? 45)%N with true|change (43 =? 45)%N with false]; cbv iota; lia.
Qed.

Lemma quiet_digits d : forallb is_digit d = true -> quiet d.
Proof. intros H. rewrite forallb_forall in H. apply Forall_forall. intros c Hc. apply H in Hc. unfold is_digit in Hc. lia. Qed.
Lemma quiet_cons c s : (c < 128)%N -> c <> 10%N -> quiet s -> quiet (c :: s).
Proof. intros. apply Forall_cons; auto. Qed.
Ltac quietly :=
  repeat match goal with
  | |- quiet (_ ++ _) => apply quiet_app; split
  | |- quiet (_ :: _) => apply quiet_cons; [reflexivity|discriminate|]
  | |- quiet [] => apply Forall_nil
  | |- quiet (dec _) => apply quiet_digits, dec_digits
  | |- quiet (dec_pad _ _) => apply quiet_digits, dec_pad_digits
  | |- quiet (if ?b then _ else _) => destruct b
  end.
Lemma body_quiet d : quiet (body_date d).
Proof. unfold body_date. quietly. Qed.
Lemma frac_quiet d : quiet (frac_text d).
Proof. unfold frac_text. quietly. Qed.
Lemma write_quiet d : valid_datetime d -> quiet (write_datetime d).
Proof.
  intros (_ & _ & _ & _ & _ & _ & _ & _ & Htz). rewrite write_datetime_text. apply quiet_app. split; [apply body_quiet|]. apply quiet_app. split; [apply frac_quiet|].
  destruct (dt_tz d) as [m|]; [|apply Forall_nil]. destruct (Z.eq_dec m 0) as [->|Hm]; [cbn [zone_text]; change (0 =? 0)%Z with true; cbv iota; quietly|].
  rewrite zone_text_some by assumption. destruct (m <? 0)%Z; quietly.
Qed.

Lemma datetime_roundtrip d : valid_datetime d -> read_datetime (write_datetime d) = Ok d.
Proof.
  intros V. rewrite read_quiet by now apply write_quiet. unfold read0. rewrite split0_write by exact V. rewrite zone0_write by exact V.
  assert (match strptime (body_date d ++ frac6 d ++ zone_compact (dt_tz d)) true (is_some (dt_tz d)) with
          | Ok d => Ok d
          | Err ValueError => strptime (body_date d ++ frac6 d ++ zone_compact (dt_tz d)) false (is_some (dt_tz d))
          | Err e => Err e
          end = Ok (mkDT (dt_year d) (dt_month d) (dt_day d) (dt_hour d) (dt_minute d) (dt_second d) (dt_micro d) 0 (dt_tz d))) as ->.
  2:{ cbn [bind dt_year dt_month dt_day dt_hour dt_minute dt_second dt_micro dt_tz]. destruct d; reflexivity. }
  pose proof (valid_ok d V) as Hok.
  rewrite !strptime_body by exact V.
  destruct V as (_ & _ & _ & _ & _ & _ & Hus & (k & Hk & Hnano) & Htz).
  unfold frac6. destruct (negb (dt_micro d =? 0) || negb (dt_nano d =? 0))%N eqn:E.
  - cbn [app expect]. rewrite N.eqb_refl. cbn [bind].
    rewrite span_digits_end.
    2: apply dec_pad_digits.
    2:{ destruct (dt_tz d) as [m|]; cbn [zone_compact]; [|exact I]. destruct (m <? 0)%Z; reflexivity. }
    rewrite (dec_pad_length 5) by (change (10 ^ N.of_nat 6)%N with 1000000%N; lia).
    cbn [Nat.eqb Nat.leb negb orb Nat.sub repeat]. rewrite app_nil_r, dec_pad_val. cbn [bind].
    rewrite zone_parse by exact Htz. cbn [bind]. cbv zeta. rewrite Hok. reflexivity.
  - cbn [app]. assert (dt_micro d = 0)%N as Hm by lia. rewrite Hm in *.
    assert (expect 46 (zone_compact (dt_tz d)) = Err ValueError) as ->.
    { destruct (dt_tz d) as [m|]; [|reflexivity]. cbn [zone_compact expect]. destruct (m <? 0)%Z; reflexivity. }
    cbn [bind]. rewrite zone_parse by exact Htz. cbn [bind]. cbv zeta. rewrite Hok. reflexivity.
Qed.
