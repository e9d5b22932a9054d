(** Duration text. *)
From Verif Require Import Base BaseFacts Model_Scalars Spec_Scalars Proofs_Scalars.

Lemma lstrip_all p a b : forallb p a = true -> lstrip p (a ++ b) = lstrip p b.
Proof.
  induction a as [|c a IH]; intros H; [reflexivity|]. cbn [forallb] in H. apply andb_prop in H. destruct H as [H1 H2].
  cbn [app lstrip]. now rewrite H1, IH.
Qed.
Lemma forallb_rev {A} (p : A -> bool) l : forallb p (rev l) = forallb p l.
Proof. induction l as [|x l IH]; [reflexivity|]. cbn [rev forallb]. rewrite forallb_app, IH. cbn [forallb]. destruct (p x), (forallb p l); reflexivity. Qed.
Lemma rstrip_all p a b : forallb p b = true -> rstrip p (a ++ b) = rstrip p a.
Proof. intros H. unfold rstrip. rewrite rev_app_distr, lstrip_all; [reflexivity|]. now rewrite forallb_rev. Qed.
Lemma lstrip_split p s : exists z, s = z ++ lstrip p s /\ forallb p z = true.
Proof.
  induction s as [|c s IH]; [exists []; auto|]. cbn [lstrip]. destruct (p c) eqn:E.
  - destruct IH as (z & H1 & H2). exists (c :: z). cbn [app forallb]. rewrite E, H2. split; [now rewrite H1 at 1|reflexivity].
  - exists []. auto.
Qed.
Lemma rstrip_split p s : exists z, s = rstrip p s ++ z /\ forallb p z = true.
Proof.
  destruct (lstrip_split p (rev s)) as (z & H1 & H2). exists (rev z). unfold rstrip. split.
  - rewrite <- rev_app_distr, <- H1. now rewrite rev_involutive.
  - now rewrite forallb_rev.
Qed.
Lemma lstrip_app p b a : lstrip p b <> [] -> lstrip p (b ++ a) = lstrip p b ++ a.
Proof.
  induction b as [|c b IH]; cbn [app lstrip]; [congruence|]. destruct (p c); auto.
Qed.
Lemma rstrip_app p a b : rstrip p b <> [] -> rstrip p (a ++ b) = a ++ rstrip p b.
Proof.
  intros H. unfold rstrip in *. rewrite rev_app_distr, lstrip_app.
  - rewrite rev_app_distr. now rewrite rev_involutive.
  - intros E. rewrite E in H. now apply H.
Qed.
Lemma rstrip_keep p a c : p c = false -> rstrip p (a ++ [c]) = a ++ [c].
Proof. intros H. rewrite rstrip_app; unfold rstrip; simpl; rewrite H; [reflexivity|discriminate]. Qed.

Definition strip_set (c : N) : bool := ((c =? 46) || (c =? 48))%N.
Definition sec_text (t3 : N) : list N :=
  padl 1 (rstrip strip_set (dec (t3 / 10000000) ++ [46]%N ++ dec_pad 7 (t3 mod 10000000))) ++ [83]%N.

Lemma span_digits_app d c r : forallb is_digit d = true -> is_digit c = false -> span_digits (d ++ c :: r) = (d, c :: r).
Proof.
  intros Hd Hc. induction d as [|x d IH]; cbn [app span_digits]; [now rewrite Hc|].
  cbn [forallb] in Hd. apply andb_prop in Hd. destruct Hd as [H1 H2]. now rewrite H1, IH.
Qed.
Lemma opt_unit_hit L n r : is_digit L = false -> opt_unit L (dec n ++ L :: r) = (n, r).
Proof.
  intros HL. unfold opt_unit. rewrite span_digits_app by (apply dec_digits || assumption).
  destruct (dec n) as [|x d] eqn:E; [now pose proof (dec_nonempty n)|]. rewrite N.eqb_refl, <- E, dec_val. reflexivity.
Qed.
Lemma opt_unit_miss L d c r : forallb is_digit d = true -> is_digit c = false -> c <> L ->
  opt_unit L (d ++ c :: r) = (0%N, d ++ c :: r).
Proof.
  intros Hd Hc Hne. unfold opt_unit. rewrite span_digits_app by assumption.
  destruct d; [reflexivity|]. replace (c =? L)%N with false by lia. reflexivity.
Qed.

Lemma zeros_repeat z : forallb strip_set z = true -> forallb is_digit z = true -> z = repeat 48%N (length z).
Proof.
  induction z as [|c z IH]; intros H1 H2; [reflexivity|]. cbn [forallb] in *. apply andb_prop in H1, H2.
  destruct H1 as [A1 A2], H2 as [B1 B2]. cbn [length repeat]. rewrite <- IH by assumption. f_equal.
  unfold strip_set, is_digit in *. lia.
Qed.
Lemma frac_strip f : (0 < f < 10000000)%N ->
  let g := rstrip strip_set (dec_pad 7 f) in
  g <> [] /\ length g <= 7 /\ ljust7 g = dec_pad 7 f /\ forallb is_digit g = true.
Proof.
  intros Hf. cbv zeta. destruct (rstrip_split strip_set (dec_pad 7 f)) as (z & E & Hz).
  set (g := rstrip strip_set (dec_pad 7 f)) in *.
  assert (length (dec_pad 7 f) = 7) as HL by (apply (dec_pad_length 6); change (10 ^ N.of_nat 7)%N with 10000000%N; lia).
  pose proof (dec_pad_digits 7 f) as HD. rewrite E, forallb_app in HD. apply andb_prop in HD. destruct HD as [HD1 HD2].
  pose proof (zeros_repeat z Hz HD2) as Hr.
  rewrite E, app_length in HL.
  split.
  - intros Hg. rewrite Hg in E. cbn [app] in E. pose proof (dec_pad_val 7 f) as Hv. rewrite E, Hr, digits_val_zeros in Hv. lia.
  - split; [lia|]. split; [|exact HD1]. unfold ljust7. rewrite E at 1. f_equal. rewrite Hr. f_equal. lia.
Qed.

Lemma digits_val_bound g : forallb is_digit g = true -> (digits_val g < 10 ^ N.of_nat (length g))%N.
Proof.
  induction g as [|c g IH] using rev_ind; intros H; [reflexivity|]. rewrite forallb_app in H. apply andb_prop in H as [H1 H2].
  cbn [forallb] in H2. rewrite digits_val_app, digits_val_one, app_length. cbn [length]. apply IH in H1.
  change (10 ^ N.of_nat 1)%N with 10%N. rewrite Nat.add_1_r, Nnat.Nat2N.inj_succ, N.pow_succ_r'. unfold is_digit in H2. lia.
Qed.
(** int(float(..)) is exact below 2^30 seconds. *)
Lemma half_even_lt a b m : (0 < b)%N -> (2 * a + b < 2 * b * m)%N -> (half_even a b < m)%N.
Proof.
  intros B H. unfold half_even. pose proof (N.div_mod a b ltac:(lia)) as E. pose proof (N.mod_lt a b ltac:(lia)) as L.
  set (q := (a / b)%N) in *. set (r := (a mod b)%N) in *. clearbody q r.
  destruct (2 * r <? b)%N eqn:E1; [nia|]. destruct (b <? 2 * r)%N eqn:E2; [nia|].
  pose proof (N.mod_lt q 2 ltac:(lia)). nia.
Qed.
Lemma half_even_ge a b m : (0 < b)%N -> (b * m <= a)%N -> (m <= half_even a b)%N.
Proof.
  intros B H. unfold half_even. assert (m <= a / b)%N as Q by (apply N.div_le_lower_bound; lia).
  destruct (_ <? _)%N; [exact Q|]. destruct (_ <? _)%N; lia.
Qed.
Lemma float_exact n k : (k <= 7) -> (n / 10 ^ N.of_nat k < 1073741824)%N -> float_whole n k = (n / 10 ^ N.of_nat k)%N.
Proof.
  intros K H. unfold float_whole. assert (0 < 10 ^ N.of_nat k <= 10000000)%N as D.
  { split; [apply N.neq_0_lt_0, N.pow_nonzero; lia|]. change 10000000%N with (10 ^ 7)%N. apply N.pow_le_mono_r; lia. }
  set (d := (10 ^ N.of_nat k)%N) in *. clearbody d. set (q := (n / d)%N) in *. destruct (N.eqb_spec q 0) as [E|E]; [lia|].
  pose proof (N.log2_spec q ltac:(lia)) as [L1 L2].
  assert (N.log2 q <= 29)%N as L3.
  { apply N.lt_succ_r. apply (N.pow_lt_mono_r_iff 2); [lia|]. change (2 ^ N.succ 29)%N with 1073741824%N. lia. }
  replace (N.log2 q <=? 52)%N with true by lia.
  assert (8388608 <= 2 ^ (52 - N.log2 q))%N as P. { change 8388608%N with (2 ^ 23)%N. apply N.pow_le_mono_r; lia. }
  set (p := (2 ^ (52 - N.log2 q))%N) in *. clearbody p.
  pose proof (N.div_mod n d ltac:(lia)) as M. pose proof (N.mod_lt n d ltac:(lia)) as R. fold q in M. set (r := (n mod d)%N) in *. clearbody q r.
  symmetry. apply (N.div_unique _ _ _ (half_even (n * p) d - p * q)%N).
  - assert (half_even (n * p) d < p * (q + 1))%N; [|lia]. apply half_even_lt; [lia|]. subst n. nia.
  - assert (p * q <= half_even (n * p) d)%N; [|lia]. apply half_even_ge; [lia|]. subst n. nia.
Qed.
(** The number of whole seconds that is read back: a multiple of ten without fraction loses its zero. *)
Definition sec_read (t3 : N) : N := if (t3 mod 100000000 =? 0)%N then (t3 / 100000000)%N else (t3 / 10000000)%N.
Lemma opt_seconds_text t3 : (t3 < 600000000)%N ->
  exists d c r f, sec_text t3 = d ++ c :: r /\ d <> [] /\ forallb is_digit d = true
    /\ (c = 83 \/ c = 46)%N
    /\ opt_seconds (sec_text t3) = (sec_read t3, f, [])
    /\ digits_val (ljust7 f) = (t3 mod 10000000)%N.
Proof.
  intros H. unfold sec_text. set (q := (t3 / 10000000)%N). set (f := (t3 mod 10000000)%N).
  destruct (N.eq_dec f 0) as [Hf|Hf].
  - exists (dec (sec_read t3)), 83%N, [], [].
    assert (padl 1 (rstrip strip_set (dec q ++ [46]%N ++ dec_pad 7 f)) = dec (sec_read t3)) as E.
    { rewrite Hf. rewrite rstrip_all by (vm_compute; reflexivity). unfold sec_read.
      destruct (N.eq_dec t3 0) as [Ht|Ht].
      - subst t3. unfold q. vm_compute. reflexivity.
      - destruct (N.eqb_spec (t3 mod 100000000) 0) as [Hz|Hz].
        + assert (q = 10 * (t3 / 100000000))%N as Hq by (unfold q, f in *; lia).
          set (k := (t3 / 100000000)%N) in *. assert (1 <= k < 6)%N as Hk by (unfold k; lia).
          rewrite dec_step by lia. replace (q mod 10)%N with 0%N by lia. replace (q / 10)%N with k by lia.
          rewrite rstrip_all by reflexivity. rewrite dec_small by lia.
          change [48 + k]%N with ([] ++ [48 + k])%N at 1. rewrite rstrip_keep by (unfold strip_set; lia). reflexivity.
        + fold q. assert (q mod 10 <> 0)%N as Hq by (unfold q, f in *; lia).
          assert (exists a c, dec q = a ++ [c] /\ strip_set c = false) as (a & c & E & Hc).
          { destruct (N.lt_ge_cases q 10).
            - rewrite dec_small by lia. exists [], (48 + q)%N. split; [reflexivity|]. unfold strip_set. lia.
            - rewrite dec_step by lia. eexists _, _. split; [reflexivity|]. unfold strip_set. lia. }
          rewrite E, rstrip_keep by exact Hc. unfold padl. rewrite app_length. cbn [length].
          replace (1 - (length a + 1)) with 0 by lia. reflexivity. }
    rewrite E. split; [reflexivity|]. split; [apply dec_nonempty|]. split; [apply dec_digits|]. split; [now left|].
    split; [|rewrite Hf; reflexivity].
    unfold opt_seconds. rewrite span_digits_app by (apply dec_digits || reflexivity). rewrite dec_val.
    assert (sec_read t3 / 10 ^ N.of_nat 0 = sec_read t3)%N as W by apply N.div_1_r.
    rewrite float_exact; rewrite ?W; [reflexivity|lia|]. unfold sec_read. destruct (_ =? _)%N; lia.
  - destruct (frac_strip f ltac:(unfold f in *; lia)) as (G1 & G2 & G3 & G4).
    set (g := rstrip strip_set (dec_pad 7 f)) in *.
    exists (dec q), 46%N, (g ++ [83]%N), g.
    assert (padl 1 (rstrip strip_set (dec q ++ [46]%N ++ dec_pad 7 f)) = dec q ++ 46%N :: g) as E.
    { rewrite app_assoc, rstrip_app by exact G1. fold g. rewrite <- app_assoc. unfold padl. rewrite app_length. cbn [length app].
      replace (1 - (length (dec q) + S (length g))) with 0 by lia. reflexivity. }
    rewrite E. rewrite <- app_assoc. cbn [app].
    split; [reflexivity|]. split; [apply dec_nonempty|]. split; [apply dec_digits|]. split; [now right|].
    split; [|rewrite G3; apply dec_pad_val].
    unfold opt_seconds. rewrite span_digits_app by (apply dec_digits || reflexivity).
    change (46 =? 83)%N with false. change (46 =? 46)%N with true. cbv iota.
    rewrite span_digits_app by (assumption || reflexivity).
    assert (digits_val (dec q ++ g) / 10 ^ N.of_nat (length g) = q)%N as W.
    { rewrite digits_val_app, dec_val. symmetry. apply (N.div_unique _ _ _ (digits_val g)); [now apply digits_val_bound|lia]. }
    rewrite float_exact; rewrite ?W; [|lia|unfold q; lia].
    change (83 =? 83)%N with true.
    replace (Nat.eqb (length g) 0) with false by (destruct g; [congruence|reflexivity]).
    replace (Nat.leb (length g) 7) with true by (symmetry; apply Nat.leb_le; lia).
    replace (sec_read t3) with q; [reflexivity|]. unfold sec_read. fold q.
    replace (t3 mod 100000000 =? 0)%N with false; [reflexivity|]. unfold f in Hf. lia.
Qed.

(** The part after T. *)
Definition hms_text (h m t3 : N) : list N :=
  (if (h =? 0)%N then [] else dec h ++ [72]%N) ++ (if (m =? 0)%N then [] else dec m ++ [77]%N)
  ++ (if (negb (t3 =? 0) || ((h =? 0) && (m =? 0)))%N then sec_text t3 else []).

Lemma hms_parse h m t3 : (t3 < 600000000)%N ->
  exists c r f, hms_text h m t3 = c :: r /\ is_digit c = true
  /\ (let '(a, s5) := opt_unit 72 (hms_text h m t3) in
      let '(b, s6) := opt_unit 77 s5 in
      let '(s, f', s7) := opt_seconds s6 in (a, b, s, f', s7)) = (h, m, sec_read t3, f, [])
  /\ digits_val (ljust7 f) = (t3 mod 10000000)%N.
Proof.
  intros H. destruct (opt_seconds_text t3 H) as (d & c & r & f & E & Hne & Hd & Hc & Ho & Hv).
  assert (is_digit c = false) as Hcd by (unfold is_digit; lia).
  assert (forall (d : list N) x r, d <> [] -> forallb is_digit d = true -> exists c0 r0, d ++ x :: r = c0 :: r0 /\ is_digit c0 = true) as Hfirst.
  { intros [|y e] x rr Hn He; [congruence|]. cbn [forallb] in He. apply andb_prop in He. cbn [app].
    exists y, (e ++ x :: rr). split; [reflexivity|tauto]. }
  assert (opt_unit 72 (sec_text t3) = (0%N, sec_text t3)) as M1 by (rewrite E; apply opt_unit_miss; [assumption..|lia]).
  assert (opt_unit 77 (sec_text t3) = (0%N, sec_text t3)) as M2 by (rewrite E; apply opt_unit_miss; [assumption..|lia]).
  unfold hms_text.
  destruct (N.eqb_spec h 0) as [->|Hh]; destruct (N.eqb_spec m 0) as [->|Hm]; destruct (N.eqb_spec t3 0) as [->|Ht];
    cbn [andb orb negb app]; rewrite ?app_nil_r, <- ?app_assoc; cbn [app].
  (* seconds only *)
  1,2: rewrite M1, M2, Ho, E; destruct (Hfirst d c r Hne Hd) as (c0 & r0 & E0 & Hc0); exists c0, r0, f;
    (split; [exact E0|]); (split; [exact Hc0|]); split; [reflexivity|exact Hv].
  (* minutes only *)
  1: destruct (Hfirst (dec m) 77%N [] (dec_nonempty m) (dec_digits m)) as (c0 & r0 & E0 & Hc0).
  1: exists c0, r0, []; (split; [exact E0|]); (split; [exact Hc0|]).
  1: rewrite opt_unit_miss by (apply dec_digits || reflexivity || discriminate).
  1: rewrite opt_unit_hit by reflexivity; split; reflexivity.
  1: destruct (Hfirst (dec m) 77%N (sec_text t3) (dec_nonempty m) (dec_digits m)) as (c0 & r0 & E0 & Hc0).
  1: exists c0, r0, f; (split; [exact E0|]); (split; [exact Hc0|]).
  1: rewrite opt_unit_miss by (apply dec_digits || reflexivity || discriminate).
  1: rewrite opt_unit_hit by reflexivity; rewrite Ho; split; [reflexivity|exact Hv].
  (* hours *)
  1: destruct (Hfirst (dec h) 72%N [] (dec_nonempty h) (dec_digits h)) as (c0 & r0 & E0 & Hc0).
  1: exists c0, r0, []; (split; [exact E0|]); (split; [exact Hc0|]).
  1: rewrite opt_unit_hit by reflexivity; split; reflexivity.
  1: destruct (Hfirst (dec h) 72%N (sec_text t3) (dec_nonempty h) (dec_digits h)) as (c0 & r0 & E0 & Hc0).
  1: exists c0, r0, f; (split; [exact E0|]); (split; [exact Hc0|]).
  1: rewrite opt_unit_hit by reflexivity; rewrite M2, Ho; split; [reflexivity|exact Hv].
  1: destruct (Hfirst (dec h) 72%N (dec m ++ [77%N]) (dec_nonempty h) (dec_digits h)) as (c0 & r0 & E0 & Hc0).
  1: exists c0, r0, []; (split; [exact E0|]); (split; [exact Hc0|]).
  1: rewrite opt_unit_hit by reflexivity; rewrite opt_unit_hit by reflexivity; split; reflexivity.
  1: destruct (Hfirst (dec h) 72%N (dec m ++ 77%N :: sec_text t3) (dec_nonempty h) (dec_digits h)) as (c0 & r0 & E0 & Hc0).
  1: exists c0, r0, f; (split; [exact E0|]); (split; [exact Hc0|]).
  1: rewrite opt_unit_hit by reflexivity; rewrite opt_unit_hit by reflexivity; rewrite Ho; split; [reflexivity|exact Hv].
Qed.

(** Everything after the sign and P. *)
Definition day_text (t : N) : list N :=
  let days := (t / 864000000000)%N in
  let t1 := (t mod 864000000000)%N in
  (if (days =? 0)%N then [] else dec days ++ [68]%N)
  ++ (if ((t1 =? 0)%N && negb (days =? 0)%N)%bool then []
      else [84]%N ++ hms_text (t1 / 36000000000) (t1 mod 36000000000 / 600000000) (t1 mod 36000000000 mod 600000000)).
Lemma write_duration_text ns :
  write_duration ns = (if (ns / 100 <? 0)%Z then [45]%N else []) ++ [80]%N ++ day_text (Z.abs_N (ns / 100)).
Proof. reflexivity. Qed.

Definition read_tail (neg : bool) (s2 : list N) : result Z :=
  match s2 with [] => Err ValueError | c2 :: _ =>
    if (c2 =? 10)%N then Err ValueError else
    let '(days, s3) := opt_unit 68 s2 in
    let fin (hours minutes seconds : N) (frac rest : list N) : result Z :=
      match drop_newline rest with
      | [] =>
        let secs := (seconds + minutes * 60 + hours * 3600 + days * 86400)%N in
        let total := (Z.of_N secs * 1000000000 + Z.of_N (digits_val (ljust7 frac)) * 100)%Z in
        new_duration (if neg then (- total)%Z else total)
      | _ => Err ValueError
      end in
    match s3 with
    | 84%N :: s4 =>
      match s4 with
      | [] => Err ValueError
      | c4 :: _ =>
        if (c4 =? 10)%N then Err ValueError else
        let '(hours, s5) := opt_unit 72 s4 in
        let '(minutes, s6) := opt_unit 77 s5 in
        let '(seconds, frac, s7) := opt_seconds s6 in
        fin hours minutes seconds frac s7
      end
    | _ => fin 0%N 0%N 0%N [] s3
    end
  end.
Lemma read_duration_tail (neg : bool) s2 :
  parse_duration ((if neg then [45]%N else []) ++ [80]%N ++ s2) = read_tail neg s2.
Proof. destruct neg; reflexivity. Qed.

Lemma read_tail_days neg n s : read_tail neg (dec n ++ 68%N :: s) =
  let fin (hours minutes seconds : N) (frac rest : list N) : result Z :=
      match drop_newline rest with
      | [] =>
        let secs := (seconds + minutes * 60 + hours * 3600 + n * 86400)%N in
        let total := (Z.of_N secs * 1000000000 + Z.of_N (digits_val (ljust7 frac)) * 100)%Z in
        new_duration (if neg then (- total)%Z else total)
      | _ => Err ValueError
      end in
    match s with
    | 84%N :: s4 =>
      match s4 with
      | [] => Err ValueError
      | c4 :: _ =>
        if (c4 =? 10)%N then Err ValueError else
        let '(hours, s5) := opt_unit 72 s4 in
        let '(minutes, s6) := opt_unit 77 s5 in
        let '(seconds, frac, s7) := opt_seconds s6 in
        fin hours minutes seconds frac s7
      end
    | _ => fin 0%N 0%N 0%N [] s
    end.
Proof.
  unfold read_tail. rewrite opt_unit_hit by reflexivity.
  destruct (dec_cons n) as (c & t & E & Hc & _). rewrite E. cbn [app].
  replace (c =? 10)%N with false by (unfold is_digit in Hc; lia). reflexivity.
Qed.

(** Ticks (100 ns) that are read back when [t] ticks were written. *)
Definition ticks_read (t : N) : N := (t - t mod 600000000 + sec_read (t mod 600000000) * 10000000 + t mod 10000000)%N.
Lemma read_day_text (neg : bool) t :
  read_tail neg (day_text t) = new_duration (if neg then - (Z.of_N (ticks_read t) * 100) else Z.of_N (ticks_read t) * 100)%Z.
Proof.
  unfold day_text. cbv zeta.
  set (days := (t / 864000000000)%N). set (t1 := (t mod 864000000000)%N).
  set (h := (t1 / 36000000000)%N). set (m := (t1 mod 36000000000 / 600000000)%N).
  set (t3 := (t1 mod 36000000000 mod 600000000)%N).
  assert (t = t3 + 600000000 * m + 36000000000 * h + 864000000000 * days)%N as Ht
    by (unfold t3, m, h, days, t1; lia).
  assert (t3 < 600000000)%N as H3 by (unfold t3; lia).
  assert (t mod 600000000 = t3)%N as Hm3 by lia.
  assert (t mod 10000000 = t3 mod 10000000)%N as Hm7 by lia.
  destruct (hms_parse h m t3 H3) as (c & r & f & E & Hc & Hp & Hv).
  assert (Z.of_N (sec_read t3 + m * 60 + h * 3600 + days * 86400) * 1000000000
          + Z.of_N (t3 mod 10000000) * 100 = Z.of_N (ticks_read t) * 100)%Z as Htot.
  { unfold ticks_read. rewrite Hm3, Hm7. clear -Ht H3. generalize dependent (sec_read t3). intros. lia. }
  assert (c =? 10 = false)%N as Hc10 by (unfold is_digit in Hc; lia).
  destruct (N.eqb_spec days 0) as [Hd|Hd].
  - rewrite andb_false_r. cbn [app]. rewrite E in *. unfold read_tail.
    change (84 =? 10)%N with false. cbv iota.
    replace (opt_unit 68 (84 :: c :: r))%N with (0%N, (84 :: c :: r)%N) by reflexivity.
    rewrite Hc10. cbv iota zeta.
    destruct (opt_unit 72 (c :: r)) as [a s5]. destruct (opt_unit 77 s5) as [b s6].
    destruct (opt_seconds s6) as [[s f'] s7]. injection Hp as -> -> -> -> ->.
    cbn [drop_newline rev]. rewrite Hv. rewrite <- Htot, Hd. reflexivity.
  - rewrite andb_true_r, <- app_assoc. cbn [app]. rewrite read_tail_days. cbv zeta.
    destruct (N.eqb_spec t1 0) as [Ht1|Ht1].
    + cbn [drop_newline rev].
      assert (t3 = 0 /\ h = 0 /\ m = 0)%N as (Z1 & Z2 & Z3) by (unfold t3, h, m; lia).
      rewrite Z1, Z2, Z3 in Htot. rewrite <- Htot. reflexivity.
    + rewrite E in *. rewrite Hc10. cbv iota.
      destruct (opt_unit 72 (c :: r)) as [a s5]. destruct (opt_unit 77 s5) as [b s6].
      destruct (opt_seconds s6) as [[s f'] s7]. injection Hp as -> -> -> -> ->.
      cbn [drop_newline rev]. rewrite Hv, Htot. reflexivity.
Qed.

Lemma ticks_read_le t : (ticks_read t <= t)%N.
Proof. unfold ticks_read, sec_read. destruct (N.eqb_spec (t mod 600000000 mod 100000000) 0); lia. Qed.
Lemma ticks_read_eq t : ticks_read t = t <-> (t mod 100000000 <> 0 \/ t mod 600000000 = 0)%N.
Proof. unfold ticks_read, sec_read. destruct (N.eqb_spec (t mod 600000000 mod 100000000) 0); lia. Qed.

(** What is written is ASCII. *)
Lemma ascii_app a b : ascii_text a -> ascii_text b -> ascii_text (a ++ b).
Proof. intros. apply Forall_app. auto. Qed.
Lemma ascii_strip p s : ascii_text s -> ascii_text (rstrip p s).
Proof. intros H. destruct (rstrip_split p s) as (z & E & _). rewrite E in H. now apply Forall_app in H. Qed.
Lemma ascii_duration ns : ascii_text (write_duration ns).
Proof.
  unfold write_duration.
  repeat match goal with
  | |- ascii_text (if ?b then _ else _) => destruct b
  | |- ascii_text (let _ := _ in _) => cbv zeta
  | |- ascii_text (padl _ _) => unfold padl
  | |- ascii_text (_ ++ _) => apply ascii_app
  | |- ascii_text [] => apply Forall_nil
  | |- ascii_text [_] => apply Forall_cons; [lia|apply Forall_nil]
  | |- ascii_text (dec _) => apply ascii_digits, dec_digits
  | |- ascii_text (dec_pad _ _) => apply ascii_digits, dec_pad_digits
  | |- ascii_text (rstrip _ _) => apply ascii_strip
  | |- ascii_text (repeat _ _) => apply Forall_forall; let c := fresh in let I := fresh in intros c I; apply repeat_spec in I; subst; lia
  end.
Qed.
Lemma duration_read_write ns : duration_ok ns = true ->
  read_duration (write_duration ns) = Ok (Z.sgn (ns / 100) * (100 * Z.of_N (ticks_read (Z.abs_N (ns / 100)))))%Z.
Proof.
  intros H. unfold read_duration. rewrite map_ascii by apply ascii_duration. rewrite write_duration_text, read_duration_tail, read_day_text.
  pose proof (ticks_read_le (Z.abs_N (ns / 100))) as Hle.
  assert (ns / 100 = 0 -> ticks_read (Z.abs_N (ns / 100)) = 0%N)%Z as H0 by (intros ->; reflexivity).
  generalize dependent (ticks_read (Z.abs_N (ns / 100))). intros k Hle H0.
  replace (if (ns / 100 <? 0)%Z then (- (Z.of_N k * 100))%Z else (Z.of_N k * 100)%Z)
    with (Z.sgn (ns / 100) * (100 * Z.of_N k))%Z by (destruct (ns / 100 <? 0)%Z eqn:E; lia).
  unfold new_duration. replace (duration_ok (Z.sgn (ns / 100) * (100 * Z.of_N k))) with true; [reflexivity|].
  unfold duration_ok in *. lia.
Qed.
Lemma Ok_inj {A} (a b : A) : Ok a = Ok b -> a = b.
Proof. congruence. Qed.
Lemma duration_roundtrip ns : duration_ok ns = true ->
  (read_duration (write_duration ns) = Ok (100 * (ns / 100))%Z
   <-> (ns / 100 mod 100000000 <> 0 \/ ns / 100 mod 600000000 = 0)%Z).
Proof.
  intros H. rewrite duration_read_write by exact H.
  transitivity (ticks_read (Z.abs_N (ns / 100)) = Z.abs_N (ns / 100)).
  - pose proof (ticks_read_le (Z.abs_N (ns / 100))) as Hle. generalize dependent (ticks_read (Z.abs_N (ns / 100))).
    generalize (ns / 100)%Z. intros x k Hle. destruct x as [|p|p]; cbn [Z.sgn Z.abs_N] in *;
      (split; [intros E; apply Ok_inj in E; lia|intros ->; f_equal; lia]).
  - rewrite ticks_read_eq. lia.
Qed.
