(** The written text has the form [MS-PSRP] asks for. *)
From Coq Require Import String Ascii.
From Verif Require Import Base BaseFacts Model_Scalars Model_Strings Model_Text Model_Object Model_Clixml Model_Xml
  Spec_Strings Spec_Scalars Spec_Wire Proofs_Scalars Proofs_Duration Proofs_Datetime Proofs_Text Proofs_Strings.
Local Open Scope list_scope.

(** ** Digits *)
Lemma value_of_app b x y : value_of b (x ++ y) = (value_of b x * b ^ N.of_nat (length y) + value_of b y)%N.
Proof.
  induction x as [|d x IH]; [cbn [value_of app]; lia|]. cbn [value_of app]. rewrite IH, app_length, Nat2N.inj_add, N.pow_add_r. lia.
Qed.
Lemma shown_app al x y : shown al (x ++ y) = shown al x ++ shown al y.
Proof. apply map_app. Qed.
Lemma below_app b x y : below b (x ++ y) <-> below b x /\ below b y.
Proof. apply Forall_app. Qed.
(** A table against a formula. *)
Lemma table_eq al f k : forallb (fun i => (nth i (chars al) 0 =? f (N.of_nat i))%N) (seq 0 k) = true ->
  forall d, (d < N.of_nat k)%N -> nth (N.to_nat d) (chars al) 0%N = f d.
Proof.
  intros H d Hd. rewrite forallb_forall in H. specialize (H (N.to_nat d)). rewrite N2Nat.id in H.
  apply N.eqb_eq, H, in_seq. lia.
Qed.
Lemma shown_map al f b k : N.of_nat k = b -> forallb (fun i => (nth i (chars al) 0 =? f (N.of_nat i))%N) (seq 0 k) = true ->
  forall ds, below b ds -> shown al ds = map f ds.
Proof.
  intros Hb H ds Hd. unfold shown. apply map_ext_in. intros d Hin. rewrite (table_eq al f k H); [reflexivity|].
  unfold below in Hd. rewrite Forall_forall in Hd. rewrite Hb. now apply Hd.
Qed.
Lemma shown10 ds : below 10 ds -> shown digits10 ds = map (N.add 48) ds.
Proof. apply (shown_map digits10 (N.add 48) 10 10); reflexivity. Qed.
Lemma shown16 ds : below 16 ds -> shown digits16 ds = map hex_lower ds.
Proof. apply (shown_map digits16 hex_lower 16 16); reflexivity. Qed.
Lemma shown16_upper ds : below 16 ds -> shown digits16_upper ds = map hexdig ds.
Proof. apply (shown_map digits16_upper hexdig 16 16); reflexivity. Qed.
Lemma shown64 ds : below 64 ds -> shown digits64 ds = map b64_char ds.
Proof. apply (shown_map digits64 b64_char 64 64); reflexivity. Qed.

Lemma digit_text s : forallb is_digit s = true ->
  let ds := map (fun c => (c - 48)%N) s in
  below 10 ds /\ length ds = length s /\ value_of 10 ds = digits_val s /\ s = shown digits10 ds.
Proof.
  intros H. cbv zeta. assert (below 10 (map (fun c => (c - 48)%N) s)) as Hb.
  { apply Forall_map. rewrite forallb_forall in H. apply Forall_forall. intros c Hc. apply H in Hc. unfold is_digit in Hc. lia. }
  split; [exact Hb|]. split; [apply map_length|]. split.
  - clear Hb H. induction s as [|c s IH] using rev_ind; [reflexivity|].
    rewrite map_app, value_of_app, digits_val_app, IH, digits_val_one. cbn [map value_of length]. lia.
  - rewrite shown10, map_map by exact Hb. rewrite <- (map_id s) at 1. apply map_ext_in. intros c Hc.
    rewrite forallb_forall in H. apply H in Hc. unfold is_digit in Hc. lia.
Qed.
Lemma numeral_dec n : numeral n (dec n).
Proof.
  destruct (digit_text (dec n) (dec_digits n)) as (A & B & C & D). exists (map (fun c => (c - 48)%N) (dec n)).
  split; [exact A|]. split; [now rewrite C, dec_val|]. split; [exact D|].
  destruct (dec_cons n) as (c & t & E & Hc & Hz). rewrite E. cbn [map].
  destruct (N.eq_dec c 48) as [->|Hne]; [left; now rewrite (Hz eq_refl)|].
  right. eexists _, _. split; [reflexivity|]. unfold is_digit in Hc. lia.
Qed.
Lemma fixed_pad w n : (n < 10 ^ N.of_nat (S w))%N -> fixed (S w) n (dec_pad (S w) n).
Proof.
  intros H. destruct (digit_text _ (dec_pad_digits (S w) n)) as (A & B & C & D).
  exists (map (fun c => (c - 48)%N) (dec_pad (S w) n)). rewrite B, C, dec_pad_val, dec_pad_length by exact H. repeat split; auto.
Qed.
Lemma shown10_inj x y : below 10 x -> below 10 y -> shown digits10 x = shown digits10 y -> x = y.
Proof.
  intros Hx Hy. rewrite !shown10 by assumption. revert y Hy. induction x as [|a x IH]; intros [|b y] Hy E; try discriminate; [reflexivity|].
  cbn [map] in E. injection E as E1 E2. inversion Hx; inversion Hy; subst. f_equal; [lia|]. now apply IH.
Qed.
Lemma value_bound b ds : (0 < b)%N -> below b ds -> (value_of b ds < b ^ N.of_nat (length ds))%N.
Proof.
  intros Hb. induction ds as [|d ds IH]; intros H; [cbn; lia|]. inversion H; subst. cbn [value_of length].
  rewrite Nat2N.inj_succ, N.pow_succ_r by lia. specialize (IH H3). nia.
Qed.
Lemma value_inj b x : (0 < b)%N -> forall y, length x = length y -> below b x -> below b y -> value_of b x = value_of b y -> x = y.
Proof.
  intros Hb. induction x as [|a x IH]; intros [|c y] HL Hx Hy E; try discriminate; [reflexivity|].
  injection HL as HL. inversion Hx; inversion Hy; subst. cbn [value_of] in E. rewrite HL in E.
  pose proof (value_bound b x Hb H2). pose proof (value_bound b y Hb H6). rewrite HL in H.
  assert (a = c) by nia. subst c. f_equal. apply IH; auto. nia.
Qed.
(** A number has one numeral and a numeral one number. *)
Lemma numeral_unique n m s t : numeral n s -> numeral m t -> (n = m <-> s = t).
Proof.
  intros (x & Hx & Vx & -> & Lx) (y & Hy & Vy & -> & Ly). split; [|intros E; apply shown10_inj in E; auto; congruence].
  intros <-. f_equal.
  assert (forall z, below 10 z -> (exists d t, z = d :: t /\ d <> 0%N) -> (10 ^ N.of_nat (length z - 1) <= value_of 10 z)%N) as Hlow.
  { intros z Hz (d & t & -> & Hd). cbn [value_of length]. rewrite Nat.sub_succ, Nat.sub_0_r. nia. }
  assert (forall z, below 10 z -> (value_of 10 z < 10 ^ N.of_nat (length z))%N) as Hup by (intros; now apply value_bound).
  destruct Lx as [->|Lx], Ly as [->|Ly]; auto.
  - exfalso. destruct Ly as (d & t & -> & Hd). specialize (Hlow _ Hy ltac:(eauto)). cbn [value_of length] in *. rewrite Nat.sub_succ, Nat.sub_0_r in Hlow.
    assert (10 ^ N.of_nat (length t) <> 0)%N by (apply N.pow_nonzero; lia). lia.
  - exfalso. destruct Lx as (d & t & -> & Hd). specialize (Hlow _ Hx ltac:(eauto)). cbn [value_of length] in *. rewrite Nat.sub_succ, Nat.sub_0_r in Hlow.
    assert (10 ^ N.of_nat (length t) <> 0)%N by (apply N.pow_nonzero; lia). lia.
  - pose proof (Hlow x Hx Lx). pose proof (Hlow y Hy Ly). pose proof (Hup x Hx). pose proof (Hup y Hy). rewrite Vy, <- Vx in *.
    apply (value_inj 10); auto; try lia.
    destruct Lx as (dx & tx & -> & _), Ly as (dy & ty & -> & _). cbn [length] in *. rewrite !Nat.sub_succ, !Nat.sub_0_r in *.
    destruct (Nat.lt_trichotomy (length tx) (length ty)) as [L|[L|L]]; [|congruence|].
    + assert (10 ^ N.of_nat (S (length tx)) <= 10 ^ N.of_nat (length ty))%N by (apply N.pow_le_mono_r; lia). lia.
    + assert (10 ^ N.of_nat (S (length ty)) <= 10 ^ N.of_nat (length tx))%N by (apply N.pow_le_mono_r; lia). lia.
Qed.

(** ** Integers, characters, versions *)
Lemma signed_int z : signed_numeral z (str_int z).
Proof.
  unfold signed_numeral, str_int. destruct z as [|p|p].
  - left. split; [lia|apply numeral_dec].
  - left. split; [lia|]. apply numeral_dec.
  - right. split; [lia|]. exists (dec (Npos p)). split; [reflexivity|]. apply numeral_dec.
Qed.
Lemma char_numeral c : numeral c (write_char c).
Proof. unfold write_char. destruct c; apply numeral_dec. Qed.
Lemma version_wire v : version_wf v -> version_form v (write_version v).
Proof.
  intros H. destruct v as [a b [c|] [d|]]; unfold version_form, write_version; cbn.
  - exists (dec a), (dec b). split; [apply numeral_dec|]. split; [apply numeral_dec|]. exists (dec c), (dec d).
    split; [apply numeral_dec|]. split; [apply numeral_dec|]. reflexivity.
  - exists (dec a), (dec b). split; [apply numeral_dec|]. split; [apply numeral_dec|]. exists (dec c).
    split; [apply numeral_dec|]. reflexivity.
  - exfalso. apply H; cbn; congruence.
  - exists (dec a), (dec b). split; [apply numeral_dec|]. split; [apply numeral_dec|]. reflexivity.
Qed.

(** ** GUIDs *)
Fixpoint nibbles (w : nat) (n : N) : list N := match w with O => [] | S k => nibbles k (n / 16) ++ [n mod 16]%N end.
Lemma nibbles_facts w : forall n, (n < 16 ^ N.of_nat w)%N ->
  length (nibbles w n) = w /\ below 16 (nibbles w n) /\ value_of 16 (nibbles w n) = n /\ hex_digits w n = map hex_lower (nibbles w n).
Proof.
  induction w as [|w IH]; intros n H; [cbn in *; repeat split; try constructor; lia|].
  rewrite Nat2N.inj_succ, N.pow_succ_r in H by lia.
  destruct (IH (n / 16)%N) as (A & B & C & D); [apply N.div_lt_upper_bound; lia|].
  cbn [nibbles hex_digits]. rewrite app_length, A, D, map_app, value_of_app, C. cbn [length value_of map].
  split; [lia|]. split; [apply below_app; split; [exact B|constructor; [|constructor]]; lia|]. split; [|reflexivity].
  change (16 ^ N.of_nat 1)%N with 16%N. change (16 ^ N.of_nat 0)%N with 1%N. lia.
Qed.
Lemma slice_map {A B} (f : A -> B) a b l : slice a b (map f l) = map f (slice a b l).
Proof. unfold slice. now rewrite skipn_map, firstn_map. Qed.
Lemma guid_wire n : (n < 2 ^ 128)%N -> guid_form n (write_guid n).
Proof.
  intros H. destruct (nibbles_facts 32 n) as (A & B & C & D); [exact H|]. set (l := nibbles 32 n) in *.
  assert (slice 0 8 l ++ slice 8 12 l ++ slice 12 16 l ++ slice 16 20 l ++ slice 20 32 l = l) as E.
  { change (slice 0 8 l) with (firstn 8 l). rewrite !app_assoc, (slice_join 8 12), (slice_join 12 16), (slice_join 16 20), (slice_join 20 32) by lia.
    apply firstn_all2. lia. }
  exists (slice 0 8 l), (slice 8 12 l), (slice 12 16 l), (slice 16 20 l), (slice 20 32 l).
  split; [cbn [map]; unfold slice; rewrite !firstn_length, !skipn_length, A; reflexivity|]. rewrite E. split; [exact B|]. split; [exact C|].
  unfold write_guid. rewrite D, !slice_map.
  assert (forall a b, below 16 (slice a b l)) as Hs by (intros; now apply Forall_slice).
  rewrite !shown16 by apply Hs. reflexivity.
Qed.

(** ** Base64 *)
Lemma pow64 x y p : 6 * x = 8 * y + 2 * p -> (64 ^ N.of_nat x = 256 ^ N.of_nat y * 4 ^ N.of_nat p)%N.
Proof.
  intros H. change 64%N with (2 ^ 6)%N. change 256%N with (2 ^ 8)%N. change 4%N with (2 ^ 2)%N.
  rewrite <- !N.pow_mul_r, <- N.pow_add_r. f_equal. lia.
Qed.
Lemma base64_wire_n k : forall l, length l <= k -> bytes_ok l -> base64_form l (b64_encode l).
Proof.
  induction k as [|k IH]; intros l HL Hb.
  - destruct l; [|cbn in HL; lia]. exists [], 0. split; [constructor|]. repeat split; try reflexivity. lia.
  - destruct l as [|a [|b [|c t]]].
    + apply IH; [cbn; lia|exact Hb].
    + inversion Hb; subst. exists [a / 4; a mod 4 * 16]%N, 2.
      assert (below 64 [a / 4; a mod 4 * 16]%N) as B by (repeat apply Forall_cons; try apply Forall_nil; cbn beta; lia).
      split; [exact B|]. split; [lia|]. split; [reflexivity|]. split; [reflexivity|]. split; [|rewrite shown64 by exact B; reflexivity].
      cbn [value_of length]. change (64 ^ N.of_nat 1)%N with 64%N. change (64 ^ N.of_nat 0)%N with 1%N.
      change (256 ^ N.of_nat 0)%N with 1%N. change (4 ^ N.of_nat 2)%N with 16%N. lia.
    + inversion Hb as [|? ? Ha Hb']; subst. inversion Hb' as [|? ? Hbb _]; subst.
      exists [a / 4; a mod 4 * 16 + b / 16; b mod 16 * 4]%N, 1.
      assert (below 64 [a / 4; a mod 4 * 16 + b / 16; b mod 16 * 4]%N) as B by (repeat apply Forall_cons; try apply Forall_nil; cbn beta; lia).
      split; [exact B|]. split; [lia|]. split; [reflexivity|]. split; [reflexivity|]. split; [|rewrite shown64 by exact B; reflexivity].
      cbn [value_of length]. change (64 ^ N.of_nat 2)%N with 4096%N. change (64 ^ N.of_nat 1)%N with 64%N. change (64 ^ N.of_nat 0)%N with 1%N.
      change (256 ^ N.of_nat 1)%N with 256%N. change (256 ^ N.of_nat 0)%N with 1%N. change (4 ^ N.of_nat 1)%N with 4%N. lia.
    + inversion Hb as [|? ? Ha Hb']; subst. inversion Hb' as [|? ? Hbb Hb'']; subst. inversion Hb'' as [|? ? Hc Ht]; subst.
      destruct (IH t) as (ds & p & B & Hp & Hm & Hl & Hv & Hs); [cbn [length] in HL; lia|exact Ht|].
      set (q := [a / 4; a mod 4 * 16 + b / 16; b mod 16 * 4 + c / 64; c mod 64]%N).
      assert (below 64 q) as Bq by (repeat apply Forall_cons; try apply Forall_nil; cbn beta; lia).
      exists (q ++ ds), p. split; [apply below_app; now split|]. split; [exact Hp|]. rewrite app_length. cbn [length q].
      split; [replace (4 + length ds + p) with (length ds + p + 1 * 4) by lia; rewrite Nat.mod_add by lia; exact Hm|].
      split; [unfold q; cbn [length]; lia|]. split.
      * rewrite value_of_app, (pow64 _ _ _ Hl), Hv. change (a :: b :: c :: t) with ([a; b; c] ++ t). rewrite value_of_app.
        assert (value_of 64 q = value_of 256 [a; b; c]) as Eq.
        { unfold q. cbn [value_of length]. change (64 ^ N.of_nat 3)%N with 262144%N. change (64 ^ N.of_nat 2)%N with 4096%N.
          change (64 ^ N.of_nat 1)%N with 64%N. change (64 ^ N.of_nat 0)%N with 1%N. change (256 ^ N.of_nat 2)%N with 65536%N.
          change (256 ^ N.of_nat 1)%N with 256%N. change (256 ^ N.of_nat 0)%N with 1%N. lia. }
        rewrite Eq. ring.
      * rewrite shown_app, shown64 by exact Bq. cbn [b64_encode]. rewrite Hs. reflexivity.
Qed.
Lemma base64_wire l : bytes_ok l -> base64_form l (b64_encode l).
Proof. apply (base64_wire_n (length l)). lia. Qed.

(** ** Dates *)
Lemma datetime_wire d : valid_datetime d -> datetime_form d (write_datetime d).
Proof.
  intros H. pose proof (day_bound d H) as Hday. destruct H as (H1 & H2 & H3 & H4 & H5 & H6 & H7 & (k & Hk & Hn) & Hz).
  change (10 ^ N.of_nat 2)%N with 100%N in *.
  exists (dec_pad 4 (dt_year d)), (dec_pad 2 (dt_month d)), (dec_pad 2 (dt_day d)), (dec_pad 2 (dt_hour d)),
    (dec_pad 2 (dt_minute d)), (dec_pad 2 (dt_second d)), (frac_text d), (zone_text (dt_tz d)).
  split; [apply fixed_pad; change (10 ^ N.of_nat 4)%N with 10000%N; lia|].
  do 5 (split; [apply fixed_pad; change (10 ^ N.of_nat 2)%N with 100%N; lia|]).
  split.
  { unfold fraction_form, frac_text. destruct (N.eqb_spec (dt_micro d) 0) as [Em|Em], (N.eqb_spec (dt_nano d) 0) as [En|En]; cbn [andb orb negb].
    - reflexivity.
    - exists (dec_pad 6 (dt_micro d) ++ dec (dt_nano d / 100)). split; [|reflexivity].
      destruct (fixed_pad 5 (dt_micro d)) as (x & Lx & Bx & Vx & Sx); [exact H7|].
      rewrite dec_small, Hn, N.div_mul by (rewrite ?Hn, ?N.div_mul; lia).
      exists (x ++ [k]). rewrite app_length, Lx. split; [reflexivity|]. split; [apply below_app; split; [exact Bx|constructor; [exact Hk|constructor]]|].
      split; [rewrite value_of_app, Vx; cbn; lia|]. rewrite shown_app, Sx, (shown10 [k]) by (constructor; [exact Hk|constructor]). reflexivity.
    - exists (dec_pad 6 (dt_micro d)). split; [apply fixed_pad; exact H7|]. now rewrite app_nil_r.
    - exists (dec_pad 6 (dt_micro d) ++ dec (dt_nano d / 100)). split; [|reflexivity].
      destruct (fixed_pad 5 (dt_micro d)) as (x & Lx & Bx & Vx & Sx); [exact H7|].
      rewrite dec_small, Hn, N.div_mul by (rewrite ?Hn, ?N.div_mul; lia).
      exists (x ++ [k]). rewrite app_length, Lx. split; [reflexivity|]. split; [apply below_app; split; [exact Bx|constructor; [exact Hk|constructor]]|].
      split; [rewrite value_of_app, Vx; cbn; lia|]. rewrite shown_app, Sx, (shown10 [k]) by (constructor; [exact Hk|constructor]). reflexivity. }
  split.
  { destruct (dt_tz d) as [m|]; [|reflexivity]. unfold zone_form. destruct (Z.eqb_spec m 0) as [->|Hm]; [reflexivity|].
    exists (dec_pad 2 (Z.abs_N m / 60)), (dec_pad 2 (Z.abs_N m mod 60)).
    do 2 (split; [apply fixed_pad; change (10 ^ N.of_nat 2)%N with 100%N; lia|]).
    rewrite zone_text_some by assumption. destruct (m <? 0)%Z; reflexivity. }
  rewrite write_datetime_text, body_app. reflexivity.
Qed.

(** ** Durations *)
Lemma lstrip_head p s c t : lstrip p s = c :: t -> p c = false.
Proof. induction s as [|x s IH]; cbn [lstrip]; [discriminate|]. destruct (p x) eqn:E; [exact IH|]. intros F. congruence. Qed.
Lemma rstrip_last p s a c : rstrip p s = a ++ [c] -> p c = false.
Proof.
  unfold rstrip. intros E. apply (f_equal (@rev N)) in E. rewrite rev_involutive, rev_app_distr in E. now apply lstrip_head in E.
Qed.
Lemma part_wire n u c : chars u = [c] -> part_form n u (if (n =? 0)%N then [] else dec n ++ [c]).
Proof.
  intros E. unfold part_form. rewrite E. destruct (N.eqb_spec n 0) as [->|H]; [now left|].
  right. split; [exact H|]. exists (dec n). split; [apply numeral_dec|reflexivity].
Qed.
Lemma seconds_wire t : (t < 600000000)%N -> (t mod 100000000 <> 0 \/ t = 0)%N ->
  exists frac, below 10 frac /\ length frac <= 7 /\ last frac 1%N <> 0%N /\ frac_ticks frac = (t mod 10000000)%N
    /\ (t = 0%N -> frac = []) /\ exists x, numeral (t / 10000000) x
       /\ sec_text t = x ++ (match frac with [] => [] | _ => chars "." ++ shown digits10 frac end) ++ chars "S".
Proof.
  intros H Hg. unfold sec_text. set (q := (t / 10000000)%N). set (f := (t mod 10000000)%N).
  destruct (N.eq_dec f 0) as [Hf|Hf].
  - exists []. split; [constructor|]. split; [cbn; lia|]. split; [cbn; lia|]. split; [rewrite Hf; reflexivity|]. split; [reflexivity|].
    exists (dec q). split; [apply numeral_dec|]. change (chars "S") with [83%N]. cbn [app].
    assert (padl 1 (rstrip strip_set (dec q ++ 46%N :: dec_pad 7 f)) = dec q) as ->; [|reflexivity].
    change (46%N :: dec_pad 7 f) with ([46]%N ++ dec_pad 7 f).
    rewrite Hf. rewrite rstrip_all by (vm_compute; reflexivity).
    destruct (N.eq_dec t 0) as [Ht|Ht]; [subst t; vm_compute; reflexivity|].
    assert (q mod 10 <> 0)%N as Hq by (unfold q, f in *; lia).
    assert (exists a c, dec q = a ++ [c] /\ strip_set c = false) as (a & c & E & Hc).
    { destruct (N.lt_ge_cases q 10).
      - rewrite dec_small by lia. exists [], (48 + q)%N. split; [reflexivity|]. unfold strip_set. lia.
      - rewrite dec_step by lia. eexists _, _. split; [reflexivity|]. unfold strip_set. lia. }
    rewrite E, rstrip_keep by exact Hc. unfold padl. rewrite app_length. cbn [length].
    replace (1 - (length a + 1)) with 0 by lia. reflexivity.
  - destruct (frac_strip f ltac:(unfold f in *; lia)) as (G1 & G2 & G3 & G4).
    set (g := rstrip strip_set (dec_pad 7 f)) in *.
    destruct (digit_text g G4) as (A & B & C & D). set (ds := map (fun c => (c - 48)%N) g) in *.
    exists ds. split; [exact A|]. split; [now rewrite B|].
    assert (exists a c, g = a ++ [c] /\ strip_set c = false) as (a & c & Eg & Hc).
    { destruct (exists_last G1) as (a & c & E). exists a, c. split; [exact E|]. apply (rstrip_last _ (dec_pad 7 f) a c). exact E. }
    split.
    { unfold ds. rewrite Eg, map_app. cbn [map]. rewrite last_last. unfold strip_set in Hc. assert (is_digit c = true) as Hd.
      { rewrite Eg, forallb_app in G4. cbn [forallb] in G4. rewrite andb_true_r in G4. now apply andb_prop in G4. }
      unfold is_digit in Hd. lia. }
    split.
    { unfold frac_ticks. transitivity (digits_val (ljust7 g)); [|rewrite G3; apply dec_pad_val].
      unfold ljust7. rewrite digits_val_app, value_of_app, C, B, !repeat_length, digits_val_zeros. f_equal.
      clear. generalize (7 - length g) as k. induction k as [|k IH]; [reflexivity|]. cbn [repeat value_of]. lia. }
    split; [intros E0; exfalso; apply Hf; unfold f; rewrite E0; reflexivity|].
    exists (dec q). split; [apply numeral_dec|]. change (chars "S") with [83%N]. change (chars ".") with [46%N].
    destruct ds as [|d0 ds'] eqn:Eds; [destruct g; [congruence|discriminate]|]. rewrite <- D.
    assert (padl 1 (rstrip strip_set (dec q ++ [46]%N ++ dec_pad 7 f)) = dec q ++ 46%N :: g) as ->.
    { rewrite app_assoc, rstrip_app by exact G1. fold g. rewrite <- app_assoc. unfold padl. rewrite app_length. cbn [length app].
      replace (1 - (length (dec q) + S (length g))) with 0 by lia. reflexivity. }
    rewrite <- !app_assoc. reflexivity.
Qed.
Lemma duration_wire ns : (ns / 100 mod 100000000 <> 0 \/ ns / 100 mod 600000000 = 0)%Z ->
  exists d h m sec frac, duration_form (ns / 100 <? 0)%Z d h m sec frac (write_duration ns)
    /\ ((((d * 24 + h) * 60 + m) * 60 + sec) * 10000000 + frac_ticks frac = Z.abs_N (ns / 100))%N.
Proof.
  intros Hg. rewrite write_duration_text. set (t := Z.abs_N (ns / 100)) in *. unfold day_text. cbv zeta.
  assert (t mod 100000000 <> 0 \/ t mod 600000000 = 0)%N as Hg' by (unfold t; lia). clear Hg.
  generalize dependent t. intros t Hg.
  set (d := (t / 864000000000)%N). set (t1 := (t mod 864000000000)%N).
  set (h := (t1 / 36000000000)%N). set (m := (t1 mod 36000000000 / 600000000)%N). set (t3 := (t1 mod 36000000000 mod 600000000)%N).
  assert (t = d * 864000000000 + t1 /\ t1 < 864000000000)%N as (Et & Lt) by (unfold d, t1; lia).
  assert (t1 = h * 36000000000 + m * 600000000 + t3 /\ t3 < 600000000 /\ m < 60 /\ h < 24)%N as (E1 & L3 & Lm & Lh) by (unfold h, m, t3; lia).
  clearbody d t1 h m t3.
  destruct (seconds_wire t3 L3) as (frac & F1 & F2 & F3 & F4 & F5 & x & X1 & X2); [lia|].
  exists d, h, m, (t3 / 10000000)%N, frac. split; [|rewrite F4; lia].
  split; [lia|]. split; [exact F1|]. split; [exact F2|]. split; [exact F3|].
  destruct (N.eqb_spec t1 0) as [Z1|Z1]; destruct (N.eqb_spec d 0) as [Zd|Zd]; cbn [andb negb].
  (* zero *)
  - exists [], [], [], (sec_text t3). subst d t1. assert (h = 0 /\ m = 0 /\ t3 = 0)%N as (-> & -> & ->) by lia.
    split; [now left|]. split; [now left|]. split; [now left|]. split; [right; exists x; now split|]. split; [discriminate|].
    destruct (ns / 100 <? 0)%Z; reflexivity.
  (* whole days *)
  - exists (dec d ++ [68]%N), [], [], []. assert (h = 0 /\ m = 0 /\ t3 = 0)%N as (-> & -> & ->) by lia.
    split; [right; split; [exact Zd|]; exists (dec d); split; [apply numeral_dec|reflexivity]|].
    split; [now left|]. split; [now left|]. split; [left; rewrite (F5 eq_refl); split; [reflexivity|now split]|].
    split; [destruct (dec d); discriminate|]. destruct (ns / 100 <? 0)%Z; reflexivity.
  (* time only or both *)
  - exists [], (if (h =? 0)%N then [] else dec h ++ [72]%N), (if (m =? 0)%N then [] else dec m ++ [77]%N),
      (if (negb (t3 =? 0) || ((h =? 0) && (m =? 0)))%N then sec_text t3 else []).
    split; [now left|]. split; [now apply part_wire|]. split; [now apply part_wire|].
    split.
    { destruct (negb (t3 =? 0) || ((h =? 0) && (m =? 0)))%N eqn:E; [right; exists x; now split|].
      left. assert (t3 = 0)%N by lia. subst t3. rewrite (F5 eq_refl). split; [reflexivity|now split]. }
    assert ((if (h =? 0)%N then [] else dec h ++ [72]%N) ++ (if (m =? 0)%N then [] else dec m ++ [77]%N)
      ++ (if (negb (t3 =? 0) || ((h =? 0) && (m =? 0)))%N then sec_text t3 else []) <> []) as Hne.
    { destruct (h =? 0)%N; [|destruct (dec h); discriminate]. destruct (m =? 0)%N; [|destruct (dec m); discriminate].
      cbn [andb]. rewrite orb_true_r, X2. change (chars "S") with [83%N]. cbn [app]. intros E. apply app_eq_nil in E. destruct E as [_ E].
      apply app_eq_nil in E. now destruct E. }
    cbn [app]. split; [exact Hne|]. unfold hms_text.
    match goal with |- context [match ?l with [] => _ | _ => _ end] => destruct l eqn:El; [congruence|] end.
    destruct (ns / 100 <? 0)%Z; reflexivity.
  - exists (dec d ++ [68]%N), (if (h =? 0)%N then [] else dec h ++ [72]%N), (if (m =? 0)%N then [] else dec m ++ [77]%N),
      (if (negb (t3 =? 0) || ((h =? 0) && (m =? 0)))%N then sec_text t3 else []).
    split; [right; split; [exact Zd|]; exists (dec d); split; [apply numeral_dec|reflexivity]|].
    split; [now apply part_wire|]. split; [now apply part_wire|].
    split.
    { destruct (negb (t3 =? 0) || ((h =? 0) && (m =? 0)))%N eqn:E; [right; exists x; now split|].
      left. assert (t3 = 0)%N by lia. subst t3. rewrite (F5 eq_refl). split; [reflexivity|now split]. }
    assert ((if (h =? 0)%N then [] else dec h ++ [72]%N) ++ (if (m =? 0)%N then [] else dec m ++ [77]%N)
      ++ (if (negb (t3 =? 0) || ((h =? 0) && (m =? 0)))%N then sec_text t3 else []) <> []) as Hne.
    { destruct (h =? 0)%N; [|destruct (dec h); discriminate]. destruct (m =? 0)%N; [|destruct (dec m); discriminate].
      cbn [andb]. rewrite orb_true_r, X2. change (chars "S") with [83%N]. cbn [app]. intros E. apply app_eq_nil in E. destruct E as [_ E].
      apply app_eq_nil in E. now destruct E. }
    split; [destruct (dec d); discriminate|]. unfold hms_text.
    match goal with |- context [match ?l with [] => _ | _ => _ end] => destruct l eqn:El; [congruence|] end.
    destruct (ns / 100 <? 0)%Z; reflexivity.
Qed.

(** ** Strings *)
Lemma unit_wire u : (u < 65536)%N -> unit_escape u (esc_unit u).
Proof.
  intros H. set (ds := [u / 4096; u / 256 mod 16; u / 16 mod 16; u mod 16]%N).
  assert (below 16 ds) as B by (repeat apply Forall_cons; try apply Forall_nil; cbn beta; lia).
  exists ds. split; [reflexivity|]. split; [exact B|]. split.
  - unfold ds. cbn [value_of length]. change (16 ^ N.of_nat 3)%N with 4096%N. change (16 ^ N.of_nat 2)%N with 256%N.
    change (16 ^ N.of_nat 1)%N with 16%N. change (16 ^ N.of_nat 0)%N with 1%N. lia.
  - rewrite shown16_upper by exact B. reflexivity.
Qed.
Lemma units_wire c : (c < 0x110000)%N -> code_units c (utf16 c).
Proof.
  intros H. unfold code_units, utf16. destruct (N.ltb_spec c 0x10000); [now left|]. right.
  exists ((c - 0x10000) / 1024)%N, ((c - 0x10000) mod 1024)%N. split; [reflexivity|]. lia.
Qed.
Lemma string_wire s : pystr s -> string_form s (serialize_string s).
Proof.
  intros H. rewrite serialize_escs. induction s as [|a r IH]; [exists []; split; [constructor|reflexivity]|].
  inversion H as [|? ? Ha Hr]; subst. destruct (IH Hr) as (ps & F & E). exists (tok a r :: ps). split; [|cbn [escs concat]; now rewrite E].
  constructor; [|exact F]. destruct (tok_cases a r Ha) as [(T & _ & _)|(_ & T & _)]; [left; exact T|].
  right. exists (utf16 a), (map esc_unit (utf16 a)). split; [now apply units_wire|].
  split; [|rewrite T; apply flat_map_concat_map].
  pose proof (utf16_bound a Ha) as Hb. clear - Hb. revert Hb. generalize (utf16 a) as us. intros us Hb. induction Hb; cbn [map]; constructor; auto. now apply unit_wire.
Qed.
