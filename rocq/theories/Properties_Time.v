(** C58: arithmetic on dates and durations is exact to the nanosecond. *)
From Verif Require Import Base Model_Time Spec_Time Proofs_Time.
Local Open Scope Z_scope.

(** ** Durations *)
(** PSDuration(nanoseconds=n) and PSDuration(value, nanoseconds=n): the length is exact, and there is one form for each. *)
Theorem C58_made : (forall n, lasting n (duration_of n)) /\
  (forall v n m, length_of v = Some m -> lasting (n + m) (duration_from v n)) /\
  (forall v w n, is_duration v -> is_duration w -> proper v -> proper w -> length_of v = Some n -> length_of w = Some n -> v = w).
Proof.
  split; [exact duration_of_lasting|]. split; [|exact one_form]. intros v n m L.
  destruct v as [u|u k|u z|u z k|k]; cbn [length_of] in L; try discriminate; injection L as <-; cbn [duration_from].
  - pose proof (new_duration_lasting n u 0) as H. now rewrite Z.add_0_r in H.
  - apply new_duration_lasting.
Qed.
Print Assumptions C58_made.
Definition ex_long := Duration 86400000000 700.
Definition ex_short := Duration (-1) 400.
Example C58_made_ex : duration_of 86400000000700 = Ok ex_long /\ duration_of (-600) = Ok ex_short /\
  duration_from ex_long 400 = Ok (Duration 86400000001 100) /\ duration_of (10 ^ 24) = Err OverflowError.
Proof. vm_compute. auto. Qed.

(** PSDuration + timedelta or PSDuration. *)
Theorem C58_sum : forall v w n m, is_duration v -> length_of v = Some n -> length_of w = Some m -> lasting (n + m) (add v w).
Proof. exact add_lasting. Qed.
Print Assumptions C58_sum.
(** Differences in which either side is a PSDuration; with the PSDuration on the right its minus has to exist. *)
Theorem C58_difference : forall v w n m, length_of v = Some n -> length_of w = Some m ->
  is_duration v \/ (is_duration w /\ fits (- m)) -> lasting (n - m) (sub v w).
Proof. intros v w n m L M [D|[D F]]; [now apply sub_lasting|now apply rsub_lasting]. Qed.
Print Assumptions C58_difference.
Theorem C58_minus : forall v n, is_duration v -> length_of v = Some n -> lasting (- n) (neg v) /\ pos v = Ok v.
Proof. intros v n D L. split; [now apply neg_lasting|]. destruct D as (us & ns & ->). reflexivity. Qed.
Print Assumptions C58_minus.
Example C58_arithmetic_ex : add ex_long ex_short = Ok (Duration 86400000000 100) /\ sub ex_long ex_short = Ok (Duration 86400000001 300) /\
  sub (Delta 5) ex_short = Ok (Duration 5 600) /\ neg ex_short = Ok (Duration 0 600) /\
  proper ex_long /\ proper ex_short /\ length_of ex_short = Some (-600).
Proof. repeat (apply conj); try (vm_compute; reflexivity); unfold ex_long, ex_short, proper, fits, day; lia. Qed.

(** All six comparisons, on either side. *)
Theorem C58_compared : forall o v w n m, is_duration v \/ is_duration w -> length_of v = Some n -> length_of w = Some m ->
  answers (says o n m) (compare o v w).
Proof. exact compare_answers. Qed.
Print Assumptions C58_compared.
Example C58_compared_ex : compare Olt ex_short (Delta 0) = Ok true /\ compare Oge (Delta 0) ex_short = Ok true /\
  compare Oeq (Delta 7) (Duration 7 0) = Ok true /\ compare One (Delta 7) (Duration 7 1) = Ok true.
Proof. vm_compute. auto. Qed.

(** The laws that follow. *)
Theorem C58_laws : forall a b c, is_duration a -> is_duration b -> is_duration c -> proper a -> proper b -> proper c ->
  add a b = add b a /\
  (forall s, add a b = Ok s -> sub s b = Ok a) /\
  (forall d, sub a b = Ok d -> add d b = Ok a) /\
  (forall m, neg a = Ok m -> neg m = Ok a) /\
  (forall s t, add a b = Ok s -> add b c = Ok t -> add s c = add a t) /\
  (forall d, sub b a = Ok d -> (compare Olt a b = Ok true <-> compare Ogt d (Delta 0) = Ok true)) /\
  (compare Oeq a b = Ok true <-> a = b).
Proof.
  intros a b c Da Db Dc Pa Pb Pc.
  assert (La : exists n, length_of a = Some n) by (destruct Da as (u & k & ->); cbn; eauto).
  assert (Lb : exists n, length_of b = Some n) by (destruct Db as (u & k & ->); cbn; eauto).
  assert (Lc : exists n, length_of c = Some n) by (destruct Dc as (u & k & ->); cbn; eauto).
  destruct La as [n La]. destruct Lb as [m Lb]. destruct Lc as [l Lc].
  assert (Same : forall x r r', lasting x r -> lasting x r' -> r = r').
  { intros x r r' [(F & v & -> & D & P & L)|[F ->]] [(F' & v' & -> & D' & P' & L')|[F' ->]]; try contradiction; [|reflexivity].
    f_equal. now apply (one_form v v' x). }
  assert (Got : forall x r v, lasting x r -> r = Ok v -> is_duration v /\ proper v /\ length_of v = Some x).
  { intros x r v [(F & w & -> & D & P & L)|[F ->]] E; [|discriminate]. injection E as <-. auto. }
  assert (Is : forall x v, is_duration v -> proper v -> length_of v = Some x -> lasting x (Ok v)).
  { intros x v D P L. left. split; [|exists v; auto]. destruct D as (u & k & ->). cbn [length_of proper] in *. injection L as <-. apply P. }
  split; [|split; [|split; [|split; [|split; [|split]]]]].
  - apply (Same (n + m)); [now apply add_lasting|]. rewrite Z.add_comm. now apply add_lasting.
  - intros s E. destruct (Got _ _ _ (add_lasting a b n m Da La Lb) E) as (Ds & Ps & Ls).
    apply (Same n); [|now apply Is]. pose proof (sub_lasting s b (n + m) m Ds Ls Lb) as H. now replace (n + m - m) with n in H by lia.
  - intros d E. destruct (Got _ _ _ (sub_lasting a b n m Da La Lb) E) as (Ds & Ps & Ls).
    apply (Same n); [|now apply Is]. pose proof (add_lasting d b (n - m) m Ds Ls Lb) as H. now replace (n - m + m) with n in H by lia.
  - intros x E. destruct (Got _ _ _ (neg_lasting a n Da La) E) as (Ds & Ps & Ls).
    apply (Same n); [|now apply Is]. pose proof (neg_lasting x (- n) Ds Ls) as H. now rewrite Z.opp_involutive in H.
  - intros s t E E'. destruct (Got _ _ _ (add_lasting a b n m Da La Lb) E) as (Ds & Ps & Ls).
    destruct (Got _ _ _ (add_lasting b c m l Db Lb Lc) E') as (Dt & Pt & Lt).
    apply (Same (n + m + l)); [now apply add_lasting|]. rewrite <- Z.add_assoc. now apply add_lasting.
  - intros d E. destruct (Got _ _ _ (sub_lasting b a m n Db Lb La) E) as (Ds & Ps & Ls).
    destruct (compare_answers Olt a b n m (or_introl Da) La Lb) as (x & -> & X).
    destruct (compare_answers Ogt d (Delta 0) (m - n) 0 (or_introl Ds) Ls eq_refl) as (y & -> & Y). cbn [says] in X, Y.
    split; intros H; injection H as ->; f_equal; [apply Y; assert (n < m) by now apply X|apply X; assert (m - n > 0) by now apply Y]; lia.
  - destruct (compare_answers Oeq a b n m (or_introl Da) La Lb) as (x & -> & X). split.
    + intros E. injection E as ->. assert (n = m) as -> by now apply X. now apply (one_form a b m).
    + intros ->. f_equal. apply X. cbn [says]. congruence.
Qed.
Print Assumptions C58_laws.
Example C58_laws_ex : add ex_long ex_short = add ex_short ex_long /\ (let! s := add ex_long ex_short in sub s ex_short) = Ok ex_long /\
  (let! m := neg ex_short in neg m) = Ok ex_short /\ compare Olt ex_short ex_long = Ok true.
Proof. vm_compute. auto. Qed.

(** ** Dates *)
(** PSDateTime + duration and PSDateTime - duration, plain or with nanoseconds: exact, on the same clock.  Results within the
    first microsecond of year 1 are left out (see below). *)
Theorem C58_moved_partial : forall d t n m, is_datetime d -> proper d -> proper t -> clock d = Some n -> length_of t = Some m ->
  (~ 0 <= n + m < 1000 -> showing (n + m) (zone_of d) (add d t)) /\
  (~ 0 <= n - m < 1000 -> showing (n - m) (zone_of d) (sub d t)).
Proof.
  intros d t n m (us & z & ns & ->) (Pd & Pn & Pz) Pt C L. cbn [clock zone_of] in *. injection C as <-.
  assert (A : forall v us' ns', as_delta v = Some (us', ns') -> proper v -> 0 <= ns' < 1000).
  { intros [u|u k|u zz|u zz k|k] us' ns' E P; cbn [as_delta proper] in *; inversion E; subst; [lia|apply P]. }
  assert (T : forall us' ns', 0 <= ns' < 1000 -> ~ 0 <= us * 1000 + ns + (us' * 1000 + ns') < 1000 ->
    showing (us * 1000 + ns + (us' * 1000 + ns')) z (t_add us z ns us' ns')).
  { intros us' ns' H K. apply t_add_showing; auto. lia. }
  split; intros K.
  - destruct t as [u|u k|u zz|u zz k|k]; cbn [length_of] in L; try discriminate; injection L as <-; cbn [add as_delta].
    + pose proof (T u 0 ltac:(lia)) as H. rewrite Z.add_0_r in H. auto.
    + apply T; [exact (A (Duration u k) u k eq_refl Pt)|exact K].
  - assert (S : forall x, x = us * 1000 + ns - m -> ~ dated x -> dated x \/ ~ fits (- m) -> ~ dated (us * 1000 + ns - m)) by (intros; now subst).
    destruct t as [u|u k|u zz|u zz k|k]; cbn [length_of] in L; try discriminate; injection L as <-; cbn [sub]; unfold t_sub_delta; cbn [neg].
    + unfold new_delta. destruct (delta_ok (- u)) eqn:E; cbn [bind as_delta].
      * pose proof (T (- u) 0 ltac:(lia)) as H. replace (us * 1000 + ns + (- u * 1000 + 0)) with (us * 1000 + ns - u * 1000) in H by lia. auto.
      * right. split; [|reflexivity]. cbn [proper] in Pt. unfold delta_ok, fits, dated, day, us_per_day, us_per_second in *. lia.
    + destruct (d_neg_lasting u k) as [(F & v & -> & (a & b & ->) & P & L)|[F ->]]; cbn [bind as_delta].
      * cbn [length_of] in L. injection L as L. pose proof (T a b (A (Duration a b) a b eq_refl P)) as H. rewrite L in H.
        replace (us * 1000 + ns + - (u * 1000 + k)) with (us * 1000 + ns - (u * 1000 + k)) in H by lia. auto.
      * right. split; [|reflexivity]. destruct Pt as [Pt _]. unfold fits, dated, day in *. lia.
Qed.
Print Assumptions C58_moved_partial.
(** 1 January 2000, 700 ns past midnight, one hour east. *)
Definition ex_date := DateTime 63082281600000000 (Some 3600000000) 700.
Example C58_moved_ex : proper ex_date /\ add ex_date ex_long = Ok (DateTime 63082368000000001 (Some 3600000000) 400) /\
  sub ex_date ex_long = Ok (DateTime 63082195200000000 (Some 3600000000) 0) /\
  sub ex_date (Delta 1) = Ok (DateTime 63082281599999999 (Some 3600000000) 700) /\
  add ex_date (Delta 999999999999999999) = Err OverflowError.
Proof. split; [unfold ex_date, proper, dated, offset_ok, day; lia|]. vm_compute. auto. Qed.

(** PSDateTime - datetime or PSDateTime: the exact time between the two moments; a date with a clock and one without cannot
    be compared. *)
Theorem C58_between : forall d e a n b m, is_datetime d -> proper d -> proper e -> moment d = Some (a, n) -> moment e = Some (b, m) ->
  (a = b -> fits (n - m) /\ lasting (n - m) (sub d e)) /\ (a <> b -> sub d e = Err TypeError).
Proof.
  intros d e a n b m (us & z & ns & ->) Pd Pe M M'.
  assert (O : forall zz, offset_ok zz -> match zz with Some off => - day < off * 1000 < day | None => True end) by (intros [?|] H; exact H).
  assert (X : exists us' z' ns', 0 <= ns' < 1000 /\ dated (us' * 1000 + ns') /\ offset_ok z' /\ moment e = moment (DateTime us' z' ns') /\
    sub (DateTime us z ns) e = t_sub_date us z ns us' z' ns').
  { destruct e as [u|u k|u zz|u zz k|k]; cbn [moment clock zone_of proper] in *; try discriminate.
    - exists u, zz, 0. rewrite Z.add_0_r. destruct Pe as [P1 P2]. split; [lia|]. split; [exact P1|]. split; [exact P2|]. split; reflexivity.
    - exists u, zz, k. destruct Pe as (P1 & P2 & P3). split; [exact P2|]. split; [exact P1|]. split; [exact P3|]. split; reflexivity. }
  destruct X as (us' & z' & ns' & N' & D' & Z' & E & ->). rewrite E in M'. clear E Pe e. destruct Pd as (D & N & Z0).
  assert (U : forall u zz k, moment (DateTime u zz k) = Some (match zz with Some _ => true | None => false end, utc u zz * 1000 + k)).
  { intros u [off|] k; unfold moment, utc; cbn [clock zone_of]; [f_equal; f_equal; lia|reflexivity]. }
  rewrite U in M, M'. injection M as <- <-. injection M' as <- <-. split; intros H.
  - assert (F : fits (utc us z * 1000 + ns - (utc us' z' * 1000 + ns')) /\ fits (utc us z * 1000 - utc us' z' * 1000)).
    { unfold fits, dated, offset_ok, day, utc in *. destruct z, z'; lia. }
    split; [apply F|]. apply difference_lasting; [destruct z, z'; try discriminate; reflexivity|apply F|lia].
  - unfold t_sub_date, date_difference. replace (same_awareness z z') with false by (destruct z, z'; try reflexivity; now elim H). reflexivity.
Qed.
Print Assumptions C58_between.
Example C58_between_ex : let e := DateTime 63082281600000000 (Some 0) 800 in proper e /\ moment e = Some (true, 63082281600000000800) /\
  sub ex_date e = Ok (Duration (-3600000001) 900) /\ sub ex_date (Date 63082281600000000 None) = Err TypeError /\
  sub ex_date (Date 63082281600000000 (Some 3600000000)) = Ok (Duration 0 700).
Proof. cbv zeta. split; [unfold proper, dated, offset_ok, day; lia|]. vm_compute. auto. Qed.

(** There and back again. *)
Theorem C58_and_back : forall d e t n m l, is_datetime d -> is_datetime e -> proper d -> proper e -> proper t ->
  clock d = Some n -> clock e = Some m -> length_of t = Some l -> 1000 <= n ->
  (forall x, add d t = Ok x -> ~ 0 <= n + l < 1000 -> sub x t = Ok d /\ exists y, sub x d = Ok y /\ length_of y = Some l) /\
  (zone_of d = zone_of e -> exists y, sub d e = Ok y /\ length_of y = Some (n - m) /\ add e y = Ok d).
Proof.
  intros d e t n m l Dd De Pd Pe Pt Cd Ce Lt Hn.
  assert (DD : dated n) by (destruct Dd as (u & z & k & ->); cbn [clock proper] in *; injection Cd as <-; apply Pd).
  assert (Back : forall v w, is_datetime v -> proper v -> clock v = Some n -> zone_of v = zone_of d -> showing n (zone_of d) (Ok w) -> v = w -> True) by auto.
  assert (Is : forall r, showing n (zone_of d) r -> r = Ok d).
  { intros r [(_ & v & -> & D & P & C & Z)|[B _]]; [|contradiction]. f_equal. now apply (date_form v d n (zone_of d)). }
  assert (Mo : forall v w a b, is_datetime v -> is_datetime w -> clock v = Some a -> clock w = Some b -> zone_of v = zone_of w ->
    exists s p q, moment v = Some (s, p) /\ moment w = Some (s, q) /\ p - q = a - b).
  { intros v w a b (u & z & k & ->) (u' & z' & k' & ->) C C' Z. cbn [zone_of clock] in *. subst z'. injection C as <-. injection C' as <-.
    unfold moment. cbn [clock zone_of]. destruct z as [off|]; do 3 eexists; (split; [reflexivity|]); (split; [reflexivity|]); lia. }
  split.
  - intros x E K. destruct (C58_moved_partial d t n l Dd Pd Pt Cd Lt) as [A _].
    destruct (A K) as [(G & v & E' & Dv & Pv & Cv & Zv)|[_ E']]; [|congruence]. rewrite E in E'. injection E' as <-. split.
    + apply Is. destruct (C58_moved_partial x t (n + l) l Dv Pv Pt Cv Lt) as [_ B]. rewrite Zv in B. replace (n + l - l) with n in B by lia. apply B. lia.
    + destruct (Mo x d (n + l) n Dv Dd Cv Cd Zv) as (s & p & q & M & M' & Q).
      destruct (C58_between x d s p s q Dv Pv Pd M M') as [B _]. destruct (B eq_refl) as [F [(_ & y & -> & _ & _ & Ly)|[NF _]]]; [|contradiction].
      exists y. split; [reflexivity|]. rewrite Ly. f_equal. lia.
  - intros Z. destruct (Mo d e n m Dd De Cd Ce Z) as (s & p & q & M & M' & Q).
    destruct (C58_between d e s p s q Dd Pd Pe M M') as [B _]. destruct (B eq_refl) as [F [(_ & y & -> & Dy & Py & Ly)|[NF _]]]; [|contradiction].
    rewrite Q in Ly. exists y. split; [reflexivity|]. split; [exact Ly|].
    apply Is. destruct (C58_moved_partial e y m (n - m) De Pe Py Ce Ly) as [A _]. rewrite <- Z in A. replace (m + (n - m)) with n in A by lia. apply A. lia.
Qed.
Print Assumptions C58_and_back.
Example C58_and_back_ex : (let! x := add ex_date ex_short in sub x ex_short) = Ok ex_date /\
  (let! x := add ex_date ex_short in sub x ex_date) = Ok ex_short.
Proof. vm_compute. auto. Qed.

(** ** The decorated methods remember nothing that matters ... *)
Theorem C58_history : forall A (func : value -> value -> A) args, Forall (fun p => is_duration (fst p)) args ->
  snd (calls func initial_types args) =
    map (fun p => match length_of (snd p) with Some _ => Some (func (fst p) (snd p)) | None => None end) args.
Proof.
  intros A func args D. destruct (calls_pure func args initial_types) as [E _]; [now left|constructor; [now left|constructor]|exact D|].
  rewrite E. apply map_ext. intros [v w]. cbn [fst snd]. destruct w; reflexivity.
Qed.
Print Assumptions C58_history.
Example C58_history_ex : snd (calls add initial_types [(ex_long, Delta 1); (ex_long, Number 1); (ex_short, ex_long)]) =
  [Some (add ex_long (Delta 1)); None; Some (add ex_short ex_long)].
Proof. reflexivity. Qed.
(** ... but their list of classes grows with every call, without end. *)
Theorem C58_forgets_refuted : exists A (func : value -> value -> A) v w, is_duration v /\ proper v /\ proper w /\
  forall k, length (fst (calls func initial_types (repeat (v, w) k))) = S k.
Proof.
  exists _, (compare Oeq), ex_long, ex_short. split; [now do 2 eexists|]. split; [unfold ex_long, proper, fits, day; lia|].
  split; [unfold ex_short, proper, fits, day; lia|]. intros k.
  destruct (calls_pure (compare Oeq) (repeat (ex_long, ex_short) k) initial_types) as [_ E].
  - now left.
  - constructor; [now left|constructor].
  - apply Forall_forall. intros p H. apply repeat_spec in H. subst p. now do 2 eexists.
  - rewrite E, repeat_length. reflexivity.
Qed.
Print Assumptions C58_forgets_refuted.

(** ** What is not exact *)
(** The operators inherited from timedelta and datetime work on whole microseconds: exactly the nanoseconds are lost. *)
Theorem C58_inherited : forall us ns, 0 <= ns < 1000 ->
  (forall us' v, add (Delta us') (Duration us ns) = Ok v -> v = Delta (us' + us)) /\
  (forall us' z v, add (Date us' z) (Duration us ns) = Ok v -> v = Date (us' + us) z) /\
  (forall us' z v, sub (Date us' z) (Duration us ns) = Ok v -> v = Date (us' - us) z) /\
  (forall us' z ns' v, add (Duration us ns) (DateTime us' z ns') = Ok v -> v = DateTime (us' + us) z 0) /\
  (forall us' z ns' v, add (Delta us) (DateTime us' z ns') = Ok v -> v = DateTime (us' + us) z 0) /\
  (forall k v, scale (Duration us ns) k = Ok v -> v = Delta (us * k)) /\
  (forall v, absolute (Duration us ns) = Ok v -> v = Delta (Z.abs us)) /\
  (truth (Duration us ns) = false <-> us = 0).
Proof.
  intros us ns N. unfold add, sub, scale, absolute, truth, new_delta, move_date. repeat (apply conj).
  all: intros.
  all: try (match goal with H : bind (if ?c then _ else _) _ = Ok _ |- _ => destruct c; cbn [bind] in H; [injection H as <-|discriminate] end; f_equal; lia).
  all: lia.
Qed.
Print Assumptions C58_inherited.
Example C58_inherited_ex : add (Delta 0) (Duration 3 999) = Ok (Delta 3) /\ scale (Duration 3 999) 1000 = Ok (Delta 3000) /\
  absolute ex_short = Ok (Delta 1) /\ truth (Duration 0 999) = false.
Proof. vm_compute. auto. Qed.

(** timedelta + PSDuration is not PSDuration + timedelta. *)
Theorem C58_sum_refuted : exists v w n m, is_duration w /\ proper v /\ proper w /\ length_of v = Some n /\ length_of w = Some m /\
  ~ lasting (n + m) (add v w) /\ lasting (n + m) (add w v).
Proof.
  exists (Delta 1), (Duration 0 500), 1000, 500. split; [now do 2 eexists|]. split; [unfold proper, fits, day; lia|].
  split; [unfold proper, fits, day; lia|]. split; [reflexivity|]. split; [reflexivity|]. split.
  - intros [(_ & v & E & (a & b & ->) & _)|[_ E]]; vm_compute in E; discriminate.
  - left. split; [unfold fits, day; lia|]. exists (Duration 1 500). split; [reflexivity|]. split; [now do 2 eexists|].
    split; [unfold proper, fits, day; lia|reflexivity].
Qed.
Print Assumptions C58_sum_refuted.
(** A difference that exists but is refused: the minus of a very long duration does not exist. *)
Theorem C58_difference_refuted : exists v w, is_duration w /\ proper v /\ proper w /\ length_of v = length_of w /\ sub v w = Err OverflowError.
Proof.
  exists (Delta (1000000000 * us_per_day - 1)), (Duration (1000000000 * us_per_day - 1) 0). unfold proper, fits, day, us_per_day, us_per_second.
  split; [now do 2 eexists|]. split; [lia|]. split; [lia|]. split; vm_compute; reflexivity.
Qed.
Print Assumptions C58_difference_refuted.
(** PSDuration + PSDateTime loses the nanoseconds of both, datetime - PSDateTime those of the right side. *)
Theorem C58_moved_refuted : exists d t n m, is_datetime d /\ is_duration t /\ proper d /\ proper t /\ clock d = Some n /\ length_of t = Some m /\
  1000 <= n + m /\ ~ showing (n + m) (zone_of d) (add t d) /\ showing (n + m) (zone_of d) (add d t).
Proof.
  exists ex_date, ex_long, 63082281600000000700, 86400000000700. split; [now do 3 eexists|]. split; [now do 2 eexists|].
  split; [apply C58_moved_ex|]. split; [apply C58_arithmetic_ex|]. split; [reflexivity|]. split; [reflexivity|]. split; [lia|]. split.
  - intros [(_ & v & E & _ & _ & C & _)|[_ E]]; vm_compute in E; [|discriminate]. injection E as <-. vm_compute in C. discriminate.
  - left. split; [unfold dated, day; lia|]. eexists. split; [vm_compute; reflexivity|]. split; [now do 3 eexists|].
    split; [unfold proper, dated, offset_ok, day; lia|]. split; reflexivity.
Qed.
Print Assumptions C58_moved_refuted.
Theorem C58_between_refuted : exists d e a n m, is_datetime e /\ proper d /\ proper e /\ moment d = Some (a, n) /\ moment e = Some (a, m) /\
  ~ lasting (n - m) (sub d e) /\ exists x, sub d e = Ok x /\ length_of x <> Some (n - m).
Proof.
  exists (Date 63082281600000000 (Some 3600000000)), ex_date. do 3 eexists. split; [now do 3 eexists|].
  split; [unfold proper, dated, offset_ok, day; lia|]. split; [apply C58_moved_ex|]. split; [vm_compute; reflexivity|]. split; [vm_compute; reflexivity|].
  split.
  - intros [(_ & v & E & (x & y & ->) & _)|[_ E]]; vm_compute in E; discriminate.
  - exists (Delta 0). split; [reflexivity|]. vm_compute. discriminate.
Qed.
Print Assumptions C58_between_refuted.
(** Within the first microsecond of year 1 a borrow is not seen: the result exists but is refused. *)
Theorem C58_first_refuted : exists d t n m, is_datetime d /\ is_duration t /\ proper d /\ proper t /\ clock d = Some n /\ length_of t = Some m /\
  dated (n - m) /\ sub d t = Err OverflowError.
Proof.
  exists (DateTime 0 None 600), (Duration 0 500), 600, 500. unfold proper, dated, fits, day, offset_ok. split; [now do 3 eexists|]. split; [now do 2 eexists|].
  split; [lia|]. split; [lia|]. split; [reflexivity|]. split; [reflexivity|]. split; [lia|reflexivity].
Qed.
Print Assumptions C58_first_refuted.
(** Dates are compared by the microsecond: different ones are "equal", and == says so although their difference is not zero. *)
Theorem C58_dates_compared_refuted : exists d e n m, is_datetime d /\ is_datetime e /\ proper d /\ proper e /\ moment d = Some (true, n) /\
  moment e = Some (true, m) /\ m < n /\ compare Oeq d e = Ok true /\ compare Ogt d e = Ok false /\
  exists x, sub d e = Ok x /\ compare Oeq x (Delta 0) = Ok false.
Proof.
  exists ex_date, (DateTime 63082281600000000 (Some 3600000000) 600). do 2 eexists. split; [now do 3 eexists|]. split; [now do 3 eexists|].
  split; [apply C58_moved_ex|]. split; [unfold proper, dated, offset_ok, day; lia|]. split; [vm_compute; reflexivity|]. split; [vm_compute; reflexivity|].
  split; [lia|]. split; [reflexivity|]. split; [reflexivity|]. exists (Duration 0 100). split; reflexivity.
Qed.
Print Assumptions C58_dates_compared_refuted.
(** How far the comparison of dates can be trusted: the answer is that for the whole microseconds. *)
Theorem C58_dates_compared_partial : forall o d e a n m, is_datetime d -> is_datetime e -> proper d -> proper e -> moment d = Some (a, n) -> moment e = Some (a, m) ->
  answers (says o (n / 1000) (m / 1000)) (compare o d e).
Proof.
  intros o d e a n m (us & z & ns & ->) (us' & z' & ns' & ->) (_ & P & _) (_ & P' & _) M M'. unfold moment in M, M'. cbn [clock zone_of] in M, M'. cbn [compare].
  assert (S : same_awareness z z' = true) by (destruct z, z'; inversion M; inversion M'; subst; try reflexivity; discriminate). rewrite S.
  eexists. split; [reflexivity|]. rewrite compare_z_says.
  assert (E : forall zz u k x, 0 <= k < 1000 -> match zz with Some off => Some (true, u * 1000 + k - off * 1000) | None => Some (false, u * 1000 + k) end = Some (a, x) -> utc u zz = x / 1000).
  { intros [off|] u k x K H; inversion H; subst; unfold utc; lia. }
  rewrite (E z us ns n P M), (E z' us' ns' m P' M'). reflexivity.
Qed.
Print Assumptions C58_dates_compared_partial.
Example C58_dates_compared_ex : compare Olt ex_date (DateTime 63082281600000001 (Some 3600000000) 0) = Ok true /\
  compare Olt ex_date (DateTime 63082281600000000 None 0) = Err TypeError /\ compare Oeq ex_date (DateTime 63082281600000000 None 700) = Ok false.
Proof. vm_compute. auto. Qed.
(** PSDateTime(date, nanosecond=n): the whole microseconds and the clock of the date, with [n]. *)
Theorem C58_dated : forall v n k, clock v = Some k -> proper v ->
  exists e, datetime_from v n = Ok e /\ is_datetime e /\ zone_of e = zone_of v /\ clock e = Some (k - k mod 1000 + n).
Proof.
  intros [u|u x|u z|u z x|x] n k C P; cbn [clock proper] in *; try discriminate; injection C as <-; cbn [datetime_from];
    eexists; (split; [reflexivity|]); (split; [now do 3 eexists|]); (split; [reflexivity|]); cbn [clock]; f_equal; lia.
Qed.
Print Assumptions C58_dated.
Example C58_dated_ex : datetime_from ex_date 5 = Ok (DateTime 63082281600000000 (Some 3600000000) 5).
Proof. reflexivity. Qed.
(** PSDateTime(date) forgets the nanosecond of the date, PSDuration(duration) does not. *)
Theorem C58_copy_refuted : exists d, is_datetime d /\ proper d /\ exists e, datetime_from d 0 = Ok e /\ e <> d /\ clock e <> clock d.
Proof.
  exists ex_date. split; [now do 3 eexists|]. split; [apply C58_moved_ex|]. eexists. split; [reflexivity|]. split; vm_compute; discriminate.
Qed.
Print Assumptions C58_copy_refuted.
(** PSDateTime takes any number as its nanosecond, and adding nothing changes such a date. *)
Theorem C58_nanosecond_refuted : exists d n e, datetime_from d n = Ok e /\ proper d /\ ~ proper e /\ exists f, add e (Delta 0) = Ok f /\ f <> e.
Proof.
  exists (Date 63082281600000000 None), 5000, (DateTime 63082281600000000 None 5000). split; [reflexivity|].
  split; [unfold proper, dated, offset_ok, day; lia|]. split; [unfold proper; lia|]. eexists. split; [vm_compute; reflexivity|discriminate].
Qed.
Print Assumptions C58_nanosecond_refuted.
(** A duration is not zero but false; equal durations, one of them plain: only the plain one can be a dictionary key. *)
Theorem C58_duration_refuted : (exists v n, is_duration v /\ proper v /\ length_of v = Some n /\ n <> 0 /\ truth v = false) /\
  (exists v w k, is_duration v /\ proper v /\ proper w /\ compare Oeq v w = Ok true /\ hash v = Err TypeError /\ hash w = Ok k).
Proof.
  split.
  - exists (Duration 0 999), 999. split; [now do 2 eexists|]. split; [unfold proper, fits, day; lia|]. split; [reflexivity|]. split; [lia|reflexivity].
  - exists (Duration 7 0), (Delta 7), 7. split; [now do 2 eexists|]. unfold proper, fits, day. split; [lia|]. split; [lia|]. split; [reflexivity|]. split; reflexivity.
Qed.
Print Assumptions C58_duration_refuted.
