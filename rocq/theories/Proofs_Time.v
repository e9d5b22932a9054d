(** Proofs about dates and durations. *)
From Verif Require Import Base Model_Time Spec_Time.
Local Open Scope Z_scope.

Lemma total_exact : forall us ns, total_nanoseconds us ns = us * 1000 + ns.
Proof. intros us ns. unfold total_nanoseconds, microseconds, seconds, days, us_per_day, us_per_second. lia. Qed.
Lemma delta_ok_iff : forall us ns, 0 <= ns < 1000 -> (delta_ok us = true <-> fits (us * 1000 + ns)).
Proof. intros us ns H. unfold delta_ok, fits, day, us_per_day, us_per_second. lia. Qed.
Lemma date_ok_iff : forall us ns, 0 <= ns < 1000 -> (date_ok us = true <-> dated (us * 1000 + ns)).
Proof. intros us ns H. unfold date_ok, dated, day, us_per_day, us_per_second. lia. Qed.

Lemma new_duration_lasting : forall n us ns, lasting (n + (us * 1000 + ns)) (new_duration n us ns).
Proof.
  intros n us ns. unfold new_duration. cbv zeta. rewrite total_exact. set (t := n + (us * 1000 + ns)).
  assert (M : 0 <= t mod 1000 < 1000) by (apply Z.mod_pos_bound; lia).
  assert (E : t / 1000 * 1000 + t mod 1000 = t) by (pose proof (Z.div_mod t 1000); lia).
  pose proof (delta_ok_iff (t / 1000) (t mod 1000) M) as K. rewrite E in K. unfold new_delta.
  destruct (delta_ok (t / 1000)) eqn:D; cbn [bind].
  - left. split; [now apply K|]. eexists. split; [reflexivity|]. split; [now exists (t / 1000), (t mod 1000)|].
    cbn [proper length_of]. rewrite E. split; [split; [now apply K|exact M]|reflexivity].
  - right. split; [intros F; apply K in F; congruence|reflexivity].
Qed.
Lemma duration_of_lasting : forall n, lasting n (duration_of n).
Proof. intros n. pose proof (new_duration_lasting n 0 0) as H. replace (n + (0 * 1000 + 0)) with n in H by lia. exact H. Qed.
(** A duration is determined by its length. *)
Lemma one_form : forall v w n, is_duration v -> is_duration w -> proper v -> proper w -> length_of v = Some n -> length_of w = Some n -> v = w.
Proof.
  intros v w n (us & ns & ->) (us' & ns' & ->) [_ P] [_ P'] L L'. cbn [length_of] in *. injection L as L. injection L' as L'. f_equal; lia.
Qed.
Lemma date_form : forall v w n z, is_datetime v -> is_datetime w -> proper v -> proper w -> clock v = Some n -> clock w = Some n ->
  zone_of v = z -> zone_of w = z -> v = w.
Proof.
  intros v w n z (us & zz & ns & ->) (us' & z' & ns' & ->) (_ & P & _) (_ & P' & _) L L' Z1 Z2. cbn [clock zone_of] in *.
  injection L as L. injection L' as L'. subst. f_equal; lia.
Qed.
Lemma as_delta_length : forall v us ns, as_delta v = Some (us, ns) -> length_of v = Some (us * 1000 + ns).
Proof. intros [u|u n|u z|u z n|n] us ns H; cbn [as_delta length_of] in *; inversion H; subst; f_equal; lia. Qed.

Lemma d_add_lasting : forall us ns us' ns', lasting (us * 1000 + ns + (us' * 1000 + ns')) (d_add us ns us' ns').
Proof. intros. unfold d_add. rewrite !total_exact. apply duration_of_lasting. Qed.
Lemma d_sub_lasting : forall us ns us' ns', lasting (us * 1000 + ns - (us' * 1000 + ns')) (d_sub us ns us' ns').
Proof. intros. unfold d_sub. rewrite !total_exact. apply duration_of_lasting. Qed.
Lemma d_neg_lasting : forall us ns, lasting (- (us * 1000 + ns)) (d_neg us ns).
Proof. intros. unfold d_neg. rewrite !total_exact. apply duration_of_lasting. Qed.

Lemma add_lasting : forall v w n m, is_duration v -> length_of v = Some n -> length_of w = Some m -> lasting (n + m) (add v w).
Proof.
  intros v w n m (us & ns & ->) L M. cbn [length_of] in L. injection L as <-.
  destruct w as [u|u k|u z|u z k|k]; cbn [length_of] in M; try discriminate; injection M as <-; cbn [add as_delta].
  - pose proof (d_add_lasting us ns u 0) as H. now replace (u * 1000 + 0) with (u * 1000) in H by lia.
  - apply d_add_lasting.
Qed.
Lemma sub_lasting : forall v w n m, is_duration v -> length_of v = Some n -> length_of w = Some m -> lasting (n - m) (sub v w).
Proof.
  intros v w n m (us & ns & ->) L M. cbn [length_of] in L. injection L as <-.
  destruct w as [u|u k|u z|u z k|k]; cbn [length_of] in M; try discriminate; injection M as <-; cbn [sub as_delta].
  - pose proof (d_sub_lasting us ns u 0) as H. now replace (u * 1000 + 0) with (u * 1000) in H by lia.
  - apply d_sub_lasting.
Qed.
Lemma neg_lasting : forall v n, is_duration v -> length_of v = Some n -> lasting (- n) (neg v).
Proof. intros v n (us & ns & ->) L. cbn [length_of] in L. injection L as <-. apply d_neg_lasting. Qed.
(** timedelta - PSDuration, through __rsub__: the minus may be out of reach when the result is not. *)
Lemma rsub_lasting : forall v w n m, is_duration w -> length_of v = Some n -> length_of w = Some m -> fits (- m) ->
  lasting (n - m) (sub v w).
Proof.
  intros v w n m (us & ns & ->) L M F. destruct v as [u|u k|u z|u z k|k]; cbn [length_of] in L, M; try discriminate.
  - injection L as <-. injection M as <-. cbn [sub]. unfold d_rsub.
    destruct (d_neg_lasting us ns) as [(_ & v & -> & (a & b & ->) & _ & L)|[B _]]; [|now elim B].
    cbn [bind]. cbn [length_of] in L. injection L as L. pose proof (d_add_lasting a b u 0) as H. rewrite L in H.
    replace (- (us * 1000 + ns) + (u * 1000 + 0)) with (u * 1000 - (us * 1000 + ns)) in H by lia. exact H.
  - apply sub_lasting; cbn; eauto. now exists u, k.
Qed.

Lemma move_date_cases : forall us d, (date_ok (us + d) = true /\ move_date us d = Ok (us + d)) \/ (date_ok (us + d) = false /\ move_date us d = Err OverflowError).
Proof. intros us d. unfold move_date. destruct (date_ok (us + d)); auto. Qed.
Lemma t_add_showing : forall us z ns us' ns', offset_ok z -> 0 <= ns < 1000 -> 0 <= ns' < 1000 -> 0 <= us + us' \/ us * 1000 + ns + (us' * 1000 + ns') < 0 ->
  showing (us * 1000 + ns + (us' * 1000 + ns')) z (t_add us z ns us' ns').
Proof.
  intros us z ns us' ns' Z N N' C. unfold t_add. cbv zeta.
  destruct (move_date_cases us us') as [[D ->]|[D ->]]; cbn [bind].
  - destruct (Z.gtb_spec (ns + ns') 999) as [G|G].
    + assert (Q : (ns + ns') / 1000 = 1) by lia. assert (R : (ns + ns') mod 1000 = ns + ns' - 1000) by lia. rewrite Q, R.
      destruct (move_date_cases (us + us') 1) as [[D' ->]|[D' ->]]; cbn [bind].
      * left. pose proof (proj1 (date_ok_iff (us + us' + 1) (ns + ns' - 1000) ltac:(lia)) D') as K.
        replace ((us + us' + 1) * 1000 + (ns + ns' - 1000)) with (us * 1000 + ns + (us' * 1000 + ns')) in K by lia. split; [exact K|].
        eexists. split; [reflexivity|]. split; [now do 3 eexists|]. cbn [proper clock zone_of].
        replace ((us + us' + 1) * 1000 + (ns + ns' - 1000)) with (us * 1000 + ns + (us' * 1000 + ns')) by lia. repeat split; auto; try lia; apply K.
      * right. split; [|reflexivity]. intros K. pose proof (proj2 (date_ok_iff (us + us' + 1) (ns + ns' - 1000) ltac:(lia))) as H.
        replace ((us + us' + 1) * 1000 + (ns + ns' - 1000)) with (us * 1000 + ns + (us' * 1000 + ns')) in H by lia. apply H in K. congruence.
    + left. pose proof (proj1 (date_ok_iff (us + us') (ns + ns') ltac:(lia)) D) as K.
      replace ((us + us') * 1000 + (ns + ns')) with (us * 1000 + ns + (us' * 1000 + ns')) in K by lia. split; [exact K|].
      eexists. split; [reflexivity|]. split; [now do 3 eexists|]. cbn [proper clock zone_of].
      replace ((us + us') * 1000 + (ns + ns')) with (us * 1000 + ns + (us' * 1000 + ns')) by lia. repeat split; auto; try lia; apply K.
  - right. split; [|reflexivity]. intros [K K']. unfold date_ok, day, us_per_day, us_per_second in *. lia.
Qed.
(** What the code gets wrong at the very first microsecond. *)
Lemma t_add_short : forall us z ns us' ns', us + us' < 0 -> t_add us z ns us' ns' = Err OverflowError.
Proof.
  intros us z ns us' ns' H. unfold t_add. cbv zeta. destruct (move_date_cases us us') as [[D _]|[_ ->]]; [|reflexivity].
  unfold date_ok in D. lia.
Qed.
Lemma difference_lasting : forall us z ns us' z' ns', same_awareness z z' = true -> fits (utc us z * 1000 - utc us' z' * 1000) ->
  -1000 < ns - ns' < 1000 -> lasting (utc us z * 1000 + ns - (utc us' z' * 1000 + ns')) (t_sub_date us z ns us' z' ns').
Proof.
  intros us z ns us' z' ns' A F D. unfold t_sub_date, date_difference, new_delta. rewrite A.
  assert (G : delta_ok (utc us z - utc us' z') = true) by (apply (delta_ok_iff _ 0); [lia|]; rewrite Z.mul_sub_distr_r, Z.add_0_r; exact F).
  rewrite G. cbn [bind].
  destruct (new_duration_lasting 0 (utc us z - utc us' z') 0) as [(_ & v & -> & (a & b & ->) & _ & L)|[B _]].
  2:{ elim B. replace (0 + ((utc us z - utc us' z') * 1000 + 0)) with (utc us z * 1000 - utc us' z' * 1000) by lia. exact F. }
  cbn [bind]. cbn [length_of] in L. injection L as L.
  destruct (duration_of_lasting (ns - ns')) as [(_ & v & -> & (a' & b' & ->) & _ & L')|[B _]].
  2:{ elim B. unfold fits, day. lia. }
  cbn [bind]. cbn [length_of] in L'. injection L' as L'.
  pose proof (d_add_lasting a b a' b') as H. rewrite L, L' in H.
  match goal with H : lasting ?x _ |- lasting ?y _ => replace y with x by lia end. exact H.
Qed.
Lemma compare_z_says : forall o a b, compare_z o a b = true <-> says o a b.
Proof. intros o a b. destruct o; cbn [compare_z says]; rewrite ?negb_true_iff; lia. Qed.
Lemma swapped_says : forall o a b, says (swapped o) b a <-> says o a b.
Proof. intros o a b. destruct o; cbn [swapped says]; lia. Qed.
Lemma compare_answers : forall o v w n m, is_duration v \/ is_duration w -> length_of v = Some n -> length_of w = Some m ->
  answers (says o n m) (compare o v w).
Proof.
  intros o v w n m D L M.
  destruct v as [u|u k|u z|u z k|k]; cbn [length_of] in L; try discriminate; injection L as <-;
  destruct w as [u'|u' k'|u' z'|u' z' k'|k']; cbn [length_of] in M; try discriminate; injection M as <-; cbn [compare as_delta]; unfold d_compare.
  - destruct D as [(a & b & E)|(a & b & E)]; discriminate.
  - eexists. split; [reflexivity|]. rewrite compare_z_says, swapped_says, !total_exact, Z.add_0_r. reflexivity.
  - eexists. split; [reflexivity|]. rewrite compare_z_says, !total_exact, Z.add_0_r. reflexivity.
  - eexists. split; [reflexivity|]. rewrite compare_z_says, !total_exact. reflexivity.
Qed.

(** The decorator. *)
Definition of_timedelta (c : class) : Prop := c = CTimedelta \/ c = CDuration.
Lemma wrapped_pure : forall {A} (func : value -> value -> A) types self other, In CTimedelta types -> Forall of_timedelta types -> is_duration self ->
  wrapped func types self other = (types ++ [CDuration], match as_delta other with Some _ => Some (func self other) | None => None end).
Proof.
  intros A func types self other I F (us & ns & ->). unfold wrapped. cbn [class_of]. f_equal.
  destruct (existsb (isinstance other) (types ++ [CDuration])) eqn:E.
  - apply existsb_exists in E. destruct E as (c & Hc & B). rewrite Forall_forall in F.
    assert (T : of_timedelta c). { apply in_app_iff in Hc. destruct Hc as [Hc|[<-|[]]]; [now apply F|now right]. }
    destruct T as [-> | ->], other; try discriminate; reflexivity.
  - destruct other as [u|u k| | |]; try reflexivity; exfalso.
    + assert (X : existsb (isinstance (Delta u)) (types ++ [CDuration]) = true) by (apply existsb_exists; exists CTimedelta; split; [apply in_app_iff; now left|reflexivity]). congruence.
    + assert (X : existsb (isinstance (Duration u k)) (types ++ [CDuration]) = true) by (apply existsb_exists; exists CTimedelta; split; [apply in_app_iff; now left|reflexivity]). congruence.
Qed.
Lemma calls_pure : forall {A} (func : value -> value -> A) args types, In CTimedelta types -> Forall of_timedelta types ->
  Forall (fun p => is_duration (fst p)) args ->
  snd (calls func types args) = map (fun p => match as_delta (snd p) with Some _ => Some (func (fst p) (snd p)) | None => None end) args /\
  length (fst (calls func types args)) = (length types + length args)%nat.
Proof.
  intros A func args. induction args as [|[self other] rest IH]; intros types I F D; cbn [calls].
  - cbn [fst snd map length]. split; [reflexivity|lia].
  - inversion D as [|x y D1 D2]; subst. cbn [fst] in D1. rewrite (wrapped_pure func types self other I F D1).
    assert (I' : In CTimedelta (types ++ [CDuration])) by (apply in_app_iff; now left).
    assert (F' : Forall of_timedelta (types ++ [CDuration])) by (apply Forall_app; split; [exact F|constructor; [now right|constructor]]).
    specialize (IH _ I' F' D2). destruct (calls func (types ++ [CDuration]) rest) as [t l]. cbn [fst snd map length] in *. destruct IH as [-> E].
    split; [reflexivity|]. rewrite E, app_length. cbn [length]. lia.
Qed.
