(** C73: which texts are durations, and how long. *)
From Coq Require Import String Ascii.
From Verif Require Import Base BaseFacts Model_Scalars Spec_Numeral Spec_Duration Proofs_Scalars Proofs_Duration Proofs_Numeral Proofs_Duration2.
Local Open Scope list_scope.
Local Open Scope N_scope.

(** Every text is refused with ValueError or has the shape of a duration. *)
Theorem C73_taken : forall s, read_duration s <> Err ValueError <-> exists p, duration_text s p.
Proof.
  intros s. split.
  - intros H. destruct (duration_inv s) as [E|E]; [congruence|exact E].
  - intros (p & H). apply duration_fwd in H as (W & _ & ->). unfold new_duration. destruct (duration_ok _); discriminate.
Qed.
Print Assumptions C73_taken.

(** A text of that shape is read exactly, or refused with OverflowError when Python's durations cannot hold its length; the one
    exception is a fraction behind 2^30 seconds or more, where the length may be one second too long. *)
Theorem C73_value : forall s p, duration_text s p ->
  held (read_duration s) (length_of p)
  \/ pt_fractional p = true /\ 1073741824 <= pt_whole p /\ held (read_duration s) (length_with p (pt_whole p + 1)).
Proof.
  intros s p H. apply duration_fwd in H as (W & NR & ->). destruct NR as [->|[(F & B & ->)|[B1 B2]]].
  - left. apply held_new.
  - right. split; [exact F|]. split; [exact B|]. apply held_new.
  - left. assert (forall w, 9007199254740992 <= w -> ~ holds (length_with p w)) as Q.
    { intros w Hw. unfold holds, day, length_with. cbv zeta. destruct (pt_neg p); lia. }
    right. split; [now apply Q|]. destruct (held_new (length_with p W)) as [[H _]|[_ H]]; [now apply Q in H|exact H].
Qed.
Print Assumptions C73_value.
Theorem C73_exact : forall s p, duration_text s p -> pt_fractional p = false \/ pt_whole p < 1073741824 ->
  held (read_duration s) (length_of p).
Proof. intros s p H B. destruct (C73_value s p H) as [E|(F & L & _)]; [exact E|]. destruct B as [B|B]; [congruence|lia]. Qed.
Print Assumptions C73_exact.

(** Every xs:dayTimeDuration with up to seven digits of fraction, and fewer than 2^30 seconds before them, is read exactly. *)
Lemma plain_number m n : plain_numeral m n -> number m n.
Proof.
  induction 1 as [c d L ->|s n c d _ IH L ->]; [apply number_one|apply number_next; [exact IH|]];
    (split; [exact L|]; exists 0x30; split; [now left|lia]).
Qed.
Lemma xs_field_field l s n : xs_field l s n -> field l s n.
Proof. intros [H|(m & -> & H)]; [now left|right]. exists m. split; [reflexivity|now apply plain_number]. Qed.
Theorem C73_schema : forall s neg d h m whole digits fraction, xs_duration s neg d h m whole digits fraction ->
  digits <= 7 -> digits = 0 \/ whole < 1073741824 ->
  let length := (Z.of_N (d * 86400 + h * 3600 + m * 60 + whole) * 1000000000 + Z.of_N (fraction * 10 ^ (9 - digits)))%Z in
  held (read_duration s) (if neg then - length else length)%Z.
Proof.
  intros s neg d h m whole digits fraction (days & time & -> & D & T & N0) L B.
  set (p := mkParts neg d h m whole (negb (digits =? 0)) (fraction * 10 ^ (7 - digits))).
  assert (duration_text ((if neg then [0x2D] else []) ++ [0x50] ++ days ++ time) p) as H.
  { exists (if neg then [0x2D] else []), days, time, []. split; [now rewrite app_nil_r|]. split; [destruct neg; [now right|now left]|].
    split; [now apply xs_field_field|]. split; [|split; [exact N0|now left]]. unfold p. cbn [pt_hours pt_minutes pt_whole pt_fractional pt_ticks].
    destruct T as [(-> & -> & -> & -> & -> & ->)|(hs & ms & sec & -> & N1 & Hh & Hm & S0)]; [left; repeat (split; [reflexivity|]); reflexivity|].
    right. exists hs, ms, sec. split; [reflexivity|]. split; [exact N1|]. split; [now apply xs_field_field|]. split; [now apply xs_field_field|].
    destruct S0 as [(-> & -> & -> & ->)|(x & X & [(-> & -> & ->)|(f & F & -> & ->)])].
    - left. repeat (split; [reflexivity|]). reflexivity.
    - right. exists x. split; [right; now apply plain_number|]. left. split; [reflexivity|]. split; reflexivity.
    - right. exists x. split; [right; now apply plain_number|]. right. exists f, fraction. apply plain_number in F. split; [exact F|].
      split; [lia|]. split; [reflexivity|]. split; [|reflexivity]. destruct f; [|reflexivity]. now apply number_val in F as (F & _). }
  apply C73_exact in H.
  - unfold length_of, length_with, p in H. cbn [pt_neg pt_days pt_hours pt_minutes pt_whole pt_ticks] in H. cbv zeta in H |- *.
    replace (fraction * 10 ^ (9 - digits)) with (fraction * 10 ^ (7 - digits) * 100).
    + rewrite (N2Z.inj_mul _ 100). exact H.
    + replace (9 - digits) with (7 - digits + 2) by lia. rewrite N.pow_add_r. change (10 ^ 2) with 100. lia.
  - unfold p. cbn [pt_fractional pt_whole]. destruct B as [->|B]; [now left|now right].
Qed.
Print Assumptions C73_schema.

(** Texts by their numbers, for the witnesses. *)
Local Definition chars (s : string) : list N := map N_of_ascii (list_ascii_of_string s).
Lemma by_value s n : (negb (Nat.eqb (length s) 0) && forallb is_digit (map to_digit s) && (digits_val (map to_digit s) =? n))%bool = true -> number s n.
Proof.
  intros H. apply andb_prop in H as [H H3]. apply andb_prop in H as [H1 H2]. apply N.eqb_eq in H3. rewrite <- H3.
  apply val_number; [now destruct s|exact H2].
Qed.
(** One second too long: PT1073741824.9999999S. *)
Theorem C73_value_refuted : exists s p, duration_text s p /\ holds (length_of p) /\ read_duration s = Ok (length_of p + 1000000000)%Z.
Proof.
  exists (chars "PT1073741824.9999999S"), (mkParts false 0 0 0 1073741824 true 9999999).
  split; [|split; [split; [vm_compute; intros Q; discriminate Q|vm_compute; reflexivity]|vm_compute; reflexivity]].
  exists [], [], (chars "T1073741824.9999999S"), []. split; [reflexivity|]. split; [now left|]. split; [now left|].
  split; [|split; [discriminate|now left]]. right. exists [], [], (chars "1073741824.9999999S"). split; [reflexivity|].
  split; [discriminate|]. split; [now left|]. split; [now left|]. right. exists (chars "1073741824"). split; [right; now apply by_value|].
  right. exists (chars "9999999"), 9999999. split; [now apply by_value|]. split; [vm_compute; lia|]. split; [reflexivity|]. split; reflexivity.
Qed.
Print Assumptions C73_value_refuted.

(** Not the texts of XML Schema: PTS is taken, and so are Arabic digits and a line feed at the end; eight digits of fraction and white
    space in front are not. *)
Lemma plain_ascii m n : plain_numeral m n -> exists c r, m = c :: r /\ Forall (fun c => 48 <= c <= 57) m.
Proof.
  induction 1 as [c d L ->|s n c d _ IH L ->].
  - eexists _, _. split; [reflexivity|]. apply Forall_cons; [lia|apply Forall_nil].
  - destruct IH as (x & r & -> & IH). eexists _, _. split; [reflexivity|]. apply Forall_app. split; [exact IH|]. apply Forall_cons; [lia|apply Forall_nil].
Qed.
Lemma xs_S_digit s neg d h m w k f : xs_duration s neg d h m w k f -> ~ exists u, s = u ++ [0x54; 0x53].
Proof.
  intros (days & time & -> & D & T & _) (u & E).
  destruct T as [(-> & _)|(hs & ms & sec & -> & N1 & Hh & Hm & S0)].
  - rewrite app_nil_r in E. destruct D as [[-> _]|(x & -> & _)].
    + destruct neg; cbn [app] in E; do 3 (destruct u as [|? u]; [discriminate E|cbn [app] in E; try (injection E as _ E); try discriminate E]).
    + rewrite !app_assoc in E. change [84; 83] with ([84] ++ [83]) in E. rewrite app_assoc in E. now apply app_inj_tail in E.
  - assert (forall a b : list N, a ++ [83] = b ++ [84; 83] -> exists a', a = a' ++ [84]) as C.
    { intros a b Q. change [84; 83] with ([84] ++ [83]) in Q. rewrite app_assoc in Q. apply app_inj_tail in Q as [-> _]. eauto. }
    assert (forall l x n, xs_field l x n -> l <> 83 -> forall a b, a ++ x = b ++ [84; 83] -> x = []) as G.
    { intros l x n [[-> _]|(y & -> & _)] L a b Q; [reflexivity|]. exfalso. change [84; 83] with ([84] ++ [83]) in Q. rewrite !app_assoc in Q.
      apply app_inj_tail in Q as [_ Q]. congruence. }
    assert (forall y n a b, plain_numeral y n -> a ++ y = b ++ [84] -> False) as K.
    { intros y n a b Y Q. destruct (plain_ascii _ _ Y) as (c & r & Ey & F). destruct (exists_last (l := y)) as (y' & z & Z); [subst; discriminate|].
      rewrite Z, app_assoc in Q. apply app_inj_tail in Q as [_ ->]. rewrite Z in F. apply Forall_app in F as [_ F]. inversion F. lia. }
    destruct S0 as [(-> & _)|(y & Y & [(-> & _)|(g & Fr & _ & ->)])].
    + rewrite app_nil_r in *. assert (ms = []) as ->.
      { eapply (G 0x4D ms); [exact Hm|congruence|]. cbn [app] in E. rewrite !app_comm_cons, !app_assoc in E. exact E. }
      rewrite app_nil_r in *. assert (hs = []) as ->.
      { eapply (G 0x48 hs); [exact Hh|congruence|]. cbn [app] in E. rewrite !app_comm_cons, !app_assoc in E. 
        change (84 :: hs) with ([84] ++ hs) in E. rewrite !app_assoc in E. exact E. }
      now elim N1.
    + rewrite !app_assoc in E. apply C in E as (a' & E). eapply K; [exact Y|exact E].
    + rewrite !app_assoc in E. apply C in E as (a' & E). eapply K; [exact Fr|exact E].
Qed.
Theorem C73_schema_refuted :
  (exists s, read_duration s = Ok 0%Z /\ forall neg d h m w k f, ~ xs_duration s neg d h m w k f)
  /\ (exists s, xs_duration s false 0 0 0 1 8 50000000 /\ read_duration s = Err ValueError).
Proof.
  split.
  - exists (chars "PTS"). split; [reflexivity|]. intros neg d h m w k f H. apply xs_S_digit in H. apply H. exists [0x50]. reflexivity.
  - exists (chars "PT1.50000000S"). split; [|reflexivity]. exists [], (chars "T1.50000000S"). split; [reflexivity|]. split; [now left|].
    split; [|discriminate]. right. exists [], [], (chars "1.50000000S"). split; [reflexivity|]. split; [discriminate|]. split; [now left|]. split; [now left|].
    right. exists (chars "1"). split; [now apply plain_one|]. right. exists (chars "50000000"). split; [|split; reflexivity].
    change (chars "50000000") with ((((((([53] ++ [48]) ++ [48]) ++ [48]) ++ [48]) ++ [48]) ++ [48]) ++ [48]).
    change 50000000 with (10 * (10 * (10 * (10 * (10 * (10 * (10 * 5 + 0) + 0) + 0) + 0) + 0) + 0) + 0).
    do 7 (apply plain_next; [|reflexivity..]). now apply plain_one.
Qed.
Print Assumptions C73_schema_refuted.

(** -P2DT3H4M5.06S and a line feed. *)
Example C73_example : let p := mkParts true 2 3 4 5 true 600000 in
  duration_text (chars "-P2DT3H4M5.06S" ++ [10]) p /\ read_duration (chars "-P2DT3H4M5.06S" ++ [10]) = Ok (length_of p)
  /\ length_of p = (-183845060000000)%Z
  /\ read_duration (chars "P") = Err ValueError /\ read_duration (chars "P1DT") = Err ValueError /\ read_duration (chars "P1Y") = Err ValueError
  /\ read_duration (chars " PT1S") = Err ValueError /\ read_duration ([80; 84; 0x0661; 83]) = Ok 1000000000%Z
  /\ read_duration (chars "P1000000000D") = Err OverflowError.
Proof.
  cbv zeta. split; [|vm_compute; repeat split; reflexivity].
  exists (chars "-"), (chars "2D"), (chars "T3H4M5.06S"), [10]. split; [reflexivity|]. split; [now right|].
  split; [right; exists (chars "2"); split; [reflexivity|now apply by_value]|]. split; [|split; [discriminate|now right]].
  right. exists (chars "3H"), (chars "4M"), (chars "5.06S"). split; [reflexivity|]. split; [discriminate|].
  split; [right; exists (chars "3"); split; [reflexivity|now apply by_value]|]. split; [right; exists (chars "4"); split; [reflexivity|now apply by_value]|].
  right. exists (chars "5"). split; [right; now apply by_value|]. right. exists (chars "06"), 6. split; [now apply by_value|].
  split; [vm_compute; lia|]. split; [reflexivity|]. split; reflexivity.
Qed.
