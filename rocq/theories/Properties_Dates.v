(** C68: which date-times travel.  C69: the texts that dates, durations and characters show. *)
From Verif Require Import Base BaseFacts Model_Scalars Model_Strings Model_Utf8 Model_Dates Spec_Scalars Spec_Utf8 Spec_Dates
  Proofs_Utf8 Proofs_Dates Proofs_Dates2.
From Verif Require Model_Time Spec_Numeral Proofs_Duration2.

(** ** C68 *)
(** A date-time that .NET has as well arrives with all its fields, its offset, and the nanoseconds rounded down. *)
Theorem C68_travels : forall padded d off, creatable d off -> travels padded d off ->
  exists r, read_datetime (write_date padded d off) = Ok r /\ arriving d off r.
Proof. exact travelling. Qed.
Print Assumptions C68_travels.
(** Every other one is sent but cannot be read. *)
Theorem C68_stays : forall padded d off, creatable d off -> ~ travels padded d off ->
  read_datetime (write_date padded d off) = Err ValueError.
Proof. exact staying. Qed.
Print Assumptions C68_stays.
(** The writer agrees with the one of C18 (used inside documents) where both are defined. *)
Theorem C68_agrees : forall padded d, (1000 <= dt_year d)%N ->
  (match dt_tz d with None => True | Some m => (-1440 < m < 1440)%Z end) ->
  write_date padded d (option_map (fun m => (m * minute)%Z) (dt_tz d)) = write_datetime d.
Proof. exact write_date_before. Qed.
Print Assumptions C68_agrees.
(** The reader takes nothing that does not begin with a year of four digits, of any script. *)
Theorem C68_reader : forall s, ~ (exists t r, Forall (fun c => exists d, Spec_Numeral.digit c d) t /\ length t = 4 /\ s = t ++ r) ->
  read_datetime s = Err ValueError.
Proof.
  intros s H. apply read_four. destruct (four s) eqn:E; [|reflexivity]. exfalso. apply H. unfold four in E.
  apply andb_prop in E. destruct E as [E1 E2]. exists (firstn 4 s), (skipn 4 s).
  split; [|split; [now apply Nat.eqb_eq|now rewrite firstn_skipn]]. rewrite forallb_forall in E2. apply Forall_forall. intros c I.
  apply E2 in I. eexists. now apply Proofs_Duration2.to_digit_is.
Qed.
Print Assumptions C68_reader.

Ltac date_ok k := unfold creatable; cbn [dt_year dt_month dt_day dt_hour dt_minute dt_second dt_micro dt_nano dt_tz];
  split; [split; [lia|]; split; [exists k; split; [unfold month_long; lia|lia]|lia]|unfold whole_day, minute; lia || exact I].
(** .NET's DateTime.MinValue, where strftime does not pad the year. *)
Theorem C68_early_refuted : exists d, creatable d None /\ dt_nano d = 0%N
  /\ write_date false d None = [49; 45; 48; 49; 45; 48; 49; 84; 48; 48; 58; 48; 48; 58; 48; 48]%N
  /\ read_datetime (write_date false d None) = Err ValueError.
Proof.
  exists (mkDT 1 1 1 0 0 0 0 0 None). split; [date_ok 31%N|]. split; [reflexivity|]. split; vm_compute; reflexivity.
Qed.
Print Assumptions C68_early_refuted.
(** Amsterdam before 1937: 19 minutes and 32 seconds ahead of UTC; "+00:1932" is written. *)
Theorem C68_offset_refuted : exists d off, creatable d (Some off) /\ dt_nano d = 0%N /\ (1000 <= dt_year d)%N
  /\ write_date true d (Some off)
     = [49; 57; 51; 48; 45; 48; 53; 45; 48; 49; 84; 49; 50; 58; 48; 48; 58; 48; 48; 43; 48; 48; 58; 49; 57; 51; 50]%N
  /\ read_datetime (write_date true d (Some off)) = Err ValueError.
Proof.
  exists (mkDT 1930 5 1 12 0 0 0 0 None), 1172000000%Z. split; [date_ok 31%N|]. split; [reflexivity|].
  split; [vm_compute; discriminate|]. split; vm_compute; reflexivity.
Qed.
Print Assumptions C68_offset_refuted.
(** A nanosecond attribute of 1000, which nothing checks. *)
Theorem C68_nanosecond_refuted : exists d, creatable d None /\ (1000 <= dt_year d)%N /\ dt_nano d = 1000%N
  /\ read_datetime (write_date true d None) = Err ValueError.
Proof.
  exists (mkDT 2024 12 31 0 0 0 0 1000 None). split; [date_ok 31%N|]. split; [vm_compute; discriminate|].
  split; [reflexivity|vm_compute; reflexivity].
Qed.
Print Assumptions C68_nanosecond_refuted.
(** 0999-12-31T23:59:59.0000017-05:30 with 70 ns that are lost. *)
Example C68_example : let d := mkDT 999 12 31 23 59 59 1 770 None in let off := Some (-19800000000)%Z in
  creatable d off /\ travels true d off
  /\ read_datetime (write_date true d off) = Ok (mkDT 999 12 31 23 59 59 1 700 (Some (-330)%Z)).
Proof.
  cbv zeta. split; [date_ok 31%N|]. split; [|vm_compute; reflexivity].
  split; [left; reflexivity|]. split; [cbn [dt_nano]; lia|]. exists (-330)%Z. reflexivity.
Qed.

(** ** C69 *)
(** The text of a duration: its days, hours, minutes, seconds and fraction, which add up to it. *)
Theorem C69_duration : forall us ns, (0 <= ns < 1000)%Z -> duration_shown (duration_str us ns) us ns.
Proof. exact duration_shown_str. Qed.
Print Assumptions C69_duration.
(** Two durations with the same text are the same. *)
Theorem C69_duration_tells : forall us ns us' ns', (0 <= ns < 1000)%Z -> (0 <= ns' < 1000)%Z ->
  duration_str us ns = duration_str us' ns' -> us = us' /\ ns = ns'.
Proof. exact duration_str_tells. Qed.
Print Assumptions C69_duration_tells.
(** The expression repr gives evaluates to the same duration. *)
Theorem C69_repr : forall us ns, Model_Time.delta_ok us = true -> (0 <= ns < 1000)%Z ->
  duration_call (duration_repr us ns) = Ok (Model_Time.Duration us ns).
Proof. exact duration_repr_call. Qed.
Print Assumptions C69_repr.
(** It names no argument twice and none that is 0. *)
Theorem C69_repr_short : forall us ns, NoDup (map fst (duration_repr us ns)) /\ Forall (fun kv => snd kv <> 0%Z) (duration_repr us ns).
Proof.
  intros us ns. unfold duration_repr. split.
  - generalize (Model_Time.days us), (Model_Time.seconds us), (Model_Time.microseconds us). intros a b c. cbn [filter snd].
    destruct (negb (a =? 0)%Z), (negb (b =? 0)%Z), (negb (c =? 0)%Z), (negb (ns =? 0)%Z); cbn [map fst];
      repeat (apply NoDup_cons || apply NoDup_nil); cbn [In]; lia.
  - apply Forall_forall. intros kv H. apply filter_In in H. destruct H as [_ H]. apply negb_true_iff, Z.eqb_neq in H. exact H.
Qed.
Print Assumptions C69_repr_short.
(** The text of a date-time: its fields and its offset to the minute. *)
Theorem C69_date : forall d off, creatable d off -> (dt_nano d < 1000)%N -> date_shown (date_str d off) d off.
Proof. exact date_shown_str. Qed.
Print Assumptions C69_date.
(** It tells exactly that much, whatever the nanosecond attribute. *)
Theorem C69_date_tells : forall d off e off', creatable d off -> creatable e off' ->
  (date_str d off = date_str e off' <-> same_fields d e /\ same_minute off off').
Proof. exact date_str_tells. Qed.
Print Assumptions C69_date_tells.
(** So two different moments can show the same text: the seconds of the offset are not in it. *)
Theorem C69_offset_refuted : exists d a b, creatable d (Some a) /\ creatable d (Some b) /\ a <> b
  /\ date_str d (Some a) = date_str d (Some b).
Proof.
  exists (mkDT 1930 5 1 12 0 0 0 0 None), 1172000000%Z, 1140000000%Z. split; [date_ok 31%N|]. split; [date_ok 31%N|].
  split; [discriminate|vm_compute; reflexivity].
Qed.
Print Assumptions C69_offset_refuted.
(** A character made of a text is that text's only character. *)
Theorem C69_char_made : forall s c, char_of_text s = Ok c -> s = char_str c /\ (c < 65536)%N.
Proof. intros s c H. apply char_of_text_spec in H. unfold char_str. tauto. Qed.
Print Assumptions C69_char_made.
Theorem C69_char : forall c, (c < 65536)%N -> ~ (0xD800 <= c <= 0xDFFF)%N ->
  char_of_text (char_str c) = Ok c /\ char_of_bytes (utf8_encode (char_str c)) = Ok c.
Proof.
  intros c H1 H2. assert (char_of_text (char_str c) = Ok c) as E by (apply char_of_text_spec; unfold char_str; tauto).
  split; [exact E|]. unfold char_of_bytes. rewrite decode_encode; [exact E|].
  apply Forall_cons; [split; [lia|exact H2]|apply Forall_nil].
Qed.
Print Assumptions C69_char.
(** Every other text is refused. *)
Theorem C69_char_refused : forall s, (forall c, s = [c] -> ~ (c < 65536)%N \/ (0xD800 <= c <= 0xDFFF)%N) -> is_ok (char_of_text s) = false.
Proof.
  intros s H. destruct (char_of_text s) as [c|e] eqn:E; [|reflexivity]. apply char_of_text_spec in E.
  destruct E as (-> & H1 & H2). destruct (H c eq_refl); contradiction.
Qed.
Print Assumptions C69_char_refused.
(** The text of a surrogate, a character like any other in .NET, is not taken back. *)
Theorem C69_char_refuted : exists c, (c < 65536)%N /\ new_char (Z.of_N c) = Ok c /\ char_of_text (char_str c) = Err UnicodeError.
Proof. exists 0xD83D%N. split; [reflexivity|]. split; vm_compute; reflexivity. Qed.
Print Assumptions C69_char_refuted.
(** -2 days, 23:59:07.000001500; 1 day, 0:00:00; 0001-01-01 00:00:00+00:30. *)
Example C69_example :
  duration_str (-86452999999) 500 = [45; 50; 32; 100; 97; 121; 115; 44; 32; 50; 51; 58; 53; 57; 58; 48; 55; 46; 48; 48; 48; 48; 48; 49; 53; 48; 48]%N
  /\ duration_str 86400000000 0 = [49; 32; 100; 97; 121; 44; 32; 48; 58; 48; 48; 58; 48; 48]%N
  /\ duration_repr (-86452999999) 500 = [(0%nat, (-2)%Z); (1%nat, 86347%Z); (2%nat, 1%Z); (3%nat, 500%Z)]
  /\ date_str (mkDT 1 1 1 0 0 0 0 0 None) (Some 1800000000%Z)
     = [48; 48; 48; 49; 45; 48; 49; 45; 48; 49; 32; 48; 48; 58; 48; 48; 58; 48; 48; 43; 48; 48; 58; 51; 48]%N
  /\ char_of_text [0x20AC]%N = Ok 0x20AC%N /\ char_of_bytes [0xE2; 0x82; 0xAC]%N = Ok 0x20AC%N
  /\ char_of_text [] = Err StructError /\ char_of_text [0x1F600]%N = Err ValueError.
Proof. vm_compute. repeat (split; [reflexivity|]). reflexivity. Qed.
