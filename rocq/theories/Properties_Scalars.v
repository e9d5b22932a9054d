(** C15-C20: scalar values and their CLIXML text. *)
From Verif Require Import Base BaseFacts Model_Scalars Spec_Scalars Proofs_Scalars Proofs_Duration Proofs_Datetime.
From Verif Require Import Model_Strings Model_Text Proofs_Text Model_Payload Proofs_Payload.

(** ** C15 *)
(** A number given to a constructor, as int or as decimal text, is accepted exactly when it lies in the range of a
    [int_bits]-wide signed/unsigned integer. *)
Theorem C15_int_range : forall t z,
  (fits t z -> new_int t (AInt z) = Ok z /\ new_int t (AText (str_int z)) = Ok z)
  /\ (~ fits t z -> new_int t (AInt z) = Err ValueError /\ new_int t (AText (str_int z)) = Err ValueError).
Proof.
  intros t z. assert (new_int t (AText (str_int z)) = new_int t (AInt z)) as E by apply (read_write_int t z).
  rewrite E. split; intros H; [pose proof (new_int_ok t z H)|pose proof (new_int_bad t z H)]; auto.
Qed.
Print Assumptions C15_int_range.

Theorem C15_int_roundtrip : forall t z, fits t z -> read_int t (write_int z) = Ok z.
Proof. intros t z H. rewrite read_write_int. now apply new_int_ok. Qed.
Print Assumptions C15_int_roundtrip.

(** An operator method gives the mathematical result when that fits and raises otherwise. *)
Theorem C15_int_operators : forall t z o,
  match raw_op z o with
  | Err e => int_method t z o = Err e
  | Ok r => (fits t r -> int_method t z o = Ok r) /\ (~ fits t r -> int_method t z o = Err ValueError)
  end.
Proof.
  intros t z o. unfold int_method. destruct (raw_op z o) as [r|e]; [|reflexivity]. cbn [bind].
  split; [apply new_int_ok|apply new_int_bad].
Qed.
Print Assumptions C15_int_operators.
(** The same against the meaning of the operators: a method gives a number exactly when that number is the result and
    fits the type. *)
Lemma bits_unique z n r r' f : bits_are z n r f -> bits_are z n r' f -> r = r'.
Proof. intros H H'. apply Z.bits_inj'. intros i Hi. now rewrite H, H'. Qed.
Lemma product_pow n z : product n z = (z ^ Z.of_nat n)%Z.
Proof. induction n as [|n IH]; [reflexivity|]. cbn [product]. rewrite IH, Nat2Z.inj_succ, Z.pow_succ_r by lia. reflexivity. Qed.
Lemma op_means_iff z o r : raw_op z o = Ok r <-> op_means z o r.
Proof.
  destruct o as [| | | |n|n|n|n|n|n|n|n|n|n|n|n]; cbn [raw_op op_means].
  - split; [intros E; apply Ok_inj in E; lia|]. intros [A B]. f_equal. lia.
  - split; [intros E; apply Ok_inj in E; lia|]. intros A. f_equal. lia.
  - split; [intros E; apply Ok_inj in E; lia|]. intros A. f_equal. lia.
  - split; [intros E; apply Ok_inj in E; lia|]. intros A. f_equal. lia.
  - assert (bits_are z n (Z.land z n) andb) as B by (intros i _; apply Z.land_spec).
    split; [intros E; apply Ok_inj in E; now subst r|]. intros A. f_equal. exact (bits_unique _ _ _ _ _ B A).
  - split; [intros E; apply Ok_inj in E; lia|]. intros A. f_equal. lia.
  - destruct (Z.eqb_spec n 0) as [->|Hn]; [split; [discriminate|]; intros (m & _ & [H|H]); lia|].
    split; [intros E; apply Ok_inj in E; subst r; exists (z mod n)%Z; split; [apply Z.div_mod; exact Hn|]|].
    + destruct (Z.lt_ge_cases 0 n); [left; apply Z.mod_pos_bound; lia|right; apply Z.mod_neg_bound; lia].
    + intros (m & -> & H). f_equal. rewrite Z.mul_comm, Z.div_add_l by exact Hn.
      assert (m / n = 0)%Z as ->; [apply Z.div_small_iff; [exact Hn|exact H]|lia].
  - destruct (Z.ltb_spec n 0) as [H|H]; [split; [discriminate|lia]|]. rewrite Z.shiftl_mul_pow2 by exact H.
    split; [intros E; apply Ok_inj in E; lia|]. intros [_ ->]. reflexivity.
  - destruct (Z.eqb_spec n 0) as [->|Hn]; [split; [discriminate|]; intros (m & _ & [H|H]); lia|].
    split; [intros E; apply Ok_inj in E; subst r; exists (z / n)%Z; split; [apply Z.div_mod; exact Hn|]|].
    + destruct (Z.lt_ge_cases 0 n); [left; apply Z.mod_pos_bound; lia|right; apply Z.mod_neg_bound; lia].
    + intros (m & -> & H). f_equal. rewrite Z.add_comm, Z.mul_comm, Z.mod_add by exact Hn. apply Z.mod_small_iff; [exact Hn|exact H].
  - split; [intros E; apply Ok_inj in E; lia|]. intros A. f_equal. lia.
  - assert (bits_are z n (Z.lor z n) orb) as B by (intros i _; apply Z.lor_spec).
    split; [intros E; apply Ok_inj in E; now subst r|]. intros A. f_equal. exact (bits_unique _ _ _ _ _ B A).
  - rewrite product_pow, N_nat_Z. split; [intros E; apply Ok_inj in E; now symmetry|]. intros ->. reflexivity.
  - destruct (Z.ltb_spec n 0) as [H|H]; [split; [discriminate|lia]|]. rewrite Z.shiftr_div_pow2 by exact H.
    assert (0 < 2 ^ n)%Z as P by (apply Z.pow_pos_nonneg; lia).
    split; [intros E; apply Ok_inj in E; subst r; split; [exact H|]|].
    + pose proof (Z.div_mod z (2 ^ n) ltac:(lia)). pose proof (Z.mod_pos_bound z (2 ^ n) P). nia.
    + intros (_ & A). f_equal. symmetry. apply (Z.div_unique_pos z (2 ^ n) r (z - 2 ^ n * r)); nia.
  - split; [intros E; apply Ok_inj in E; lia|]. intros A. f_equal. lia.
  - assert (bits_are z n (Z.lxor z n) xorb) as B by (intros i _; apply Z.lxor_spec).
    split; [intros E; apply Ok_inj in E; now subst r|]. intros A. f_equal. exact (bits_unique _ _ _ _ _ B A).
  - destruct (Z.eqb_spec n 0) as [->|Hn]; [split; [discriminate|]; intros (m & _ & [H|H]); lia|].
    split; [intros E; apply Ok_inj in E; subst r; exists (z mod n)%Z; split; [apply Z.div_mod; exact Hn|]|].
    + destruct (Z.lt_ge_cases 0 n); [left; apply Z.mod_pos_bound; lia|right; apply Z.mod_neg_bound; lia].
    + intros (m & -> & H). f_equal. rewrite Z.mul_comm, Z.div_add_l by exact Hn.
      assert (m / n = 0)%Z as ->; [apply Z.div_small_iff; [exact Hn|exact H]|lia].
Qed.
Theorem C15_int_operators_meaning : forall t z o v, int_method t z o = Ok v <-> op_means z o v /\ fits t v.
Proof.
  intros t z o v. rewrite <- op_means_iff. unfold int_method. destruct (raw_op z o) as [r|e]; cbn [bind].
  - split; [intros H; apply new_int_inv in H; destruct H as [-> H]; auto|]. intros [E H]. apply Ok_inj in E. subst r. now apply new_int_ok.
  - split; [discriminate|]. intros [E _]. discriminate.
Qed.
Print Assumptions C15_int_operators_meaning.
Example C15_operator_example : op_means (-7) (OFloorDiv 2) (-4) /\ op_means (-7) (OMod 2) 1 /\ op_means (-7) (ORshift 1) (-4)
  /\ op_means 6 (OXor (-1)) (-7) /\ op_means 3 (OSub 5) (-2) /\ int_method TByte 3 (OSub 5) = Err ValueError.
Proof. repeat (split; [apply op_means_iff; reflexivity|]). reflexivity. Qed.
Theorem C15_int_operators_in_range : forall t z o v, int_method t z o = Ok v -> fits t v.
Proof.
  intros t z o v. unfold int_method. destruct (raw_op z o) as [r|e]; [|discriminate]. cbn [bind].
  intros H. now apply new_int_inv in H.
Qed.
Print Assumptions C15_int_operators_in_range.

(** False for members of a Python enum: the range check is skipped, and the text then cannot be read back. *)
Theorem C15_enum_unchecked_refuted : exists t z v,
  new_int t (AEnum z) = Ok v /\ ~ fits t v /\ read_int t (write_int v) = Err ValueError.
Proof. exists TByte, 300%Z, 300%Z. split; [reflexivity|]. split; [unfold fits; cbn; lia|vm_compute; reflexivity]. Qed.
Print Assumptions C15_enum_unchecked_refuted.

Example C15_example : fits TSByte (-128) /\ ~ fits TSByte 128
  /\ int_method TSByte 100 (OAdd 28) = Err ValueError /\ int_method TSByte 100 (OAdd 27) = Ok 127%Z
  /\ read_int TInt64 (write_int (-9223372036854775808)) = Ok (-9223372036854775808)%Z.
Proof. unfold fits; cbn. repeat split; try lia; vm_compute; reflexivity. Qed.

(** ** C16: false below -2^31 and from 2^63 on *)
Theorem C16_plain_int_refuted : exists a b,
  (fits TInt64 a /\ read_int (plain_int_type a) (write_int a) = Err ValueError)
  /\ (~ fits TInt64 b /\ plain_int_type b = TInt64 /\ read_int (plain_int_type b) (write_int b) = Err ValueError).
Proof.
  exists (-2147483649)%Z, 9223372036854775808%Z. split; [|split; [|split]].
  - split; [unfold fits; cbn; lia|vm_compute; reflexivity].
  - unfold fits; cbn; lia.
  - vm_compute; reflexivity.
  - vm_compute; reflexivity.
Qed.
Print Assumptions C16_plain_int_refuted.

(** Exactly the numbers from -2^31 to 2^63-1 get a type that holds them, and those read back unchanged. *)
Theorem C16_plain_int_partial : forall z,
  ((- 2 ^ 31 <= z < 2 ^ 63)%Z <-> fits (plain_int_type z) z)
  /\ ((- 2 ^ 31 <= z < 2 ^ 63)%Z -> read_int (plain_int_type z) (write_int z) = Ok z)
  /\ (~ (- 2 ^ 31 <= z < 2 ^ 63)%Z -> read_int (plain_int_type z) (write_int z) = Err ValueError).
Proof.
  intros z. change (2 ^ 31)%Z with 2147483648%Z. change (2 ^ 63)%Z with 9223372036854775808%Z.
  assert ((-2147483648 <= z < 9223372036854775808)%Z <-> fits (plain_int_type z) z) as H.
  { unfold plain_int_type, fits. destruct (z >? 2147483647)%Z eqn:E; cbn [int_signed int_bits].
    - change (2 ^ (64 - 1))%Z with 9223372036854775808%Z. lia.
    - change (2 ^ (32 - 1))%Z with 2147483648%Z. lia. }
  split; [exact H|]. rewrite read_write_int. split; intros Hz.
  - apply new_int_ok. tauto.
  - apply new_int_bad. tauto.
Qed.
Print Assumptions C16_plain_int_partial.
Example C16_example : plain_int_type 2147483648 = TInt64 /\ plain_int_type 2147483647 = TInt32
  /\ read_int (plain_int_type 2147483648) (write_int 2147483648) = Ok 2147483648%Z.
Proof. vm_compute. auto. Qed.

(** ** C17: false when the seconds field is 10, 20, 30, 40 or 50 without fraction *)
Theorem C17_duration_refuted : exists ns, duration_ok ns = true
  /\ write_duration ns = [80; 84; 49; 83]%N (* PT1S *) /\ ns = 10000000000%Z
  /\ read_duration (write_duration ns) = Ok 1000000000%Z.
Proof. exists 10000000000%Z. vm_compute. auto. Qed.
Print Assumptions C17_duration_refuted.

(** Every other duration survives, and no duration with such a seconds field does. *)
Theorem C17_duration_partial : forall ns, duration_ok ns = true ->
  (read_duration (write_duration ns) = Ok (100 * (ns / 100))%Z
   <-> (ns / 100 mod 100000000 <> 0 \/ ns / 100 mod 600000000 = 0)%Z).
Proof. exact duration_roundtrip. Qed.
Print Assumptions C17_duration_partial.
(** A bad one always reads back as something else: it never fails and nothing is larger in size. *)
Theorem C17_duration_always_readable : forall ns, duration_ok ns = true ->
  exists r, read_duration (write_duration ns) = Ok r /\ (Z.abs r <= Z.abs (100 * (ns / 100)))%Z /\ (r mod 100 = 0)%Z.
Proof.
  intros ns H. rewrite duration_read_write by exact H. eexists. split; [reflexivity|].
  pose proof (ticks_read_le (Z.abs_N (ns / 100))) as Hle. generalize dependent (ticks_read (Z.abs_N (ns / 100))).
  generalize (ns / 100)%Z. intros x k Hk. destruct x as [|p|p]; cbn [Z.sgn Z.abs_N] in *; lia.
Qed.
Print Assumptions C17_duration_always_readable.

(** -1 day 2 h 3 min 4.0500001 s, and a day and 20 s. *)
Example C17_example : let ns := (-93784050000150)%Z in
  duration_ok ns = true /\ (ns / 100 mod 100000000 <> 0)%Z
  /\ write_duration ns = [45; 80; 49; 68; 84; 50; 72; 51; 77; 52; 46; 48; 53; 48; 48; 48; 48; 50; 83]%N
  /\ read_duration (write_duration ns) = Ok (-93784050000200)%Z.
Proof. vm_compute. repeat split; discriminate. Qed.

(** ** C18 *)
Theorem C18_datetime_roundtrip : forall d, valid_datetime d -> read_datetime (write_datetime d) = Ok d.
Proof. exact datetime_roundtrip. Qed.
Print Assumptions C18_datetime_roundtrip.
(** 2024-02-29T23:59:59.0000017-05:30 *)
Example C18_example : let d := mkDT 2024 2 29 23 59 59 1 700 (Some (-330))%Z in
  valid_datetime d
  /\ write_datetime d = [50; 48; 50; 52; 45; 48; 50; 45; 50; 57; 84; 50; 51; 58; 53; 57; 58; 53; 57; 46;
                         48; 48; 48; 48; 48; 49; 55; 45; 48; 53; 58; 51; 48]%N.
Proof.
  cbv zeta. split; [|vm_compute; reflexivity]. unfold valid_datetime.
  cbn [dt_year dt_month dt_day dt_hour dt_minute dt_second dt_micro dt_nano dt_tz].
  change ((2024 mod 4 =? 0) && (negb (2024 mod 100 =? 0) || (2024 mod 400 =? 0)))%N with true.
  repeat split; try lia. exists 7%N. lia.
Qed.
(** Digits beyond 100 ns are not accepted by the reader (.NET never writes them). *)
Theorem C18_eight_digits_rejected : exists s,
  read_datetime s = Err ValueError /\ exists d, valid_datetime d /\ s = write_datetime d ++ [49]%N.
Proof.
  exists (write_datetime (mkDT 2024 1 1 0 0 0 123456 700 None) ++ [49]%N). split; [vm_compute; reflexivity|].
  eexists. split; [|reflexivity]. unfold valid_datetime.
  cbn [dt_year dt_month dt_day dt_hour dt_minute dt_second dt_micro dt_nano dt_tz].
  repeat split; try lia. exists 7%N. lia.
Qed.
Print Assumptions C18_eight_digits_rejected.

(** ** C19 *)
Theorem C19_version_roundtrip : forall v, version_wf v -> read_version (write_version v) = Ok v.
Proof. exact read_write_version. Qed.
Print Assumptions C19_version_roundtrip.
Theorem C19_version_new_wf : forall a b c d v, new_version a b c d = Ok v -> version_wf v
  /\ a = Some (v_major v) /\ b = Some (v_minor v) /\ c = v_build v /\ d = v_revision v.
Proof.
  intros [a|] [b|] [c|] [d|] v H; cbn in H; try discriminate; injection H as <-; unfold version_wf; cbn;
    repeat split; congruence.
Qed.
Print Assumptions C19_version_new_wf.
Theorem C19_version_order : forall a b c, version_wf a -> version_wf b -> version_wf c ->
  (version_lt a b = true <-> version_before a b)
  /\ (version_eq a b = true <-> a = b)
  /\ (version_gt a b = version_lt b a) /\ (version_le a b = (version_lt a b || version_eq a b))
  /\ (version_ge a b = (version_gt a b || version_eq a b))
  /\ (version_lt a b = true \/ a = b \/ version_lt b a = true)
  /\ ~ (version_lt a b = true /\ version_lt b a = true) /\ version_lt a a = false
  /\ (version_lt a b = true -> version_lt b c = true -> version_lt a c = true).
Proof.
  intros a b c Ha Hb Hc.
  pose proof (tuple_trichotomy (version_tuple a) (version_tuple b)) as HT.
  pose proof (tuple_lt_irrefl (version_tuple a)) as Hi. pose proof (tuple_lt_irrefl (version_tuple b)) as Hib.
  pose proof (tuple_lt_trans (version_tuple a) (version_tuple b) (version_tuple a)) as Hta.
  pose proof (tuple_lt_trans (version_tuple b) (version_tuple a) (version_tuple b)) as Htb.
  pose proof (tuple_eq_iff (version_tuple a) (version_tuple b)) as He.
  pose proof (version_tuple_inj a b Ha Hb) as Hinj.
  split; [now apply version_lt_iff|].
  split; [unfold version_eq; rewrite He; split; [exact Hinj|congruence]|].
  split; [reflexivity|].
  assert (negb (tuple_lt (version_tuple b) (version_tuple a))
          = tuple_lt (version_tuple a) (version_tuple b) || tuple_eq (version_tuple a) (version_tuple b)) as L1.
  { destruct HT as [H|[H|H]].
    - rewrite H. destruct (tuple_lt (version_tuple b) (version_tuple a)) eqn:E; [|reflexivity].
      rewrite (Hta H eq_refl) in Hi. discriminate.
    - rewrite H at 1. rewrite Hib. apply tuple_eq_iff in H. rewrite H, orb_true_r. reflexivity.
    - rewrite H. destruct (tuple_lt (version_tuple a) (version_tuple b)) eqn:E; [rewrite (Hta eq_refl H) in Hi; discriminate|].
      destruct (tuple_eq (version_tuple a) (version_tuple b)) eqn:E2; [|reflexivity].
      apply tuple_eq_iff in E2. rewrite E2 in H. rewrite Hib in H. discriminate. }
  split; [exact L1|].
  assert (negb (tuple_lt (version_tuple a) (version_tuple b))
          = tuple_lt (version_tuple b) (version_tuple a) || tuple_eq (version_tuple a) (version_tuple b)) as L2.
  { destruct HT as [H|[H|H]].
    - rewrite H. destruct (tuple_lt (version_tuple b) (version_tuple a)) eqn:E; [rewrite (Hta H eq_refl) in Hi; discriminate|].
      destruct (tuple_eq (version_tuple a) (version_tuple b)) eqn:E2; [|reflexivity].
      apply tuple_eq_iff in E2. rewrite E2 in H. rewrite Hib in H. discriminate.
    - rewrite H at 1. rewrite Hib. apply tuple_eq_iff in H. rewrite H, orb_true_r. reflexivity.
    - rewrite H. destruct (tuple_lt (version_tuple a) (version_tuple b)) eqn:E; [|reflexivity].
      rewrite (Hta eq_refl H) in Hi. discriminate. }
  split; [exact L2|].
  split; [destruct HT as [H|[H|H]]; [left; exact H|right; left; auto|right; right; exact H]|].
  split; [intros [H1 H2]; unfold version_lt in *; rewrite (Hta H1 H2) in Hi; discriminate|].
  split; [exact Hi|]. unfold version_lt. apply tuple_lt_trans.
Qed.
Print Assumptions C19_version_order.
(** A trailing newline is accepted by the reader. *)
Theorem C19_trailing_newline : read_version [49; 46; 50; 10]%N = Ok (mkV 1 2 None None).
Proof. vm_compute. reflexivity. Qed.
Print Assumptions C19_trailing_newline.
Example C19_example : let a := mkV 10 0 (Some 7%N) None in let b := mkV 10 0 (Some 7%N) (Some 0%N) in
  version_wf a /\ version_wf b /\ version_lt a b = true /\ version_lt b (mkV 10 1 None None) = true
  /\ read_version (write_version b) = Ok b /\ read_version [48; 49; 46; 50]%N = Err ValueError.
Proof. unfold version_wf. cbn. repeat split; try congruence; vm_compute; reflexivity. Qed.

(** ** C20 *)
Theorem C20_base64_roundtrip : forall l, bytes_ok l -> b64_decode (b64_encode l) = Ok l.
Proof. exact b64_roundtrip. Qed.
Print Assumptions C20_base64_roundtrip.
Theorem C20_base64_text : forall l, bytes_ok l ->
  Forall b64_alphabet (b64_encode l) /\ length (b64_encode l) = 4 * ((length l + 2) / 3).
Proof. intros l. apply (b64_encode_n (length l)). lia. Qed.
Print Assumptions C20_base64_text.
Theorem C20_guid_text_roundtrip : forall n, (n < 2 ^ 128)%N -> read_guid (write_guid n) = Ok n.
Proof. exact guid_text_roundtrip. Qed.
Print Assumptions C20_guid_text_roundtrip.
Theorem C20_guid_bytes_roundtrip : forall n, (n < 2 ^ 128)%N ->
  uuid_of_bytes_le (uuid_bytes_le n) = Ok n /\ length (uuid_bytes_le n) = 16.
Proof. intros n H. split; [now apply uuid_le_roundtrip|apply uuid_bytes_le_length]. Qed.
Print Assumptions C20_guid_bytes_roundtrip.
Theorem C20_char_roundtrip : forall c, (c < 65536)%N -> read_char (write_char c) = Ok c.
Proof. exact read_write_char. Qed.
Print Assumptions C20_char_roundtrip.
Theorem C20_char_range : forall z v, new_char z = Ok v -> (0 <= z < 65536)%Z /\ Z.of_N v = z.
Proof. intros z v. unfold new_char. destruct ((z <? 0) || (z >? 65535))%Z eqn:E; [discriminate|]. intros H. injection H as <-. lia. Qed.
Print Assumptions C20_char_range.
Theorem C20_bool_roundtrip : forall b, read_bool (write_bool b) = b.
Proof. exact read_write_bool. Qed.
Print Assumptions C20_bool_roundtrip.
Example C20_example : b64_encode [77; 97]%N = [84; 87; 69; 61]%N /\ b64_decode [84; 87; 69; 61]%N = Ok [77; 97]%N
  /\ read_guid (write_guid 0x0123456789abcdef0123456789abcdef) = Ok 0x0123456789abcdef0123456789abcdef%N.
Proof. vm_compute. auto. Qed.
