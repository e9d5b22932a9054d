(** CLIXML: facts about the parts. *)
From Coq Require Import String.
From Verif Require Import Base BaseFacts Model_Scalars Model_Strings Model_Text Model_Object Model_Clixml.
From Verif Require Import Spec_Strings Spec_Scalars Spec_Clixml.
From Verif Require Import Proofs_Strings Proofs_Scalars Proofs_Duration Proofs_Datetime Proofs_Text.
Local Open Scope list_scope.
Local Open Scope nat_scope.

(** ** Tables *)
Lemma name_eqb_iff (a b : name) : name_eqb a b = true <-> a = b.
Proof. apply list_eqb_spec. apply N.eqb_eq. Qed.
Lemma name_eqb_refl (a : name) : name_eqb a a = true.
Proof. now apply name_eqb_iff. Qed.
Lemma name_eqb_neq (a b : name) : a <> b -> name_eqb a b = false.
Proof. intros H. apply not_true_is_false. intros E. now apply name_eqb_iff in E. Qed.

Lemma sget_sset {A} k v (l : list (list N * A)) k' :
  sget k' (sset k v l) = if name_eqb k' k then Some v else sget k' l.
Proof.
  induction l as [|[j w] t IH]; cbn [sset sget].
  - reflexivity.
  - destruct (name_eqb k j) eqn:E.
    + apply name_eqb_iff in E. subst j. cbn [sget]. now destruct (name_eqb k' k).
    + cbn [sget]. rewrite IH. destruct (name_eqb k' j) eqn:E2; [|reflexivity].
      apply name_eqb_iff in E2. subst j. destruct (name_eqb k' k) eqn:E3; [|reflexivity].
      apply name_eqb_iff in E3. subst. now rewrite name_eqb_refl in E.
Qed.
Lemma dec_inj a b : dec a = dec b -> a = b.
Proof. intros H. rewrite <- (dec_val a), <- (dec_val b). now rewrite H. Qed.

Lemma key_eqb_iff a b : key_eqb a b = true <-> a = b.
Proof.
  destruct a, b; cbn [key_eqb]; try (split; [discriminate|congruence]).
  - rewrite N.eqb_eq. split; congruence.
  - rewrite andb_true_iff, Z.eqb_eq, (list_eqb_spec name_eqb name_eqb_iff). split; [intros []; congruence|intros [=]; auto].
  - rewrite name_eqb_iff. split; congruence.
  - rewrite name_eqb_iff. split; congruence.
  - rewrite andb_true_iff, Z.eqb_eq, Bool.eqb_true_iff. split; [intros []; congruence|intros [=]; auto].
  - rewrite N.eqb_eq. split; congruence.
Qed.
Lemma key_eqb_refl a : key_eqb a a = true.
Proof. now apply key_eqb_iff. Qed.
Lemma hkey_eqb_iff a b : hkey_eqb a b = true <-> a = b /\ a <> HOwn.
Proof.
  assert (hkey_eqb a b = true <-> match a with HOwn => False | _ => a = b end) as ->; [|destruct a; split; try tauto; try (intros H; split; [exact H|discriminate]); intros []; contradiction || assumption].
  destruct a, b; cbn [hkey_eqb]; try (split; [discriminate|congruence]); try (split; [discriminate|tauto]).
  - split; auto.
  - rewrite Z.eqb_eq. split; congruence.
  - rewrite name_eqb_iff. split; congruence.
  - rewrite name_eqb_iff. split; congruence.
  - rewrite andb_true_iff, Z.eqb_eq, Bool.eqb_true_iff. split; [intros []; congruence|intros [=]; auto].
  - rewrite N.eqb_eq. split; congruence.
  - rewrite name_eqb_iff. split; congruence.
  - rewrite N.eqb_eq. split; congruence.
Qed.

Lemma index_of_nth n l i : index_of n l = Some i -> nth_error l i = Some n.
Proof.
  revert i. induction l as [|m t IH]; intros i; cbn [index_of]; [discriminate|].
  destruct (name_eqb m n) eqn:E.
  - intros [= <-]. apply name_eqb_iff in E. now subst.
  - destruct (index_of n t) as [j|]; [|discriminate]. intros [= <-]. cbn [nth_error]. auto.
Qed.

(** ** Attributes *)
Lemma attr_eqb_iff a b : attr_eqb a b = true <-> a = b.
Proof. destruct a, b; cbn [attr_eqb]; try (split; congruence). rewrite name_eqb_iff. split; congruence. Qed.
Lemma attr_get_put k v l k' : attr_get k' (attr_put k v l) = if attr_eqb k k' then Some v else attr_get k' l.
Proof.
  induction l as [|[a w] t IH]; cbn [attr_put attr_get]; [reflexivity|].
  destruct (attr_eqb a k) eqn:E.
  - apply attr_eqb_iff in E. subst a. cbn [attr_get]. now destruct (attr_eqb k k').
  - cbn [attr_get]. rewrite IH. destruct (attr_eqb a k') eqn:E2; [|reflexivity].
    apply attr_eqb_iff in E2. subst a. destruct (attr_eqb k k') eqn:E3; [|reflexivity].
    apply attr_eqb_iff in E3. subst. now rewrite (proj2 (attr_eqb_iff k' k') eq_refl) in E.
Qed.
(** The N and S attributes do not matter to the reader. *)
Definition inert (k : attr) : Prop := attr_eqb k AtRefId = false.
Lemma deser_set_attr reg k v g d x : inert k -> deser reg g d (set_attr k v x) = deser reg g d x.
Proof.
  intros Hk. destruct g as [|g]; [reflexivity|]. destruct x as [t a s l]. cbn [set_attr deser].
  unfold read_object. rewrite attr_get_put, Hk. reflexivity.
Qed.
Lemma height_set_attr k v x : height (set_attr k v x) = height x.
Proof. now destruct x. Qed.
Lemma attr_set_same k v x : attr_get k (x_attrs (set_attr k v x)) = Some v.
Proof. destruct x as [t a s l]. cbn [set_attr x_attrs]. rewrite attr_get_put. now rewrite (proj2 (attr_eqb_iff k k) eq_refl). Qed.
Lemma set_attr_tag k v x : x_tag (set_attr k v x) = x_tag x.
Proof. now destruct x. Qed.

(** ** Text written without escaping *)
Lemma munit_escaped us : munit us <> None -> exists a b c d post,
  us = ([0x5F; 0x78; a; b; c; d; 0x5F] ++ post)%N /\ hex_char a /\ hex_char b /\ hex_char c /\ hex_char d.
Proof.
  intros H. destruct us as [|u0 [|x [|a [|b [|c [|d [|u1 t]]]]]]]; try (exfalso; apply H; reflexivity).
  unfold munit in H. destruct ((u0 =? 95) && (x =? 120) && (u1 =? 95))%N eqn:E; [|congruence].
  apply andb_prop in E. destruct E as [E E3]. apply andb_prop in E. destruct E as [E1 E2].
  apply N.eqb_eq in E1, E2, E3. subst u0 x u1.
  assert (HH : forall z, hex_val z <> None -> hex_char z).
  { intros z. unfold hex_val, in_range, hex_char.
    destruct ((48 <=? z) && (z <=? 57))%N eqn:F1; [lia|].
    destruct ((65 <=? z) && (z <=? 70))%N eqn:F2; [lia|].
    destruct ((97 <=? z) && (z <=? 102))%N eqn:F3; [lia|congruence]. }
  exists a, b, c, d, t. split; [reflexivity|].
  repeat split; apply HH; intros F; rewrite F in H;
    repeat match type of H with context [match ?e with Some _ => _ | None => _ end] => destruct e end; congruence.
Qed.
Lemma usub_id us : (forall pre suf, us = pre ++ suf -> munit suf = None) -> usub 0 us = us.
Proof.
  induction us as [|u us IH]; intros H; [reflexivity|]. rewrite usub_cons0, (H [] (u :: us)) by reflexivity.
  f_equal. apply IH. intros pre suf ->. apply (H (u :: pre) suf). reflexivity.
Qed.
(** *** Escapes and misread runs of the UTF-16 form are already in the string *)
Definition lone (c : N) : Prop := (c < 0xD800 \/ 0xE000 <= c < 0x10000)%N.
Lemma utf16_split s : forall pre c r, flat_map utf16 s = pre ++ c :: r -> lone c -> pystr s ->
  exists p s', s = p ++ c :: s' /\ flat_map utf16 p = pre /\ flat_map utf16 s' = r.
Proof.
  unfold lone. induction s as [|x s IH]; intros pre c r E Hc Hp; [destruct pre; discriminate|].
  inversion Hp as [|? ? Hx Hs]; subst. cbn [flat_map] in E. unfold utf16 in E at 1. destruct (N.ltb_spec x 0x10000) as [Hl|Hl].
  - destruct pre as [|y pre]; cbn [app] in E; injection E as -> E.
    + exists [], s. auto.
    + destruct (IH pre c r E Hc Hs) as (p & s' & -> & <- & <-). exists (y :: p), s'. split; [reflexivity|]. split; [|reflexivity].
      cbn [flat_map]. unfold utf16 at 1. now rewrite (proj2 (N.ltb_lt _ _) Hl).
  - destruct pre as [|y pre]; cbn [app] in E; injection E as Ey E; [lia|].
    destruct pre as [|z pre]; cbn [app] in E; injection E as Ez E; [lia|].
    destruct (IH pre c r E Hc Hs) as (p & s' & -> & <- & <-). exists (x :: p), s'. split; [reflexivity|]. split; [|reflexivity].
    cbn [flat_map]. unfold utf16 at 1. destruct (N.ltb_spec x 0x10000); [lia|]. now subst.
Qed.
Lemma utf16_head s c r : flat_map utf16 s = c :: r -> lone c -> pystr s -> exists s', s = c :: s' /\ flat_map utf16 s' = r.
Proof.
  intros E Hc Hp. destruct (utf16_split s [] c r E Hc Hp) as (p & s' & -> & Hn & <-). exists s'. split; [|reflexivity].
  destruct p as [|x p]; [reflexivity|]. cbn [flat_map] in Hn. unfold utf16 in Hn at 1. destruct (x <? 0x10000)%N; discriminate.
Qed.
Lemma utf16_last s pre c : flat_map utf16 s = pre ++ [c] -> pystr s -> exists p x, s = p ++ [x] /\ (x mod 256 = c mod 256)%N.
Proof.
  intros E Hp. destruct s as [|x s] using rev_ind; [destruct pre; discriminate|]. clear IHs. exists s, x. split; [reflexivity|].
  rewrite flat_map_app in E. cbn [flat_map] in E. rewrite app_nil_r in E. apply Forall_app in Hp. destruct Hp as [_ Hx]. inversion Hx; subst.
  unfold utf16 in E at 2. destruct (N.ltb_spec x 0x10000).
  - apply app_inj_tail in E. destruct E as [_ <-]. reflexivity.
  - change [?a; ?b] with ([a] ++ [b]) in E.
    rewrite app_assoc in E.
    apply app_inj_tail in E. destruct E as [_ <-]. lia.
Qed.
Lemma pystr_suffix p c s : pystr (p ++ c :: s) -> pystr s.
Proof. intros H. apply Forall_app in H. destruct H as [_ H]. now inversion H. Qed.
Lemma hex_lone c : hex_char c -> lone c. Proof. unfold hex_char, lone. lia. Qed.
Lemma high_lone c : hex_high c -> lone c. Proof. intros (d & -> & H). unfold lone. lia. Qed.
Lemma looks_units s : pystr s -> looks_escaped (flat_map utf16 s) -> looks_escaped s.
Proof.
  intros Hp (pre & a & b & c & d & post & E & H1 & H2 & H3 & H4). cbn [app] in E.
  destruct (utf16_split _ _ _ _ E) as (p & s0 & -> & _ & E0); [unfold lone; lia|exact Hp|]. apply pystr_suffix in Hp.
  destruct (utf16_head _ _ _ E0) as (s1 & -> & E1); [unfold lone; lia|exact Hp|]. apply (pystr_suffix []) in Hp.
  destruct (utf16_head _ _ _ E1) as (s2 & -> & E2); [now apply hex_lone|exact Hp|]. apply (pystr_suffix []) in Hp.
  destruct (utf16_head _ _ _ E2) as (s3 & -> & E3); [now apply hex_lone|exact Hp|]. apply (pystr_suffix []) in Hp.
  destruct (utf16_head _ _ _ E3) as (s4 & -> & E4); [now apply hex_lone|exact Hp|]. apply (pystr_suffix []) in Hp.
  destruct (utf16_head _ _ _ E4) as (s5 & -> & E5); [now apply hex_lone|exact Hp|]. apply (pystr_suffix []) in Hp.
  destruct (utf16_head _ _ _ E5) as (s6 & -> & E6); [unfold lone; lia|exact Hp|].
  exists p, a, b, c, d, s6. auto 10.
Qed.
Lemma misread_units s : pystr s -> misread_run (flat_map utf16 s) -> misread_run s.
Proof.
  intros Hp (pre & c0 & a & b & c & d & c7 & post & E & H0 & H1 & H2 & H3 & H4 & H7). cbn [app] in E.
  replace (pre ++ c0 :: 0x5F00 :: 0x7800 :: a :: b :: c :: d :: c7 :: post)%N
    with ((pre ++ [c0]) ++ 0x5F00 :: 0x7800 :: a :: b :: c :: d :: c7 :: post)%N in E by now rewrite <- app_assoc.
  destruct (utf16_split _ _ _ _ E) as (p & s0 & -> & Eq & E0); [unfold lone; lia|exact Hp|].
  destruct (utf16_last _ _ _ Eq) as (p' & x & -> & Hx); [apply Forall_app in Hp; apply Hp|]. apply pystr_suffix in Hp.
  destruct (utf16_head _ _ _ E0) as (s1 & -> & E1); [unfold lone; lia|exact Hp|]. apply (pystr_suffix []) in Hp.
  destruct (utf16_head _ _ _ E1) as (s2 & -> & E2); [now apply high_lone|exact Hp|]. apply (pystr_suffix []) in Hp.
  destruct (utf16_head _ _ _ E2) as (s3 & -> & E3); [now apply high_lone|exact Hp|]. apply (pystr_suffix []) in Hp.
  destruct (utf16_head _ _ _ E3) as (s4 & -> & E4); [now apply high_lone|exact Hp|]. apply (pystr_suffix []) in Hp.
  destruct (utf16_head _ _ _ E4) as (s5 & -> & E5); [now apply high_lone|exact Hp|]. apply (pystr_suffix []) in Hp.
  destruct (utf16_head _ _ _ E5) as (s6 & -> & E6); [unfold lone; lia|exact Hp|].
  exists p', x, a, b, c, d, c7, s6. rewrite <- app_assoc. cbn [app]. split; [reflexivity|]. split; [congruence|]. auto.
Qed.
Lemma units_bound s : pystr s -> Forall (fun u => (u < 65536)%N) (flat_map utf16 s).
Proof.
  induction 1 as [|c s Hc _ IH]; [constructor|]. cbn [flat_map]. apply Forall_app. split; [|exact IH]. now apply utf16_bound.
Qed.
Lemma no_surrogates_false s : no_surrogates s -> existsb is_surrogate s = false.
Proof.
  intros Hs. apply not_true_is_false. intros E. apply existsb_exists in E. destruct E as (c & Hc & Ec).
  unfold no_surrogates in Hs. rewrite Forall_forall in Hs. apply (Hs c Hc). unfold is_surrogate, in_range in Ec. lia.
Qed.
Lemma raw_read s : raw_str s -> deserialize_string s = Ok s.
Proof.
  intros (Hb & Hs & Hm & He). unfold deserialize_string, encode_utf16be. rewrite (no_surrogates_false s Hs).
  cbn [bind]. change (flat_map unit_bytes (flat_map utf16 s)) with (byteseq (flat_map utf16 s)).
  pose proof (units_bound s Hb) as Hb'.
  rewrite (sub_aligned (length (flat_map utf16 s))); [|lia|exact Hb'|].
  - rewrite usub_id.
    + unfold decode_utf16be. rewrite units_byteseq. f_equal. now apply join_utf16.
    + intros pre suf E'. destruct (munit suf) eqn:E; [|reflexivity].
      destruct (munit_escaped suf) as (a & b & c & d & post & -> & H1 & H2 & H3 & H4); [congruence|].
      exfalso. apply He, looks_units; [exact Hb|]. exists pre, a, b, c, d, post. auto.
  - intros pre suf E'. destruct (match_escape (tl (byteseq suf))) eqn:E; [|reflexivity].
    exfalso. destruct (mis_run [] suf) as (c0 & a & b & c & d & c7 & post & -> & H); [congruence| |].
    + rewrite E' in Hb'. apply Forall_app in Hb'. tauto.
    + apply Hm, misread_units; [exact Hb|]. exists pre, c0, a, b, c, d, c7, post. split; [exact E'|]. tauto.
Qed.
(** Whatever is read from a text without surrogates is read: every replacement keeps the number of bytes even. *)
Lemma sub_even n : forall l k, length l <= n -> k <= length l ->
  exists m, length (sub_escapes k l) + k + 12 * m = length l.
Proof.
  induction n as [|n IH]; intros l k Hn Hk.
  - destruct l; [|cbn in Hn; lia]. exists 0. cbn in *. lia.
  - destruct l as [|b t]; [exists 0; cbn in *; lia|]. cbn [length] in *. destruct k as [|k].
    + rewrite sub_escapes_cons0. destruct (match_escape (b :: t)) as [[hi lo]|] eqn:E.
      * assert (13 <= length t) as H13.
        { do 13 (destruct t as [|? t]; [discriminate E|]). cbn [length]. lia. }
        destruct (IH t 13 ltac:(lia) H13) as (m & Hm). exists (S m). cbn [length]. lia.
      * destruct (IH t 0 ltac:(lia) ltac:(lia)) as (m & Hm). exists m. cbn [length]. lia.
    + cbn [sub_escapes]. destruct (IH t k ltac:(lia) ltac:(lia)) as (m & Hm). exists m. lia.
Qed.
Lemma units_even n : forall l, length l = 2 * n -> exists us, units_of_bytes l = Some us.
Proof.
  induction n as [|n IH]; intros l H.
  - destruct l; [|discriminate]. now exists [].
  - destruct l as [|a [|b t]]; try (cbn in H; lia). destruct (IH t) as (us & E); [cbn in H; lia|]. cbn [units_of_bytes]. rewrite E. eauto.
Qed.
Lemma byteseq_length us : length (byteseq us) = 2 * length us.
Proof. induction us as [|u us IH]; [reflexivity|]. rewrite byteseq_cons. cbn [length]. lia. Qed.
Lemma text_read s : no_surrogates s -> exists s', deserialize_string s = Ok s' /\ (raw_str s -> s' = s).
Proof.
  intros Hs. assert (exists s', deserialize_string s = Ok s') as (s' & E).
  { unfold deserialize_string, encode_utf16be. rewrite (no_surrogates_false s Hs). cbn [bind].
    change (flat_map unit_bytes (flat_map utf16 s)) with (byteseq (flat_map utf16 s)). set (us := flat_map utf16 s).
    destruct (sub_even (length (byteseq us)) (byteseq us) 0) as (m & Hm); [lia|lia|]. rewrite byteseq_length in Hm.
    destruct (units_even (length us - 6 * m) (sub_escapes 0 (byteseq us))) as (v & Ev); [lia|].
    unfold decode_utf16be. rewrite Ev. eauto. }
  exists s'. split; [exact E|]. intros H. apply raw_read in H. congruence.
Qed.
Lemma good_read s : good_str s -> deserialize_string (serialize_string s) = Ok s.
Proof. intros (H1 & H2 & H3). now apply string_roundtrip. Qed.

(** ** Primitive values *)
Lemma plain_fits z : (- 2 ^ 31 <= z < 2 ^ 63)%Z ->
  (plain_int_type z = TInt32 \/ plain_int_type z = TInt64) /\ fits (plain_int_type z) z.
Proof.
  change (2 ^ 31)%Z with 2147483648%Z. change (2 ^ 63)%Z with 9223372036854775808%Z.
  intros H. unfold plain_int_type, fits. destruct (z >? 2147483647)%Z eqn:E; cbn [int_signed int_bits].
  - change (2 ^ (64 - 1))%Z with 9223372036854775808%Z. split; [auto|lia].
  - change (2 ^ (32 - 1))%Z with 2147483648%Z. split; [auto|lia].
Qed.
Lemma read_int_written t z : fits t z ->
  match write_int z with [] => new_int t ANone | _ => read_int t (write_int z) end = Ok z.
Proof.
  intros H. pose proof (new_int_ok t z H) as E. rewrite <- read_write_int in E.
  destruct (write_int z) eqn:F; [|exact E]. vm_compute in E. discriminate.
Qed.
Definition prim_back (p : prim) : prim := match p with PPlainInt z => PInt (plain_int_type z) z | _ => p end.
Lemma prim_back_same p : good_prim p -> same_prim p (prim_back p).
Proof. destruct p; cbn [same_prim prim_back]; try reflexivity. intros H. apply plain_fits in H. destruct H. eauto. Qed.
Lemma prim_read p : good_prim p ->
  read_prim (x_tag (prim_elem p)) (x_text (prim_elem p)) = Some (Ok (prim_back p)).
Proof.
  destruct p; cbn [good_prim prim_elem x_tag x_text read_prim prim_back]; intros H.
  - rewrite read_int_written by exact H. reflexivity.
  - apply plain_fits in H. rewrite read_int_written by apply H. reflexivity.
  - rewrite read_write_char by exact H. reflexivity.
  - rewrite good_read by exact H. reflexivity.
  - rewrite b64_roundtrip by exact H. reflexivity.
  - rewrite datetime_roundtrip by exact H. reflexivity.
  - destruct H as (H1 & H2 & H3). apply duration_roundtrip in H3; [|exact H1]. rewrite H3. cbn [bind].
    do 3 f_equal. lia.
  - pose proof (guid_text_roundtrip n H) as E. destruct (write_guid n) eqn:F; [vm_compute in E; discriminate|].
    rewrite E. reflexivity.
  - pose proof (read_write_version v H) as E. destruct (write_version v) eqn:F; [vm_compute in E; discriminate|].
    rewrite E. reflexivity.
  - destruct s; [congruence|reflexivity].
  - reflexivity.
Qed.
Lemma prim_elem_shape p : exists t s, prim_elem p = Elem t [] s [] /\
  match t with TgInt _ | TgStr _ | TgC | TgBA | TgDT | TgTS | TgG | TgVersion | TgFloat _ | TgSS => True | _ => False end.
Proof. destruct p; cbn [prim_elem]; (eexists; eexists; split; [reflexivity|exact I]). Qed.
Lemma prim_deser reg g d p : good_prim p -> deser reg (S g) d (prim_elem p) = Ok (VPrim (prim_back p), d).
Proof.
  intros H. pose proof (prim_read p H) as E. destruct (prim_elem_shape p) as (t & s & F & Ht). rewrite F in *.
  cbn [x_tag x_text] in E. cbn [deser]. destruct t; try contradiction; rewrite E; reflexivity.
Qed.
Lemma prim_deser_ge reg g d p : good_prim p -> 1 <= g -> deser reg g d (prim_elem p) = Ok (VPrim (prim_back p), d).
Proof. intros H Hg. destruct g; [lia|]. now apply prim_deser. Qed.

(** Plain values do not touch either state. *)
Definition value_back (v : value) : value := match v with VPrim p => VPrim (prim_back p) | _ => v end.
Lemma plain_ser f st v : plain v -> exists x, ser (S f) st v = Ok (x, st) /\ attr_get AtN (x_attrs x) = None.
Proof.
  destruct v; try contradiction; intros _; cbn [ser]; (eexists; split; [reflexivity|]).
  - reflexivity.
  - reflexivity.
  - destruct (prim_elem_shape p) as (t & s & -> & _). reflexivity.
Qed.
Lemma plain_deser reg f st v x st2 g d : plain v -> (match v with VPrim p => good_prim p | _ => True end) ->
  ser f st v = Ok (x, st2) -> 1 <= g -> st2 = st /\ deser reg g d x = Ok (value_back v, d).
Proof.
  intros Hp Hg. destruct f as [|f]; [discriminate|]. destruct g as [|g]; [lia|].
  destruct v; try contradiction; cbn [ser]; intros E _; injection E as <- <-; (split; [reflexivity|]).
  - reflexivity.
  - cbn [deser]. now rewrite read_write_bool.
  - now apply prim_deser.
Qed.
Lemma plain_same R v : plain v -> (match v with VPrim p => good_prim p | _ => True end) -> same_value R v (value_back v).
Proof. destruct v; try contradiction; intros _ H; constructor. now apply prim_back_same. Qed.

(** ** The model's tables are those of the specification *)
Lemma prim_names_net p : prim_names p = net_names p.
Proof. destruct p as [[]| | |[]| | | | | |[]|]; reflexivity. Qed.
Lemma leap_is y : is_leap y = leap y.
Proof.
  unfold is_leap, leap. destruct (N.eqb_spec (y mod 400) 0) as [E|E].
  - assert (y mod 4 = 0)%N as ->; [|destruct (negb (y mod 100 =? 0)%N); reflexivity].
    pose proof (N.div_mod y 400 ltac:(lia)) as D. rewrite E in D.
    rewrite D. replace (400 * (y / 400) + 0)%N with (100 * (y / 400) * 4)%N by lia. apply N.mod_mul. lia.
  - destruct (N.eqb_spec (y mod 100) 0) as [F|F]; destruct (N.eqb_spec (y mod 4) 0) as [G|G]; reflexivity.
Qed.
Lemma month_days_is y m : (1 <= m)%nat -> Z.of_N (days_in_month y (N.of_nat m)) = month_days y m.
Proof.
  intros Hm. unfold days_in_month, month_days. rewrite leap_is. do 13 (destruct m as [|m]; [first [lia|destruct (leap y); reflexivity]|]).
  replace (nth _ _ _) with 31%Z by (destruct m; reflexivity).
  assert (forall k, (k < 13)%N -> (N.of_nat (13 + m) =? k)%N = false) as H by (intros k Hk; apply N.eqb_neq; clear Hm; lia).
  change (S (S (S (S (S (S (S (S (S (S (S (S (S m))))))))))))) with (13 + m)%nat. rewrite !H by lia. reflexivity.
Qed.
Lemma sum_over_S f n : sum_over f (S n) = (sum_over f n + f (S n))%Z.
Proof.
  unfold sum_over. rewrite seq_S, fold_right_app. cbn [fold_right]. change (1 + n) with (S n). generalize (f (S n)) as z. intros z.
  generalize (seq 1 n) as l. induction l as [|a l IH]; cbn [fold_right]; lia.
Qed.
Lemma months_is y n : Z.of_N (fold_left N.add (map (fun m => days_in_month y (N.of_nat m)) (seq 1 n)) 0%N) = sum_over (month_days y) n.
Proof.
  induction n as [|n IH]; [reflexivity|]. rewrite sum_over_S, <- IH, seq_S, map_app, fold_left_app. cbn [map fold_left].
  rewrite N2Z.inj_add, month_days_is by lia. reflexivity.
Qed.
Lemma div_succ k y : (0 < k)%Z -> ((y + 1) / k = y / k + (if (y + 1) mod k =? 0 then 1 else 0))%Z.
Proof.
  intros Hk. pose proof (Z.div_mod (y + 1) k ltac:(lia)) as D. pose proof (Z.mod_pos_bound (y + 1) k Hk) as B.
  destruct (Z.eqb_spec ((y + 1) mod k) 0) as [E|E].
  - assert (y / k = (y + 1) / k - 1)%Z; [|lia]. symmetry. apply (Z.div_unique _ _ _ (k - 1)); lia.
  - rewrite Z.add_0_r. apply (Z.div_unique _ _ _ ((y + 1) mod k - 1)); lia.
Qed.
Lemma years_is n : sum_over (fun y => year_days (N.of_nat y)) n = (let y := Z.of_nat n in 365 * y + y / 4 - y / 100 + y / 400)%Z.
Proof.
  induction n as [|n IH]; [reflexivity|]. rewrite sum_over_S, IH. cbv zeta. rewrite Nat2Z.inj_succ. unfold Z.succ.
  rewrite !(div_succ _ (Z.of_nat n)) by lia. unfold year_days. rewrite <- leap_is. unfold is_leap.
  assert (forall k, (0 < k)%N -> (N.of_nat (S n) mod k =? 0)%N = ((Z.of_nat n + 1) mod Z.of_N k =? 0)%Z) as E.
  { intros k Hk. replace (Z.of_nat n + 1)%Z with (Z.of_N (N.of_nat (S n))) by lia. rewrite <- N2Z.inj_mod by lia.
    destruct (N.eqb_spec (N.of_nat (S n) mod k) 0) as [F|F]; symmetry; [rewrite F; reflexivity|apply Z.eqb_neq; lia]. }
  rewrite !E by lia. set (y := (Z.of_nat n + 1)%Z). cbn [Z.of_N].
  assert (y mod 400 = 0 -> y mod 100 = 0)%Z as H1.
  { intros H. rewrite (Z.div_mod y 400 ltac:(lia)), H. replace (400 * (y / 400) + 0)%Z with (4 * (y / 400) * 100)%Z by lia. apply Z.mod_mul. lia. }
  assert (y mod 100 = 0 -> y mod 4 = 0)%Z as H2.
  { intros H. rewrite (Z.div_mod y 100 ltac:(lia)), H. replace (100 * (y / 100) + 0)%Z with (25 * (y / 100) * 4)%Z by lia. apply Z.mod_mul. lia. }
  destruct (Z.eqb_spec (y mod 4) 0), (Z.eqb_spec (y mod 100) 0), (Z.eqb_spec (y mod 400) 0); cbn [andb orb negb]; try lia; exfalso; auto.
Qed.
Lemma instant_moment d : instant d = moment d.
Proof.
  unfold instant, moment. cbv zeta. rewrite years_is. cbv zeta. replace (Z.of_nat (N.to_nat (dt_year d) - 1)) with (Z.of_N (dt_year d - 1)) by lia.
  rewrite <- (months_is (dt_year d) (N.to_nat (dt_month d) - 1)). destruct (dt_tz d); ring.
Qed.

(** ** Dictionary keys *)
Lemma good_key_plain k : good_key k -> plain k.
Proof. destruct k; cbn; tauto. Qed.
Lemma good_key_hash k h : good_key k -> exists hk, hash h (value_back k) = Some hk.
Proof. destruct k as [|b|p| |]; cbn [good_key]; try contradiction; intros H; cbn [value_back hash]; eauto. destruct p; cbn; try contradiction; eauto. Qed.
Lemma key_hash_neq h k l hk hl : good_key k -> good_key l -> ~ equal_keys k l ->
  hash h (value_back k) = Some hk -> hash h (value_back l) = Some hl -> hkey_eqb hk hl = false.
Proof.
  intros Hk Hl Hn E F. apply not_true_is_false. intros G. apply hkey_eqb_iff in G. destruct G as [G _]. subst hl. apply Hn.
  destruct k as [|b|p| |], l as [|b'|q| |]; cbn [good_key] in *; try contradiction;
    cbn [value_back hash] in E, F; rewrite E in F || idtac;
    try (injection E as <-; injection F as F).
  all: repeat match goal with p : prim |- _ => destruct p; cbn in Hk, Hl; try contradiction; cbn in E, F end; try congruence.
  all: try (injection E as <-; injection F as F; subst; try discriminate).
  all: try apply EqSame.
  all: try (eapply EqNumber; cbn [number]; [reflexivity|]; f_equal; congruence).
  all: try apply EqText; try apply EqFloat.
  all: try (destruct b, b'; try discriminate; apply EqSame).
  apply EqDate; [|rewrite <- !instant_moment; congruence]. destruct (dt_tz d), (dt_tz d0); try discriminate; split; congruence.
Qed.
