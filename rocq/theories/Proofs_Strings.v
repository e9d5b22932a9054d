(** String escaping. *)
From Verif Require Import Base BaseFacts Model_Strings Spec_Strings.

Ltac fall := repeat apply Forall_cons; try apply Forall_nil.
Ltac rng := unfold in_range, is_high, is_low, is_surrogate, is_x in *.

Definition starts_x (s : list N) : bool := match s with c :: _ => is_x c | [] => false end.
Definition tok (a : N) (r : list N) : list N :=
  if ((a =? 0x5F)%N && starts_x r)%bool then esc_unit 0x5F else esc_char a.
Fixpoint escs (s : list N) : list N :=
  match s with [] => [] | a :: r => tok a r ++ escs r end.

Lemma esc_char_keep c : must_escape c = false -> esc_char c = [c].
Proof. intros H. unfold esc_char. now rewrite H. Qed.

Lemma esc_underscore_cons a r :
  esc_underscore (a :: r) =
  (if ((a =? 0x5F)%N && starts_x r)%bool then [0x5F; 0x78; 0x30; 0x30; 0x35; 0x46; 0x5F]%N else [a]) ++ esc_underscore r.
Proof.
  destruct r as [|c t]; cbn [esc_underscore starts_x].
  - rewrite andb_false_r. reflexivity.
  - destruct ((a =? 0x5F)%N && is_x c)%bool eqn:E; [|reflexivity].
    cbn [app]. do 7 f_equal.
    assert (Hc : (c =? 0x5F)%N = false) by (rng; lia).
    destruct t as [|d t]; [reflexivity|]. cbn [esc_underscore]. now rewrite Hc.
Qed.

Lemma serialize_escs s : serialize_string s = escs s.
Proof.
  unfold serialize_string. induction s as [|a r IH]; [reflexivity|].
  rewrite esc_underscore_cons, flat_map_app, IH. cbn [escs]. f_equal. unfold tok.
  destruct ((a =? 0x5F)%N && starts_x r)%bool.
  - reflexivity.
  - cbn [flat_map]. apply app_nil_r.
Qed.

(** Characters of the escape literals. *)
Definition lit_char (c : N) : Prop := (48 <= c <= 57 \/ 65 <= c <= 70 \/ c = 0x5F \/ c = 0x78)%N.

Lemma hexdig_lit d : (d < 16)%N -> lit_char (hexdig d).
Proof. intros H. unfold hexdig, lit_char. destruct (N.ltb_spec d 10); lia. Qed.
Lemma hex4_lit u : (u < 65536)%N -> Forall lit_char (hex4 u).
Proof. intros H. unfold hex4. fall; apply hexdig_lit; lia. Qed.
Lemma esc_unit_lit u : (u < 65536)%N -> Forall lit_char (esc_unit u).
Proof.
  intros H. unfold esc_unit. apply Forall_app. split; [fall; unfold lit_char; lia|].
  apply Forall_app. split; [now apply hex4_lit|]. fall; unfold lit_char; lia.
Qed.

Lemma utf16_bound c : (c < 0x110000)%N -> Forall (fun u => (u < 65536)%N) (utf16 c).
Proof. intros H. unfold utf16. destruct (N.ltb_spec c 0x10000); fall; lia. Qed.

Lemma tok_cases a r : (a < 0x110000)%N ->
  (tok a r = [a] /\ must_escape a = false /\ (a = 0x5F%N -> starts_x r = false))
  \/ (Forall lit_char (tok a r) /\ tok a r = flat_map esc_unit (utf16 a) /\ tok a r <> []).
Proof.
  intros Ha. unfold tok. destruct ((a =? 0x5F)%N && starts_x r)%bool eqn:E.
  - right. apply andb_prop in E. destruct E as [E1 E2]. apply N.eqb_eq in E1. subst a.
    split; [apply esc_unit_lit; lia|]. split; [reflexivity|discriminate].
  - unfold esc_char. destruct (must_escape a) eqn:Em.
    + right. pose proof (utf16_bound a Ha) as Hu. split; [|split; [reflexivity|]].
      * apply Forall_flat_map. eapply Forall_impl; [|exact Hu]. intros. now apply esc_unit_lit.
      * unfold utf16. destruct (a <? 0x10000)%N; discriminate.
    + left. repeat split; auto. intros ->. exact E.
Qed.

(** *** C14 *)
Lemma lit_allowed c : lit_char c -> ~ forbidden c.
Proof. unfold lit_char, forbidden. lia. Qed.

Lemma must_escape_false c : (c < 0x110000)%N -> must_escape c = false ->
  ~ (0xD900 <= c <= 0xDBFF)%N -> ~ forbidden c.
Proof. unfold must_escape, forbidden, in_range. lia. Qed.

Lemma escs_safe s : pystr s -> Forall (fun c => ~ (0xD900 <= c <= 0xDBFF)%N) s ->
  Forall (fun c => ~ forbidden c) (escs s).
Proof.
  intros Hs. induction Hs as [|a r Ha Hr IH]; intros Hn; [constructor|]. inversion Hn; subst.
  cbn [escs]. apply Forall_app. split; [|auto].
  destruct (tok_cases a r Ha) as [(-> & Hm & _)|(Hl & _)].
  - fall. now apply must_escape_false.
  - eapply Forall_impl; [|exact Hl]. intros. now apply lit_allowed.
Qed.

(** ** Un-escaping on code units *)
Definition munit (us : list N) : option N :=
  match us with
  | u0 :: x :: a :: b :: c :: d :: u1 :: _ =>
    if ((u0 =? 0x5F) && (x =? 0x78) && (u1 =? 0x5F))%N then
      match hex_val a, hex_val b, hex_val c, hex_val d with
      | Some p, Some q, Some r, Some s => Some ((p * 16 + q) * 256 + (r * 16 + s))%N
      | _, _, _, _ => None
      end
    else None
  | _ => None
  end.
Fixpoint usub (skip : nat) (us : list N) : list N :=
  match us with
  | [] => []
  | u :: t =>
    match skip with
    | S k => usub k t
    | O => match munit us with Some v => v :: usub 6 t | None => u :: usub 0 t end
    end
  end.

Lemma hex_val_dig d : (d < 16)%N -> hex_val (hexdig d) = Some d.
Proof.
  intros H. unfold hexdig, hex_val, in_range. destruct (N.ltb_spec d 10).
  - replace ((48 <=? 48 + d) && (48 + d <=? 57))%N with true by lia. f_equal. lia.
  - replace ((48 <=? 55 + d) && (55 + d <=? 57))%N with false by lia.
    replace ((65 <=? 55 + d) && (55 + d <=? 70))%N with true by lia. f_equal. lia.
Qed.

Lemma munit_esc u r : (u < 65536)%N -> munit (esc_unit u ++ r) = Some u.
Proof.
  intros H. unfold esc_unit, hex4. cbn [app munit].
  rewrite !hex_val_dig by lia. change ((95 =? 95) && (120 =? 120) && (95 =? 95))%N with true. cbn iota.
  f_equal. lia.
Qed.
Lemma usub_esc u r : (u < 65536)%N -> usub 0 (esc_unit u ++ r) = u :: usub 0 r.
Proof.
  intros H. pose proof (munit_esc u r H) as Hm. unfold esc_unit, hex4 in *. cbn [app] in *.
  cbn [usub]. rewrite Hm. reflexivity.
Qed.
Lemma usub_escs_units us r : Forall (fun u => (u < 65536)%N) us -> usub 0 (flat_map esc_unit us ++ r) = us ++ usub 0 r.
Proof.
  induction 1 as [|u us Hu H IH]; [reflexivity|]. cbn [flat_map]. rewrite <- app_assoc, usub_esc by exact Hu.
  cbn [app]. now rewrite IH.
Qed.

Lemma munit_none_us u t : u <> 0x5F%N -> munit (u :: t) = None.
Proof.
  intros H. unfold munit. do 6 (destruct t as [|? t]; [reflexivity|]).
  replace (u =? 95)%N with false by lia. reflexivity.
Qed.
Lemma munit_none_x t : starts_x t = false -> munit (0x5F :: t)%N = None.
Proof.
  intros H. destruct t as [|x t]; [reflexivity|]. unfold munit. do 5 (destruct t as [|? t]; [reflexivity|]).
  cbn [starts_x] in H. unfold is_x in H. replace (x =? 120)%N with false by lia. now rewrite andb_false_r.
Qed.
Lemma starts_x_escs s : pystr s -> starts_x s = false -> starts_x (escs s) = false.
Proof.
  intros Hs H. destruct s as [|a r]; [reflexivity|]. inversion Hs; subst. cbn [escs].
  destruct (tok_cases a r) as [(-> & _)|(_ & Ht & Hn)]; [assumption|exact H|].
  rewrite Ht. unfold utf16. destruct (a <? 65536)%N; reflexivity.
Qed.

Lemma usub_escs s : pystr s -> usub 0 (escs s) = flat_map utf16 s.
Proof.
  induction 1 as [|a r Ha Hr IH]; [reflexivity|]. cbn [escs flat_map].
  destruct (tok_cases a r Ha) as [(Ht & Hm & Hx)|(_ & Ht & _)].
  - rewrite Ht. cbn [app usub].
    assert (Hmu : munit (a :: escs r) = None).
    { destruct (N.eq_dec a 0x5F) as [->|Hn]; [|now apply munit_none_us].
      apply munit_none_x, starts_x_escs; auto. }
    rewrite Hmu, IH. unfold utf16. replace (a <? 65536)%N with true; [reflexivity|].
    unfold must_escape, in_range in Hm. lia.
  - rewrite Ht, usub_escs_units by now apply utf16_bound. now rewrite IH.
Qed.

(** ** From bytes to units *)
Definition byteseq (us : list N) : list N := flat_map unit_bytes us.
Lemma byteseq_cons u us : byteseq (u :: us) = (u / 256)%N :: (u mod 256)%N :: byteseq us.
Proof. reflexivity. Qed.

Lemma match_aligned us : Forall (fun u => (u < 65536)%N) us ->
  match_escape (byteseq us) = match munit us with Some v => Some (v / 256, v mod 256)%N | None => None end.
Proof.
  intros H. destruct us as [|u0 [|x [|a [|b [|c [|d [|u1 t]]]]]]]; try reflexivity.
  repeat match goal with H : Forall _ (_ :: _) |- _ => inversion H; clear H; subst end.
  rewrite !byteseq_cons. cbn [match_escape munit].
  assert (Hhv : forall z, (z < 65536)%N -> (z / 256 = 0)%N -> hex_val (z mod 256) = hex_val z).
  { intros z Hz H0. f_equal. lia. }
  destruct ((u0 =? 95) && (x =? 120) && (u1 =? 95))%N eqn:E.
  - apply andb_prop in E. destruct E as [E E3]. apply andb_prop in E. destruct E as [E1 E2].
    apply N.eqb_eq in E1, E2, E3. subst u0 x u1.
    change (95 / 256)%N with 0%N. change (95 mod 256)%N with 95%N. change (120 / 256)%N with 0%N.
    change (120 mod 256)%N with 120%N. rewrite !N.eqb_refl. cbn [andb].
    rewrite !andb_true_r.
    destruct (N.eqb_spec (a / 256) 0) as [Ha|Ha]; cbn [andb].
    2:{ replace (hex_val a) with (@None N); [reflexivity|]. unfold hex_val, in_range.
        replace ((48 <=? a) && (a <=? 57))%N with false by lia.
        replace ((65 <=? a) && (a <=? 70))%N with false by lia.
        replace ((97 <=? a) && (a <=? 102))%N with false by lia. reflexivity. }
    assert (Hbig : forall z, (z / 256 <> 0)%N -> hex_val z = None).
    { intros z Hz. unfold hex_val, in_range.
      replace ((48 <=? z) && (z <=? 57))%N with false by lia.
      replace ((65 <=? z) && (z <=? 70))%N with false by lia.
      replace ((97 <=? z) && (z <=? 102))%N with false by lia. reflexivity. }
    rewrite (Hhv a) by assumption.
    destruct (N.eqb_spec (b / 256) 0) as [Hb|Hb]; cbn [andb].
    2:{ rewrite (Hbig b Hb). now destruct (hex_val a). }
    rewrite (Hhv b) by assumption.
    destruct (N.eqb_spec (c / 256) 0) as [Hc|Hc]; cbn [andb].
    2:{ rewrite (Hbig c Hc). now destruct (hex_val a), (hex_val b). }
    rewrite (Hhv c) by assumption.
    destruct (N.eqb_spec (d / 256) 0) as [Hd|Hd]; cbn [andb].
    2:{ rewrite (Hbig d Hd). now destruct (hex_val a), (hex_val b), (hex_val c). }
    rewrite (Hhv d) by assumption.
    assert (Hlt : forall z v, hex_val z = Some v -> (v < 16)%N).
    { intros z v. unfold hex_val, in_range.
      destruct ((48 <=? z) && (z <=? 57))%N eqn:E1; [intros [= <-]; lia|].
      destruct ((65 <=? z) && (z <=? 70))%N eqn:E2; [intros [= <-]; lia|].
      destruct ((97 <=? z) && (z <=? 102))%N eqn:E3; [intros [= <-]; lia|discriminate]. }
    destruct (hex_val a) as [p|] eqn:Ea; [|reflexivity].
    destruct (hex_val b) as [q|] eqn:Eb; [|reflexivity].
    destruct (hex_val c) as [r|] eqn:Ec; [|reflexivity].
    destruct (hex_val d) as [s|] eqn:Ed; [|reflexivity].
    apply Hlt in Ea, Eb, Ec, Ed. f_equal. f_equal; lia.
  - match goal with |- (if ?c then _ else _) = _ => replace c with false end; [reflexivity|].
    symmetry. apply not_true_is_false. intros Ht.
    repeat (apply andb_prop in Ht; let H' := fresh in destruct Ht as [Ht H']).
    rewrite <- not_true_iff_false in E. apply E. lia.
Qed.

Definition mis_free (us : list N) : Prop :=
  forall pre suf, us = pre ++ suf -> match_escape (tl (byteseq suf)) = None.

Lemma mis_free_cons u us : mis_free (u :: us) -> mis_free us.
Proof. intros H pre suf ->. apply (H (u :: pre) suf). reflexivity. Qed.
Lemma mis_free_skipn n us : mis_free us -> mis_free (skipn n us).
Proof.
  revert us. induction n as [|n IH]; intros us H; [exact H|]. destruct us; [exact H|]. simpl. apply IH.
  now apply mis_free_cons in H.
Qed.

Lemma sub_skip k l : sub_escapes k l = sub_escapes 0 (skipn k l).
Proof. revert l. induction k as [|k IH]; intros [|b l]; try reflexivity. simpl. apply IH. Qed.
Lemma usub_skip k l : usub k l = usub 0 (skipn k l).
Proof. revert l. induction k as [|k IH]; intros [|b l]; try reflexivity. simpl. apply IH. Qed.
Lemma byteseq_skipn k us : skipn (2 * k) (byteseq us) = byteseq (skipn k us).
Proof.
  revert us. induction k as [|k IH]; intros us; [reflexivity|]. destruct us as [|u us].
  - simpl. destruct (k + (S (k + 0))); reflexivity.
  - replace (2 * S k) with (S (S (2 * k))) by lia. rewrite byteseq_cons. cbn [skipn]. apply IH.
Qed.

Lemma sub_escapes_cons0 b t : sub_escapes 0 (b :: t) =
  match match_escape (b :: t) with Some (hi, lo) => hi :: lo :: sub_escapes 13 t | None => b :: sub_escapes 0 t end.
Proof. reflexivity. Qed.
Lemma usub_cons0 b t : usub 0 (b :: t) = match munit (b :: t) with Some v => v :: usub 6 t | None => b :: usub 0 t end.
Proof. reflexivity. Qed.

Lemma sub_aligned n : forall us, length us <= n -> Forall (fun u => (u < 65536)%N) us -> mis_free us ->
  sub_escapes 0 (byteseq us) = byteseq (usub 0 us).
Proof.
  induction n as [|n IH]; intros us Hl Hu Hm; destruct us as [|u us]; try reflexivity; [simpl in Hl; lia|].
  simpl in Hl. pose proof (match_aligned (u :: us) Hu) as Ha. rewrite byteseq_cons in *.
  rewrite sub_escapes_cons0, Ha, usub_cons0.
  destruct (munit (u :: us)) as [v|].
  - rewrite byteseq_cons. f_equal. f_equal. rewrite sub_skip, (usub_skip 6).
    change 13 with (S (2 * 6)). rewrite skipn_cons, byteseq_skipn.
    apply IH.
    + rewrite skipn_length. lia.
    + inversion Hu; subst. match goal with H : Forall _ us |- _ => revert H end. clear. 
      intros H. rewrite <- (firstn_skipn 6 us) in H. apply Forall_app in H. tauto.
    + apply mis_free_skipn. now apply mis_free_cons in Hm.
  - rewrite byteseq_cons. f_equal. rewrite sub_escapes_cons0.
    pose proof (Hm [] (u :: us) eq_refl) as H0. rewrite byteseq_cons in H0. cbn [tl] in H0. rewrite H0. f_equal.
    apply IH; [lia|now inversion Hu|now apply mis_free_cons in Hm].
Qed.

Lemma units_byteseq us : units_of_bytes (byteseq us) = Some us.
Proof.
  induction us as [|u us IH]; [reflexivity|]. rewrite byteseq_cons. cbn [units_of_bytes]. rewrite IH. f_equal. f_equal. lia.
Qed.

(** ** Joining surrogate pairs *)
Lemma join_utf16 s : pystr s -> no_surrogates s -> join_units (flat_map utf16 s) = s.
Proof.
  induction 1 as [|c s Hc Hs IH]; intros Hn; [reflexivity|]. inversion Hn; subst. cbn [flat_map].
  unfold utf16 at 1. destruct (N.ltb_spec c 0x10000) as [Hl|Hl].
  - cbn [app]. assert (is_high c = false) by (unfold is_high, in_range; lia).
    specialize (IH H2). destruct (flat_map utf16 s) as [|l t] eqn:E.
    + simpl in IH. now subst.
    + cbn [join_units]. rewrite H. cbn [andb]. change (c :: join_units (l :: t) = c :: s). now rewrite IH.
  - cbn [app join_units].
    replace (is_high (0xD800 + (c - 0x10000) / 1024)) with true by (unfold is_high, in_range; lia).
    replace (is_low (0xDC00 + (c - 0x10000) mod 1024)) with true by (unfold is_low, in_range; lia).
    cbn [andb]. rewrite IH by assumption. f_equal. unfold join_pair. lia.
Qed.

(** ** Misreadable runs *)
Lemma mis_run us suf : match_escape (tl (byteseq suf)) <> None -> Forall (fun u => (u < 65536)%N) suf ->
  exists c0 a b c d c7 post, suf = [c0; 0x5F00; 0x7800; a; b; c; d; c7]%N ++ post
    /\ (c0 mod 256 = 0)%N /\ hex_high a /\ hex_high b /\ hex_high c /\ hex_high d /\ (c7 / 256 = 0x5F)%N
    /\ us = us :> list N.
Proof.
  intros H Hu. destruct suf as [|c0 [|c1 [|c2 [|a [|b [|c [|d [|c7 post]]]]]]]]; try (exfalso; apply H; reflexivity).
  repeat match goal with H : Forall _ (_ :: _) |- _ => inversion H; clear H; subst end.
  rewrite !byteseq_cons in H. cbn [tl match_escape] in H.
  match type of H with context [if ?t then _ else _] => destruct t eqn:E end; [|congruence].
  assert (Hh : forall z, hex_val (z / 256) <> None -> (z < 65536)%N -> (z mod 256 = 0)%N -> hex_high z).
  { intros z Hz Hb H0. exists (z / 256)%N. split; [lia|]. unfold hex_val, in_range in Hz.
    destruct ((48 <=? z / 256) && (z / 256 <=? 57))%N eqn:E1; [lia|].
    destruct ((65 <=? z / 256) && (z / 256 <=? 70))%N eqn:E2; [lia|].
    destruct ((97 <=? z / 256) && (z / 256 <=? 102))%N eqn:E3; [lia|congruence]. }
  exists c0, a, b, c, d, c7, post.
  destruct (hex_val (a / 256)) eqn:Ea; [|congruence]. destruct (hex_val (b / 256)) eqn:Eb; [|congruence].
  destruct (hex_val (c / 256)) eqn:Ec; [|congruence]. destruct (hex_val (d / 256)) eqn:Ed; [|congruence].
  repeat (apply andb_prop in E; let H' := fresh "Q" in destruct E as [E H']).
  assert (c1 = 0x5F00)%N by lia. assert (c2 = 0x7800)%N by lia. subst c1 c2.
  split; [reflexivity|]. split; [lia|].
  split; [apply Hh; [congruence|assumption|lia]|].
  split; [apply Hh; [congruence|assumption|lia]|].
  split; [apply Hh; [congruence|assumption|lia]|].
  split; [apply Hh; [congruence|assumption|lia]|].
  split; [lia|reflexivity].
Qed.

Definition no_lit (c : N) : Prop := ~ lit_char c.

Lemma escs_head s c r : pystr s -> escs s = c :: r -> no_lit c -> exists s', s = c :: s' /\ escs s' = r.
Proof.
  intros Hs He Hc. destruct s as [|a s]; [discriminate|]. inversion Hs; subst. cbn [escs] in He.
  destruct (tok_cases a s) as [(Ht & _)|(Hl & _ & Hn)]; [assumption| |].
  - rewrite Ht in He. injection He as -> He. eauto.
  - destruct (tok a s) as [|x t]; [congruence|]. injection He as -> _. inversion Hl; subst. contradiction.
Qed.

Lemma escs_suffix s : pystr s -> forall pre c r, escs s = pre ++ c :: r -> no_lit c ->
  exists p s', s = p ++ c :: s' /\ escs s' = r.
Proof.
  induction 1 as [|a s Ha Hs IH]; intros pre c r He Hc; [destruct pre; discriminate|].
  cbn [escs] in He.
  destruct (tok_cases a s Ha) as [(Ht & _)|(Hl & _ & _)].
  - rewrite Ht in He. destruct pre as [|p0 pre]; injection He as -> He.
    + exists [], s. auto.
    + destruct (IH pre c r He Hc) as (p & s' & -> & E). exists (p0 :: p), s'. auto.
  - assert (Hgen : forall t pre, Forall lit_char t -> t ++ escs s = pre ++ c :: r -> exists pre', escs s = pre' ++ c :: r).
    { induction t as [|x t IHt]; intros pr Hf E; [eauto|]. inversion Hf; subst.
      destruct pr as [|y pr]; injection E as -> E; [contradiction|]. eauto. }
    destruct (Hgen _ _ Hl He) as (pre' & E). destruct (IH pre' c r E Hc) as (p & s' & -> & E2).
    exists (a :: p), s'. auto.
Qed.

Lemma hex_high_no_lit c : hex_high c -> no_lit c.
Proof. intros (d & -> & H). unfold no_lit, lit_char. lia. Qed.

Lemma escs_mis_free s : pystr s -> Forall (fun u => (u < 65536)%N) (escs s) -> ~ misread_run s -> mis_free (escs s).
Proof.
  intros Hs Hu Hn pre suf E. destruct (match_escape (tl (byteseq suf))) as [x|] eqn:Em; [|reflexivity]. exfalso. apply Hn.
  rewrite E in Hu. apply Forall_app in Hu. destruct Hu as [_ Hu].
  destruct (mis_run [] suf) as (c0 & a & b & c & d & c7 & post & Es & H0 & Ha & Hb & Hc & Hd & H7 & _); [congruence|exact Hu|].
  subst suf. cbn [app] in E.
  destruct (escs_suffix s Hs _ _ _ E) as (p & s1 & -> & E1); [unfold no_lit, lit_char; lia|].
  apply Forall_app in Hs. destruct Hs as [_ Hs]. inversion Hs as [|? ? _ Hs1]; subst.
  destruct (escs_head _ _ _ Hs1 E1) as (s2 & -> & E2); [unfold no_lit, lit_char; lia|]. inversion Hs1 as [|? ? _ Hs2]; subst.
  destruct (escs_head _ _ _ Hs2 E2) as (s3 & -> & E3); [unfold no_lit, lit_char; lia|]. inversion Hs2 as [|? ? _ Hs3]; subst.
  destruct (escs_head _ _ _ Hs3 E3) as (s4 & -> & E4); [now apply hex_high_no_lit|]. inversion Hs3 as [|? ? _ Hs4]; subst.
  destruct (escs_head _ _ _ Hs4 E4) as (s5 & -> & E5); [now apply hex_high_no_lit|]. inversion Hs4 as [|? ? _ Hs5]; subst.
  destruct (escs_head _ _ _ Hs5 E5) as (s6 & -> & E6); [now apply hex_high_no_lit|]. inversion Hs5 as [|? ? _ Hs6]; subst.
  destruct (escs_head _ _ _ Hs6 E6) as (s7 & -> & E7); [now apply hex_high_no_lit|]. inversion Hs6 as [|? ? _ Hs7]; subst.
  destruct (escs_head _ _ _ Hs7 E7) as (s8 & -> & E8); [unfold no_lit, lit_char; lia|].
  exists p, c0, a, b, c, d, c7, s8. auto 10.
Qed.

Lemma flat_map_utf16_bmp s : Forall (fun u => (u < 65536)%N) s -> flat_map utf16 s = s.
Proof.
  induction 1 as [|u s Hu H IH]; [reflexivity|]. cbn [flat_map]. rewrite IH. unfold utf16.
  destruct (N.ltb_spec u 65536); [reflexivity|lia].
Qed.

(** *** C13 *)
Lemma string_roundtrip_units s : pystr s -> Forall (fun c => ~ (0xD900 <= c <= 0xDBFF)%N) s -> ~ misread_run s ->
  deserialize_string (serialize_string s) = Ok (join_units (flat_map utf16 s)).
Proof.
  intros Hs Hn Hr. rewrite serialize_escs. pose proof (escs_safe s Hs Hn) as Hsafe.
  assert (Hb : Forall (fun u => (u < 65536)%N) (escs s)).
  { eapply Forall_impl; [|exact Hsafe]. intros c H. unfold forbidden in H. cbv beta. lia. }
  unfold deserialize_string, encode_utf16be.
  replace (existsb is_surrogate (escs s)) with false.
  2:{ symmetry. apply not_true_is_false. intros H. apply existsb_exists in H. destruct H as (c & Hin & Hc).
      rewrite Forall_forall in Hsafe. apply (Hsafe c Hin). unfold forbidden. unfold is_surrogate, in_range in Hc. lia. }
  cbn [bind]. rewrite flat_map_utf16_bmp by exact Hb. fold (byteseq (escs s)).
  rewrite (sub_aligned (length (escs s))) by (auto using escs_mis_free).
  rewrite usub_escs by exact Hs. unfold decode_utf16be. now rewrite units_byteseq.
Qed.

Lemma string_roundtrip s : pystr s -> no_surrogates s -> ~ misread_run s ->
  deserialize_string (serialize_string s) = Ok s.
Proof.
  intros Hs Hn Hr. rewrite string_roundtrip_units; auto.
  - now rewrite join_utf16.
  - eapply Forall_impl; [|exact Hn]. intros c H. cbv beta in *. lia.
Qed.
