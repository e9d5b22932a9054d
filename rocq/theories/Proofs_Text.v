(** base64 and GUID text. *)
From Verif Require Import Base BaseFacts Model_Strings Model_Scalars Model_Text Model_Payload Proofs_Payload.

Lemma b64_val_char v : (v < 64)%N -> b64_val (b64_char v) = Some v /\ (b64_char v =? 61)%N = false.
Proof.
  intros H. unfold b64_char, b64_val.
  destruct (v <? 26)%N eqn:E1; [|destruct (v <? 52)%N eqn:E2; [|destruct (v <? 62)%N eqn:E3; [|destruct (v =? 62)%N eqn:E4]]].
  all: repeat match goal with |- context [if ?b then _ else _] => let E := fresh in destruct b eqn:E; try lia end;
    (split; [f_equal; lia|lia]).
Qed.
Lemma b64_dec_char q left pads v t : (v < 64)%N -> b64_dec q left pads (b64_char v :: t) =
  match q with
  | 0 => b64_dec 1 v 0 t
  | 1 => let! r := b64_dec 2 (v mod 16)%N 0 t in Ok ((left * 4 + v / 16)%N :: r)
  | 2 => let! r := b64_dec 3 (v mod 4)%N 0 t in Ok ((left * 16 + v / 4)%N :: r)
  | _ => let! r := b64_dec 0 0%N 0 t in Ok ((left * 64 + v)%N :: r)
  end.
Proof. intros H. destruct (b64_val_char v H) as [H1 H2]. cbn [b64_dec]. now rewrite H2, H1. Qed.

Lemma b64_roundtrip_n n : forall l, length l <= n -> bytes_ok l -> b64_dec 0 0%N 0 (b64_encode l) = Ok l.
Proof.
  induction n as [|n IH]; intros l Hl Hb.
  { destruct l; [reflexivity|simpl in Hl; lia]. }
  destruct l as [|a [|b [|c t]]]; [reflexivity|..].
  - inversion Hb as [|? ? Ha]; subst. cbn [b64_encode].
    rewrite !b64_dec_char by lia. cbv iota.
    replace (b64_dec 2 (a mod 4 * 16 mod 16)%N 0 [61; 61]%N) with (@Ok (list N) []) by reflexivity.
    cbn [bind]. f_equal. f_equal. lia.
  - inversion Hb as [|? ? Ha Hb']; subst. inversion Hb' as [|? ? Hbb _]; subst. cbn [b64_encode].
    rewrite !b64_dec_char by lia. cbv iota.
    match goal with |- context [b64_dec 3 ?x 0 [61%N]] => replace (b64_dec 3 x 0 [61%N]) with (@Ok (list N) []) by reflexivity end.
    cbn [bind]. f_equal. f_equal; [lia|]. f_equal. lia.
  - inversion Hb as [|? ? Ha Hb']; subst. inversion Hb' as [|? ? Hbb Hc']; subst. inversion Hc' as [|? ? Hc Ht]; subst.
    cbn [b64_encode]. rewrite !b64_dec_char by lia. cbv iota. simpl in Hl. rewrite IH by (assumption || lia).
    cbn [bind]. f_equal. f_equal; [lia|]. f_equal; [lia|]. f_equal. lia.
Qed.
(** Only alphabet characters are written. *)
Definition b64_alphabet (c : N) : Prop := (65 <= c <= 90 \/ 97 <= c <= 122 \/ 48 <= c <= 57 \/ c = 43 \/ c = 47 \/ c = 61)%N.
Lemma b64_char_alphabet v : (v < 64)%N -> b64_alphabet (b64_char v).
Proof. intros H. unfold b64_alphabet, b64_char. repeat match goal with |- context [if ?b then _ else _] => let E := fresh in destruct b eqn:E end; lia. Qed.
Lemma b64_encode_n n : forall l, length l <= n -> bytes_ok l ->
  Forall b64_alphabet (b64_encode l) /\ length (b64_encode l) = 4 * ((length l + 2) / 3).
Proof.
  assert (b64_alphabet 61) as Hp by (unfold b64_alphabet; lia).
  induction n as [|n IH]; intros l Hl Hb.
  { destruct l; [split; [constructor|reflexivity]|simpl in Hl; lia]. }
  destruct l as [|a [|b [|c t]]]; [split; [constructor|reflexivity]|..].
  - inversion Hb as [|? ? Ha]; subst. cbn [b64_encode]. split; [|reflexivity].
    repeat (apply Forall_cons; [(exact Hp || apply b64_char_alphabet; lia)|]); constructor.
  - inversion Hb as [|? ? Ha Hb']; subst. inversion Hb' as [|? ? Hbb _]; subst. cbn [b64_encode]. split; [|reflexivity].
    repeat (apply Forall_cons; [(exact Hp || apply b64_char_alphabet; lia)|]); constructor.
  - inversion Hb as [|? ? Ha Hb']; subst. inversion Hb' as [|? ? Hbb Hc']; subst. inversion Hc' as [|? ? Hc Ht]; subst.
    simpl in Hl. destruct (IH t ltac:(lia) Ht) as [I1 I2].
    cbn [b64_encode]. split.
    + repeat (apply Forall_cons; [(apply b64_char_alphabet; lia)|]); exact I1.
    + cbn [length]. rewrite I2. lia.
Qed.
Lemma b64_roundtrip l : bytes_ok l -> b64_decode (b64_encode l) = Ok l.
Proof.
  intros H. destruct (b64_encode_n (length l) l (le_n _) H) as [A _]. unfold b64_decode.
  replace (forallb _ _) with true; [exact (b64_roundtrip_n (length l) l (le_n _) H)|].
  symmetry. apply forallb_forall. intros c Hc. rewrite Forall_forall in A. specialize (A c Hc). unfold b64_alphabet in A. lia.
Qed.

(** ** GUIDs *)
Lemma hex_digits_length w : forall n, length (hex_digits w n) = w.
Proof. induction w as [|w IH]; intros n; [reflexivity|]. cbn [hex_digits]. rewrite app_length, IH. simpl. lia. Qed.
Definition hex_ok (c : N) : Prop := (48 <= c <= 57 \/ 97 <= c <= 102)%N.
Lemma hex_digits_ok w : forall n, Forall hex_ok (hex_digits w n).
Proof.
  induction w as [|w IH]; intros n; [constructor|]. cbn [hex_digits]. apply Forall_app. split; [apply IH|].
  apply Forall_cons; [|constructor]. unfold hex_ok, hex_lower. destruct (n mod 16 <? 10)%N eqn:E; lia.
Qed.
Lemma hex_val_lower d : (d < 16)%N -> hex_val (hex_lower d) = Some d.
Proof.
  intros H. assert (In d [0;1;2;3;4;5;6;7;8;9;10;11;12;13;14;15]%N) as Hin by (simpl; lia).
  simpl in Hin. decompose [or] Hin; try contradiction; subst d; reflexivity.
Qed.
Lemma hex_ok_val c : hex_ok c -> exists d, hex_val c = Some d.
Proof.
  unfold hex_ok, hex_val, in_range. intros H. destruct ((48 <=? c) && (c <=? 57))%N eqn:A; [eauto|].
  destruct ((65 <=? c) && (c <=? 70))%N; [eauto|]. destruct ((97 <=? c) && (c <=? 102))%N eqn:B; [eauto|lia].
Qed.
Lemma hex_number_app a : Forall hex_ok a -> forall acc b,
  hex_number acc (a ++ b) = match hex_number acc a with Some x => hex_number x b | None => None end.
Proof.
  induction 1 as [|c a Hc _ IH]; intros acc b; [reflexivity|]. cbn [app hex_number].
  destruct (hex_ok_val c Hc) as [d ->]. apply IH.
Qed.
Lemma hex_number_digits w : forall n acc, (n < 16 ^ N.of_nat w)%N ->
  hex_number acc (hex_digits w n) = Some (acc * 16 ^ N.of_nat w + n)%N.
Proof.
  induction w as [|w IH]; intros n acc H.
  - change (16 ^ N.of_nat 0)%N with 1%N in *. cbn [hex_digits hex_number]. f_equal. lia.
  - rewrite Nat2N.inj_succ, N.pow_succ_r' in *. cbn [hex_digits]. rewrite hex_number_app, IH by (apply hex_digits_ok || lia).
    cbn [hex_number]. rewrite hex_val_lower by lia. f_equal. lia.
Qed.
Lemma begins_in w : forall s c, begins w s = true -> In c w -> In c s.
Proof.
  induction w as [|x w IH]; intros s c H Hin; [destruct Hin|]. destruct s as [|y s]; [discriminate|].
  cbn [begins] in H. apply andb_prop in H. destruct H as [E H]. apply N.eqb_eq in E. subst y.
  destruct Hin as [->|Hin]; [now left|]. right. now apply IH.
Qed.
Lemma without_none w c s : In c w -> ~ In c s -> without w 0 s = s.
Proof.
  intros Hw. induction s as [|x s IH]; intros Hn; [reflexivity|]. cbn [without].
  destruct (begins w (x :: s)) eqn:E; [exfalso; exact (Hn (begins_in w _ c E Hw))|]. rewrite IH; [reflexivity|].
  intros H. apply Hn. now right.
Qed.
Lemma hex_to_ascii l : Forall hex_ok l -> map to_ascii l = l.
Proof.
  induction 1 as [|c l Hc _ IH]; [reflexivity|]. cbn [map]. rewrite IH. unfold to_ascii, hex_ok in *.
  replace (c <? 127)%N with true by lia. reflexivity.
Qed.
Lemma hex_not_space c : hex_ok c -> ascii_space c = false.
Proof. unfold hex_ok, ascii_space. lia. Qed.
Lemma hex_no_skip l : Forall hex_ok l -> skip_spaces l = l.
Proof. intros H. destruct H as [|c l Hc _]; [reflexivity|]. cbn [skip_spaces]. now rewrite hex_not_space. Qed.
Lemma hex_int_plain h : Forall hex_ok h -> h <> [] -> hex_int h = hex_number 0 h.
Proof.
  intros H Hn. unfold hex_int. rewrite (hex_to_ascii h H), (hex_no_skip h H), (hex_no_skip (rev h)) by now apply Forall_rev.
  rewrite rev_involutive. destruct H as [|c t Hc Ht]; [congruence|].
  replace (c =? 43)%N with false by (unfold hex_ok in Hc; lia).
  assert (hex_prefix (c :: t) = c :: t) as ->.
  { destruct t as [|x t]; [reflexivity|]. inversion Ht as [|? ? Hx _]; subst. cbn [hex_prefix].
    replace ((x =? 120) || (x =? 88))%N with false by (unfold hex_ok in Hx; lia). now rewrite Bool.andb_false_r. }
  cbn [hex_number]. destruct (hex_ok_val c Hc) as [d ->]. reflexivity.
Qed.
Lemma strip_braces_id s c t : s = c :: t -> c <> 123%N -> c <> 125%N -> strip_braces s = s.
Proof. intros -> H1 H2. cbn [strip_braces]. replace ((c =? 123) || (c =? 125))%N with false by lia. reflexivity. Qed.
Lemma filter_hex l : Forall hex_ok l -> filter (fun c => negb (c =? 45)%N) l = l.
Proof.
  induction 1 as [|c l Hc Hl IH]; [reflexivity|]. cbn [filter]. unfold hex_ok in Hc. replace (c =? 45)%N with false by lia.
  cbn [negb]. now rewrite IH.
Qed.
Lemma Forall_slice {A} (P : A -> Prop) a b l : Forall P l -> Forall P (slice a b l).
Proof.
  intros H. rewrite Forall_forall in *. intros x Hx. apply H. unfold slice in Hx.
  assert (In x (skipn a l)) by (rewrite <- (firstn_skipn (b - a) (skipn a l)); apply in_or_app; now left).
  rewrite <- (firstn_skipn a l). apply in_or_app. now right.
Qed.
Lemma slice_join {A} a b (l : list A) : a <= b -> firstn a l ++ slice a b l = firstn b l.
Proof.
  intros H. unfold slice. rewrite <- (firstn_skipn a (firstn b l)). f_equal.
  - rewrite firstn_firstn. f_equal. lia.
  - rewrite skipn_firstn_comm. reflexivity.
Qed.
Lemma guid_filter n : filter (fun c => negb (c =? 45)%N) (write_guid n) = hex_digits 32 n.
Proof.
  unfold write_guid. cbv zeta. set (h := hex_digits 32 n). pose proof (hex_digits_ok 32 n) as Hok. fold h in Hok.
  rewrite !filter_app. repeat (rewrite (filter_hex (slice _ _ h)) by (apply Forall_slice; exact Hok)).
  change (filter (fun c => negb (c =? 45)%N) [45%N]) with (@nil N). cbn [app].
  change (slice 0 8 h) with (firstn 8 h).
  rewrite (app_assoc (firstn 8 h)), (slice_join 8 12) by lia. rewrite (app_assoc (firstn 12 h)), (slice_join 12 16) by lia.
  rewrite (app_assoc (firstn 16 h)), (slice_join 16 20) by lia. rewrite (slice_join 20 32) by lia.
  apply firstn_all2. unfold h. rewrite hex_digits_length. lia.
Qed.
Lemma guid_text_roundtrip n : (n < 2 ^ 128)%N -> read_guid (write_guid n) = Ok n.
Proof.
  intros H. unfold read_guid.
  assert (exists c t, write_guid n = c :: t /\ hex_ok c) as (c & t & E & Hc).
  { unfold write_guid. cbv zeta. pose proof (hex_digits_ok 32 n) as Hok. pose proof (hex_digits_length 32 n) as HL.
    destruct (hex_digits 32 n) as [|c t]; [discriminate HL|]. inversion Hok; subst.
    eexists c, _. split; [reflexivity|assumption]. }
  assert (exists c t, rev (write_guid n) = c :: t /\ hex_ok c) as (c' & t' & E' & Hc').
  { unfold write_guid. cbv zeta. set (h := hex_digits 32 n).
    assert (exists l x, slice 20 32 h = l ++ [x] /\ hex_ok x) as (l & x & El & Hx).
    { pose proof (Forall_slice hex_ok 20 32 h (hex_digits_ok 32 n)) as HF.
      assert (length (slice 20 32 h) = 12) as HL.
      { unfold slice. rewrite firstn_length, skipn_length. unfold h. rewrite hex_digits_length. reflexivity. }
      destruct (exists_last (l := slice 20 32 h)) as (l & x & El); [intros Hn; rewrite Hn in HL; discriminate|].
      exists l, x. split; [exact El|]. rewrite El in HF. apply Forall_app in HF. destruct HF as [_ HF]. now inversion HF. }
    rewrite El. eexists x, _. split; [|exact Hx]. rewrite !app_assoc, rev_unit. reflexivity. }
  assert (~ In 58%N (write_guid n)) as Hcolon.
  { intros Hin. unfold write_guid in Hin. cbv zeta in Hin. pose proof (hex_digits_ok 32 n) as Hok.
    assert (forall a b, In 58%N (slice a b (hex_digits 32 n)) -> False) as Hs.
    { intros a b Hab. apply (Forall_slice hex_ok a b) in Hok. rewrite Forall_forall in Hok. specialize (Hok _ Hab).
      unfold hex_ok in Hok. lia. }
    repeat (apply in_app_or in Hin; destruct Hin as [Hin|Hin]; [solve [exact (Hs _ _ Hin) | destruct Hin as [Hin|[]]; discriminate Hin]|]).
    exact (Hs _ _ Hin). }
  cbv zeta. rewrite (without_none _ 58%N (write_guid n)), (without_none _ 58%N (write_guid n)) by (assumption || (cbn; tauto)).
  unfold hex_ok in Hc, Hc'.
  rewrite (strip_braces_id _ _ _ E) by lia. rewrite (strip_braces_id _ _ _ E') by lia. rewrite rev_involutive.
  rewrite guid_filter, hex_digits_length, Nat.eqb_refl. rewrite hex_int_plain, hex_number_digits; [reflexivity| |apply hex_digits_ok|pose proof (hex_digits_length 32 n); now destruct (hex_digits 32 n)].
  change (16 ^ N.of_nat 32)%N with (2 ^ 128)%N. exact H.
Qed.
