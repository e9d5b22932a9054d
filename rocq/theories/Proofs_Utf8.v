(** UTF-8: decoding inverts encoding, and accepts nothing else. *)
From Coq Require Import String.
From Verif Require Import Base BaseFacts Model_Scalars Model_Clixml Model_Utf8 Spec_Utf8.
Local Open Scope list_scope.
Local Open Scope N_scope.

Ltac nb := repeat match goal with
  | |- context [?a <? ?b] => first [rewrite (proj2 (N.ltb_lt a b)) by lia | rewrite (proj2 (N.ltb_ge a b)) by lia]
  | |- context [?a <=? ?b] => first [rewrite (proj2 (N.leb_le a b)) by lia | rewrite (proj2 (N.leb_gt a b)) by lia]
  end.
Lemma decode_char c r : scalar c -> utf8_decode (utf8_char c ++ r) = let! u := utf8_decode r in Ok (c :: u).
Proof.
  intros [Hc Hs]. unfold utf8_char.
  destruct (c <? 0x80) eqn:E1; [cbn [app utf8_decode]; now rewrite E1|]. apply N.ltb_ge in E1.
  destruct (c <? 0x800) eqn:E2.
  { apply N.ltb_lt in E2. cbn [app utf8_decode]. unfold tail_byte.
    assert (2 <= c / 64 < 32) by lia. assert (c mod 64 < 64) by lia.
    nb. cbn [orb andb negb]. destruct (utf8_decode r); [|reflexivity]. cbn [bind]. do 2 f_equal. lia. }
  apply N.ltb_ge in E2.
  assert ((0xD800 <=? c) && (c <=? 0xDFFF) = false) as ->.
  { destruct (0xD800 <=? c) eqn:E; [|reflexivity]. cbn [andb]. apply N.leb_le in E. apply N.leb_gt. lia. }
  destruct (c <? 0x10000) eqn:E3.
  { apply N.ltb_lt in E3. cbn [app utf8_decode]. unfold tail_byte.
    assert (c / 4096 < 16) by lia. assert (c mod 64 < 64) by lia. assert (c / 64 mod 64 < 64) by lia.
    nb. cbn [orb andb negb].
    assert ((0xE0 + c / 4096 - 0xE0) * 4096 + (0x80 + c / 64 mod 64 - 0x80) * 64 + (0x80 + c mod 64 - 0x80) = c) as -> by lia.
    nb. cbn [orb]. assert ((0xD800 <=? c) && (c <=? 0xDFFF) = false) as ->.
    { destruct (0xD800 <=? c) eqn:E; [|reflexivity]. cbn [andb]. apply N.leb_le in E. apply N.leb_gt. lia. }
    reflexivity. }
  apply N.ltb_ge in E3. cbn [app utf8_decode]. unfold tail_byte.
  assert (c / 262144 < 5) by lia. assert (c mod 64 < 64) by lia. assert (c / 64 mod 64 < 64) by lia. assert (c / 4096 mod 64 < 64) by lia.
  nb. cbn [orb andb negb].
  assert ((0xF0 + c / 262144 - 0xF0) * 262144 + (0x80 + c / 4096 mod 64 - 0x80) * 4096 + (0x80 + c / 64 mod 64 - 0x80) * 64 + (0x80 + c mod 64 - 0x80) = c) as -> by lia.
  nb. reflexivity.
Qed.
Theorem decode_encode s : Forall scalar s -> utf8_decode (utf8_encode s) = Ok s.
Proof.
  induction 1 as [|c s Hc _ IH]; [reflexivity|]. unfold utf8_encode. cbn [flat_map]. rewrite decode_char by exact Hc.
  fold (utf8_encode s). now rewrite IH.
Qed.

Ltac hb := repeat match goal with
  | H : (_ <? _) = true |- _ => apply N.ltb_lt in H
  | H : (_ <? _) = false |- _ => apply N.ltb_ge in H
  | H : (_ <=? _) = true |- _ => apply N.leb_le in H
  | H : (_ <=? _) = false |- _ => apply N.leb_gt in H
  | H : _ || _ = false |- _ => apply orb_false_iff in H; destruct H
  | H : _ && _ = true |- _ => apply andb_true_iff in H; destruct H
  | H : negb _ = false |- _ => apply negb_false_iff in H
  end.
Lemma char2 b b1 : 0xC2 <= b -> b < 0xE0 -> 0x80 <= b1 -> b1 < 0xC0 -> utf8_char ((b - 0xC0) * 64 + (b1 - 0x80)) = [b; b1].
Proof.
  intros. unfold utf8_char. nb. f_equal; [lia|]. f_equal. lia.
Qed.
Lemma char3 b b1 b2 c : 0xE0 <= b -> b < 0xF0 -> 0x80 <= b1 -> b1 < 0xC0 -> 0x80 <= b2 -> b2 < 0xC0 ->
  c = (b - 0xE0) * 4096 + (b1 - 0x80) * 64 + (b2 - 0x80) -> 0x800 <= c -> (0xD800 <=? c) && (c <=? 0xDFFF) = false -> utf8_char c = [b; b1; b2].
Proof.
  intros A B C D E F G H I. unfold utf8_char. rewrite I. nb. f_equal; [lia|]. f_equal; [lia|]. f_equal. lia.
Qed.
Lemma char4 b b1 b2 b3 c : 0xF0 <= b -> 0x80 <= b1 -> b1 < 0xC0 -> 0x80 <= b2 -> b2 < 0xC0 -> 0x80 <= b3 -> b3 < 0xC0 ->
  c = (b - 0xF0) * 262144 + (b1 - 0x80) * 4096 + (b2 - 0x80) * 64 + (b3 - 0x80) -> 0x10000 <= c -> utf8_char c = [b; b1; b2; b3].
Proof.
  intros. unfold utf8_char. assert ((0xD800 <=? c) && (c <=? 0xDFFF) = false) as ->.
  { destruct (0xD800 <=? c) eqn:E; [|reflexivity]. cbn [andb]. apply N.leb_gt. lia. }
  nb. f_equal; [lia|]. f_equal; [lia|]. f_equal; [lia|]. f_equal. lia.
Qed.
Lemma not_surrogate c : (0xD800 <=? c) && (c <=? 0xDFFF) = false -> ~ 0xD800 <= c <= 0xDFFF.
Proof. intros H [A B]. apply N.leb_le in A, B. rewrite A, B in H. discriminate. Qed.
Theorem encode_decode l : forall s, utf8_decode l = Ok s -> utf8_encode s = l /\ Forall scalar s.
Proof.
  remember (length l) as n eqn:En. assert (length l <= n)%nat as Hl by lia. clear En. revert l Hl. induction n as [|n IH]; intros l Hl s E.
  - destruct l; [|cbn in Hl; lia]. injection E as <-. split; [reflexivity|constructor].
  - destruct l as [|b t]; [injection E as <-; split; [reflexivity|constructor]|]. cbn [length] in Hl. cbn [utf8_decode] in E.
    assert (forall c p t', (length t' <= n)%nat -> scalar c -> utf8_char c = p -> (let! r := utf8_decode t' in Ok (c :: r)) = Ok s ->
      utf8_encode s = p ++ t' /\ Forall scalar s) as Hstep.
    { intros c p t' Hl' Hc Hp E'. destruct (utf8_decode t') as [u|] eqn:Eu; [|discriminate]. injection E' as <-. destruct (IH t' Hl' u Eu) as [A B].
      split; [|constructor; assumption]. unfold utf8_encode. cbn [flat_map]. fold (utf8_encode u). now rewrite Hp, A. }
    destruct (b <? 0x80) eqn:E1.
    { hb. apply (Hstep b [b] t); [lia|split; lia|unfold utf8_char; now nb|exact E]. }
    destruct ((b <? 0xC2) || (0xF4 <? b)) eqn:E2; [discriminate|]. destruct t as [|b1 t1]; [discriminate|]. cbn [length] in Hl.
    destruct (negb (tail_byte b1)) eqn:E3; [discriminate|]. unfold tail_byte in E3.
    destruct (b <? 0xE0) eqn:E4.
    { hb. apply (Hstep ((b - 0xC0) * 64 + (b1 - 0x80)) [b; b1] t1); [lia|split; lia|now apply char2|exact E]. }
    destruct t1 as [|b2 t2]; [discriminate|]. cbn [length] in Hl.
    destruct (negb (tail_byte b2)) eqn:E5; [discriminate|]. unfold tail_byte in E5.
    destruct (b <? 0xF0) eqn:E6.
    { cbv zeta in E. set (c := (b - 0xE0) * 4096 + (b1 - 0x80) * 64 + (b2 - 0x80)) in *.
      destruct ((c <? 0x800) || ((0xD800 <=? c) && (c <=? 0xDFFF))) eqn:E7; [discriminate|].
      apply orb_false_iff in E7. destruct E7 as [E7 E8]. pose proof (not_surrogate c E8) as E9. hb.
      apply (Hstep c [b; b1; b2] t2); [lia|split; [unfold c; lia|exact E9]|now apply char3|exact E]. }
    destruct t2 as [|b3 t3]; [discriminate|]. cbn [length] in Hl.
    destruct (negb (tail_byte b3)) eqn:E7; [discriminate|]. unfold tail_byte in E7. cbv zeta in E.
    set (c := (b - 0xF0) * 262144 + (b1 - 0x80) * 4096 + (b2 - 0x80) * 64 + (b3 - 0x80)) in *.
    destruct ((c <? 0x10000) || (0x10FFFF <? c)) eqn:E8; [discriminate|]. hb.
    apply (Hstep c [b; b1; b2; b3] t3); [lia|split; lia|now apply char4|exact E].
Qed.
(** Every byte written is a byte. *)
Lemma char_bytes c : scalar c -> bytes_ok (utf8_char c).
Proof.
  intros [Hc Hs]. unfold utf8_char. destruct (c <? 0x80) eqn:E1; [hb; constructor; [lia|constructor]|].
  destruct (c <? 0x800) eqn:E2; [hb; repeat (constructor; [lia|]); constructor|].
  destruct ((0xD800 <=? c) && (c <=? 0xDFFF)) eqn:E3; [hb; lia|].
  destruct (c <? 0x10000) eqn:E4; hb; repeat (constructor; [lia|]); constructor.
Qed.
Lemma encode_bytes s : Forall scalar s -> bytes_ok (utf8_encode s).
Proof. induction 1 as [|c s Hc _ IH]; [constructor|]. unfold utf8_encode. cbn [flat_map]. apply Forall_app. split; [now apply char_bytes|exact IH]. Qed.
(** The form. *)
Lemma char_form c : scalar c -> utf8_form c (utf8_char c).
Proof.
  intros [Hc Hs]. unfold utf8_char. destruct (c <? 0x80) eqn:E1; [hb; now apply Utf1|]. hb.
  destruct (c <? 0x800) eqn:E2; hb.
  { pose proof (Utf2 (c / 64) (c mod 64)) as H. assert (c / 64 * 64 + c mod 64 = c) as X by lia. rewrite X in H. apply H; lia. }
  destruct ((0xD800 <=? c) && (c <=? 0xDFFF)) eqn:E3; [hb; lia|].
  destruct (c <? 0x10000) eqn:E4; hb.
  { pose proof (Utf3 (c / 4096) (c / 64 mod 64) (c mod 64)) as H. assert ((c / 4096 * 64 + c / 64 mod 64) * 64 + c mod 64 = c) as X by lia. rewrite X in H. apply H; lia. }
  pose proof (Utf4 (c / 262144) (c / 4096 mod 64) (c / 64 mod 64) (c mod 64)) as H.
  assert (((c / 262144 * 64 + c / 4096 mod 64) * 64 + c / 64 mod 64) * 64 + c mod 64 = c) as X by lia. rewrite X in H. apply H; lia.
Qed.
Lemma encode_form s : Forall scalar s -> utf8_text s (utf8_encode s).
Proof.
  intros H. exists (map utf8_char s). split; [apply flat_map_concat_map|]. induction H; constructor; [now apply char_form|assumption].
Qed.
Lemma form_char c l : utf8_form c l -> scalar c -> l = utf8_char c.
Proof.
  intros H [Hc Hs]. inversion H; subst; unfold utf8_char.
  - nb. reflexivity.
  - nb. f_equal; [lia|]. f_equal. lia.
  - set (x := (a * 64 + b) * 64 + c0) in *. assert ((0xD800 <=? x) && (x <=? 0xDFFF) = false) as ->.
    { destruct (0xD800 <=? x) eqn:E; [|reflexivity]. cbn [andb]. hb. apply N.leb_gt. lia. }
    nb. unfold x. f_equal; [lia|]. f_equal; [lia|]. f_equal. lia.
  - set (x := ((a * 64 + b) * 64 + c0) * 64 + d) in *. assert ((0xD800 <=? x) && (x <=? 0xDFFF) = false) as ->.
    { destruct (0xD800 <=? x) eqn:E; [|reflexivity]. cbn [andb]. hb. apply N.leb_gt. lia. }
    nb. unfold x. f_equal; [lia|]. f_equal; [lia|]. f_equal; [lia|]. f_equal. lia.
Qed.
(** What decodes, and to what. *)
Theorem decodes l s : utf8_decode l = Ok s <-> utf8_text s l /\ Forall scalar s.
Proof.
  split.
  - intros H. apply encode_decode in H. destruct H as [<- H]. split; [now apply encode_form|exact H].
  - intros [(parts & -> & F) H]. assert (concat parts = utf8_encode s) as ->; [|now apply decode_encode].
    induction F as [|c l s parts Hc _ IH]; [reflexivity|]. inversion H; subst. cbn [concat]. unfold utf8_encode. cbn [flat_map]. rewrite (form_char c l Hc) by assumption.
    f_equal. now apply IH.
Qed.
