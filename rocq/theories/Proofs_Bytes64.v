(** Proofs about the texts of byte arrays. *)
From Verif Require Import Base BaseFacts Model_Strings Model_Text Spec_Numeral Spec_Bytes64.

Lemma sextet_val c v : sextet c v -> b64_val c = Some v /\ (c =? 61)%N = false /\ (c < 128)%N /\ (v < 64)%N.
Proof.
  unfold sextet, b64_val. intros H.
  destruct ((65 <=? c) && (c <=? 90))%N eqn:A; [split; [f_equal; lia|lia]|].
  destruct ((97 <=? c) && (c <=? 122))%N eqn:B; [split; [f_equal; lia|lia]|].
  destruct ((48 <=? c) && (c <=? 57))%N eqn:C; [split; [f_equal; lia|lia]|].
  destruct (c =? 43)%N eqn:D; [split; [f_equal; lia|lia]|]. destruct (c =? 47)%N eqn:E; [split; [f_equal; lia|lia]|]. lia.
Qed.
Lemma val_sextet c v : b64_val c = Some v -> sextet c v.
Proof.
  unfold sextet, b64_val. intros H.
  destruct ((65 <=? c) && (c <=? 90))%N eqn:A; [injection H as <-; lia|].
  destruct ((97 <=? c) && (c <=? 122))%N eqn:B; [injection H as <-; lia|].
  destruct ((48 <=? c) && (c <=? 57))%N eqn:C; [injection H as <-; lia|].
  destruct (c =? 43)%N eqn:D; [injection H as <-; lia|]. destruct (c =? 47)%N eqn:E; [injection H as <-; lia|]. discriminate.
Qed.
Lemma junk_val c : junk c -> b64_val c = None /\ (c =? 61)%N = false.
Proof.
  intros (_ & P & H). unfold pad in P. split; [|lia]. destruct (b64_val c) as [v|] eqn:E; [|reflexivity]. now destruct (H v (val_sextet c v E)).
Qed.
Lemma kinds c : (c < 128)%N -> c = pad \/ junk c \/ exists v, sextet c v.
Proof.
  intros L. destruct (N.eq_dec c pad) as [->|P]; [auto|]. right. destruct (b64_val c) as [v|] eqn:E; [right; exists v; now apply val_sextet|].
  left. split; [exact L|]. split; [exact P|]. intros v H. apply sextet_val in H as [H _]. congruence.
Qed.
Definition ascii (s : list N) : Prop := Forall (fun c => (c < 128)%N) s.
Definition pads_in (s : list N) : nat := length (filter (fun c => (c =? pad)%N) s).
Lemma litter_ascii m s : litter m s -> ascii s.
Proof. intros [H _]. eapply Forall_impl; [|exact H]. intros c [->|[L _]]; [reflexivity|exact L]. Qed.
Lemma first_code s : ascii s -> litter None s \/ exists j c v t, s = j ++ c :: t /\ litter None j /\ sextet c v /\ ascii t.
Proof.
  induction 1 as [|x s L A IH]; [left; split; [apply Forall_nil|exact I]|].
  destruct (kinds x L) as [K|[K|[v K]]].
  3: right; exists [], x, v, s; split; [reflexivity|]; split; [split; [apply Forall_nil|exact I]|]; auto.
  all: assert (x = pad \/ junk x) as K' by tauto; destruct IH as [[IH _]|(j & c & v & t & -> & [J _] & S0 & T)];
    [left; split; [now apply Forall_cons|exact I]|right; exists (x :: j), c, v, t; split; [reflexivity|]; split; [split; [now apply Forall_cons|exact I]|]; auto].
Qed.
Lemma cut k s : litter None s -> litter (Some k) s \/ exists j r, s = j ++ pad :: r /\ litter (Some k) j /\ pads_in j = k /\ ascii r.
Proof.
  intros [F _]. revert k. induction F as [|x s H F IH]; intros k; [left; split; [apply Forall_nil|cbn; lia]|].
  assert (ascii s) as A by (apply (litter_ascii None); split; [exact F|exact I]).
  destruct (N.eqb_spec x pad) as [E|E].
  - destruct k as [|k].
    + right. exists [], s. rewrite E. split; [reflexivity|]. split; [split; [apply Forall_nil|cbn; lia]|]. split; [reflexivity|exact A].
    + destruct (IH k) as [[_ L]|(j & r & -> & [J L] & P & R)].
      * left. split; [now apply Forall_cons|]. cbn [filter]. rewrite (proj2 (N.eqb_eq x pad) E). cbn [length]. lia.
      * right. exists (x :: j), r. split; [reflexivity|]. split; [split; [now apply Forall_cons|]|split; [|exact R]].
        -- cbn [filter]. rewrite (proj2 (N.eqb_eq x pad) E). cbn [length]. lia.
        -- unfold pads_in in *. cbn [filter]. rewrite (proj2 (N.eqb_eq x pad) E). cbn [length]. lia.
  - destruct (IH k) as [[_ L]|(j & r & -> & [J L] & P & R)].
    + left. split; [now apply Forall_cons|]. cbn [filter]. now rewrite (proj2 (N.eqb_neq x pad) E).
    + right. exists (x :: j), r. split; [reflexivity|]. split; [split; [now apply Forall_cons|]|split; [|exact R]].
      * cbn [filter]. now rewrite (proj2 (N.eqb_neq x pad) E).
      * unfold pads_in in *. cbn [filter]. now rewrite (proj2 (N.eqb_neq x pad) E).
Qed.
(** Walking over what does not count. *)
Lemma walk_low q left p j r : q < 2 -> litter None j -> b64_dec q left p (j ++ r) = b64_dec q left p r.
Proof.
  intros Q [F _]. induction F as [|x j H F IH]; [reflexivity|]. cbn [app b64_dec]. destruct H as [->|H].
  - change (pad =? 61)%N with true. cbv iota. replace (Nat.leb 2 q) with false by (symmetry; apply Nat.leb_gt; exact Q). exact IH.
  - apply junk_val in H as [-> ->]. exact IH.
Qed.
Lemma walk_high q left k j r : litter None j -> forall p, 2 <= q -> q + p + k <= 3 -> pads_in j = k ->
  b64_dec q left p (j ++ r) = b64_dec q left (p + k) r.
Proof.
  intros [F _]. revert k. induction F as [|x j H F IH]; intros k p Q L P.
  - cbn in P. subst k. now rewrite Nat.add_0_r.
  - unfold pads_in in *. cbn [filter] in P. cbn [app b64_dec]. destruct H as [->|H].
    + change (pad =? 61)%N with true. change (pad =? pad)%N with true in P. cbv iota in *. cbn [length] in P. subst k.
      replace (Nat.leb 2 q) with true by (symmetry; now apply Nat.leb_le). replace (Nat.leb 4 (q + S p)) with false by (symmetry; apply Nat.leb_gt; lia).
      rewrite (IH (length (filter (fun c => (c =? pad)%N) j)) (S p)); [f_equal; lia|exact Q|lia|reflexivity].
    + pose proof (junk_val x H) as [-> ->]. replace (x =? pad)%N with false in P by (destruct H as (_ & H & _); symmetry; now apply N.eqb_neq). now apply IH.
Qed.
Lemma at_code q left p c v t : sextet c v -> b64_dec q left p (c :: t) =
  match q with
  | 0 => b64_dec 1 v 0 t
  | 1 => let! r := b64_dec 2 (v mod 16)%N 0 t in Ok ((left * 4 + v / 16)%N :: r)
  | 2 => let! r := b64_dec 3 (v mod 4)%N 0 t in Ok ((left * 16 + v / 4)%N :: r)
  | _ => let! r := b64_dec 0 0%N 0 t in Ok ((left * 64 + v)%N :: r)
  end.
Proof. intros H. apply sextet_val in H as (V & P & _). cbn [b64_dec]. now rewrite P, V. Qed.
Lemma at_pad q left p t : 2 <= q -> 4 <= q + S p -> b64_dec q left p (pad :: t) = Ok [].
Proof.
  intros Q L. cbn [b64_dec]. change (pad =? 61)%N with true. cbv iota. replace (Nat.leb 2 q) with true by (symmetry; now apply Nat.leb_le).
  now replace (Nat.leb 4 (q + S p)) with true by (symmetry; now apply Nat.leb_le).
Qed.
Lemma litter_count k j : litter (Some k) j -> litter None j /\ pads_in j <= k.
Proof. intros [F L]. split; [split; [exact F|exact I]|exact L]. Qed.
Lemma in_pads j : In pad j -> 1 <= pads_in j.
Proof.
  unfold pads_in. intros H. destruct (filter (fun c => (c =? pad)%N) j) as [|x f] eqn:E; [|cbn; lia].
  exfalso. assert (In pad (filter (fun c => (c =? pad)%N) j)) as Q by (apply filter_In; split; [exact H|reflexivity]). rewrite E in Q. destruct Q.
Qed.
Lemma pads_in_in j : 1 <= pads_in j -> In pad j.
Proof.
  unfold pads_in. intros H. destruct (filter (fun c => (c =? pad)%N) j) as [|x f] eqn:E; [cbn in H; lia|].
  assert (In x (filter (fun c => (c =? pad)%N) j)) as Q by (rewrite E; now left). apply filter_In in Q as [Q P]. apply N.eqb_eq in P. now subst x.
Qed.
Lemma text_dec s l : b64_text s l -> b64_dec 0 0%N 0 s = Ok l /\ ascii s.
Proof.
  assert (forall c v t, sextet c v -> ascii t -> ascii (c :: t)) as C by (intros c v t H T; apply sextet_val in H as (_ & _ & H & _); now apply Forall_cons).
  assert (forall j t, litter None j -> ascii t -> ascii (j ++ t)) as J0 by (intros j t H T; apply Forall_app; split; [now apply (litter_ascii None)|exact T]).
  assert (forall k j t, litter (Some k) j -> ascii t -> ascii (j ++ t)) as J1 by (intros k j t H T; apply Forall_app; split; [now apply (litter_ascii (Some k))|exact T]).
  assert (forall t, ascii t -> ascii (pad :: t)) as P0 by (intros t T; apply Forall_cons; [reflexivity|exact T]).
  induction 1 as [j L|j1 c1 v1 j2 c2 v2 j3 c3 v3 j4 c4 v4 s l L1 S1 L2 S2 L3 S3 L4 S4 B [IH A]
                 |j1 c1 v1 j2 c2 v2 j3 rest L1 S1 L2 S2 L3 I R|j1 c1 v1 j2 c2 v2 j3 c3 v3 j4 rest L1 S1 L2 S2 L3 S3 L4 R].
  - split; [|now apply (litter_ascii None)]. rewrite <- (app_nil_r j). rewrite walk_low by (lia || assumption). reflexivity.
  - split.
    + rewrite walk_low by (lia || assumption). rewrite (at_code _ _ _ c1 v1) by assumption. rewrite walk_low by (lia || assumption).
      rewrite (at_code _ _ _ c2 v2) by assumption. apply litter_count in L3 as [L3 K3]. apply litter_count in L4 as [L4 K4].
      rewrite (walk_high 2 _ (pads_in j3)) by (lia || assumption || reflexivity). rewrite (at_code _ _ _ c3 v3) by assumption.
      rewrite (walk_high 3 _ (pads_in j4)) by (lia || assumption || reflexivity). rewrite (at_code _ _ _ c4 v4) by assumption.
      rewrite IH. cbn [bind]. rewrite (N.mul_comm v1 4), (N.mul_comm (v2 mod 16) 16), (N.mul_comm (v3 mod 4) 64). reflexivity.
    + apply J0; [assumption|]. apply (C _ v1); [assumption|]. apply J0; [assumption|]. apply (C _ v2); [assumption|]. apply (J1 1); [assumption|].
      apply (C _ v3); [assumption|]. apply (J1 0); [assumption|]. now apply (C _ v4).
  - split.
    + rewrite walk_low by (lia || assumption). rewrite (at_code _ _ _ c1 v1) by assumption. rewrite walk_low by (lia || assumption).
      rewrite (at_code _ _ _ c2 v2) by assumption. apply litter_count in L3 as [L3 K3]. apply in_pads in I.
      rewrite (walk_high 2 _ (pads_in j3)) by (lia || assumption || reflexivity). rewrite at_pad by lia. cbn [bind].
      now rewrite (N.mul_comm v1 4).
    + apply J0; [assumption|]. apply (C _ v1); [assumption|]. apply J0; [assumption|]. apply (C _ v2); [assumption|]. apply (J1 1); [assumption|]. now apply P0.
  - split.
    + rewrite walk_low by (lia || assumption). rewrite (at_code _ _ _ c1 v1) by assumption. rewrite walk_low by (lia || assumption).
      rewrite (at_code _ _ _ c2 v2) by assumption. apply litter_count in L3 as [L3 K3]. apply litter_count in L4 as [L4 K4].
      rewrite (walk_high 2 _ (pads_in j3)) by (lia || assumption || reflexivity). rewrite (at_code _ _ _ c3 v3) by assumption.
      rewrite (walk_high 3 _ (pads_in j4)) by (lia || assumption || reflexivity). rewrite at_pad by lia. cbn [bind].
      now rewrite (N.mul_comm v1 4), (N.mul_comm (v2 mod 16) 16).
    + apply J0; [assumption|]. apply (C _ v1); [assumption|]. apply J0; [assumption|]. apply (C _ v2); [assumption|]. apply (J1 1); [assumption|].
      apply (C _ v3); [assumption|]. apply (J1 0); [assumption|]. now apply P0.
Qed.
Lemma dec_text : forall k s l, length s <= k -> ascii s -> b64_dec 0 0%N 0 s = Ok l -> b64_text s l.
Proof.
  induction k as [|k IH]; intros s l LK A H.
  { destruct s; [|cbn in LK; lia]. cbn in H. injection H as <-. apply b64_end. split; [apply Forall_nil|exact I]. }
  destruct (first_code s A) as [J|(j1 & c1 & v1 & t1 & -> & J1 & S1 & A1)].
  { rewrite <- (app_nil_r s), walk_low in H by (lia || assumption). cbn in H. injection H as <-. now apply b64_end. }
  rewrite walk_low in H by (lia || assumption). rewrite (at_code _ _ _ c1 v1) in H by assumption.
  destruct (first_code t1 A1) as [J|(j2 & c2 & v2 & t2 & -> & J2 & S2 & A2)].
  { rewrite <- (app_nil_r t1), walk_low in H by (lia || assumption). discriminate H. }
  rewrite walk_low in H by (lia || assumption). rewrite (at_code _ _ _ c2 v2) in H by assumption.
  assert (forall j3 r, t2 = j3 ++ pad :: r -> litter (Some 1) j3 -> pads_in j3 = 1 -> ascii r -> b64_text (j1 ++ c1 :: j2 ++ c2 :: t2) l) as Two.
  { intros j3 r -> L3 P R. pose proof (litter_count _ _ L3) as [L3' _]. rewrite (walk_high 2 _ 1) in H by (lia || assumption). rewrite at_pad in H by lia. cbn [bind] in H.
    injection H as <-. rewrite (N.mul_comm v1 4). apply b64_two; try assumption. apply pads_in_in. lia. }
  destruct (first_code t2 A2) as [J|(j3 & c3 & v3 & t3 & -> & J3 & S3 & A3)].
  { destruct (cut 1 t2 J) as [L|(j & r & E & L & P & R)]; [|now apply (Two j r)].
    apply litter_count in L as [L P]. rewrite <- (app_nil_r t2), (walk_high 2 _ (pads_in t2)) in H by (lia || assumption || reflexivity). discriminate H. }
  destruct (cut 1 j3 J3) as [L3|(j & r & -> & L & P & R)].
  2:{ apply (Two j (r ++ c3 :: t3)); [now rewrite <- app_assoc|exact L|exact P|]. apply Forall_app. split; [exact R|].
      apply Forall_cons; [now apply sextet_val in S3|exact A3]. }
  clear Two. pose proof (litter_count _ _ L3) as [_ P3]. rewrite (walk_high 2 _ (pads_in j3)) in H by (lia || assumption || reflexivity).
  rewrite (at_code _ _ _ c3 v3) in H by assumption.
  assert (forall j4 r, t3 = j4 ++ pad :: r -> litter (Some 0) j4 -> ascii r -> b64_text (j1 ++ c1 :: j2 ++ c2 :: j3 ++ c3 :: t3) l) as Three.
  { intros j4 r -> L4 R. pose proof (litter_count _ _ L4) as [L4' P4]. rewrite (walk_high 3 _ 0) in H by (lia || assumption). rewrite at_pad in H by lia. cbn [bind] in H.
    injection H as <-. rewrite (N.mul_comm v1 4), (N.mul_comm (v2 mod 16) 16). now apply b64_three. }
  destruct (first_code t3 A3) as [J|(j4 & c4 & v4 & t4 & -> & J4 & S4 & A4)].
  { destruct (cut 0 t3 J) as [L|(j & r & E & L & P & R)]; [|now apply (Three j r)].
    apply litter_count in L as [L P]. rewrite <- (app_nil_r t3), (walk_high 3 _ (pads_in t3)) in H by (lia || assumption || reflexivity). discriminate H. }
  destruct (cut 0 j4 J4) as [L4|(j & r & -> & L & P & R)].
  2:{ apply (Three j (r ++ c4 :: t4)); [now rewrite <- app_assoc|exact L|]. apply Forall_app. split; [exact R|].
      apply Forall_cons; [now apply sextet_val in S4|exact A4]. }
  clear Three. pose proof (litter_count _ _ L4) as [_ P4]. rewrite (walk_high 3 _ (pads_in j4)) in H by (lia || assumption || reflexivity).
  rewrite (at_code _ _ _ c4 v4) in H by assumption. destruct (b64_dec 0 0%N 0 t4) as [l4|e] eqn:D; [|discriminate H]. cbn [bind] in H.
  injection H as <-. rewrite (N.mul_comm v1 4), (N.mul_comm (v2 mod 16) 16), (N.mul_comm (v3 mod 4) 64). apply b64_four; try assumption.
  apply IH; [|exact A4|exact D]. rewrite !app_length in LK. cbn [length] in LK. rewrite !app_length in LK. cbn [length] in LK.
  rewrite !app_length in LK. cbn [length] in LK. rewrite !app_length in LK. cbn [length] in LK. lia.
Qed.
Lemma ascii_forallb s : forallb (fun c => (c <? 128)%N) s = true <-> ascii s.
Proof. rewrite forallb_forall. unfold ascii. rewrite Forall_forall. split; intros H c Hc; specialize (H c Hc); lia. Qed.
Lemma bytes_iff s l : b64_decode s = Ok l <-> b64_text s l.
Proof.
  unfold b64_decode. split.
  - destruct (forallb _ s) eqn:A; [|discriminate]. intros H. apply (dec_text (length s)); [apply le_n|now apply ascii_forallb|exact H].
  - intros H. apply text_dec in H as [H A]. now rewrite (proj2 (ascii_forallb s) A).
Qed.
Lemma dec_err s : forall q l p e, b64_dec q l p s = Err e -> e = ValueError.
Proof.
  induction s as [|c s IH]; intros q l p e H; cbn [b64_dec] in H; [destruct q; congruence|].
  destruct (c =? 61)%N; [destruct (Nat.leb 2 q); [destruct (Nat.leb 4 (q + S p)); [discriminate|]|]; now apply IH in H|].
  destruct (b64_val c) as [v|]; [|now apply IH in H].
  destruct q as [|[|[|q]]]; [now apply IH in H|..];
    (match goal with H : bind (b64_dec ?a ?b ?c' s) _ = _ |- _ => destruct (b64_dec a b c' s) eqn:E; cbn [bind] in H; [discriminate|apply IH in E; congruence] end).
Qed.
Lemma bytes_err s e : b64_decode s = Err e -> e = ValueError.
Proof. unfold b64_decode. destruct (forallb _ s); [apply dec_err|congruence]. Qed.

(** ** xs:base64Binary *)
Lemma xml_blank_junk c : xml_blank c -> junk c.
Proof.
  unfold xml_blank, junk, pad, sextet. cbn [In]. intros H. split; [lia|]. split; [lia|]. intros v. lia.
Qed.
Lemma blanks_litter k j : Forall xml_blank j -> litter (Some k) j.
Proof.
  intros F. split; [eapply Forall_impl; [|exact F]; intros c H; right; now apply xml_blank_junk|].
  replace (filter (fun c => (c =? pad)%N) j) with (@nil N); [cbn; lia|]. induction F as [|c j H F IH]; [reflexivity|].
  cbn [filter]. apply xml_blank_junk in H as (_ & H & _). now rewrite (proj2 (N.eqb_neq _ _) H).
Qed.
Lemma litter_any k j : litter (Some k) j -> litter None j.
Proof. intros H. now apply litter_count in H. Qed.
Lemma unspaced_cons s c t : unspaced s (c :: t) -> exists j r, s = j ++ c :: r /\ Forall xml_blank j /\ unspaced r t.
Proof.
  remember (c :: t) as u. induction 1 as [|x s u0 B U IH|x s u0 B U IH]; [discriminate| |].
  - destruct (IH Hequ) as (j & r & -> & F & R). exists (x :: j), r. split; [reflexivity|]. split; [now apply Forall_cons|exact R].
  - injection Hequ as -> ->. exists [], s. split; [reflexivity|]. split; [apply Forall_nil|exact U].
Qed.
Lemma unspaced_nil s : unspaced s [] -> Forall xml_blank s.
Proof.
  remember (@nil N) as u. induction 1 as [|x s u0 B U IH|x s u0 B U IH]; [apply Forall_nil| |discriminate]. apply Forall_cons; [exact B|now apply IH].
Qed.
Lemma blanks_ascii s : Forall xml_blank s -> ascii s.
Proof. intros H. eapply Forall_impl; [|exact H]. intros c. unfold xml_blank. cbn [In]. lia. Qed.
Lemma xs_text s l : xs_base64 s l -> b64_text s l.
Proof.
  intros (t & U & C). revert s U. induction C as [|c1 v1 c2 v2 c3 v3 c4 v4 t l S1 S2 S3 S4 C IH|c1 v1 c2 v2 S1 S2 Z|c1 v1 c2 v2 c3 v3 S1 S2 S3 Z]; intros s U.
  - apply unspaced_nil in U. apply b64_end, (litter_any 0), blanks_litter, U.
  - apply unspaced_cons in U as (j1 & s1 & -> & J1 & U). apply unspaced_cons in U as (j2 & s2 & -> & J2 & U).
    apply unspaced_cons in U as (j3 & s3 & -> & J3 & U). apply unspaced_cons in U as (j4 & s4 & -> & J4 & U).
    apply b64_four; try assumption; try (now apply blanks_litter); try (now apply (litter_any 0), blanks_litter). now apply IH.
  - apply unspaced_cons in U as (j1 & s1 & -> & J1 & U). apply unspaced_cons in U as (j2 & s2 & -> & J2 & U).
    apply unspaced_cons in U as (j3 & s3 & -> & J3 & U). apply unspaced_cons in U as (j4 & s4 & -> & J4 & U). apply unspaced_nil in U.
    replace (j3 ++ pad :: j4 ++ pad :: s4) with ((j3 ++ pad :: j4) ++ pad :: s4) by (rewrite <- app_assoc; reflexivity).
    apply b64_two; try assumption; try (now apply (litter_any 0), blanks_litter).
    + pose proof (blanks_litter 0 j3 J3) as [F3 P3]. pose proof (blanks_litter 0 j4 J4) as [F4 P4]. split.
      * apply Forall_app. split; [exact F3|]. apply Forall_cons; [now left|exact F4].
      * rewrite filter_app, app_length. cbn [filter]. change (pad =? pad)%N with true. cbn [length]. lia.
    + apply in_or_app. right. now left.
    + now apply blanks_ascii.
  - apply unspaced_cons in U as (j1 & s1 & -> & J1 & U). apply unspaced_cons in U as (j2 & s2 & -> & J2 & U).
    apply unspaced_cons in U as (j3 & s3 & -> & J3 & U). apply unspaced_cons in U as (j4 & s4 & -> & J4 & U). apply unspaced_nil in U.
    apply b64_three; try assumption; try (now apply blanks_litter); try (now apply (litter_any 0), blanks_litter). now apply blanks_ascii.
Qed.
Lemma coded_length t l : coded t l -> exists k, length t = 4 * k.
Proof.
  induction 1 as [|? ? ? ? ? ? ? ? ? ? _ _ _ _ _ [k IH]|? ? ? ? _ _ _|? ? ? ? ? ? _ _ _ _]; [now exists 0| |now exists 1|now exists 1].
  exists (S k). cbn [length]. lia.
Qed.
Lemma coded_chars t l : coded t l -> Forall (fun c => c = pad \/ exists v, sextet c v) t.
Proof.
  induction 1; repeat match goal with |- Forall _ (_ :: _) => apply Forall_cons; [first [left; reflexivity|right; eauto]|] end; first [assumption|apply Forall_nil].
Qed.
