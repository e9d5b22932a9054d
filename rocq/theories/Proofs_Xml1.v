(** XML: what is printed is parsed back. *)
From Coq Require Import String.
From Verif Require Import Base BaseFacts Model_Scalars Model_Object Model_Clixml Model_Xml Spec_Strings Spec_Scalars Spec_Clixml Spec_Xml Proofs_Clixml1.
Local Open Scope list_scope.
Local Open Scope nat_scope.

Lemma xml_char_iff c : xml_char c = true <-> valid_char c.
Proof.
  unfold xml_char, valid_char. rewrite !orb_true_iff, !andb_true_iff, !N.eqb_eq, !N.leb_le. tauto.
Qed.
Lemma name_start_iff c : name_start c = true <-> letter c.
Proof. unfold name_start, letter. rewrite !orb_true_iff, !andb_true_iff, !N.eqb_eq, !N.leb_le. tauto. Qed.
Lemma name_char_iff c : name_char c = true <-> (letter c \/ 48 <= c <= 57 \/ c = 45 \/ c = 46)%N.
Proof. unfold name_char. rewrite !orb_true_iff, !andb_true_iff, !N.eqb_eq, !N.leb_le, name_start_iff. tauto. Qed.

Lemma span_app p a b : Forall (fun c => p c = true) a -> (forall c r, b = c :: r -> p c = false) -> span p (a ++ b) = (a, b).
Proof.
  intros Ha Hb. induction Ha as [|c a Hc _ IH]; cbn [app span].
  - destruct b as [|c r]; [reflexivity|]. cbn [span]. now rewrite (Hb c r eq_refl).
  - now rewrite Hc, IH.
Qed.
Lemma name_read n r : name_ok n -> (forall c t, r = c :: t -> name_char c = false) -> read_name (n ++ r) = Ok (n, r).
Proof.
  intros (c & t & -> & Hc & Ht) Hr. unfold read_name. cbn [app]. rewrite (proj2 (name_start_iff c) Hc).
  change (c :: t ++ r) with ((c :: t) ++ r). rewrite span_app; auto. constructor; [apply name_char_iff; auto|].
  eapply Forall_impl; [|exact Ht]. cbv beta. intros d Hd. now apply name_char_iff.
Qed.

(** ** Text *)
Lemma decode_ref f b s c r t : read_ref s = Ok (c, r) -> decode f b r = Ok t -> decode (S f) b (38%N :: s) = Ok (c :: t).
Proof. intros E D. cbn [decode N.eqb Pos.eqb]. rewrite E. cbn [bind fst snd]. now rewrite D. Qed.
Lemma lines_text t : text_ok t -> lines t = t.
Proof.
  induction 1 as [|c t [_ Hc] _ IH]; [reflexivity|]. cbn [lines]. apply N.eqb_neq in Hc. rewrite Hc. now rewrite IH.
Qed.
Lemma decode_lines n : forall t, length t <= n -> attr_ok t -> forall f, length t < f -> decode f false (flat_map esc_text t) = Ok (lines t).
Proof.
  induction n as [|n IH]; intros t Hn Ht f Hf; (destruct f as [|f]; [lia|]); (destruct t as [|c t]; [reflexivity|]); [cbn in Hn; lia|].
  inversion Ht as [|? ? Hc Ht']; subst. cbn [length] in Hf, Hn. cbn [flat_map]. unfold esc_text at 1. cbn [lines].
  destruct (N.eqb_spec c 38) as [->|H1]; [apply (decode_ref f _ (tx "amp;" ++ _) 38%N _ (lines t) eq_refl), IH; [lia|exact Ht'|lia]|].
  destruct (N.eqb_spec c 60) as [->|H2]; [apply (decode_ref f _ (tx "lt;" ++ _) 60%N _ (lines t) eq_refl), IH; [lia|exact Ht'|lia]|].
  destruct (N.eqb_spec c 62) as [->|H3]; [apply (decode_ref f _ (tx "gt;" ++ _) 62%N _ (lines t) eq_refl), IH; [lia|exact Ht'|lia]|].
  cbn [app decode]. apply N.eqb_neq in H1, H2. rewrite H1, H2, (proj2 (xml_char_iff c) Hc). cbn [orb negb andb].
  destruct (N.eqb_spec c 13) as [->|H4]; [|rewrite IH; [reflexivity|lia|exact Ht'|lia]].
  destruct t as [|d u]; [cbn [flat_map]; destruct f; [cbn in Hf; lia|reflexivity]|].
  destruct (N.eqb_spec d 10) as [->|H5].
  - change (flat_map esc_text (10%N :: u)) with (10%N :: flat_map esc_text u). cbv iota. rewrite N.eqb_refl. inversion Ht'; subst. cbn [length] in *. rewrite IH; [reflexivity|lia|assumption|lia].
  - assert (match flat_map esc_text (d :: u) with [] => flat_map esc_text (d :: u) | e :: t' => if (e =? 10)%N then t' else flat_map esc_text (d :: u) end
            = flat_map esc_text (d :: u)) as ->.
    { cbn [flat_map]. assert (exists e r, esc_text d = e :: r /\ e <> 10%N) as (e & r & -> & He).
      { unfold esc_text. repeat (destruct (d =? _)%N; [eexists; eexists; split; [reflexivity|discriminate]|]). eauto. }
      cbn [app]. apply N.eqb_neq in He. now rewrite He. }
    rewrite IH; [reflexivity|lia|exact Ht'|exact (proj2 (Nat.succ_lt_mono _ _) Hf)].
Qed.
Lemma decode_attr t : attr_ok t -> forall f, length t < f -> decode f true (flat_map esc_attr t) = Ok t.
Proof.
  induction 1 as [|c t Hc _ IH]; intros f Hf; (destruct f as [|f]; [cbn [length] in Hf; lia|]); [reflexivity|].
  cbn [length] in Hf. cbn [flat_map]. unfold esc_attr at 1.
  destruct (N.eqb_spec c 38) as [->|H1]; [apply (decode_ref f _ (tx "amp;" ++ _) 38%N _ t eq_refl), IH; lia|].
  destruct (N.eqb_spec c 60) as [->|H2]; [apply (decode_ref f _ (tx "lt;" ++ _) 60%N _ t eq_refl), IH; lia|].
  destruct (N.eqb_spec c 62) as [->|H3]; [apply (decode_ref f _ (tx "gt;" ++ _) 62%N _ t eq_refl), IH; lia|].
  destruct (N.eqb_spec c 34) as [->|H4]; [apply (decode_ref f _ (tx "quot;" ++ _) 34%N _ t eq_refl), IH; lia|].
  destruct (N.eqb_spec c 13) as [->|H5]; [apply (decode_ref f _ (tx "#13;" ++ _) 13%N _ t eq_refl), IH; lia|].
  destruct (N.eqb_spec c 10) as [->|H6]; [apply (decode_ref f _ (tx "#10;" ++ _) 10%N _ t eq_refl), IH; lia|].
  destruct (N.eqb_spec c 9) as [->|H7]; [apply (decode_ref f _ (tx "#09;" ++ _) 9%N _ t eq_refl), IH; lia|].
  cbn [app decode]. apply N.eqb_neq in H1, H2, H5, H6, H7. rewrite H1, H2, H5, H6, H7, (proj2 (xml_char_iff c) Hc). cbn [orb negb andb].
  now rewrite IH by lia.
Qed.
Lemma esc_length (e : N -> list N) t : (forall c, e c <> []) -> length t <= length (flat_map e t).
Proof.
  intros H. induction t as [|c t IH]; cbn [flat_map length]; [lia|]. rewrite app_length. specialize (H c). destruct (e c); [congruence|cbn [length]; lia].
Qed.
Ltac esc c := unfold esc_text, esc_attr;
  repeat match goal with |- context [(c =? ?x)%N] => destruct (c =? x)%N end; discriminate.
Lemma esc_text_some c : esc_text c <> []. Proof. esc c. Qed.
Lemma esc_attr_some c : esc_attr c <> []. Proof. esc c. Qed.
Lemma text_back t : attr_ok t -> decoded false (flat_map esc_text t) = Ok (lines t).
Proof. intros H. apply (decode_lines (length t)); [lia|exact H|]. pose proof (esc_length esc_text t esc_text_some). lia. Qed.
Lemma attr_back t : attr_ok t -> decoded true (flat_map esc_attr t) = Ok t.
Proof. intros H. apply decode_attr; [exact H|]. pose proof (esc_length esc_attr t esc_attr_some). lia. Qed.
Lemma text_no_lt t : Forall (fun c => negb (c =? 60)%N = true) (flat_map esc_text t).
Proof.
  induction t as [|c t IH]; [constructor|]. cbn [flat_map]. apply Forall_app. split; [|exact IH]. unfold esc_text.
  destruct (N.eqb_spec c 38); [repeat constructor|]. destruct (N.eqb_spec c 60); [repeat constructor|]. destruct (N.eqb_spec c 62); [repeat constructor|].
  constructor; [|constructor]. apply negb_true_iff, N.eqb_neq. assumption.
Qed.
Lemma attr_no_quote t : Forall (fun c => negb (c =? 34)%N = true) (flat_map esc_attr t).
Proof.
  induction t as [|c t IH]; [constructor|]. cbn [flat_map]. apply Forall_app. split; [|exact IH]. unfold esc_attr.
  repeat match goal with |- context [(c =? ?x)%N] => destruct (N.eqb_spec c x); [repeat constructor|] end.
  constructor; [|constructor]. apply negb_true_iff, N.eqb_neq. assumption.
Qed.

(** ** Tags *)
Lemma skip_one r : (forall c t, r = c :: t -> is_ws c = false) -> skip_ws (32%N :: r) = r.
Proof. intros H. unfold skip_ws. change (32%N :: r) with ([32%N] ++ r). rewrite span_app; auto. Qed.
Lemma skip_none r : (forall c t, r = c :: t -> is_ws c = false) -> skip_ws r = r.
Proof. intros H. unfold skip_ws. change r with ([] ++ r) at 1. rewrite span_app; auto. Qed.
Lemma letter_not_ws c : letter c -> is_ws c = false /\ (c =? 62)%N = false /\ (c =? 47)%N = false.
Proof.
  unfold letter, is_ws. intros H. rewrite !orb_false_iff, !N.eqb_neq. lia.
Qed.
Lemma has_attr_false n l : ~ In n (map fst l) -> has_attr n l = false.
Proof.
  intros H. unfold has_attr. destruct (existsb (fun a => name_eqb (fst a) n) l) eqn:E; [|reflexivity]. exfalso. apply H.
  apply existsb_exists in E. destruct E as (a & Ha & E). apply name_eqb_iff in E. subst n. now apply in_map.
Qed.
Definition tag_end (closed : bool) : list N := if closed then tx " />" else tx ">".
Lemma attrs_read a : Forall (fun p => name_ok (fst p) /\ fst p <> tx "xmlns" /\ attr_ok (snd p)) a ->
  forall acc f closed r, NoDup (map fst (acc ++ a)) -> length a < f ->
  read_attrs f acc (flat_map print_attr a ++ tag_end closed ++ r) = Ok (acc ++ a, closed, r).
Proof.
  induction 1 as [|[n v] a (Hn & Hx & Hv) _ IH]; intros acc f closed r Hd Hf; (destruct f as [|f]; [cbn [length] in Hf; lia|]).
  - cbn [flat_map app]. rewrite app_nil_r. destruct closed; reflexivity.
  - cbn [flat_map fst snd length] in *. destruct Hn as (c & t & -> & Hc & Ht).
    set (rest := flat_map print_attr a ++ tag_end closed ++ r) in *.
    assert ((print_attr (c :: t, v) ++ flat_map print_attr a) ++ tag_end closed ++ r
            = 32%N :: c :: t ++ 61%N :: 34%N :: flat_map esc_attr v ++ 34%N :: rest) as ->.
    { unfold print_attr at 1. cbn [fst snd]. change (tx " ") with [32%N]. rewrite <- !app_assoc. cbn [app]. rewrite <- ?app_assoc. cbn [app].
      rewrite <- ?app_assoc. reflexivity. }
    destruct (letter_not_ws c Hc) as (W & G & S). cbn [read_attrs].
    rewrite skip_one by (intros d u E; injection E as <- _; exact W). rewrite G, S. 
    match goal with |- context [Nat.eqb ?x ?y] => replace (Nat.eqb x y) with false end.
    2:{ symmetry. apply Nat.eqb_neq. cbn [length]. lia. }
    match goal with |- context [read_name ?s] => replace s with ((c :: t) ++ 61%N :: 34%N :: flat_map esc_attr v ++ 34%N :: rest) by reflexivity end.
    rewrite name_read; [|exists c, t; auto|intros d u E; injection E as <- _; reflexivity]. cbn [bind fst snd].
    rewrite skip_none by (intros d u E; injection E as <- _; reflexivity). cbn [N.eqb Pos.eqb negb].
    rewrite skip_none by (intros d u E; injection E as <- _; reflexivity). cbn [N.eqb Pos.eqb orb].
    rewrite (span_app (fun c => negb (c =? 34)%N)); [|apply attr_no_quote|intros d u E; injection E as <- _; reflexivity].
    rewrite attr_back by exact Hv. cbn [bind].
    rewrite has_attr_false. 2:{ rewrite map_app in Hd. cbn [map fst] in Hd. apply NoDup_remove_2 in Hd. intros Hi. apply Hd. apply in_or_app. now left. }
    replace (name_eqb (c :: t) (tx "xmlns")) with false by (symmetry; destruct (name_eqb (c :: t) (tx "xmlns")) eqn:E; [apply name_eqb_iff in E; congruence|reflexivity]).
    cbn [orb]. unfold rest. rewrite IH; [now rewrite <- app_assoc|now rewrite <- app_assoc|lia].
Qed.

(** ** Elements *)
Definition body (x : node) : list N :=
  let 'Node n a t k := x in
  n ++ flat_map print_attr a
  ++ match t, k with
     | [], [] => tx " />"
     | _, _ => tx ">" ++ flat_map esc_text t ++ flat_map print k ++ tx "</" ++ n ++ tx ">"
     end.
Lemma print_body x : print x = 60%N :: body x.
Proof. destruct x. reflexivity. Qed.
Fixpoint weight (x : node) : nat := let 'Node _ _ _ k := x in S (S (fold_right (fun y n => S (weight y + n)) 0 k)).
Definition weights (k : list node) : nat := S (fold_right (fun y n => S (weight y + n)) 0 k).
Lemma print_attr_length a : length a <= length (flat_map print_attr a).
Proof.
  induction a as [|p a IH]; cbn [flat_map length]; [lia|]. rewrite app_length. unfold print_attr at 1. change (tx " ") with [32%N]. cbn [app length]. lia.
Qed.
Definition back (f : nat) : Prop := forall x r, line_printable x -> weight x <= f -> read_elem f (body x ++ r) = Ok (lined x, r).

Lemma content_back f : (forall g, g < f -> back g) -> forall g k t r, g <= f -> attr_ok t -> fold_right (fun y P => line_printable y /\ P) True k ->
  weights k <= g -> read_content g (flat_map esc_text t ++ flat_map print k ++ tx "</" ++ r) = Ok (lines t, map lined k, r).
Proof.
  intros HB g k. revert g. induction k as [|x k IH]; intros g t r Hg Ht Hk Hw; (destruct g as [|g]; [unfold weights in Hw; lia|]); cbn [read_content].
  - rewrite span_app; [|apply text_no_lt|intros c u E; injection E as <- _; reflexivity]. rewrite text_back by exact Ht. reflexivity.
  - cbn [flat_map] in *. rewrite <- app_assoc. rewrite (print_body x). cbn [app].
    rewrite span_app; [|apply text_no_lt|intros c u E; injection E as <- _; reflexivity]. rewrite text_back by exact Ht. cbn [bind].
    cbn [fold_right] in Hk. destruct Hk as [Hx Hk]. cbn [weights fold_right] in Hw. unfold weights in Hw. cbn [fold_right] in Hw.
    replace (strip (tx "</") (60%N :: body x ++ flat_map print k ++ tx "</" ++ r)) with (@None (list N)).
    2:{ destruct x as [n a u kk]. destruct Hx as ((c & m & -> & Hc & _) & _). 
        destruct (letter_not_ws c Hc) as (_ & _ & S). change (tx "</") with [60; 47]%N. cbn [strip body app].
        rewrite N.eqb_refl, (N.eqb_sym 47 c), S. reflexivity. }
    rewrite (HB g ltac:(lia)); [|exact Hx|lia]. cbn [bind fst snd].
    change (flat_map print k ++ tx "</" ++ r) with (flat_map esc_text [] ++ flat_map print k ++ tx "</" ++ r).
    rewrite IH; [reflexivity|lia|constructor|exact Hk|unfold weights; lia].
Qed.
Lemma elem_back f : back f.
Proof.
  induction f as [f IHf] using (well_founded_induction Nat.lt_wf_0). intros [n a t k] r (Hn & Hd & Ha & Ht & Hk) Hw.
  destruct f as [|f]; [cbn in Hw; lia|]. cbn [read_elem body]. rewrite <- app_assoc.
  assert (forall closed u, read_name (n ++ flat_map print_attr a ++ tag_end closed ++ u) = Ok (n, flat_map print_attr a ++ tag_end closed ++ u)) as HN.
  { intros closed u. apply name_read; [exact Hn|]. intros c v E. destruct a as [|[m w] a]; [destruct closed; injection E as <- _; reflexivity|].
    injection E as <- _. reflexivity. }
  assert (forall closed u, read_attrs (S (length (flat_map print_attr a ++ tag_end closed ++ u))) [] (flat_map print_attr a ++ tag_end closed ++ u) = Ok (a, closed, u)) as HA.
  { intros closed u. rewrite attrs_read; auto. rewrite app_length. pose proof (print_attr_length a). lia. }
  assert ((t = [] /\ k = []) \/ match t, k with [], [] => tx " />" | _, _ => tx ">" ++ flat_map esc_text t ++ flat_map print k ++ tx "</" ++ n ++ tx ">" end
            = tx ">" ++ flat_map esc_text t ++ flat_map print k ++ tx "</" ++ n ++ tx ">") as [[-> ->]|E]
    by (destruct t; [destruct k; [left; auto|right; reflexivity]|right; reflexivity]).
  - change (tx " />") with (tag_end true). rewrite <- app_assoc. rewrite HN. cbn [bind fst snd]. rewrite HA. reflexivity.
  - rewrite E. change (tx ">" ++ flat_map esc_text t ++ flat_map print k ++ tx "</" ++ n ++ tx ">") with
      (tag_end false ++ flat_map esc_text t ++ flat_map print k ++ tx "</" ++ n ++ tx ">").
    rewrite <- !app_assoc. rewrite HN. cbn [bind fst snd]. rewrite HA. cbn [bind].
    rewrite (content_back f); [|intros g Hg; apply IHf; lia|lia|exact Ht|exact Hk|cbn in Hw; unfold weights; lia].
    cbn [bind]. rewrite name_read; [|exact Hn|intros c u F; injection F as <- _; reflexivity]. cbn [bind fst snd].
    rewrite name_eqb_refl. rewrite skip_none by (intros c u F; injection F as <- _; reflexivity). reflexivity.
Qed.
Lemma weight_body x : line_printable x -> weight x <= length (body x).
Proof.
  assert (forall n x, weight x <= n -> line_printable x -> weight x <= length (body x)) as H; [|intros; eauto].
  induction n as [|n IH]; intros [m a t k] Hw (Hm & _ & _ & _ & Hk); [cbn in Hw; lia|].
  destruct Hm as (c & r & -> & _ & _). cbn [body weight].
  assert (forall l, fold_right (fun y n => S (weight y + n)) 0 l <= n -> fold_right (fun y P => line_printable y /\ P) True l ->
          fold_right (fun y n => S (weight y + n)) 0 l <= length (flat_map print l)) as HL.
  { induction l as [|y l IHl]; intros Hl Hp; cbn [fold_right flat_map] in *; [lia|]. rewrite app_length, print_body. cbn [length].
    destruct Hp as [Hy Hp]. specialize (IHl ltac:(lia) Hp). specialize (IH y ltac:(lia) Hy). lia. }
  cbn [weight] in Hw. specialize (HL k ltac:(lia) Hk).
  rewrite !app_length. destruct t, k; cbn [length tx map list_ascii_of_string app] in *; rewrite ?app_length in *; cbn [length tx map list_ascii_of_string fold_right] in *; lia.
Qed.
Theorem print_lines x : line_printable x -> parse (print x) = Ok (lined x).
Proof.
  intros H. rewrite print_body. unfold parse. rewrite skip_none by (intros c t E; injection E as <- _; reflexivity).
  cbn [N.eqb Pos.eqb]. rewrite <- (app_nil_r (body x)) at 2. rewrite (elem_back (S (length (body x)))); [reflexivity|exact H|].
  pose proof (weight_body x H). lia.
Qed.
Section Node_ind.
  Variable P : node -> Prop.
  Hypothesis HP : forall n a t k, Forall P k -> P (Node n a t k).
  Fixpoint node_induct (x : node) : P x :=
    let 'Node n a t k := x in HP n a t k ((fix go (l : list node) : Forall P l := match l with [] => Forall_nil P | y :: r => Forall_cons y (node_induct y) (go r) end) k).
End Node_ind.
Lemma text_valid t : text_ok t -> attr_ok t.
Proof. apply Forall_impl. tauto. Qed.
Lemma printable_lined x : printable x -> line_printable x /\ lined x = x.
Proof.
  induction x as [n a t k IH] using node_induct. intros (Hn & Hd & Ha & Ht & Hk). cbn [line_printable lined]. rewrite (lines_text t Ht).
  assert (fold_right (fun y P => line_printable y /\ P) True k /\ map lined k = k) as [Hw ->].
  { induction k as [|y k IHk]; [split; [exact I|reflexivity]|]. inversion IH; subst. cbn [fold_right map] in *. destruct Hk as [Hy Hk].
    destruct (IHk H2 Hk) as [A B]. destruct (H1 Hy) as [C D]. rewrite B, D. auto. }
  split; [|reflexivity]. split; [exact Hn|]. split; [exact Hd|]. split; [exact Ha|]. split; [now apply text_valid|exact Hw].
Qed.
Theorem print_parse x : printable x -> parse (print x) = Ok x.
Proof. intros H. destruct (printable_lined x H) as [A B]. rewrite print_lines by exact A. now rewrite B. Qed.
