(** Proofs about the texts of GUIDs, versions and booleans. *)
From Verif Require Import Base BaseFacts Model_Strings Model_Scalars Model_Text Spec_Scalars Spec_Numeral Spec_Duration Spec_DateText Spec_TextForms
  Proofs_Scalars Proofs_Duration Proofs_Numeral Proofs_Duration2 Proofs_Datetime Proofs_DateText.
From Verif Require Proofs_Text.

(** ** Versions *)
Lemma part_iff s n : version_part s = Ok n <-> part_text s n.
Proof.
  unfold version_part, part_text. destruct s as [|c t].
  { split; [discriminate|]. intros [[Q _]|(c & t & Q & _)]; discriminate Q. }
  destruct (N.eqb_spec c 48) as [->|Hn].
  - replace ((49 <=? 48) && (48 <=? 57) && forallb any_digit t)%N with false by reflexivity. destruct t as [|d t]; cbn [andb orb].
    + change (digits_val (map to_digit [48%N])) with 0%N. split; [intros H; injection H as <-; auto|].
      intros [[_ ->]|(c & t & Q & B & _)]; [reflexivity|]. injection Q as <- <-. lia.
    + split; [discriminate|]. intros [[Q _]|(c & t' & Q & B & _)]; [discriminate Q|]. injection Q as <- _. lia.
  - cbn [andb orb]. destruct ((49 <=? c) && (c <=? 57))%N eqn:B; cbn [andb].
    + destruct (forallb any_digit t) eqn:A.
      * split.
        -- intros H. assert (digits_val (map to_digit (c :: t)) = n) as <- by congruence. right. exists c, t. split; [reflexivity|].
           split; [lia|]. apply any_number; [discriminate|]. cbn [forallb]. rewrite A. rewrite any_ascii by lia. unfold is_digit. lia.
        -- intros [[Q _]|(c' & t' & Q & B' & M)]; [congruence|]. apply number_any in M as (_ & _ & <-). reflexivity.
      * split; [discriminate|]. intros [[Q _]|(c' & t' & Q & B' & M)]; [congruence|]. apply number_any in M as (M & _).
        cbn [forallb] in M. rewrite A, andb_false_r in M. discriminate.
    + split; [discriminate|]. intros [[Q _]|(c' & t' & Q & B' & M)]; [congruence|]. injection Q as <- <-. lia.
Qed.
Lemma part_err s e : version_part s = Err e -> e = ValueError.
Proof. unfold version_part. destruct s; [congruence|]. destruct (_ || _)%bool; congruence. Qed.
Lemma part_dark s n : part_text s n -> ~ In 46%N s /\ ~ In 10%N s /\ s <> [].
Proof.
  assert (forall k, (k < 48)%N -> any_digit k = false) as A by (intros k L; apply any_other; [lia|unfold is_digit; lia]).
  intros [[-> _]|(c & t & E & _ & M)]; [split; [intros [Q|[]]; discriminate|]; split; [intros [Q|[]]; discriminate|discriminate]|].
  apply number_any in M as (M & N0 & _). rewrite forallb_forall in M.
  split; [|split; [|exact N0]]; intros I; apply M in I; rewrite A in I; (discriminate || lia).
Qed.
Lemma split_here sep a r : ~ In sep a -> split_on sep (a ++ sep :: r) = a :: split_on sep r.
Proof.
  induction a as [|c a IH]; intros H; cbn [app split_on]; [now rewrite N.eqb_refl|].
  destruct (N.eqb_spec c sep) as [->|_]; [destruct H; now left|]. rewrite IH; [reflexivity|]. intros I. apply H. now right.
Qed.
Lemma split_last sep a : ~ In sep a -> split_on sep a = [a].
Proof.
  induction a as [|c a IH]; intros H; cbn [split_on]; [reflexivity|].
  destruct (N.eqb_spec c sep) as [->|_]; [destruct H; now left|]. rewrite IH; [reflexivity|]. intros I. apply H. now right.
Qed.
Lemma split_back sep s : forall p r, split_on sep s = p :: r -> s = match r with [] => p | _ => p ++ sep :: join [sep] r end.
Proof.
  induction s as [|c s IH]; intros p r E; cbn [split_on] in E; [injection E as <- <-; reflexivity|].
  destruct (N.eqb_spec c sep) as [->|_].
  - injection E as <- <-. destruct (split_on sep s) as [|p' r'] eqn:Q.
    + destruct s; cbn [split_on] in Q; [discriminate|]. destruct (_ =? _)%N; [discriminate|]. destruct (split_on sep s); discriminate.
    + rewrite (IH p' r' eq_refl) at 1. destruct r'; reflexivity.
  - destruct (split_on sep s) as [|p' r'] eqn:Q.
    + destruct s; cbn [split_on] in Q; [discriminate|]. destruct (_ =? _)%N; [discriminate|]. destruct (split_on sep s); discriminate.
    + injection E as <- <-. rewrite (IH p' r' eq_refl). destruct r'; reflexivity.
Qed.
Lemma drop_split s : exists tail, s = drop_newline s ++ tail /\ (tail = [] \/ tail = [10%N]).
Proof.
  unfold drop_newline. destruct (rev s) as [|c r] eqn:E; [exists []; rewrite app_nil_r; auto|].
  assert (s = rev r ++ [c]) as Q by (rewrite <- (rev_involutive s), E; reflexivity).
  destruct (N.eq_dec c 10) as [->|Hc]; [exists [10%N]; auto|]. exists []. rewrite app_nil_r. split; [|now left].
  destruct c as [|p]; [reflexivity|]. do 4 (destruct p; try reflexivity). congruence.
Qed.
Lemma drop_tail t tail : ~ In 10%N t -> tail = [] \/ tail = [10%N] -> drop_newline (t ++ tail) = t.
Proof.
  intros H [-> | ->].
  - rewrite app_nil_r. apply drop_newline_id. intros r E. apply H. rewrite in_rev, E. now left.
  - unfold drop_newline. rewrite rev_app_distr. cbn [rev app]. apply rev_involutive.
Qed.
Definition parts_of (s : list N) : result version :=
  match split_on 46 s with
  | [a; b] => let! x := version_part a in let! y := version_part b in Ok (mkV x y None None)
  | [a; b; c] => let! x := version_part a in let! y := version_part b in let! z := version_part c in
                 Ok (mkV x y (Some z) None)
  | [a; b; c; d] => let! x := version_part a in let! y := version_part b in let! z := version_part c in
                    let! w := version_part d in Ok (mkV x y (Some z) (Some w))
  | _ => Err ValueError
  end.
Lemma dotted_parts s v : dotted part_text s v -> parts_of s = Ok v /\ ~ In 10%N s.
Proof.
  intros (a & b & x & y & A & B & H). unfold parts_of.
  pose proof (part_dark _ _ A) as (A1 & A2 & _). pose proof (part_dark _ _ B) as (B1 & B2 & _). apply part_iff in A, B.
  assert (forall p q, ~ In 10%N p -> ~ In 10%N q -> ~ In 10%N (p ++ [46%N] ++ q)) as J.
  { intros p q P Q I. apply in_app_or in I as [I|I]; [auto|]. apply in_app_or in I as [[I|[]]|I]; [discriminate|auto]. }
  destruct H as [[-> ->]|(c & z & C & H)].
  - cbn [app]. rewrite split_here, split_last by assumption. rewrite A, B. split; [reflexivity|]. now apply (J a b).
  - pose proof (part_dark _ _ C) as (C1 & C2 & _). apply part_iff in C. destruct H as [[-> ->]|(d & w & D & -> & ->)].
    + cbn [app]. rewrite !split_here, split_last by assumption. rewrite A, B, C. split; [reflexivity|].
      apply (J a); [assumption|]. now apply (J b).
    + pose proof (part_dark _ _ D) as (D1 & D2 & _). apply part_iff in D. cbn [app].
      rewrite !split_here, split_last by assumption. rewrite A, B, C, D. split; [reflexivity|].
      apply (J a); [assumption|]. apply (J b); [assumption|]. now apply (J c).
Qed.
Lemma parts_dotted s v : parts_of s = Ok v -> dotted part_text s v.
Proof.
  unfold parts_of. intros H. destruct (split_on 46 s) as [|a [|b l]] eqn:E; try discriminate H. apply split_back in E. cbn [app] in E.
  destruct l as [|c l].
  - destruct (version_part a) as [x|] eqn:A; [|discriminate]. destruct (version_part b) as [y|] eqn:B; [|discriminate].
    injection H as <-. apply part_iff in A, B. exists a, b, x, y. split; [exact A|]. split; [exact B|]. left. split; [exact E|reflexivity].
  - destruct l as [|d l].
    + destruct (version_part a) as [x|] eqn:A; [|discriminate]. destruct (version_part b) as [y|] eqn:B; [|discriminate].
      destruct (version_part c) as [z|] eqn:C; [|discriminate]. injection H as <-. apply part_iff in A, B, C.
      exists a, b, x, y. split; [exact A|]. split; [exact B|]. right. exists c, z. split; [exact C|]. left. split; [exact E|reflexivity].
    + destruct l as [|? l]; [|discriminate H].
      destruct (version_part a) as [x|] eqn:A; [|discriminate]. destruct (version_part b) as [y|] eqn:B; [|discriminate].
      destruct (version_part c) as [z|] eqn:C; [|discriminate]. destruct (version_part d) as [w|] eqn:D; [|discriminate].
      injection H as <-. apply part_iff in A, B, C, D.
      exists a, b, x, y. split; [exact A|]. split; [exact B|]. right. exists c, z. split; [exact C|]. right. exists d, w.
      split; [exact D|]. split; [exact E|reflexivity].
Qed.
Lemma version_iff s v : read_version s = Ok v <-> version_text s v.
Proof.
  change (read_version s) with (parts_of (drop_newline s)). split.
  - intros H. apply parts_dotted in H. destruct (drop_split s) as (tail & E & T). exists (drop_newline s), tail. auto.
  - intros (t & tail & -> & T & D). destruct (dotted_parts t v D) as [P N0]. now rewrite drop_tail.
Qed.
Lemma version_err s e : read_version s = Err e -> e = ValueError.
Proof.
  unfold read_version. generalize (split_on 46 (drop_newline s)). intros l H.
  assert (forall p A (f : N -> result A), bind (version_part p) f = Err e -> e = ValueError \/ exists x, f x = Err e) as K.
  { intros p A f Q. destruct (version_part p) as [x|e'] eqn:E; cbn [bind] in Q; [right; now exists x|left]. apply part_err in E.
    injection Q as <-. exact E. }
  destruct l as [|a [|b [|c [|d [|f l]]]]]; try (injection H as <-; reflexivity);
    repeat (match type of H with bind _ _ = _ => apply K in H as [H|[? H]]; [exact H|] end); discriminate H.
Qed.
Lemma net_part_text s n : net_part s n -> part_text s n.
Proof.
  intros (P & _ & Z). destruct Z as [->|Z].
  - left. split; [reflexivity|]. apply plain_digits in P as (_ & _ & <-). reflexivity.
  - right. pose proof (plain_digits _ _ P) as (D & N0 & V). destruct s as [|c t]; [congruence|]. exists c, t. split; [reflexivity|].
    pose proof D as D'. cbn [forallb] in D. apply andb_prop in D as [D _]. unfold is_digit in D.
    assert (c <> 48%N) by (intros ->; now apply (Z t)). split; [lia|].
    rewrite <- V. replace (digits_val (c :: t)) with (digits_val (plain (c :: t))); [|now rewrite map_ascii by now apply ascii_digits].
    apply any_number; [discriminate|]. now apply any_of_plain.
Qed.
Lemma dotted_impl (p q : list N -> N -> Prop) s v : (forall a n, p a n -> q a n) -> dotted p s v -> dotted q s v.
Proof.
  intros H (a & b & x & y & A & B & R). exists a, b, x, y. split; [auto|]. split; [auto|].
  destruct R as [R|(c & z & C & R)]; [auto|]. right. exists c, z. split; [auto|].
  destruct R as [R|(d & w & D & R)]; [auto|]. right. exists d, w. auto.
Qed.

(** ** Hexadecimal numbers *)
Lemma hex_val_iff c d : hex_val c = Some d <-> (48 <= c <= 57 /\ d = c - 48 \/ 65 <= c <= 70 /\ d = c - 55 \/ 97 <= c <= 102 /\ d = c - 87)%N.
Proof.
  unfold hex_val, in_range. destruct ((48 <=? c) && (c <=? 57))%N eqn:A; [split; [intros H; injection H as <-; lia|intros H; f_equal; lia]|].
  destruct ((65 <=? c) && (c <=? 70))%N eqn:B; [split; [intros H; injection H as <-; lia|intros H; f_equal; lia]|].
  destruct ((97 <=? c) && (c <=? 102))%N eqn:C; [split; [intros H; injection H as <-; lia|intros H; f_equal; lia]|].
  split; [discriminate|lia].
Qed.
Lemma ascii_hex c d : hex_val (to_ascii c) = Some d <-> hexa c d.
Proof.
  rewrite hex_val_iff. unfold hexa. rewrite <- ascii_digit. unfold is_digit. split.
  - intros [H|[H|H]].
    + left. lia.
    + right. split; [lia|]. left. assert (to_ascii c = 65 + (d - 10))%N as E by lia. refine (proj1 (ascii_same c _ _ _ _ _) E); [lia|unfold is_digit; lia|unfold ascii_space; lia|lia].
    + right. split; [lia|]. right. assert (to_ascii c = 97 + (d - 10))%N as E by lia. refine (proj1 (ascii_same c _ _ _ _ _) E); [lia|unfold is_digit; lia|unfold ascii_space; lia|lia].
  - intros [H|[H [-> | ->]]]; [left; lia|right; left|right; right].
    all: unfold to_ascii; match goal with |- context [(?x <? 127)%N] => replace (x <? 127)%N with true by lia end; lia.
Qed.
Definition hparse (t : list N) : option N :=
  match t with c :: t' => match hex_val c with Some d => hex_number d t' | None => None end | [] => None end.
Lemma hnum_numeral : forall k u s0 m n, length u <= k -> hex_numeral s0 m -> hex_number m (read u) = Some n -> hex_numeral (s0 ++ u) n.
Proof.
  induction k as [|k IH]; intros u s0 m n L N0 G; (destruct u as [|c u]; [cbn in G; injection G as <-; now rewrite app_nil_r|]); cbn [length] in L; [lia|].
  cbn [read map hex_number] in G. destruct (hex_val (to_ascii c)) as [d|] eqn:D.
  - replace (s0 ++ c :: u) with ((s0 ++ [c]) ++ u) by now rewrite <- app_assoc. eapply IH; [lia| |exact G].
    rewrite (N.mul_comm m 16). apply hex_next; [exact N0|]. now apply ascii_hex.
  - destruct (N.eqb_spec (to_ascii c) 95) as [E|E]; [|discriminate]. apply (ascii_same c 95) in E; try reflexivity; try discriminate. subst c.
    destruct u as [|x u]; [discriminate|]. cbn [map] in G. destruct (hex_val (to_ascii x)) as [v|] eqn:D'; [|discriminate].
    replace (s0 ++ 95%N :: x :: u) with ((s0 ++ [95%N; x]) ++ u) by now rewrite <- app_assoc. cbn [length] in L. eapply IH; [lia| |exact G].
    rewrite (N.mul_comm m 16). apply hex_under; [exact N0|]. now apply ascii_hex.
Qed.
Lemma hparse_numeral u n : hparse (read u) = Some n -> hex_numeral u n.
Proof.
  destruct u as [|c u]; [discriminate|]. cbn [read map hparse]. destruct (hex_val (to_ascii c)) as [d|] eqn:D; [|discriminate]. intros G.
  change (c :: u) with ([c] ++ u). eapply hnum_numeral; [apply le_n| |exact G]. apply hex_one. now apply ascii_hex.
Qed.
Lemma under_no_hex : hex_val 95 = None.
Proof. reflexivity. Qed.
Lemma hnum_snoc : forall k t m n c d, length t <= k -> hex_number m t = Some n -> hex_val c = Some d ->
  hex_number m (t ++ [c]) = Some (n * 16 + d)%N /\ hex_number m (t ++ [95%N; c]) = Some (n * 16 + d)%N.
Proof.
  induction k as [|k IH]; intros t m n c d L G D; (destruct t as [|x t];
    [cbn in G; injection G as <-; cbn [app hex_number]; rewrite under_no_hex, D; split; reflexivity|]); cbn [length] in L; [lia|].
  cbn [app hex_number] in *. destruct (hex_val x); [apply IH; [lia|exact G|exact D]|]. destruct (x =? 95)%N; [|discriminate].
  destruct t as [|y t]; [discriminate|]. cbn [app]. destruct (hex_val y); [|discriminate]. cbn [length] in L. apply IH; [lia|exact G|exact D].
Qed.
Lemma hex_numeral_nonempty u n : hex_numeral u n -> u <> [].
Proof. destruct 1; [discriminate|now destruct s|now destruct s]. Qed.
Lemma numeral_hparse u n : hex_numeral u n -> hparse (read u) = Some n.
Proof.
  induction 1 as [c d D|s n c d N0 IH D|s n c d N0 IH D]; apply ascii_hex in D.
  - cbn [read map hparse hex_number]. now rewrite D.
  - apply hex_numeral_nonempty in N0. destruct s as [|x s]; [congruence|].
    cbn [app read map hparse] in *. destruct (hex_val (to_ascii x)); [|discriminate IH]. rewrite map_app.
    destruct (hnum_snoc _ _ _ _ _ _ (le_n _) IH D) as [Q _]. cbn [map]. rewrite Q. f_equal. lia.
  - apply hex_numeral_nonempty in N0. destruct s as [|x s]; [congruence|].
    cbn [app read map hparse] in *. destruct (hex_val (to_ascii x)); [|discriminate IH]. rewrite map_app.
    destruct (hnum_snoc _ _ _ _ _ _ (le_n _) IH D) as [_ Q]. cbn [map]. change (to_ascii 95) with 95%N. rewrite Q. f_equal. lia.
Qed.
Lemma hexa_dark c d : hexa c d -> ascii_space (to_ascii c) = false /\ to_ascii c <> 43%N /\ to_ascii c <> 120%N /\ to_ascii c <> 88%N /\ to_ascii c <> 95%N.
Proof. intros H. apply ascii_hex in H. apply hex_val_iff in H. unfold ascii_space. lia. Qed.
Lemma hex_ends u n : hex_numeral u n -> starts_dark (rev (read u)) /\ exists c t d, u = c :: t /\ hexa c d.
Proof.
  unfold read. induction 1 as [c d D|s n c d N0 (I3 & x & t & y & -> & I4) D|s n c d N0 (I3 & x & t & y & -> & I4) D].
  - split; [exact (proj1 (hexa_dark c d D))|]. eauto.
  - rewrite map_app, rev_app_distr. cbn [map rev app starts_dark]. split; [exact (proj1 (hexa_dark c d D))|]. eexists _, _, _. split; [reflexivity|exact I4].
  - rewrite map_app, rev_app_distr. cbn [map rev app starts_dark]. split; [exact (proj1 (hexa_dark c d D))|]. eexists _, _, _. split; [reflexivity|exact I4].
Qed.
Lemma hex_second c t n : hex_numeral (c :: t) n -> match t with x :: _ => to_ascii x <> 120%N /\ to_ascii x <> 88%N | [] => True end.
Proof.
  intros H. apply numeral_hparse in H. cbn [read map hparse] in H. destruct (hex_val (to_ascii c)); [|discriminate]. destruct t as [|x t]; [exact I|].
  cbn [map hex_number] in H. split; intros E; rewrite E in H; discriminate H.
Qed.
Definition unsigned (t : list N) : list N := match t with c :: t' => if (c =? 43)%N then t' else t | [] => [] end.
Lemma hex_int_eq s : hex_int s = hparse (hex_prefix (unsigned (trim (read s)))).
Proof. reflexivity. Qed.
Lemma zero_ascii z : digit z 0 <-> to_ascii z = 48%N.
Proof. rewrite <- ascii_digit. unfold is_digit. split; [lia|intros ->; split; reflexivity]. Qed.
Lemma hex_text_int s n : hex_text s n -> hex_int s = Some n.
Proof.
  intros (a & g & p & u & b & -> & A & B & G & P & U). rewrite hex_int_eq.
  destruct (hex_ends u n U) as (D2 & c & t & d & -> & Dc). pose proof (hexa_dark c d Dc) as (D1 & D3 & _).
  assert (trim (read (a ++ g ++ p ++ (c :: t) ++ b)) = read (g ++ p ++ c :: t)) as ->.
  { replace (a ++ g ++ p ++ (c :: t) ++ b) with (a ++ (g ++ p ++ c :: t) ++ b) by now rewrite <- !app_assoc.
    unfold read. rewrite !(map_app to_ascii a), (map_app to_ascii _ b). apply trim_app.
    - now apply blanks.
    - now apply blanks.
    - destruct g; [destruct p|]; discriminate.
    - destruct G as [-> | ->]; [|reflexivity]. destruct P as [-> | (z & x & w & -> & Z & _)]; [exact D1|].
      cbn [app map starts_dark]. apply zero_ascii in Z. now rewrite Z.
    - rewrite (app_assoc g), map_app, rev_app_distr. destruct (rev (map to_ascii (c :: t))) as [|y l] eqn:E; [|unfold read in D2; rewrite E in D2; exact D2].
      apply (f_equal (@length N)) in E. rewrite rev_length, map_length in E. discriminate. }
  pose proof (numeral_hparse _ _ U) as Q. pose proof (hex_second _ _ _ U) as X.
  assert (unsigned (read (g ++ p ++ c :: t)) = read (p ++ c :: t)) as ->.
  { destruct G as [-> | ->]; [|reflexivity]. cbn [app]. destruct P as [-> | (z & x & w & -> & Z & _)]; cbn [app read map unsigned].
    - now rewrite (proj2 (N.eqb_neq _ _) D3).
    - apply zero_ascii in Z. now rewrite Z. }
  destruct P as [-> | (z & x & w & -> & Z & HX & W)].
  - replace (hex_prefix (read ([] ++ c :: t))) with (read (c :: t)); [exact Q|].
    destruct t as [|x t]; [reflexivity|]. cbn [app read map hex_prefix]. destruct X as [X1 X2].
    rewrite (proj2 (N.eqb_neq _ _) X1), (proj2 (N.eqb_neq _ _) X2). cbn [orb]. now rewrite andb_false_r.
  - replace (hex_prefix (read ((z :: x :: w) ++ c :: t))) with (read (c :: t)); [exact Q|]. apply zero_ascii in Z.
    cbn [app read map hex_prefix]. rewrite Z. replace (to_ascii x) with x by (destruct HX as [-> | ->]; reflexivity).
    replace ((48 =? 48) && ((x =? 120) || (x =? 88)))%N with true by (destruct HX as [-> | ->]; reflexivity).
    destruct W as [-> | ->]; cbn [app map].
    + destruct (hexa_dark c d Dc) as (_ & _ & _ & _ & D4). now rewrite (proj2 (N.eqb_neq _ _) D4).
    + reflexivity.
Qed.
Lemma hex_int_text s n : hex_int s = Some n -> hex_text s n.
Proof.
  rewrite hex_int_eq. destruct (trim_split (read s)) as (a & b & E & A & B). unfold read in E.
  apply map_split in E as (a' & s1 & -> & Ea & E1). apply map_split in E1 as (m & b' & -> & Em & Eb). unfold read. rewrite <- Em.
  subst a b. apply blanks in A. apply blanks in B. clear Em. intros H.
  assert (exists g m', m = g ++ m' /\ (g = [] \/ g = [43%N]) /\ unsigned (map to_ascii m) = map to_ascii m') as (g & m' & -> & G & Q).
  { destruct m as [|c t]; [exists [], []; auto|]. cbn [map unsigned]. destruct (N.eqb_spec (to_ascii c) 43) as [Q|Q].
    - apply (ascii_same c 43) in Q; try reflexivity; try discriminate. subst c. exists [43%N], t. auto.
    - exists [], (c :: t). auto. }
  rewrite Q in H. clear Q.
  assert (exists p u, m' = p ++ u /\ (p = [] \/ ox p) /\ hex_prefix (map to_ascii m') = map to_ascii u) as (p & u & -> & P & Q).
  { assert (exists p u, m' = p ++ u /\ (p = [] \/ ox p) /\ map to_ascii m' = map to_ascii u) as K by (exists [], m'; auto).
    destruct m' as [|z [|x t]]; [exact K|exact K|]. cbn [map hex_prefix].
    destruct ((to_ascii z =? 48) && ((to_ascii x =? 120) || (to_ascii x =? 88)))%N eqn:Q; [|exact K]. clear K.
    apply andb_prop in Q as [Q1 Q2]. apply N.eqb_eq, zero_ascii in Q1.
    assert (x = 120%N \/ x = 88%N) as X.
    { apply orb_prop in Q2 as [Q2|Q2]; apply N.eqb_eq in Q2; [left; apply (proj1 (ascii_same x 120 eq_refl eq_refl eq_refl ltac:(discriminate)) Q2)|right; apply (proj1 (ascii_same x 88 eq_refl eq_refl eq_refl ltac:(discriminate)) Q2)]. }
    destruct t as [|w t]; [exists [z; x], []; split; [reflexivity|]; split; [right; exists z, x, []; auto|reflexivity]|]. cbn [map].
    destruct (N.eqb_spec (to_ascii w) 95) as [Q|Q].
    - apply (ascii_same w 95) in Q; try reflexivity; try discriminate. subst w. exists [z; x; 95%N], t. split; [reflexivity|].
      split; [right; exists z, x, [95%N]; auto|reflexivity].
    - exists [z; x], (w :: t). split; [reflexivity|]. split; [right; exists z, x, []; auto|reflexivity]. }
  rewrite Q in H. apply hparse_numeral in H. exists a', g, p, u, b'. rewrite <- !app_assoc. auto 10.
Qed.
Lemma hex_int_iff s n : hex_int s = Some n <-> hex_text s n.
Proof. split; [apply hex_int_text|apply hex_text_int]. Qed.

(** ** GUIDs *)
Lemma begins_iff w : forall s, begins w s = true <-> exists t, s = w ++ t.
Proof.
  induction w as [|c w IH]; intros s; cbn [begins app]; [split; [eauto|reflexivity]|].
  destruct s as [|d s]; [split; [discriminate|intros [t Q]; discriminate]|]. rewrite andb_true_iff, N.eqb_eq, IH. split.
  - intros [-> [t ->]]. eauto.
  - intros [t Q]. injection Q as -> ->. eauto.
Qed.
Lemma without_skip w p : forall k r, length p = k -> without w k (p ++ r) = without w 0 r.
Proof.
  induction p as [|c p IH]; intros k r L; cbn [length] in L; subst k; [reflexivity|]. cbn [app without]. now apply IH.
Qed.
Lemma without_word w r : w <> [] -> without w 0 (w ++ r) = without w 0 r.
Proof.
  destruct w as [|c w]; [congruence|]. intros _. cbn [app without].
  replace (begins (c :: w) (c :: w ++ r)) with true by (symmetry; apply begins_iff; now exists r).
  cbn [length]. rewrite Nat.sub_succ, Nat.sub_0_r. now apply without_skip.
Qed.
Lemma without_gone w : w <> [] -> forall k s, length s <= k -> gone w s (without w 0 s).
Proof.
  intros W. induction k as [|k IH]; intros s L; (destruct s as [|c s]; [apply gone_end|]); cbn [length] in L; [lia|].
  destruct (begins w (c :: s)) eqn:B.
  - apply begins_iff in B as [t E]. rewrite E, without_word by exact W. apply gone_word. apply IH.
    apply (f_equal (@length N)) in E. rewrite app_length in E. cbn [length] in E. destruct w; [congruence|]. cbn [length] in E. lia.
  - cbn [without]. rewrite B. apply gone_char; [|apply IH; lia]. intros t E. assert (begins w (c :: s) = true) by (apply begins_iff; eauto). congruence.
Qed.
Lemma gone_iff w s r : w <> [] -> gone w s r <-> r = without w 0 s.
Proof.
  intros W. split; [|intros ->; now apply (without_gone w W (length s))].
  induction 1 as [|s r _ IH|c s r F _ IH]; [reflexivity|now rewrite without_word|].
  cbn [without]. destruct (begins w (c :: s)) eqn:B; [apply begins_iff in B as [t E]; now destruct (F t)|]. now rewrite IH.
Qed.
Lemma brace_iff c : ((c =? 123) || (c =? 125))%N = true <-> brace c.
Proof. unfold brace. rewrite orb_true_iff, !N.eqb_eq. reflexivity. Qed.
Lemma strip_spec s : exists a, s = a ++ strip_braces s /\ Forall brace a /\ forall c t, strip_braces s = c :: t -> ~ brace c.
Proof.
  induction s as [|c s (a & E & F & H)]; cbn [strip_braces]; [exists []; split; [reflexivity|]; split; [constructor|discriminate]|].
  destruct ((c =? 123) || (c =? 125))%N eqn:B.
  - exists (c :: a). split; [cbn [app]; now f_equal|]. split; [|exact H]. constructor; [now apply brace_iff|exact F].
  - exists []. split; [reflexivity|]. split; [constructor|]. intros c' t Q. injection Q as <- <-. intros K. apply brace_iff in K. congruence.
Qed.
Lemma strip_app a s : Forall brace a -> (forall c t, s = c :: t -> ~ brace c) -> strip_braces (a ++ s) = s.
Proof.
  intros F H. induction F as [|c a B F IH]; cbn [app].
  - destruct s as [|c s]; [reflexivity|]. cbn [strip_braces]. destruct ((c =? 123) || (c =? 125))%N eqn:B; [|reflexivity].
    apply brace_iff in B. now destruct (H c s).
  - cbn [strip_braces]. apply brace_iff in B. now rewrite B.
Qed.
Definition stripped (s : list N) : list N := rev (strip_braces (rev (strip_braces s))).
Lemma inside_iff s m : inside s m <-> m = stripped s.
Proof.
  split.
  - intros (a & b & -> & A & B & H1 & H2). unfold stripped. destruct m as [|c t].
    + cbn [app]. rewrite <- (app_nil_r (a ++ b)), strip_app; [reflexivity|now apply Forall_app|discriminate].
    + rewrite strip_app; [|exact A|intros x y Q; injection Q as <- _; now apply (H1 c t)].
      rewrite rev_app_distr, strip_app; [symmetry; apply rev_involutive|now apply Forall_rev|].
      intros x y Q. apply (H2 (rev y) x). rewrite <- (rev_involutive (c :: t)), Q. reflexivity.
  - intros ->. destruct (strip_spec s) as (a & E & A & H1). destruct (strip_spec (rev (strip_braces s))) as (b & E' & B & H2).
    assert (strip_braces s = stripped s ++ rev b) as K.
    { unfold stripped. rewrite <- (rev_involutive (strip_braces s)) at 1. rewrite E' at 1. now rewrite rev_app_distr. }
    exists a, (rev b). split; [rewrite <- K; exact E|]. split; [exact A|]. split; [now apply Forall_rev|]. split.
    + intros c t Q. rewrite Q in K. cbn [app] in K. now apply (H1 c (t ++ rev b)).
    + intros t c Q. apply (H2 c (rev t)). unfold stripped in Q. rewrite <- (rev_involutive (strip_braces (rev (strip_braces s)))), Q, rev_app_distr. reflexivity.
Qed.
Lemma guid_iff s n : read_guid s = Ok n <-> guid_text s n.
Proof.
  unfold read_guid. cbv zeta.
  change (rev (strip_braces (rev (strip_braces (without [117; 117; 105; 100; 58]%N 0 (without [117; 114; 110; 58]%N 0 s))))))
    with (stripped (without [117; 117; 105; 100; 58]%N 0 (without [117; 114; 110; 58]%N 0 s))).
  split.
  - intros H. eexists _, _, _, _. split; [apply gone_iff; [discriminate|reflexivity]|]. split; [apply gone_iff; [discriminate|reflexivity]|].
    split; [apply inside_iff; reflexivity|]. split; [reflexivity|].
    destruct (Nat.eqb_spec (length (filter (fun c => negb (c =? 45)%N) (stripped (without [117; 117; 105; 100; 58]%N 0 (without [117; 114; 110; 58]%N 0 s))))) 32) as [L|L]; [|discriminate].
    split; [exact L|]. destruct (hex_int _) as [x|] eqn:X; [|discriminate]. injection H as <-. now apply hex_int_iff.
  - intros (s1 & s2 & m & h & G1 & G2 & I & E & L & H). apply gone_iff in G1; [|discriminate]. apply gone_iff in G2; [|discriminate].
    apply inside_iff in I. subst s1 s2 m h. apply hex_int_iff in H. rewrite L, H. reflexivity.
Qed.
Lemma guid_err s e : read_guid s = Err e -> e = ValueError.
Proof. unfold read_guid. cbv zeta. destruct (Nat.eqb _ 32); [|congruence]. destruct (hex_int _); congruence. Qed.
Lemma plain_hex_chars s n : plain_hex s n -> Forall (fun c => 48 <= c <= 57 \/ 65 <= c <= 70 \/ 97 <= c <= 102)%N s.
Proof. induction 1 as [|s n c d _ IH H]; [apply Forall_nil|]. apply Forall_app. split; [exact IH|]. apply Forall_cons; [lia|apply Forall_nil]. Qed.
Lemma plain_hex_numeral s n : plain_hex s n -> s <> [] -> hex_numeral s n.
Proof.
  induction 1 as [|s n c d P IH H]; intros N0; [congruence|].
  assert (hexa c d) as X by (destruct H as [[L ->]|H]; [left; now apply digit_ascii|right; exact H]).
  destruct s as [|x s].
  - inversion P as [Q|s' n' c' d' ? ? Q]; subst; [|exfalso; eapply app_cons_not_nil; symmetry; exact Q]. now apply hex_one.
  - apply hex_next; [|exact X]. apply IH. discriminate.
Qed.
Lemma filter_all {A} (f : A -> bool) l : Forall (fun x => f x = true) l -> filter f l = l.
Proof. induction 1 as [|x l H _ IH]; [reflexivity|]. cbn [filter]. now rewrite H, IH. Qed.
Lemma strip_keeps s c t : s = c :: t -> ~ brace c -> strip_braces s = s.
Proof. intros E H. apply (strip_app [] s); [constructor|]. intros x y Q. rewrite E in Q. injection Q as <- _. exact H. Qed.
Lemma net_guid_read s n : net_guid s n -> read_guid s = Ok n.
Proof.
  intros (a & b & c & d & e & -> & La & Lb & Lc & Ld & Le & P). apply guid_iff.
  set (s := a ++ [45%N] ++ b ++ [45%N] ++ c ++ [45%N] ++ d ++ [45%N] ++ e).
  pose proof (plain_hex_chars _ _ P) as F. set (hexy := fun x => (48 <= x <= 57 \/ 65 <= x <= 70 \/ 97 <= x <= 102)%N) in F.
  pose proof F as F'. apply Forall_app in F as [Fa F]. apply Forall_app in F as [Fb F]. apply Forall_app in F as [Fc F]. apply Forall_app in F as [Fd Fe].
  assert (Forall (fun x => hexy x \/ x = 45%N) s) as Fs.
  { assert (forall l, Forall hexy l -> Forall (fun x => hexy x \/ x = 45%N) l) as W by (intros l H; eapply Forall_impl; [|exact H]; auto).
    assert (forall l, Forall (fun x => hexy x \/ x = 45%N) l -> Forall (fun x => hexy x \/ x = 45%N) ([45%N] ++ l)) as V.
    { intros l H. cbn [app]. apply Forall_cons; [now right|exact H]. }
    unfold s. apply Forall_app. split; [auto|]. apply V, Forall_app. split; [auto|]. apply V, Forall_app. split; [auto|].
    apply V, Forall_app. split; [auto|]. apply V. auto. }
  assert (forall w, In 58%N w -> without w 0 s = s) as W.
  { intros w I. apply (Proofs_Text.without_none w 58%N); [exact I|]. intros J. rewrite Forall_forall in Fs. apply Fs in J. unfold hexy in J. lia. }
  exists s, s, s, (a ++ b ++ c ++ d ++ e).
  split; [apply gone_iff; [discriminate|]; symmetry; apply W; cbn; tauto|].
  split; [apply gone_iff; [discriminate|]; symmetry; apply W; cbn; tauto|].
  split.
  { apply inside_iff. unfold stripped.
    assert (forall x, In x s -> ~ brace x) as NB.
    { intros x I. rewrite Forall_forall in Fs. apply Fs in I. unfold hexy in I. unfold brace. lia. }
    assert (forall l, (forall x, In x l -> In x s) -> strip_braces l = l) as K.
    { intros l H. destruct l as [|x l]; [reflexivity|]. eapply strip_keeps; [reflexivity|]. apply NB, H. now left. }
    rewrite (K s) by auto. rewrite (K (rev s)) by (intros x I; now apply in_rev). symmetry. apply rev_involutive. }
  assert (forall l, Forall hexy l -> filter (fun x => negb (x =? 45)%N) l = l) as K.
  { intros l H. apply filter_all. eapply Forall_impl; [|exact H]. intros x. unfold hexy. lia. }
  split; [unfold s; rewrite !filter_app, (K a), (K b), (K c), (K d), (K e) by assumption; reflexivity|].
  split; [rewrite !app_length; lia|].
  exists [], [], [], (a ++ b ++ c ++ d ++ e), []. rewrite app_nil_r. split; [reflexivity|]. split; [constructor|]. split; [constructor|].
  split; [now left|]. split; [now left|]. apply plain_hex_numeral; [exact P|]. destruct a; [discriminate La|discriminate].
Qed.

(** ** Booleans *)
Lemma bool_iff s : read_bool s = true <-> true_text s.
Proof.
  unfold read_bool, true_text, lower. split.
  - intros H. destruct s as [|t [|r [|u [|e [|x s]]]]]; cbn [map list_eqb] in H; try discriminate H;
      try (repeat (apply andb_prop in H as [? H]); discriminate).
    repeat (apply andb_prop in H as [? H]). exists t, r, u, e. split; [reflexivity|]. cbn [In].
    repeat match goal with Q : ((if ?b then _ else _) =? _)%N = true |- _ => destruct b eqn:?; apply N.eqb_eq in Q end; lia.
  - intros (t & r & u & e & -> & T & R & U & E). cbn [In] in *.
    destruct T as [<-|[<-|[]]]; destruct R as [<-|[<-|[]]]; destruct U as [<-|[<-|[]]]; destruct E as [<-|[<-|[]]]; reflexivity.
Qed.
