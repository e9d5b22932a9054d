(** C71: which texts are integers. *)
From Verif Require Import Base BaseFacts Model_Scalars Spec_Scalars Spec_Numeral Proofs_Scalars Proofs_Numeral.

(** An integer element, or a text given to the constructor of an integer type, is taken exactly when it is a numeral in
    Python's sense and the number fits the type; that number is the result. *)
Theorem C71_reads : forall t s z, read_int t s = Ok z <-> int_text s z /\ fits t z.
Proof.
  intros t s z. rewrite <- parse_int_iff. unfold read_int, new_int. destruct (parse_int s) as [x|e]; cbn [bind].
  - change (if ((x <? min_value t) || (x >? max_value t))%Z then Err ValueError else Ok x) with (new_int t (AInt x)). split.
    + intros H. apply new_int_inv in H as [-> H]. auto.
    + intros [E F]. injection E as ->. now apply new_int_ok.
  - split; [discriminate|intros [E _]; discriminate].
Qed.
Print Assumptions C71_reads.
(** Every other text raises ValueError. *)
Theorem C71_refused : forall t s, (forall z, int_text s z -> ~ fits t z) -> read_int t s = Err ValueError.
Proof.
  intros t s H. destruct (read_int t s) as [z|e] eqn:E.
  - apply C71_reads in E as [A B]. now destruct (H z A).
  - unfold read_int, new_int, parse_int in E.
    assert (forall k u n e, length u <= k -> grouped n u = Err e -> e = ValueError) as G.
    { induction k as [|k IH]; intros u n e' L Q; (destruct u as [|c u]; [discriminate|]); cbn [length] in L; [lia|]. cbn [grouped] in Q.
      destruct (is_digit c); [eapply IH; [|exact Q]; lia|]. destruct (c =? 95)%N; [|congruence]. destruct u as [|d u]; [congruence|].
      destruct (is_digit d); [|congruence]. cbn [length] in L. eapply IH; [|exact Q]. lia. }
    assert (forall u e, parse_nat u = Err e -> e = ValueError) as P.
    { intros u e' Q. unfold parse_nat in Q. destruct u as [|c u]; [congruence|]. destruct (is_digit c); [|congruence]. eapply G; [apply le_n|exact Q]. }
    destruct (rev (skip_spaces (rev (skip_spaces (map to_ascii s))))) as [|c u]; [cbn in E; congruence|].
    destruct (c =? 45)%N; [|destruct (c =? 43)%N].
    1, 2: destruct (parse_nat u) as [n|e'] eqn:Q; cbn [bind] in E; [destruct (_ || _)%bool in E; congruence|apply P in Q; congruence].
    destruct (parse_nat (c :: u)) as [n|e'] eqn:Q; cbn [bind] in E; [destruct (_ || _)%bool in E; congruence|apply P in Q; congruence].
Qed.
Print Assumptions C71_refused.
(** A text is at most one number. *)
Theorem C71_one : forall s z z', int_text s z -> int_text s z' -> z = z'.
Proof. intros s z z' A B. apply parse_int_iff in A, B. congruence. Qed.
Print Assumptions C71_one.
(** A character element holds the number of the character in the same way. *)
Theorem C71_char : forall s c, read_char s = Ok c <-> int_text s (Z.of_N c) /\ (c <= 65535)%N.
Proof.
  intros s c. rewrite <- parse_int_iff. unfold read_char, new_char. destruct (parse_int s) as [x|e]; cbn [bind].
  - destruct ((x <? 0) || (x >? 65535))%Z eqn:B; split; try discriminate.
    + intros [E L]. injection E as ->. lia.
    + intros E. injection E as <-. split; [f_equal; lia|lia].
    + intros [E L]. injection E as ->. f_equal. lia.
  - split; [discriminate|intros [E _]; discriminate].
Qed.
Print Assumptions C71_char.
(** Every text that XML Schema takes for an integer of the type is read as that integer, whatever its sign, leading zeros
    and white space. *)
Theorem C71_schema : forall t s z, xs_integer s z -> fits t z -> read_int t s = Ok z.
Proof. intros t s z A B. apply C71_reads. split; [now apply xs_is|exact B]. Qed.
Print Assumptions C71_schema.
(** But others are read too: underscores, and digits of any script, here fullwidth ones next to Arabic ones. *)
Lemma xs_chars s z : xs_integer s z -> Forall (fun c => In c [9; 10; 13; 32; 43; 45] \/ 48 <= c <= 57)%N s.
Proof.
  intros (a & g & u & b & n & -> & A & B & U & Z).
  assert (forall l, Forall xml_blank l -> Forall (fun c => In c [9; 10; 13; 32; 43; 45] \/ 48 <= c <= 57)%N l) as W.
  { intros l H. eapply Forall_impl; [|exact H]. intros c I. unfold xml_blank in I. cbn [In] in *. tauto. }
  apply Forall_app. split; [auto|]. apply Forall_app. split; [destruct Z as [[[-> | ->] _]|[-> _]]; repeat constructor; cbn; tauto|].
  apply Forall_app. split; [|auto]. clear Z. induction U as [c d L ->|s n c d P IH L ->]; [|apply Forall_app; split; [exact IH|]]; (apply Forall_cons; [right; lia|apply Forall_nil]).
Qed.
Theorem C71_schema_refuted : exists s z s' z', read_int TInt32 s = Ok z /\ (forall x, ~ xs_integer s x)
  /\ read_int TInt32 s' = Ok z' /\ (forall x, ~ xs_integer s' x) /\ s = [49; 95; 48]%N /\ z = 10%Z /\ s' = [0xFF11; 0x660]%N /\ z' = 10%Z.
Proof.
  exists [49; 95; 48]%N, 10%Z, [0xFF11; 0x660]%N, 10%Z. split; [vm_compute; reflexivity|]. split.
  { intros x H. apply xs_chars in H. inversion H as [|? ? _ H1]; subst. inversion H1 as [|? ? Q _]; subst. cbn [In] in Q. lia. }
  split; [vm_compute; reflexivity|]. split; [|auto].
  intros x H. apply xs_chars in H. inversion H as [|? ? Q _]; subst. cbn [In] in Q. lia.
Qed.
Print Assumptions C71_schema_refuted.
Example C71_example : int_text [32; 0x3000; 45; 48; 95; 49; 0x667; 10]%N (-17) /\ fits TSByte (-17)
  /\ read_int TSByte [32; 0x3000; 45; 48; 95; 49; 0x667; 10]%N = Ok (-17)%Z
  /\ read_int TByte [32; 0x3000; 45; 48; 95; 49; 0x667; 10]%N = Err ValueError
  /\ xs_integer [9; 43; 48; 48; 55]%N 7 /\ read_int TByte [9; 43; 48; 48; 55]%N = Ok 7%Z
  /\ read_int TInt32 [49; 95; 95; 48]%N = Err ValueError /\ read_int TInt32 [28; 49]%N = Err ValueError.
Proof.
  split; [apply parse_int_iff; vm_compute; reflexivity|]. split; [unfold fits; cbn; lia|]. split; [vm_compute; reflexivity|]. split; [vm_compute; reflexivity|].
  split; [|split; [vm_compute; reflexivity|split; vm_compute; reflexivity]].
  exists [9]%N, [43]%N, [48; 48; 55]%N, [], 7%N. split; [reflexivity|]. split; [repeat constructor; cbn; tauto|]. split; [constructor|].
  split; [|left; auto].
  change 7%N with (10 * 0 + 7)%N. change [48; 48; 55]%N with ([48; 48] ++ [55])%N. apply plain_next; [|lia|reflexivity].
  change 0%N with (10 * 0 + 0)%N. change [48; 48]%N with ([48] ++ [48])%N. apply plain_next; [|lia|reflexivity]. apply plain_one; [lia|reflexivity].
Qed.
