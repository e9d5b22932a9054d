(** CLIXML shells and outputs. *)
From Coq Require Import String.
From Verif Require Import Base BaseFacts Model_Scalars Model_Strings Model_Text Model_Crypto Model_Object Model_Clixml Model_Xml Model_Shell.
From Verif Require Import Spec_Strings Spec_Scalars Spec_Clixml Spec_Xml Spec_Shell Proofs_Crypto Proofs_Clixml1 Proofs_Clixml3 Proofs_Clixml5 Proofs_Clixml7 Proofs_Xml3.
Local Open Scope list_scope.
Local Open Scope nat_scope.

(** ** The shell *)
Lemma step_write fuel w c r w1 : c <> Send -> shell_step fuel w c = (r, w1) ->
  (exists e, r = Err e) \/ (r = Ok [] /\ sh_items w1 = sh_items w ++ written c /\ sh_marked w1 = sh_marked w).
Proof.
  intros Hc E. destruct c; cbn [shell_step] in E; try (injection E as <- <-; right; auto; fail).
  - destruct (new_int TInt64 (AInt id)); injection E as <- <-; [right; auto|left; eauto].
  - congruence.
Qed.
Definition rest (marked : bool) (docs : list (list N)) : list N := if marked then flat_map (fun d => 10%N :: d) docs else framed docs.
Lemma run_frames fuel cs : forall w texts w2, shell_run fuel w cs = (map Ok texts, w2) ->
  (sh_marked w = true \/ match batches (sh_items w) cs with [] => True | b :: _ => b <> [] end) ->
  exists docs, Forall2 (document fuel) (filter nonempty (batches (sh_items w) cs)) docs /\ concat texts = rest (sh_marked w) docs.
Proof.
  induction cs as [|c cs IH]; intros w texts w2 E Hm; cbn [shell_run] in E.
  - destruct texts; [|discriminate]. exists []. split; [constructor|]. destruct (sh_marked w); reflexivity.
  - destruct (shell_step fuel w c) as [r w1] eqn:E1. destruct (shell_run fuel w1 cs) as [rs w3] eqn:E2. apply pair_equal_spec in E. destruct E as [E <-].
    destruct texts as [|t texts]; [discriminate|]. cbn [map] in E. injection E as -> ->.
    assert (c = Send \/ c <> Send) as [->|Hc] by (destruct c; auto; right; discriminate).
    + cbn [shell_step] in E1. unfold data_to_send in E1. cbn [batches]. destruct (sh_items w) as [|i l] eqn:Hi.
      * injection E1 as <- <-. destruct (IH _ _ _ E2) as (docs & A & B); [left; reflexivity|]. cbn [sh_items sh_marked batches] in *. destruct Hm as [Hm|Hm]; [|congruence].
        exists docs. cbn [filter nonempty concat app]. rewrite Hm. auto.
      * destruct (serialize_clixml fuel (sh_heap w) (map (fun i => (fst i, Some (snd i))) (i :: l))) as [[s st]|e] eqn:Es; [|discriminate].
        apply pair_equal_spec in E1. destruct E1 as [E1 <-]. injection E1 as <-. destruct (IH _ _ _ E2) as (docs & A & B); [left; reflexivity|]. cbn [sh_items sh_marked] in *.
        exists (s :: docs). cbn [filter nonempty]. split; [constructor; [exists (sh_heap w), st; exact Es|exact A]|].
        cbn [concat]. rewrite B. unfold rest. destruct (sh_marked w); cbn [framed flat_map]; [reflexivity|]. unfold marker. now rewrite <- !app_assoc.
    + destruct (step_write _ _ _ _ _ Hc E1) as [(e & F)|(F & Hi & Hk)]; [discriminate|]. injection F as ->.
      assert (batches (sh_items w) (c :: cs) = batches (sh_items w1) cs) as EB by (rewrite Hi; destruct c; reflexivity || congruence).
      rewrite EB in *. rewrite <- Hk in *. destruct (IH _ _ _ E2 Hm) as (docs & A & B). exists docs. auto.
Qed.

(** ** Outputs *)
Section Outputs.
  Variable is_error : heap -> value -> bool.
  Definition err_entry (h : heap) (v : value) : entry := if is_error h v then Kept h v else ErrorText h v.
  Record added (h : heap) (out : outputs) (l : list (value * stream)) (rs : list value) (out2 : outputs) : Prop := {
    ad_output : o_output out2 = o_output out ++ map (Kept h) (select SOutput l);
    ad_error : o_error out2 = o_error out ++ map (err_entry h) (select SError l);
    ad_debug : o_debug out2 = o_debug out ++ map (Message h) (select SDebug l);
    ad_verbose : o_verbose out2 = o_verbose out ++ map (Message h) (select SVerbose l);
    ad_warning : o_warning out2 = o_warning out ++ map (Message h) (select SWarning l);
    ad_records : Forall2 (fun v r => get_record h v = Ok r) (select SProgress l) rs;
    ad_progress : o_progress out2 = o_progress out ++ map (Kept h) rs;
    ad_information : o_information out2 = o_information out ++ map (Kept h) (select SInformation l) }.
  Lemma add_outputs_spec h l : forall out out2, add_outputs is_error h out l = Ok out2 -> exists rs, added h out l rs out2.
  Proof.
    induction l as [|[v s] l IH]; intros out out2 E; cbn [add_outputs] in E.
    - injection E as <-. exists []. constructor; cbn [select map]; rewrite ?app_nil_r; reflexivity || constructor.
    - apply bind_Ok in E. destruct E as (out1 & E1 & E). destruct (IH _ _ E) as (rs & [A1 A2 A3 A4 A5 A6 A7 A8]).
      destruct out as [o e d vb w p inf]. unfold add_output in E1. cbn [fst snd] in E1.
      destruct s; try (injection E1 as <-; exists rs; constructor; cbn [select map o_output o_error o_debug o_verbose o_warning o_progress o_information] in *;
        rewrite <- ?app_assoc in *; cbn [app] in *; assumption).
      apply bind_Ok in E1. destruct E1 as (r & Er & E1). injection E1 as <-. exists (r :: rs).
      constructor; cbn [select map o_output o_error o_debug o_verbose o_warning o_progress o_information] in *; rewrite <- ?app_assoc in *; cbn [app] in *; try assumption.
      now constructor.
  Qed.
  Lemma add_outputs_ok h l : Forall (fun v => exists r, get_record h v = Ok r) (select SProgress l) -> forall out, exists out2, add_outputs is_error h out l = Ok out2.
  Proof.
    induction l as [|[v s] l IH]; intros H out; cbn [add_outputs]; [eauto|]. destruct out as [o e d vb w p inf]. unfold add_output. cbn [fst snd].
    destruct s; cbn [select] in H; try (cbn [bind]; apply IH; exact H). inversion H as [|? ? (r & Hr) H2]; subst. rewrite Hr. cbn [bind]. now apply IH.
  Qed.
  (** Per stream, over all documents. *)
  Definition reading (reg : registry) (t : list N) (r : list (value * stream) * dst) : Prop := deserialize_clixml reg t = Ok r.
  Definition col (f : heap -> value -> entry) (s : stream) (rs : list (list (value * stream) * dst)) : list entry :=
    flat_map (fun r => map (f (d_heap (snd r))) (select s (fst r))) rs.
  Lemma from_texts_spec reg texts : forall out out2, from_texts is_error reg out texts = Ok out2 ->
    exists rs, Forall2 (reading reg) (filter nonempty texts) rs
      /\ o_output out2 = o_output out ++ col Kept SOutput rs /\ o_error out2 = o_error out ++ col err_entry SError rs
      /\ o_debug out2 = o_debug out ++ col Message SDebug rs /\ o_verbose out2 = o_verbose out ++ col Message SVerbose rs
      /\ o_warning out2 = o_warning out ++ col Message SWarning rs /\ o_information out2 = o_information out ++ col Kept SInformation rs
      /\ exists ps, Forall2 (fun p e => exists r, get_record (fst p) (snd p) = Ok r /\ e = Kept (fst p) r)
                      (flat_map (fun r => map (pair (d_heap (snd r))) (select SProgress (fst r))) rs) ps
                    /\ o_progress out2 = o_progress out ++ ps.
  Proof.
    induction texts as [|t texts IH]; intros out out2 E; cbn [from_texts] in E.
    - injection E as <-. exists []. unfold col. cbn [filter flat_map]. rewrite !app_nil_r. repeat (split; [constructor || reflexivity|]). exists []. rewrite app_nil_r. split; [constructor|reflexivity].
    - destruct t as [|c t]; [cbn [filter nonempty]; now apply IH|].
      apply bind_Ok in E. destruct E as (r & Er & E). apply bind_Ok in E. destruct E as (out1 & E1 & E).
      destruct (add_outputs_spec _ _ _ _ E1) as (ps1 & [A1 A2 A3 A4 A5 A6 A7 A8]).
      destruct (IH _ _ E) as (rs & HF & B1 & B2 & B3 & B4 & B5 & B6 & ps & HP & B7).
      exists (r :: rs). cbn [filter nonempty]. unfold col in *. cbn [flat_map].
      rewrite B1, B2, B3, B4, B5, B6, A1, A2, A3, A4, A5, A8, <- !app_assoc. split; [now constructor|]. repeat (split; [reflexivity|]).
      exists (map (Kept (d_heap (snd r))) ps1 ++ ps). rewrite B7, A7, <- !app_assoc. split; [|reflexivity]. apply Forall2_app; [|exact HP].
      clear - A6. induction A6; cbn [map]; constructor; [exists y; auto|assumption].
  Qed.
End Outputs.

(** ** Reading back what a shell sends *)
Lemma last_prop_in n l v : NoDup (map fst l) -> In (n, v) l -> last_prop n l = Some v.
Proof.
  induction l as [|[m w] l IH]; intros Hd Hi; [contradiction|]. cbn [map fst] in Hd. inversion Hd as [|? ? Hn Hd']; subst. cbn [last_prop]. destruct Hi as [E|Hi].
  - injection E as -> ->. rewrite name_eqb_refl. assert (last_prop n l = None) as ->; [|reflexivity].
    clear - Hn. induction l as [|[m w] l IH]; [reflexivity|]. cbn [last_prop map fst In] in *. rewrite IH by tauto. rewrite name_eqb_neq; [reflexivity|tauto].
  - now rewrite (IH Hd' Hi).
Qed.
Lemma last_prop_app n l m : ~ In n (map fst l) -> last_prop n (l ++ m) = last_prop n m.
Proof.
  induction l as [|[k w] l IH]; intros H; [reflexivity|]. cbn [app last_prop map fst In] in *. rewrite IH by tauto. rewrite name_eqb_neq by tauto. now destruct (last_prop n m).
Qed.
Lemma same_props_fst R l m : same_props R l m -> map fst l = map fst m.
Proof. induction 1 as [|x y l m [H _] _ IH]; [reflexivity|]. cbn [map]. now rewrite H, IH. Qed.
Lemma same_props_in R l m n v : same_props R l m -> In (n, v) l -> exists v', In (n, v') m /\ same_value R v v'.
Proof.
  induction 1 as [|x [n' v'] l m [H1 H2] _ IH]; intros Hi; [contradiction|]. destruct Hi as [->|Hi].
  - cbn [fst snd] in *. subst n'. exists v'. split; [now left|exact H2].
  - destruct (IH Hi) as (w & Hw & Hs). exists w. split; [now right|exact Hs].
Qed.
Lemma record_back reg R g h v v' r : same_graph reg g h R -> same_value R v v' -> progress_of g v r -> exists r', get_record h v' = Ok r' /\ same_value R r r'.
Proof.
  intros HG HS (a & o & -> & Ha & Hb & Hn & Hd & Hi). inversion HS as [| | | |a1 b Rab]; subst. destruct (HG _ _ Rab) as (o1 & o' & Ha1 & Hb1 & HO).
  rewrite Ha in Ha1. injection Ha1 as <-. unfold same_object in HO. rewrite Hb in HO. destruct HO as (_ & _ & _ & Had & Hex).
  destruct (same_props_in _ _ _ _ _ Hex Hi) as (r' & Hi' & Hs). exists r'. split; [|exact Hs]. unfold get_record. rewrite Hb1.
  rewrite last_prop_app by (rewrite <- (same_props_fst _ _ _ Had); exact Hn). rewrite (last_prop_in _ _ r'); [reflexivity| |exact Hi'].
  now rewrite <- (same_props_fst _ _ _ Hex).
Qed.
Lemma select_same R s (items vs : list (value * stream)) : Forall2 (fun i r => same_value R (fst i) (fst r) /\ snd r = snd i) items vs ->
  Forall2 (same_value R) (select s items) (select s vs).
Proof.
  induction 1 as [|[v t] [v' t'] l m [H1 H2] _ IH]; [constructor|]. cbn [fst snd] in *. subst t'. cbn [select]. destruct s, t; try exact IH; constructor; assumption.
Qed.
Lemma forall2_map_r {A B C} (P : A -> C -> Prop) (f : B -> C) l m : Forall2 (fun a b => P a (f b)) l m -> Forall2 P l (map f m).
Proof. induction 1; cbn [map]; constructor; auto. Qed.
Lemma forall2_impl {A B} (P Q : A -> B -> Prop) l m : (forall a b, P a b -> Q a b) -> Forall2 P l m -> Forall2 Q l m.
Proof. intros H. induction 1; constructor; auto. Qed.
Theorem shell_readback is_error reg lx fuel w text w2 :
  good_graph reg lx (sh_heap w) -> safe_graph (sh_heap w) -> Forall (fun i => good_value reg lx (fst i) /\ safe_value (fst i)) (sh_items w) ->
  Forall (fun v => exists r, progress_of (sh_heap w) v r) (select SProgress (sh_items w)) -> sh_items w <> [] -> data_to_send fuel w = (Ok text, w2) ->
  exists out h R, from_clixml is_error reg [text] = Ok out /\ same_graph reg (sh_heap w) h R
    /\ Forall2 (kept R h) (select SOutput (sh_items w)) (o_output out)
    /\ Forall2 (error_entry is_error R h) (select SError (sh_items w)) (o_error out)
    /\ Forall2 (message R h) (select SDebug (sh_items w)) (o_debug out)
    /\ Forall2 (message R h) (select SVerbose (sh_items w)) (o_verbose out)
    /\ Forall2 (message R h) (select SWarning (sh_items w)) (o_warning out)
    /\ Forall2 (progress_entry R (sh_heap w) h) (select SProgress (sh_items w)) (o_progress out)
    /\ Forall2 (kept R h) (select SInformation (sh_items w)) (o_information out).
Proof.
  intros HG HS Hi Hp Hne E. unfold data_to_send in E.
  assert (exists prefix s st, header prefix /\ serialize_clixml fuel (sh_heap w) (map (fun i => (fst i, Some (snd i))) (sh_items w)) = Ok (s, st) /\ text = prefix ++ s) as (pre & s & st & Hpre & Es & ->).
  { destruct (sh_items w) as [|i l]; [congruence|].
    destruct (serialize_clixml fuel (sh_heap w) (map (fun i => (fst i, Some (snd i))) (i :: l))) as [[s st]|e]; [|discriminate].
    apply pair_equal_spec in E. destruct E as [E _]. injection E as <-. eexists _, s, st. split; [|split; reflexivity].
    exists [10%N]. split; [constructor; [now right|constructor]|]. destruct (sh_marked w); [left|right]; reflexivity. }
  set (items := map (fun i => (fst i, Some (snd i))) (sh_items w)) in *.
  destruct (clixml_roundtrip reg lx (sh_heap w) items fuel s st pre) as (vs & d & R & A & B & C); auto.
  { unfold items. destruct (sh_items w); [congruence|discriminate]. }
  { unfold items. apply Forall_map. exact Hi. }
  assert (Forall2 (fun i r => same_value R (fst i) (fst r) /\ snd r = snd i) (sh_items w) vs) as B'.
  { clear - B. unfold items in B. remember (sh_items w) as l. clear Heql w. revert vs B. induction l as [|[v t] l IH]; intros vs B; cbn [map] in B; inversion B; subst; constructor; auto. }
  assert (Forall2 (fun v v' => exists r r', progress_of (sh_heap w) v r /\ get_record (d_heap d) v' = Ok r' /\ same_value R r r')
            (select SProgress (sh_items w)) (select SProgress vs)) as HR.
  { pose proof (select_same R SProgress _ _ B') as HSel. clear - HSel Hp C. induction HSel as [|v v' l m Hv _ IH]; [constructor|]. inversion Hp as [|? ? (r & Hr) Hp']; subst.
    constructor; [|auto]. destruct (record_back _ _ _ _ _ _ _ C Hv Hr) as (r' & G1 & G2). exists r, r'. auto. }
  destruct (add_outputs_ok is_error (d_heap d) vs) with (out := no_output) as (out & Eo).
  { clear - HR. induction HR as [|v v' l m (r & r' & _ & H & _) _ IH]; constructor; eauto. }
  destruct (add_outputs_spec _ _ _ _ _ Eo) as (rs & [A1 A2 A3 A4 A5 A6 A7 A8]). cbn [no_output o_output o_error o_debug o_verbose o_warning o_progress o_information app] in *.
  exists out, (d_heap d), R. split.
  { unfold from_clixml. cbn [from_texts]. destruct (pre ++ s) as [|c t] eqn:Ep.
    - exfalso. apply app_eq_nil in Ep. destruct Ep as [-> ->]. unfold serialize_clixml in Es. apply bind_Ok in Es. destruct Es as (x & _ & Es). discriminate.
    - rewrite <- Ep in *. rewrite A. cbn [bind fst snd]. rewrite Eo. reflexivity. }
  split; [exact C|]. rewrite A1, A2, A3, A4, A5, A7, A8.
  repeat split; apply forall2_map_r.
  - eapply forall2_impl; [|apply select_same; exact B']. intros v v' H. exists v'. auto.
  - eapply forall2_impl; [|apply select_same; exact B']. intros v v' H. exists v'. auto.
  - eapply forall2_impl; [|apply select_same; exact B']. intros v v' H. exists v'. auto.
  - eapply forall2_impl; [|apply select_same; exact B']. intros v v' H. exists v'. auto.
  - eapply forall2_impl; [|apply select_same; exact B']. intros v v' H. exists v'. auto.
  - clear - HR A6. revert rs A6. induction HR as [|v v' l m (r & r' & H1 & H2 & H3) _ IH]; intros rs A6; inversion A6; subst; constructor; [|auto].
    exists r, r'. split; [exact H1|]. split; [exact H3|]. congruence.
  - eapply forall2_impl; [|apply select_same; exact B']. intros v v' H. exists v'. auto.
Qed.

(** ** The local crypto provider *)
Lemma upper_hexdig d : (d < 16)%N -> upper_hex (hexdig d) = Some d.
Proof.
  intros H. unfold hexdig, upper_hex. destruct (N.ltb_spec d 10).
  - replace ((48 <=? 48 + d)%N && (48 + d <=? 57)%N) with true by (symmetry; apply andb_true_iff; rewrite !N.leb_le; lia). f_equal. lia.
  - replace ((48 <=? 55 + d)%N && (55 + d <=? 57)%N) with false by (symmetry; apply andb_false_iff; rewrite !N.leb_gt; lia).
    replace ((65 <=? 55 + d)%N && (55 + d <=? 70)%N) with true by (symmetry; apply andb_true_iff; rewrite !N.leb_le; lia). f_equal. lia.
Qed.
Lemma b16_roundtrip l : bytes_ok l -> b16_decode (b16_encode l) = Ok l.
Proof.
  induction 1 as [|b l Hb _ IH]; [reflexivity|]. cbn [b16_encode flat_map app b16_decode].
  assert (b / 16 < 16)%N by (apply N.div_lt_upper_bound; lia). pose proof (N.mod_upper_bound b 16 ltac:(discriminate)).
  rewrite !upper_hexdig by assumption. fold (b16_encode l). rewrite IH. cbn [bind]. do 2 f_equal. pose proof (N.div_mod b 16 ltac:(discriminate)). lia.
Qed.
Lemma hexdig_upper d : (d < 16)%N -> upper [hexdig d] = [hexdig d].
Proof.
  intros H. unfold upper. cbn [map]. replace ((97 <=? hexdig d)%N && (hexdig d <=? 122)%N) with false; [reflexivity|].
  symmetry. apply andb_false_iff. rewrite !N.leb_gt. unfold hexdig. destruct (N.ltb_spec d 10); lia.
Qed.
Lemma upper_b16 l : bytes_ok l -> upper (b16_encode l) = b16_encode l.
Proof.
  induction 1 as [|b l Hb _ IH]; [reflexivity|]. cbn [b16_encode flat_map]. unfold upper. rewrite map_app. fold (upper (flat_map (fun b => [hexdig (b / 16); hexdig (b mod 16)]) l)).
  fold (b16_encode l). rewrite IH. f_equal. change (map ?f [?x; ?y]) with (map f [x] ++ map f [y]).
  assert (b / 16 < 16)%N by (apply N.div_lt_upper_bound; lia). pose proof (N.mod_upper_bound b 16 ltac:(discriminate)).
  pose proof (hexdig_upper (b / 16) H) as E1. pose proof (hexdig_upper (b mod 16) H0) as E2. unfold upper in E1, E2. rewrite E1, E2. reflexivity.
Qed.
Lemma local_roundtrip s : pystr s -> local_decrypt (local_encrypt s) = Ok (join_units (flat_map utf16 s)).
Proof.
  intros H. unfold local_decrypt, local_encrypt. pose proof (utf16le_encode_bytes s H) as Hb. rewrite upper_b16, b16_roundtrip by exact Hb. cbn [bind]. apply utf16le_decode_encode.
Qed.
