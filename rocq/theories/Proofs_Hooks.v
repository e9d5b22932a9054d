(** Hooks in object graphs: what C79 needs. *)
From Coq Require Import String.
From Verif Require Import Base BaseFacts Model_Scalars Model_Strings Model_Text Model_Object Model_Clixml.
From Verif Require Import Spec_Strings Spec_Scalars Spec_Clixml Spec_Hooks.
From Verif Require Import Proofs_Clixml1 Proofs_Clixml2 Proofs_Clixml3 Proofs_Clixml4 Proofs_Clixml5 Proofs_Clixml6 Proofs_Clixml7.
Local Open Scope list_scope.
Local Open Scope nat_scope.

(** ** Cycles without an object that can be referred back to *)
Section Endless.
  Variable h : heap.
  Variable X : N -> Prop.
  Hypothesis HX : forall a, X a -> exists b, leads h a b /\ X b.

  Definition as_before (st : sst) : Prop := bounded st /\ forall a, X a -> aget a (s_heap st) = aget a h.
  Lemma before_step st ms st2 : as_before st -> wstep nowhere st ms st2 -> as_before st2.
  Proof.
    intros [B A] W. split; [exact (w_bounded _ _ _ _ W)|]. intros a Ha. specialize (A a Ha).
    destruct (w_heap _ _ _ _ W a (no_more a)) as [E|(q & n & s & ad & ex & i & E & _)]; [congruence|].
    destruct (HX a Ha) as (b & (o & Ho & NI & _) & _). rewrite Ho in A. rewrite A in E. injection E as ->. destruct NI. exact I.
  Qed.
  Definition tried (f : nat) (v : value) : Prop := exists st r, as_before st /\ ser f st v = Ok r.
  Lemma tried_list f l : forall st xs st2, as_before st -> ser_list (ser f) st l = Ok (xs, st2) -> forall v, In v l -> tried f v.
  Proof.
    induction l as [|w t IH]; intros st xs st2 A E v Hv; [destruct Hv|]. cbn [ser_list] in E. binds E. destruct r as [x1 st1], r0 as [xs1 st3].
    cbn [fst snd] in *. destruct Hv as [<- |Hv]; [exists st, (x1, st1); auto|]. eapply IH; [|exact E1|exact Hv].
    eapply before_step; [exact A|exact (proj2 (writes_all f _ _ _ _ (proj1 A) E0))].
  Qed.
  Lemma tried_props f l : forall st xs st2, as_before st -> ser_props (ser f) st l = Ok (xs, st2) ->
    as_before st2 /\ forall n v, In (n, v) l -> tried f v.
  Proof.
    induction l as [|[m w] t IH]; intros st xs st2 A E.
    - injection E as <- <-. split; [exact A|]. intros n v [].
    - cbn [ser_props] in E. binds E. destruct r as [x1 st1], r0 as [xs1 st3]. cbn [fst snd] in *. apply Ok_pair in E. destruct E as [<- <-].
      pose proof (before_step _ _ _ A (proj2 (writes_all f _ _ _ _ (proj1 A) E0))) as A1. destruct (IH _ _ _ A1 E1) as [A3 T]. split; [exact A3|].
      intros n v [Q|Hv]; [injection Q as <- <-; exists st, (x1, st1); auto|eauto].
  Qed.
  Lemma tried_dict f l : forall st xs st2, as_before st -> ser_dict (ser f) st l = Ok (xs, st2) ->
    forall k v, In (k, v) l -> tried f k /\ tried f v.
  Proof.
    induction l as [|[m w] t IH]; intros st xs st2 A E k v Hv; [destruct Hv|]. cbn [ser_dict] in E. binds E. destruct r as [x1 st1], r0 as [x2 st3], r1 as [xs1 st4].
    cbn [fst snd] in *. pose proof (before_step _ _ _ A (proj2 (writes_all f _ _ _ _ (proj1 A) E0))) as A1.
    pose proof (before_step _ _ _ A1 (proj2 (writes_all f _ _ _ _ (proj1 A1) E1))) as A2.
    destruct Hv as [Q|Hv]; [injection Q as <- <-; split; [exists st, (x1, st1)|exists st1, (x2, st3)]; auto|]. exact (IH _ _ _ A2 E2 k v Hv).
  Qed.
  Lemma tried_object f st id a o r : as_before st -> ~ by_identity o -> ser_object (ser f) st id a o = Ok r -> forall v, mentions o v -> tried f v.
  Proof.
    intros A NI E v Hv. unfold ser_object in E. cbv zeta in E.
    assert (match g_body o with BPy _ _ => ([], []) | _ => (g_adapted o, g_extended o) end = (g_adapted o, g_extended o)) as Hp.
    { destruct (g_body o) eqn:Eb; try reflexivity. destruct NI. unfold by_identity. now rewrite Eb. }
    rewrite Hp in E. cbn [fst snd] in E. match type of E with context [write_names st ?ns] => destruct (write_names st ns) as [tn stA] eqn:Ew end.
    assert (as_before stA) as AA.
    { unfold write_names in Ew. match type of Ew with match ?ns with _ => _ end = _ => destruct ns as [|n ns'] end; [injection Ew as _ <-; exact A|].
      destruct (index_of _ _); injection Ew as _ <-; exact A. }
    binds E. destruct r0 as [xa stB], r1 as [xe stC], r2 as [xb stD]. cbn [fst snd] in *.
    destruct (tried_props _ _ _ _ _ AA E0) as [AB TA]. destruct (tried_props _ _ _ _ _ AB E1) as [AC TE].
    unfold ser_body in E2. destruct Hv as [n v Hv|n v Hv|k l v Eb Hv|l v Eb Hv|l k v Eb Hv|l k v Eb Hv|c l n b v Eb Hv].
    - exact (TA n v Hv).
    - exact (TE n v Hv).
    - rewrite Eb in E2. binds E2. destruct r0 as [ys st3]. exact (tried_list f l _ _ _ AC E3 v Hv).
    - destruct NI. unfold by_identity. now rewrite Eb.
    - rewrite Eb in E2. binds E2. destruct r0 as [ys st3]. exact (proj1 (tried_dict f l _ _ _ AC E3 k v Hv)).
    - rewrite Eb in E2. binds E2. destruct r0 as [ys st3]. exact (proj2 (tried_dict f l _ _ _ AC E3 k v Hv)).
    - destruct NI. unfold by_identity. now rewrite Eb.
  Qed.
  Lemma never f : forall a, X a -> ~ tried f (VRef a).
  Proof.
    induction f as [|f IH]; intros a Ha (st & r & A & E); [discriminate E|].
    destruct (HX a Ha) as (b & (o & Ho & NI & M) & Hb). cbn [ser] in E. rewrite (proj2 A a Ha), Ho in E.
    assert (ref_key a (g_body o) = None) as RK.
    { unfold by_identity in NI. destruct (g_body o) as [|[]| | | | |]; cbn [ref_key prim_key] in *; tauto || reflexivity. }
    assert (ser_object (ser f) (mkS (s_refs st) (s_next st + 1) (s_tns st) (s_heap st)) (s_next st) a o = Ok r) as Eo.
    { rewrite RK in E. cbn [get_ref_id] in E. destruct (g_body o) as [|p| | | | |] eqn:Eb; try exact E. destruct (has_props o) eqn:Hp; [exact E|]. exfalso.
      unfold has_props in Hp. destruct (g_adapted o) eqn:Ea, (g_extended o) eqn:Ee; try discriminate Hp.
      destruct M as [n v Hv|n v Hv|k l v F Hv|l v F Hv|l k v F Hv|l k v F Hv|c l n b' v F Hv]; try congruence; [rewrite Ea in Hv|rewrite Ee in Hv]; destruct Hv. }
    apply (IH b Hb). eapply tried_object; [|exact NI|exact Eo|exact M]. destruct A as [B A]. split; [|exact A].
    intros k i Hk. specialize (B k i Hk). cbn [s_next]. lia.
  Qed.
End Endless.
Lemma trail_trans h a b c : trail h a b -> trail h b c -> trail h a c.
Proof. induction 1; intros; eapply TrailMore; eauto. Qed.
Lemma endless_on h a : endless h a -> exists b, leads h a b /\ endless h b.
Proof.
  intros (b & [-> |T] & C).
  - inversion C as [? ? L|? c ? L T]; subst; [exists b; split; [exact L|]; exists b; auto|]. exists c. split; [exact L|]. exists b. split; [now right|exact C].
  - inversion T as [? ? L|? c ? L T']; subst; [exists b; split; [exact L|]; exists b; auto|]. exists c. split; [exact L|]. exists b. split; [now right|exact C].
Qed.
Theorem never_finished h a : endless h a -> forall fuel vs xs st, In (VRef a) vs -> ser_list (ser fuel) (s_init h) vs <> Ok (xs, st).
Proof.
  intros Ha fuel vs xs st Hin E. apply (never h (endless h) (endless_on h) fuel a Ha).
  eapply tried_list; [exact (endless_on h)| |exact E|exact Hin]. split; [apply bounded_init|reflexivity].
Qed.

(** ** Each occurrence is an object of its own *)
Lemma all2_len {A B} (P : A -> B -> Prop) l m : Forall2 P l m -> length l = length m.
Proof. induction 1; cbn; congruence. Qed.
Section Apart.
  Variable reg : registry.
  Variable lx : lexicon.
  Variable h0 : heap.
  Hypothesis HG : good_graph reg lx h0.
  Lemma made_read f st a x st2 d L : hooked h0 a -> ser f st (VRef a) = Ok (x, st2) -> sync reg lx h0 st d L ->
    exists d2 L2, reads reg x d (VRef (d_next d)) d2 /\ (d_next d < d_next d2)%N /\ step reg lx h0 none none st d L st2 d2 L2.
  Proof.
    intros (o & Ho & Eb) E Hy. destruct f as [|f]; [discriminate|]. cbn [ser] in E.
    assert (aget a (s_heap st) = Some o) as Hh.
    { destruct (sy_heap _ _ _ _ _ _ Hy a) as [F|(q & q' & n & s & ad & ex & i & F1 & _)]; [congruence|]. rewrite Ho in F1. injection F1 as ->. discriminate Eb. }
    rewrite Hh, Eb in E. cbn [ref_key get_ref_id] in E.
    pose proof (gg_objects _ _ _ HG a o Ho) as [Hb Hg]. unfold good_body in Hb. rewrite Eb in Hb, Hg. destruct Hg as (Hn & Ha & He & _).
    set (st1 := mkS (s_refs st) (s_next st + 1) (s_tns st) (s_heap st)) in *.
    unfold ser_object in E. rewrite Eb in E. cbv zeta in E. cbn [fst snd] in E.
    destruct (write_names st1 (g_names o)) as [tn stA] eqn:Hw. binds E. destruct r as [xa stB], r0 as [xe stC], r1 as [xb stD].
    cbn [fst snd] in *. unfold ser_body in E2. rewrite Eb in E2. injection E2 as <- <-. injection E as <- <-. cbn [app].
    assert (get_ref_id st (obj_key h0 a) = (s_next st, false, st1)) as Hr.
    { unfold obj_key. rewrite Ho, Eb. reflexivity. }
    destruct (plain_case reg lx h0 f st d L a o (s_next st) st1 (g_names o) (g_string o) (g_adapted o) (g_extended o) tn stA xa stB xe stC)
      as (d2 & L2 & str' & ad' & ex' & Hstr & R & I2 & O2 & Sa & Se & P); auto using simulation;
      [eapply good_full; eassumption|eapply decl_of; [exact Hn|now rewrite Eb]|].
    assert (step reg lx h0 none none st d L stC d2 L2) as P'.
    { apply P. exists o, (mkG BPlain (names_back reg (g_names o)) str' ad' ex'). split; [exact Ho|]. split; [exact O2|].
      unfold same_object. rewrite Eb. cbn [g_body g_string g_names g_adapted g_extended]. auto. }
    exists d2, L2. split; [exact R|]. split; [|exact P']. exact (sy_low _ _ _ _ _ _ (sp_sync _ _ _ _ _ _ _ _ _ _ _ P') a _ I2).
  Qed.
  Lemma list_app f vs ws st xs st2 : ser_list (ser f) st (vs ++ ws) = Ok (xs, st2) ->
    exists x1 st1 x2, ser_list (ser f) st vs = Ok (x1, st1) /\ ser_list (ser f) st1 ws = Ok (x2, st2) /\ xs = x1 ++ x2.
  Proof.
    revert st xs. induction vs as [|v t IH]; intros st xs E; [exists [], st, xs; auto|]. cbn [app ser_list] in *. binds E. destruct r as [y st1], r0 as [ys st3].
    cbn [fst snd] in *. injection E as <- <-. destruct (IH _ _ E1) as (x1 & st4 & x2 & A & B & ->). exists (y :: x1), st4, x2. rewrite E0. cbn [bind fst snd]. rewrite A. cbn [bind fst snd]. auto.
  Qed.
  Lemma read_app d xs ys vs d1 ws d2 : read_values reg d xs = Ok (vs, d1) -> read_values reg d1 ys = Ok (ws, d2) -> read_values reg d (xs ++ ys) = Ok (vs ++ ws, d2).
  Proof.
    revert d vs. induction xs as [|x t IH]; intros d vs E F; cbn [app read_values] in *; [injection E as <- <-; exact F|]. binds E. destruct r as [v d3], r0 as [us d4].
    cbn [fst snd] in *. injection E as <- <-. rewrite E0. cbn [bind fst snd]. rewrite (IH _ _ E1 F). reflexivity.
  Qed.
  Theorem apart f l m r a xs st vs' d : hooked h0 a -> Forall (good_value reg lx) (l ++ VRef a :: m ++ VRef a :: r) ->
    ser_list (ser f) (s_init h0) (l ++ VRef a :: m ++ VRef a :: r) = Ok (xs, st) -> read_values reg d_init xs = Ok (vs', d) ->
    exists l' m' r' b b', vs' = l' ++ VRef b :: m' ++ VRef b' :: r' /\ length l' = length l /\ length m' = length m /\ b <> b'.
  Proof.
    intros Ha Hv E Hr. apply Forall_app in Hv. destruct Hv as [V1 Hv]. inversion Hv as [|? ? _ Hv1]; subst. apply Forall_app in Hv1. destruct Hv1 as [V2 Hv1]. inversion Hv1 as [|? ? _ V3]; subst.
    destruct (list_app _ _ _ _ _ _ E) as (x1 & st1 & x2 & E1 & E' & ->). cbn [ser_list] in E'. binds E'. destruct r0 as [xa sta], r1 as [xb stb]. cbn [fst snd] in *. injection E' as <- <-.
    destruct (list_app _ _ _ _ _ _ E2) as (x3 & st3 & x4 & E3 & E4 & ->). cbn [ser_list] in E4. binds E4. destruct r0 as [xc stc], r1 as [xd std]. cbn [fst snd] in *. injection E4 as <- <-.
    destruct (read_all reg lx h0 HG f l V1 _ _ _ _ _ E1 (sync_init reg lx h0)) as (l' & d1 & L1 & R1 & S1 & P1).
    destruct (made_read f _ _ _ _ _ _ Ha E0 (sp_sync _ _ _ _ _ _ _ _ _ _ _ P1)) as (d2 & L2 & R2 & N2 & P2).
    destruct (read_all reg lx h0 HG f m V2 _ _ _ _ _ E3 (sp_sync _ _ _ _ _ _ _ _ _ _ _ P2)) as (m' & d3 & L3 & R3 & S3 & P3).
    destruct (made_read f _ _ _ _ _ _ Ha E5 (sp_sync _ _ _ _ _ _ _ _ _ _ _ P3)) as (d4 & L4 & R4 & N4 & P4).
    destruct (read_all reg lx h0 HG f r V3 _ _ _ _ _ E6 (sp_sync _ _ _ _ _ _ _ _ _ _ _ P4)) as (r' & d5 & L5 & R5 & S5 & P5).
    pose proof (sp_next _ _ _ _ _ _ _ _ _ _ _ P3) as N3.
    assert (forall x dx dy v ys vs dz, reads reg x dx v dy -> read_values reg dy ys = Ok (vs, dz) -> read_values reg dx (x :: ys) = Ok (v :: vs, dz)) as RC.
    { intros x dx dy v ys vs dz Q1 Q2. cbn [read_values]. unfold deserialize. rewrite (Q1 _ (le_n _)). cbn [bind fst snd]. now rewrite Q2. }
    rewrite (read_app _ _ _ _ _ _ _ R1 (RC _ _ _ _ _ _ _ R2 (read_app _ _ _ _ _ _ _ R3 (RC _ _ _ _ _ _ _ R4 R5)))) in Hr. injection Hr as <- <-.
    exists l', m', r', (d_next d1), (d_next d3). split; [reflexivity|]. split; [symmetry; eapply all2_len; exact S1|]. split; [symmetry; eapply all2_len; exact S3|]. lia.
  Qed.
End Apart.

(** ** Without such a cycle, references out of these objects go down *)
Section Ranks.
  Variable h : heap.
  Definition plain_refs (l : list value) : list N := flat_map (fun v => match v with VRef b => [b] | _ => [] end) l.
  Definition referred (o : gobj) : bool :=
    match g_body o with BPlain | BQueue _ | BPy _ _ | BPrim (PStr _ _ | PDate _ | PGuid _ | PFloat _ _ | PSecure _) => true | _ => false end.
  Definition out (a : N) : list N :=
    match aget a h with
    | Some o => if referred o then [] else
        plain_refs (map snd (g_adapted o) ++ map snd (g_extended o)
                    ++ match g_body o with BList _ l => l | BDict l => map fst l ++ map snd l | _ => [] end)
    | None => []
    end.
  Lemma referred_spec o : referred o = true <-> by_identity o.
  Proof. unfold referred, by_identity. destruct (g_body o) as [|[]| | | | |]; split; intros; try exact I; try reflexivity; try discriminate; contradiction. Qed.
  Lemma refs_in l b : In b (plain_refs l) <-> In (VRef b) l.
  Proof.
    unfold plain_refs. rewrite in_flat_map. split; [intros (v & Hv & Hb); destruct v; cbn [In] in Hb; try contradiction; destruct Hb as [-> |[]]; exact Hv|].
    intros H. exists (VRef b). split; [exact H|now left].
  Qed.
  Lemma out_leads a b : In b (out a) <-> leads h a b.
  Proof.
    unfold out, leads. split.
    - destruct (aget a h) as [o|]; [|intros []]. destruct (referred o) eqn:E; [intros []|]. intros H. exists o. split; [reflexivity|].
      split; [intros F; apply referred_spec in F; congruence|]. apply (proj1 (refs_in _ _)) in H. rewrite !in_app_iff in H. destruct H as [H|[H|H]].
      + apply in_map_iff in H. destruct H as ([n v] & <- & H). eapply MenAdapted; exact H.
      + apply in_map_iff in H. destruct H as ([n v] & <- & H). eapply MenExtended; exact H.
      + destruct (g_body o) eqn:Eb; try contradiction; [eapply MenItem; eassumption|]. apply in_app_iff in H.
        destruct H as [H|H]; apply in_map_iff in H; destruct H as ([k v] & <- & H); [eapply MenKey|eapply MenValue]; eassumption.
    - intros (o & -> & NI & M). destruct (referred o) eqn:E; [apply referred_spec in E; contradiction|]. apply refs_in. rewrite !in_app_iff.
      inversion M as [n v Hv|n v Hv|k l v F Hv|l v F Hv|l k v F Hv|l k v F Hv|c l n b' v F Hv]; subst.
      + left. exact (in_map snd _ _ Hv).
      + right; left. exact (in_map snd _ _ Hv).
      + right; right. rewrite F. exact Hv.
      + destruct NI. unfold by_identity. now rewrite F.
      + right; right. rewrite F. apply in_app_iff. left. exact (in_map fst _ _ Hv).
      + right; right. rewrite F. apply in_app_iff. right. exact (in_map snd _ _ Hv).
      + destruct NI. unfold by_identity. now rewrite F.
  Qed.
  Fixpoint reach (n : nat) (a : N) : nat :=
    match n with 0 => 0 | S n => fold_right (fun b m => Nat.max (S (reach n b)) m) 0 (out a) end.
  Lemma fold_up (f : N -> nat) l b : In b l -> S (f b) <= fold_right (fun b m => Nat.max (S (f b)) m) 0 l.
  Proof. induction l as [|c l IH]; intros H; [destruct H|]. cbn [fold_right]. destruct H as [-> |H]; [lia|]. specialize (IH H). lia. Qed.
  Lemma fold_at (f : N -> nat) l : fold_right (fun b m => Nat.max (S (f b)) m) 0 l = 0 \/ exists b, In b l /\ fold_right (fun b m => Nat.max (S (f b)) m) 0 l = S (f b).
  Proof.
    induction l as [|c l IH]; [now left|]. right. cbn [fold_right]. destruct (Nat.max_spec (S (f c)) (fold_right (fun b m => Nat.max (S (f b)) m) 0 l)) as [[L E]|[L E]]; rewrite E.
    - destruct IH as [Z|(b & Hb & Eb)]; [lia|]. exists b. split; [now right|exact Eb].
    - exists c. split; [now left|reflexivity].
  Qed.
  Lemma fold_same (f g : N -> nat) l : (forall b, In b l -> f b = g b) -> fold_right (fun b m => Nat.max (S (f b)) m) 0 l = fold_right (fun b m => Nat.max (S (g b)) m) 0 l.
  Proof. induction l as [|c l IH]; intros H; [reflexivity|]. cbn [fold_right]. rewrite (H c) by now left. rewrite IH; [reflexivity|]. intros b Hb. apply H. now right. Qed.
  Lemma reach_settled n : forall a, reach n a < n -> reach (S n) a = reach n a.
  Proof.
    induction n as [|n IH]; intros a H; [lia|]. cbn [reach] in H. change (reach (S (S n)) a) with (fold_right (fun b m => Nat.max (S (reach (S n) b)) m) 0 (out a)).
    cbn [reach]. apply fold_same. intros b Hb. pose proof (fold_up (reach n) (out a) b Hb). change (reach (S n) b = reach n b). apply IH. lia.
  Qed.
  (** A chain of references: the objects passed, first to last. *)
  Inductive chain : N -> list N -> Prop :=
  | ChainEnd a : chain a []
  | ChainOn a b l : leads h a b -> chain b l -> chain a (a :: l).
  Lemma reach_chain n : forall a, exists l, chain a l /\ length l = reach n a.
  Proof.
    induction n as [|n IH]; intros a; [exists []; split; [constructor|reflexivity]|]. cbn [reach].
    destruct (fold_at (reach n) (out a)) as [E|(b & Hb & E)]; rewrite E; [exists []; split; [constructor|reflexivity]|].
    destruct (IH b) as (l & C & L). exists (a :: l). split; [eapply ChainOn; [apply out_leads; exact Hb|exact C]|]. cbn [length]. lia.
  Qed.
  Lemma chain_here a l : chain a l -> incl l (map fst h).
  Proof. induction 1 as [|a b l L C IH]; intros c Hc; [destruct Hc|]. destruct Hc as [<- |Hc]; [destruct L as (o & Ho & _); eapply aget_In; exact Ho|exact (IH c Hc)]. Qed.
  Lemma chain_trail a l c : chain a l -> In c l -> a = c \/ trail h a c.
  Proof. induction 1 as [|a b l L C IH]; intros H; [destruct H|]. destruct H as [<- |H]; [now left|]. right. destruct (IH H) as [-> |T]; [now apply TrailOne|eapply TrailMore; eauto]. Qed.
  Lemma chain_once a l : (forall b, ~ trail h b b) -> chain a l -> NoDup l.
  Proof.
    intros NT. induction 1 as [|a b l L C IH]; [constructor|]. constructor; [|exact IH]. intros H.
    destruct (chain_trail _ _ _ C H) as [-> |T]; [apply (NT a); now apply TrailOne|apply (NT a); eapply TrailMore; eauto].
  Qed.
  Lemma ranks : (forall a, ~ endless h a) -> exists rank, ranked h rank.
  Proof.
    intros NE. assert (forall b, ~ trail h b b) as NT by (intros b T; apply (NE b); exists b; auto).
    exists (reach (S (length h))). intros a o b Ho NI M.
    assert (reach (S (length h)) a < S (length h)) as Hlt.
    { destruct (reach_chain (S (length h)) a) as (l & C & <-). pose proof (NoDup_incl_length (chain_once _ _ NT C) (chain_here _ _ C)) as HL. rewrite map_length in HL. lia. }
    rewrite <- (reach_settled _ _ Hlt). apply (fold_up (reach (S (length h))) (out a) b). apply out_leads. exists o. auto.
  Qed.
End Ranks.
