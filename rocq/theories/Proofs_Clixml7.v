(** CLIXML: writing comes to an end, and the theorems about whole documents. *)
From Coq Require Import String.
From Verif Require Import Base BaseFacts Model_Scalars Model_Strings Model_Text Model_Object Model_Clixml.
From Verif Require Import Spec_Strings Spec_Scalars Spec_Clixml Proofs_Clixml1 Proofs_Clixml2 Proofs_Clixml3 Proofs_Clixml4 Proofs_Clixml5 Proofs_Clixml6.
Local Open Scope list_scope.
Local Open Scope nat_scope.

Lemma filter_le {A} (p q : A -> bool) l : (forall a, q a = true -> p a = true) -> length (filter q l) <= length (filter p l).
Proof.
  intros H. induction l as [|a l IH]; cbn [filter]; [lia|]. destruct (q a) eqn:E.
  - rewrite (H a E). cbn [length]. lia.
  - destruct (p a); cbn [length]; lia.
Qed.
Lemma filter_lt {A} (p q : A -> bool) l b : (forall a, q a = true -> p a = true) -> In b l -> p b = true -> q b = false ->
  length (filter q l) < length (filter p l).
Proof.
  intros H. induction l as [|a l IH]; cbn [filter In]; [contradiction|]. intros [->|Hi] Hp Hq.
  - rewrite Hp, Hq. cbn [length]. pose proof (filter_le p q l H). lia.
  - specialize (IH Hi Hp Hq). destruct (q a) eqn:E; [rewrite (H a E); cbn [length]; lia|]. destruct (p a); cbn [length]; lia.
Qed.
Lemma aget_In {V} a (v : V) l : aget a l = Some v -> In a (map fst l).
Proof. intros H. destruct (in_dec N.eq_dec a (map fst l)) as [|Hn]; [assumption|]. apply aget_None in Hn. congruence. Qed.

Section Total.
  Variable h : heap.
  Variable rank : N -> nat.
  Hypothesis HC : closed h.
  Hypothesis HR : ranked h rank.

  Definition top : nat := fold_right Nat.max 0 (map rank (map fst h)).
  Lemma rank_top a o : aget a h = Some o -> rank a <= top.
  Proof.
    intros H. apply aget_In in H. unfold top. induction (map fst h) as [|b l IH]; [contradiction|]. cbn [map fold_right].
    destruct H as [->|H]; [lia|]. specialize (IH H). lia.
  Qed.
  Definition pending (st : sst) (a : N) : bool :=
    match aget a h with
    | None => false
    | Some o => match ref_key a (g_body o) with
                | None => false
                | Some k => match key_get k (s_refs st) with None => true | Some _ => false end
                end
    end.
  Definition left_over (st : sst) : nat := length (filter (pending st) (map fst h)).
  Lemma left_mono st st2 : (forall k i, key_get k (s_refs st) = Some i -> key_get k (s_refs st2) = Some i) -> left_over st2 <= left_over st.
  Proof.
    intros H. apply filter_le. intros a. unfold pending. destruct (aget a h) as [o|]; [|discriminate]. destruct (ref_key a (g_body o)) as [k|]; [|discriminate].
    destruct (key_get k (s_refs st2)) eqn:E; [discriminate|]. destruct (key_get k (s_refs st)) eqn:F; [|reflexivity]. apply H in F. congruence.
  Qed.
  Lemma left_less st a o k id st1 : aget a h = Some o -> ref_key a (g_body o) = Some k -> get_ref_id st (Some k) = (id, false, st1) ->
    left_over st1 < left_over st.
  Proof.
    intros Ho Hk Hr. destruct (get_ref_fresh _ _ _ _ Hr) as (_ & _ & _ & _ & F5 & F6). apply filter_lt with (b := a).
    - intros b. unfold pending. destruct (aget b h) as [o2|]; [|discriminate]. destruct (ref_key b (g_body o2)) as [k2|]; [|discriminate].
      destruct (key_get k2 (s_refs st1)) eqn:E; [discriminate|]. rewrite F5 in E. destruct (key_eqb k2 k); [discriminate|]. now rewrite E.
    - eapply aget_In; eauto.
    - unfold pending. rewrite Ho, Hk. now rewrite (F6 k eq_refl).
    - unfold pending. rewrite Ho, Hk, F5, key_eqb_refl. reflexivity.
  Qed.

  Definition half (st : sst) (a : N) : Prop :=
    exists q q' n s ad ex i, aget a h = Some (mkG (BQueue q) n s ad ex) /\ aget a (s_heap st) = Some (mkG (BQueue q') n s ad ex)
      /\ key_get (KAddr a) (s_refs st) = Some i.
  Definition inv (st : sst) : Prop := bounded st /\ forall a, aget a (s_heap st) = aget a h \/ half st a.
  Lemma inv_step st ms st2 : inv st -> wstep nowhere st ms st2 -> inv st2.
  Proof.
    intros [H1 H2] [A1 A2 A3 A4 A5 A6]. split; [exact A2|]. intros a.
    destruct (A5 a (no_more a)) as [E|(q & n & s & ad & ex & i & E1 & E2 & E3)].
    - destruct (H2 a) as [F|(q & q' & n & s & ad & ex & i & F1 & F2 & F3)]; [left; congruence|]. right.
      exists q, q', n, s, ad, ex, i. split; [exact F1|]. split; [congruence|auto].
    - right. destruct (H2 a) as [F|(q1 & q' & n1 & s1 & ad1 & ex1 & i1 & F1 & F2 & F3)].
      + exists q, [], n, s, ad, ex, i. split; [congruence|auto].
      + rewrite F2 in E1. injection E1 as -> -> -> -> ->. exists q1, [], n, s, ad, ex, i. auto.
  Qed.
  Definition ok (v : value) : Prop := match v with VRef a => exists o, aget a h = Some o | _ => True end.
  Definition vrank (v : value) : nat := match v with VRef a => S (rank a) | _ => 0 end.

  Section Loop.
    Variable f n r : nat.
    Hypothesis go : forall st v, inv st -> left_over st <= n -> ok v -> vrank v <= r -> exists x, ser f st v = Ok x.
    Definition fits_in (v : value) : Prop := ok v /\ vrank v <= r.

    Lemma go_on st v : inv st -> left_over st <= n -> fits_in v ->
      exists x st2, ser f st v = Ok (x, st2) /\ inv st2 /\ left_over st2 <= n /\ wstep nowhere st (marks x) st2.
    Proof.
      intros Hi Hn [Ho Hr]. destruct (go st v Hi Hn Ho Hr) as ([x st2] & E). destruct (writes_all f st v x st2 (proj1 Hi) E) as [_ W].
      exists x, st2. split; [exact E|]. split; [eapply inv_step; eauto|]. split; [|exact W].
      pose proof (left_mono st st2 (w_refs _ _ _ _ W)). lia.
    Qed.
    Lemma total_list l : Forall fits_in l -> forall st, inv st -> left_over st <= n -> exists y, ser_list (ser f) st l = Ok y.
    Proof.
      induction 1 as [|v t Hv _ IH]; intros st Hi Hn; cbn [ser_list]; [eauto|].
      destruct (go_on st v Hi Hn Hv) as (x & st2 & E & Hi2 & Hn2 & _). rewrite E. cbn [bind fst snd].
      destruct (IH st2 Hi2 Hn2) as (y & ->). cbn [bind]. eauto.
    Qed.
    Lemma total_props l : Forall (fun p => fits_in (snd p)) l -> forall st, inv st -> left_over st <= n -> 
      exists xs st2, ser_props (ser f) st l = Ok (xs, st2) /\ inv st2 /\ left_over st2 <= n
        /\ (forall a i, key_get (KAddr a) (s_refs st) = Some i -> aget a (s_heap st2) = aget a (s_heap st) /\ key_get (KAddr a) (s_refs st2) = Some i).
    Proof.
      induction 1 as [|[m v] t Hv _ IH]; intros st Hi Hn; cbn [ser_props]; [eauto 10|].
      destruct (go_on st v Hi Hn Hv) as (x & st2 & E & Hi2 & Hn2 & W). rewrite E. cbn [bind fst snd].
      destruct (IH st2 Hi2 Hn2) as (y & st3 & -> & Hi3 & Hn3 & K). cbn [bind fst snd]. do 2 eexists. split; [reflexivity|]. split; [exact Hi3|].
      split; [exact Hn3|]. intros a i Hk. destruct (K a i (w_refs _ _ _ _ W _ _ Hk)) as [-> K2]. split; [|exact K2].
      apply (w_reg _ _ _ _ W a i Hk (no_more a)).
    Qed.
    Lemma total_dict l : Forall (fun p => fits_in (fst p) /\ fits_in (snd p)) l -> forall st, inv st -> left_over st <= n -> 
      exists y, ser_dict (ser f) st l = Ok y.
    Proof.
      induction 1 as [|[m v] t [Hm Hv] _ IH]; intros st Hi Hn; cbn [ser_dict]; [eauto|].
      destruct (go_on st m Hi Hn Hm) as (x & st2 & E & Hi2 & Hn2 & W). rewrite E. cbn [bind fst snd].
      destruct (go_on st2 v Hi2 Hn2 Hv) as (x2 & st3 & E2 & Hi3 & Hn3 & W2). rewrite E2. cbn [bind fst snd].
      destruct (IH st3 Hi3 Hn3) as (y & ->). cbn [bind]. eauto.
    Qed.
    Lemma total_queue a i ns s ad ex l : Forall fits_in l -> forall st, inv st -> left_over st <= n -> key_get (KAddr a) (s_refs st) = Some i ->
      aget a (s_heap st) = Some (mkG (BQueue l) ns s ad ex) -> exists y, ser_queue (ser f) (length l) st a = Ok y.
    Proof.
      induction 1 as [|v t Hv _ IH]; intros st Hi Hn Hk Ha; cbn [ser_queue length]; [eauto|]. rewrite Ha.
      set (st0 := set_heap st (aset a (mkG (BQueue t) ns s ad ex) (s_heap st))).
      assert (aget a (s_heap st0) = Some (mkG (BQueue t) ns s ad ex)) as Ha0 by (unfold st0; cbn [set_heap s_heap]; now rewrite aget_aset, N.eqb_refl).
      assert (inv st0) as Hi0.
      { destruct Hi as [H1 H2]. split; [exact H1|]. intros b. destruct (N.eq_dec a b) as [<-|Hne].
        - right. destruct (H2 a) as [F|(q & q' & n1 & s1 & ad1 & ex1 & i1 & F1 & F2 & F3)].
          + exists (v :: t), t, ns, s, ad, ex, i. split; [congruence|]. auto.
          + assert (mkG (BQueue q') n1 s1 ad1 ex1 = mkG (BQueue (v :: t)) ns s ad ex) as G by congruence. injection G as -> -> -> -> ->.
            exists q, t, ns, s, ad, ex, i. auto.
        - assert (aget b (s_heap st0) = aget b (s_heap st)) as E.
          { unfold st0. cbn [set_heap s_heap]. rewrite aget_aset. destruct (N.eqb_spec a b); [contradiction|]. try (destruct (N.eqb_spec b a); [congruence|]); reflexivity. }
          destruct (H2 b) as [F|F]; [left; congruence|right]. destruct F as (q & q' & n1 & s1 & ad1 & ex1 & i1 & F1 & F2 & F3).
          exists q, q', n1, s1, ad1, ex1, i1. rewrite E. auto. }
      destruct (go_on st0 v Hi0 Hn Hv) as (x & st2 & E & Hi2 & Hn2 & W). rewrite E. cbn [bind fst snd].
      destruct (IH st2 Hi2 Hn2 (w_refs _ _ _ _ W _ _ Hk)) as (y & ->); [|cbn [bind]; eauto].
      rewrite (w_reg _ _ _ _ W a i Hk (no_more a)). exact Ha0.
    Qed.

    Lemma total_object st id a o : inv st -> left_over st <= n -> aget a h = Some o -> aget a (s_heap st) = Some o ->
      (forall l, g_body o = BQueue l -> exists i, key_get (KAddr a) (s_refs st) = Some i) ->
      (forall v, mentions o v -> fits_in v) -> exists y, ser_object (ser f) st id a o = Ok y.
    Proof.
      intros Hi Hn Ho Hh Hq Hm. unfold ser_object. cbv zeta.
      set (names := match g_body o with BPrim _ => [] | BPy _ _ => custom_names | _ => g_names o end).
      set (props := match g_body o with BPy _ _ => ([], []) | _ => (g_adapted o, g_extended o) end).
      destruct (write_names st names) as [tn stA] eqn:Hw. destruct (names_step _ _ _ _ (proj1 Hi) Hw) as [_ W].
      pose proof (inv_step _ _ _ Hi W) as HiA. pose proof (left_mono _ _ (w_refs _ _ _ _ W)) as HnA.
      assert (Forall (fun p => fits_in (snd p)) (fst props) /\ Forall (fun p => fits_in (snd p)) (snd props)) as [Pa Pe].
      { assert (incl (fst props) (g_adapted o) /\ incl (snd props) (g_extended o)) as [I1 I2].
        { unfold props. destruct (g_body o); cbn [fst snd]; split; auto using incl_refl, incl_nil_l. }
        split; apply Forall_forall; intros [m v] Hin; apply Hm; [eapply MenAdapted|eapply MenExtended]; eauto. }
      destruct (total_props _ Pa stA HiA ltac:(lia)) as (xa & stB & -> & HiB & HnB & KB). cbn [bind fst snd].
      destruct (total_props _ Pe stB HiB HnB) as (xe & stC & -> & HiC & HnC & KC). cbn [bind fst snd].
      assert (exists y, ser_body (ser f) stC a o = Ok y) as (y & ->); [|cbn [bind]; eauto].
      unfold ser_body. destruct (g_body o) as [|p|k l|l|l|cls attrs|] eqn:Eb; try (eexists; reflexivity).
      - destruct (total_list l) with (st := stC) as (y & ->); auto; [|cbn [bind]; eauto]. apply Forall_forall. intros v Hin. apply Hm. eapply MenItem; eauto.
      - destruct (Hq l eq_refl) as (i & Hki). destruct o as [ob on os oa oe]. cbn [g_body] in Eb. subst ob.
        pose proof (w_refs _ _ _ _ W _ _ Hki) as Hk1. destruct (KB a i Hk1) as [E1 Hk2]. destruct (KC a i Hk2) as [E2 Hk3].
        destruct (total_queue a i on os oa oe l) with (st := stC) as (y & ->); auto; [| |cbn [bind]; eauto].
        + apply Forall_forall. intros v Hin. apply Hm. eapply MenEntry; [reflexivity|exact Hin].
        + rewrite E2, E1. rewrite (w_reg _ _ _ _ W a i Hki (no_more a)). exact Hh.
      - destruct (total_dict l) with (st := stC) as (y & ->); auto; [|cbn [bind]; eauto]. apply Forall_forall. intros [k v] Hin. cbn [fst snd].
        split; apply Hm; [eapply MenKey|eapply MenValue]; eauto.
      - destruct (total_props (public_attrs cls attrs)) with (st := stC) as (y & st3 & -> & _); auto; [|cbn [bind]; eauto].
        apply Forall_forall. intros [m v] Hin. unfold public_attrs in Hin. apply in_map_iff in Hin. destruct Hin as ([[m' b] v'] & E & Hin).
        cbn [fst snd] in *. injection E as -> ->. apply filter_In in Hin. apply Hm. eapply MenAttr; [exact Eb|apply Hin].
    Qed.
  End Loop.

  Lemma not_identity a o : ref_key a (g_body o) = None -> ~ by_identity o.
  Proof. unfold by_identity. destruct (g_body o) as [|[]| | | | |]; cbn; intros; tauto || discriminate. Qed.

  Theorem total f : forall st v, inv st -> ok v -> left_over st * (top + 3) + vrank v + 1 <= f -> exists x, ser f st v = Ok x.
  Proof.
    induction f as [|f IH]; intros st v Hi Hv Hf; [lia|]. cbn [ser]. destruct v as [|b|p|e|a]; try (eexists; reflexivity).
    - destruct (get_ref_id st (Some (KMember (e_names e) (e_val e)))) as [[id used] st1]. destruct used; [eauto|].
      destruct (write_names st1 (e_names e)). eauto.
    - cbn [vrank] in Hf. destruct Hv as (o & Ho). destruct (proj2 Hi a) as [Hh|(q & q' & n & s & ad & ex & i & F1 & F2 & F3)].
      2:{ rewrite F2. cbn [g_body ref_key]. unfold get_ref_id. rewrite F3. eauto. }
      rewrite Hh, Ho.
      assert (exists x, (let '(id, used, st1) := get_ref_id st (ref_key a (g_body o)) in
                      if used then Ok (Elem TgRef [(AtRefId, dec id)] [] [], st1) else ser_object (ser f) st1 id a o) = Ok x) as Hgo.
      { destruct (get_ref_id st (ref_key a (g_body o))) as [[id used] st1] eqn:Hr. destruct used; [eauto|].
        pose proof (fresh_step _ _ _ _ (proj1 Hi) Hr) as W. pose proof (inv_step _ _ _ Hi W) as Hi1. pose proof (left_mono _ _ (w_refs _ _ _ _ W)) as Hn1.
        destruct (get_ref_fresh _ _ _ _ Hr) as (_ & _ & F3 & _ & F5 & _).
        assert (forall v, mentions o v -> ok v) as Hok.
        { intros [| | | |b] Hm; try exact I. exact (HC a o b Ho Hm). }
        assert (aget a (s_heap st1) = Some o) as Hh1 by (rewrite F3; congruence).
        destruct (ref_key a (g_body o)) as [k|] eqn:Hk.
        - pose proof (left_less st a o k id st1 Ho Hk Hr) as Hlt.
          apply total_object with (n := left_over st1) (r := S top); auto; [| |].
          + intros st' v Hi' Hn' Hv' Hr'. apply IH; auto. nia.
          + intros l El. rewrite El in Hk. cbn [ref_key] in Hk. injection Hk as <-. exists (s_next st). now rewrite F5, key_eqb_refl.
          + intros v Hm. split; [auto|]. specialize (Hok v Hm). destruct v as [| | | |b]; cbn [vrank]; try lia. destruct Hok as (o' & Ho').
            apply le_n_S. eapply rank_top; eauto.
        - apply total_object with (n := left_over st1) (r := rank a); auto.
          + intros st' v Hi' Hn' Hv' Hr'. apply IH; auto. nia.
          + intros l El. rewrite El in Hk. discriminate.
          + intros v Hm. split; [auto|]. destruct v as [| | | |b]; cbn [vrank]; try lia. pose proof (HR a o b Ho (not_identity a o Hk) Hm). lia. }
      destruct (g_body o) as [|p| | | | |]; auto. destruct (has_props o); eauto.
  Qed.
End Total.

(** ** Whole documents *)
Lemma bounded_init h : bounded (s_init h).
Proof. intros k i. discriminate. Qed.
Theorem document_numbering h fuel vs xs st : ser_list (ser fuel) (s_init h) vs = Ok (xs, st) ->
  Forall numbered xs /\ well_numbered (flat_map marks xs).
Proof.
  intros E. destruct (write_list fuel (writes_all fuel) vs _ _ _ (bounded_init h) E) as [N W]. split; [exact N|].
  eapply counts_well. exact (w_counts _ _ _ _ W).
Qed.
Theorem heap_after h fuel vs xs st : ser_list (ser fuel) (s_init h) vs = Ok (xs, st) ->
  forall a o, aget a h = Some o -> aget a (s_heap st) = Some o
    \/ exists l, g_body o = BQueue l /\ aget a (s_heap st) = Some (mkG (BQueue []) (g_names o) (g_string o) (g_adapted o) (g_extended o)).
Proof.
  intros E a o Ho. destruct (write_list fuel (writes_all fuel) vs _ _ _ (bounded_init h) E) as [_ W].
  destruct (w_heap _ _ _ _ W a (no_more a)) as [F|(q & n & s & ad & ex & i & F1 & F2 & F3)]; [left; now rewrite F|]. right.
  cbn [s_init s_heap] in F1. rewrite Ho in F1. injection F1 as ->. exists q. auto.
Qed.
Theorem heap_same h fuel vs xs st : no_queues h -> ser_list (ser fuel) (s_init h) vs = Ok (xs, st) -> s_heap st = h.
Proof.
  intros Hq E. destruct (write_list fuel (writes_all fuel) vs _ _ _ (bounded_init h) E) as [_ W]. exact (w_same _ _ _ _ W Hq).
Qed.

Definition resolves (h : heap) (v : value) : Prop := match v with VRef a => exists o, aget a h = Some o | _ => True end.
Theorem writing_ends h rank vs : closed h -> ranked h rank -> Forall (resolves h) vs ->
  exists fuel xs st, ser_list (ser fuel) (s_init h) vs = Ok (xs, st).
Proof.
  intros HC HR Hv. set (r := fold_right Nat.max 0 (map (vrank rank) vs)). set (n := left_over h (s_init h)).
  exists (n * (top h rank + 3) + r + 1).
  destruct (total_list h rank (n * (top h rank + 3) + r + 1) n r) with (l := vs) (st := s_init h) as ([xs st] & E).
  - intros st v Hi Hn Ho Hr. apply (total h rank HC HR); auto. unfold Proofs_Clixml7.vrank in *. nia.
  - subst r. induction Hv as [|v t Hv _ IH]; constructor.
    + split; [exact Hv|]. cbn [map fold_right]. lia.
    + eapply Forall_impl; [|exact IH]. intros w [A B]. split; [exact A|]. cbn [map fold_right]. lia.
  - split; [apply bounded_init|]. intros a. now left.
  - lia.
  - exists xs, st. exact E.
Qed.

Section Documents.
  Variable reg : registry.
  Variable lx : lexicon.
  Variable h0 : heap.
  Hypothesis HG : good_graph reg lx h0.

  Lemma read_all f vs : Forall (good_value reg lx) vs -> forall st xs st2 d L, ser_list (ser f) st vs = Ok (xs, st2) -> sync reg lx h0 st d L ->
    exists vs' d2 L2, read_values reg d xs = Ok (vs', d2) /\ Forall2 (same_value (inL L2)) vs vs' /\ step reg lx h0 none none st d L st2 d2 L2.
  Proof.
    induction 1 as [|v t Hv _ IH]; intros st xs st2 d L E Hy; cbn [ser_list] in E.
    - injection E as <- <-. exists [], d, L. split; [reflexivity|]. split; [constructor|now apply step_refl].
    - binds E. destruct r as [x st1], r0 as [xs1 st3]. cbn [fst snd] in *. injection E as <- <-.
      destruct (simulation reg lx h0 HG f st v x st1 d L Hv E0 Hy) as (v' & d1 & L1 & R1 & S1 & P1).
      destruct (IH st1 xs1 st3 d1 L1 E1 (sp_sync _ _ _ _ _ _ _ _ _ _ _ P1)) as (vs' & d2 & L2 & R2 & S2 & P2).
      exists (v' :: vs'), d2, L2. split; [|split].
      + cbn [read_values]. unfold deserialize. rewrite (R1 _ (le_n _)). cbn [bind fst snd]. now rewrite R2.
      + constructor; [|exact S2]. eapply same_incl; [exact (sp_incl _ _ _ _ _ _ _ _ _ _ _ P2)|exact S1].
      + eapply step_trans; [intros ? []|exact P1|exact P2].
  Qed.
  Lemma key_of_identity a o : aget a h0 = Some o -> by_identity o -> exists k, obj_key h0 a = Some k.
  Proof.
    intros H Hb. unfold obj_key. rewrite H. unfold by_identity in Hb. destruct (g_body o) as [|[]| | | | |]; try contradiction; eexists; reflexivity.
  Qed.
  Theorem document_roundtrip f vs xs st : Forall (good_value reg lx) vs -> ser_list (ser f) (s_init h0) vs = Ok (xs, st) ->
    exists vs' d R, read_values reg d_init xs = Ok (vs', d) /\ Forall2 (same_value R) vs vs' /\ same_graph reg h0 (d_heap d) R
      /\ (forall a b b' o, R a b -> R a b' -> aget a h0 = Some o -> by_identity o -> b = b')
      /\ (forall a a' b, R a b -> R a' b -> a = a').
  Proof.
    intros Hv E. destruct (read_all f vs Hv _ _ _ _ _ E (sync_init reg lx h0)) as (vs' & d & L & R & S & P).
    exists vs', d, (inL L). split; [exact R|]. split; [exact S|]. pose proof (sp_sync _ _ _ _ _ _ _ _ _ _ _ P) as Hy. split; [|split].
    - intros a b Hab. destruct (sp_done _ _ _ _ _ _ _ _ _ _ _ P a b Hab) as [[]|[_ Hc]]. exact Hc.
    - intros a b b' o H1 H2 Ho Hb. destruct (key_of_identity a o Ho Hb) as (k & Hk).
      destruct (sy_fun _ _ _ _ _ _ Hy a b k H1 Hk) as (i & K1 & K2). destruct (sy_fun _ _ _ _ _ _ Hy a b' k H2 Hk) as (j & K3 & K4). congruence.
    - intros a a' b. apply (sy_inj _ _ _ _ _ _ Hy).
  Qed.
End Documents.

(** Strings without underscores. *)
Definition tame (s : list N) : bool := forallb (fun c => (c <? 128)%N && negb (c =? 95)%N) s.
Lemma tame_good s : tame s = true -> good_str s /\ raw_str s.
Proof.
  intros H. unfold tame in H. rewrite forallb_forall in H.
  assert (forall c, In c s -> (c < 128)%N /\ c <> 95%N) as Hc.
  { intros c Hi. apply H in Hi. apply andb_true_iff in Hi. destruct Hi as [A B]. apply N.ltb_lt in A. apply negb_true_iff, N.eqb_neq in B. auto. }
  assert (~ misread_run s) as Hm.
  { intros (pre & c0 & a & b & c & d & c7 & post & -> & _). destruct (Hc 0x5F00%N); [|lia]. apply in_or_app. right. right. now left. }
  assert (~ looks_escaped s) as Hl.
  { intros (pre & a & b & c & d & post & -> & _). destruct (Hc 95%N); [|congruence]. apply in_or_app. right. now left. }
  assert (no_surrogates s) as Hs by (apply Forall_forall; intros c Hi; apply Hc in Hi; lia).
  split; (split; [|split]); try assumption; try split; try assumption; apply Forall_forall; intros c Hi; apply Hc in Hi; lia.
Qed.
Lemma tame_whole s : tame s = true -> pystr s /\ no_surrogates s.
Proof. intros H. apply tame_good in H. destruct H as ((A & B & _) & _). auto. Qed.
