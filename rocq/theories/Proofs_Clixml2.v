(** CLIXML: the invariant between a writer and the reader of what it wrote. *)
From Coq Require Import String.
From Verif Require Import Base BaseFacts Model_Scalars Model_Strings Model_Text Model_Object Model_Clixml.
From Verif Require Import Spec_Strings Spec_Scalars Spec_Clixml Proofs_Clixml1.
Local Open Scope list_scope.
Local Open Scope nat_scope.

Definition inL (L : list (N * N)) : N -> N -> Prop := fun a b => In (a, b) L.

(** ** More pairs keep what is the same the same *)
Lemma same_value_mono (R R' : N -> N -> Prop) v w : (forall a b, R a b -> R' a b) -> same_value R v w -> same_value R' v w.
Proof. intros H E. destruct E; constructor; auto. Qed.
Lemma same_list_mono (R R' : N -> N -> Prop) v w : (forall a b, R a b -> R' a b) ->
  Forall2 (same_value R) v w -> Forall2 (same_value R') v w.
Proof. intros H E. induction E; constructor; eauto using same_value_mono. Qed.
Lemma same_props_mono (R R' : N -> N -> Prop) v w : (forall a b, R a b -> R' a b) -> same_props R v w -> same_props R' v w.
Proof. intros H E. induction E as [|x y l m [H1 H2]]; constructor; [split|]; eauto using same_value_mono. Qed.
Lemma same_entries_mono (R R' : N -> N -> Prop) v w : (forall a b, R a b -> R' a b) -> same_entries R v w -> same_entries R' v w.
Proof. intros H E. induction E as [|x y l m [H1 H2]]; constructor; [split|]; eauto using same_value_mono. Qed.
Lemma same_object_mono reg (R R' : N -> N -> Prop) o p : (forall a b, R a b -> R' a b) -> same_object reg R o p -> same_object reg R' o p.
Proof.
  intros H. unfold same_object. destruct (g_body o).
  - intros (H1 & H2 & H3 & H4 & H5). eauto 8 using same_props_mono.
  - intros (H1 & H2 & H4 & H5). eauto 8 using same_props_mono.
  - intros ((l' & H1 & H2) & H3 & H4 & H5). split; [eauto using same_list_mono|]. eauto 8 using same_props_mono.
  - intros ((l' & H1 & H2) & H3 & H4 & H5). split; [eauto using same_list_mono|]. eauto 8 using same_props_mono.
  - intros ((l' & H1 & H2) & H3 & H4 & H5). split; [eauto using same_entries_mono|]. eauto 8 using same_props_mono.
  - intros (H1 & H2 & H3 & H4 & ps & H5 & H6). eauto 10 using same_props_mono.
  - intros (H1 & H2 & H3 & H4 & H5). eauto 8 using same_props_mono.
Qed.

Lemma good_member_unique reg lx e e' : good_member reg lx e -> good_member reg lx e' ->
  e_names e = e_names e' -> e_val e = e_val e' -> e = e'.
Proof.
  intros (n & r & c & fl & vs & H1 & H2 & H3 & H4 & H5 & H6 & H7 & H8 & H9)
         (n' & r' & c' & fl' & vs' & G1 & G2 & G3 & G4 & G5 & G6 & G7 & G8 & G9) En Ev.
  rewrite H1, G1 in En. injection En as -> ->. rewrite H3 in G3. injection G3 as ->. rewrite H4 in G4. injection G4 as Et _ _.
  destruct e as [a b c0 d], e' as [a' b' c0' d']. cbn [e_names e_type e_val e_text] in *. subst. congruence.
Qed.

Section Sim.
  Variable reg : registry.
  Variable lx : lexicon.
  Variable h0 : heap.
  Hypothesis HG : good_graph reg lx h0.

  Definition obj_key (a : N) : option key := match aget a h0 with Some o => ref_key a (g_body o) | None => None end.
  Definition key_val (L : list (N * N)) (k : key) (v : value) : Prop :=
    match k with
    | KMember ns z => exists e, v = VEnum e /\ e_names e = ns /\ e_val e = z /\ good_member reg lx e
    | _ => exists a a', v = VRef a' /\ In (a, a') L /\ obj_key a = Some k
    end.
  Definition tns_ok (tns : list name) (dt : list (list N * list name)) : Prop :=
    forall i n, nth_error tns i = Some n -> sget (dec (N.of_nat i)) dt = Some (full lx n).
  Definition drained (st : sst) (a : N) : Prop :=
    exists q q' n s ad ex id, aget a h0 = Some (mkG (BQueue q) n s ad ex) /\ aget a (s_heap st) = Some (mkG (BQueue q') n s ad ex)
      /\ key_get (KAddr a) (s_refs st) = Some id.
  Record sync (st : sst) (d : dst) (L : list (N * N)) : Prop := {
    sy_tns : tns_ok (s_tns st) (d_tns d);
    sy_refs : forall k id, key_get k (s_refs st) = Some id ->
      (id < s_next st)%N /\ exists v, sget (dec id) (d_refs d) = Some v /\ key_val L k v;
    sy_low : forall a b, In (a, b) L -> (b < d_next d)%N;
    sy_src : forall a b, In (a, b) L -> exists o, aget a h0 = Some o;
    sy_fun : forall a b k, In (a, b) L -> obj_key a = Some k ->
      exists id, key_get k (s_refs st) = Some id /\ sget (dec id) (d_refs d) = Some (VRef b);
    sy_inj : forall a a' b, In (a, b) L -> In (a', b) L -> a = a';
    sy_heap : forall a, aget a (s_heap st) = aget a h0 \/ drained st a }.
  Definition complete (L : list (N * N)) (d : dst) (a b : N) : Prop :=
    exists o o', aget a h0 = Some o /\ aget b (d_heap d) = Some o' /\ same_object reg (inL L) o o'.
  Definition none (a : N) : Prop := False.
  (** What happens between two points; [X] are the read objects being filled, [Y] the queues being emptied. *)
  Record step (X Y : N -> Prop) (st : sst) (d : dst) (L : list (N * N)) (st2 : sst) (d2 : dst) (L2 : list (N * N)) : Prop := {
    sp_sync : sync st2 d2 L2;
    sp_incl : incl L L2;
    sp_next : (d_next d <= d_next d2)%N;
    sp_frame : forall b, (b < d_next d)%N -> ~ X b -> aget b (d_heap d2) = aget b (d_heap d);
    sp_done : forall a b, In (a, b) L2 -> In (a, b) L \/ ((d_next d <= b)%N /\ complete L2 d2 a b);
    sp_refs : forall k id, key_get k (s_refs st) = Some id -> key_get k (s_refs st2) = Some id;
    sp_src : forall a id, key_get (KAddr a) (s_refs st) = Some id -> ~ Y a -> aget a (s_heap st2) = aget a (s_heap st) }.

  Lemma complete_mono L L2 d d2 a b : incl L L2 -> aget b (d_heap d2) = aget b (d_heap d) -> complete L d a b -> complete L2 d2 a b.
  Proof.
    intros Hi E (o & o' & H1 & H2 & H3). exists o, o'. rewrite E. repeat split; auto.
    eapply same_object_mono; [|exact H3]. intros x y Hx. now apply Hi.
  Qed.
  Lemma step_refl X Y st d L : sync st d L -> step X Y st d L st d L.
  Proof. intros H. constructor; auto using incl_refl; try lia. Qed.
  Lemma step_trans (X Y : N -> Prop) st d L st1 d1 L1 st2 d2 L2 : (forall b, X b -> (b < d_next d)%N) ->
    step X Y st d L st1 d1 L1 -> step X Y st1 d1 L1 st2 d2 L2 -> step X Y st d L st2 d2 L2.
  Proof.
    intros HX [A1 A2 A3 A4 A5 A6 A7] [B1 B2 B3 B4 B5 B6 B7]. constructor.
    - exact B1.
    - eauto using incl_tran.
    - lia.
    - intros b Hb Hn. rewrite B4, A4; auto. lia.
    - intros a b Hi. destruct (B5 a b Hi) as [Hi1|[Hb Hc]]; [|right; split; [lia|exact Hc]].
      destruct (A5 a b Hi1) as [|[Hb Hc]]; [auto|]. right. split; [exact Hb|].
      eapply complete_mono; [exact B2| |exact Hc]. apply B4; [exact (sy_low _ _ _ A1 a b Hi1)|].
      intros Hx. apply HX in Hx. lia.
    - eauto.
    - intros a id Hk Hn. rewrite (B7 a id), (A7 a id); eauto.
  Qed.
  Lemma step_weaken (X Y X' Y' : N -> Prop) st d L st2 d2 L2 : (forall b, X b -> X' b) -> (forall b, Y b -> Y' b) ->
    step X Y st d L st2 d2 L2 -> step X' Y' st d L st2 d2 L2.
  Proof.
    intros HX HY [A1 A2 A3 A4 A5 A6 A7]. constructor; auto. intros a id H1 H2. apply (A7 a id); auto.
  Qed.
  Lemma step_none X Y st d L st2 d2 L2 : step none none st d L st2 d2 L2 -> step X Y st d L st2 d2 L2.
  Proof. apply step_weaken; intros ? []. Qed.

  (** Only the heap of the reader differs, and only at an object being filled. *)
  Lemma sync_heap st d d' L : sync st d L -> d_next d' = d_next d -> d_refs d' = d_refs d -> d_tns d' = d_tns d -> sync st d' L.
  Proof. intros [A1 A2 A3 A4 A5 A6 A7] E1 E2 E3. constructor; rewrite ?E1, ?E2, ?E3; auto. Qed.
  Lemma step_modify (X Y : N -> Prop) st d L b f : sync st d L -> X b -> step X Y st d L st (modify d b f) L.
  Proof.
    intros H Hb. unfold modify. destruct (aget b (d_heap d)) as [o|] eqn:E; [|now apply step_refl].
    constructor; auto using incl_refl; try (cbn [put d_next]; lia).
    - eapply sync_heap; [exact H|reflexivity..].
    - intros c Hc Hx. cbn [put d_heap]. rewrite aget_aset. destruct (N.eqb_spec c b); [subst; contradiction|reflexivity].
  Qed.
  Lemma modify_get d b f o : aget b (d_heap d) = Some o -> aget b (d_heap (modify d b f)) = Some (f o).
  Proof. intros E. unfold modify. rewrite E. cbn [put d_heap]. rewrite aget_aset, N.eqb_refl. reflexivity. Qed.
  Lemma modify_next d b f : d_next (modify d b f) = d_next d.
  Proof. unfold modify. now destruct (aget b (d_heap d)). Qed.
  Lemma modify_refs d b f : d_refs (modify d b f) = d_refs d.
  Proof. unfold modify. now destruct (aget b (d_heap d)). Qed.
  Lemma modify_tns d b f : d_tns (modify d b f) = d_tns d.
  Proof. unfold modify. now destruct (aget b (d_heap d)). Qed.
  Lemma modify_other d b f c : c <> b -> aget c (d_heap (modify d b f)) = aget c (d_heap d).
  Proof.
    intros H. unfold modify. destruct (aget b (d_heap d)); [|reflexivity]. cbn [put d_heap]. rewrite aget_aset.
    destruct (N.eqb_spec c b); [contradiction|reflexivity].
  Qed.

  (** ** Type names *)
  Lemma tns_ok_put tns dt n : tns_ok tns dt -> tns_ok (tns ++ [n]) (sset (dec (N.of_nat (length tns))) (full lx n) dt).
  Proof.
    intros H i m E. rewrite sget_sset. destruct (Nat.lt_ge_cases i (length tns)) as [Hi|Hi].
    - rewrite nth_error_app1 in E by exact Hi. rewrite name_eqb_neq; [auto|]. intros F. apply dec_inj in F. lia.
    - rewrite nth_error_app2 in E by exact Hi. destruct (i - length tns) as [|j] eqn:Ej; [|destruct j; discriminate].
      injection E as <-. replace i with (length tns) by lia. now rewrite name_eqb_refl.
  Qed.
  Definition no_tn (l : list xml) : Prop := Forall (fun x => is_tn (x_tag x) = false /\ is_tnref (x_tag x) = false) l.
  Lemma tn_texts_app a b : tn_texts (a ++ b) = tn_texts a ++ tn_texts b.
  Proof. unfold tn_texts. now rewrite filter_app, flat_map_app. Qed.
  Lemma tn_texts_no l : no_tn l -> tn_texts l = [].
  Proof. induction 1 as [|x l [H _] _ IH]; [reflexivity|]. unfold tn_texts in *. cbn [filter]. now rewrite H. Qed.
  Lemma find_tag_app f a b : (Forall (fun x => f (x_tag x) = false) a) -> find_tag f (a ++ b) = find_tag f b.
  Proof. induction 1 as [|x l H _ IH]; [reflexivity|]. cbn [app find_tag]. now rewrite H. Qed.
  Lemma read_names_written st names tn st1 d before after :
    write_names st names = (tn, st1) -> tns_ok (s_tns st) (d_tns d) -> match names with [] => True | n :: r => full lx n = n :: r end ->
    no_tn before -> no_tn after ->
    exists dt, read_names d (before ++ tn ++ after) = Ok (names, mkD (d_heap d) (d_next d) (d_refs d) dt)
      /\ tns_ok (s_tns st1) dt /\ s_refs st1 = s_refs st /\ s_next st1 = s_next st /\ s_heap st1 = s_heap st
      /\ Forall (fun x => is_tn (x_tag x) = true \/ is_tnref (x_tag x) = true) tn.
  Proof.
    intros Hw Ht Hn Hb Ha. destruct names as [|n r]; cbn [write_names] in Hw.
    - injection Hw as <- <-. exists (d_tns d). unfold read_names. rewrite tn_texts_app, !tn_texts_no; auto.
      cbn [app]. rewrite find_tag_app by (eapply Forall_impl; [|exact Hb]; cbv beta; tauto).
      rewrite <- (app_nil_r after), find_tag_app by (eapply Forall_impl; [|exact Ha]; cbv beta; tauto).
      cbn [find_tag]. destruct d; auto 10.
    - assert (Forall (fun x => is_tn (x_tag x) = false) before) as Hb1 by (eapply Forall_impl; [|exact Hb]; cbv beta; tauto).
      assert (Forall (fun x => is_tnref (x_tag x) = false) before) as Hb2 by (eapply Forall_impl; [|exact Hb]; cbv beta; tauto).
      destruct (index_of n (s_tns st)) as [i|] eqn:E; injection Hw as <- <-.
      + exists (d_tns d). unfold read_names. rewrite !tn_texts_app, (tn_texts_no before), (tn_texts_no after) by auto.
        replace (tn_texts [Elem TgTNRef [(AtRefId, dec (N.of_nat i))] [] []]) with (@nil name) by reflexivity.
        cbn [app]. rewrite find_tag_app by exact Hb2. cbn [find_tag x_tag is_tnref x_attrs attr_get attr_eqb].
        apply index_of_nth in E. rewrite (Ht _ _ E), Hn. destruct d as [dh dn dr dt]; cbn [d_heap d_next d_refs d_tns].
        split; [reflexivity|]. do 4 (split; [auto|]). constructor; [right; reflexivity|constructor].
      + exists (sset (dec (N.of_nat (length (s_tns st)))) (n :: r) (d_tns d)).
        unfold read_names. rewrite !tn_texts_app, (tn_texts_no before), (tn_texts_no after) by auto.
        assert (tn_texts [Elem TgTN [(AtRefId, dec (N.of_nat (length (s_tns st))))] [] (map (fun t => Elem TgT [] t []) (n :: r))] = n :: r) as F.
        { unfold tn_texts. cbn [filter x_tag is_tn flat_map x_kids]. rewrite app_nil_r. generalize (n :: r). clear.
          induction l as [|m l IH]; [reflexivity|]. cbn [map filter x_tag is_t x_text]. now rewrite IH. }
        cbn [map] in F. rewrite F. cbn [app]. rewrite app_nil_r. rewrite find_tag_app by exact Hb1.
        cbn [find_tag x_tag is_tn x_attrs attr_get attr_eqb s_tns s_refs s_next s_heap].
        split; [reflexivity|]. split; [rewrite <- Hn; now apply tns_ok_put|]. do 3 (split; [reflexivity|]).
        constructor; [left; reflexivity|constructor].
  Qed.

  (** ** A new object *)
  Lemma prim_key_addr a p k : prim_key a p = Some k -> match k with KMember _ _ => False | KAddr b => a = b | _ => True end.
  Proof. destruct p; cbn [prim_key]; try discriminate; intros [= <-]; auto. Qed.
  Lemma obj_key_addr a k : obj_key a = Some k -> match k with KMember _ _ => False | KAddr b => a = b | _ => True end.
  Proof.
    unfold obj_key. destruct (aget a h0) as [o|]; [|discriminate]. destruct (g_body o); cbn [ref_key]; try discriminate.
    - intros [= <-]. reflexivity.
    - apply prim_key_addr.
    - intros [= <-]. reflexivity.
    - intros [= <-]. reflexivity.
  Qed.
  Lemma obj_key_inj a b k : obj_key a = Some k -> obj_key b = Some k -> a = b.
  Proof.
    intros Ha Hb. pose proof (obj_key_addr a k Ha) as Ka. pose proof (obj_key_addr b k Hb) as Kb.
    unfold obj_key in *. destruct (aget a h0) as [o|] eqn:Ea; [|discriminate]. destruct (aget b h0) as [o'|] eqn:Eb; [|discriminate].
    destruct k; try congruence; try contradiction.
    all: destruct (g_body o) as [|p|? ?|?|?|? ?|] eqn:Ba; cbn [ref_key] in Ha; try discriminate;
      destruct (g_body o') as [|q|? ?|?|?|? ?|] eqn:Bb; cbn [ref_key] in Hb; try discriminate;
      apply (gg_twins _ _ _ HG a b o o' p q Ea Eb Ba Bb); destruct p; cbn [prim_key] in Ha; try discriminate;
      destruct q; cbn [prim_key] in Hb; try discriminate; cbn [twins]; try congruence; auto.
    injection Ha as <- <-. injection Hb as H1 H2. split; [|rewrite <- !instant_moment; congruence].
    destruct (dt_tz d), (dt_tz d0); try discriminate; split; congruence.
  Qed.

  Definition ref_step (r : list N) (v : value) (dr dr' : list (list N * value)) : Prop :=
    sget r dr' = Some v /\ forall s, s <> r -> sget s dr' = sget s dr.
  Lemma ref_step_set r v dr : ref_step r v dr (sset r v dr).
  Proof.
    split; [now rewrite sget_sset, name_eqb_refl|]. intros s Hs. rewrite sget_sset. now rewrite name_eqb_neq.
  Qed.
  Lemma ref_step_trans r v w a b c : ref_step r v a b -> ref_step r w b c -> ref_step r w a c.
  Proof. intros [_ H1] [H2 H3]. split; [exact H2|]. intros s Hs. rewrite H3, H1; auto. Qed.

  (** [st1] is [st] with object [a] numbered; [d1] knows that number and has an object for it. *)
  Lemma sync_new st d L a b id used st1 d1 o :
    sync st d L -> aget a h0 = Some o -> get_ref_id st (obj_key a) = (id, used, st1) -> used = false ->
    (d_next d <= b < d_next d1)%N -> ref_step (dec id) (VRef b) (d_refs d) (d_refs d1) -> d_tns d1 = d_tns d ->
    sync st1 d1 ((a, b) :: L).
  Proof.
    intros [A1 A2 A3 A4 A5 A6 A7] Ho Hr -> Hb [R1 R2] Ht.
    assert (id = s_next st) as ->.
    { unfold get_ref_id in Hr. destruct (obj_key a) as [k|]; [destruct (key_get k (s_refs st)); [discriminate|]|]; now injection Hr. }
    assert (forall k i, key_get k (s_refs st) = Some i -> dec i <> dec (s_next st)) as Hne.
    { intros k i Hk E. apply dec_inj in E. apply A2 in Hk. lia. }
    assert (s_tns st1 = s_tns st /\ s_heap st1 = s_heap st /\ s_next st1 = (s_next st + 1)%N
            /\ (forall k, key_get k (s_refs st1) = match obj_key a with Some k' => if key_eqb k k' then Some (s_next st) else key_get k (s_refs st)
                                                   | None => key_get k (s_refs st) end)
            /\ (forall k, obj_key a = Some k -> key_get k (s_refs st) = None)) as (E1 & E2 & E3 & E4 & E5).
    { unfold get_ref_id in Hr. destruct (obj_key a) as [k|]; [destruct (key_get k (s_refs st)) eqn:F; [discriminate|]|];
        injection Hr as <-; cbn [s_tns s_heap s_next s_refs key_get]; repeat split; auto; congruence. }
    constructor.
    - rewrite E1, Ht. exact A1.
    - intros k i Hk. rewrite E4 in Hk. rewrite E3.
      assert ((key_get k (s_refs st) = Some i) \/ (obj_key a = Some k /\ i = s_next st)) as [Hk'|[Hk' ->]].
      { destruct (obj_key a) as [k'|]; [|auto]. destruct (key_eqb k k') eqn:F; [|auto]. apply key_eqb_iff in F. subst. right. split; congruence. }
      + destruct (A2 k i Hk') as (Hi & v & Hv & Hkv). split; [lia|]. exists v. rewrite R2 by eauto. split; [exact Hv|].
        destruct k; cbn [key_val] in *; auto; destruct Hkv as (x & y & H1 & H2 & H3); exists x, y; cbn [In]; auto.
      + split; [lia|]. exists (VRef b). split; [exact R1|].
        pose proof (obj_key_addr a k Hk') as Hm. destruct k; cbn [key_val]; try contradiction; exists a, b; cbn [In]; auto.
    - intros x y [E|Hi]; [injection E as <- <-; lia|]. specialize (A3 x y Hi). lia.
    - intros x y [E|Hi]; [injection E as <- <-; eauto|eauto].
    - intros x y k [E|Hi] Hk.
      + injection E as <- <-. exists (s_next st). split; [rewrite E4, Hk, key_eqb_refl; reflexivity|exact R1].
      + destruct (A5 x y k Hi Hk) as (i & Hi1 & Hi2). exists i. split; [|rewrite R2 by eauto; exact Hi2].
        rewrite E4. destruct (obj_key a) as [k'|]; [|exact Hi1]. destruct (key_eqb k k') eqn:F; [|exact Hi1].
        apply key_eqb_iff in F. subst k'. rewrite E5 in Hi1 by reflexivity. discriminate.
    - intros x x' y [E|Hi] [E'|Hi'].
      + congruence.
      + injection E as <- <-. apply A3 in Hi'. lia.
      + injection E' as <- <-. apply A3 in Hi. lia.
      + eauto.
    - intros x. rewrite E2. destruct (A7 x) as [F|(q & q' & n & s & ad & ex & i & F1 & F2 & F3)]; [auto|]. right.
      exists q, q', n, s, ad, ex, i. rewrite E2. do 2 (split; [assumption|]). rewrite E4.
      destruct (obj_key a) as [k'|]; [|exact F3]. destruct (key_eqb (KAddr x) k') eqn:F; [|exact F3].
      apply key_eqb_iff in F. subst k'. rewrite E5 in F3 by reflexivity. discriminate.
  Qed.
  (** The writer's type name table moves on with the reader's. *)
  Lemma sync_tns st d L st1 d1 : sync st d L -> tns_ok (s_tns st1) (d_tns d1) -> s_refs st1 = s_refs st -> s_next st1 = s_next st ->
    s_heap st1 = s_heap st -> d_next d1 = d_next d -> d_refs d1 = d_refs d -> sync st1 d1 L.
  Proof.
    intros [A1 A2 A3 A4 A5 A6 A7] Ht E1 E2 E3 E4 E5. constructor; rewrite ?E1, ?E2, ?E3, ?E4, ?E5; auto.
    intros x. destruct (A7 x) as [F|(q & q' & n & s & ad & ex & i & F1 & F2 & F3)]; [auto|]. right.
    exists q, q', n, s, ad, ex, i. rewrite E1, E3. auto.
  Qed.
End Sim.
