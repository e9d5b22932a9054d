(** CLIXML: what was written is read back as the same graph. *)
From Coq Require Import String.
From Verif Require Import Base BaseFacts Model_Scalars Model_Strings Model_Text Model_Object Model_Clixml.
From Verif Require Import Spec_Strings Spec_Scalars Spec_Clixml Proofs_Clixml1 Proofs_Clixml2 Proofs_Clixml3 Proofs_Clixml4.
Local Open Scope list_scope.
Local Open Scope nat_scope.

Section Main.
  Variable reg : registry.
  Variable lx : lexicon.
  Variable h0 : heap.
  Hypothesis HG : good_graph reg lx h0.
  Notation sync := (sync reg lx h0).
  Notation step := (step reg lx h0).
  Notation good_value := (good_value reg lx).
  Notation simulates := (simulates reg lx h0).
  Notation obj_key := (obj_key h0).
  Notation complete := (complete reg h0).

  Lemma Ok_pair {A B : Type} (x y : A) (z w : B) : Ok (x, z) = Ok (y, w) -> x = y /\ z = w.
  Proof. intros E. injection E. auto. Qed.
  Lemma member_eta e : mkE (e_names e) (e_type e) (e_val e) (e_text e) = e.
  Proof. now destruct e. Qed.
  Lemma sync_member st d L e id st1 d1 :
    sync st d L -> good_member reg lx e -> get_ref_id st (Some (KMember (e_names e) (e_val e))) = (id, false, st1) ->
    d_next d1 = d_next d -> ref_step (dec id) (VEnum e) (d_refs d) (d_refs d1) -> d_tns d1 = d_tns d -> sync st1 d1 L.
  Proof.
    intros Hy He Hr Hn [R1 R2] Ht. destruct (get_ref_fresh _ _ _ _ Hr) as (-> & E1 & E2 & E3 & E4 & E5).
    destruct Hy as [A1 A2 A3 A4 A5 A6 A7].
    assert (forall k i, key_get k (s_refs st) = Some i -> dec i <> dec (s_next st)) as Hne.
    { intros k i Hk E. apply dec_inj in E. apply A2 in Hk. lia. }
    constructor; rewrite ?Hn, ?Ht, ?E1; auto.
    - intros k i Hk. rewrite E4 in Hk. rewrite E3. destruct (key_eqb k (KMember (e_names e) (e_val e))) eqn:F.
      + apply key_eqb_iff in F. subst k. injection Hk as <-. split; [lia|]. exists (VEnum e). split; [exact R1|]. exists e. auto.
      + destruct (A2 k i Hk) as (Hi & v & Hv & Hkv). split; [lia|]. exists v. rewrite R2 by eauto. auto.
    - intros x y k Hi Hk. destruct (A5 x y k Hi Hk) as (i & Hi1 & Hi2). exists i. split; [|rewrite R2 by eauto; exact Hi2].
      rewrite E4. destruct (key_eqb k _) eqn:F; [|exact Hi1]. apply key_eqb_iff in F. subst k.
      rewrite E5 in Hi1 by reflexivity. discriminate.
    - intros x. rewrite E2. destruct (A7 x) as [F|(q & q' & n & s & ad & ex & i & F1 & F2 & F3)]; [auto|]. right.
      exists q, q', n, s, ad, ex, i. rewrite E2. do 2 (split; [assumption|]). rewrite E4. exact F3.
  Qed.
  (** A step that touches no object. *)
  Lemma step_states st d L st1 d1 : sync st1 d1 L -> d_heap d1 = d_heap d -> d_next d1 = d_next d -> s_heap st1 = s_heap st ->
    (forall k i, key_get k (s_refs st) = Some i -> key_get k (s_refs st1) = Some i) -> step none none st d L st1 d1 L.
  Proof.
    intros Hy E1 E2 E3 Hm. constructor; auto using incl_refl; rewrite ?E1, ?E2, ?E3; auto; lia.
  Qed.

  Lemma enum_case f st e x st2 d L : good_member reg lx e -> ser (S f) st (VEnum e) = Ok (x, st2) -> sync st d L ->
    exists v' d2 L2, reads reg x d v' d2 /\ same_value (inL L2) (VEnum e) v' /\ step none none st d L st2 d2 L2.
  Proof.
    intros He E Hy. cbn [ser] in E. destruct (get_ref_id st (Some (KMember (e_names e) (e_val e)))) as [[id used] st1] eqn:Hr.
    destruct used.
    - injection E as <- <-. unfold get_ref_id in Hr. destruct (key_get (KMember (e_names e) (e_val e)) (s_refs st)) as [i|] eqn:Hk; [|discriminate].
      injection Hr as -> <-. destruct (sy_refs _ _ _ _ _ _ Hy _ _ Hk) as (Hi & v & Hv & e' & -> & H1 & H2 & H3).
      exists (VEnum e'), d, L. split; [|split; [|now apply step_refl]].
      + intros g Hg. destruct (height_pos _ _ Hg) as (g' & ->). cbn [deser attr_get attr_eqb]. now rewrite Hv.
      + rewrite (good_member_unique reg lx e' e) by auto. constructor.
    - destruct (write_names st1 (e_names e)) as [tn stA] eqn:Hw. apply Ok_pair in E. destruct E as [<- <-].
      destruct (get_ref_fresh _ _ _ _ Hr) as (-> & F2 & F3 & F4 & F5 & F6).
      pose proof He as (n & rr & c & fl & vs & H1 & H2 & H3 & H4 & H5 & H6 & H7 & H8 & H9).
      destruct (read_names_written lx st1 (e_names e) tn stA d [prim_elem (PInt (e_type e) (e_val e))] (string_elem (Some (e_text e))) Hw)
        as (dt & Hrn & Htn & G1 & G2 & G3 & Ht); auto using no_tn_prim, no_tn_string.
      { rewrite F2. exact (sy_tns _ _ _ _ _ _ Hy). }
      { now rewrite H1. }
      set (r := dec (s_next st)) in *.
      set (e0 := mkE (e_names e) (e_type e) (e_val e) []).
      set (d2 := mkD (d_heap d) (d_next d) (sset r (VEnum e) (sset r (VEnum e0) (d_refs d))) dt).
      exists (VEnum e), d2, L. split; [|split; [constructor|]].
      + intros g Hg. destruct (height_pos _ _ Hg) as (g' & ->). apply height_kids in Hg.
        inversion Hg as [|? ? Hg1 _]; subst. assert (1 <= g') as Hg2 by (destruct (height_pos _ _ Hg1) as (g'' & ->); lia).
        cbn [deser]. unfold read_object. cbn [attr_get attr_eqb app] in *. fold r. rewrite Hrn. cbn [bind fst snd].
        replace (rehydrate reg _ (e_names e) (Some r)) with
          (@None value, @None cls, Some c, c_names c, mkD (d_heap d) (d_next d) (d_refs d) dt).
        2:{ unfold rehydrate. cbv zeta. rewrite H1.
            replace (match n with [] => None | _ => reg n end) with (Some c) by (destruct n; [discriminate|symmetry; exact H3]).
            now rewrite H4. }
        cbn [read_children].
        assert (forall l, read_child (deser reg g') (Some r) (Some c) l (prim_elem (PInt (e_type e) (e_val e))) =
          Ok (mkL (update_ref (l_d l) (Some r) (VEnum e0)) (Some (VEnum e0)) None (l_props l) (l_ms l) (l_str l))) as HC.
        { intros l. unfold read_child. cbn [prim_elem x_tag].
          change (Elem (TgInt (e_type e)) [] (write_int (e_val e)) []) with (prim_elem (PInt (e_type e) (e_val e))).
          rewrite prim_deser_ge by assumption. cbn [bind fst snd prim_back]. unfold make_member. rewrite H4.
          replace (fl || existsb (Z.eqb (e_val e)) vs) with true.
          2:{ destruct H6 as [->|Hi]; [reflexivity|]. symmetry. apply orb_true_iff. right. apply existsb_exists. exists (e_val e).
              split; [exact Hi|apply Z.eqb_refl]. }
          cbn [bind]. unfold e0. now rewrite H5, <- H1. }
        rewrite HC. cbn [bind l_d l_props l_ms l_str update_ref d_heap d_next d_refs d_tns]. rewrite children_tn by exact Ht.
        destruct (e_text e) as [|ch s] eqn:Et.
        * cbn [string_elem read_children bind l_val l_str l_props l_ms l_d update_ref d_heap d_next d_refs d_tns].
          assert (e0 = e) as E0 by (transitivity (mkE (e_names e) (e_type e) (e_val e) (e_text e)); [unfold e0; now rewrite Et|apply member_eta]).
          unfold d2. now rewrite E0.
        * destruct (children_string (Some (ch :: s))) as ([s'|] & Hsm & HS'); [split; [discriminate|split; apply H9]| |destruct Hsm].
          apply Hsm in H9. subst s'. rewrite HS'.
          cbn [bind l_val l_str l_props l_ms l_d update_ref d_heap d_next d_refs d_tns e0 e_names e_type e_val].
          assert (mkE (e_names e) (e_type e) (e_val e) (ch :: s) = e) as E0 by (transitivity (mkE (e_names e) (e_type e) (e_val e) (e_text e)); [unfold e0; now rewrite Et|apply member_eta]).
          rewrite E0. reflexivity.
      + apply step_states; try reflexivity.
        * eapply (sync_tns reg lx h0 st1 (mkD (d_heap d2) (d_next d2) (d_refs d2) (d_tns d))); try assumption; try reflexivity.
          eapply sync_member; [exact Hy|exact He|exact Hr|reflexivity| |reflexivity]. cbn [d_refs d2].
          eapply ref_step_trans; apply ref_step_set.
        * congruence.
        * intros k i Hk. rewrite G1. eapply refs_mono; eauto.
  Qed.

  (** A value already written: a Ref. *)
  Lemma ref_case st d L a id : sync st d L -> (exists k, obj_key a = Some k /\ key_get k (s_refs st) = Some id) ->
    exists v' d2 L2, reads reg (Elem TgRef [(AtRefId, dec id)] [] []) d v' d2 /\ same_value (inL L2) (VRef a) v' /\ step none none st d L st d2 L2.
  Proof.
    intros Hy (k & Hk & Hg). destruct (sy_refs _ _ _ _ _ _ Hy _ _ Hg) as (Hi & v & Hv & Hkv).
    assert (exists x y, v = VRef y /\ In (x, y) L /\ obj_key x = Some k) as (x & y & -> & Hin & Hx).
    { pose proof (obj_key_addr h0 a k Hk). destruct k; try contradiction; exact Hkv. }
    rewrite (obj_key_inj reg lx h0 HG x a k Hx Hk) in Hin.
    exists (VRef y), d, L. split; [|split; [constructor; exact Hin|now apply step_refl]].
    intros g H. destruct (height_pos _ _ H) as (g' & ->). cbn [deser attr_get attr_eqb]. now rewrite Hv.
  Qed.

  Lemma good_adapted o c : good_names reg lx o -> registered reg (g_names o) = Some c ->
    c_kind c = kind_of (g_body o) /\ c_names c = g_names o /\ (exists r, map fst (g_adapted o) = c_adapted c ++ r)
    /\ (exists r, map fst (g_extended o) = c_extended c ++ r).
  Proof. intros [_ H]. apply H. Qed.
  Lemma good_full o : good_names reg lx o -> match g_names o with [] => True | n :: r => full lx n = n :: r end.
  Proof. intros [H _]. destruct (g_names o); [exact I|exact H]. Qed.
  Lemma decl_of o k : good_names reg lx o -> kind_of (g_body o) = k -> decl_ok reg (g_names o) (g_adapted o) (g_extended o) k.
  Proof. intros H <- c Hc. destruct (good_adapted o c H Hc) as (K1 & K2 & K3 & K4). auto. Qed.
  Lemma default_class o c0 : good_names reg lx o -> c_adapted c0 = [] -> c_extended c0 = [] ->
    let c := match registered reg (g_names o) with Some c => c | None => c0 end in
    (exists r, map fst (g_adapted o) = c_adapted c ++ r) /\ (exists r, map fst (g_extended o) = c_extended c ++ r).
  Proof.
    intros H E1 E2 c. unfold c. destruct (registered reg (g_names o)) as [c1|] eqn:E.
    - apply (good_adapted o c1 H E).
    - rewrite E1, E2. split; eexists; reflexivity.
  Qed.

  Lemma object_case f : simulates f -> forall st a o x st2 d L id st1,
    sync st d L -> aget a h0 = Some o -> aget a (s_heap st) = Some o -> get_ref_id st (obj_key a) = (id, false, st1) ->
    ser_object (ser f) st1 id a o = Ok (x, st2) ->
    exists v' d2 L2, reads reg x d v' d2 /\ same_value (inL L2) (VRef a) v' /\ step none none st d L st2 d2 L2.
  Proof.
    intros HS st a o x st2 d L id st1 Hy Ho Hh Hr E. pose proof (gg_objects _ _ _ HG a o Ho) as [Hb Hg].
    unfold ser_object in E. cbv zeta in E.
    destruct (g_body o) as [|p|k l|l|l|cls attrs|] eqn:Eb.
    - (* plain *)
      unfold good_body in Hb. rewrite Eb in Hb. destruct Hg as (Hn & Ha & He & _). cbn [fst snd] in E.
      destruct (write_names st1 (g_names o)) as [tn stA] eqn:Hw. binds E. destruct r as [xa stB], r0 as [xe stC], r1 as [xb stD].
      cbn [fst snd] in *. unfold ser_body in E2. rewrite Eb in E2. injection E2 as <- <-. injection E as <- <-. cbn [app].
      destruct (plain_case reg lx h0 f st d L a o id st1 (g_names o) (g_string o) (g_adapted o) (g_extended o) tn stA xa stB xe stC)
        as (d2 & L2 & str' & ad' & ex' & Hstr & R & I2 & O2 & Sa & Se & P);
        auto using good_full, decl_of; [now apply good_full|apply decl_of; [exact Hn|now rewrite Eb]|].
      exists (VRef (d_next d)), d2, L2. split; [exact R|]. split; [constructor; exact I2|]. apply P.
      exists o, (mkG BPlain (names_back reg (g_names o)) str' ad' ex'). split; [exact Ho|]. split; [exact O2|].
      unfold same_object. rewrite Eb. cbn [g_body g_string g_names g_adapted g_extended]. auto.
    - (* extended primitive *)
      unfold good_body in Hb. rewrite Eb in Hb. destruct Hb as (Hp & Hnp & Hnm & _). rewrite <- prim_names_net in Hnm. destruct Hg as (_ & Ha & He & _). cbn [fst snd write_names] in E.
      binds E. destruct r as [xa stB], r0 as [xe stC], r1 as [xb stD].
      cbn [fst snd] in *. unfold ser_body in E2. rewrite Eb in E2. injection E2 as <- <-. injection E as <- <-.
      destruct (prim_case reg lx h0 f st d L a o id st1 p (g_adapted o) (g_extended o) xa stB xe stC)
        as (d2 & L2 & ad' & ex' & R & I2 & O2 & Sa & Se & P); auto.
      exists (VRef (d_next d + 1)), d2, L2. split; [exact R|]. split; [constructor; exact I2|]. apply P.
      eexists; eexists. split; [exact Ho|]. split; [exact O2|]. unfold same_object. rewrite Eb.
      cbn [g_body g_string g_names g_adapted g_extended]. auto.
    - (* list *)
      unfold good_body in Hb. rewrite Eb in Hb. destruct Hg as (Hn & Ha & He & Hpl). specialize (Hpl I). cbn [fst snd] in E.
      destruct (write_names st1 (g_names o)) as [tn stA] eqn:Hw. binds E. destruct r as [xa stB], r0 as [xe stC], r1 as [xb stD].
      cbn [fst snd] in *. unfold ser_body in E2. rewrite Eb in E2. binds E2. destruct r as [xs stE]. cbn [fst snd] in *. injection E2 as <- <-.
      injection E as <- <-. cbn [app].
      destruct (default_class o (cls_list k) Hn eq_refl eq_refl) as [Ca Ce].
      set (c := match registered reg (g_names o) with Some c => c | None => cls_list k end) in *.
      assert (blank c = mkG (BList k []) (c_names c) None (null_props (c_adapted c)) (null_props (c_extended c))) as Hbl.
      { unfold blank, c. destruct (registered reg (g_names o)) as [c1|] eqn:Hc; [|reflexivity].
        destruct (good_adapted o c1 Hn Hc) as (K1 & _). rewrite Eb in K1. rewrite K1. reflexivity. }
      destruct (container_case reg lx h0 none f st d L a o id st1 (g_names o) (g_adapted o) (g_extended o) (CList k) tn stA xa stB xe stC stE
                  false c (Elem (TgList k) [] [] xs) (fun go d b => read_items go d b xs)
                  (fun LB body => exists l', body = BList k l' /\ Forall2 (same_value (inL LB)) l l'))
        as (d2 & L2 & body & R & I2 & O2 & (l' & -> & Sl) & -> & P);
        auto.
      + now apply good_full.
      + apply decl_of; [exact Hn|now rewrite Eb].
      + apply names_back_nonempty with (lx := lx); [exact Hn|congruence|congruence].
      + intros x [].
      + discriminate.
      + intros go dR pa pe Hdr. exists (Some c). unfold read_child. cbn [x_tag l_cls l_val l_d l_props l_ms l_str].
        replace (match registered reg (g_names o) with Some c0 => match c_kind c0 with CList _ => c0 | _ => cls_list k end | None => cls_list k end) with c.
        2:{ unfold c. destruct (registered reg (g_names o)) as [c1|] eqn:Hc; [|reflexivity].
            destruct (good_adapted o c1 Hn Hc) as (K1 & _). rewrite Eb in K1. rewrite K1. reflexivity. }
        unfold alloc, start_fill. cbn [update_ref d_heap d_next d_refs d_tns]. rewrite Hdr. reflexivity.
      + intros dA HyA HoA. rewrite Hbl in HoA.
        assert (d_next d + 1 < d_next dA)%N as HbA by (apply (sy_low _ _ _ _ _ _ HyA a); now left).
        destruct (list_loop reg lx h0 f HS l stC xs stE dA ((a, d_next d + 1)%N :: L) (d_next d + 1) _ Hb E3 HyA HbA HoA) as (dB & LB & l' & R & Sl & OB & PB).
        exists dB, LB, (BList k l'). split; [|split; [exact PB|split]].
        * intros g Hg. apply hmax_kid in Hg. destruct Hg as (g' & -> & Hg). apply R. eapply hmax_le; [exact Hg|lia].
        * rewrite OB. rewrite (append_list k []) by reflexivity. reflexivity.
        * eauto.
      + exists (VRef (d_next d + 1)), d2, L2. split; [exact R|]. split; [constructor; exact I2|]. apply P.
        eexists; eexists. split; [exact Ho|]. split; [exact O2|]. unfold same_object. rewrite Eb.
        cbn [g_body g_string g_names g_adapted g_extended]. apply Forall_app in Hpl. destruct Hpl as [Pa Pe].
        split; [eauto|]. split; [reflexivity|]. split; eapply back_props_same; eauto; [apply Ha|apply He].
    - (* queue *)
      unfold good_body in Hb. rewrite Eb in Hb. destruct Hg as (Hn & Ha & He & Hpl). specialize (Hpl I). cbn [fst snd] in E.
      destruct (write_names st1 (g_names o)) as [tn stA] eqn:Hw. binds E. destruct r as [xa stB], r0 as [xe stC], r1 as [xb stD].
      cbn [fst snd] in *. unfold ser_body in E2. rewrite Eb in E2. binds E2. destruct r as [xs stE]. cbn [fst snd] in *. injection E2 as <- <-.
      injection E as <- <-. cbn [app].
      assert (obj_key a = Some (KAddr a)) as Hok by (unfold Proofs_Clixml2.obj_key; rewrite Ho, Eb; reflexivity).
      destruct (default_class o cls_queue Hn eq_refl eq_refl) as [Ca Ce].
      set (c := match registered reg (g_names o) with Some c => c | None => cls_queue end) in *.
      set (keep := match registered reg (g_names o) with Some _ => true | None => false end).
      assert (blank c = mkG (BQueue []) (c_names c) None (null_props (c_adapted c)) (null_props (c_extended c))) as Hbl.
      { unfold blank, c. destruct (registered reg (g_names o)) as [c1|] eqn:Hc; [|reflexivity].
        destruct (good_adapted o c1 Hn Hc) as (K1 & _). rewrite Eb in K1. rewrite K1. reflexivity. }
      assert (stC = stA) as EC.
      { apply Forall_app in Hpl. destruct Hpl as [Pa Pe].
        destruct (plain_props reg lx f add_adapted _ _ _ _ (proj2 Ha) Pa E0) as [-> _].
        now destruct (plain_props reg lx f add_extended _ _ _ _ (proj2 He) Pe E1) as [-> _]. }
      set (b := if keep then d_next d else (d_next d + 1)%N).
      destruct (container_case reg lx h0 (eq a) f st d L a o id st1 (g_names o) (g_adapted o) (g_extended o) CQueue tn stA xa stB xe stC stE
                  keep c (Elem TgQUE [] [] xs) (fun go d b => read_items go d b xs)
                  (fun LB body => exists l', body = BQueue l' /\ Forall2 (same_value (inL LB)) l l'))
        as (d2 & L2 & body & R & I2 & O2 & (l' & -> & Sl) & _ & P);
        auto.
      + now apply good_full.
      + apply decl_of; [exact Hn|now rewrite Eb].
      + apply names_back_nonempty with (lx := lx); [exact Hn|congruence|congruence].
      + intros x <-. destruct (get_ref_fresh _ _ _ _ Hr) as (_ & _ & _ & _ & _ & F6). now apply F6.
      + intros Hkp. unfold keep, c in *. destruct (registered reg (g_names o)); [reflexivity|discriminate].
      + intros go dR pa pe Hdr. unfold read_child. cbn [x_tag l_cls l_val l_d l_props l_ms l_str].
        replace (match registered reg (g_names o) with Some c0 => match c_kind c0 with CQueue => true | _ => false end | None => false end) with keep.
        2:{ unfold keep. destruct (registered reg (g_names o)) as [c1|] eqn:Hc; [|reflexivity].
            destruct (good_adapted o c1 Hn Hc) as (K1 & _). rewrite Eb in K1. rewrite K1. reflexivity. }
        fold b. unfold start_fill. subst b. destruct keep eqn:Ek.
        * eexists. reflexivity.
        * eexists. unfold alloc. cbn [update_ref d_heap d_next d_refs d_tns]. rewrite Hdr.
          replace cls_queue with c; [reflexivity|]. unfold keep, c in *. destruct (registered reg (g_names o)); [discriminate|reflexivity].
      + fold b. intros dA HyA HoA. rewrite Hbl in HoA.
        assert (b < d_next dA)%N as HbA by (apply (sy_low _ _ _ _ _ _ HyA a); now left).
        assert (stA = stC) as <- by congruence.
        destruct (sy_fun _ _ _ _ _ _ HyA a b (KAddr a) (or_introl eq_refl) Hok) as (i & Hki & _).
        destruct o as [ob on os oa oe]. cbn [g_body] in Eb. subst ob.
        assert (aget a (s_heap stA) = Some (mkG (BQueue l) on os oa oe)) as HhA.
        { destruct (get_ref_fresh _ _ _ _ Hr) as (_ & _ & F3 & _). replace (s_heap stA) with (s_heap st1); [now rewrite F3|].
          clear - Hw. unfold write_names in Hw. cbn [g_names] in Hw. destruct on as [|n r]; [injection Hw as _ <-; reflexivity|].
          destruct (index_of n (s_tns st1)); injection Hw as _ <-; reflexivity. }
        destruct (queue_loop reg lx h0 f HS l stA xs stE dA ((a, b) :: L) a b _ l on os oa oe i Hb Ho HhA Hki E3 HyA HbA HoA) as (dB & LB & l' & R & Sl & OB & PB).
        exists dB, LB, (BQueue l'). split; [|split; [exact PB|split]].
        * intros g Hg. apply hmax_kid in Hg. destruct Hg as (g' & -> & Hg). apply R. eapply hmax_le; [exact Hg|lia].
        * rewrite OB. rewrite (append_queue []) by reflexivity. reflexivity.
        * eauto.
      + fold b in R, I2, O2, P. exists (VRef b), d2, L2. split; [exact R|]. split; [constructor; exact I2|]. apply P.
        eexists; eexists. split; [exact Ho|]. split; [exact O2|]. unfold same_object. rewrite Eb.
        cbn [g_body g_string g_names g_adapted g_extended]. apply Forall_app in Hpl. destruct Hpl as [Pa Pe].
        split; [eauto|]. split; [reflexivity|]. split; eapply back_props_same; eauto; [apply Ha|apply He].
    - (* dictionary *)
      unfold good_body in Hb. rewrite Eb in Hb. destruct Hb as [Hb Hne]. destruct Hg as (Hn & Ha & He & Hpl). specialize (Hpl I). cbn [fst snd] in E.
      destruct (write_names st1 (g_names o)) as [tn stA] eqn:Hw. binds E. destruct r as [xa stB], r0 as [xe stC], r1 as [xb stD].
      cbn [fst snd] in *. unfold ser_body in E2. rewrite Eb in E2. binds E2. destruct r as [xs stE]. cbn [fst snd] in *. injection E2 as <- <-.
      injection E as <- <-. cbn [app].
      destruct (default_class o cls_dict Hn eq_refl eq_refl) as [Ca Ce].
      set (c := match registered reg (g_names o) with Some c => c | None => cls_dict end) in *.
      assert (blank c = mkG (BDict []) (c_names c) None (null_props (c_adapted c)) (null_props (c_extended c))) as Hbl.
      { unfold blank, c. destruct (registered reg (g_names o)) as [c1|] eqn:Hc; [|reflexivity].
        destruct (good_adapted o c1 Hn Hc) as (K1 & _). rewrite Eb in K1. rewrite K1. reflexivity. }
      destruct (container_case reg lx h0 none f st d L a o id st1 (g_names o) (g_adapted o) (g_extended o) CDict tn stA xa stB xe stC stE
                  false c (Elem TgDCT [] [] xs) (fun go d b => read_entries go d b xs)
                  (fun LB body => exists l', body = BDict l' /\ same_entries (inL LB) l l'))
        as (d2 & L2 & body & R & I2 & O2 & (l' & -> & Sl) & -> & P);
        auto.
      + now apply good_full.
      + apply decl_of; [exact Hn|now rewrite Eb].
      + apply names_back_nonempty with (lx := lx); [exact Hn|congruence|congruence].
      + intros x [].
      + discriminate.
      + intros go dR pa pe Hdr. exists (Some c). unfold read_child. cbn [x_tag l_cls l_val l_d l_props l_ms l_str].
        replace (match registered reg (g_names o) with Some c0 => match c_kind c0 with CDict => c0 | _ => cls_dict end | None => cls_dict end) with c.
        2:{ unfold c. destruct (registered reg (g_names o)) as [c1|] eqn:Hc; [|reflexivity].
            destruct (good_adapted o c1 Hn Hc) as (K1 & _). rewrite Eb in K1. rewrite K1. reflexivity. }
        unfold alloc, start_fill. cbn [update_ref d_heap d_next d_refs d_tns]. rewrite Hdr. reflexivity.
      + intros dA HyA HoA. rewrite Hbl in HoA.
        assert (d_next d + 1 < d_next dA)%N as HbA by (apply (sy_low _ _ _ _ _ _ HyA a); now left).
        destruct (dict_loop reg lx h0 f HS l stC xs stE dA ((a, d_next d + 1)%N :: L) (d_next d + 1) _ [] Hb Hne E3 HyA HbA HoA eq_refl) as (dB & LB & l' & R & Sl & OB & PB);
          [constructor|].
        exists dB, LB, (BDict l'). split; [|split; [exact PB|split]].
        * intros g Hg. apply hmax_kid in Hg. destruct Hg as (g' & -> & Hg). apply R. eapply hmax_le; [exact Hg|lia].
        * rewrite OB. reflexivity.
        * eauto.
      + exists (VRef (d_next d + 1)), d2, L2. split; [exact R|]. split; [constructor; exact I2|]. apply P.
        eexists; eexists. split; [exact Ho|]. split; [exact O2|]. unfold same_object. rewrite Eb.
        cbn [g_body g_string g_names g_adapted g_extended]. apply Forall_app in Hpl. destruct Hpl as [Pa Pe].
        split; [eauto|]. split; [reflexivity|]. split; eapply back_props_same; eauto; [apply Ha|apply He].
    - (* Python instance *)
      unfold good_body in Hb. rewrite Eb in Hb. destruct Hb as (ps & Hps & Hgp). cbn [fst snd ser_props bind] in E.
      destruct (write_names st1 custom_names) as [tn stA] eqn:Hw. cbn [bind fst snd] in E. apply bind_Ok in E.
      destruct E as ([xb stD] & E2 & E). cbn [fst snd] in *. unfold ser_body in E2. rewrite Eb in E2. binds E2. destruct r as [xe stC]. cbn [fst snd] in *.
      injection E2 as <- <-. injection E as <- <-. cbn [app group]. rewrite <- (publics_eq cls attrs ps Hps) in E0.
      destruct (plain_case reg lx h0 f st d L a o id st1 py_names None [] ps tn stA [] stA xe stC)
        as (d2 & L2 & [str'|] & ad' & ex' & Hstr & R & I2 & O2 & Sa & Se & P); auto; try destruct Hstr.
      { intros c Hc. unfold registered, py_names in Hc. cbv [tx map list_ascii_of_string] in Hc.
        pose proof (gg_custom _ _ _ HG) as HC. unfold py_names in HC. cbv [tx map list_ascii_of_string] in HC. rewrite HC in Hc. injection Hc as <-.
        split; [reflexivity|]. split; [reflexivity|]. cbn [c_adapted c_extended app]. eauto. }
      { split; constructor. }
      cbn [group app string_elem] in R. rewrite app_nil_r in R.
      exists (VRef (d_next d)), d2, L2. split; [exact R|]. split; [constructor; exact I2|]. apply P.
      eexists; eexists. split; [exact Ho|]. split; [exact O2|]. unfold same_object. rewrite Eb.
      cbn [g_body g_string g_names g_adapted g_extended]. do 2 (split; [reflexivity|]). split.
      { unfold names_back. replace (registered reg py_names) with (Some (mkC CPlain py_names [] [])); [reflexivity|].
        symmetry. exact (gg_custom _ _ _ HG). }
      split; [now inversion Sa|]. eauto.
    - (* made by a hook *)
      unfold good_body in Hb. rewrite Eb in Hb. destruct Hg as (Hn & Ha & He & _). cbn [fst snd] in E.
      destruct (write_names st1 (g_names o)) as [tn stA] eqn:Hw. binds E. destruct r as [xa stB], r0 as [xe stC], r1 as [xb stD].
      cbn [fst snd] in *. unfold ser_body in E2. rewrite Eb in E2. injection E2 as <- <-. injection E as <- <-. cbn [app].
      destruct (plain_case reg lx h0 f st d L a o id st1 (g_names o) (g_string o) (g_adapted o) (g_extended o) tn stA xa stB xe stC)
        as (d2 & L2 & str' & ad' & ex' & Hstr & R & I2 & O2 & Sa & Se & P);
        auto using good_full, decl_of; [now apply good_full|apply decl_of; [exact Hn|now rewrite Eb]|].
      exists (VRef (d_next d)), d2, L2. split; [exact R|]. split; [constructor; exact I2|]. apply P.
      exists o, (mkG BPlain (names_back reg (g_names o)) str' ad' ex'). split; [exact Ho|]. split; [exact O2|].
      unfold same_object. rewrite Eb. cbn [g_body g_string g_names g_adapted g_extended]. auto.
  Qed.

  Theorem simulation f : simulates f.
  Proof.
    induction f as [|f IH]; [discriminate|]. intros st v x st2 d L Hv E Hy.
    assert (plain v -> exists v' d2 L2, reads reg x d v' d2 /\ same_value (inL L2) v v' /\ step none none st d L st2 d2 L2) as Hpl.
    { intros Hp. pose proof (plain_good reg lx v Hp Hv) as Hpg. exists (value_back v), d, L. split; [|split].
      - intros g Hg. destruct (height_pos _ _ Hg) as (g' & ->). eapply plain_deser; eauto; lia.
      - now apply plain_same.
      - destruct (plain_deser reg (S f) st v x st2 1 d Hp Hpg E (le_n 1)) as [-> _]. now apply step_refl. }
    destruct v as [|b|p|e|a]; try (apply Hpl; exact I); clear Hpl.
    - eapply enum_case; eauto.
    - cbn [ser] in E. destruct (aget a (s_heap st)) as [o|] eqn:Hh; [|discriminate].
      assert (Hfin : (let '(id, used, st1) := get_ref_id st (ref_key a (g_body o)) in
                      if used then Ok (Elem TgRef [(AtRefId, dec id)] [] [], st1) else ser_object (ser f) st1 id a o) = Ok (x, st2)).
      { destruct (g_body o) as [|p| | | | |] eqn:Eb; try exact E. destruct (has_props o) eqn:Hp; [exact E|]. exfalso.
        destruct (sy_heap _ _ _ _ _ _ Hy a) as [F|(q & q' & n & s & ad & ex & i & F1 & F2 & F3)]; [|rewrite F2 in Hh; injection Hh as <-; discriminate Eb].
        rewrite Hh in F. symmetry in F. destruct (gg_objects _ _ _ HG a o F) as [Hb _]. unfold good_body in Hb. rewrite Eb in Hb.
        destruct Hb as (_ & _ & _ & Hb). unfold has_props in Hp. destruct (g_adapted o), (g_extended o); try discriminate. tauto. }
      clear E. destruct (sy_heap _ _ _ _ _ _ Hy a) as [F|(q & q' & n & s & ad & ex & i & F1 & F2 & F3)].
      + rewrite Hh in F. symmetry in F.
        assert (ref_key a (g_body o) = obj_key a) as Hk by (unfold Proofs_Clixml2.obj_key; now rewrite F).
        rewrite Hk in Hfin. destruct (get_ref_id st (obj_key a)) as [[id used] st1] eqn:Hr. destruct used.
        * injection Hfin as <- <-. assert (st1 = st /\ exists k, obj_key a = Some k /\ key_get k (s_refs st) = Some id) as [-> Hex].
          { unfold get_ref_id in Hr. destruct (obj_key a) as [k|]; [|discriminate]. destruct (key_get k (s_refs st)) eqn:G; [|discriminate].
            injection Hr as <- <-. eauto. }
          now apply ref_case.
        * eapply object_case; eauto.
      + rewrite F2 in Hh. injection Hh as <-. cbn [g_body ref_key] in Hfin. unfold get_ref_id in Hfin. rewrite F3 in Hfin. injection Hfin as <- <-.
        apply ref_case; [exact Hy|]. exists (KAddr a). split; [|exact F3]. unfold Proofs_Clixml2.obj_key. now rewrite F1.
  Qed.

  Lemma sync_init : sync (s_init h0) d_init [].
  Proof. constructor; cbn; try tauto; try discriminate. intros i n. destruct i; discriminate. Qed.
End Main.
