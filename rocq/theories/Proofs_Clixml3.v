(** CLIXML: the loops over list items, properties, dictionary entries and queue entries. *)
From Coq Require Import String.
From Verif Require Import Base BaseFacts Model_Scalars Model_Strings Model_Text Model_Object Model_Clixml.
From Verif Require Import Spec_Strings Spec_Scalars Spec_Clixml Proofs_Clixml1 Proofs_Clixml2.
Local Open Scope list_scope.
Local Open Scope nat_scope.

Lemma bind_Ok {A B} (x : result A) (f : A -> result B) b : bind x f = Ok b -> exists a, x = Ok a /\ f a = Ok b.
Proof. destruct x; [eauto|discriminate]. Qed.
Ltac binds H := repeat (let a := fresh "r" in let E := fresh "E" in apply bind_Ok in H; destruct H as (a & E & H)).

Section Loops.
  Variable reg : registry.
  Variable lx : lexicon.
  Variable h0 : heap.
  Hypothesis HG : good_graph reg lx h0.
  Notation sync := (sync reg lx h0).
  Notation step := (step reg lx h0).
  Notation good_value := (good_value reg lx).

  Definition reads (x : xml) (d : dst) (v : value) (d2 : dst) : Prop :=
    forall g, height x <= g -> deser reg g d x = Ok (v, d2).
  Definition hmax (g : nat) (xs : list xml) : Prop := Forall (fun x => height x <= g) xs.
  Definition simulates (f : nat) : Prop := forall st v x st2 d L,
    good_value v -> ser f st v = Ok (x, st2) -> sync st d L ->
    exists v' d2 L2, reads x d v' d2 /\ same_value (inL L2) v v' /\ step none none st d L st2 d2 L2.

  Lemma same_incl L L2 v w : incl L L2 -> same_value (inL L) v w -> same_value (inL L2) v w.
  Proof. intros H. apply same_value_mono. intros a b. apply H. Qed.

  (** After one value was read into the object at [b]. *)
  Lemma step_item f (Y : N -> Prop) st v x st1 d L b o g : simulates f -> good_value v -> ser f st v = Ok (x, st1) -> sync st d L ->
    (b < d_next d)%N -> aget b (d_heap d) = Some o ->
    exists v' d1 L1, reads x d v' d1 /\ same_value (inL L1) v v' /\ (b < d_next d1)%N /\ aget b (d_heap d1) = Some o
      /\ step (eq b) Y st d L st1 (modify d1 b (g v')) L1 /\ sync st1 (modify d1 b (g v')) L1
      /\ (b < d_next (modify d1 b (g v')))%N /\ aget b (d_heap (modify d1 b (g v'))) = Some (g v' o).
  Proof.
    intros HS Hv E Hy Hb Ho. destruct (HS _ _ _ _ _ _ Hv E Hy) as (v' & d1 & L1 & Hr & Hs & Hp).
    exists v', d1, L1. pose proof (sp_next _ _ _ _ _ _ _ _ _ _ _ Hp) as Hn.
    assert (aget b (d_heap d1) = Some o) as Ho1 by (rewrite (sp_frame _ _ _ _ _ _ _ _ _ _ _ Hp); auto).
    assert (step (eq b) Y st d L st1 (modify d1 b (g v')) L1) as Hq.
    { eapply step_trans; [intros ? <-; exact Hb| |]; [apply step_none; exact Hp|].
      apply step_modify; [exact (sp_sync _ _ _ _ _ _ _ _ _ _ _ Hp)|reflexivity]. }
    split; [exact Hr|]. split; [exact Hs|]. split; [lia|]. split; [exact Ho1|]. split; [exact Hq|].
    split; [exact (sp_sync _ _ _ _ _ _ _ _ _ _ _ Hq)|]. rewrite modify_next. split; [lia|]. now apply modify_get.
  Qed.

  Definition append_all (l : list value) (o : gobj) : gobj := fold_left (fun o v => append_item v o) l o.
  Lemma list_loop f : simulates f -> forall l st xs st2 d L b o, Forall good_value l ->
    ser_list (ser f) st l = Ok (xs, st2) -> sync st d L -> (b < d_next d)%N -> aget b (d_heap d) = Some o ->
    exists d2 L2 l', (forall g, hmax g xs -> read_items (deser reg g) d b xs = Ok d2)
      /\ Forall2 (same_value (inL L2)) l l' /\ aget b (d_heap d2) = Some (append_all l' o) /\ step (eq b) none st d L st2 d2 L2.
  Proof.
    intros HS. induction l as [|v l IH]; intros st xs st2 d L b o Hg E Hy Hb Ho; cbn [ser_list] in E.
    - injection E as <- <-. exists d, L, []. split; [reflexivity|]. split; [constructor|]. split; [exact Ho|]. now apply step_refl.
    - binds E. destruct r as [x st1], r0 as [xs' st2']. injection E as <- <-. cbn [fst snd] in *. inversion Hg as [|? ? Hv Hl]; subst.
      destruct (step_item f none st v x st1 d L b o append_item HS Hv E0 Hy Hb Ho) as (v' & d1 & L1 & Hr & Hs & Hb1 & _ & Hp & Hy1 & Hb2 & Ho2).
      destruct (IH _ _ _ _ _ _ _ Hl E1 Hy1 Hb2 Ho2) as (d2 & L2 & l' & Hr2 & Hs2 & Ho3 & Hp2).
      exists d2, L2, (v' :: l'). split; [|split; [|split]].
      + intros g Hm. inversion Hm; subst. cbn [read_items]. rewrite Hr by assumption. cbn [bind fst snd]. now apply Hr2.
      + constructor; [|exact Hs2]. eapply same_incl; [|exact Hs]. exact (sp_incl _ _ _ _ _ _ _ _ _ _ _ Hp2).
      + exact Ho3.
      + eapply step_trans; [intros ? <-; exact Hb|exact Hp|exact Hp2].
  Qed.

  (** Properties. *)
  Definition put_all (put1 : name -> value -> gobj -> gobj) (l : list (name * value)) (o : gobj) : gobj :=
    fold_left (fun o x => put1 (fst x) (snd x) o) l o.
  Lemma props_loop f put1 : simulates f -> forall l st xs st2 d L b o,
    Forall (fun x => good_str (fst x) /\ good_value (snd x)) l ->
    ser_props (ser f) st l = Ok (xs, st2) -> sync st d L -> (b < d_next d)%N -> aget b (d_heap d) = Some o ->
    exists d2 L2 l', (forall g, hmax g xs -> read_props (deser reg g) put1 d b xs = Ok d2)
      /\ same_props (inL L2) l l' /\ aget b (d_heap d2) = Some (put_all put1 l' o) /\ step (eq b) none st d L st2 d2 L2.
  Proof.
    intros HS. induction l as [|[n v] l IH]; intros st xs st2 d L b o Hg E Hy Hb Ho; cbn [ser_props] in E.
    - injection E as <- <-. exists d, L, []. split; [reflexivity|]. split; [constructor|]. split; [exact Ho|]. now apply step_refl.
    - binds E. destruct r as [x st1], r0 as [xs' st2']. injection E as <- <-. cbn [fst snd] in *.
      inversion Hg as [|? ? [Hn Hv] Hl]; subst. cbn [fst snd] in *.
      destruct (step_item f none st v x st1 d L b o (put1 n) HS Hv E0 Hy Hb Ho) as (v' & d1 & L1 & Hr & Hs & Hb1 & _ & Hp & Hy1 & Hb2 & Ho2).
      destruct (IH _ _ _ _ _ _ _ Hl E1 Hy1 Hb2 Ho2) as (d2 & L2 & l' & Hr2 & Hs2 & Ho3 & Hp2).
      exists d2, L2, ((n, v') :: l'). split; [|split; [|split]].
      + intros g Hm. inversion Hm as [|? ? Hx Hm']; subst. cbn [read_props]. rewrite attr_set_same, good_read by exact Hn. cbn [bind].
        rewrite height_set_attr in Hx. rewrite deser_set_attr by reflexivity. rewrite Hr by assumption. cbn [bind fst snd]. now apply Hr2.
      + constructor; [|exact Hs2]. cbn [fst snd]. split; [reflexivity|]. eapply same_incl; [|exact Hs]. exact (sp_incl _ _ _ _ _ _ _ _ _ _ _ Hp2).
      + exact Ho3.
      + eapply step_trans; [intros ? <-; exact Hb|exact Hp|exact Hp2].
  Qed.
  Lemma plain_good v : plain v -> good_value v -> match v with VPrim p => good_prim p | _ => True end.
  Proof. destruct v; cbn; auto. Qed.
  (** Plain properties are written and read without touching anything else. *)
  Definition back_props (l : list (name * value)) : list (name * value) := map (fun x => (fst x, value_back (snd x))) l.
  Lemma back_props_same R l : Forall (fun x => good_str (fst x) /\ good_value (snd x)) l -> Forall (fun x => plain (snd x)) l -> same_props R l (back_props l).
  Proof.
    intros H. induction H as [|[n v] l [Hn Hv] Hl IH]; intros Hp; [constructor|]. inversion Hp as [|? ? Hv1 Hp1]; subst. cbn [fst snd] in *. constructor; [|exact (IH Hp1)].
    cbn [fst snd]. split; [reflexivity|]. apply plain_same; [assumption|now apply plain_good].
  Qed.
  Lemma plain_props f put1 : forall l st xs st2,
    Forall (fun x => good_str (fst x) /\ good_value (snd x)) l -> Forall (fun x => plain (snd x)) l ->
    ser_props (ser f) st l = Ok (xs, st2) -> st2 = st /\
    forall d b o, aget b (d_heap d) = Some o ->
      exists d2, (forall g, hmax g xs -> read_props (deser reg g) put1 d b xs = Ok d2) /\ aget b (d_heap d2) = Some (put_all put1 (back_props l) o)
        /\ d_next d2 = d_next d /\ d_refs d2 = d_refs d /\ d_tns d2 = d_tns d /\ (forall c, c <> b -> aget c (d_heap d2) = aget c (d_heap d)).
  Proof.
    induction l as [|[n v] l IH]; intros st xs st2 Hg Hp E; cbn [ser_props] in E.
    - injection E as <- <-. split; [reflexivity|]. intros d b o Ho. exists d. cbn [read_props]. auto 10.
    - binds E. destruct r as [x st1], r0 as [xs' st2']. injection E as <- <-. cbn [fst snd] in *.
      inversion Hg as [|? ? [Hn Hv] Hl]; subst. inversion Hp as [|? ? Hpv Hpl]; subst. cbn [fst snd] in *.
      pose proof (fun g d Hgd => plain_deser reg f st v x st1 g d Hpv (plain_good v Hpv Hv) E0 Hgd) as HD.
      assert (st1 = st) as -> by exact (proj1 (HD 1 d_init (le_n 1))).
      destruct (IH _ _ _ Hl Hpl E1) as [-> IH']. split; [reflexivity|]. intros d b o Ho.
      destruct (IH' (modify d b (put1 n (value_back v))) b (put1 n (value_back v) o)) as (d2 & R1 & R2 & R3 & R4 & R5 & R6);
        [now apply modify_get|].
      exists d2. rewrite modify_next in R3. rewrite modify_refs in R4. rewrite modify_tns in R5. split; [|split; [exact R2|]].
      + intros g Hm. inversion Hm as [|? ? Hx Hm']; subst. cbn [read_props]. rewrite attr_set_same, good_read by exact Hn. cbn [bind].
        rewrite height_set_attr in Hx. rewrite deser_set_attr by reflexivity.
        rewrite (proj2 (HD g d ltac:(destruct x; cbn [height] in Hx; lia))). cbn [bind fst snd]. now apply R1.
      + do 3 (split; [assumption|]). intros c Hc. rewrite R6 by exact Hc. now apply modify_other.
  Qed.

  (** Property lists rebuilt on top of the declared ones. *)
  Lemma prop_put_fold (l' : list (name * value)) : forall done decl r,
    map fst l' = decl ++ r -> NoDup (map fst done ++ map fst l') ->
    fold_left (fun m x => prop_put (fst x) (snd x) m) l' (done ++ map (fun n => (n, VNull)) decl) = done ++ l'.
  Proof.
    assert (forall n (v : value) d t, ~ In n (map fst d) -> prop_put n v (d ++ t) = d ++ prop_put n v t) as Hskip.
    { intros n v d t. induction d as [|[m w] d IH]; intros Hn; [reflexivity|]. cbn [app prop_put].
      rewrite name_eqb_neq; [|intros ->; apply Hn; now left]. rewrite IH; [reflexivity|]. intros Hi. apply Hn. now right. }
    induction l' as [|[n v] l' IH]; intros done decl r E Hd.
    - destruct decl; [reflexivity|discriminate].
    - cbn [map fst] in *. assert (~ In n (map fst done)) as Hn.
      { apply NoDup_remove_2 in Hd. intros Hi. apply Hd. apply in_or_app. now left. }
      cbn [fold_left fst snd]. rewrite Hskip by exact Hn.
      assert (NoDup (map fst (done ++ [(n, v)]) ++ map fst l')) as Hd'.
      { rewrite map_app. cbn [map fst]. now rewrite <- app_assoc. }
      destruct decl as [|m decl].
      + cbn [map prop_put app]. pose proof (IH (done ++ [(n, v)]) [] (map fst l') eq_refl Hd') as F.
        cbn [map] in F. rewrite app_nil_r in F. rewrite F. now rewrite <- app_assoc.
      + cbn [app] in E. injection E as <- E. cbn [map prop_put]. rewrite name_eqb_refl.
        change (done ++ (n, v) :: map (fun n => (n, VNull)) decl) with (done ++ [(n, v)] ++ map (fun n => (n, VNull)) decl).
        rewrite app_assoc, (IH (done ++ [(n, v)]) decl r) by auto. now rewrite <- app_assoc.
  Qed.
  Lemma prop_put_all l' decl r : map fst l' = decl ++ r -> NoDup (map fst l') ->
    fold_left (fun m x => prop_put (fst x) (snd x) m) l' (map (fun n => (n, VNull)) decl) = l'.
  Proof. intros H1 H2. exact (prop_put_fold l' [] decl r H1 H2). Qed.
  Lemma put_adapted l o : put_all add_adapted l o =
    mkG (g_body o) (g_names o) (g_string o) (fold_left (fun m x => prop_put (fst x) (snd x) m) l (g_adapted o)) (g_extended o).
  Proof. revert o. induction l as [|[n v] l IH]; intros o; [now destruct o|]. exact (IH (add_adapted n v o)). Qed.
  Lemma put_extended l o : put_all add_extended l o =
    mkG (g_body o) (g_names o) (g_string o) (g_adapted o) (fold_left (fun m x => prop_put (fst x) (snd x) m) l (g_extended o)).
  Proof. revert o. induction l as [|[n v] l IH]; intros o; [now destruct o|]. exact (IH (add_extended n v o)). Qed.
  Lemma append_list k l l' o : g_body o = BList k l -> append_all l' o = with_body o (BList k (l ++ l')).
  Proof.
    revert l o. induction l' as [|v l' IH]; intros l o E.
    - rewrite app_nil_r, <- E. now destruct o.
    - change (append_all l' (append_item v o) = with_body o (BList k (l ++ v :: l'))). unfold append_item. rewrite E.
      rewrite (IH (l ++ [v])) by reflexivity. now rewrite <- app_assoc.
  Qed.
  Lemma append_queue l l' o : g_body o = BQueue l -> append_all l' o = with_body o (BQueue (l ++ l')).
  Proof.
    revert l o. induction l' as [|v l' IH]; intros l o E.
    - rewrite app_nil_r, <- E. now destruct o.
    - change (append_all l' (append_item v o) = with_body o (BQueue (l ++ v :: l'))). unfold append_item. rewrite E.
      rewrite (IH (l ++ [v])) by reflexivity. now rewrite <- app_assoc.
  Qed.
  Lemma same_props_names R l l' : same_props R l l' -> map fst l' = map fst l.
  Proof. induction 1 as [|x y l m [H _] _ IH]; [reflexivity|]. cbn [map]. now rewrite IH, H. Qed.

  (** Queues are emptied while they are written. *)
  Lemma sync_pop st d L a q v t n s ad ex id : sync st d L -> aget a h0 = Some (mkG (BQueue q) n s ad ex) ->
    aget a (s_heap st) = Some (mkG (BQueue (v :: t)) n s ad ex) -> key_get (KAddr a) (s_refs st) = Some id ->
    step none (eq a) st d L (set_heap st (aset a (mkG (BQueue t) n s ad ex) (s_heap st))) d L.
  Proof.
    intros Hy Hq Ha Hk. constructor; auto using incl_refl; try lia.
    - destruct Hy as [A1 A2 A3 A4 A5 A6 A7]. constructor; auto. intros x. cbn [set_heap s_heap]. rewrite aget_aset.
      destruct (N.eqb_spec x a) as [->|Hx].
      + right. exists q, t, n, s, ad, ex, id. split; [exact Hq|]. split; [|exact Hk]. cbn [set_heap s_heap].
        now rewrite aget_aset, N.eqb_refl.
      + destruct (A7 x) as [F|(q0 & q' & n' & s' & ad' & ex' & i & F1 & F2 & F3)]; [auto|]. right.
        exists q0, q', n', s', ad', ex', i. split; [exact F1|]. split; [|exact F3]. cbn [set_heap s_heap]. rewrite aget_aset.
        destruct (N.eqb_spec x a); [contradiction|exact F2].
    - intros x i _ Hx. cbn [set_heap s_heap]. rewrite aget_aset. destruct (N.eqb_spec x a); [subst; exfalso; now apply Hx|reflexivity].
  Qed.
  Lemma queue_loop f : simulates f -> forall l st xs st2 d L a b o q n s ad ex id, Forall good_value l ->
    aget a h0 = Some (mkG (BQueue q) n s ad ex) -> aget a (s_heap st) = Some (mkG (BQueue l) n s ad ex) ->
    key_get (KAddr a) (s_refs st) = Some id ->
    ser_queue (ser f) (length l) st a = Ok (xs, st2) -> sync st d L -> (b < d_next d)%N -> aget b (d_heap d) = Some o ->
    exists d2 L2 l', (forall g, hmax g xs -> read_items (deser reg g) d b xs = Ok d2)
      /\ Forall2 (same_value (inL L2)) l l' /\ aget b (d_heap d2) = Some (append_all l' o) /\ step (eq b) (eq a) st d L st2 d2 L2.
  Proof.
    intros HS. induction l as [|v l IH]; intros st xs st2 d L a b o q n s ad ex id Hg Hq Ha Hk E Hy Hb Ho; cbn [length ser_queue] in E.
    - injection E as <- <-. exists d, L, []. split; [reflexivity|]. split; [constructor|]. split; [exact Ho|]. now apply step_refl.
    - rewrite Ha in E. binds E. destruct r as [x st1], r0 as [xs' st2']. injection E as <- <-. cbn [fst snd] in *.
      inversion Hg as [|? ? Hv Hl]; subst.
      pose proof (sync_pop st d L a q v l n s ad ex id Hy Hq Ha Hk) as Hp0.
      set (st0 := set_heap st (aset a (mkG (BQueue l) n s ad ex) (s_heap st))) in *.
      pose proof (sp_sync _ _ _ _ _ _ _ _ _ _ _ Hp0) as Hy0.
      destruct (step_item f none st0 v x st1 d L b o append_item HS Hv E0 Hy0 Hb Ho) as (v' & d1 & L1 & Hr & Hs & Hb1 & _ & Hp & Hy1 & Hb2 & Ho2).
      assert (key_get (KAddr a) (s_refs st1) = Some id) as Hk1 by exact (sp_refs _ _ _ _ _ _ _ _ _ _ _ Hp _ _ Hk).
      assert (aget a (s_heap st1) = Some (mkG (BQueue l) n s ad ex)) as Ha1.
      { rewrite (sp_src _ _ _ _ _ _ _ _ _ _ _ Hp a id); [|exact Hk|auto]. subst st0. cbn [set_heap s_heap].
        now rewrite aget_aset, N.eqb_refl. }
      destruct (IH _ _ _ _ _ _ _ _ _ _ _ _ _ _ Hl Hq Ha1 Hk1 E1 Hy1 Hb2 Ho2) as (d2 & L2 & l' & Hr2 & Hs2 & Ho3 & Hp2).
      exists d2, L2, (v' :: l'). split; [|split; [|split]].
      + intros g Hm. inversion Hm; subst. cbn [read_items]. rewrite Hr by assumption. cbn [bind fst snd]. now apply Hr2.
      + constructor; [|exact Hs2]. eapply same_incl; [|exact Hs]. exact (sp_incl _ _ _ _ _ _ _ _ _ _ _ Hp2).
      + exact Ho3.
      + eapply step_trans; [intros ? <-; exact Hb| |exact Hp2].
        eapply step_trans; [intros ? <-; exact Hb| |]; [|eapply step_weaken; [| |exact Hp]; [auto|intros ? []]].
        eapply step_weaken; [| |exact Hp0]; [intros ? []|auto].
  Qed.

  (** Dictionaries: the value is read before the key, which is plain. *)
  Lemma hash_back h h' k : good_key k -> hash h (value_back k) = hash h' (value_back k).
  Proof. destruct k; cbn [good_key]; try contradiction; reflexivity. Qed.
  Lemma dict_put_new h k v hk : forall done, hash h (value_back k) = Some hk -> good_key k ->
    Forall (fun e => exists k0, fst e = value_back k0 /\ good_key k0 /\ ~ equal_keys k0 k) done ->
    dict_put h hk (value_back k) v done = done ++ [(value_back k, v)].
  Proof.
    induction done as [|[k' v'] done IH]; intros Hh Hk Hd; [reflexivity|]. inversion Hd as [|? ? (k0 & Ek & Hk0 & Hne) Hd']; subst.
    cbn [fst] in Ek. subst k'. cbn [dict_put app]. destruct (good_key_hash k0 h Hk0) as (h1 & E1). rewrite E1.
    rewrite (key_hash_neq h k0 k h1 hk) by auto. now rewrite IH.
  Qed.
  Lemma find_entry xk xv : find_n (tx "Key") [set_attr AtN (tx "Key") xk; set_attr AtN (tx "Value") xv] = Some (set_attr AtN (tx "Key") xk)
    /\ find_n (tx "Value") [set_attr AtN (tx "Key") xk; set_attr AtN (tx "Value") xv] = Some (set_attr AtN (tx "Value") xv).
  Proof. cbn [find_n]. rewrite !attr_set_same. split; vm_compute; reflexivity. Qed.
  Definition dict_add (k v : value) (o : gobj) : gobj :=
    match g_body o with BDict e => with_body o (BDict (e ++ [(k, v)])) | _ => o end.
  Lemma dict_loop f : simulates f -> forall l st xs st2 d L b o e,
    Forall (fun e => good_value (fst e) /\ good_value (snd e) /\ good_key (fst e)) l -> ForallOrdPairs (fun e f => ~ equal_keys (fst e) (fst f)) l ->
    ser_dict (ser f) st l = Ok (xs, st2) -> sync st d L -> (b < d_next d)%N -> aget b (d_heap d) = Some o -> g_body o = BDict e ->
    (forall k, In k (map fst l) -> Forall (fun e => exists k0, fst e = value_back k0 /\ good_key k0 /\ ~ equal_keys k0 k) e) ->
    exists d2 L2 l', (forall g, hmax (S g) xs -> read_entries (deser reg g) d b xs = Ok d2)
      /\ same_entries (inL L2) l l' /\ aget b (d_heap d2) = Some (with_body o (BDict (e ++ l'))) /\ step (eq b) none st d L st2 d2 L2.
  Proof.
    intros HS. induction l as [|[k v] l IH]; intros st xs st2 d L b o e Hg Hne E Hy Hb Ho Hbd Hks; cbn [ser_dict] in E.
    - injection E as <- <-. exists d, L, []. split; [reflexivity|]. split; [constructor|].
      split; [rewrite app_nil_r, <- Hbd; destruct o; exact Ho|]. now apply step_refl.
    - binds E. destruct r as [xk st1], r0 as [xv st1'], r1 as [xs' st2']. injection E as <- <-. cbn [fst snd] in *.
      inversion Hg as [|? ? (Hk & Hv & Hkk) Hl]; subst. cbn [fst snd] in *. inversion Hne as [|? ? Hn1 Hn2]; subst.
      pose proof (good_key_plain k Hkk) as Hpk.
      pose proof (fun g d Hgd => plain_deser reg f st k xk st1 g d Hpk (plain_good k Hpk Hk) E0 Hgd) as HD.
      assert (st1 = st) as -> by exact (proj1 (HD 1 d_init (le_n 1))).
      destruct (step_item f none st v xv st1' d L b o (dict_add (value_back k)) HS Hv E1 Hy Hb Ho)
        as (v' & d1 & L1 & Hr & Hs & Hb1 & Ho1 & Hp & Hy1 & Hb2 & Ho2).
      destruct (good_key_hash k (d_heap d1) Hkk) as (hk & Ehk).
      assert (dict_put (d_heap d1) hk (value_back k) v' e = e ++ [(value_back k, v')]) as Eput.
      { apply dict_put_new; auto. apply Hks. now left. }
      assert (dict_add (value_back k) v' o = with_body o (BDict (e ++ [(value_back k, v')]))) as Eadd by (unfold dict_add; now rewrite Hbd).
      rewrite Eadd in Ho2.
      destruct (IH st1' xs' st2' (modify d1 b (dict_add (value_back k) v')) L1 b (with_body o (BDict (e ++ [(value_back k, v')])))
                   (e ++ [(value_back k, v')]) Hl Hn2 E2 Hy1 Hb2 Ho2 eq_refl) as (d2 & L2 & l' & Hr2 & Hs2 & Ho3 & Hp2).
      { intros k1 Hk1. apply Forall_app. split; [apply Hks; now right|]. constructor; [|constructor]. exists k. cbn [fst].
        split; [reflexivity|]. split; [exact Hkk|]. rewrite Forall_forall in Hn1. apply in_map_iff in Hk1.
        destruct Hk1 as (e1 & <- & He1). now apply (Hn1 e1). }
      exists d2, L2, ((value_back k, v') :: l'). split; [|split; [|split]].
      + intros g Hm. inversion Hm as [|? ? Hx Hm']; subst. cbn [read_entries x_kids]. destruct (find_entry xk xv) as [-> ->].
        cbn [height fold_right] in Hx. rewrite !height_set_attr in Hx.
        rewrite deser_set_attr by reflexivity. rewrite Hr by lia. cbn [bind fst snd]. rewrite deser_set_attr by reflexivity.
        rewrite (proj2 (HD g d1 ltac:(destruct xk; cbn [height] in Hx; lia))). cbn [bind fst snd]. rewrite Ehk.
        replace (modify d1 b _) with (modify d1 b (dict_add (value_back k) v')); [now apply Hr2|].
        unfold modify. rewrite Ho1. f_equal. rewrite Hbd, Eput. exact Eadd.
      + constructor; [|exact Hs2]. cbn [fst snd]. split; [apply plain_same; [assumption|now apply plain_good]|].
        eapply same_incl; [|exact Hs]. exact (sp_incl _ _ _ _ _ _ _ _ _ _ _ Hp2).
      + rewrite Ho3. destruct o as [ob on os oa oe]. cbn [with_body g_names g_string g_adapted g_extended]. now rewrite <- app_assoc.
      + eapply step_trans; [intros ? <-; exact Hb|exact Hp|exact Hp2].
  Qed.
End Loops.
