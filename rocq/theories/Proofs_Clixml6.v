(** CLIXML: facts about the writer alone: numbering (C22), the heap (C46), termination. *)
From Coq Require Import String.
From Verif Require Import Base BaseFacts Model_Scalars Model_Strings Model_Text Model_Object Model_Clixml.
From Verif Require Import Spec_Strings Spec_Scalars Spec_Clixml Proofs_Clixml1 Proofs_Clixml2 Proofs_Clixml3 Proofs_Clixml4 Proofs_Clixml5.
Local Open Scope list_scope.
Local Open Scope nat_scope.

(** ** Numbering *)
Inductive counts : N -> nat -> list mark -> N -> nat -> Prop :=
| CntNil n k : counts n k [] n k
| CntObj n k ms n2 k2 : counts (n + 1) k ms n2 k2 -> counts n k (MObj (dec n) :: ms) n2 k2
| CntRef n k i ms n2 k2 : (i < n)%N -> counts n k ms n2 k2 -> counts n k (MRef (dec i) :: ms) n2 k2
| CntTN n k ms n2 k2 : counts n (S k) ms n2 k2 -> counts n k (MTN (dec (N.of_nat k)) :: ms) n2 k2
| CntTNRef n k i ms n2 k2 : i < k -> counts n k ms n2 k2 -> counts n k (MTNRef (dec (N.of_nat i)) :: ms) n2 k2.
Lemma counts_app n k l n1 k1 m n2 k2 : counts n k l n1 k1 -> counts n1 k1 m n2 k2 -> counts n k (l ++ m) n2 k2.
Proof. induction 1; intros H2; cbn [app]; [exact H2|constructor; auto..]. Qed.
Lemma counts_le n k l n2 k2 : counts n k l n2 k2 -> (n <= n2)%N /\ k <= k2.
Proof. induction 1; lia. Qed.
Lemma counts_obj n k l n2 k2 i : counts n k l n2 k2 -> In (MObj i) l -> exists j, (n <= j)%N /\ i = dec j.
Proof.
  induction 1; cbn [In]; intros Hi; [contradiction|..]; destruct Hi as [E|Hi]; try discriminate;
    try (injection E as <-; exists n; split; [lia|reflexivity]); destruct (IHcounts Hi) as (j & Hj & ->); exists j; split; auto; lia.
Qed.
Lemma counts_tn n k l n2 k2 i : counts n k l n2 k2 -> In (MTN i) l -> exists j, k <= j /\ i = dec (N.of_nat j).
Proof.
  induction 1; cbn [In]; intros Hi; [contradiction|..]; destruct Hi as [E|Hi]; try discriminate;
    try (injection E as <-; exists k; split; [lia|reflexivity]); destruct (IHcounts Hi) as (j & Hj & ->); exists j; split; auto; lia.
Qed.
Lemma counts_split n k pre m post n2 k2 : counts n k (pre ++ m :: post) n2 k2 ->
  exists n1 k1, counts n k pre n1 k1 /\ counts n1 k1 (m :: post) n2 k2.
Proof.
  revert n k. induction pre as [|a pre IH]; intros n k H; [exists n, k; split; [constructor|exact H]|].
  cbn [app] in H. inversion H; subst;
    match goal with K : counts _ _ (pre ++ m :: post) _ _ |- _ => destruct (IH _ _ K) as (n1 & k1 & A & B) end;
    exists n1, k1; (split; [constructor; assumption|exact B]).
Qed.
Lemma counts_obj_all n k l n2 k2 j : counts n k l n2 k2 -> (n <= j < n2)%N -> In (MObj (dec j)) l.
Proof.
  intros H. revert j. induction H; intros j Hj; cbn [In]; [lia|..]; auto.
  destruct (N.eq_dec j n) as [->|Hne]; [now left|]. right. apply IHcounts. lia.
Qed.
Lemma counts_tn_all n k l n2 k2 j : counts n k l n2 k2 -> k <= j < k2 -> In (MTN (dec (N.of_nat j))) l.
Proof.
  intros H. revert j. induction H; intros j Hj; cbn [In]; [lia|..]; auto.
  destruct (Nat.eq_dec j k) as [->|Hne]; [now left|]. right. apply IHcounts. lia.
Qed.
Lemma counts_well l n k : counts 0 0 l n k -> well_numbered l.
Proof.
  intros H. unfold well_numbered. split; [|split; [|split]]; intros pre i post ->; destruct (counts_split _ _ _ _ _ _ _ H) as (n1 & k1 & A & B);
    inversion B as [|? ? ? ? ? K|? ? ? ? ? ? Hlt K|? ? ? ? ? K|? ? ? ? ? ? Hlt K]; subst.
  - intros Hin. destruct (counts_obj _ _ _ _ _ _ K Hin) as (j & Hj & E). apply dec_inj in E. lia.
  - eapply counts_obj_all; [exact A|]. lia.
  - intros Hin. destruct (counts_tn _ _ _ _ _ _ K Hin) as (j & Hj & E). apply dec_inj in E. lia.
  - eapply counts_tn_all; [exact A|]. lia.
Qed.

(** ** Documents *)
Lemma marks_set_attr v x : marks (set_attr AtN v x) = marks x.
Proof. destruct x as [t a s l]. cbn [set_attr marks own_marks x_attrs x_tag]. unfold own_marks. cbn [x_attrs x_tag]. now rewrite attr_get_put. Qed.
Lemma numbered_set_attr v x : numbered x -> numbered (set_attr AtN v x).
Proof. destruct x as [t a s l]. cbn [set_attr numbered]. rewrite attr_get_put. exact (fun H => H). Qed.
Lemma numbered_kids l : Forall numbered l -> fold_right (fun y P => numbered y /\ P) True l.
Proof. induction 1; cbn [fold_right]; auto. Qed.
Lemma marks_prim p : marks (prim_elem p) = [].
Proof. destruct p; reflexivity. Qed.
Lemma numbered_prim p : numbered (prim_elem p).
Proof. destruct p; cbn; auto. Qed.
Lemma marks_group t l : t <> TgObj -> t <> TgRef -> t <> TgTN -> t <> TgTNRef -> flat_map marks (group t l) = flat_map marks l.
Proof. intros. destruct l; [reflexivity|]. cbn [group flat_map marks own_marks x_attrs attr_get app]. now rewrite app_nil_r. Qed.
Lemma numbered_group t l : t <> TgObj -> t <> TgRef -> t <> TgTN -> t <> TgTNRef -> Forall numbered l -> Forall numbered (group t l).
Proof.
  intros A B C D H. destruct l; [constructor|]. cbn [group]. constructor; [|constructor]. cbn [numbered]. split; [destruct t; congruence || exact I|].
  now apply numbered_kids.
Qed.

Definition bounded (st : sst) : Prop := forall k i, key_get k (s_refs st) = Some i -> (i < s_next st)%N.
Definition emptied (st st2 : sst) (a : N) : Prop :=
  exists q n s ad ex i, aget a (s_heap st) = Some (mkG (BQueue q) n s ad ex) /\ aget a (s_heap st2) = Some (mkG (BQueue []) n s ad ex)
    /\ key_get (KAddr a) (s_refs st2) = Some i.
Record wstep (Y : N -> Prop) (st : sst) (ms : list mark) (st2 : sst) : Prop := {
  w_counts : counts (s_next st) (length (s_tns st)) ms (s_next st2) (length (s_tns st2));
  w_bounded : bounded st2;
  w_refs : forall k i, key_get k (s_refs st) = Some i -> key_get k (s_refs st2) = Some i;
  w_reg : forall a i, key_get (KAddr a) (s_refs st) = Some i -> ~ Y a -> aget a (s_heap st2) = aget a (s_heap st);
  w_heap : forall a, ~ Y a -> aget a (s_heap st2) = aget a (s_heap st) \/ emptied st st2 a;
  w_same : no_queues (s_heap st) -> s_heap st2 = s_heap st }.
Lemma wstep_refl Y st : bounded st -> wstep Y st [] st.
Proof. intros H. constructor; auto. constructor. Qed.
Lemma wstep_trans Y st l st1 m st2 : wstep Y st l st1 -> wstep Y st1 m st2 -> wstep Y st (l ++ m) st2.
Proof.
  intros [A1 A2 A3 A4 A5 A6] [B1 B2 B3 B4 B5 B6]. constructor; auto.
  - eapply counts_app; eauto.
  - intros a i Hk HY. rewrite (B4 a i); [|now apply A3|exact HY]. eauto.
  - intros a HY. destruct (B5 a HY) as [E|(q & n & s & ad & ex & i & E1 & E2 & E3)].
    + destruct (A5 a HY) as [F|(q & n & s & ad & ex & i & F1 & F2 & F3)]; [left; congruence|]. right.
      exists q, n, s, ad, ex, i. split; [exact F1|]. split; [congruence|]. now apply B3.
    + right. destruct (A5 a HY) as [F|(q' & n' & s' & ad' & ex' & i' & F1 & F2 & F3)].
      * rewrite F in E1. exists q, n, s, ad, ex, i. auto.
      * assert (mkG (BQueue q) n s ad ex = mkG (BQueue []) n' s' ad' ex') as G by congruence. injection G as -> -> -> -> ->.
        exists q', n', s', ad', ex', i. auto.
  - intros H. pose proof (A6 H) as E. rewrite <- E in H. rewrite (B6 H). exact E.
Qed.
Lemma wstep_weaken (Y Y' : N -> Prop) st l st2 : (forall a, Y a -> Y' a) -> wstep Y st l st2 -> wstep Y' st l st2.
Proof. intros H [A1 A2 A3 A4 A5 A6]. constructor; auto.
  - intros a i Hk HY. apply (A4 a i); auto.
Qed.

Definition nowhere (a : N) : Prop := False.
Lemma no_more a : ~ nowhere a. Proof. intros []. Qed.
Definition writes (f : nat) : Prop := forall st v x st2, bounded st -> ser f st v = Ok (x, st2) -> numbered x /\ wstep nowhere st (marks x) st2.
Section Loops.
  Variable f : nat.
  Hypothesis HW : writes f.

  Lemma write_list l st xs st2 : bounded st -> ser_list (ser f) st l = Ok (xs, st2) -> Forall numbered xs /\ wstep nowhere st (flat_map marks xs) st2.
  Proof.
    revert st xs. induction l as [|v t IH]; intros st xs Hb E; cbn [ser_list] in E.
    - injection E as <- <-. split; [constructor|]. now apply wstep_refl.
    - binds E. destruct r as [x1 st1], r0 as [xs1 st3]. cbn [fst snd] in *. injection E as <- <-.
      destruct (HW _ _ _ _ Hb E0) as [N1 W1]. destruct (IH _ _ (w_bounded _ _ _ _ W1) E1) as [N2 W2].
      split; [now constructor|]. cbn [flat_map]. eapply wstep_trans; eauto.
  Qed.
  Lemma write_props l st xs st2 : bounded st -> ser_props (ser f) st l = Ok (xs, st2) -> Forall numbered xs /\ wstep nowhere st (flat_map marks xs) st2.
  Proof.
    revert st xs. induction l as [|[n v] t IH]; intros st xs Hb E; cbn [ser_props] in E.
    - injection E as <- <-. split; [constructor|]. now apply wstep_refl.
    - binds E. destruct r as [x1 st1], r0 as [xs1 st3]. cbn [fst snd] in *. apply Ok_pair in E. destruct E as [<- <-].
      destruct (HW _ _ _ _ Hb E0) as [N1 W1]. destruct (IH _ _ (w_bounded _ _ _ _ W1) E1) as [N2 W2].
      split; [constructor; [now apply numbered_set_attr|assumption]|]. cbn [flat_map]. rewrite marks_set_attr. eapply wstep_trans; eauto.
  Qed.
  Lemma write_dict l st xs st2 : bounded st -> ser_dict (ser f) st l = Ok (xs, st2) -> Forall numbered xs /\ wstep nowhere st (flat_map marks xs) st2.
  Proof.
    revert st xs. induction l as [|[k v] t IH]; intros st xs Hb E; cbn [ser_dict] in E.
    - injection E as <- <-. split; [constructor|]. now apply wstep_refl.
    - binds E. destruct r as [x1 st1], r0 as [x2 st3], r1 as [xs1 st4]. cbn [fst snd] in *. apply Ok_pair in E. destruct E as [<- <-].
      destruct (HW _ _ _ _ Hb E0) as [N1 W1]. destruct (HW _ _ _ _ (w_bounded _ _ _ _ W1) E1) as [N2 W2].
      destruct (IH _ _ (w_bounded _ _ _ _ W2) E2) as [N3 W3].
      split.
      + constructor; [|assumption]. cbn [numbered fold_right]. split; [exact I|]. auto using numbered_set_attr.
      + cbn [flat_map marks own_marks x_attrs attr_get app]. rewrite !marks_set_attr, app_nil_r, <- app_assoc.
        eapply wstep_trans; [exact W1|]. eapply wstep_trans; eauto.
  Qed.
  Lemma bounded_heap st h : bounded st -> bounded (set_heap st h). Proof. exact (fun H => H). Qed.
  (** The loop over a queue: its own heap cell aside, an ordinary step; afterwards the queue is empty. *)
  Lemma write_queue a l st xs st2 i ns s ad ex : bounded st -> key_get (KAddr a) (s_refs st) = Some i ->
    aget a (s_heap st) = Some (mkG (BQueue l) ns s ad ex) -> ser_queue (ser f) (length l) st a = Ok (xs, st2) ->
    Forall numbered xs /\ wstep (eq a) st (flat_map marks xs) st2 /\ aget a (s_heap st2) = Some (mkG (BQueue []) ns s ad ex).
  Proof.
    revert st xs. induction l as [|v t IH]; intros st xs Hb Hk Ha E; cbn [ser_queue length] in E.
    - injection E as <- <-. split; [constructor|]. split; [|exact Ha]. now apply wstep_refl.
    - rewrite Ha in E. binds E. destruct r as [x1 st1], r0 as [xs1 st3]. cbn [fst snd] in *. injection E as <- <-.
      set (st0 := set_heap st (aset a (mkG (BQueue t) ns s ad ex) (s_heap st))) in *.
      destruct (HW st0 _ _ _ Hb E0) as [N1 W1].
      assert (aget a (s_heap st1) = Some (mkG (BQueue t) ns s ad ex)) as H1.
      { rewrite (w_reg _ _ _ _ W1 a i Hk) by apply no_more. unfold st0. cbn [set_heap s_heap]. rewrite aget_aset, N.eqb_refl. reflexivity. }
      destruct (IH _ _ (w_bounded _ _ _ _ W1) (w_refs _ _ _ _ W1 _ _ Hk) H1 E1) as (N2 & W2 & H2).
      split; [now constructor|]. split; [|exact H2]. cbn [flat_map]. eapply wstep_trans; [|exact W2].
      assert (forall b, b <> a -> aget b (s_heap st0) = aget b (s_heap st)) as Hoth.
      { intros b Hb'. unfold st0. cbn [set_heap s_heap]. rewrite aget_aset. apply N.eqb_neq in Hb'. rewrite N.eqb_sym, Hb' || rewrite Hb'. reflexivity. }
      destruct W1 as [A1 A2 A3 A4 A5 A6]. constructor; auto.
      + intros b j Hj Hne. rewrite (A4 b j Hj (no_more b)). apply Hoth. congruence.
      + intros b Hne. destruct (A5 b (no_more b)) as [F|(q & n' & s' & ad' & ex' & j & F1 & F2 & F3)].
        * left. rewrite F. apply Hoth. congruence.
        * right. exists q, n', s', ad', ex', j. rewrite Hoth in F1 by congruence. auto.
      + intros Hnq. exfalso. exact (Hnq a _ (v :: t) Ha eq_refl).
  Qed.
End Loops.

Lemma fresh_step st k id st1 : bounded st -> get_ref_id st k = (id, false, st1) -> wstep nowhere st [MObj (dec id)] st1.
Proof.
  intros Hb Hr. destruct (get_ref_fresh _ _ _ _ Hr) as (-> & E1 & E2 & E3 & E4 & E5). constructor.
  - rewrite E1, E3. constructor. constructor.
  - intros k' i Hk. rewrite E4 in Hk. rewrite E3. destruct k as [j|]; [|apply Hb in Hk; lia].
    destruct (key_eqb k' j); [injection Hk as <-; lia|apply Hb in Hk; lia].
  - intros k' i Hk. eapply refs_mono; eauto.
  - intros. now rewrite E2.
  - intros. left. now rewrite E2.
  - intros. exact E2.
Qed.
Lemma used_step st k id st1 : bounded st -> get_ref_id st k = (id, true, st1) -> wstep nowhere st [MRef (dec id)] st1 /\ st1 = st.
Proof.
  intros Hb Hr. unfold get_ref_id in Hr. destruct k as [k|]; [|discriminate]. destruct (key_get k (s_refs st)) as [i|] eqn:F; [|discriminate].
  injection Hr as <- <-. split; [|reflexivity]. constructor; auto. constructor; [now apply (Hb k)|constructor].
Qed.
Lemma marks_names l : flat_map marks (map (fun t => Elem TgT [] t []) l) = [].
Proof. induction l as [|m t IH]; [reflexivity|]. cbn [map flat_map]. now rewrite IH. Qed.
Lemma names_step st names tn st1 : bounded st -> write_names st names = (tn, st1) -> Forall numbered tn /\ wstep nowhere st (flat_map marks tn) st1.
Proof.
  intros Hb Hw. unfold write_names in Hw. destruct names as [|n r].
  { injection Hw as <- <-. split; [constructor|now apply wstep_refl]. }
  destruct (index_of n (s_tns st)) as [i|] eqn:E; apply pair_equal_spec in Hw; destruct Hw as [<- <-].
  - split; [constructor; [|constructor]; cbn; split; [discriminate|exact I]|]. cbn. constructor; auto. constructor; [|constructor].
    apply index_of_nth in E. apply nth_error_Some. congruence.
  - split.
    + constructor; [|constructor]. cbn [numbered attr_get attr_eqb]. split; [discriminate|]. apply numbered_kids.
      apply Forall_forall. intros x Hx. apply in_map_iff in Hx. destruct Hx as (t & <- & _). cbn. auto.
    + cbn [flat_map marks]. unfold own_marks. cbn [x_attrs attr_get attr_eqb x_tag]. rewrite app_nil_r.
      rewrite marks_names. cbn [app]. constructor; auto. cbn [s_next s_tns]. rewrite app_length. cbn [length]. rewrite Nat.add_1_r. constructor. constructor.
Qed.
Lemma string_step s : Forall numbered (string_elem s) /\ flat_map marks (string_elem s) = [].
Proof. destruct s as [[|c s]|]; (split; [|reflexivity]); cbn; auto. constructor; [cbn; auto|constructor]. Qed.

Lemma write_object f st0 k id st a o x st2 : writes f -> bounded st0 -> k = ref_key a (g_body o) -> get_ref_id st0 k = (id, false, st) ->
  aget a (s_heap st0) = Some o -> ser_object (ser f) st id a o = Ok (x, st2) -> numbered x /\ wstep nowhere st0 (marks x) st2.
Proof.
  intros HW Hb0 -> Hr Ha E. pose proof (fresh_step _ _ _ _ Hb0 Hr) as WF. pose proof (w_bounded _ _ _ _ WF) as Hb.
  unfold ser_object in E. cbv zeta in E.
  set (sub := match g_body o with BPrim p => [prim_elem p] | _ => [] end) in E.
  set (names := match g_body o with BPrim _ => [] | BPy _ _ => custom_names | _ => g_names o end) in E.
  set (props := match g_body o with BPy _ _ => ([], []) | _ => (g_adapted o, g_extended o) end) in E.
  destruct (write_names st names) as [tn stA] eqn:Hw. binds E. destruct r as [xa stB], r0 as [xe stC], r1 as [xb stD]. cbn [fst snd] in *.
  apply Ok_pair in E. destruct E as [<- <-].
  destruct (names_step _ _ _ _ Hb Hw) as [N0 W0].
  destruct (write_props f HW _ _ _ _ (w_bounded _ _ _ _ W0) E0) as [N1 W1].
  destruct (write_props f HW _ _ _ _ (w_bounded _ _ _ _ W1) E1) as [N2 W2].
  pose proof (wstep_trans _ _ _ _ _ _ WF (wstep_trans _ _ _ _ _ _ W0 (wstep_trans _ _ _ _ _ _ W1 W2))) as W.
  set (ms := [MObj (dec id)] ++ flat_map marks tn ++ flat_map marks xa ++ flat_map marks xe) in *.
  assert (Forall numbered sub /\ flat_map marks sub = []) as [NS MS].
  { unfold sub. destruct (g_body o) as [|p| | | | |]; try (split; [constructor|reflexivity]). split; [constructor; [apply numbered_prim|constructor]|].
    cbn [flat_map]. now rewrite marks_prim. }
  assert (Forall numbered xb /\ wstep nowhere st0 (ms ++ flat_map marks xb) stD) as [N3 W3].
  { pose proof (w_bounded _ _ _ _ W) as Hb2. unfold ser_body in E2. destruct (g_body o) as [|p|k l|l|l|cls attrs|] eqn:Eb.
    - apply Ok_pair in E2. destruct E2 as [<- <-]. destruct (string_step (g_string o)) as [S1 S2]. rewrite S2, app_nil_r. auto.
    - apply Ok_pair in E2. destruct E2 as [<- <-]. cbn [flat_map]. rewrite app_nil_r. auto.
    - apply bind_Ok in E2. destruct E2 as ([xs stE] & E3 & E2). cbn [fst snd] in *. apply Ok_pair in E2. destruct E2 as [<- <-].
      destruct (write_list f HW _ _ _ _ Hb2 E3) as [M1 M2]. split; [constructor; [cbn; split; [exact I|now apply numbered_kids]|constructor]|].
      eapply wstep_trans; [exact W|]. cbn [flat_map marks own_marks x_attrs attr_get app]. now rewrite app_nil_r.
    - apply bind_Ok in E2. destruct E2 as ([xs stE] & E3 & E2). cbn [fst snd] in *. apply Ok_pair in E2. destruct E2 as [<- <-].
      destruct (get_ref_fresh _ _ _ _ Hr) as (-> & F2 & F3 & F4 & F5 & F6). cbn [ref_key] in F5, F6.
      assert (key_get (KAddr a) (s_refs st) = Some (s_next st0)) as Hi by (now rewrite F5, key_eqb_refl).
      destruct o as [ob on os oa oe]. cbn [g_body] in Eb. subst ob.
      pose proof (wstep_trans _ _ _ _ _ _ W0 (wstep_trans _ _ _ _ _ _ W1 W2)) as W'.
      assert (aget a (s_heap stC) = Some (mkG (BQueue l) on os oa oe)) as HaC.
      { rewrite (w_reg _ _ _ _ W' a _ Hi) by apply no_more. now rewrite F3. }
      destruct (write_queue f HW a l stC xs stE _ on os oa oe Hb2 (w_refs _ _ _ _ W' _ _ Hi) HaC E3) as (M1 & M2 & M3).
      split; [constructor; [cbn; split; [exact I|now apply numbered_kids]|constructor]|].
      cbn [flat_map marks own_marks x_attrs attr_get app] in *. rewrite app_nil_r.
      pose proof (wstep_trans (eq a) _ _ _ _ _ (wstep_weaken nowhere (eq a) _ _ _ (fun x (F : nowhere x) => match F with end) W) M2) as [A1 A2 A3 A4 A5 A6].
      constructor; auto.
      + intros b j Hj _. destruct (N.eq_dec a b) as [<-|Hne]; [|now apply (A4 b j)]. rewrite F6 in Hj by reflexivity. discriminate.
      + intros b _. destruct (N.eq_dec a b) as [<-|Hne]; [|now apply A5]. right. exists l, on, os, oa, oe, (s_next st0). split; [exact Ha|].
        split; [exact M3|]. apply (w_refs _ _ _ _ M2). now apply (w_refs _ _ _ _ W').
    - apply bind_Ok in E2. destruct E2 as ([xs stE] & E3 & E2). cbn [fst snd] in *. apply Ok_pair in E2. destruct E2 as [<- <-].
      destruct (write_dict f HW _ _ _ _ Hb2 E3) as [M1 M2]. split; [constructor; [cbn; split; [exact I|now apply numbered_kids]|constructor]|].
      eapply wstep_trans; [exact W|]. cbn [flat_map marks own_marks x_attrs attr_get app]. now rewrite app_nil_r.
    - apply bind_Ok in E2. destruct E2 as ([xs stE] & E3 & E2). cbn [fst snd] in *. apply Ok_pair in E2. destruct E2 as [<- <-].
      destruct (write_props f HW _ _ _ _ Hb2 E3) as [M1 M2]. split; [apply numbered_group; try discriminate; exact M1|].
      eapply wstep_trans; [exact W|]. rewrite marks_group by discriminate. exact M2.
    - apply Ok_pair in E2. destruct E2 as [<- <-]. destruct (string_step (g_string o)) as [S1 S2]. rewrite S2, app_nil_r. auto. }
  split.
  - cbn [numbered attr_get attr_eqb]. split; [discriminate|]. apply numbered_kids. rewrite !Forall_app. repeat apply conj; try assumption; apply numbered_group; try discriminate; assumption.
  - cbn [marks]. unfold own_marks. cbn [x_attrs attr_get attr_eqb x_tag]. rewrite !flat_map_app, MS, !marks_group by discriminate.
    unfold ms in W3. rewrite <- !app_assoc in W3. exact W3.
Qed.

Theorem writes_all f : writes f.
Proof.
  induction f as [|f IH]; [discriminate|]. intros st v x st2 Hb E. cbn [ser] in E.
  destruct v as [|b|p|e|a].
  - injection E as <- <-. split; [cbn; auto|now apply wstep_refl].
  - injection E as <- <-. split; [cbn; auto|now apply wstep_refl].
  - apply Ok_pair in E. destruct E as [<- <-]. rewrite marks_prim. split; [apply numbered_prim|now apply wstep_refl].
  - destruct (get_ref_id st (Some (KMember (e_names e) (e_val e)))) as [[id used] st1] eqn:Hr. destruct used.
    + injection E as <- <-. destruct (used_step _ _ _ _ Hb Hr) as [W ->]. split; [cbn; split; [discriminate|exact I]|exact W].
    + destruct (write_names st1 (e_names e)) as [tn stA] eqn:Hw. apply Ok_pair in E. destruct E as [<- <-].
      pose proof (fresh_step _ _ _ _ Hb Hr) as W0. destruct (names_step _ _ _ _ (w_bounded _ _ _ _ W0) Hw) as [N1 W1].
      destruct (string_step (Some (e_text e))) as [S1 S2]. split.
      * cbn [numbered attr_get attr_eqb]. split; [discriminate|]. apply numbered_kids. constructor; [apply numbered_prim|]. now apply Forall_app.
      * cbn [marks]. unfold own_marks. cbn [x_attrs attr_get attr_eqb x_tag flat_map]. rewrite marks_prim, flat_map_app, S2, app_nil_r.
        cbn [app]. exact (wstep_trans _ _ _ _ _ _ W0 W1).
  - destruct (aget a (s_heap st)) as [o|] eqn:Ha; [|discriminate].
    assert (forall z, z = (let '(id, used, st1) := get_ref_id st (ref_key a (g_body o)) in
                   if used then Ok (Elem TgRef [(AtRefId, dec id)] [] [], st1) else ser_object (ser f) st1 id a o) ->
              z = Ok (x, st2) -> numbered x /\ wstep nowhere st (marks x) st2) as Hgo.
    { intros z -> Ez. destruct (get_ref_id st (ref_key a (g_body o))) as [[id used] st1] eqn:Hr. destruct used.
      - injection Ez as <- <-. destruct (used_step _ _ _ _ Hb Hr) as [W ->]. split; [cbn; split; [discriminate|exact I]|exact W].
      - eapply write_object; eauto. }
    destruct (g_body o) as [|p| | | | |] eqn:Eb; try (exact (Hgo _ eq_refl E)). destruct (has_props o); [exact (Hgo _ eq_refl E)|].
    apply Ok_pair in E. destruct E as [<- <-]. rewrite marks_prim. split; [apply numbered_prim|now apply wstep_refl].
Qed.
