(** C30: the limits of a client and a server joined by an in-order connection.  The invariant speaks about: the open
    requests [hc], next call id [ci] and limits [lc] of the client; the messages of the client that the server has
    processed [D] and those that are under way [P]; the open requests [hs], events [es] and limits [ls] of the server;
    its messages that the client has processed [F] and those under way [Q]. *)
From Coq Require Import Permutation.
From Verif Require Import Base BaseFacts Model_Scalars Model_Transport Model_Command Model_Host Model_Pool Spec_Pool
  Proofs_Pool Proofs_Pool2 Proofs_Pool3 Proofs_Sys.
Local Open Scope Z_scope.

Definition handlers := list (Z * option (limit * Z)).
Definition rids (l : list body) : list Z := flat_map (fun b => match req_of b with Some (i, _) => [i] | None => [] end) l.
Definition aids (l : list body) : list Z := flat_map (fun b => match ans_of b with Some (i, _) => [i] | None => [] end) l.
Definition want (e : pending) : option (limit * Z) :=
  match e with EMax n => Some (LMax, n) | EMin n => Some (LMin, n) | _ => None end.
Definition is_hs (b : body) : bool := is_init b || is_conn b.
(** What a message does to the client's limits. *)
Definition eff (hc : handlers) (l : Z * Z) (b : body) : Z * Z :=
  match b with
  | MRunspacePoolInitData mn mx => (mn, mx)
  | MRunspaceAvailability i (RBool true) =>
    match zget i hc with
    | Some (Some (LMax, v)) => (fst l, v)
    | Some (Some (LMin, v)) => (v, snd l)
    | _ => l
    end
  | _ => l
  end.
Definition effs (hc : handlers) (q : list body) (l : Z * Z) : Z * Z := fold_left (eff hc) q l.

Lemma effs_app : forall hc q1 q2 l, effs hc (q1 ++ q2) l = effs hc q2 (effs hc q1 l).
Proof. intros. apply fold_left_app. Qed.
Lemma eff_plain : forall hc b l, splain b -> eff hc l b = l.
Proof. intros hc [] l [A B]; cbn in *; congruence. Qed.
Lemma effs_plain : forall hc q l, Forall splain q -> effs hc q l = l.
Proof. intros hc q. induction q; intros l H; auto. inversion H; subst. cbn. rewrite eff_plain; auto. apply IHq; auto. Qed.
Lemma effs_ext : forall h1 h2 q l, (forall i, In i (aids q) -> zget i h1 = zget i h2) -> effs h1 q l = effs h2 q l.
Proof.
  intros h1 h2 q. induction q as [|b q IH]; intros l H; auto. unfold effs in *. cbn [fold_left].
  assert (E : eff h1 l b = eff h2 l b).
  { destruct b; auto. destruct r as [[]| |]; auto. cbn. rewrite (H ci); auto. cbn. auto. }
  rewrite E. apply IH. intros i I. apply H. cbn. apply in_or_app. auto.
Qed.

Lemma in_rids : forall i l, In i (rids l) <-> exists b h, In b l /\ req_of b = Some (i, h).
Proof.
  intros i l. unfold rids. rewrite in_flat_map. split.
  - intros (b & I & J). destruct (req_of b) as [[j h]|] eqn:E; [|destruct J]. destruct J as [<-|[]]. eauto.
  - intros (b & h & I & E). exists b. split; auto. rewrite E. left; auto.
Qed.
Lemma in_aids : forall i l, In i (aids l) <-> exists b r, In b l /\ ans_of b = Some (i, r).
Proof.
  intros i l. unfold aids. rewrite in_flat_map. split.
  - intros (b & I & J). destruct (ans_of b) as [[j h]|] eqn:E; [|destruct J]. destruct J as [<-|[]]. eauto.
  - intros (b & h & I & E). exists b. split; auto. rewrite E. left; auto.
Qed.
Lemma rids_plain : forall l, Forall cplain l -> rids l = [].
Proof. induction 1 as [|b l [A _] _ IH]; auto. cbn. rewrite A. auto. Qed.
Lemma aids_plain : forall l, Forall splain l -> aids l = [].
Proof. induction 1 as [|b l [A _] _ IH]; auto. cbn. rewrite A. auto. Qed.
Lemma rids_app : forall a b, rids (a ++ b) = rids a ++ rids b.
Proof. intros. apply flat_map_app. Qed.
Lemma aids_app : forall a b, aids (a ++ b) = aids a ++ aids b.
Proof. intros. apply flat_map_app. Qed.

Lemma zkeys_zset_new : forall V k (v : V) m, ~ In k (zkeys m) -> zkeys (zset k v m) = zkeys m ++ [k].
Proof.
  intros V k v m. induction m as [|[a b] t IH]; cbn; intros N; auto.
  destruct (Z.eqb_spec k a); [subst; tauto|]. cbn. f_equal. apply IH. tauto.
Qed.
Lemma zkeys_zdel_perm : forall V k (m : list (Z * V)), In k (zkeys m) -> Permutation (zkeys m) (k :: zkeys (zdel k m)).
Proof.
  intros V k m. induction m as [|[a b] t IH]; cbn; intros I; [destruct I|].
  destruct (Z.eqb_spec k a) as [->|N]; [apply Permutation_refl|]. destruct I as [I|I]; [congruence|].
  cbn. rewrite IH by auto. apply perm_swap.
Qed.
Lemma zget_In : forall V k (m : list (Z * V)), zget k m <> None -> In k (zkeys m).
Proof. intros V k m H. destruct (in_dec Z.eq_dec k (zkeys m)) as [I|I]; auto. apply zget_None in I. congruence. Qed.
Lemma zget_In' : forall V k (m : list (Z * V)), In k (zkeys m) -> exists v, zget k m = Some v.
Proof. intros V k m H. destruct (zget k m) eqn:E; eauto. apply zget_None in E. contradiction. Qed.

Lemma NoDup_app_r : forall A (a b : list A), NoDup (a ++ b) -> NoDup b.
Proof. intros A a b. induction a; cbn; intros H; auto. inversion H; auto. Qed.

Section I30.
Variables (hc : handlers) (ci : Z) (lc : Z * Z) (bo : bool) (D P : list body)
  (hs : handlers) (es : list (Z * pending)) (ls : Z * Z) (F Q : list body).
Record inv30 : Prop := mkI30 {
  i_nd : NoDup (rids P ++ zkeys es ++ aids Q);
  i_hc : NoDup (zkeys hc);
  i_hs : NoDup (zkeys hs);
  i_lt : forall i, In i (zkeys hc) -> i < ci;
  i_p : forall b i h, In b P -> req_of b = Some (i, h) -> zget i hc = Some h;
  i_e : forall i e, zget i es = Some e -> zget i hc = Some (want e) /\ zget i hs = Some (want e);
  i_q : forall b i r, In b Q -> ans_of b = Some (i, r) -> zget i hc <> None;
  i_bo : bo = true -> Forall cplain (D ++ P);
  i_init : forall l1 x l2, D ++ P = l1 ++ x :: l2 -> is_init x = true -> Forall cplain l1;
  i_idle : Forall cplain D -> es = [] /\ Forall splain (F ++ Q);
  i_conn : forall b, In b P -> is_conn b = true -> b = MConnectRunspacePool None None;
  i_nb : Forall not_before (F ++ Q);
  i_lim : (exists b, In b (D ++ P) /\ is_hs b = true) -> (forall b, In b P -> is_conn b = false) ->
          (forall mn mx cfg, In (MInitRunspacePool mn mx cfg) P -> effs hc Q lc = (mn, mx))
          /\ ((forall b, In b P -> is_init b = false) -> effs hc Q lc = ls) }.
End I30.

Lemma cplain_hs : forall b, cplain b -> is_hs b = false.
Proof. intros b (_ & A & B). unfold is_hs. rewrite A, B. auto. Qed.
Lemma cplain_all : forall l b, Forall cplain l -> In b l -> is_hs b = false /\ is_init b = false /\ is_conn b = false /\ req_of b = None.
Proof.
  intros l b F I. eapply Forall_forall in F; eauto. pose proof (cplain_hs _ F). destruct F as (A & B & C). auto.
Qed.
Lemma ids_known : forall hc ci lc bo D P hs es ls F Q i, inv30 hc ci lc bo D P hs es ls F Q ->
  In i (rids P ++ zkeys es ++ aids Q) -> In i (zkeys hc).
Proof.
  intros hc ci lc bo D P hs es ls F Q i V I. apply zget_In. rewrite !in_app_iff in I. destruct I as [I|[I|I]].
  - apply in_rids in I. destruct I as (b & h & I & E). rewrite (i_p _ _ _ _ _ _ _ _ _ _ _ V _ _ _ I E). discriminate.
  - apply zget_In' in I. destruct I as [e E]. destruct (i_e _ _ _ _ _ _ _ _ _ _ _ V _ _ E) as [-> _]. discriminate.
  - apply in_aids in I. destruct I as (b & r & I & E). apply (i_q _ _ _ _ _ _ _ _ _ _ _ V _ _ _ I E).
Qed.
(** Splitting a list extended by some plain messages in front of an init message. *)
Lemma split_app : forall (X : list body) new l1 x l2, X ++ new = l1 ++ x :: l2 ->
  (exists l3, X = l1 ++ x :: l3) \/ (exists l3 l4, new = l3 ++ x :: l4 /\ l1 = X ++ l3).
Proof.
  intros X. induction X as [|a X IH]; intros new l1 x l2 H; cbn in *.
  - right. exists l1, l2. auto.
  - destruct l1 as [|b l1]; cbn in H; injection H as -> H.
    + left. exists X. auto.
    + destruct (IH _ _ _ _ H) as [(l3 & ->)|(l3 & l4 & A & ->)]; [left; exists l3; auto|right; exists l3, l4; auto].
Qed.

(** The client sends plain messages; its limits may change only before it opened. *)
Lemma i30_client_plain : forall hc ci lc lc' bo bo' D P hs es ls F Q new, inv30 hc ci lc bo D P hs es ls F Q ->
  Forall cplain new -> (bo' = true -> bo = true) -> (bo = false -> lc' = lc) ->
  inv30 hc ci lc' bo' D (P ++ new) hs es ls F Q.
Proof.
  intros hc ci lc lc' bo bo' D P hs es ls F Q new V N B L. destruct V as [A1 A2 A3 A4 A5 A6 A7 A8 A9 A10 A11 A12 A13].
  split; auto.
  - rewrite rids_app, (rids_plain _ N), app_nil_r. auto.
  - intros b i h I E. apply in_app_iff in I. destruct I as [I|I]; eauto.
    destruct (cplain_all _ _ N I) as (_ & _ & _ & X). congruence.
  - intros E. specialize (A8 (B E)). rewrite app_assoc. apply Forall_app. auto.
  - intros l1 x l2 E X. rewrite app_assoc in E. destruct (split_app _ _ _ _ _ E) as [(l3 & E')|(l3 & l4 & E' & _)].
    + eapply A9; eauto.
    + assert (I : In x new) by (rewrite E'; apply in_or_app; right; left; auto).
      destruct (cplain_all _ _ N I) as (_ & Y & _). congruence.
  - intros b I C. apply in_app_iff in I. destruct I as [I|I]; auto. destruct (cplain_all _ _ N I) as (_ & _ & Y & _). congruence.
  - intros (b & I & H) NC. rewrite app_assoc in I. apply in_app_iff in I. destruct I as [I|I].
    2: destruct (cplain_all _ _ N I) as (Y & _); congruence.
    assert (BF : bo = false).
    { destruct bo; auto. specialize (A8 eq_refl). destruct (cplain_all _ _ A8 I) as (Y & _). congruence. }
    rewrite (L BF). destruct A13 as [X1 X2]; eauto. { intros. apply NC. apply in_or_app. auto. }
    split.
    + intros mn mx cfg J. apply in_app_iff in J. destruct J as [J|J]; eauto.
      destruct (cplain_all _ _ N J) as (_ & Y & _). discriminate.
    + intros J. apply X2. intros b' I'. apply J, in_or_app. auto.
Qed.
Lemma i30_client_req : forall hc ci lc D P hs es ls F Q b h, inv30 hc ci lc false D P hs es ls F Q ->
  req_of b = Some (ci, h) -> inv30 (zset ci h hc) (ci + 1) lc false D (P ++ [b]) hs es ls F Q.
Proof.
  intros hc ci lc D P hs es ls F Q b h V E.
  assert (FR : forall i, In i (rids P ++ zkeys es ++ aids Q) -> i <> ci).
  { intros i I ->. apply (ids_known _ _ _ _ _ _ _ _ _ _ _ _ V) in I. apply (i_lt _ _ _ _ _ _ _ _ _ _ _ V) in I. lia. }
  assert (NH : is_hs b = false /\ is_init b = false /\ is_conn b = false) by (destruct b; try discriminate E; auto).
  destruct NH as (N1 & N2 & N3).
  assert (LT : forall i, zget i hc <> None -> i <> ci).
  { intros i I ->. apply zget_In in I. apply (i_lt _ _ _ _ _ _ _ _ _ _ _ V) in I. lia. }
  destruct V as [A1 A2 A3 A4 A5 A6 A7 A8 A9 A10 A11 A12 A13].
  assert (G : forall i v, zget i hc = Some v -> zget i (zset ci h hc) = Some v).
  { intros i v X. rewrite zget_zset. destruct (Z.eqb_spec i ci); auto. elim (LT i); auto. congruence. }
  split; auto; try discriminate.
  - rewrite rids_app. unfold rids at 2. cbn [flat_map]. rewrite E. cbn [app]. rewrite <- app_assoc.
    apply Permutation_NoDup with (ci :: rids P ++ zkeys es ++ aids Q).
    + cbn [app]. apply Permutation_middle.
    + constructor; auto. intros I. apply (FR _ I). auto.
  - apply NoDup_zset; auto.
  - intros i I. apply In_zkeys_zset in I. destruct I as [->|I]; [lia|]. apply A4 in I. lia.
  - intros b' i h' I X. apply in_app_iff in I. destruct I as [I|[<-|[]]].
    + apply G. eauto.
    + rewrite E in X. injection X as <- <-. rewrite zget_zset, Z.eqb_refl. auto.
  - intros i e X. destruct (A6 _ _ X). auto.
  - intros b' i r I X Y. pose proof (A7 _ _ _ I X) as Z. destruct (zget i hc) eqn:W; [|auto]. rewrite (G _ _ W) in Y. discriminate.
  - intros l1 x l2 X Y. rewrite app_assoc in X. destruct (split_app _ _ _ _ _ X) as [(l3 & X')|(l3 & l4 & X' & _)].
    + eapply A9; eauto.
    + assert (I : In x [b]) by (rewrite X'; apply in_or_app; right; left; auto). destruct I as [<-|[]]. congruence.
  - intros b' I C. apply in_app_iff in I. destruct I as [I|[<-|[]]]; auto. congruence.
  - intros (b' & I & H) NC. rewrite app_assoc in I. apply in_app_iff in I. destruct I as [I|[<-|[]]]; [|congruence].
    destruct A13 as [X1 X2]; eauto. { intros. apply NC. apply in_or_app. auto. }
    assert (EX : effs (zset ci h hc) Q lc = effs hc Q lc).
    { apply effs_ext. intros i J. rewrite zget_zset. destruct (Z.eqb_spec i ci) as [->|]; auto.
      elim (FR ci); auto. rewrite !in_app_iff. auto. }
    rewrite EX. split.
    + intros mn mx cfg J. apply in_app_iff in J. destruct J as [J|[J|[]]]; eauto. subst b. discriminate.
    + intros J. apply X2. intros b2 I'. apply J, in_or_app. auto.
Qed.
Lemma i30_client_init : forall hc ci mn mx D P hs es ls F Q b cfg, inv30 hc ci (mn, mx) true D P hs es ls F Q ->
  cplain b -> inv30 hc ci (mn, mx) false D (P ++ [b; MInitRunspacePool mn mx cfg]) hs es ls F Q.
Proof.
  intros hc ci mn mx D P hs es ls F Q b cfg V N.
  apply i30_client_plain with (new := [b]) (bo' := true) (lc' := (mn, mx)) in V; auto.
  replace (P ++ [b; MInitRunspacePool mn mx cfg]) with ((P ++ [b]) ++ [MInitRunspacePool mn mx cfg]) by (rewrite <- app_assoc; auto).
  revert V. generalize (P ++ [b]). clear P b N. intros P V.
  destruct V as [A1 A2 A3 A4 A5 A6 A7 A8 A9 A10 A11 A12 A13]. specialize (A8 eq_refl).
  split; auto; try discriminate.
  - rewrite rids_app. cbn. rewrite app_nil_r. auto.
  - intros b i h I E. apply in_app_iff in I. destruct I as [I|[<-|[]]]; eauto. discriminate.
  - intros l1 x l2 E X. rewrite app_assoc in E. destruct (split_app _ _ _ _ _ E) as [(l3 & E')|(l3 & l4 & E' & ->)].
    + eapply A9; eauto.
    + destruct l3 as [|? l3]; [rewrite app_nil_r; auto|]. injection E' as _ E'. destruct l3; discriminate.
  - intros b I C. apply in_app_iff in I. destruct I as [I|[<-|[]]]; auto. discriminate.
  - intros _ NC. destruct A10 as [_ A10]. { apply Forall_app in A8. apply A8. }
    apply Forall_app in A10. rewrite effs_plain by apply A10. split.
    + intros mn' mx' cfg' J. apply in_app_iff in J. destruct J as [J|[J|[]]].
      * eapply cplain_all in A8; [|apply in_or_app; right; exact J]. destruct A8 as (_ & Y & _). discriminate.
      * injection J as <- <- <-. auto.
    + intros J. specialize (J (MInitRunspacePool mn mx cfg)). discriminate J. apply in_or_app. right. left. auto.
Qed.
Lemma i30_client_conn : forall hc ci lc lc' bo D P hs es ls F Q b, inv30 hc ci lc bo D P hs es ls F Q ->
  cplain b -> (bo = false -> lc' = lc) -> inv30 hc ci lc' false D (P ++ [b; MConnectRunspacePool None None]) hs es ls F Q.
Proof.
  intros hc ci lc lc' bo D P hs es ls F Q b V N L.
  apply i30_client_plain with (new := [b]) (bo' := bo) (lc' := lc') in V; auto.
  replace (P ++ [b; MConnectRunspacePool None None]) with ((P ++ [b]) ++ [MConnectRunspacePool None None]) by (rewrite <- app_assoc; auto).
  revert V. generalize (P ++ [b]). clear P b N L. intros P V.
  destruct V as [A1 A2 A3 A4 A5 A6 A7 A8 A9 A10 A11 A12 A13].
  split; auto; try discriminate.
  - rewrite rids_app. cbn. rewrite app_nil_r. auto.
  - intros b i h I E. apply in_app_iff in I. destruct I as [I|[<-|[]]]; eauto. discriminate.
  - intros l1 x l2 E X. rewrite app_assoc in E. destruct (split_app _ _ _ _ _ E) as [(l3 & E')|(l3 & l4 & E' & ->)].
    + eapply A9; eauto.
    + destruct l3 as [|? l3]; [injection E' as <- _; discriminate X|]. injection E' as _ E'. destruct l3; discriminate.
  - intros b I C. apply in_app_iff in I. destruct I as [I|[<-|[]]]; auto.
  - intros _ NC. specialize (NC (MConnectRunspacePool None None)). discriminate NC. apply in_or_app. right. left. auto.
Qed.

(** The server sends plain messages, or an answer. *)
Lemma i30_server_plain : forall hc ci lc bo D P hs es ls F Q new, inv30 hc ci lc bo D P hs es ls F Q ->
  Forall splain new -> Forall not_before new -> inv30 hc ci lc bo D P hs es ls F (Q ++ new).
Proof.
  intros hc ci lc bo D P hs es ls F Q new V N B. destruct V as [A1 A2 A3 A4 A5 A6 A7 A8 A9 A10 A11 A12 A13].
  split; auto.
  - rewrite aids_app, (aids_plain _ N), app_nil_r. auto.
  - intros b i r I E. apply in_app_iff in I. destruct I as [I|I]; eauto.
    eapply Forall_forall in N; eauto. destruct N as [X _]. congruence.
  - intros C. destruct (A10 C). split; auto. rewrite app_assoc. apply Forall_app. auto.
  - rewrite app_assoc. apply Forall_app. auto.
  - intros H NC. rewrite effs_app, (effs_plain _ new) by auto. auto.
Qed.
Lemma i30_server_answer : forall hc ci lc bo D P hs es ls F Q i r e, inv30 hc ci lc bo D P hs es ls F Q ->
  zget i es = Some e ->
  inv30 hc ci lc bo D P (zdel i hs) (zdel i es) (eff hs ls (MRunspaceAvailability i r)) F (Q ++ [MRunspaceAvailability i r]).
Proof.
  intros hc ci lc bo D P hs es ls F Q i r e V E. destruct V as [A1 A2 A3 A4 A5 A6 A7 A8 A9 A10 A11 A12 A13].
  assert (NZ : NoDup (zkeys es)).
  { apply NoDup_app_r in A1. apply NoDup_app_l in A1. auto. }
  assert (NI : ~ Forall cplain D) by (intros C; destruct (A10 C) as [-> _]; discriminate).
  destruct (A6 _ _ E) as [HC HS].
  split; auto; try tauto.
  - rewrite aids_app. change (aids [MRunspaceAvailability i r]) with [i].
    assert (PM : Permutation (rids P ++ zkeys es ++ aids Q) (rids P ++ zkeys (zdel i es) ++ aids Q ++ [i])).
    { apply Permutation_app_head. rewrite (zkeys_zdel_perm _ i es) by (apply zget_In; congruence).
      rewrite app_assoc. apply Permutation_cons_append. }
    apply (Permutation_NoDup PM). auto.
  - apply NoDup_zdel; auto.
  - intros j e' X. rewrite zget_zdel in X by auto. rewrite zget_zdel by auto. destruct (j =? i); [discriminate|]. auto.
  - intros b j r' I X. apply in_app_iff in I. destruct I as [I|[<-|[]]]; eauto. injection X as <- <-. congruence.
  - rewrite app_assoc. apply Forall_app. split; auto. constructor; [discriminate|constructor].
  - intros H NC. destruct (A13 H NC) as [X1 X2].
    assert (NINIT : forall b, In b P -> is_init b = false).
    { intros b I. destruct (is_init b) eqn:X; auto. elim NI. apply in_split in I. destruct I as (l1 & l2 & ->).
      specialize (A9 (D ++ l1) b l2). rewrite <- app_assoc in A9. specialize (A9 eq_refl X). apply Forall_app in A9. apply A9. }
    split. { intros mn mx cfg I. apply NINIT in I. discriminate. }
    intros _. rewrite effs_app, X2 by auto. cbn. rewrite HC, HS. auto.
Qed.

(** The server processes a message. *)
Lemma i30_server_next_plain : forall hc ci lc bo D P hs es ls F Q b new, inv30 hc ci lc bo D (b :: P) hs es ls F Q ->
  cplain b -> Forall splain new -> Forall not_before new -> inv30 hc ci lc bo (D ++ [b]) P hs es ls F (Q ++ new).
Proof.
  intros hc ci lc bo D P hs es ls F Q b new V C N B. apply i30_server_plain; auto. clear new N B.
  assert (E : (D ++ [b]) ++ P = D ++ b :: P) by (rewrite <- app_assoc; auto).
  destruct V as [A1 A2 A3 A4 A5 A6 A7 A8 A9 A10 A11 A12 A13].
  destruct C as (C1 & C2 & C3).
  split; auto; rewrite ?E; auto.
  - cbn in A1. rewrite C1 in A1. auto.
  - intros b' i h I. apply A5. right. auto.
  - intros X. apply Forall_app in X. apply A10. apply X.
  - intros b' I. apply A11. right. auto.
  - intros H NC. destruct A13 as [X1 X2]; auto.
    { intros b' [<-|I]; auto. }
    split.
    + intros mn mx cfg I. apply (X1 mn mx cfg). right. auto.
    + intros I. apply X2. intros b' [<-|J]; auto.
Qed.
Lemma i30_server_next_req : forall hc ci lc bo D P hs es ls F Q b i h, inv30 hc ci lc bo D (b :: P) hs es ls F Q ->
  req_of b = Some (i, h) -> h = want (ev_of b) -> inv30 hc ci lc bo (D ++ [b]) P (zset i h hs) (zset i (ev_of b) es) ls F Q.
Proof.
  intros hc ci lc bo D P hs es ls F Q b i h V R W.
  assert (E : (D ++ [b]) ++ P = D ++ b :: P) by (rewrite <- app_assoc; auto).
  destruct V as [A1 A2 A3 A4 A5 A6 A7 A8 A9 A10 A11 A12 A13].
  cbn in A1. rewrite R in A1. cbn in A1.
  assert (NI : ~ In i (zkeys es)).
  { inversion A1 as [|? ? X _]; subst. intros I. apply X. rewrite !in_app_iff. auto. }
  split; auto; rewrite ?E; auto.
  - rewrite zkeys_zset_new by auto. eapply Permutation_NoDup; [|exact A1].
    rewrite <- app_assoc. cbn [app]. rewrite !app_assoc. apply Permutation_middle.
  - apply NoDup_zset; auto.
  - intros b' j h' I. apply A5. right. auto.
  - intros j e X. rewrite zget_zset in X. rewrite zget_zset. destruct (Z.eqb_spec j i) as [->|].
    + injection X as <-. rewrite W. split; auto. rewrite <- W. apply (A5 b); auto. left; auto.
    + auto.
  - intros X. apply Forall_app in X. destruct X as [_ X]. inversion X as [|? ? Y _]; subst. destruct Y as [Y _]. congruence.
  - intros b' I. apply A11. right. auto.
  - intros H NC. destruct A13 as [X1 X2]; auto.
    { intros b' [<-|I]; auto. destruct b; auto. discriminate R. }
    split.
    + intros mn mx cfg I. apply (X1 mn mx cfg). right. auto.
    + intros I. apply X2. intros b' [<-|J]; auto. destruct b; auto. discriminate R.
Qed.
Lemma i30_server_next_init : forall hc ci lc bo D P hs es ls F Q mn mx cfg new,
  inv30 hc ci lc bo D (MInitRunspacePool mn mx cfg :: P) hs es ls F Q -> Forall splain new -> Forall not_before new ->
  inv30 hc ci lc bo (D ++ [MInitRunspacePool mn mx cfg]) P hs es (mn, mx) F (Q ++ new).
Proof.
  intros hc ci lc bo D P hs es ls F Q mn mx cfg new V N B. apply i30_server_plain; auto. clear new N B.
  set (b := MInitRunspacePool mn mx cfg) in *.
  assert (E : (D ++ [b]) ++ P = D ++ b :: P) by (rewrite <- app_assoc; auto).
  destruct V as [A1 A2 A3 A4 A5 A6 A7 A8 A9 A10 A11 A12 A13].
  assert (NINIT : forall b, In b P -> is_init b = false).
  { intros b' I. destruct (is_init b') eqn:X; auto. apply in_split in I. destruct I as (l1 & l2 & ->).
    specialize (A9 (D ++ b :: l1) b' l2). rewrite <- app_assoc in A9. specialize (A9 eq_refl X). apply Forall_app in A9.
    destruct A9 as [_ A9]. inversion A9 as [|? ? Y _]; subst. destruct Y as (_ & Y & _). discriminate. }
  split; auto; rewrite ?E; auto.
  - intros b' j h' I. apply A5. right. auto.
  - intros X. apply Forall_app in X. destruct X as [X _]. auto.
  - intros b' I. apply A11. right. auto.
  - intros H NC. destruct A13 as [X1 X2]; auto.
    { intros b' [<-|I]; auto. }
    split. { intros mn' mx' cfg' I. apply NINIT in I. discriminate. }
    intros _. apply (X1 mn mx cfg). left. reflexivity.
Qed.
Lemma i30_server_next_conn : forall hc ci lc bo D P hs es ls F Q mn mx new,
  inv30 hc ci lc bo D (MConnectRunspacePool mn mx :: P) hs es ls F Q -> Forall splain new ->
  Forall not_before new ->
  inv30 hc ci lc bo (D ++ [MConnectRunspacePool mn mx]) P hs es ls F (Q ++ MRunspacePoolInitData (fst ls) (snd ls) :: new).
Proof.
  intros hc ci lc bo D P hs es ls F Q mn mx new V N B.
  replace (Q ++ MRunspacePoolInitData (fst ls) (snd ls) :: new) with ((Q ++ [MRunspacePoolInitData (fst ls) (snd ls)]) ++ new)
    by (rewrite <- app_assoc; auto).
  apply i30_server_plain; auto. clear new N B.
  set (b := MConnectRunspacePool mn mx) in *.
  assert (E : (D ++ [b]) ++ P = D ++ b :: P) by (rewrite <- app_assoc; auto).
  destruct V as [A1 A2 A3 A4 A5 A6 A7 A8 A9 A10 A11 A12 A13].
  assert (NINIT : forall b, In b P -> is_init b = false).
  { intros b' I. destruct (is_init b') eqn:X; auto. apply in_split in I. destruct I as (l1 & l2 & ->).
    specialize (A9 (D ++ b :: l1) b' l2). rewrite <- app_assoc in A9. specialize (A9 eq_refl X). apply Forall_app in A9.
    destruct A9 as [_ A9]. inversion A9 as [|? ? Y _]; subst. destruct Y as (_ & _ & Y). discriminate. }
  split; auto; rewrite ?E; auto.
  - rewrite aids_app. cbn. rewrite app_nil_r. auto.
  - intros b' j h' I. apply A5. right. auto.
  - intros b' j r I X. apply in_app_iff in I. destruct I as [I|[<-|[]]]; eauto. discriminate.
  - intros X. apply Forall_app in X. destruct X as [_ X]. inversion X as [|? ? Y _]; subst. destruct Y as (_ & _ & Y). discriminate.
  - intros b' I. apply A11. right. auto.
  - rewrite app_assoc. apply Forall_app. split; auto. constructor; [discriminate|constructor].
  - intros H NC. split. { intros mn' mx' cfg' I. apply NINIT in I. discriminate. }
    intros _. rewrite effs_app. cbn. destruct ls; auto.
Qed.

(** The client processes a message; it sends plain messages only. *)
Lemma i30_client_next : forall hc ci lc bo bo' D P hs es ls F Q b new,
  inv30 hc ci lc bo D P hs es ls F (b :: Q) -> Forall cplain new -> (bo' = true -> bo = true) ->
  inv30 (match ans_of b with Some (i, _) => zdel i hc | None => hc end) ci (eff hc lc b) bo' D (P ++ new) hs es ls (F ++ [b]) Q.
Proof.
  intros hc ci lc bo bo' D P hs es ls F Q b new V N B.
  apply i30_client_plain with (lc := eff hc lc b) (bo := bo); auto. clear new N bo' B.
  assert (E : (F ++ [b]) ++ Q = F ++ b :: Q) by (rewrite <- app_assoc; auto).
  destruct V as [A1 A2 A3 A4 A5 A6 A7 A8 A9 A10 A11 A12 A13].
  assert (OTHER : forall i j r, ans_of b = Some (i, r) -> In j (rids P ++ zkeys es ++ aids Q) -> j <> i).
  { intros i j r X I ->. cbn in A1. rewrite X in A1. cbn in A1. rewrite app_assoc in A1.
    apply NoDup_remove_2 in A1. apply A1. rewrite <- app_assoc. auto. }
  set (hc' := match ans_of b with Some (i, _) => zdel i hc | None => hc end).
  assert (SAME : forall j, In j (rids P ++ zkeys es ++ aids Q) -> zget j hc' = zget j hc).
  { intros j I. unfold hc'. destruct (ans_of b) as [[i r]|] eqn:X; auto. rewrite zget_zdel by auto.
    destruct (Z.eqb_spec j i); auto. elim (OTHER i j r); auto. }
  split; auto; rewrite ?E; auto.
  - cbn in A1. destruct (ans_of b) as [[i r]|]; auto. cbn in A1. rewrite app_assoc in A1. apply NoDup_remove_1 in A1.
    rewrite <- app_assoc in A1. auto.
  - unfold hc'. destruct (ans_of b) as [[i r]|]; auto. apply NoDup_zdel; auto.
  - unfold hc'. intros i I. destruct (ans_of b) as [[j r]|]; auto. apply In_zkeys_zdel in I. auto.
  - intros b' i h I X. rewrite SAME; eauto. rewrite !in_app_iff. left. apply in_rids. eauto.
  - intros i e X. rewrite SAME; auto. rewrite !in_app_iff. right. left. apply zget_In. congruence.
  - intros b' i r I X. rewrite SAME; [apply (A7 b' i r); [right|]; auto|]. rewrite !in_app_iff. right. right. apply in_aids. eauto.
  - intros H NC. assert (EX : effs hc' Q (eff hc lc b) = effs hc (b :: Q) lc).
    { unfold effs at 2. cbn [fold_left]. apply effs_ext. intros i I. apply SAME. rewrite !in_app_iff. auto. }
    destruct (A13 H NC) as [X1 X2]. rewrite <- EX in X1, X2. exact (conj X1 X2).
Qed.
