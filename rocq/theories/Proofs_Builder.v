From Verif Require Import Base Model_Scalars Model_Command Model_Builder Spec_Command Spec_Builder Proofs_Command.

Section Builder.
  Context {V : Type} (vtrue : V).
  Notation history := (list (op V)).

  (** ** Lists *)
  Lemma last_place_spec l a : last_place l = Some a <-> exists f, l = f ++ [a].
  Proof.
    induction l as [|b t IH]; cbn [last_place].
    - split; [discriminate|]. intros (f & E). now destruct f.
    - destruct t as [|b' t].
      + split.
        * intros E. injection E as ->. now exists [].
        * intros ([|x f] & E); [injection E as ->; reflexivity|]. injection E as -> E. now destruct f.
      + rewrite IH. split.
        * intros (f & E). exists (b :: f). now rewrite E.
        * intros ([|x f] & E); [discriminate E|]. injection E as -> E. now exists f.
  Qed.
  Lemma last_place_none l : last_place l = None <-> l = [].
  Proof.
    destruct l as [|b t]; [split; auto|]. split; [|discriminate]. intros E.
    destruct (exists_last (l := b :: t) ltac:(discriminate)) as (f & x & F).
    assert (last_place (b :: t) = Some x) as G by (apply last_place_spec; eauto). congruence.
  Qed.
  Lemma list_put p x l q : list_of q (put_list p x l) = if p =? q then x else list_of q l.
  Proof.
    induction l as [|[r y] t IH]; cbn [put_list list_of].
    - reflexivity.
    - destruct (r =? p) eqn:E; cbn [list_of].
      + apply Nat.eqb_eq in E as ->. now destruct (p =? q).
      + rewrite IH. destruct (r =? q) eqn:F; [|reflexivity]. apply Nat.eqb_eq in F as ->.
        rewrite Nat.eqb_sym in E. now rewrite E.
  Qed.
  Lemma replace_length a (c : command V) l : length (replace a c l) = length l.
  Proof. revert a. induction l as [|d t IH]; intros [|a]; cbn; auto. Qed.
  Lemma replace_same a (c : command V) l : nth_error l a = Some c -> replace a c l = l.
  Proof.
    revert a. induction l as [|d t IH]; intros [|a]; cbn; try discriminate; intros E; [injection E as ->; reflexivity|].
    now rewrite IH.
  Qed.
  Lemma replace_at a (c : command V) l : a < length l -> nth_error (replace a c l) a = Some c.
  Proof. revert a. induction l as [|d t IH]; intros [|a] L; cbn in *; try lia; auto. apply IH. lia. Qed.
  Lemma replace_off a b (c : command V) l : a <> b -> nth_error (replace a c l) b = nth_error l b.
  Proof. revert a b. induction l as [|d t IH]; intros [|a] [|b] N; cbn; auto; try congruence. Qed.
  Lemma replace_twice a (c d : command V) l : replace a d (replace a c l) = replace a d l.
  Proof. revert a. induction l as [|e t IH]; intros [|a]; cbn; auto. now rewrite IH. Qed.

  (** ** What a call does *)
  Definition apply (c : command V) (x : change) : command V :=
    match x with
    | Given n v => add_parameter c n v | Sent x => do_call c x | Ended b => set_end b c | Claimed b => set_unclaimed b c
    end.
  Definition target (s : store V) (o : op V) : option nat :=
    match o with
    | CParameter b _ _ | CArgument b _ | CParameters b _ | CRedirect b _ _ | CRedirectAll b _ | CEnd b _ | CUnclaimed b _ => Some b
    | PParameter p _ _ | PArgument p _ | PParameters p _ | PStatement p => last_place (places s p)
    | _ => None
    end.
  Definition changed (s : store V) (a : nat) (c : command V) (cs : list change) : store V :=
    mkB (replace a (fold_left apply cs c) (b_made s)) (b_lists s).
  Lemma c_parameters_ok l : forall s a c, nth_error (b_made s) a = Some c ->
    c_parameters vtrue s a l = Ok (changed s a c (map (fun x => Given (Some (fst x)) (snd x)) l)).
  Proof.
    induction l as [|[n v] t IH]; intros s a c E; cbn [c_parameters map].
    - unfold changed. cbn [fold_left]. rewrite replace_same by exact E. now destruct s.
    - unfold c_parameter, on. rewrite E. cbn [bind].
      assert (a < length (b_made s)) as L by (apply nth_error_Some; congruence).
      erewrite IH by (cbn [b_made]; apply replace_at; exact L).
      unfold changed. cbn [b_made b_lists fold_left apply]. now rewrite replace_twice.
  Qed.
  Lemma p_parameters_ok l : forall s p a c, nth_error (b_made s) a = Some c -> last_place (places s p) = Some a ->
    p_parameters vtrue s p l = c_parameters vtrue s a l.
  Proof.
    induction l as [|[n v] t IH]; intros s p a c E T; cbn [c_parameters p_parameters]; [reflexivity|].
    unfold p_parameter. rewrite T. unfold c_parameter, on. rewrite E. cbn [bind].
    assert (a < length (b_made s)) as L by (apply nth_error_Some; congruence).
    eapply IH; [cbn [b_made]; apply replace_at; exact L|exact T].
  Qed.
  Lemma refused_call s a (c : command V) (f : command V -> result (command V)) x :
    nth_error (b_made s) a = Some c -> do_call c x = match f c with Ok c' => c' | Err _ => c end ->
    (match on s a f with Ok s' => s' | Err _ => s end) = changed s a c [Sent x].
  Proof.
    intros E D. unfold on, changed. rewrite E. cbn [fold_left apply]. rewrite D.
    destruct (f c); cbn [bind]; [reflexivity|]. rewrite replace_same by exact E. now destruct s.
  Qed.
  Lemma step_changes s o a c : nth_error (b_made s) a = Some c -> target s o = Some a ->
    step vtrue s o = changed s a c (changes vtrue o).
  Proof.
    intros E T.
    destruct o as [t sc l|b n v|b v|b l|b m t|b t|b f|b f|p t l|p b l|p t l|p n v|p v|p l|p]; cbn [target] in T; try discriminate T;
      try (injection T as ->); unfold step; cbn [do_op].
    - unfold c_parameter, on. rewrite E. reflexivity.
    - unfold c_parameter, on. rewrite E. reflexivity.
    - rewrite (c_parameters_ok _ _ _ c) by exact E. reflexivity.
    - apply refused_call; [exact E|]. destruct m; reflexivity.
    - apply refused_call; [exact E|]. reflexivity.
    - unfold on. rewrite E. reflexivity.
    - unfold on. rewrite E. reflexivity.
    - unfold p_parameter. rewrite T. unfold c_parameter, on. rewrite E. reflexivity.
    - unfold p_parameter. rewrite T. unfold c_parameter, on. rewrite E. reflexivity.
    - rewrite (p_parameters_ok _ _ _ a c) by assumption. rewrite (c_parameters_ok _ _ _ c) by exact E. reflexivity.
    - rewrite T. unfold on. rewrite E. reflexivity.
  Qed.
  Definition news (o : op V) : list (list N * bool * option bool) :=
    match o with
    | CNew t s l => [(t, s, l)] | PCommand _ t l => [(t, false, l)] | PScript _ t l => [(t, true, l)] | _ => []
    end.
  Definition fresh_command (w : list N * bool * option bool) : command V := new_command (fst (fst w)) (snd (fst w)) (snd w).
  Definition adds (o : op V) (n p : nat) : list nat :=
    match o with
    | PCommand q _ _ | PScript q _ _ => if q =? p then [n] else []
    | PObject q a None => if q =? p then [a] else []
    | _ => []
    end.
  Lemma places_append (s : store V) p a q : places (append s p a) q = places s q ++ if p =? q then [a] else [].
  Proof.
    unfold places, append. cbn [b_lists]. rewrite list_put. destruct (p =? q) eqn:E; [|now rewrite app_nil_r].
    apply Nat.eqb_eq in E as ->. reflexivity.
  Qed.
  Lemma step_made s o : target s o = None -> (forall a, speaks_of o = Some a -> a < length (b_made s)) ->
    b_made (step vtrue s o) = b_made s ++ map fresh_command (news o)
    /\ forall p, places (step vtrue s o) p = places s p ++ adds o (length (b_made s)) p.
  Proof.
    intros T W.
    destruct o as [t sc l|b n v|b v|b l|b m t|b t|b f|b f|p t l|p b l|p t l|p n v|p v|p l|p]; cbn [target] in T; try discriminate T;
      unfold step; cbn [do_op news adds map].
    - split; [reflexivity|]. intros p. now rewrite app_nil_r.
    - cbn [make b_made]. split; [reflexivity|]. intros q. rewrite places_append. reflexivity.
    - rewrite app_nil_r. unfold p_object. destruct l as [l|]; [split; [reflexivity|]; intros q; now rewrite app_nil_r|].
      assert (b < length (b_made s)) as L by (apply W; reflexivity).
      destruct (nth_error (b_made s) b) eqn:E; [|apply nth_error_None in E; lia].
      split; [reflexivity|]. intros q. apply places_append.
    - cbn [make b_made]. unfold p_object. cbn [b_made]. rewrite nth_error_app2 by lia. rewrite Nat.sub_diag.
      cbn [nth_error]. split; [reflexivity|]. intros q. rewrite places_append. reflexivity.
    - unfold p_parameter. rewrite T. rewrite app_nil_r. split; [reflexivity|]. intros q. now rewrite app_nil_r.
    - unfold p_parameter. rewrite T. rewrite app_nil_r. split; [reflexivity|]. intros q. now rewrite app_nil_r.
    - destruct l as [|[n v] l]; cbn [p_parameters]; [|unfold p_parameter; rewrite T; cbn [bind]];
        (rewrite app_nil_r; split; [reflexivity|]; intros q; now rewrite app_nil_r).
    - rewrite T. rewrite app_nil_r. split; [reflexivity|]. intros q. now rewrite app_nil_r.
  Qed.
  Lemma target_no_news s o a : target s o = Some a -> news o = [] /\ forall n p, adds o n p = [].
  Proof. destruct o; cbn; try discriminate; auto. Qed.
  Lemma target_about (s : store V) h o a : (forall p, places s p = added h p) -> (target s o = Some a <-> about h o a).
  Proof.
    intros P. destruct o; cbn [target about]; rewrite ?P, ?last_place_spec; try reflexivity; try (split; [discriminate|tauto]);
      (split; [intros E; now injection E|now intros ->]).
  Qed.

  (** ** Histories *)
  Notation after h := (run vtrue b_empty (rev h)).
  Lemma after_cons o h : after (o :: h) = step vtrue (after h) o.
  Proof. unfold run. cbn [rev]. now rewrite fold_left_app. Qed.
  Lemma creations_cons (o : op V) h : creations (o :: h) = creations h ++ news o.
  Proof. reflexivity. Qed.
  Lemma added_cons (o : op V) h p : added (o :: h) p = added h p ++ adds o (length (creations h)) p.
  Proof. destruct o; reflexivity. Qed.
  Lemma added_made h p (a : nat) : program h -> In a (added (V := V) h p) -> a < length (creations h).
  Proof.
    induction h as [|o h IH]; [intros _ []|]. intros (G & W). rewrite added_cons, creations_cons, app_length. intros I.
    apply in_app_or in I as [I|I]; [specialize (IH G I); lia|].
    destruct o as [t sc l|b n v|b v|b l|b m t|b t|b f|b f|q t l|q b l|q t l|q n v|q v|q l|q]; cbn [adds news length] in *; try contradiction.
    - destruct (q =? p); [|contradiction]. destruct I as [<-|[]]. lia.
    - destruct l; [contradiction|]. destruct (q =? p); [|contradiction]. destruct I as [<-|[]]. specialize (W _ eq_refl). lia.
    - destruct (q =? p); [|contradiction]. destruct I as [<-|[]]. lia.
  Qed.
  (** Nothing happens to a command before it is made. *)
  Lemma no_story h (a : nat) : program h -> length (creations h) <= a -> story vtrue h a [].
  Proof.
    induction h as [|o h IH]; [constructor|]. intros (G & W) L. rewrite creations_cons, app_length in L.
    apply story_other; [apply IH; [exact G|lia]|]. intros A.
    destruct o as [t sc l|b n v|b v|b l|b m t|b t|b f|b f|q t l|q b l|q t l|q n v|q v|q l|q]; cbn [about] in A; try contradiction;
      try (subst b; specialize (W _ eq_refl); lia);
      (destruct A as (f & A); assert (In a (added h q)) as I by (rewrite A; apply in_or_app; right; left; reflexivity);
       apply (added_made h q a G) in I; lia).
  Qed.
  Lemma history_state h : program h ->
    length (b_made (after h)) = length (creations h)
    /\ (forall p, places (after h) p = added h p)
    /\ (forall a w, nth_error (creations h) a = Some w ->
          exists cs, story vtrue h a cs /\ nth_error (b_made (after h)) a = Some (fold_left apply cs (fresh_command w))).
  Proof.
    induction h as [|o h IH]; intros G.
    - repeat split; auto. intros [|a] w E; discriminate E.
    - destruct G as (G & W). destruct (IH G) as (L & P & M). clear IH.
      rewrite after_cons. set (s := after h) in *. clearbody s. rewrite creations_cons.
      destruct (target s o) as [a|] eqn:T.
      + pose proof (proj1 (target_about s h o a P) T) as A.
        destruct (target_no_news s o a T) as (N1 & N2). rewrite N1, app_nil_r.
        assert (a < length (creations h)) as La.
        { destruct o; cbn [target] in T; try discriminate T; try (injection T as ->; apply W; reflexivity);
            (destruct A as (f & A); apply (added_made h p a G); rewrite A; apply in_or_app; right; left; reflexivity). }
        destruct (nth_error (creations h) a) as [w|] eqn:Ew; [|apply nth_error_None in Ew; lia].
        destruct (M a w Ew) as (cs & S1 & S2).
        rewrite (step_changes s o a _ S2 T). unfold changed. cbn [b_made b_lists].
        split; [rewrite replace_length; exact L|]. split.
        * intros p. rewrite added_cons, N2, app_nil_r. exact (P p).
        * intros b w' Eb. destruct (Nat.eq_dec a b) as [<-|Nb].
          -- exists (cs ++ changes vtrue o). split; [constructor; assumption|].
             rewrite replace_at by lia. rewrite fold_left_app. congruence.
          -- destruct (M b w' Eb) as (cs' & S1' & S2'). exists cs'. split.
             ++ apply story_other; [exact S1'|]. intros A'. apply Nb.
                pose proof (proj2 (target_about s h o b P) A') as T'. congruence.
             ++ rewrite replace_off by exact Nb. exact S2'.
      + destruct (step_made s o T) as (S1 & S2).
        { intros a E. rewrite L. apply W. exact E. }
        rewrite S1, app_length, map_length, app_length.
        split; [now rewrite L|]. split.
        * intros p. rewrite S2, added_cons, P, L. reflexivity.
        * intros a w E. destruct (lt_dec a (length (creations h))) as [La|La].
          -- rewrite nth_error_app1 in E by exact La. destruct (M a w E) as (cs & C1 & C2). exists cs. split.
             ++ apply story_other; [exact C1|]. intros A. apply (target_about s h o a P) in A. congruence.
             ++ rewrite nth_error_app1 by lia. exact C2.
          -- rewrite nth_error_app2 in E by lia. exists []. split.
             ++ apply story_other; [|intros A; apply (target_about s h o a P) in A; congruence].
                apply no_story; [exact G|lia].
             ++ rewrite nth_error_app2 by lia. rewrite L. now rewrite nth_error_map, E.
  Qed.

  (** ** What the stories amount to *)
  Lemma story_unique h a cs : story vtrue h a cs -> forall cs', story vtrue h a cs' -> cs = cs'.
  Proof.
    induction 1 as [a|o h a cs H1 IH A|o h a cs H1 IH A]; intros cs' H2; inversion H2; subst; auto; try contradiction.
    f_equal. auto.
  Qed.
  Lemma finally_snoc (f : change (V := V) -> option bool) (cs : list (change (V := V))) x b : finally f cs b ->
    finally f (cs ++ [x]) (match f x with Some b' => b' | None => b end).
  Proof.
    intros F. destruct (f x) as [b'|] eqn:E.
    - left. exists x. split; [|exact E]. apply last_of_snoc. left. split; [congruence|reflexivity].
    - destruct F as [(y & L & Y)|(A & ->)].
      + left. exists y. split; [|exact Y]. apply last_of_snoc. right. split; [congruence|exact L].
      + right. split; [|reflexivity]. apply Forall_app. split; [exact A|]. constructor; [exact E|constructor].
  Qed.
  Lemma goes_to_do (c : command V) x s xs : goes_to s xs (setting s c) -> goes_to s (xs ++ [x]) (setting s (do_call c x)).
  Proof.
    intros G. rewrite do_call_setting. destruct (acceptedb s x) eqn:B.
    - left. exists x. split; [|reflexivity]. apply last_of_snoc. left. split; [now apply acceptedb_spec|reflexivity].
    - assert (~ accepted s x) as N by (intros A; apply acceptedb_spec in A; congruence).
      destruct G as [(y & L & Y)|(F & ->)].
      + left. exists y. split; [|exact Y]. apply last_of_snoc. right. auto.
      + right. split; [|reflexivity]. apply Forall_app. split; [exact F|]. constructor; [exact N|constructor].
  Qed.
  Lemma made_by_story (cs : list (change (V := V))) w : made_by w cs (fold_left apply cs (fresh_command w)).
  Proof.
    induction cs as [|x cs IH] using rev_ind.
    - destruct w as [[t sc] l]. repeat split; try (right; split; [constructor|reflexivity]). intros s. right. split; [constructor|].
      now destruct s.
    - rewrite fold_left_app. cbn [fold_left]. set (c := fold_left apply cs (fresh_command w)) in *. clearbody c.
      destruct IH as (I1 & I2 & I3 & I4 & I5 & I6 & I7 & I8). cbv zeta in I8. destruct I8 as (I8 & I9).
      unfold made_by, given, sent. rewrite !flat_map_app. cbn [flat_map]. fold (given cs). fold (sent cs).
      pose proof (finally_snoc ended cs x _ I5) as E5. pose proof (finally_snoc claimed cs x _ I6) as E6.
      destruct x as [n v|x|b|b]; cbn [apply] in *; rewrite ?app_nil_r.
      + cbn [ended claimed] in *. destruct c; cbn in *. subst. repeat split; auto.
      + cbn [ended claimed] in *. destruct (do_call_rest c x) as (R1 & R2 & R3 & R4 & R5 & R6).
        assert ((c_my (do_call c x), c_to (do_call c x))
                = (c_my (fold_left do_call (sent cs ++ [x]) (new_command (V := V) [] false None)),
                   c_to (fold_left do_call (sent cs ++ [x]) (new_command (V := V) [] false None)))) as Q.
        { rewrite fold_left_app. cbn [fold_left]. rewrite !do_call_my, I8, I9. reflexivity. }
        injection Q as Q1 Q2.
        repeat split; try congruence. intros s. now apply goes_to_do.
      + cbn [ended claimed] in *. destruct c; cbn in *. subst. repeat split; auto.
      + cbn [ended claimed] in *. destruct c; cbn in *. subst. repeat split; auto.
  Qed.
  Lemma commands_listed (s : store V) l : (forall a, In a l -> a < length (b_made s)) ->
    Forall2 (fun a c => nth_error (b_made s) a = Some c) l
      (flat_map (fun a => match nth_error (b_made s) a with Some c => [c] | None => [] end) l).
  Proof.
    induction l as [|a l IH]; intros B; cbn [flat_map]; [constructor|].
    destruct (nth_error (b_made s) a) as [c|] eqn:E.
    - cbn [app]. constructor; [exact E|]. apply IH. intros b I. apply B. now right.
    - apply nth_error_None in E. specialize (B a (or_introl eq_refl)). lia.
  Qed.
  Lemma history_holds h p : program h ->
    Forall2 (fun a c => exists w cs, nth_error (creations h) a = Some w /\ story vtrue h a cs /\ made_by w cs c)
      (added h p) (commands (after h) p).
  Proof.
    intros G. destruct (history_state h G) as (L & P & M). unfold commands. rewrite P.
    assert (forall a, In a (added h p) -> a < length (b_made (after h))) as B.
    { intros a I. rewrite L. now apply (added_made h p a G). }
    pose proof (commands_listed (after h) (added h p) B) as F. revert F B. generalize (added h p) as l.
    intros l F B. induction F as [|a c l cs E F IH]; constructor; [|apply IH; intros b I; apply B; now right].
    specialize (B a (or_introl eq_refl)). rewrite L in B.
    destruct (nth_error (creations h) a) as [w|] eqn:Ew; [|apply nth_error_None in Ew; lia].
    destruct (M a w Ew) as (st & S1 & S2). exists w, st. split; [reflexivity|]. split; [exact S1|]. rewrite S2 in E. injection E as <-.
    apply made_by_story.
  Qed.

  (** ** Refusals *)
  Lemma redirect_is (c : command V) m t : redirect c m t = Err ValueError /\ ~ target_ok t \/ (exists c', redirect c m t = Ok c') /\ target_ok t.
  Proof.
    destruct (valid_target t) eqn:E.
    - right. split; [|now apply valid_target_spec]. pose proof (redirect_targets c t) as (A & B & C & D & F & _).
      assert (target_ok t) as T by now apply valid_target_spec.
      apply A in T as TA. apply B in T as TB. apply C in T as TC. apply D in T as TD. apply F in T as TF.
      destruct m; cbn [redirect];
      [destruct (redirect_error c t)|destruct (redirect_warning c t)|destruct (redirect_verbose c t)|destruct (redirect_debug c t)|
       destruct (redirect_information c t)]; try discriminate; eauto.
    - left. assert (~ target_ok t) as T by (intros T; apply valid_target_spec in T; congruence). split; [|exact T].
      destruct (redirect_refused c t T) as (A & B & C & D & F & _). now destruct m.
  Qed.
  Lemma redirect_all_is (c : command V) t : redirect_all c t = Err ValueError /\ ~ target_ok t \/ (exists c', redirect_all c t = Ok c') /\ target_ok t.
  Proof.
    destruct (valid_target t) eqn:E.
    - right. split; [|now apply valid_target_spec]. pose proof (redirect_targets c t) as (_ & _ & _ & _ & _ & F).
      assert (target_ok t) as T by now apply valid_target_spec. apply F in T. destruct (redirect_all c t); [eauto|discriminate].
    - left. assert (~ target_ok t) as T by (intros T; apply valid_target_spec in T; congruence). split; [|exact T].
      now destruct (redirect_refused c t T) as (_ & _ & _ & _ & _ & F).
  Qed.
  Lemma made_at h (a : nat) : program h -> a < length (creations h) -> exists c, nth_error (b_made (after h)) a = Some c.
  Proof.
    intros G L. destruct (history_state h G) as (E & _). destruct (nth_error (b_made (after h)) a) eqn:F; [eauto|].
    apply nth_error_None in F. lia.
  Qed.
  Lemma refusals h o e : program (o :: h) -> (refused h o e <-> do_op vtrue (after h) o = Err e).
  Proof.
    intros (G & W). destruct (history_state h G) as (L & P & _).
    assert (forall a, a < length (creations h) -> exists c, nth_error (b_made (after h)) a = Some c) as At by (intros; now apply made_at).
    assert (forall p a, last_place (places (after h) p) = Some a -> exists c, nth_error (b_made (after h)) a = Some c) as Last.
    { intros p a E. apply At. rewrite P in E. apply last_place_spec in E as (f & E). apply (added_made h p a G). rewrite E.
      apply in_or_app. right. now left. }
    assert (forall p, last_place (places (after h) p) = None <-> added h p = []) as None_.
    { intros p. rewrite P. apply last_place_none. }
    set (s := after h) in *. clearbody s.
    destruct o as [t sc l|b n v|b v|b l|b m t|b t|b f|b f|p t l|p b l|p t l|p n v|p v|p l|p]; cbn [do_op];
      try (destruct (At b (W b eq_refl)) as (c & Ec)).
    - split; [intros R; inversion R|discriminate].
    - unfold c_parameter, on. rewrite Ec. split; [intros R; inversion R|discriminate].
    - unfold c_parameter, on. rewrite Ec. split; [intros R; inversion R|discriminate].
    - rewrite (c_parameters_ok _ _ _ c Ec). split; [intros R; inversion R|discriminate].
    - unfold on. rewrite Ec. destruct (redirect_is c m t) as [(-> & T)|((c' & ->) & T)]; cbn [bind].
      + split; [intros R; inversion R; reflexivity|]. intros R. injection R as <-. now constructor.
      + split; [intros R; inversion R; contradiction|discriminate].
    - unfold on. rewrite Ec. destruct (redirect_all_is c t) as [(-> & T)|((c' & ->) & T)]; cbn [bind].
      + split; [intros R; inversion R; reflexivity|]. intros R. injection R as <-. now constructor.
      + split; [intros R; inversion R; contradiction|discriminate].
    - unfold on. rewrite Ec. split; [intros R; inversion R|discriminate].
    - unfold on. rewrite Ec. split; [intros R; inversion R|discriminate].
    - split; [intros R; inversion R|discriminate].
    - unfold p_object. rewrite Ec. destruct l as [l|].
      + split; [intros R; inversion R; reflexivity|]. intros R. injection R as <-. constructor.
      + split; [intros R; inversion R|discriminate].
    - cbn [make]. unfold p_object. cbn [b_made]. rewrite nth_error_app2 by lia. rewrite Nat.sub_diag. cbn [nth_error].
      split; [intros R; inversion R|discriminate].
    - unfold p_parameter. destruct (last_place (places s p)) as [a|] eqn:E.
      + destruct (Last p a E) as (c & Ec). unfold c_parameter, on. rewrite Ec. split; [|discriminate].
        intros R; inversion R; subst. assert (last_place (places s p) = None) by now apply None_. congruence.
      + split; [intros R; inversion R; reflexivity|]. intros R. injection R as <-. constructor. now apply None_.
    - unfold p_parameter. destruct (last_place (places s p)) as [a|] eqn:E.
      + destruct (Last p a E) as (c & Ec). unfold c_parameter, on. rewrite Ec. split; [|discriminate].
        intros R; inversion R; subst. assert (last_place (places s p) = None) by now apply None_. congruence.
      + split; [intros R; inversion R; reflexivity|]. intros R. injection R as <-. constructor. now apply None_.
    - destruct (last_place (places s p)) as [a|] eqn:E.
      + destruct (Last p a E) as (c & Ec). rewrite (p_parameters_ok _ _ _ a c Ec E), (c_parameters_ok _ _ _ c Ec).
        split; [|discriminate].
        intros R; inversion R; subst. assert (last_place (places s p) = None) by now apply None_. congruence.
      + destruct l as [|[n v] l]; cbn [p_parameters].
        * split; [intros R; inversion R; congruence|discriminate].
        * unfold p_parameter. rewrite E. cbn [bind]. split; [intros R; inversion R; reflexivity|]. intros R. injection R as <-.
          constructor; [now apply None_|discriminate].
    - destruct (last_place (places s p)) as [a|] eqn:E.
      + destruct (Last p a E) as (c & Ec). unfold on. rewrite Ec. split; [intros R; inversion R|discriminate].
      + split; [intros R; inversion R|discriminate].
  Qed.

  (** ** Pipelines side by side *)
  Lemma flat_map_agree {A B} (f g : A -> list B) l : (forall x, In x l -> f x = g x) -> flat_map f l = flat_map g l.
  Proof.
    induction l as [|x l IH]; intros E; cbn [flat_map]; [reflexivity|]. rewrite (E x (or_introl eq_refl)), IH; auto.
    intros y I. apply E. now right.
  Qed.
  Lemma other_pipeline h o p : program (o :: h) -> on_pipeline o <> Some p -> (forall a, about h o a -> ~ In a (added h p)) ->
    commands (after (o :: h)) p = commands (after h) p.
  Proof.
    intros (G & W) N A. rewrite after_cons. destruct (history_state h G) as (L & P & M).
    assert (forall a, In a (added h p) -> a < length (b_made (after h))) as B.
    { intros a I. rewrite L. now apply (added_made h p a G). }
    set (s := after h) in *. clearbody s. unfold commands. destruct (target s o) as [a|] eqn:T.
    - pose proof (proj1 (target_about s h o a P) T) as Ab. specialize (A a Ab).
      assert (a < length (creations h)) as La.
      { destruct o; cbn [target] in T; try discriminate T; try (injection T as ->; apply W; reflexivity);
          (destruct Ab as (f & Ab); apply (added_made h p0 a G); rewrite Ab; apply in_or_app; right; left; reflexivity). }
      destruct (nth_error (b_made s) a) as [c|] eqn:Ec; [|apply nth_error_None in Ec; lia].
      rewrite (step_changes s o a c Ec T). unfold changed, places. cbn [b_made b_lists]. fold (places s p).
      apply flat_map_agree. intros b I. rewrite replace_off; [reflexivity|]. intros ->. apply A. now rewrite <- P.
    - destruct (step_made s o T) as (S1 & S2); [intros a E; rewrite L; now apply W|]. rewrite S1, S2.
      assert (adds o (length (b_made s)) p = []) as ->.
      { destruct o; cbn [adds on_pipeline] in *; try reflexivity.
        - destruct (Nat.eqb_spec p0 p); [congruence|reflexivity].
        - destruct local; [reflexivity|]. destruct (Nat.eqb_spec p0 p); [congruence|reflexivity].
        - destruct (Nat.eqb_spec p0 p); [congruence|reflexivity]. }
      rewrite app_nil_r. apply flat_map_agree. intros b I. rewrite P in I. rewrite nth_error_app1 by now apply B. reflexivity.
  Qed.
  Lemma texts_disjoint h : program h -> texts_only h -> forall p q a, In a (added (V := V) h p) -> In a (added h q) -> p = q.
  Proof.
    induction h as [|o h IH]; intros G T p q a; [intros []|]. destruct G as (G & W). inversion T as [|? ? To Th]; subst.
    rewrite !added_cons. intros I J. apply in_app_or in I as [I|I]; apply in_app_or in J as [J|J].
    - exact (IH G Th p q a I J).
    - apply (added_made h p a G) in I. destruct o; cbn [adds] in J; try contradiction;
        (destruct (_ =? q); [|contradiction]; destruct J as [<-|[]]; lia).
    - apply (added_made h q a G) in J. destruct o; cbn [adds] in I; try contradiction;
        (destruct (_ =? p); [|contradiction]; destruct I as [<-|[]]; lia).
    - destruct o; cbn [adds] in *; try contradiction;
        (destruct (Nat.eqb_spec p0 p); [|contradiction]; destruct (Nat.eqb_spec p0 q); [|contradiction]; congruence).
  Qed.
  Lemma texts_isolated h o p q : program (o :: h) -> texts_only h -> on_pipeline o = Some q -> q <> p ->
    commands (after (o :: h)) p = commands (after h) p.
  Proof.
    intros G T O N. apply other_pipeline; [exact G|congruence|]. intros a A I. apply N.
    destruct G as (G & W).
    destruct o; cbn [about on_pipeline] in *; try contradiction; try discriminate; injection O as ->;
      destruct A as (f & A); apply (texts_disjoint h G T q p a); auto; rewrite A; apply in_or_app; right; now left.
  Qed.

  (** ** Written one command after the other *)
  Lemma run_app (s : store V) a b : run vtrue s (a ++ b) = run vtrue (run vtrue s a) b.
  Proof. unfold run. apply fold_left_app. Qed.
  Lemma run_about os : forall (s : store V) p a c, nth_error (b_made s) a = Some c -> last_place (places s p) = Some a ->
    Forall (fun o => match o with PParameter q _ _ | PArgument q _ | PParameters q _ | PStatement q => q = p | _ => False end) os ->
    run vtrue s os = changed s a c (flat_map (changes vtrue) os).
  Proof.
    induction os as [|o os IH]; intros s p a c Ec T F.
    - unfold changed. cbn. rewrite replace_same by exact Ec. now destruct s.
    - inversion F as [|? ? Fo Fs]; subst. change (run vtrue s (o :: os)) with (run vtrue (step vtrue s o) os).
      assert (target s o = Some a) as To by (destruct o; try contradiction; subst; exact T).
      rewrite (step_changes s o a c Ec To).
      assert (a < length (b_made s)) as L by (apply nth_error_Some; congruence).
      rewrite (IH _ p a (fold_left apply (changes vtrue o) c)); [|cbn [changed b_made]; now apply replace_at|exact T|exact Fs].
      unfold changed. cbn [b_made b_lists flat_map]. now rewrite replace_twice, fold_left_app.
  Qed.
  Definition block_command (k : block V) : command V :=
    mkCmd (k_text k) (k_script k) (k_local k) (k_params k) (0 <? k_ends k) false 0 0 0 0 0 0 0%N.
  Lemma block_changes k : fold_left apply
      (flat_map (changes vtrue) (map (fun x => PParameter 0 (fst x) (Some (snd x))) (k_params k) ++ repeat (PStatement 0) (k_ends k)))
      (new_command (k_text k) (k_script k) (k_local k)) = block_command k.
  Proof.
    rewrite flat_map_app, fold_left_app.
    assert (forall ps c, fold_left apply (flat_map (changes vtrue) (map (fun x : option (list N) * V => PParameter 0 (fst x) (Some (snd x))) ps)) c
            = mkCmd (c_text c) (c_script c) (c_local c) (c_params c ++ ps) (c_eos c) (c_unclaimed c) (c_my c) (c_to c) (c_err c) (c_warn c) (c_verb c) (c_dbg c) (c_info c)) as Q.
    { induction ps as [|[n v] ps IH]; intros c; [rewrite app_nil_r; now destruct c|].
      cbn [map flat_map changes app fold_left fst snd]. rewrite IH. cbn [apply valued add_parameter c_text c_script c_local c_params c_eos c_unclaimed c_my c_to c_err c_warn c_verb c_dbg c_info].
      now rewrite <- app_assoc. }
    rewrite Q. cbn [new_command c_text c_script c_local c_params c_eos c_unclaimed c_my c_to c_err c_warn c_verb c_dbg c_info app].
    unfold block_command. generalize (k_ends k) as n. intros [|n]; [reflexivity|].
    cbn [repeat flat_map changes app fold_left apply]. unfold set_end at 1.
    cbn [c_text c_script c_local c_params c_eos c_unclaimed c_my c_to c_err c_warn c_verb c_dbg c_info]. change (0 <? S n) with true.
    induction n as [|n IH]; [reflexivity|]. cbn [repeat flat_map changes app fold_left apply]. exact IH.
  Qed.
  Lemma block_changes_at p k : flat_map (changes vtrue) (map (fun x : option (list N) * V => PParameter p (fst x) (Some (snd x))) (k_params k) ++ repeat (PStatement p) (k_ends k))
    = flat_map (changes vtrue) (map (fun x => PParameter 0 (fst x) (Some (snd x))) (k_params k) ++ repeat (PStatement 0) (k_ends k)).
  Proof.
    rewrite !flat_map_app. f_equal.
    - induction (k_params k) as [|x l IH]; [reflexivity|]. cbn [map flat_map]. now rewrite IH.
    - induction (k_ends k) as [|n IH]; [reflexivity|]. cbn [repeat flat_map]. now rewrite IH.
  Qed.
  Lemma replace_last l (c d : command V) : replace (length l) d (l ++ [c]) = l ++ [d].
  Proof. induction l as [|e l IH]; cbn; [reflexivity|]. now rewrite IH. Qed.
  Lemma block_run (s : store V) p k :
    b_made (run vtrue s (written p k)) = b_made s ++ [block_command k]
    /\ forall q, places (run vtrue s (written p k)) q = places s q ++ if p =? q then [length (b_made s)] else [].
  Proof.
    unfold written.
    set (tail := map (fun x => PParameter p (fst x) (Some (snd x))) (k_params k) ++ repeat (PStatement p) (k_ends k)).
    set (head := if k_script k then PScript p (k_text k) (k_local k) else PCommand p (k_text k) (k_local k)).
    set (s1 := append (mkB (b_made s ++ [new_command (k_text k) (k_script k) (k_local k)]) (b_lists s)) p (length (b_made s))).
    assert (step vtrue s head = s1) as H1.
    { unfold head, step, s1. destruct (k_script k); cbn [do_op make]; [|reflexivity].
      unfold p_object. cbn [b_made]. rewrite nth_error_app2 by lia. rewrite Nat.sub_diag. reflexivity. }
    assert (last_place (places s1 p) = Some (length (b_made s))) as T.
    { unfold s1. rewrite places_append, Nat.eqb_refl. apply last_place_spec. eauto. }
    assert (nth_error (b_made s1) (length (b_made s)) = Some (new_command (k_text k) (k_script k) (k_local k))) as E.
    { unfold s1. cbn [append b_made]. rewrite nth_error_app2 by lia. now rewrite Nat.sub_diag. }
    change (run vtrue s (head :: tail)) with (run vtrue (step vtrue s head) tail). rewrite H1.
    rewrite (run_about tail s1 p _ _ E T).
    - unfold changed. cbn [b_made]. unfold tail. rewrite block_changes_at, block_changes.
      split; [unfold s1; cbn [append b_made]; apply replace_last|].
      intros q. change (places {| b_made := replace (length (b_made s)) (block_command k) (b_made s1); b_lists := b_lists s1 |} q) with (places s1 q).
      unfold s1. now rewrite places_append.
    - unfold tail. apply Forall_app. split; [apply Forall_forall; intros o I; apply in_map_iff in I as (x & <- & _); reflexivity|].
      apply Forall_forall. intros o I. apply repeat_spec in I as ->. reflexivity.
  Qed.
  Lemma blocks_run p ks : forall s : store V, (forall q a, In a (places s q) -> a < length (b_made s)) ->
    commands (run vtrue s (flat_map (written p) ks)) p = commands s p ++ map block_command ks
    /\ forall q, q <> p -> commands (run vtrue s (flat_map (written p) ks)) q = commands s q.
  Proof.
    induction ks as [|k ks IH]; intros s B; [split; [cbn; now rewrite app_nil_r|reflexivity]|].
    cbn [flat_map map]. rewrite run_app. destruct (block_run s p k) as (M & P).
    set (s1 := run vtrue s (written p k)) in *. clearbody s1.
    destruct (IH s1) as (I1 & I2).
    { intros q a I. rewrite P in I. rewrite M, app_length. cbn [length]. apply in_app_or in I as [I|I]; [specialize (B q a I); lia|].
      destruct (p =? q); [|contradiction]. destruct I as [<-|[]]. lia. }
    assert (forall q, commands s1 q = commands s q ++ if p =? q then [block_command k] else []) as C.
    { intros q. unfold commands. rewrite P, flat_map_app. f_equal.
      - apply flat_map_agree. intros a I. rewrite M, nth_error_app1 by (eapply B; exact I). reflexivity.
      - destruct (p =? q); [|reflexivity]. cbn [flat_map]. rewrite M, nth_error_app2 by lia. now rewrite Nat.sub_diag. }
    split.
    - rewrite I1, C, Nat.eqb_refl, <- app_assoc. reflexivity.
    - intros q N. rewrite I2 by exact N. rewrite C. destruct (Nat.eqb_spec p q); [congruence|]. apply app_nil_r.
  Qed.
  Lemma reachable_places h : program h -> forall q a, In a (places (after h) q) -> a < length (b_made (after h)).
  Proof.
    intros G q a I. destruct (history_state h G) as (L & P & _). rewrite P in I. rewrite L. now apply (added_made h q a G).
  Qed.
End Builder.
