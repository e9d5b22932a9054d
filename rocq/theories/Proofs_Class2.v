(** Proofs about constructors, callables, type names and the registry. *)
From Verif Require Import Base BaseFacts Model_Object Spec_Object Proofs_Object Model_Class Spec_Class Proofs_Class.
Set Default Proof Using "Type".
Import Model_Class Spec_Class.

(** ** Callables *)
Lemma count_pos e pos t r n : Forall positional pos ->
  count_params e (pos ++ t) r n = count_params e t (r + length (filter (fun p => negb (pa_default p)) pos)) (n + length pos).
Proof.
  intros F. revert r n; induction F as [|p pos Hp F IH]; intros r n; simpl; [now rewrite !Nat.add_0_r|].
  destruct Hp as [Hp|Hp]; rewrite Hp, IH; destruct (pa_default p); simpl; f_equal; lia.
Qed.
Lemma count_kw e kw t r n : Forall (fun p => pa_kind p = KeywordOnly) kw -> count_params e (kw ++ t) r n = count_params e t r n.
Proof. intros F. induction F as [|p kw Hp F IH]; simpl; auto. now rewrite Hp. Qed.
Definition vark (rest : list param) : Prop := rest = [] \/ exists b, rest = [mkParam VarKeyword b].
Lemma count_rest e rest r n : vark rest -> count_params e rest r n = (r, n).
Proof. intros [->|[b ->]]; reflexivity. Qed.
Lemma binds_rest n rest : vark rest -> binds n rest = Nat.eqb n 0.
Proof. intros [->|[b ->]]; reflexivity. Qed.
Lemma binds_kw n kw rest : Forall (fun p => pa_kind p = KeywordOnly) kw -> vark rest ->
  binds n (kw ++ rest) = forallb pa_default kw && Nat.eqb n 0.
Proof. intros F R. induction F as [|p kw Hp F IH]; simpl; [now apply binds_rest|]. rewrite Hp, IH. now rewrite andb_assoc. Qed.
(** Trailing defaults: the parameters from [n] on have defaults exactly if at most [n] have none. *)
Definition trailing (pos : list param) : Prop :=
  forall l p q r, pos = l ++ p :: q :: r -> pa_default p = true -> pa_default q = true.
Lemma trailing_tail p pos : trailing (p :: pos) -> trailing pos.
Proof. intros H l x y r ->. apply (H (p :: l) x y r). reflexivity. Qed.
Lemma trailing_all p pos : trailing (p :: pos) -> pa_default p = true -> Forall (fun q => pa_default q = true) pos.
Proof.
  revert p; induction pos as [|q pos IH]; intros p H D; constructor.
  - apply (H [] p q pos); auto.
  - apply (IH q); [eapply trailing_tail; eauto|]. apply (H [] p q pos); auto.
Qed.
Lemma required_skipn n pos : trailing pos ->
  (length (filter (fun p => negb (pa_default p)) pos) <= n <-> Forall (fun p => pa_default p = true) (skipn n pos)).
Proof.
  revert n; induction pos as [|p pos IH]; intros n H.
  - rewrite skipn_nil. simpl. split; [constructor|lia].
  - pose proof (trailing_tail _ _ H) as H'. simpl. destruct (pa_default p) eqn:D; simpl.
    + pose proof (trailing_all _ _ H D) as A.
      assert (Z : filter (fun p => negb (pa_default p)) pos = []).
      { clear - A. induction A as [|q l Hq A IHA]; simpl; auto. now rewrite Hq. }
      rewrite Z. simpl. split; [intros _|lia]. apply Forall_forall. intros q Hq. apply skipn_in in Hq.
      destruct Hq as [<-|Hq]; auto. rewrite Forall_forall in A. auto.
    + destruct n as [|n]; simpl.
      * split; [lia|]. intros F. inversion F. congruence.
      * rewrite <- IH by auto. lia.
Qed.
Lemma Forall_kw_in kw : Forall (fun p => pa_kind p = KeywordOnly) kw ->
  (forallb pa_default kw = true <-> forall p, In p kw -> pa_default p = true).
Proof. intros _. apply forallb_forall. Qed.
Lemma NoDup_app_one {A} (l : list A) x : NoDup l -> ~ In x l -> NoDup (l ++ [x]).
Proof.
  induction 1 as [|y l N D IH]; simpl; intros H; constructor; auto; [constructor|].
  rewrite in_app_iff. simpl. intros [I|[I|[]]]; auto.
Qed.
Lemma nth_error_firstn_lt {A} n (l : list A) i : i < n -> nth_error (firstn n l) i = nth_error l i.
Proof. revert l i; induction n as [|n IH]; intros [|x l] [|i] L; simpl; auto; try lia. apply IH. lia. Qed.
(** The parts of a signature are determined by the kinds. *)
Definition part (n : nat) (p : param) : bool :=
  Nat.eqb n (match pa_kind p with PositionalOnly | PositionalOrKeyword => 0 | VarPositional => 1 | KeywordOnly => 2 | VarKeyword => 3 end).
Lemma filter_yes {A} (f : A -> bool) l : Forall (fun x => f x = true) l -> filter f l = l.
Proof. induction 1 as [|x l H F IH]; simpl; auto. now rewrite H, IH. Qed.
Lemma filter_no {A} (f : A -> bool) l : Forall (fun x => f x = false) l -> filter f l = [].
Proof. induction 1 as [|x l H F IH]; simpl; auto. now rewrite H. Qed.
Lemma parts pos star kw rest : Forall positional pos -> (star = [] \/ exists b, star = [mkParam VarPositional b]) ->
  Forall (fun p => pa_kind p = KeywordOnly) kw -> vark rest ->
  filter (part 0) (pos ++ star ++ kw ++ rest) = pos /\ filter (part 1) (pos ++ star ++ kw ++ rest) = star
  /\ filter (part 2) (pos ++ star ++ kw ++ rest) = kw.
Proof.
  intros F S K R.
  assert (FP : forall n, Forall (fun p => part n p = Nat.eqb n 0) pos).
  { intros n. eapply Forall_impl; [|exact F]. intros p [H|H]; unfold part; now rewrite H. }
  assert (FK : forall n, Forall (fun p => part n p = Nat.eqb n 2) kw).
  { intros n. eapply Forall_impl; [|exact K]. intros p H; unfold part; now rewrite H. }
  assert (ER : forall n, n < 3 -> filter (part n) rest = []).
  { intros n L. destruct R as [->|[b ->]]; auto. simpl. unfold part. simpl. destruct (Nat.eqb_spec n 3); [lia|auto]. }
  rewrite !filter_app, !ER by lia. rewrite !app_nil_r.
  rewrite (filter_yes (part 0) pos (FP 0)), (filter_no (part 1) pos (FP 1)), (filter_no (part 2) pos (FP 2)).
  rewrite (filter_no (part 0) kw (FK 0)), (filter_no (part 1) kw (FK 1)), (filter_yes (part 2) kw (FK 2)).
  destruct S as [->|[b ->]]; simpl; rewrite ?app_nil_r; auto.
Qed.
Definition fits (n : nat) (pos star kw : list param) : Prop :=
  (n <= length pos \/ star <> []) /\ Forall (fun p => pa_default p = true) (skipn n pos) /\ Forall (fun p => pa_default p = true) kw.
Lemma takes_fits n pos star kw rest : Forall positional pos -> (star = [] \/ exists b, star = [mkParam VarPositional b]) ->
  Forall (fun p => pa_kind p = KeywordOnly) kw -> vark rest -> (takes n (pos ++ star ++ kw ++ rest) <-> fits n pos star kw).
Proof.
  intros F S K R. destruct (parts _ _ _ _ F S K R) as (P0 & P1 & P2). split.
  - intros (pos' & star' & kw' & rest' & E & F' & S' & K' & R' & L).
    destruct (parts _ _ _ _ F' S' K' R') as (Q0 & Q1 & Q2). rewrite <- E in Q0, Q1, Q2.
    replace pos with pos' by congruence. replace star with star' by congruence. replace kw with kw' by congruence. exact L.
  - intros L. exists pos, star, kw, rest. repeat (split; [solve [auto]|]). exact L.
Qed.
(** The check accepts a function exactly if it can be called with that many positional arguments, provided no keyword-only
    parameter is required. *)
Lemma validate_takes n ps : signature ps -> ~ keyword_required ps -> (validate_callable true ps n = Ok tt <-> takes n ps).
Proof.
  intros (pos & star & kw & rest & -> & F & S & K & R & T) NK. rewrite takes_fits by auto.
  assert (ALL : Forall (fun p => pa_default p = true) kw).
  { apply Forall_forall. intros p Hp. destruct (pa_default p) eqn:D; auto. exfalso. apply NK. exists p.
    split; [apply in_or_app; right; apply in_or_app; right; apply in_or_app; now left|].
    rewrite Forall_forall in K. auto. }
  unfold validate_callable. cbn [negb]. rewrite count_pos by auto. cbn [Nat.add]. pose proof (required_skipn n pos T) as Q.
  set (req := length (filter (fun p => negb (pa_default p)) pos)) in *. unfold fits. rewrite <- Q.
  destruct S as [->|[b ->]].
  - simpl app. rewrite count_kw, count_rest by auto. destruct (Nat.ltb_spec n req); [split; [discriminate|lia]|].
    destruct (Nat.ltb_spec (length pos) n); split; try discriminate; auto.
    intros [[H1|H1] _]; [lia|congruence].
  - simpl. destruct (Nat.ltb_spec n req); [split; [discriminate|lia]|]. rewrite Nat.ltb_irrefl.
    split; auto. intros _. split; [right; discriminate|auto].
Qed.
(** Whatever the check accepts has room for the arguments. *)
Lemma validate_refuses n ps : signature ps -> takes n ps -> validate_callable true ps n = Ok tt.
Proof.
  intros S H. apply validate_takes; auto. destruct H as (pos & star & kw & rest & -> & F & ST & K & R & _ & _ & A).
  intros (p & I & Kp & D). rewrite Forall_forall in F, K, A.
  apply in_app_or in I as [I|I]; [destruct (F _ I); congruence|].
  apply in_app_or in I as [I|I]; [destruct ST as [->|[b ->]]; [contradiction|destruct I as [<-|[]]; discriminate]|].
  apply in_app_or in I as [I|I]; [rewrite (A _ I) in D; discriminate|].
  destruct R as [->|[b ->]]; [contradiction|destruct I as [<-|[]]; discriminate].
Qed.
(** Python's own binding agrees with [takes]. *)
Lemma binds_takes n ps : signature ps -> (binds n ps = true <-> takes n ps).
Proof.
  intros (pos & star & kw & rest & -> & F & S & K & R & T). rewrite takes_fits by auto. clear T.
  assert (KW : forallb pa_default kw = true <-> Forall (fun p => pa_default p = true) kw).
  { rewrite forallb_forall, Forall_forall. reflexivity. }
  unfold fits. revert n. induction F as [|p pos Hp F IH]; intros m.
  - rewrite skipn_nil. simpl. destruct S as [->|[b ->]]; simpl; rewrite binds_kw by auto; rewrite andb_true_iff, KW, Nat.eqb_eq.
    + split; [intros [H1 ->]; auto|]. intros (H1 & _ & H3). split; auto. destruct H1; [lia|congruence].
    + split; [intros [H1 _]; split; [right; discriminate|auto] | intros (_ & _ & H3); auto].
  - assert (Q : binds m ((p :: pos) ++ star ++ kw ++ rest)
                       = match m with 0 => pa_default p && binds 0 (pos ++ star ++ kw ++ rest)
                                    | S m => binds m (pos ++ star ++ kw ++ rest) end).
    { simpl. destruct Hp as [Hp|Hp]; rewrite Hp; reflexivity. }
    rewrite Q. destruct m as [|m].
    + rewrite andb_true_iff, IH. simpl. split.
      * intros (H1 & _ & H2 & H3). split; [left; lia|]. split; auto.
      * intros (_ & H2 & H3). inversion H2; subst. split; auto. split; auto. left. lia.
    + rewrite IH. simpl. split; intros (H1 & H2 & H3); (split; [destruct H1; [left; lia | now right] | auto]).
Qed.

Section P2.
  Context {V T : Type}.
  Variable cast : T -> V -> result V.
  Variable none : V.
  Variable is_none : V -> bool.
  Notation world := (world V T).
  Implicit Type w : world.
  Notation info := (info V T).
  Notation read := (read V T cast none is_none).
  Notation write := (write V T cast none is_none).
  Notation new_object := (new_object V T cast is_none).
  Notation init := (init V T cast none is_none).
  Notation make := (make V T cast none is_none).
  Notation rehydrate := (rehydrate V T cast none is_none).
  Notation step := (step V T cast none is_none).
  Notation run := (run V T cast none is_none).
  Notation cast_opt := (cast_opt V T cast is_none).
  Notation copy_info := (copy_info V T cast is_none).
  Notation copy_all := (copy_all V T cast is_none).
  Definition idempotent : Prop := forall t v x, cast t v = Ok x -> cast t x = Ok x.

  (** ** New instances *)
  Lemma cast_opt_again ty v x : idempotent -> cast_opt ty v = Ok x -> cast_opt ty x = Ok x.
  Proof.
    intros I. destruct ty as [t|]; simpl; [|intros _; reflexivity]. destruct (is_none v) eqn:N.
    - intros [= <-]. now rewrite N.
    - intros H. destruct (is_none x); [reflexivity|]. eapply I; eauto.
  Qed.
  Lemma copy_made p : idempotent -> made cast is_none p -> copy_info p = Ok p.
  Proof.
    intros I [(k & v & m & ty & H)|[(k & t & ty & ->)|(k & g & s & m & ty & H)]].
    - unfold note_property in H. destruct v as [x|].
      + destruct (Model_Object.cast_opt V T cast is_none ty x) as [y|] eqn:C; [|discriminate]. injection H as <-.
        unfold Model_Class.copy_info, note_property. cbn -[Model_Object.cast_opt]. now rewrite (cast_opt_again _ _ _ I C).
      + injection H as <-. reflexivity.
    - reflexivity.
    - assert (E : i_class p = IScript /\ i_name p = k /\ i_getter p = g /\ i_setter p = s /\ i_mandatory p = m /\ i_type p = ty).
      { unfold script_property in H. destruct g as [h|]; [|discriminate]. destruct (m && _); [discriminate|].
        destruct (validate_callable (g_function h) (g_params h) 1); [|discriminate]. cbn [bind] in H. destruct s as [z|].
        - destruct (validate_callable (s_function z) (s_params z) 2); [|discriminate]. injection H as <-. auto 10.
        - injection H as <-. auto 10. }
      destruct E as (E1 & E2 & E3 & E4 & E5 & E6). unfold Model_Class.copy_info. now rewrite E1, E2, E3, E4, E5, E6.
  Qed.
  Lemma contents_fetch w l ps : contents w l ps -> fetch (w_infos w) (list_at w l) = ps.
  Proof.
    intros (x & E & F). unfold list_at. rewrite (nth_nth_error _ _ _ _ E). clear E.
    induction F as [|i p x ps H F IH]; simpl; auto. now rewrite H, IH.
  Qed.
  Lemma contents_copy w l ps : idempotent -> contents w l ps -> Forall (made cast is_none) ps -> copy_all w (list_at w l) = Ok ps.
  Proof.
    intros I (x & E & F) M. unfold list_at. rewrite (nth_nth_error _ _ _ _ E). clear E. unfold Model_Class.copy_all.
    induction F as [|i p x ps H F IH]; simpl; auto. inversion M; subst. rewrite H, (copy_made p) by auto. cbn [bind].
    now rewrite IH by auto.
  Qed.
  Lemma found_meta w l a : found w l a ->
    first_some (map c_meta (flat_map (fun c => match nth_error (w_classes w) c with Some x => [x] | None => [] end) l)) = Some a.
  Proof.
    induction 1 as [c k a t H1 H2|c k a t H1 H2 F IH]; simpl; rewrite H1; simpl; rewrite H2; auto.
  Qed.
  Lemma class_has_meta w c m : class_has w c m -> exists a, class_meta w c = Some a /\ nth_error (w_metas w) a = Some m.
  Proof.
    intros (k & a & H1 & H2 & H3). exists a. split; auto. unfold class_meta, ancestors. rewrite H1. now apply found_meta.
  Qed.
  Lemma seq_contents (xs ys zs : list info) :
    Forall2 (fun i p => nth_error (xs ++ ys ++ zs) i = Some p) (seq (length xs) (length ys)) ys.
  Proof. clear cast none is_none.
    revert xs; induction ys as [|y ys IH]; intros xs; simpl; constructor.
    - rewrite nth_error_app2, Nat.sub_diag by lia. reflexivity.
    - specialize (IH (xs ++ [y])). rewrite app_length in IH. cbn [length] in IH. rewrite Nat.add_1_r in IH.
      rewrite <- app_assoc in IH. exact IH.
  Qed.
  (** The state of an instance no one has written to yet, as far as the properties go. *)
  Record fresh (w : world) (o c : nat) (ads exs : list info) (la le : list nat) : Prop := mkFresh {
    fr_ob : exists ob m, nth_error (w_objects w) o = Some ob /\ ob_class ob = c /\ ob_dict ob = []
            /\ nth_error (w_metas w) (ob_meta ob) = Some m /\ list_at w (m_adapted m) = la /\ list_at w (m_extended m) = le;
    fr_ads : Forall2 (fun i p => nth_error (w_infos w) i = Some p) la ads;
    fr_exs : Forall2 (fun i p => nth_error (w_infos w) i = Some p) le exs }.
  Lemma new_object_looks w c l ads exs : idempotent -> class_looks w c l ads exs -> Forall (made cast is_none) (ads ++ exs) ->
    exists w' o, new_object w c = Ok (w', o) /\ type_names w' o l /\ properties w' o ads exs
      /\ w_classes w' = w_classes w /\ exists la le, fresh w' o c ads exs la le /\ NoDup (la ++ le).
  Proof.
    intros I (m & H & HN & HA & HE) M. apply Forall_app in M as [MA ME].
    destruct (class_has_meta _ _ _ H) as (a & CM & HM). unfold Model_Class.new_object. rewrite CM, HM.
    rewrite (contents_copy _ _ _ I HA MA), (contents_copy _ _ _ I HE ME). cbn [bind].
    eexists _, _. split; [reflexivity|].
    set (w' := mkWorld _ _ _ _ _ _ _ _).
    assert (OB : nth_error (w_objects w') (length (w_objects w)) = Some (mkObject c (length (w_metas w)) [])).
    { simpl. now rewrite nth_error_app2, Nat.sub_diag by lia. }
    assert (OM : nth_error (w_metas w') (length (w_metas w)) = Some (mkMeta (length (w_names w)) (length (w_lists w)) (S (length (w_lists w))))).
    { simpl. now rewrite nth_error_app2, Nat.sub_diag by lia. }
    assert (L1 : nth_error (w_lists w') (length (w_lists w)) = Some (seq (length (w_infos w)) (length ads))).
    { simpl. now rewrite nth_error_app2, Nat.sub_diag by lia. }
    assert (L2 : nth_error (w_lists w') (S (length (w_lists w))) = Some (seq (length (w_infos w) + length ads) (length exs))).
    { unfold w'. cbn [w_lists]. rewrite nth_error_app2 by lia. replace (S (length (w_lists w)) - length (w_lists w)) with 1 by lia. reflexivity. }
    assert (F1 : Forall2 (fun i p => nth_error (w_infos w') i = Some p) (seq (length (w_infos w)) (length ads)) ads).
    { simpl. apply seq_contents. }
    assert (F2 : Forall2 (fun i p => nth_error (w_infos w') i = Some p) (seq (length (w_infos w) + length ads) (length exs)) exs).
    { simpl. pose proof (seq_contents (w_infos w ++ ads) exs []) as Q. rewrite app_length, app_nil_r, <- app_assoc in Q. exact Q. }
    split; [|split; [|split; [reflexivity|]]].
    - exists (mkObject c (length (w_metas w)) []), (mkMeta (length (w_names w)) (length (w_lists w)) (S (length (w_lists w)))).
      split; [exact OB|]. split; [exact OM|]. cbn [m_names]. change (w_names w') with (w_names w ++ [names_at w (m_names m)]).
      rewrite nth_error_app2, Nat.sub_diag by lia. simpl. f_equal. now apply names_at_nth.
    - exists (mkObject c (length (w_metas w)) []), (mkMeta (length (w_names w)) (length (w_lists w)) (S (length (w_lists w)))).
      split; [exact OB|]. split; [exact OM|]. split; [exists (seq (length (w_infos w)) (length ads)); auto|].
      exists (seq (length (w_infos w) + length ads) (length exs)); auto.
    - exists (seq (length (w_infos w)) (length ads)), (seq (length (w_infos w) + length ads) (length exs)). split.
      + constructor; auto.
        exists (mkObject c (length (w_metas w)) []), (mkMeta (length (w_names w)) (length (w_lists w)) (S (length (w_lists w)))).
        repeat (split; [solve [auto]|]). split; [|].
        * apply list_at_nth. exact L1.
        * apply list_at_nth. exact L2.
      + rewrite <- seq_app. apply seq_NoDup.
  Qed.

  (** ** Constructors *)
  Definition pick (ads exs : list info) (k : name) : option info :=
    match info_last k exs with Some p => Some p | None => info_last k ads end.
  Lemma info_last_some k ps p : info_last (V := V) (T := T) k ps = Some p -> In p ps /\ i_name p = k.
  Proof.
    induction ps as [|q ps IH]; simpl; [discriminate|]. destruct (info_last k ps) eqn:E.
    - intros [= ->]. destruct IH; auto.
    - destruct (name_eqb (i_name q) k) eqn:N; [|discriminate]. intros [= ->]. split; auto. now apply name_eqb_eq.
  Qed.
  Lemma info_last_none k ps : info_last (V := V) (T := T) k ps = None <-> ~ In k (map i_name ps).
  Proof. clear none is_none.
    induction ps as [|q ps IH]; simpl; [tauto|]. destruct (info_last k ps) eqn:E.
    - split; [discriminate|]. intros H. exfalso. apply info_last_some in E as [E1 E2]. apply H. right. apply in_map_iff. eauto.
    - destruct (name_eqb (i_name q) k) eqn:N.
      + apply name_eqb_eq in N. split; [discriminate|]. intros H. exfalso. auto.
      + apply name_eqb_neq in N. split; auto. intros _ [H|H]; [auto|]. now apply IH in H.
  Qed.
  Lemma info_last_in k ps p : NoDup (map i_name ps) -> In p ps -> i_name p = k -> info_last (V := V) (T := T) k ps = Some p.
  Proof.
    intros D I N. destruct (info_last k ps) as [q|] eqn:E.
    - apply info_last_some in E as [E1 E2]. f_equal. clear - D I N E1 E2. subst. induction ps as [|r ps IH]; [contradiction|].
      simpl in D. inversion D as [|? ? D1 D2]; subst. destruct I as [->|I], E1 as [->|E1]; auto.
      + exfalso. apply D1. rewrite <- E2. now apply in_map.
      + exfalso. apply D1. rewrite E2. now apply in_map.
    - apply info_last_none in E. exfalso. apply E. subst. now apply in_map.
  Qed.
  Lemma pick_decides ads exs k p : NoDup (map i_name ads) -> NoDup (map i_name exs) ->
    (pick ads exs k = Some p <-> decides ads exs k p).
  Proof. clear none is_none.
    intros D1 D2. unfold pick, decides. destruct (info_last k exs) as [q|] eqn:E.
    - split.
      + intros [= ->]. apply info_last_some in E. tauto.
      + intros [N [I|[I H]]].
        * rewrite <- E. now apply info_last_in.
        * exfalso. apply info_last_some in E as [E1 E2]. apply H. rewrite <- E2. now apply in_map.
    - apply info_last_none in E. split.
      + intros H. apply info_last_some in H. tauto.
      + intros [N [I|[I H]]]; [|now apply info_last_in]. exfalso. apply E. subst. now apply in_map.
  Qed.
  Lemma by_name_get ps : forall d k, dict_get (by_name (V := V) (T := T) ps d) k = match info_last k ps with Some p => Some p | None => dict_get d k end.
  Proof.
    induction ps as [|p ps IH]; intros d k; simpl; [reflexivity|]. unfold by_name in *. simpl. rewrite IH.
    destruct (info_last k ps); auto. rewrite dict_get_set. now destruct (name_eqb (i_name p) k).
  Qed.
  Lemma dict_set_keys {A} (d : list (name * A)) k v :
    map fst (dict_set d k v) = if existsb (fun x => name_eqb (fst x) k) d then map fst d else map fst d ++ [k].
  Proof.
    induction d as [|[n x] d IH]; simpl; [reflexivity|]. destruct (name_eqb n k); simpl; [reflexivity|]. rewrite IH.
    now destruct (existsb _ d).
  Qed.
  Lemma has_key_in {A} k (d : list (name * A)) : has_key k d = true <-> In k (map fst d).
  Proof.
    unfold has_key. rewrite existsb_exists. rewrite in_map_iff. split; intros (x & H1 & H2); exists x.
    - apply name_eqb_eq in H2. auto.
    - split; auto. now apply name_eqb_eq.
  Qed.
  Lemma parameters_in l ps k : parameters l ps -> (In k ps <-> In k l).
  Proof. clear none is_none.
    induction 1 as [|l ps j P IH N|l ps j P IH N]; [tauto| |]; rewrite ?in_app_iff, IH; simpl; [tauto|].
    split; [tauto|]. intros [H|[->|[]]]; auto.
  Qed.
  Lemma parameters_nodup l ps : parameters l ps -> NoDup ps.
  Proof.
    induction 1 as [|l ps j P IH N|l ps j P IH N]; auto; [constructor|]. apply NoDup_app_one; auto.
    now rewrite (parameters_in _ _ j P).
  Qed.
  Lemma parameters_det l ps qs : parameters l ps -> parameters l qs -> ps = qs.
  Proof.
    intros H. revert qs. induction H as [|l ps j P IH N|l ps j P IH N]; intros qs Q.
    - inversion Q; auto; destruct l; discriminate.
    - inversion Q as [|l' ps' k P' N' E|l' ps' k P' N' E]; subst; [destruct l; discriminate| |].
      + apply app_inj_tail in E as [-> ->]. f_equal. auto.
      + apply app_inj_tail in E as [-> ->]. contradiction.
    - inversion Q as [|l' ps' k P' N' E|l' ps' k P' N' E]; subst; [destruct l; discriminate| |].
      + apply app_inj_tail in E as [-> ->]. contradiction.
      + apply app_inj_tail in E as [-> ->]. auto.
  Qed.
  Lemma by_name_keys ps : forall l (d : list (name * info)), parameters l (map fst d) -> parameters (l ++ map i_name ps) (map fst (by_name ps d)).
  Proof.
    induction ps as [|p ps IH]; intros l d P; simpl; [now rewrite app_nil_r|].
    unfold by_name in *. simpl. replace (l ++ i_name p :: map i_name ps) with ((l ++ [i_name p]) ++ map i_name ps) by (rewrite <- app_assoc; reflexivity).
    apply IH. rewrite dict_set_keys. change (existsb (fun x => name_eqb (fst x) (i_name p)) d) with (has_key (i_name p) d).
    destruct (has_key (i_name p) d) eqn:E.
    - apply has_key_in in E. apply par_old; auto. now apply (parameters_in _ _ _ P).
    - apply par_new; auto. intros H. apply (parameters_in _ _ _ P), has_key_in in H. congruence.
  Qed.
  Lemma dict_get_in {A} (d : list (name * A)) k v : NoDup (map fst d) -> (dict_get d k = Some v <-> In (k, v) d).
  Proof. clear none is_none.
    induction d as [|[n x] d IH]; simpl; [split; [discriminate|tauto]|]. intros D. inversion D as [|? ? D1 D2]; subst.
    destruct (name_eqb n k) eqn:E.
    - apply name_eqb_eq in E. subst n. split; [intros [= ->]; auto|]. intros [[= ->]|H]; auto. exfalso. apply D1.
      apply (in_map fst) in H. exact H.
    - apply name_eqb_neq in E. rewrite IH by auto. split; auto. intros [[= -> _]|H]; [congruence|auto].
  Qed.
  (** The dict of the constructor. *)
  Definition entries (ads exs : list info) : list (name * info) := by_name exs (by_name ads []).
  Lemma entries_keys ads exs : parameters (map i_name ads ++ map i_name exs) (map fst (entries ads exs)).
  Proof. unfold entries. apply by_name_keys. apply (by_name_keys ads [] []). constructor. Qed.
  Lemma entries_in ads exs k p : In (k, p) (entries ads exs) <-> pick ads exs k = Some p.
  Proof.
    rewrite <- dict_get_in by (eapply parameters_nodup; apply entries_keys). unfold entries. rewrite !by_name_get. unfold pick.
    destruct (info_last k exs); [reflexivity|]. destruct (info_last k ads); reflexivity.
  Qed.
  Lemma in_combine_nth {A B} (l : list A) (r : list B) a b :
    In (a, b) (combine l r) <-> exists i, nth_error l i = Some a /\ nth_error r i = Some b.
  Proof. clear none is_none.
    revert r; induction l as [|x l IH]; intros [|y r]; simpl.
    - split; [tauto|]. intros ([|i] & H & _); discriminate.
    - split; [tauto|]. intros ([|i] & H & _); discriminate.
    - split; [tauto|]. intros ([|i] & _ & H); discriminate.
    - rewrite IH. split.
      + intros [[= -> ->]|(i & H)]; [exists 0; auto | exists (S i); auto].
      + intros ([|i] & H1 & H2); [left; simpl in *; congruence | right; eauto].
  Qed.
  Lemma gives_in ps args (kw : list (name * V)) k v : gives ps args kw k v <-> In (k, v) (combine ps args ++ kw).
  Proof. unfold gives. rewrite in_app_iff, in_combine_nth. reflexivity. Qed.
  Definition calls_ok (ads exs : list info) (ps : list name) (args : list V) (kw : list (name * V)) : Prop :=
    length args <= length ps
    /\ (forall i k, nth_error ps i = Some k -> i < length args -> ~ In k (map fst kw))
    /\ (forall k p, pick ads exs k = Some p -> i_mandatory p = true -> exists v, gives ps args kw k v).
  Lemma in_fst {A B} (l : list (A * B)) k : In k (map fst l) <-> exists v, In (k, v) l.
  Proof.
    rewrite in_map_iff. split; [intros ([a b] & H1 & H2); simpl in *; subst; eauto | intros [v H]; exists (k, v); auto].
  Qed.
  Lemma bind_args_ok ads exs args kw : let ps := map fst (entries ads exs) in
    match bind_args (entries ads exs) args kw with
    | Ok all => calls_ok ads exs ps args kw /\ all = combine ps args ++ kw
    | Err e => ~ calls_ok ads exs ps args kw
    end.
  Proof. clear cast none is_none.
    intros ps. unfold bind_args, calls_ok. fold ps.
    assert (L : length (entries ads exs) = length ps) by (unfold ps; now rewrite map_length). rewrite L.
    destruct (Nat.ltb_spec (length ps) (length args)) as [LT|LE]; [intros (H & _); lia|].
    destruct (existsb (fun x => has_key (fst x) kw) (combine ps args)) eqn:E1.
    { intros (_ & H & _). apply existsb_exists in E1 as ([k v] & I & K). simpl in K. apply has_key_in in K.
      apply in_combine_nth in I as (i & I1 & I2). apply nth_error_lt in I2. eapply H; eauto. }
    destruct (existsb (fun e => i_mandatory (snd e) && negb (has_key (fst e) (combine ps args ++ kw))) (entries ads exs)) eqn:E2.
    { intros (_ & _ & H). apply existsb_exists in E2 as ([k p] & I & K). simpl in K. apply andb_true_iff in K as [K1 K2].
      apply entries_in in I. destruct (H k p I K1) as [v G]. apply gives_in in G. apply negb_true_iff in K2.
      assert (has_key k (combine ps args ++ kw) = true); [|congruence]. apply has_key_in, in_fst. eauto. }
    split; [|reflexivity]. split; [exact LE|]. split.
    - intros i k H1 H2 H3. destruct (nth_error args i) as [v|] eqn:A; [|apply nth_error_None in A; lia].
      assert (X : existsb (fun x => has_key (fst x) kw) (combine ps args) = true); [|congruence].
      apply existsb_exists. exists (k, v). split; [apply in_combine_nth; eauto|]. now apply has_key_in.
    - intros k p P M. destruct (has_key k (combine ps args ++ kw)) eqn:K.
      + apply has_key_in, in_fst in K as [v K]. exists v. now apply gives_in.
      + assert (X : existsb (fun e => i_mandatory (snd e) && negb (has_key (fst e) (combine ps args ++ kw))) (entries ads exs) = true); [|congruence].
        apply existsb_exists. exists (k, p). split; [now apply entries_in|]. simpl. now rewrite M, K.
  Qed.

  (** Writing to the properties of an instance whose other attributes are unset. *)
  Definition setv (k : name) (x : V) (ps : list info) : list info :=
    map (fun q => if name_eqb (i_name q) k then put_value q x else q) ps.
  Lemma setv_names k x ps : map i_name (setv k x ps) = map i_name ps.
  Proof. unfold setv. rewrite map_map. apply map_ext. intros q. now destruct (name_eqb _ _). Qed.
  Lemma setv_other k x ps : ~ In k (map i_name ps) -> setv k x ps = ps.
  Proof.
    unfold setv. induction ps as [|p ps IH]; simpl; auto. intros H. rewrite IH by auto.
    replace (name_eqb (i_name p) k) with false; [reflexivity|]. symmetry. apply name_eqb_neq. auto.
  Qed.
  Lemma info_last_setv k x ps j : info_last j (setv k x ps) =
    option_map (fun p => if name_eqb j k then put_value p x else p) (info_last j ps).
  Proof.
    induction ps as [|p ps IH]; simpl; auto. fold (setv k x ps). rewrite IH. destruct (info_last j ps); simpl; auto.
    replace (i_name (if name_eqb (i_name p) k then put_value p x else p)) with (i_name p) by (destruct (name_eqb (i_name p) k); reflexivity).
    destruct (name_eqb (i_name p) j) eqn:E; simpl; auto. apply name_eqb_eq in E. now rewrite E.
  Qed.
  Notation holds infos := (Forall2 (fun i (p : info) => nth_error infos i = Some p)).
  Lemma addr_none infos k l ps : holds infos l ps -> (addr_first infos k l = None <-> ~ In k (map i_name ps)).
  Proof. clear none is_none.
    induction 1 as [|i p l ps H F IH]; simpl; [tauto|]. rewrite H. destruct (name_eqb (i_name p) k) eqn:E.
    - apply name_eqb_eq in E. split; [discriminate|]. intros N. exfalso. auto.
    - apply name_eqb_neq in E. rewrite IH. tauto.
  Qed.
  Lemma holds_other infos a (f : info -> info) l ps : holds infos l ps -> ~ In a l -> holds (update_at a f infos) l ps.
  Proof.
    induction 1 as [|i p l ps H F IH]; intros N; constructor.
    - rewrite update_at_nth. destruct (Nat.eqb_spec a i) as [->|]; auto. exfalso. apply N. now left.
    - apply IH. intros I. apply N. now right.
  Qed.
  Lemma holds_in infos l ps a : holds infos l ps -> In a l -> exists p, nth_error infos a = Some p /\ In p ps.
  Proof.
    induction 1 as [|i p l ps H F IH]; [intros []|]. intros [->|I]; [exists p; simpl; auto|].
    destruct (IH I) as (q & Q1 & Q2). exists q. simpl. auto.
  Qed.
  Lemma holds_set infos k x l ps a : holds infos l ps -> NoDup (map i_name ps) -> addr_first infos k l = Some a ->
    holds (update_at a (fun q => put_value q x) infos) l (setv k x ps).
  Proof.
    intros F. induction F as [|i p l ps H F IH]; simpl; [discriminate|]. intros D. inversion D as [|? ? D1 D2]; subst.
    rewrite H. destruct (name_eqb (i_name p) k) eqn:E.
    - intros [= <-]. apply name_eqb_eq in E. constructor.
      + rewrite update_at_nth, Nat.eqb_refl, H. reflexivity.
      + fold (setv k x ps). subst k. rewrite setv_other by auto. apply holds_other; auto. intros I.
        destruct (holds_in _ _ _ _ F I) as (q & Hq & Iq). rewrite H in Hq. injection Hq as <-. apply D1. now apply in_map.
    - intros A. constructor; [|now apply IH]. apply (addr_first_in) in A as (_ & q & Hq & Nq). rewrite update_at_nth.
      destruct (Nat.eqb_spec a i) as [->|]; auto. rewrite H in Hq. injection Hq as <-. apply name_eqb_neq in E. contradiction.
  Qed.
  Definition assigned (k : name) (x : V) (s : list info * list info) : list info * list info :=
    match info_last k (snd s) with
    | Some _ => (fst s, setv k x (snd s))
    | None => (setv k x (fst s), snd s)
    end.
  Lemma pick_assigned k x s j : pick (fst (assigned k x s)) (snd (assigned k x s)) j =
    option_map (fun p => if name_eqb j k then put_value p x else p) (pick (fst s) (snd s) j).
  Proof.
    unfold assigned, pick. destruct s as [ads exs]. cbn [fst snd]. destruct (info_last k exs) as [p|] eqn:E; cbn [fst snd];
      rewrite info_last_setv; destruct (info_last j exs) as [q|] eqn:J; simpl; auto.
    - destruct (name_eqb j k) eqn:N; [apply name_eqb_eq in N; congruence|]. now destruct (info_last j ads).
    - destruct (name_eqb j k) eqn:N; [apply name_eqb_eq in N; congruence|]. reflexivity.
  Qed.
  Lemma assigned_names k x s : map i_name (fst (assigned k x s)) = map i_name (fst s)
    /\ map i_name (snd (assigned k x s)) = map i_name (snd s).
  Proof. unfold assigned. destruct (info_last k (snd s)); simpl; rewrite setv_names; auto. Qed.
  Lemma addr_nth_last infos k l ps : holds infos l ps -> NoDup (map i_name ps) ->
    match addr_first infos k l with
    | Some a => In a l /\ nth_error infos a = info_last k ps
    | None => info_last k ps = None
    end.
  Proof.
    intros F D. destruct (addr_first infos k l) as [a|] eqn:A.
    - apply (addr_first_in) in A as (I & p & Hp & N). split; auto. destruct (holds_in _ _ _ _ F I) as (q & Hq & Iq).
      rewrite Hp in Hq. injection Hq as <-. rewrite Hp. symmetry. now apply info_last_in.
    - apply info_last_none. now apply (addr_none _ _ _ _ F).
  Qed.
  Lemma NoDup_app_not {A} (l r : list A) x : NoDup (l ++ r) -> In x l -> ~ In x r.
  Proof.
    induction l as [|y l IH]; simpl; intros D; [intros []|]. inversion D as [|? ? D1 D2]; subst. intros [->|I]; auto.
    intros H. apply D1. apply in_or_app. now right.
  Qed.
  Lemma write_fresh f w o c ads exs la le k v p : fresh w o c ads exs la le -> NoDup (la ++ le) ->
    NoDup (map i_name ads) -> NoDup (map i_name exs) -> pick ads exs k = Some p -> plain p ->
    match cast_opt (i_type p) v with
    | Ok x => exists w', write (S f) w o k v = (w', Ok tt) /\ w_classes w' = w_classes w
              /\ fresh w' o c (fst (assigned k x (ads, exs))) (snd (assigned k x (ads, exs))) la le
    | Err e => write (S f) w o k v = (w, Err e)
    end.
  Proof.
    intros [(ob & m & O1 & O2 & O3 & O4 & O5 & O6) FA FE] ND NA NE P [PG PS].
    pose proof (addr_nth_last _ k _ _ FE NE) as AE. pose proof (addr_nth_last _ k _ _ FA NA) as AA.
    simpl. rewrite O1, O3. simpl. rewrite O4, O5, O6. cbv zeta.
    unfold pick in P. unfold assigned. cbn [fst snd].
    destruct (addr_first (w_infos w) k le) as [a|] eqn:EE.
    - destruct AE as [I AE]. destruct (info_last k exs) as [q|] eqn:IL.
      2:{ exfalso. apply (addr_first_in) in EE as (_ & q & Hq & _). rewrite Hq in AE. discriminate. }
      injection P as ->. rewrite AE, PS, PG. destruct (cast_opt (i_type p) v) as [x|e]; [|reflexivity].
      eexists. split; [reflexivity|]. split; [reflexivity|]. constructor.
      + exists ob, m. auto 10.
      + apply holds_other; auto. intros H. apply (NoDup_app_not _ _ _ ND H I).
      + simpl. now apply holds_set.
    - rewrite AE in *. destruct (addr_first (w_infos w) k la) as [a|] eqn:EA; [|congruence].
      destruct AA as [I AA]. rewrite AA, P, PS, PG. destruct (cast_opt (i_type p) v) as [x|e]; [|reflexivity].
      eexists. split; [reflexivity|]. split; [reflexivity|]. constructor.
      + exists ob, m. auto 10.
      + simpl. now apply holds_set.
      + apply holds_other; auto. apply (NoDup_app_not _ _ _ ND I).
  Qed.
  Lemma read_fresh f w o c ads exs la le k p : fresh w o c ads exs la le -> class_attr w c k = None ->
    pick ads exs k = Some p -> plain p -> read (S f) w o k = Ok (match i_value p with Some v => v | None => none end).
  Proof.
    intros [(ob & m & O1 & O2 & O3 & O4 & O5 & O6) FA FE] CA P [PG PS]. simpl. rewrite O1, O3. simpl. rewrite O2, CA, O4, O5, O6.
    assert (Q : forall l ps, holds (w_infos w) l ps -> fetch (w_infos w) l = ps).
    { induction 1 as [|i q l ps H F IH]; simpl; auto. now rewrite H, IH. }
    rewrite (Q _ _ FA), (Q _ _ FE). cbv zeta. unfold pick in P. rewrite P, PG. now destruct (i_value p).
  Qed.
  Lemma put_plain p x : plain (V := V) (T := T) p -> plain (put_value p x).
  Proof. intros [H1 H2]; split; assumption. Qed.
  (** A whole list of assignments with distinct names. *)
  Lemma in_turn_fresh f (known : name -> bool) all : forall w o c ads exs la le, fresh w o c ads exs la le -> NoDup (la ++ le) ->
    NoDup (map i_name ads) -> NoDup (map i_name exs) -> NoDup (map fst all) ->
    (forall k, known k = true <-> exists p, pick ads exs k = Some p) ->
    (forall k p, pick ads exs k = Some p -> plain p) ->
    let r := in_turn (fun w' k v => if known k then write (S f) w' o k v else (w', Err TypeError)) w all in
    (snd r = Ok tt <-> forall k v, In (k, v) all -> exists p x, pick ads exs k = Some p /\ cast_opt (i_type p) v = Ok x)
    /\ (snd r = Ok tt -> exists ads' exs', fresh (fst r) o c ads' exs' la le /\ w_classes (fst r) = w_classes w
        /\ forall k p, pick ads exs k = Some p ->
           (forall v x, In (k, v) all -> cast_opt (i_type p) v = Ok x -> pick ads' exs' k = Some (put_value p x))
           /\ (~ In k (map fst all) -> pick ads' exs' k = Some p)).
  Proof.
    induction all as [|[k v] all IH]; intros w o c ads exs la le F ND NA NE NK KN PL; cbn zeta; simpl.
    - split; [tauto|]. intros _. exists ads, exs. split; auto. split; auto. intros k p P. split; [tauto|auto].
    - inversion NK as [|? ? K1 K2]; subst. destruct (known k) eqn:K.
      + destruct (proj1 (KN k) K) as [p P]. pose proof (write_fresh f w o c ads exs la le k v p F ND NA NE P (PL _ _ P)) as W.
        destruct (cast_opt (i_type p) v) as [x|e] eqn:C.
        * destruct W as (w' & E & CL & F'). cbn [Model_Class.write] in E |- *. rewrite E. clear E.
          set (s := assigned k x (ads, exs)) in *.
          assert (PS : forall j, pick (fst s) (snd s) j = option_map (fun p => if name_eqb j k then put_value p x else p) (pick ads exs j)).
          { intros j. apply (pick_assigned k x (ads, exs) j). }
          destruct (assigned_names k x (ads, exs)) as [N1 N2]. fold s in N1, N2. cbn [fst snd] in N1, N2.
          assert (KN' : forall j, known j = true <-> exists q, pick (fst s) (snd s) j = Some q).
          { intros j. rewrite KN, PS. destruct (pick ads exs j); simpl; split; intros [q H]; try discriminate; eauto. }
          assert (PL' : forall j q, pick (fst s) (snd s) j = Some q -> plain q).
          { intros j q. rewrite PS. destruct (pick ads exs j) as [r|] eqn:J; simpl; [|discriminate]. intros [= <-].
            apply PL in J. destruct (name_eqb j k); [now apply put_plain | auto]. }
          specialize (IH w' o c (fst s) (snd s) la le F' ND ltac:(now rewrite N1) ltac:(now rewrite N2) K2 KN' PL').
          cbv zeta in IH. cbn [Model_Class.write] in IH. destruct IH as [IH1 IH2].
          assert (TY : forall j q, pick (fst s) (snd s) j = Some q -> exists q', pick ads exs j = Some q' /\ i_type q' = i_type q).
          { intros j q. rewrite PS. destruct (pick ads exs j) as [r|]; simpl; [|discriminate]. intros [= <-]. exists r. split; auto;
            now destruct (name_eqb j k). }
          assert (TY' : forall j q, pick ads exs j = Some q -> exists q', pick (fst s) (snd s) j = Some q' /\ i_type q' = i_type q).
          { intros j q H. rewrite PS, H. simpl. eexists. split; [reflexivity|]. now destruct (name_eqb j k). }
          split.
          -- rewrite IH1. split.
             ++ intros H j u [[= <- <-]|I]; [eauto|]. destruct (H j u I) as (q & y & Hq & Hy).
                destruct (TY _ _ Hq) as (q' & Hq' & T'). exists q', y. now rewrite T'.
             ++ intros H j u I. destruct (H j u (or_intror I)) as (q & y & Hq & Hy).
                destruct (TY' _ _ Hq) as (q' & Hq' & T'). exists q', y. now rewrite T'.
          -- intros OK. destruct (IH2 OK) as (ads' & exs' & G1 & G2 & G3). exists ads', exs'. split; auto. split; [congruence|].
             intros j q Hq. pose proof (PS j) as PJ. rewrite Hq in PJ. simpl in PJ. destruct (G3 j _ PJ) as [G4 G5]. split.
             ++ intros u y [[= <- <-]|I] Hy.
                ** rewrite P in Hq. injection Hq as <-. rewrite name_eqb_refl in *. rewrite G5 by auto. congruence.
                ** assert (NJ : name_eqb j k = false).
                   { apply name_eqb_neq. intros ->. apply K1. apply in_fst. eauto. }
                   rewrite NJ in *. eapply G4; eauto.
             ++ intros H. assert (NJ : name_eqb j k = false).
                { apply name_eqb_neq. intros ->. apply H. now left. }
                rewrite NJ in *. apply G5. intros I. apply H. now right.
        * cbn [Model_Class.write] in W |- *. rewrite W. simpl. split; [|discriminate]. split; [discriminate|]. intros H.
          destruct (H k v (or_introl eq_refl)) as (q & y & Hq & Hy). rewrite P in Hq. injection Hq as <-. congruence.
      + simpl. split; [|discriminate]. split; [discriminate|]. intros H. destruct (H k v (or_introl eq_refl)) as (q & y & Hq & _).
        assert (known k = true); [|congruence]. apply KN. eauto.
  Qed.

  Lemma combine_fst {A B} (l : list A) (r : list B) : length r <= length l -> map fst (combine l r) = firstn (length r) l.
  Proof. clear cast none is_none. revert r; induction l as [|a l IH]; intros [|b r] L; simpl in *; try lia; auto. f_equal. apply IH. lia. Qed.
  Lemma NoDup_app_make {A} (l r : list A) : NoDup l -> NoDup r -> (forall x, In x l -> ~ In x r) -> NoDup (l ++ r).
  Proof.
    induction 1 as [|x l N D IH]; simpl; intros R H; auto. constructor; auto. rewrite in_app_iff. intros [I|I]; [auto|].
    apply (H x); auto.
  Qed.
  Lemma NoDup_firstn {A} n (l : list A) : NoDup l -> NoDup (firstn n l).
  Proof. rewrite <- (firstn_skipn n l) at 1. revert n. intros n. generalize (skipn n l) as r. induction (firstn n l) as [|x t IH]; intros r D; [constructor|].
    simpl in D. inversion D as [|? ? D1 D2]; subst. constructor; eauto. intros I. apply D1. apply in_or_app. auto.
  Qed.
  Lemma unanswered_attr w c k : unanswered w c k -> class_attr w c k = None.
  Proof.
    intros U. unfold class_attr, ancestors. destruct (nth_error (w_classes w) c) as [cl|] eqn:E; [|reflexivity].
    assert (A : forall x, In x (flat_map (fun a => match nth_error (w_classes w) a with Some x => [x] | None => [] end) (c_mro cl)) -> c_attrs x k = None).
    { intros x I. apply in_flat_map in I as (a & I1 & I2). destruct (nth_error (w_classes w) a) as [y|] eqn:Y; [|contradiction].
      destruct I2 as [<-|[]]. eapply U; eauto. }
    induction (flat_map _ (c_mro cl)) as [|x t IH]; simpl; auto. rewrite A by (now left). apply IH. intros y I. apply A. now right.
  Qed.
  Lemma class_attr_classes w w' c k : w_classes w' = w_classes w -> class_attr w' c k = class_attr w c k.
  Proof. intros H. unfold class_attr, ancestors. now rewrite H. Qed.
  Lemma shape_type_names w w' o l : same_shape w w' -> type_names w o l -> type_names w' o l.
  Proof.
    intros S (ob & m & H1 & H2 & H3). destruct (shape_object w w' o ob S H1) as (ob' & E & M & _). exists ob', m.
    split; auto. split; [rewrite M, (sh_metas _ _ S); auto|]. now rewrite (sh_names _ _ S).
  Qed.
  Lemma make_spec f w c l ads exs ps args kw : idempotent -> class_looks w c l ads exs ->
    Forall (made cast is_none) (ads ++ exs) -> Forall plain (ads ++ exs) ->
    NoDup (map i_name ads) -> NoDup (map i_name exs) -> NoDup (map fst kw) ->
    parameters (map i_name ads ++ map i_name exs) ps ->
    ((exists w' o, make (S f) w c args kw = Ok (w', o))
     <-> accepted (fun ty v => exists x, cast_opt ty v = Ok x) ads exs ps args kw)
    /\ forall w' o, make (S f) w c args kw = Ok (w', o) ->
       type_names w' o l
       /\ forall k p, decides ads exs k p -> unanswered w c k ->
          (forall v x, gives ps args kw k v -> cast_opt (i_type p) v = Ok x -> forall g, read (S g) w' o k = Ok x)
          /\ ((forall v, ~ gives ps args kw k v) ->
              forall g, read (S g) w' o k = Ok (match i_value p with Some v => v | None => none end)).
  Proof.
    intros ID CL MD PL NA NE NK PM. pose proof (parameters_det _ _ _ PM (entries_keys ads exs)) as ->.
    set (ps := map fst (entries ads exs)) in *.
    destruct (new_object_looks w c l ads exs ID CL MD) as (w1 & o & N & TN & _ & WC & la & le & F & ND).
    pose proof F as F0. destruct F as [(ob & m & O1 & O2 & O3 & O4 & O5 & O6) FA FE].
    assert (Q : forall l ps, Forall2 (fun i p => nth_error (w_infos w1) i = Some p) l ps -> fetch (w_infos w1) l = ps).
    { induction 1 as [|i q t qs H FF IH]; simpl; auto. now rewrite H, IH. }
    assert (MK : make (S f) w c args kw = match init (S f) w1 o args kw with (w', Ok _) => Ok (w', o) | (_, Err e) => Err e end).
    { unfold Model_Class.make. now rewrite N. }
    pose proof (bind_args_ok ads exs args kw) as B. cbv zeta in B. fold ps in B.
    assert (IN : init (S f) w1 o args kw = match bind_args (entries ads exs) args kw with
      | Err e => (w1, Err e)
      | Ok all => in_turn (fun w' k v => if has_key k (entries ads exs) then write (S f) w' o k v else (w', Err TypeError)) w1 all end).
    { unfold Model_Class.init. rewrite O1, O4, O5, O6, (Q _ _ FA), (Q _ _ FE). reflexivity. }
    assert (KN : forall k, has_key k (entries ads exs) = true <-> exists p, pick ads exs k = Some p).
    { intros k. rewrite has_key_in, in_fst. split; intros [p H]; exists p; now apply entries_in. }
    assert (PP : forall k p, pick ads exs k = Some p -> plain p).
    { intros k p H. apply pick_decides in H as [_ H]; auto. rewrite Forall_forall in PL. apply PL, in_or_app. tauto. }
    assert (INP : forall k, In k ps <-> exists p, pick ads exs k = Some p).
    { intros k. rewrite <- KN, has_key_in. reflexivity. }
    pose proof (init_wrote cast none is_none (S f) w1 o args kw) as [SH _].
    destruct (bind_args (entries ads exs) args kw) as [all|e] eqn:BA.
    - destruct B as [(C1 & C2 & C3) ->].
      assert (NDA : NoDup (map fst (combine ps args ++ kw))).
      { rewrite map_app, combine_fst by auto. apply NoDup_app_make; auto.
        - apply NoDup_firstn. eapply parameters_nodup; eauto.
        - intros k I. apply In_nth_error in I as [i I].
          assert (LI : i < length args). { apply nth_error_lt in I. rewrite firstn_length in I. lia. }
          apply (C2 i k); auto. rewrite <- I. symmetry. now apply nth_error_firstn_lt. }
      pose proof (in_turn_fresh f (fun k => has_key k (entries ads exs)) (combine ps args ++ kw) w1 o c ads exs la le
                    F0 ND NA NE NDA KN PP) as IT. cbv zeta in IT.
      cbn [Model_Class.write] in IT, IN. rewrite <- IN in IT. clear IN.
      destruct IT as [IT1 IT2]. rewrite MK. destruct (init (S f) w1 o args kw) as [w2 r] eqn:II. cbn [fst snd] in *.
      split.
      + transitivity (r = Ok tt).
        { destruct r as [[]|e]; split; intros H; try discriminate; eauto. destruct H as (? & ? & H). discriminate. }
        rewrite IT1. split.
        * intros H. split; auto. split; auto. split; [|split].
          -- intros k I. apply in_fst in I as [v I]. destruct (H k v) as (p & x & P & _); [apply in_or_app; auto|]. apply INP. eauto.
          -- intros k p D M. apply pick_decides in D; auto. eauto.
          -- intros k v p G D. apply gives_in in G. apply pick_decides in D; auto. destruct (H k v G) as (q & x & P & X).
             rewrite D in P. injection P as <-. eauto.
        * intros (_ & _ & H3 & _ & H5) k v I. pose proof (proj2 (gives_in ps args kw k v) I) as G.
          assert (IK : In k ps).
          { apply in_app_or in I as [I|I]; [apply in_combine_nth in I as (i & I & _); eapply nth_error_In; eauto|].
            apply H3. apply in_fst. eauto. }
          apply INP in IK as [p P]. pose proof P as D. apply pick_decides in D; auto. destruct (H5 k v p G D) as [x X]. eauto.
      + intros w' o' E. destruct r as [[]|e]; [|discriminate]. injection E as <- <-.
        destruct (IT2 eq_refl) as (ads' & exs' & G1 & G2 & G3). split; [eapply shape_type_names; eauto|].
        intros k p D U. apply pick_decides in D; auto. destruct (G3 k p D) as [G4 G5].
        assert (CA : class_attr w2 c k = None).
        { rewrite (class_attr_classes w w2) by congruence. now apply unanswered_attr. }
        split.
        * intros v x G X g. apply gives_in in G. pose proof (G4 v x G X) as P.
          rewrite (read_fresh g w2 o c ads' exs' la le k _ G1 CA P); [reflexivity|]. apply put_plain. eauto.
        * intros H g. assert (NI : ~ In k (map fst (combine ps args ++ kw))).
          { intros I. apply in_fst in I as [v I]. apply (H v). now apply gives_in. }
          rewrite (read_fresh g w2 o c ads' exs' la le k _ G1 CA (G5 NI)); eauto.
    - rewrite IN in MK. rewrite MK. split; [|discriminate]. split; [intros (? & ? & H); discriminate|].
      intros (H1 & H2 & _ & H4 & _). exfalso. apply B. split; auto. split; auto. intros k p P M. apply pick_decides in P; auto. eauto.
  Qed.
End P2.
