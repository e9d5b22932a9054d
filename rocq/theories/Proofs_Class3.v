(** Proofs about type names, inheritance and the registry. *)
From Verif Require Import Base BaseFacts Model_Object Spec_Object Proofs_Object Model_Class Spec_Class Proofs_Class Proofs_Class2.
Set Default Proof Using "Type".

Lemma starts_iff p s : starts p s = true <-> exists t, s = p ++ t.
Proof.
  revert s; induction p as [|c p IH]; intros [|d s]; simpl.
  - split; eauto.
  - split; eauto.
  - split; [discriminate|]. intros [t H]. discriminate.
  - rewrite andb_true_iff, N.eqb_eq, IH. split; [intros (-> & t & ->); eauto|]. intros [t [= -> ->]]. eauto.
Qed.
Lemma skipn_prefix t : skipn 13 (prefix ++ t) = t.
Proof. reflexivity. Qed.
Lemma strip_bare n : bare n (strip true n).
Proof.
  unfold strip, bare. cbn [andb]. destruct (starts deserialized n) eqn:E.
  - apply starts_iff in E as [t ->]. left. reflexivity.
  - right. split; auto. intros H. apply starts_iff in H. change prefix with deserialized in H. congruence.
Qed.
Lemma bare_det n a b : bare n a -> bare n b -> a = b.
Proof.
  intros [->|[-> A]] [B|[B B']].
  - now apply app_inv_head in B.
  - exfalso. eauto.
  - exfalso. eauto.
  - auto.
Qed.
Lemma strip_matches ignore n x : name_eqb (strip ignore n) (strip ignore x) = true <-> matches ignore n x.
Proof.
  rewrite name_eqb_eq. unfold matches. destruct ignore.
  - split.
    + intros H. exists (strip true n). split; [apply strip_bare|]. rewrite H. apply strip_bare.
    + intros (b & H1 & H2). now rewrite (bare_det _ _ _ (strip_bare n) H1), (bare_det _ _ _ (strip_bare x) H2).
  - reflexivity.
Qed.
Section P3.
  Context {V T : Type}.
  Variable cast : T -> V -> result V.
  Variable none : V.
  Variable is_none : V -> bool.
  Notation world := (world V T).
  Implicit Type w : world.
  Notation info := (info V T).
  Notation new_object := (new_object V T cast is_none).
  Notation make := (make V T cast none is_none).
  Notation rehydrate := (rehydrate V T cast none is_none).
  Notation step := (step V T cast none is_none).
  Notation run := (run V T cast none is_none).

  Lemma type_names_at w o l : type_names w o l -> exists m, target_meta w (TObject o) = Some m /\ names_at w (m_names m) = l.
  Proof.
    intros (ob & m & H1 & H2 & H3). exists m. simpl. rewrite H1. split; auto. now apply names_at_nth.
  Qed.
  Lemma asked_first w x n : asked w x n -> forall t, wanted_names w (x :: t) = let! r := wanted_names w t in Ok (n :: r).
  Proof.
    intros [n0|o l n0 H|c m l n0 H1 H2] t; simpl; auto.
    - apply type_names_at in H as (m & H1 & H2). simpl in H1. now rewrite H1, H2.
    - apply class_has_meta in H1 as (a & H3 & H4). rewrite H3, H4. now rewrite (names_at_nth _ _ _ H2).
  Qed.
  Lemma asked_det w x n n' : asked w x n -> asked w x n' -> n = n'.
  Proof.
    intros A B. pose proof (asked_first _ _ _ A []) as E. rewrite (asked_first _ _ _ B []) in E. simpl in E. congruence.
  Qed.
  Lemma wanted_ok w l : Forall (answerable w) l -> exists ns, wanted_names w l = Ok ns
    /\ forall n, In n ns <-> exists x, In x l /\ asked w x n.
  Proof. clear none is_none.
    induction 1 as [|x l [->|[n A]] F (ns & E & I)].
    - exists []. split; auto. intros n. simpl. split; [tauto|]. intros (x & [] & _).
    - exists ns. simpl. split; auto. intros n. rewrite I. split; intros (y & H1 & H2); exists y; auto.
      destruct H1 as [<-|H1]; auto. inversion H2.
    - exists (n :: ns). rewrite (asked_first _ _ _ A), E. split; auto. intros k. simpl. rewrite I. split.
      + intros [<-|(y & H1 & H2)]; eauto.
      + intros (y & [<-|H1] & H2); [left; eapply asked_det; eauto|eauto].
  Qed.
  Lemma isinstance_ok w o l names ignore : type_names w o names -> Forall (answerable w) l ->
    exists b, isinstance w o l ignore = Ok b
    /\ (b = true <-> exists n x k, In n names /\ In x l /\ asked w x k /\ matches ignore n k).
  Proof.
    intros TN F. destruct (wanted_ok _ _ F) as (ns & E & I). apply type_names_at in TN as (m & M & N).
    unfold isinstance. rewrite E. cbn [bind]. rewrite M, N. eexists. split; [reflexivity|].
    rewrite existsb_exists. split.
    - intros (n & H1 & H2). apply existsb_exists in H2 as (k & H2 & H3). apply I in H2 as (x & H2 & H4).
      exists n, x, k. split; auto. split; auto. split; auto. now apply strip_matches.
    - intros (n & x & k & H1 & H2 & H3 & H4). exists n. split; auto. apply existsb_exists. exists k. split.
      + apply I. eauto.
      + now apply strip_matches.
  Qed.

  (** ** Inheritance *)
  Lemma list_or_new_spec w a l : match a with None => l = [] | Some i => nth_error (w_lists w) i = Some l end ->
    exists ext i, list_or_new w a = (set_lists w (w_lists w ++ ext), i) /\ nth_error (w_lists w ++ ext) i = Some l
      /\ (a = Some i \/ i = length (w_lists w)).
  Proof. clear cast none is_none.
    destruct a as [i|]; simpl.
    - intros H. rewrite (list_at_nth _ _ _ H). destruct l as [|x l].
      + exists [[]], (length (w_lists w)). split; auto. rewrite nth_error_app2, Nat.sub_diag by lia. auto.
      + exists [], i. rewrite app_nil_r. destruct w; simpl in *. auto.
    - intros ->. exists [[]], (length (w_lists w)). split; auto. rewrite nth_error_app2, Nat.sub_diag by lia. auto.
  Qed.
  Lemma names_or_new_spec w a l : given_names w a l ->
    exists ext i, names_or_new w a = (set_names w (w_names w ++ ext), i) /\ nth_error (w_names w ++ ext) i = Some l
      /\ (a = Some i \/ i = length (w_names w)).
  Proof. clear cast none is_none.
    destruct a as [i|]; simpl.
    - intros H. rewrite (names_at_nth _ _ _ H). destruct l as [|x l].
      + exists [[]], (length (w_names w)). split; auto. rewrite nth_error_app2, Nat.sub_diag by lia. auto.
      + exists [], i. rewrite app_nil_r. destruct w; simpl in *. auto.
    - intros ->. exists [[]], (length (w_names w)). split; auto. rewrite nth_error_app2, Nat.sub_diag by lia. auto.
  Qed.
  Lemma holds_app (infos : list info) l ps l' ps' : Forall2 (fun i p => nth_error infos i = Some p) l ps ->
    Forall2 (fun i p => nth_error infos i = Some p) l' ps' -> Forall2 (fun i p => nth_error infos i = Some p) (l ++ l') (ps ++ ps').
  Proof. apply Forall2_app. Qed.
  Lemma given_list w a ps : given_properties w a ps -> exists x, match a with None => x = [] | Some i => nth_error (w_lists w) i = Some x end
    /\ Forall2 (fun i p => nth_error (w_infos w) i = Some p) x ps.
  Proof. destruct a as [i|]; simpl; [intros (x & H1 & H2); eauto | intros ->; exists []; auto]. Qed.
  Lemma nth_app_some {A} (l r : list A) i x : nth_error l i = Some x -> nth_error (l ++ r) i = Some x.
  Proof. intros H. rewrite nth_error_app1; auto. eapply nth_error_lt; eauto. Qed.
  Lemma found_more w w' l a ext : w_classes w' = w_classes w ++ ext -> found w l a -> found w' l a.
  Proof.
    intros E. induction 1 as [b k a t H1 H2|b k a t H1 H2 F IH]; [eapply found_here|eapply found_later]; eauto;
      rewrite E; now apply nth_app_some.
  Qed.
  (** The result of a declaration: its own lists followed by those of the class it is based on. *)
  Lemma declare_spec w bases attrs d a m own bn oa ba oe be :
    found w bases a -> nth_error (w_metas w) a = Some m -> own_lists d m ->
    given_names w (d_names d) own -> nth_error (w_names w) (m_names m) = Some bn ->
    given_properties w (d_adapted d) oa -> contents w (m_adapted m) ba ->
    given_properties w (d_extended d) oe -> contents w (m_extended m) be ->
    exists w', declare w bases attrs (Some d) = Ok (w', length (w_classes w))
      /\ (if d_skip d then class_looks w' (length (w_classes w)) own oa oe
          else class_looks w' (length (w_classes w)) (own ++ bn) (oa ++ ba) (oe ++ be))
      /\ w_types w' = (match d_rehydrate d, (if d_skip d then own else own ++ bn) with
                       | true, n :: _ => reg_add n (length (w_classes w)) (w_types w) | _, _ => w_types w end).
  Proof. clear cast none is_none.
    intros FO M (O1 & O2 & O3) GN BN GA (xb & XB1 & XB2) GE (yb & YB1 & YB2).
    apply given_list in GA as (xo & XO1 & XO2). apply given_list in GE as (yo & YO1 & YO2).
    set (c := length (w_classes w)). unfold declare. cbv zeta. fold c.
    set (w0 := mkWorld (w_infos w) (w_names w) (w_lists w) (w_metas w) (w_classes w ++ [mkClass (c :: bases) None attrs])
                 (w_objects w) (w_types w) (w_tags w)).
    unfold decorate.
    destruct (names_or_new_spec w0 (d_names d) own GN) as (e1 & na & -> & N1 & N2). cbn [w0 w_names] in N1, N2.
    cbv beta iota.
    set (w1 := set_names w0 (w_names w0 ++ e1)).
    destruct (list_or_new_spec w1 (d_adapted d) xo XO1) as (e2 & ad & -> & A1 & A2). cbn [w1 w0 set_names w_lists] in A1, A2.
    cbv beta iota.
    set (w2 := set_lists w1 (w_lists w1 ++ e2)).
    assert (YO1' : match d_extended d with None => yo = [] | Some i => nth_error (w_lists w2) i = Some yo end).
    { destruct (d_extended d); auto. simpl. now apply nth_app_some. }
    destruct (list_or_new_spec w2 (d_extended d) yo YO1') as (e3 & ex & -> & E1 & E2). cbn [w2 w1 w0 set_lists set_names w_lists] in E1, E2.
    cbv beta iota.
    set (w3 := set_lists w2 (w_lists w2 ++ e3)).
    assert (NE : ad <> ex).
    { destruct A2 as [A2|A2], E2 as [E2|E2].
      - destruct (O2 _ A2) as (_ & _ & H). congruence.
      - intros ->. rewrite A2 in XO1. apply nth_error_lt in XO1. rewrite app_length in E2. lia.
      - intros ->. rewrite E2 in YO1. apply nth_error_lt in YO1. lia.
      - intros ->. apply nth_error_lt in A1. lia. }
    assert (CM : class_meta w3 c = Some a).
    { unfold class_meta, ancestors. cbn [w3 w2 w1 w0 set_lists set_names w_classes]. rewrite nth_error_app2, Nat.sub_diag by (unfold c; lia).
      cbn [nth_error c_mro flat_map]. rewrite nth_error_app2, Nat.sub_diag by (unfold c; lia). simpl.
      assert (FO' : found w0 bases a).
      { apply (found_more w w0 bases a [mkClass (c :: bases) None attrs]); auto. }
      apply (found_meta w0 _ _ FO'). }
    assert (LN : m_names m < length (w_names w)) by (eapply nth_error_lt; eauto).
    assert (NB : na <> m_names m) by (destruct N2 as [N2|N2]; [congruence|lia]).
    assert (AB : ad <> m_adapted m /\ ad <> m_extended m).
    { destruct A2 as [A2|A2]; [destruct (O2 _ A2) as (? & ? & _); auto|]. apply nth_error_lt in XB1, YB1. lia. }
    assert (EB : ex <> m_adapted m /\ ex <> m_extended m).
    { destruct E2 as [E2|E2]; [auto|]. rewrite app_length in E2. apply nth_error_lt in XB1, YB1. lia. }
    assert (NA3 : nth_error (w_names w3) na = Some own) by exact N1.
    assert (AD3 : nth_error (w_lists w3) ad = Some xo) by (simpl; now apply nth_app_some).
    assert (EX3 : nth_error (w_lists w3) ex = Some yo) by exact E1.
    assert (W4 : exists w4, (if d_skip d then Ok w3
               else match class_meta w3 c with
                    | None => Err AttributeError
                    | Some a =>
                      match nth_error (w_metas w3) a with
                      | None => Err KeyError
                      | Some m =>
                        let x := extend_names w3 na (names_at w3 (m_names m)) in
                        let y := extend_list x ad (list_at x (m_adapted m)) in
                        Ok (extend_list y ex (list_at y (m_extended m)))
                      end
                    end) = Ok w4
       /\ nth_error (w_names w4) na = Some (if d_skip d then own else own ++ bn)
       /\ nth_error (w_lists w4) ad = Some (if d_skip d then xo else xo ++ xb)
       /\ nth_error (w_lists w4) ex = Some (if d_skip d then yo else yo ++ yb)
       /\ w_infos w4 = w_infos w /\ w_metas w4 = w_metas w /\ w_classes w4 = w_classes w0 /\ w_types w4 = w_types w).
    { destruct (d_skip d); [exists w3; auto 10|]. rewrite CM. change (nth_error (w_metas w3) a) with (nth_error (w_metas w) a). rewrite M.
      cbv zeta. eexists. split; [reflexivity|].
      assert (B1 : names_at w3 (m_names m) = bn) by (apply names_at_nth; simpl; now apply nth_app_some).
      rewrite B1. set (x := extend_names w3 na bn).
      assert (B2 : list_at x (m_adapted m) = xb) by (apply list_at_nth; simpl; now apply nth_app_some, nth_app_some).
      rewrite B2. set (y := extend_list x ad xb).
      assert (B3 : list_at y (m_extended m) = yb).
      { apply list_at_nth. simpl. rewrite update_at_nth. destruct (Nat.eqb_spec ad (m_extended m)); [tauto|].
        now apply nth_app_some, nth_app_some. }
      rewrite B3.
      split; [simpl; rewrite update_at_nth, Nat.eqb_refl; now rewrite N1|].
      split; [|split; [|auto]]; cbn [extend_list set_lists w_lists]; rewrite !update_at_nth.
      - destruct (Nat.eqb_spec ex ad) as [e|]; [congruence|]. change (w_lists y) with (update_at ad (fun x => x ++ xb) (w_lists w3)).
        rewrite update_at_nth, Nat.eqb_refl, AD3. reflexivity.
      - rewrite Nat.eqb_refl. change (w_lists y) with (update_at ad (fun x => x ++ xb) (w_lists w3)). rewrite update_at_nth.
        destruct (Nat.eqb_spec ad ex) as [e|]; [congruence|]. rewrite EX3. reflexivity. }
    cbv zeta in W4. destruct W4 as (w4 & -> & N4 & A4 & E4 & I4 & M4 & C4 & T4). cbn [bind].
    set (own' := if d_skip d then own else own ++ bn) in *.
    destruct (list_or_new_spec w4 (Some ad) _ A4) as (e5 & ad' & -> & A5 & _).
    cbv beta iota.
    set (w5 := set_lists w4 (w_lists w4 ++ e5)).
    assert (E5 : nth_error (w_lists w5) ex = Some (if d_skip d then yo else yo ++ yb)) by (simpl; now apply nth_app_some).
    destruct (list_or_new_spec w5 (Some ex) _ E5) as (e6 & ex' & -> & E6 & _).
    cbv beta iota.
    set (w6 := set_lists w5 (w_lists w5 ++ e6)).
    eexists. split; [reflexivity|].
    match goal with |- context [class_looks ?x _ _ _ _] => set (w' := x) end.
    assert (LK : class_looks w' c own' (if d_skip d then oa else oa ++ ba) (if d_skip d then oe else oe ++ be)).
    { exists (mkMeta na ad' ex'). split; [|split; [exact N4|split]].
      - exists (mkClass (c :: bases) (Some (length (w_metas w))) attrs), (length (w_metas w)).
        assert (K : nth_error (w_classes w') c = Some (mkClass (c :: bases) (Some (length (w_metas w))) attrs)).
        { unfold w'. cbn [w_classes w6 w5 set_lists w_metas]. rewrite update_at_nth, Nat.eqb_refl, C4, M4. cbn [w0 w_classes].
          rewrite nth_error_app2, Nat.sub_diag by (unfold c; lia). reflexivity. }
        split; [exact K|]. split; [eapply found_here; [exact K|reflexivity]|].
        unfold w'. cbn [w_metas w6 w5 set_lists]. rewrite M4, nth_error_app2, Nat.sub_diag by lia. reflexivity.
      - exists (if d_skip d then xo else xo ++ xb). split; [unfold w'; cbn [w_lists w6 set_lists]; now apply nth_app_some|].
        unfold w'. cbn [w_infos w6 w5 set_lists]. rewrite I4. destruct (d_skip d); auto. now apply holds_app.
      - exists (if d_skip d then yo else yo ++ yb). split; [exact E6|].
        unfold w'. cbn [w_infos w6 w5 set_lists]. rewrite I4. destruct (d_skip d); auto. now apply holds_app. }
    split; [destruct (d_skip d); exact LK|].
    unfold w'. cbn [w_types]. replace (names_at w6 na) with own' by (symmetry; apply names_at_nth; exact N4).
    change (w_types w6) with (w_types w4). rewrite T4. reflexivity.
  Qed.

  (** ** The registry *)
  Lemma reg_get_app k d n c : reg_get k (d ++ [(n, c)]) = match reg_get k d with Some x => Some x | None => if name_eqb n k then Some c else None end.
  Proof. induction d as [|[m x] d IH]; simpl; auto. now destruct (name_eqb m k). Qed.
  Lemma reg_add_get k n c d : reg_get k (reg_add n c d) = match reg_get k d with Some x => Some x | None => if name_eqb n k then Some c else None end.
  Proof.
    unfold reg_add. destruct (reg_get n d) eqn:E; [|apply reg_get_app]. destruct (reg_get k d) eqn:K; auto.
    destruct (name_eqb n k) eqn:N; auto. apply name_eqb_eq in N. congruence.
  Qed.
  Definition kept (d d' : list (name * nat)) : Prop := forall k c, reg_get k d = Some c -> reg_get k d' = Some c.
  Lemma kept_refl d : kept d d. Proof. intros k c H; exact H. Qed.
  Lemma kept_eq d d' : d' = d -> kept d d'. Proof. intros ->. apply kept_refl. Qed.
  Lemma kept_add n c d : kept d (reg_add n c d).
  Proof. intros k x H. now rewrite reg_add_get, H. Qed.
  Definition registered_kept (w w' : world) : Prop := kept (w_types w) (w_types w') /\ kept (w_tags w) (w_tags w').
  Lemma rk_same w w' : w_types w' = w_types w -> w_tags w' = w_tags w -> registered_kept w w'.
  Proof. intros H1 H2. split; apply kept_eq; auto. Qed.
  Lemma rk_trans w1 w2 w3 : registered_kept w1 w2 -> registered_kept w2 w3 -> registered_kept w1 w3.
  Proof. intros [A B] [C D]. split; intros k c H; auto. Qed.
  Lemma names_or_new_reg w a : w_types (fst (names_or_new w a)) = w_types w /\ w_tags (fst (names_or_new w a)) = w_tags w.
  Proof. unfold names_or_new. destruct a as [i|]; [destruct (names_at w i)|]; auto. Qed.
  Lemma list_or_new_reg w a : w_types (fst (list_or_new w a)) = w_types w /\ w_tags (fst (list_or_new w a)) = w_tags w.
  Proof. unfold list_or_new. destruct a as [i|]; [destruct (list_at w i)|]; auto. Qed.
  Lemma decorate_reg w d c w' : decorate w d c = Ok w' -> registered_kept w w'.
  Proof.
    unfold decorate. pose proof (names_or_new_reg w (d_names d)) as R1. destruct (names_or_new w (d_names d)) as [w1 na].
    pose proof (list_or_new_reg w1 (d_adapted d)) as R2. destruct (list_or_new w1 (d_adapted d)) as [w2 ad].
    pose proof (list_or_new_reg w2 (d_extended d)) as R3. destruct (list_or_new w2 (d_extended d)) as [w3 ex].
    match goal with |- (let! w4 := ?x in _) = _ -> _ => destruct x as [w4|] eqn:E4; [|discriminate] end. cbn [bind].
    assert (R4 : w_types w4 = w_types w3 /\ w_tags w4 = w_tags w3).
    { destruct (d_skip d); [injection E4 as <-; auto|]. destruct (class_meta w3 c) as [a|]; [|discriminate].
      destruct (nth_error (w_metas w3) a) as [m|]; [|discriminate]. injection E4 as <-. auto. }
    pose proof (list_or_new_reg w4 (Some ad)) as R5. destruct (list_or_new w4 (Some ad)) as [w5 ad'].
    pose proof (list_or_new_reg w5 (Some ex)) as R6. destruct (list_or_new w5 (Some ex)) as [w6 ex'].
    intros [= <-]. cbn [fst] in *. destruct R1, R2, R3, R4, R5, R6. split; simpl.
    - replace (w_types w) with (w_types w6) by congruence. destruct (d_rehydrate d); [|apply kept_refl].
      destruct (names_at w6 na); [apply kept_refl | apply kept_add].
    - replace (w_tags w) with (w_tags w6) by congruence. destruct (d_tag d); [apply kept_add | apply kept_refl].
  Qed.
  Lemma new_object_reg w c w' o : new_object w c = Ok (w', o) -> w_types w' = w_types w /\ w_tags w' = w_tags w.
  Proof. intros H. apply new_object_shape in H as (a & m & ads & exs & _ & _ & _ & _ & _ & ->). auto. Qed.
  Lemma make_reg f w c args kw w' o : make f w c args kw = Ok (w', o) -> w_types w' = w_types w /\ w_tags w' = w_tags w.
  Proof.
    unfold Model_Class.make. destruct (new_object w c) as [[w1 o1]|] eqn:N; [|discriminate]. cbn [bind fst snd].
    apply new_object_reg in N as [N1 N2]. pose proof (init_wrote cast none is_none f w1 o1 args kw) as [SH _].
    destruct (init V T cast none is_none f w1 o1 args kw) as [w2 [u|e]]; [|discriminate]. cbn [fst] in SH. intros [= <- _].
    rewrite (sh_types _ _ SH), (sh_tags _ _ SH). auto.
  Qed.
  Lemma rename_reg w o l : w_types (rename w o l) = w_types w /\ w_tags (rename w o l) = w_tags w.
  Proof. unfold rename. destruct (nth_error (w_objects w) o); auto. Qed.
  Lemma step_reg f w x : registered_kept w (fst (step f w x)).
  Proof.
    destruct x; simpl; try (apply rk_same; reflexivity).
    - unfold add_info. destruct (note_property _ _ _ _ _ _ _ _); apply rk_same; reflexivity.
    - unfold add_info. destruct (script_property _ _ _ _ _); apply rk_same; reflexivity.
    - unfold change_info. destruct (nth_error (w_infos w) a) as [p|]; [|apply rk_same; reflexivity].
      destruct (assign_getter p g); apply rk_same; reflexivity.
    - unfold change_info. destruct (nth_error (w_infos w) a) as [p|]; [|apply rk_same; reflexivity].
      destruct (assign_setter p s); apply rk_same; reflexivity.
    - unfold keep. destruct (declare w bases attrs d) as [[w' c]|] eqn:E; simpl; [|apply rk_same; reflexivity].
      unfold declare in E. destruct d as [d|].
      + destruct (decorate _ d _) as [w2|] eqn:D; [|discriminate]. injection E as <- _. apply decorate_reg in D. exact D.
      + injection E as <- _. apply rk_same; reflexivity.
    - unfold keep. destruct (make f w c args kw) as [[w' o]|] eqn:E; simpl; [|apply rk_same; reflexivity].
      apply make_reg in E as [E1 E2]. now apply rk_same.
    - unfold keep. destruct (rehydrate f w names) as [[w' o]|] eqn:E; simpl; [|apply rk_same; reflexivity].
      unfold Model_Class.rehydrate in E. destruct (match names with [] => None | [] :: _ => None | (_ :: _) as n :: _ => reg_get n (w_types w) end) as [c|].
      + apply new_object_reg in E as [E1 E2]. now apply rk_same.
      + destruct (make f w 0 [] []) as [[w1 o1]|] eqn:M; [|discriminate]. injection E as <- _. cbn [fst snd].
        apply make_reg in M as [M1 M2]. destruct (rename_reg w1 o1 (map (fun n => deserialized ++ n) names)) as [R1 R2].
        apply rk_same; [exact (eq_trans R1 M1) | exact (eq_trans R2 M2)].
    - pose proof (write_wrote cast none is_none f w o k v) as [SH _]. destruct SH. now apply rk_same.
    - unfold keep. destruct (attach w t a force) as [w'|] eqn:E; simpl; [|apply rk_same; reflexivity].
      unfold attach in E. destruct (target_meta w t) as [m|]; [|discriminate]. destruct (nth_error (w_infos w) a) as [p|]; [|discriminate].
      cbv zeta in E. destruct (info_named _ _ || info_named _ _); [destruct (negb force); [discriminate|]; destruct (info_index _ _ _)|];
        injection E as <-; apply rk_same; reflexivity.
    - destruct (rename_reg w o l). now apply rk_same.
  Qed.
  Lemma run_reg f xs : forall w, registered_kept w (run f w xs).
  Proof.
    induction xs as [|x xs IH]; intros w; simpl; [apply rk_same; reflexivity|]. eapply rk_trans; [apply step_reg | apply IH].
  Qed.
  (** ** Blank instances for the deserializer *)
  Lemma rename_names w o l l' : type_names w o l -> type_names (rename w o l') o l'.
  Proof. clear cast none is_none.
    intros (ob & m & H1 & H2 & H3). unfold rename. rewrite H1.
    exists ob, (mkMeta (length (w_names w)) (m_adapted m) (m_extended m)). simpl. split; auto. split.
    - now rewrite update_at_nth, Nat.eqb_refl, H2.
    - now rewrite nth_error_app2, Nat.sub_diag by lia.
  Qed.
  Definition is_of (w : world) (o c : nat) : Prop := exists ob, nth_error (w_objects w) o = Some ob /\ ob_class ob = c.
  Lemma rehydrate_known f w n t c l ads exs : idempotent cast -> n <> [] -> reg_get n (w_types w) = Some c ->
    class_looks w c l ads exs -> Forall (made cast is_none) (ads ++ exs) ->
    exists w' o, rehydrate f w (n :: t) = Ok (w', o) /\ is_of w' o c /\ type_names w' o l /\ properties w' o ads exs.
  Proof.
    intros ID NN R CL MD. destruct (new_object_looks cast is_none w c l ads exs ID CL MD) as (w1 & o & N & TN & PR & _ & la & le & F & _).
    exists w1, o. split; [|split; auto].
    - unfold Model_Class.rehydrate. destruct n as [|x n]; [congruence|]. now rewrite R.
    - destruct F as [(ob & m & O1 & O2 & _) _ _]. exists ob. auto.
  Qed.
  Lemma rehydrate_unknown f w names l ads exs : idempotent cast ->
    (forall n t, names = n :: t -> n = [] \/ reg_get n (w_types w) = None) ->
    class_looks w 0 l ads exs -> Forall (made cast is_none) (ads ++ exs) -> Forall plain (ads ++ exs) ->
    NoDup (map i_name ads) -> NoDup (map i_name exs) -> Forall (fun p => i_mandatory p = false) (ads ++ exs) ->
    exists w' o, rehydrate (S f) w names = Ok (w', o) /\ type_names w' o (map (fun n => prefix ++ n) names).
  Proof.
    intros ID R CL MD PL NA NE NM.
    destruct (make_spec cast none is_none f w 0 l ads exs _ [] [] ID CL MD PL NA NE (NoDup_nil _) (entries_keys ads exs)) as [A B].
    destruct (proj2 A) as (w1 & o & M).
    { split; [simpl; lia|]. split; [simpl; intros; lia|]. split; [intros k []|]. split.
      - intros k p [_ D] MA. rewrite Forall_forall in NM. rewrite NM in MA; [discriminate|]. apply in_or_app. tauto.
      - intros k v p [(i & _ & H)|[]]. destruct i; discriminate. }
    destruct (B _ _ M) as [TN _]. exists (rename w1 o (map (fun n => deserialized ++ n) names)), o. split.
    - unfold Model_Class.rehydrate.
      match goal with |- match ?x with Some _ => _ | None => _ end = _ => assert (E : x = None) end.
      { destruct names as [|n t]; auto. destruct (R n t eq_refl) as [->|H]; auto. destruct n; auto. }
      rewrite E, M. reflexivity.
    - eapply rename_names; eauto.
  Qed.
  (** An unregistered object still is what its type names say, when the prefix is ignored. *)
  Lemma deserialized_is w o names n : type_names w o (map (fun n => prefix ++ n) names) -> In n names ->
    (~ exists t, n = prefix ++ t) -> isinstance w o [WName n] true = Ok true.
  Proof.
    intros TN I P. destruct (isinstance_ok w o [WName n] _ true TN) as (b & E & B).
    { constructor; [|constructor]. right. exists n. constructor. }
    rewrite E. f_equal. apply B. exists (prefix ++ n), (WName n), n. split; [apply in_map_iff; eauto|]. split; [now left|].
    split; [constructor|]. exists n. split; [left; reflexivity|]. right. auto.
  Qed.
End P3.
