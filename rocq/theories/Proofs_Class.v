(** Proofs about classes and instances. *)
From Verif Require Import Base BaseFacts Model_Object Spec_Object Proofs_Object Model_Class Spec_Class.
Set Default Proof Using "Type".
Import Model_Class Spec_Class.

(** ** Lists *)
Lemma update_at_nil {A} i (f : A -> A) : update_at i f [] = [].
Proof. unfold update_at. now rewrite firstn_nil, skipn_nil. Qed.
Lemma update_at_S {A} i (f : A -> A) x l : update_at (S i) f (x :: l) = x :: update_at i f l.
Proof. reflexivity. Qed.
Lemma update_at_length {A} i (f : A -> A) l : length (update_at i f l) = length l.
Proof.
  revert i; induction l as [|x l IH]; intros i; [now rewrite update_at_nil|]. destruct i; [reflexivity|].
  rewrite update_at_S. simpl. now rewrite IH.
Qed.
Lemma update_at_nth {A} i (f : A -> A) l j :
  nth_error (update_at i f l) j = if Nat.eqb i j then option_map f (nth_error l j) else nth_error l j.
Proof.
  revert i j; induction l as [|x l IH]; intros i j.
  - rewrite update_at_nil. destruct j; simpl; now destruct (Nat.eqb _ _).
  - destruct i, j; try reflexivity. rewrite update_at_S. simpl. apply IH.
Qed.
Lemma update_at_Forall {A} (P : A -> Prop) i f l : Forall P l -> (forall x, P x -> P (f x)) -> Forall P (update_at i f l).
Proof.
  intros H F. revert i; induction H as [|x l Hx H IH]; intros i; [rewrite update_at_nil; constructor|].
  destruct i; [constructor; auto|]. rewrite update_at_S. constructor; auto.
Qed.
Lemma nth_error_lt {A} (l : list A) i x : nth_error l i = Some x -> i < length l.
Proof. intros H. apply nth_error_Some. congruence. Qed.
Lemma nth_error_app_old {A} (l r : list A) i : i < length l -> nth_error (l ++ r) i = nth_error l i.
Proof. intros. now apply nth_error_app1. Qed.
Lemma nth_nth_error {A} (l : list A) i x d : nth_error l i = Some x -> nth i l d = x.
Proof. intros. now apply nth_error_nth. Qed.
Lemma Forall_nth {A} (P : A -> Prop) l i x : Forall P l -> nth_error l i = Some x -> P x.
Proof. intros H E. apply nth_error_In in E. rewrite Forall_forall in H. auto. Qed.
Lemma map_ok_Forall2 {A B} (f : A -> result B) l r : map_ok f l = Ok r -> Forall2 (fun a b => f a = Ok b) l r.
Proof.
  revert r; induction l as [|a l IH]; simpl; intros r H; [injection H as <-; constructor|].
  destruct (f a) eqn:E; simpl in H; [|discriminate]. destruct (map_ok f l); simpl in H; [|discriminate].
  injection H as <-. constructor; auto.
Qed.
Lemma nth_error_ext {A} (l r : list A) : (forall i, nth_error l i = nth_error r i) -> l = r.
Proof.
  revert r; induction l as [|x l IH]; intros [|y r] H; auto; try (specialize (H 0); discriminate).
  f_equal; [specialize (H 0); now injection H | apply IH; intros i; apply (H (S i))].
Qed.
Lemma F2_length {A B} (R : A -> B -> Prop) l r : Forall2 R l r -> length l = length r.
Proof. induction 1; simpl; auto. Qed.

Section P.
  Context {V T : Type}.
  Variable cast : T -> V -> result V.
  Variable none : V.
  Variable is_none : V -> bool.
  Notation world := (world V T).
  Implicit Type w : world.
  Notation read := (read V T cast none is_none).
  Notation write := (write V T cast none is_none).
  Notation new_object := (new_object V T cast is_none).
  Notation init := (init V T cast none is_none).
  Notation make := (make V T cast none is_none).
  Notation rehydrate := (rehydrate V T cast none is_none).
  Notation step := (step V T cast none is_none).
  Notation run := (run V T cast none is_none).
  Notation cast_opt := (cast_opt V T cast is_none).

  (** ** What an operation leaves alone *)
  (** Everything of [w] outside [X] is as it was in [w']. *)
  Record changes (w w' : world) (X : thing -> Prop) : Prop := mkChanges {
    ch_objects : forall o, o < length (w_objects w) -> ~ X (ThObject o) ->
                 nth_error (w_objects w') o = nth_error (w_objects w) o;
    ch_metas : forall a, a < length (w_metas w) -> ~ X (ThMeta a) -> nth_error (w_metas w') a = nth_error (w_metas w) a;
    ch_names : forall a, a < length (w_names w) -> ~ X (ThNames a) -> nth_error (w_names w') a = nth_error (w_names w) a;
    ch_lists : forall a, a < length (w_lists w) -> ~ X (ThList a) -> nth_error (w_lists w') a = nth_error (w_lists w) a;
    ch_infos : forall a, a < length (w_infos w) -> ~ X (ThInfo a) -> nth_error (w_infos w') a = nth_error (w_infos w) a;
    ch_classes : forall c, c < length (w_classes w) -> nth_error (w_classes w') c = nth_error (w_classes w) c;
    ch_more : length (w_objects w) <= length (w_objects w') /\ length (w_metas w) <= length (w_metas w')
              /\ length (w_names w) <= length (w_names w') /\ length (w_lists w) <= length (w_lists w')
              /\ length (w_infos w) <= length (w_infos w') /\ length (w_classes w) <= length (w_classes w') }.
  Lemma changes_refl w X : changes w w X.
  Proof. constructor; auto 10. Qed.
  Lemma changes_weaken w w' (X Y : thing -> Prop) : changes w w' X -> (forall x, X x -> Y x) -> changes w w' Y.
  Proof. intros [] H. constructor; auto. Qed.
  Lemma changes_trans w1 w2 w3 X Y : changes w1 w2 X -> changes w2 w3 Y ->
    changes w1 w3 (fun x => X x \/ Y x).
  Proof. clear cast none is_none.
    intros [A1 A2 A3 A4 A5 A6 A7] [B1 B2 B3 B4 B5 B6 B7]. constructor; [| | | | |intros c L; rewrite B6, A6 by lia; reflexivity | lia]; intros a L N; cbv beta in N.
    - rewrite B1, A1 by (lia || tauto). reflexivity.
    - rewrite B2, A2 by (lia || tauto). reflexivity.
    - rewrite B3, A3 by (lia || tauto). reflexivity.
    - rewrite B4, A4 by (lia || tauto). reflexivity.
    - rewrite B5, A5 by (lia || tauto). reflexivity.
  Qed.
  Lemma changes_trans_same w1 w2 w3 X : changes w1 w2 X -> changes w2 w3 X -> changes w1 w3 X.
  Proof. clear none is_none. intros A B. eapply changes_weaken; [eapply changes_trans; eauto|]. cbv beta. tauto. Qed.

  Lemma list_at_nth (w : world) a x : nth_error (w_lists w) a = Some x -> list_at w a = x.
  Proof. apply nth_nth_error. Qed.
  Lemma names_at_nth (w : world) a x : nth_error (w_names w) a = Some x -> names_at w a = x.
  Proof. apply nth_nth_error. Qed.

  Lemma sound_object w o ob : sound w -> nth_error (w_objects w) o = Some ob ->
    exists m, nth_error (w_metas w) (ob_meta ob) = Some m.
  Proof. clear cast none is_none.
    intros (S & _) H. pose proof (Forall_nth _ _ _ _ S H) as [L _].
    destruct (nth_error (w_metas w) (ob_meta ob)) eqn:E; eauto. apply nth_error_None in E. lia.
  Qed.
  Lemma sound_meta w a m : sound w -> nth_error (w_metas w) a = Some m ->
    (exists x, nth_error (w_names w) (m_names m) = Some x)
    /\ (exists x, nth_error (w_lists w) (m_adapted m) = Some x /\ Forall (fun i => i < length (w_infos w)) x)
    /\ (exists x, nth_error (w_lists w) (m_extended m) = Some x /\ Forall (fun i => i < length (w_infos w)) x).
  Proof.
    intros (_ & _ & S & L) H. pose proof (Forall_nth _ _ _ _ S H) as (A & B & C).
    apply nth_error_Some in A, B, C.
    destruct (nth_error (w_names w) (m_names m)) eqn:E1; [|congruence].
    destruct (nth_error (w_lists w) (m_adapted m)) eqn:E2; [|congruence].
    destruct (nth_error (w_lists w) (m_extended m)) eqn:E3; [|congruence].
    repeat split; eexists; try split; try reflexivity; eapply Forall_nth; eauto.
  Qed.

  Lemma class_attr_same w w' c : sound w ->
    (forall c, c < length (w_classes w) -> nth_error (w_classes w') c = nth_error (w_classes w) c) ->
    c < length (w_classes w) -> ancestors w' c = ancestors w c.
  Proof.
    intros S C L. unfold ancestors. rewrite C by auto.
    destruct (nth_error (w_classes w) c) as [k|] eqn:E; [|reflexivity].
    destruct S as (_ & S & _). destruct (Forall_nth _ _ _ _ S E) as [_ M]. revert M. generalize (c_mro k). clear - C.
    induction l as [|x l IH]; intros M; [reflexivity|]. inversion M; subst. simpl. rewrite C, IH by auto. reflexivity.
  Qed.

  Lemma fetch_same (w w' : world) l : (forall a, In a l -> nth_error (w_infos w') a = nth_error (w_infos w) a) ->
    fetch (w_infos w') l = fetch (w_infos w) l.
  Proof.
    induction l as [|a l IH]; intros H; [reflexivity|]. simpl. rewrite H by now left.
    rewrite IH by (intros; apply H; now right). reflexivity.
  Qed.
  (** An object none of whose things changed reads as before. *)
  Lemma read_same w w' X o : sound w -> changes w w' X -> o < length (w_objects w) ->
    (forall x, of_object w o x -> ~ X x) -> forall f k, read f w' o k = read f w o k.
  Proof.
    intros S C L D.
    assert (LO := L). apply nth_error_Some in LO. destruct (nth_error (w_objects w) o) as [ob|] eqn:E; [|congruence]. clear LO.
    assert (F : forall x, in_meta w (ob_meta ob) x -> ~ X x) by (intros x I; apply D; exists ob; auto).
    destruct (sound_object w o ob S E) as [m M].
    destruct (sound_meta w _ m S M) as (_ & (la & A1 & A2) & (le & E1 & E2)).
    assert (NO : ~ X (ThObject o)) by (apply D; exists ob; auto).
    assert (NM : ~ X (ThMeta (ob_meta ob))) by (apply F; constructor).
    assert (NA : ~ X (ThList (m_adapted m))) by (apply F; eapply im_list; eauto).
    assert (NE : ~ X (ThList (m_extended m))) by (apply F; eapply im_list; eauto).
    assert (IA : forall i, In i la -> nth_error (w_infos w') i = nth_error (w_infos w) i).
    { intros i I. apply (ch_infos _ _ _ C); [rewrite Forall_forall in A2; auto|]. apply F. apply (im_info w _ m (m_adapted m) la i); auto. }
    assert (IE : forall i, In i le -> nth_error (w_infos w') i = nth_error (w_infos w) i).
    { intros i I. apply (ch_infos _ _ _ C); [rewrite Forall_forall in E2; auto|]. apply F. apply (im_info w _ m (m_extended m) le i); auto. }
    assert (O' : nth_error (w_objects w') o = Some ob) by (rewrite (ch_objects _ _ _ C) by auto; auto).
    assert (M' : nth_error (w_metas w') (ob_meta ob) = Some m).
    { rewrite (ch_metas _ _ _ C); auto. eapply nth_error_lt; eauto. }
    assert (A' : nth_error (w_lists w') (m_adapted m) = Some la).
    { rewrite (ch_lists _ _ _ C); auto. eapply nth_error_lt; eauto. }
    assert (E' : nth_error (w_lists w') (m_extended m) = Some le).
    { rewrite (ch_lists _ _ _ C); auto. eapply nth_error_lt; eauto. }
    assert (CA : ancestors w' (ob_class ob) = ancestors w (ob_class ob)).
    { apply class_attr_same; [exact S | exact (ch_classes _ _ _ C) |]. destruct S as (S0 & _). destruct (Forall_nth _ _ _ _ S0 E). assumption. }
    induction f as [|f IH]; intros k; [reflexivity|]. simpl. rewrite O', E. unfold class_attr. rewrite CA, M', M.
    rewrite (list_at_nth w' _ _ A'), (list_at_nth w' _ _ E'), (list_at_nth w _ _ A1), (list_at_nth w _ _ E1).
    rewrite (fetch_same w w' la IA), (fetch_same w w' le IE).
    destruct (dict_get (ob_dict ob) k); [reflexivity|].
    destruct (first_some _); [reflexivity|].
    destruct (match info_last k (fetch (w_infos w) le) with Some p => Some p | None => info_last k (fetch (w_infos w) la) end)
      as [p|]; [|reflexivity].
    destruct (i_getter p) as [g|]; [|reflexivity]. destruct (binds 1 (g_params g)); [|reflexivity].
    replace (answer (read f w' o) (g_run g)) with (answer (read f w o) (g_run g)); [reflexivity|].
    induction (g_run g) as [r|j next IHn]; simpl; [reflexivity|]. now rewrite IH.
  Qed.

  (** ** Writing attributes *)
  Record same_shape (w w' : world) : Prop := mkShape {
    sh_metas : w_metas w' = w_metas w; sh_lists : w_lists w' = w_lists w; sh_names : w_names w' = w_names w;
    sh_classes : w_classes w' = w_classes w; sh_types : w_types w' = w_types w; sh_tags : w_tags w' = w_tags w;
    sh_infos : length (w_infos w') = length (w_infos w);
    sh_objects : map (fun ob => (ob_class ob, ob_meta ob)) (w_objects w') = map (fun ob => (ob_class ob, ob_meta ob)) (w_objects w) }.
  Lemma shape_refl w : same_shape w w. Proof. constructor; reflexivity. Qed.
  Lemma shape_trans w1 w2 w3 : same_shape w1 w2 -> same_shape w2 w3 -> same_shape w1 w3.
  Proof. intros [] []. constructor; congruence. Qed.
  Lemma shape_sym w w' : same_shape w w' -> same_shape w' w.
  Proof. intros []. constructor; congruence. Qed.
  Lemma shape_object w w' o ob : same_shape w w' -> nth_error (w_objects w) o = Some ob ->
    exists ob', nth_error (w_objects w') o = Some ob' /\ ob_meta ob' = ob_meta ob /\ ob_class ob' = ob_class ob.
  Proof.
    intros S E. apply (map_nth_error (fun ob => (ob_class ob, ob_meta ob))) in E. rewrite <- (sh_objects _ _ S) in E.
    rewrite nth_error_map in E. destruct (nth_error (w_objects w') o) as [ob'|]; [|discriminate].
    injection E as E1 E2. eauto.
  Qed.
  Lemma shape_in_meta w w' a x : same_shape w w' -> in_meta w a x -> in_meta w' a x.
  Proof.
    intros S I. destruct S. destruct I; [constructor | eapply im_names | eapply im_list | eapply im_info]; eauto; congruence.
  Qed.
  Lemma shape_of_object w w' o x : same_shape w w' -> of_object w o x -> of_object w' o x.
  Proof.
    intros S (ob & E & I). destruct (shape_object w w' o ob S E) as (ob' & E' & M & _). exists ob'. split; auto.
    destruct I as [I|I]; auto. right. rewrite M. eapply shape_in_meta; eauto.
  Qed.
  Lemma shape_of_class w w' x : same_shape w w' -> of_class w x -> of_class w' x.
  Proof.
    intros S (c & k & a & E & C & I). exists c, k, a. rewrite (sh_classes _ _ S). repeat split; auto. eapply shape_in_meta; eauto.
  Qed.
  Lemma shape_length w w' : same_shape w w' -> length (w_objects w') = length (w_objects w).
  Proof. intros S. pose proof (f_equal (@length _) (sh_objects _ _ S)) as H. now rewrite !map_length in H. Qed.
  Lemma shape_sound w w' : same_shape w w' -> sound w -> sound w'.
  Proof.
    intros S (A & B & C & D). destruct S as [S1 S2 S3 S4 _ _ S7 S8]. unfold sound.
    rewrite S1, S2, S3, S4, S7. repeat split; auto.
    apply Forall_forall. intros ob I. apply (in_map (fun ob => (ob_class ob, ob_meta ob))) in I. rewrite S8 in I.
    apply in_map_iff in I as (ob' & E & I). injection E as E1 E2. rewrite <- E1, <- E2.
    rewrite Forall_forall in A. now apply A.
  Qed.
  Lemma shape_apart w w' : same_shape w w' -> apart w -> apart w'.
  Proof.
    intros S (A & B & C). split; [eapply shape_sound; eauto|]. apply shape_sym in S. split.
    - intros o1 o2 x H1 H2. eapply B; eapply shape_of_object; eauto.
    - intros o x H1 H2. eapply C; [eapply shape_of_object | eapply shape_of_class]; eauto.
  Qed.

  Definition own (w : world) (o : nat) (x : thing) : Prop :=
    x = ThObject o \/ exists a, x = ThInfo a /\ of_object w o x.
  Definition wrote (o : nat) (w w' : world) : Prop := same_shape w w' /\ changes w w' (own w o).
  Lemma wrote_refl o w : wrote o w w. Proof. split; [apply shape_refl | apply changes_refl]. Qed.
  Lemma wrote_trans o w1 w2 w3 : wrote o w1 w2 -> wrote o w2 w3 -> wrote o w1 w3.
  Proof.
    intros [A B] [C D]. split; [eapply shape_trans; eauto|]. eapply changes_trans_same; eauto.
    eapply changes_weaken; [exact D|]. intros x [->|(a & -> & H)]; [now left|]. right. exists a. split; auto.
    eapply shape_of_object; [apply shape_sym|]; eauto.
  Qed.
  Lemma set_dict_wrote w o k v : wrote o w (set_dict w o k v).
  Proof.
    unfold set_dict. split.
    - constructor; try reflexivity. simpl. apply nth_error_ext. intros i. rewrite !nth_error_map, update_at_nth.
      destruct (Nat.eqb o i); auto. now destruct (nth_error (w_objects w) i).
    - constructor; simpl; auto.
      + intros i L N. rewrite update_at_nth. destruct (Nat.eqb_spec o i); auto. subst. exfalso. apply N. now left.
      + rewrite update_at_length. auto 10.
  Qed.
  Lemma set_info_wrote w o a f : of_object w o (ThInfo a) -> wrote o w (set_infos w (update_at a f (w_infos w))).
  Proof.
    intros H. split.
    - constructor; try reflexivity. simpl. apply update_at_length.
    - constructor; simpl; auto.
      + intros i L N. rewrite update_at_nth. destruct (Nat.eqb_spec a i); auto. subst. exfalso. apply N. right. eauto.
      + rewrite update_at_length. auto 10.
  Qed.
  Lemma addr_first_in infos k l a : addr_first (V := V) (T := T) infos k l = Some a ->
    In a l /\ exists p, nth_error infos a = Some p /\ i_name p = k.
  Proof. clear none is_none.
    induction l as [|b l IH]; simpl; [discriminate|]. destruct (nth_error infos b) as [p|] eqn:E.
    - destruct (name_eqb (i_name p) k) eqn:N.
      + intros [= ->]. apply name_eqb_eq in N. eauto.
      + intros H. apply IH in H. tauto.
    - intros H. apply IH in H. tauto.
  Qed.
  Lemma in_list_at w l a : In a (list_at w l) -> exists x, nth_error (w_lists w) l = Some x /\ In a x.
  Proof.
    unfold list_at. destruct (nth_error (w_lists w) l) as [x|] eqn:E.
    - rewrite (nth_nth_error _ _ _ _ E). eauto.
    - rewrite nth_overflow by now apply nth_error_None. intros [].
  Qed.
  Lemma in_list_of_object w o ob m l a : nth_error (w_objects w) o = Some ob -> nth_error (w_metas w) (ob_meta ob) = Some m ->
    l = m_adapted m \/ l = m_extended m -> In a (list_at w l) -> of_object w o (ThInfo a).
  Proof. intros E M L I. apply in_list_at in I as (x & X & I). exists ob. split; auto. right. eapply im_info; eauto. Qed.
  Lemma perform_wrote o ask put w x : (forall w k v, wrote o w (fst (put w k v))) ->
    wrote o w (fst (perform (V := V) (T := T) ask put w x)).
  Proof.
    intros P. revert w; induction x as [r|k next IH|k v next IH]; intros w; simpl; [apply wrote_refl | apply IH |].
    specialize (P w k v). destruct (put w k v) as [w' r]. simpl in P. eapply wrote_trans; [exact P | apply IH].
  Qed.
  Lemma write_wrote f w o k v : wrote o w (fst (write f w o k v)).
  Proof.
    revert w k v; induction f as [|f IH]; intros w k v; simpl; [apply wrote_refl|].
    destruct (nth_error (w_objects w) o) as [ob|] eqn:E; [|apply wrote_refl].
    destruct (dict_get (ob_dict ob) k); [apply set_dict_wrote|].
    destruct (nth_error (w_metas w) (ob_meta ob)) as [m|] eqn:M; [|apply wrote_refl].
    destruct (match addr_first (w_infos w) k (list_at w (m_extended m)) with
              | Some a => Some a | None => addr_first (w_infos w) k (list_at w (m_adapted m)) end) as [a|] eqn:A;
      [|apply set_dict_wrote].
    assert (Ha : of_object w o (ThInfo a)).
    { destruct (addr_first (w_infos w) k (list_at w (m_extended m))) eqn:A1.
      - injection A as ->. apply addr_first_in in A1 as [A1 _]. apply (in_list_of_object w o ob m (m_extended m)); auto.
      - apply addr_first_in in A as [A _]. apply (in_list_of_object w o ob m (m_adapted m)); auto. }
    destruct (nth_error (w_infos w) a) as [p|]; [|apply wrote_refl].
    destruct (i_setter p) as [s|].
    - destruct (binds 2 (s_params s)); [|apply wrote_refl]. apply perform_wrote. auto.
    - destruct (i_getter p); [apply wrote_refl|].
      destruct (cast_opt (i_type p) v); [|apply wrote_refl]. simpl. now apply set_info_wrote.
  Qed.

  (** ** What belongs to whom after a change *)
  Lemma in_meta_same w w' X a : sound w -> changes w w' X -> a < length (w_metas w) ->
    (forall x, in_meta w a x -> ~ X x) -> forall x, in_meta w' a x <-> in_meta w a x.
  Proof.
    intros S C L D.
    assert (M := L). apply nth_error_Some in M. destruct (nth_error (w_metas w) a) as [m|] eqn:E; [|congruence]. clear M.
    assert (E' : nth_error (w_metas w') a = Some m).
    { rewrite (ch_metas _ _ _ C); auto. apply D. constructor. }
    assert (LL : forall l, l = m_adapted m \/ l = m_extended m -> nth_error (w_lists w') l = nth_error (w_lists w) l).
    { intros l Hl. destruct (sound_meta w a m S E) as (_ & (la & A1 & _) & (le & A2 & _)).
      apply (ch_lists _ _ _ C); [destruct Hl; subst; eapply nth_error_lt; eauto|]. apply D. eapply im_list; eauto. }
    intros x. split; intros I; destruct I as [|m0 H0|m0 l H0 H1|m0 l y i H0 H1 H2 H3].
    - constructor.
    - assert (m0 = m) by congruence. subst. now constructor.
    - assert (m0 = m) by congruence. subst. now apply (im_list w a m).
    - assert (m0 = m) by congruence. subst. apply (im_info w a m l y i); auto. now rewrite <- LL.
    - constructor.
    - assert (m0 = m) by congruence. subst. now constructor.
    - assert (m0 = m) by congruence. subst. now apply (im_list w' a m).
    - assert (m0 = m) by congruence. subst. apply (im_info w' a m l y i); auto. now rewrite LL.
  Qed.
  Lemma of_object_same w w' X o : sound w -> changes w w' X -> o < length (w_objects w) ->
    (forall x, of_object w o x -> ~ X x) -> forall x, of_object w' o x <-> of_object w o x.
  Proof.
    intros S C L D x.
    assert (M := L). apply nth_error_Some in M. destruct (nth_error (w_objects w) o) as [ob|] eqn:E; [|congruence]. clear M.
    assert (E' : nth_error (w_objects w') o = Some ob).
    { rewrite (ch_objects _ _ _ C); auto. apply D. exists ob. auto. }
    assert (I : forall x, in_meta w' (ob_meta ob) x <-> in_meta w (ob_meta ob) x).
    { apply (in_meta_same w w' X); auto.
      - destruct S as (S0 & _). destruct (Forall_nth _ _ _ _ S0 E). assumption.
      - intros y Hy. apply D. exists ob. auto. }
    split; intros (b & B1 & B2); exists ob; (split; [assumption|]); assert (b = ob) by congruence; subst b;
      (destruct B2 as [B2|B2]; [now left | right; now apply I]).
  Qed.
  Lemma of_class_same w w' X : sound w -> changes w w' X -> length (w_classes w') = length (w_classes w) ->
    (forall x, of_class w x -> ~ X x) -> forall x, of_class w' x <-> of_class w x.
  Proof.
    intros S C L D x. assert (CE : forall c, nth_error (w_classes w') c = nth_error (w_classes w) c).
    { intros c. destruct (Nat.lt_ge_cases c (length (w_classes w))) as [H|H]; [now apply (ch_classes _ _ _ C)|].
      rewrite (proj2 (nth_error_None _ _)), (proj2 (nth_error_None _ _)); auto. now rewrite L. }
    assert (I : forall c k a, nth_error (w_classes w) c = Some k -> c_meta k = Some a ->
                forall x, in_meta w' a x <-> in_meta w a x).
    { intros c k a H1 H2. apply (in_meta_same w w' X); auto.
      - destruct S as (_ & S0 & _). destruct (Forall_nth _ _ _ _ S0 H1) as [H _]. auto.
      - intros y Hy. apply D. exists c, k, a. auto. }
    split; intros (c & k & a & H1 & H2 & H3); exists c, k, a; (split; [|split; [assumption|]]);
      [congruence | apply (I c k a); [congruence|assumption|assumption] | congruence | apply (I c k a); [congruence|assumption|assumption]].
  Qed.
  Definition old (w : world) (x : thing) : Prop :=
    match x with
    | ThObject i => i < length (w_objects w) | ThMeta i => i < length (w_metas w) | ThNames i => i < length (w_names w)
    | ThList i => i < length (w_lists w) | ThInfo i => i < length (w_infos w)
    end.
  Lemma in_meta_old w a x : sound w -> a < length (w_metas w) -> in_meta w a x -> old w x.
  Proof.
    intros S L I. destruct I as [|m H0|m l H0 H1|m l y i H0 H1 H2 H3]; simpl; auto;
      destruct (sound_meta w a m S H0) as ((n & N) & (la & A1 & A2) & (le & E1 & E2)).
    - eapply nth_error_lt; eauto.
    - destruct H1; subst; eapply nth_error_lt; eauto.
    - rewrite Forall_forall in A2, E2. destruct H1; subst l; [apply A2 | apply E2]; congruence.
  Qed.
  Lemma of_object_old w o x : sound w -> of_object w o x -> old w x.
  Proof.
    intros S (ob & E & [->|I]); [simpl; eapply nth_error_lt; eauto|]. eapply in_meta_old; eauto.
    destruct S as (S0 & _). destruct (Forall_nth _ _ _ _ S0 E). assumption.
  Qed.
  Lemma of_class_old w x : sound w -> of_class w x -> old w x.
  Proof.
    intros S (c & k & a & H1 & H2 & H3). eapply in_meta_old; eauto.
    destruct S as (_ & S0 & _). destruct (Forall_nth _ _ _ _ S0 H1) as [H _]. auto.
  Qed.

  (** ** New instances *)
  Lemma new_object_shape w c w' o : new_object w c = Ok (w', o) ->
    exists a m ads exs, class_meta w c = Some a /\ nth_error (w_metas w) a = Some m
    /\ copy_all V T cast is_none w (list_at w (m_adapted m)) = Ok ads /\ copy_all V T cast is_none w (list_at w (m_extended m)) = Ok exs
    /\ o = length (w_objects w)
    /\ w' = mkWorld (w_infos w ++ ads ++ exs) (w_names w ++ [names_at w (m_names m)])
              (w_lists w ++ [seq (length (w_infos w)) (length ads); seq (length (w_infos w) + length ads) (length exs)])
              (w_metas w ++ [mkMeta (length (w_names w)) (length (w_lists w)) (S (length (w_lists w)))]) (w_classes w)
              (w_objects w ++ [mkObject c (length (w_metas w)) []]) (w_types w) (w_tags w).
  Proof.
    unfold Model_Class.new_object. destruct (class_meta w c) as [a|]; [|discriminate].
    destruct (nth_error (w_metas w) a) as [m|] eqn:M; [|discriminate].
    destruct (copy_all V T cast is_none w (list_at w (m_adapted m))) as [ads|] eqn:A; simpl; [|discriminate].
    destruct (copy_all V T cast is_none w (list_at w (m_extended m))) as [exs|] eqn:E; simpl; [|discriminate].
    intros [= <- <-]. exists a, m, ads, exs. auto 10.
  Qed.
  Lemma class_meta_range w c a : class_meta w c = Some a -> c < length (w_classes w).
  Proof.
    unfold class_meta, ancestors. destruct (nth_error (w_classes w) c) eqn:E; [|discriminate]. intros _.
    eapply nth_error_lt; eauto.
  Qed.
  Lemma Forall_app_one {A} (P : A -> Prop) l x : Forall P l -> P x -> Forall P (l ++ [x]).
  Proof. intros. apply Forall_app. auto. Qed.
  Lemma new_object_ok w c w' o : sound w -> new_object w c = Ok (w', o) ->
    o = length (w_objects w) /\ changes w w' (fun _ => False) /\ sound w' /\ w_classes w' = w_classes w
    /\ length (w_objects w') = S o /\ (forall x, of_object w' o x -> ~ old w x) /\ w_types w' = w_types w.
  Proof.
    intros SD H. pose proof H as H0. apply new_object_shape in H as (a & m & ads & exs & CM & M & _ & _ & -> & ->).
    apply class_meta_range in CM. split; [reflexivity|]. split; [|split; [|split; [|split; [|split]]]]; auto.
    - constructor; simpl; intros; rewrite ?app_length; simpl; try reflexivity; try now rewrite nth_error_app_old. lia.
    - destruct SD as (S1 & S2 & S3 & S4). unfold sound. simpl. rewrite !app_length. simpl. split; [|split; [|split]].
      + apply Forall_app_one; [|simpl; lia]. eapply Forall_impl; [|exact S1]. simpl. intros; lia.
      + eapply Forall_impl; [|exact S2]. simpl. intros k [K1 K2]. split; auto. intros b Hb. apply K1 in Hb. lia.
      + apply Forall_app_one; [|simpl; lia]. eapply Forall_impl; [|exact S3]. simpl. intros; lia.
      + apply Forall_app. split.
        * eapply Forall_impl; [|exact S4]. simpl. intros l Hl. eapply Forall_impl; [|exact Hl]. simpl. intros; lia.
        * repeat constructor; apply Forall_forall; intros i Hi; apply in_seq in Hi; lia.
    - simpl. rewrite app_length. simpl. lia.
    - intros x (ob & E & I). simpl in E. rewrite nth_error_app2, Nat.sub_diag in E by lia. simpl in E. injection E as <-.
      simpl in I. destruct I as [->|I]; [simpl; lia|].
      assert (ME : nth_error (w_metas w ++ [mkMeta (length (w_names w)) (length (w_lists w)) (S (length (w_lists w)))])
                     (length (w_metas w)) = Some (mkMeta (length (w_names w)) (length (w_lists w)) (S (length (w_lists w))))).
      { now rewrite nth_error_app2, Nat.sub_diag by lia. }
      destruct I as [|m0 H1|m0 l H1 H2|m0 l y i H1 H2 H3 H4]; simpl; try lia; simpl in H1; rewrite ME in H1; injection H1 as <-;
        simpl in *; try lia.
      destruct H2 as [->|H2].
      + rewrite nth_error_app2, Nat.sub_diag in H3 by lia. simpl in H3. injection H3 as <-. apply in_seq in H4. lia.
      + subst l. rewrite nth_error_app2 in H3 by lia. replace (S (length (w_lists w)) - length (w_lists w)) with 1 in H3 by lia.
        simpl in H3. injection H3 as <-. apply in_seq in H4. lia.
  Qed.
  (** A world that gains one instance made of new things stays apart. *)
  Lemma apart_grow w w' : apart w -> sound w' -> changes w w' (fun _ => False) -> w_classes w' = w_classes w ->
    length (w_objects w') = S (length (w_objects w)) ->
    (forall x, of_object w' (length (w_objects w)) x -> ~ old w x) -> apart w'.
  Proof. clear cast none is_none.
    intros (S & A & B) S' C CL L F. split; auto.
    assert (OS : forall o x, o < length (w_objects w) -> of_object w' o x <-> of_object w o x).
    { intros o x Lo. apply (of_object_same w w' (fun _ => False)); auto. }
    assert (CS : forall x, of_class w' x <-> of_class w x).
    { apply (of_class_same w w' (fun _ => False)); auto. now rewrite CL. }
    assert (R : forall o x, of_object w' o x -> o < length (w_objects w) \/ o = length (w_objects w)).
    { intros o x (ob & E & _). apply nth_error_lt in E. lia. }
    split.
    - intros o1 o2 x H1 H2. destruct (R _ _ H1) as [R1|R1], (R _ _ H2) as [R2|R2]; subst; auto.
      + apply (A o1 o2 x); now apply OS.
      + apply F in H2. exfalso. apply H2. apply OS in H1; auto. eapply of_object_old; eauto.
      + apply F in H1. exfalso. apply H1. apply OS in H2; auto. eapply of_object_old; eauto.
    - intros o x H1 H2. apply CS in H2. destruct (R _ _ H1) as [R1|R1].
      + apply OS in H1; auto. now apply (B o x).
      + subst. apply F in H1. apply H1. eapply of_class_old; eauto.
  Qed.
  Lemma in_turn_wrote o one w l : (forall w k v, wrote o w (fst (one w k v))) ->
    wrote o w (fst (in_turn (V := V) (T := T) one w l)).
  Proof.
    intros P. revert w; induction l as [|[k v] l IH]; intros w; simpl; [apply wrote_refl|].
    specialize (P w k v). destruct (one w k v) as [w' [u|e]]; simpl in *; auto. eapply wrote_trans; [exact P | apply IH].
  Qed.
  Lemma init_wrote f w o args kw : wrote o w (fst (init f w o args kw)).
  Proof.
    unfold Model_Class.init. destruct (nth_error (w_objects w) o) as [ob|]; [|apply wrote_refl].
    destruct (nth_error (w_metas w) (ob_meta ob)) as [m|]; [|apply wrote_refl].
    destruct (bind_args _ _ _); [|apply wrote_refl]. apply in_turn_wrote. intros w0 k v.
    destruct (has_key k _); [apply write_wrote | apply wrote_refl].
  Qed.
  Lemma make_ok f w c args kw w' o : sound w -> make f w c args kw = Ok (w', o) ->
    o = length (w_objects w) /\ changes w w' (fun _ => False) /\ sound w' /\ w_classes w' = w_classes w
    /\ length (w_objects w') = S o /\ (forall x, of_object w' o x -> ~ old w x) /\ w_types w' = w_types w.
  Proof.
    intros S. unfold Model_Class.make. destruct (new_object w c) as [[w1 o1]|] eqn:N; simpl; [|discriminate].
    apply new_object_ok in N; auto. destruct N as (-> & C & S1 & CL & L & F & TY).
    pose proof (init_wrote f w1 (length (w_objects w)) args kw) as W.
    destruct (init f w1 (length (w_objects w)) args kw) as [w2 [u|e]]; [|discriminate]. simpl in W. intros [= <- <-].
    destruct W as [SH W]. split; [reflexivity|]. split; [|split; [|split; [|split; [|split]]]].
    - destruct C as [C1 C2 C3 C4 C5 C6 C7], W as [W1 W2 W3 W4 W5 W6 W7].
      assert (NF : forall x, old w x -> ~ own w1 (length (w_objects w)) x).
      { intros x Hx [->|(a & -> & Ha)]; [simpl in Hx; lia|]. now apply F in Ha. }
      constructor; try lia.
      + intros i Li _. rewrite W1 by (lia || now apply NF). now apply C1.
      + intros i Li _. rewrite W2 by (lia || now apply NF). now apply C2.
      + intros i Li _. rewrite W3 by (lia || now apply NF). now apply C3.
      + intros i Li _. rewrite W4 by (lia || now apply NF). now apply C4.
      + intros i Li _. rewrite W5 by (lia || now apply NF). now apply C5.
      + intros i Li. rewrite W6 by lia. now apply C6.
    - eapply shape_sound; eauto.
    - rewrite (sh_classes _ _ SH). auto.
    - rewrite (shape_length _ _ SH). auto.
    - intros x Hx. apply F. eapply shape_of_object; [apply shape_sym|]; eauto.
    - rewrite (sh_types _ _ SH). auto.
  Qed.

  (** ** Renaming and adding members *)
  Lemma apart_object w w' X o : apart w -> sound w' -> changes w w' X -> w_classes w' = w_classes w ->
    length (w_objects w') = length (w_objects w) ->
    (forall x, X x -> of_object w o x) ->
    (forall x, of_object w' o x -> of_object w o x \/ (~ of_class w x /\ forall o', o' <> o -> ~ of_object w o' x)) ->
    apart w'.
  Proof.
    intros (S0 & A & B) S' C CL L XO F. split; auto.
    assert (OS : forall o' x, o' <> o -> of_object w' o' x -> of_object w o' x).
    { intros o' x N H. apply (of_object_same w w' X); auto.
      - destruct H as (ob & E & _). apply nth_error_lt in E. now rewrite L in E.
      - intros y Hy Xy. apply N. apply (A o' o y); auto. }
    assert (CS : forall x, of_class w' x -> of_class w x).
    { intros x. apply (of_class_same w w' X); auto; [now rewrite CL|]. intros y Hy Xy. eapply B; eauto. }
    split.
    - intros o1 o2 x H1 H2. destruct (Nat.eq_dec o1 o) as [->|N1], (Nat.eq_dec o2 o) as [->|N2]; auto.
      + apply OS in H2; auto. apply F in H1. destruct H1 as [H1|[_ H1]]; [now apply (A o o2 x)|]. now apply H1 in H2.
      + apply OS in H1; auto. apply F in H2. destruct H2 as [H2|[_ H2]]; [now apply (A o1 o x)|]. now apply H2 in H1.
      + apply OS in H1, H2; auto. now apply (A o1 o2 x).
    - intros o1 x H1 H2. apply CS in H2. destruct (Nat.eq_dec o1 o) as [->|N1].
      + apply F in H1. destruct H1 as [H1|[H1 _]]; auto. eapply B; eauto.
      + apply OS in H1; auto. eapply B; eauto.
  Qed.
  Lemma apart_class w w' X : apart w -> sound w' -> changes w w' X -> length (w_objects w') = length (w_objects w) ->
    (forall x, X x -> no_object w x) -> (forall x, of_class w' x -> no_object w x) -> apart w'.
  Proof.
    intros (S0 & A & B) S' C L XO F. split; auto.
    assert (OS : forall o x, of_object w' o x -> of_object w o x).
    { intros o x H. apply (of_object_same w w' X); auto.
      - destruct H as (ob & E & _). apply nth_error_lt in E. now rewrite L in E.
      - intros y Hy Xy. now apply XO in Hy. }
    split; [intros o1 o2 x H1 H2; apply (A o1 o2 x); auto|].
    intros o x H1 H2. apply OS in H1. now apply F in H1.
  Qed.

  Lemma rename_changes w o l : changes w (rename w o l) (fun x => exists ob, nth_error (w_objects w) o = Some ob /\ x = ThMeta (ob_meta ob)).
  Proof. clear cast none is_none.
    unfold rename. destruct (nth_error (w_objects w) o) as [ob|] eqn:E; [|apply changes_refl].
    constructor; simpl; intros; rewrite ?app_length, ?update_at_length; simpl; try reflexivity; try now rewrite nth_error_app_old.
    - rewrite update_at_nth. destruct (Nat.eqb_spec (ob_meta ob) a); auto. subst. exfalso. eauto.
    - lia.
  Qed.
  Lemma rename_ok w o l : apart w -> apart (rename w o l) /\ length (w_objects (rename w o l)) = length (w_objects w)
    /\ w_classes (rename w o l) = w_classes w /\ w_types (rename w o l) = w_types w.
  Proof. clear cast none is_none.
    intros A. pose proof (rename_changes w o l) as C. unfold rename in *. destruct (nth_error (w_objects w) o) as [ob|] eqn:E; [|auto].
    split; [|auto]. pose proof A as (SD & _ & _).
    assert (ML : ob_meta ob < length (w_metas w)).
    { destruct SD as (S0 & _). destruct (Forall_nth _ _ _ _ S0 E). assumption. }
    eapply (apart_object w _ _ o); [exact A | | exact C | reflexivity | reflexivity | | ].
    - destruct SD as (S1 & S2 & S3 & S4). unfold sound. simpl. rewrite !app_length, update_at_length. simpl. repeat split; auto.
      apply update_at_Forall; [|simpl; intros; lia]. eapply Forall_impl; [|exact S3]. simpl. intros; lia.
    - intros x (b & B1 & ->). exists b. split; [congruence|]. right. constructor.
    - intros x (b & B1 & B2). simpl in B1. assert (b = ob) by congruence. subst b. destruct B2 as [->|B2].
      { left. exists ob. auto. }
      destruct B2 as [|m0 H1|m0 k H1 H2|m0 k y i H1 H2 H3 H4]; simpl in *; try rewrite update_at_nth, Nat.eqb_refl in H1;
        try (destruct (nth_error (w_metas w) (ob_meta ob)) as [m|] eqn:M; [|discriminate]; simpl in H1; injection H1 as <-; simpl in *).
      + left. exists ob. split; auto. right. constructor.
      + right. split; [intros H; apply of_class_old in H; auto; simpl in H; lia|].
        intros o' _ H. apply of_object_old in H; auto. simpl in H. lia.
      + left. exists ob. split; auto. right. eapply im_list; eauto.
      + left. exists ob. split; auto. right. eapply im_info; eauto.
  Qed.

  Lemma firstn_in {A} n (l : list A) x : In x (firstn n l) -> In x l.
  Proof. intros H. rewrite <- (firstn_skipn n l). apply in_or_app. auto. Qed.
  Lemma skipn_in {A} n (l : list A) x : In x (skipn n l) -> In x l.
  Proof. intros H. rewrite <- (firstn_skipn n l). apply in_or_app. auto. Qed.
  Lemma in_insert {A} i (x : A) l y : In y (insert_at i x l) -> y = x \/ In y l.
  Proof.
    unfold insert_at. intros H. apply in_app_or in H as [H|[H|H]]; auto; right;
      [eapply firstn_in | eapply skipn_in]; eauto.
  Qed.
  Lemma in_pop {A} i (l : list A) y : In y (pop_at i l) -> In y l.
  Proof. unfold pop_at. intros H. apply in_app_or in H as [H|H]; [eapply firstn_in | eapply skipn_in]; eauto. Qed.
  Lemma attach_shape w t a force w' : attach w t a force = Ok w' ->
    exists m l, target_meta w t = Some m /\ w' = set_lists w (update_at (m_extended m) (fun _ => l) (w_lists w))
    /\ a < length (w_infos w) /\ (forall i, In i l -> i = a \/ In i (list_at w (m_extended m))).
  Proof.
    unfold attach. destruct (target_meta w t) as [m|] eqn:M; [|discriminate].
    destruct (nth_error (w_infos w) a) as [p|] eqn:P; [|discriminate]. apply nth_error_lt in P.
    assert (I1 : forall i n, In i (insert_at n a (list_at w (m_extended m))) -> i = a \/ In i (list_at w (m_extended m))).
    { intros i n. apply in_insert. }
    destruct (info_named _ _ || info_named _ _).
    - destruct force; simpl; [|discriminate]. destruct (info_index _ _ 0) as [j|]; intros [= <-]; eauto 8.
      exists m, (insert_at j a (pop_at j (list_at w (m_extended m)))). repeat split; auto.
      intros i H. apply in_insert in H as [H|H]; auto. right. eapply in_pop; eauto.
    - intros [= <-]. eauto 8.
  Qed.
  Lemma set_list_changes w e l : changes w (set_lists w (update_at e (fun _ => l) (w_lists w))) (fun x => x = ThList e).
  Proof.
    constructor; simpl; intros; rewrite ?update_at_length; try reflexivity; auto 10.
    rewrite update_at_nth. destruct (Nat.eqb_spec e a); auto. subst. exfalso. auto.
  Qed.
  Lemma set_list_in_meta w e l b x : in_meta (set_lists w (update_at e (fun _ => l) (w_lists w))) b x ->
    in_meta w b x \/ exists i m, x = ThInfo i /\ In i l /\ nth_error (w_metas w) b = Some m /\ (e = m_adapted m \/ e = m_extended m).
  Proof.
    intros I. destruct I as [|m H0|m k H0 H1|m k y i H0 H1 H2 H3]; simpl in *.
    - left. constructor.
    - left. now constructor.
    - left. eapply im_list; eauto.
    - rewrite update_at_nth in H2. destruct (Nat.eqb_spec e k).
      + subst k. destruct (nth_error (w_lists w) e); [|discriminate]. simpl in H2. injection H2 as <-. right. eauto 8.
      + left. eapply im_info; eauto.
  Qed.
  Lemma set_list_sound w e l : sound w -> Forall (fun i => i < length (w_infos w)) l ->
    sound (set_lists w (update_at e (fun _ => l) (w_lists w))).
  Proof.
    intros (S1 & S2 & S3 & S4) H. unfold sound. simpl. rewrite update_at_length. repeat split; auto.
    apply update_at_Forall; auto.
  Qed.
  Lemma target_object w o m : target_meta w (TObject o) = Some m ->
    exists ob, nth_error (w_objects w) o = Some ob /\ nth_error (w_metas w) (ob_meta ob) = Some m.
  Proof. simpl. destruct (nth_error (w_objects w) o); [eauto|discriminate]. Qed.
  Lemma first_some_in {A} (l : list (option A)) x : first_some l = Some x -> In (Some x) l.
  Proof. induction l as [|[y|] l IH]; simpl; [discriminate | intros [= ->]; auto | auto]. Qed.
  Lemma class_meta_holder w c a : class_meta w c = Some a ->
    exists c' k, nth_error (w_classes w) c' = Some k /\ c_meta k = Some a.
  Proof.
    unfold class_meta. intros H. apply first_some_in in H. apply in_map_iff in H as (k & K & I). unfold ancestors in I.
    destruct (nth_error (w_classes w) c) as [k0|]; [|destruct I]. apply in_flat_map in I as (c' & _ & I).
    destruct (nth_error (w_classes w) c') as [k1|] eqn:E; [|destruct I]. destruct I as [->|[]]. eauto.
  Qed.
  Lemma target_class w c m : target_meta w (TClass c) = Some m ->
    exists a c' k, class_meta w c = Some a /\ nth_error (w_classes w) c' = Some k /\ c_meta k = Some a /\ nth_error (w_metas w) a = Some m.
  Proof.
    simpl. destruct (class_meta w c) as [a|] eqn:E; [|discriminate]. intros H.
    destruct (class_meta_holder w c a E) as (c' & k & H1 & H2). exists a, c', k. auto.
  Qed.
  Lemma attach_ok w t a force w' : apart w -> clean w (PAttach t a force) -> attach w t a force = Ok w' ->
    apart w' /\ (exists X, changes w w' X /\ forall o, o < length (w_objects w) -> ~ touches w (PAttach t a force) o ->
                 forall x, of_object w o x -> ~ X x)
    /\ w_classes w' = w_classes w /\ length (w_objects w') = length (w_objects w) /\ w_types w' = w_types w.
  Proof.
    intros A CN H. apply attach_shape in H as (m & l & M & -> & La & Hl).
    pose proof (set_list_changes w (m_extended m) l) as C. pose proof A as (SD & U & D).
    assert (SL : sound (set_lists w (update_at (m_extended m) (fun _ => l) (w_lists w)))).
    { apply set_list_sound; auto. apply Forall_forall. intros i Hi. apply Hl in Hi as [->|Hi]; auto.
      apply in_list_at in Hi as (y & Y & Hi). destruct SD as (_ & _ & _ & S4).
      pose proof (Forall_nth _ _ _ _ S4 Y) as F. rewrite Forall_forall in F. auto. }
    destruct t as [o|c].
    - apply target_object in M as (ob & E & M). simpl in CN. destruct CN as [CN1 CN2].
      assert (OL : of_object w o (ThList (m_extended m))) by (exists ob; split; auto; right; eapply im_list; eauto).
      split; [|split; [|auto]].
      + eapply (apart_object w _ _ o); [exact A | exact SL | exact C | reflexivity | reflexivity | intros x ->; exact OL |].
        intros x (b & B1 & B2). simpl in B1. assert (b = ob) by congruence. subst b. destruct B2 as [->|B2].
        { left. exists ob. auto. }
        apply set_list_in_meta in B2 as [B2|(i & m' & -> & Hi & _ & _)]; [left; exists ob; auto|].
        apply Hl in Hi as [->|Hi]; [right; auto|]. left. eapply in_list_of_object; eauto.
      + eexists. split; [exact C|]. simpl. intros o' L' N x Hx ->. apply N. symmetry. eapply U; eauto.
    - apply target_class in M as (b & c' & k & K0 & K1 & K2 & M). simpl in CN.
      assert (CL : of_class w (ThList (m_extended m))).
      { exists c', k, b. split; auto. split; auto. eapply im_list; eauto. }
      split; [|split; [|auto]].
      + eapply (apart_class w); [exact A | exact SL | exact C | reflexivity | |].
        * intros x -> o Ho. now apply D in Ho.
        * intros x (c1 & k1 & b1 & H1 & H2 & H3). simpl in H1.
          apply set_list_in_meta in H3 as [H3|(i & m' & -> & Hi & _ & _)].
          -- intros o Ho. eapply D; eauto. exists c1, k1, b1. auto.
          -- apply Hl in Hi as [->|Hi]; auto. intros o Ho. apply (D o _ Ho). exists c', k, b. split; auto. split; auto.
             apply in_list_at in Hi as (y & Y & Hi). eapply im_info; eauto.
      + eexists. split; [exact C|]. intros o L' _ x Hx ->. now apply (D o _ Hx).
  Qed.

  (** ** Declaring classes *)
  (** What declaring has done so far: only the given lists [G] and new ones differ, and they hold no instance's property. *)
  Record declaring (w w' : world) (G : thing -> Prop) : Prop := mkDeclaring {
    de_infos : w_infos w' = w_infos w; de_metas : w_metas w' = w_metas w; de_classes : w_classes w' = w_classes w;
    de_objects : w_objects w' = w_objects w; de_types : w_types w' = w_types w; de_tags : w_tags w' = w_tags w;
    de_names : forall a, a < length (w_names w) -> ~ G (ThNames a) -> nth_error (w_names w') a = nth_error (w_names w) a;
    de_lists : forall a, a < length (w_lists w) -> ~ G (ThList a) -> nth_error (w_lists w') a = nth_error (w_lists w) a;
    de_more : length (w_names w) <= length (w_names w') /\ length (w_lists w) <= length (w_lists w');
    de_free : forall l x i, nth_error (w_lists w') l = Some x -> (G (ThList l) \/ length (w_lists w) <= l) -> In i x ->
              i < length (w_infos w) /\ no_object w (ThInfo i) }.
  Definition good_names (w w' : world) (G : thing -> Prop) (a : nat) : Prop :=
    a < length (w_names w') /\ (G (ThNames a) \/ length (w_names w) <= a).
  Definition good_list (w w' : world) (G : thing -> Prop) (a : nat) : Prop :=
    a < length (w_lists w') /\ (G (ThList a) \/ length (w_lists w) <= a).
  Lemma names_or_new_ok w w0 G a w1 n : declaring w w0 G -> (forall i, a = Some i -> good_names w w0 G i) ->
    names_or_new w0 a = (w1, n) ->
    declaring w w1 G /\ good_names w w1 G n /\ length (w_lists w0) <= length (w_lists w1) /\ length (w_names w0) <= length (w_names w1).
  Proof. clear cast none is_none.
    intros D Ha H.
    assert (N : (set_names w0 (w_names w0 ++ [[]]), length (w_names w0)) = (w1, n) ->
                declaring w w1 G /\ good_names w w1 G n /\ length (w_lists w0) <= length (w_lists w1) /\ length (w_names w0) <= length (w_names w1)).
    { intros [= <- <-]. destruct D as [D1 D2 D3 D4 D5 D6 D7 D8 D9 D10]. split; [|split; [|simpl; rewrite app_length; lia]].
      - constructor; simpl; auto; [|rewrite app_length; simpl; lia].
        intros b L K. rewrite nth_error_app_old by lia. auto.
      - split; simpl; [rewrite app_length; simpl; lia | right; lia]. }
    unfold names_or_new in H. destruct a as [i|]; [|auto]. destruct (names_at w0 i); [auto|]. injection H as <- <-. auto 10.
  Qed.
  Lemma list_or_new_ok w w0 G a w1 n : declaring w w0 G -> (forall i, a = Some i -> good_list w w0 G i) ->
    list_or_new w0 a = (w1, n) ->
    declaring w w1 G /\ good_list w w1 G n /\ length (w_lists w0) <= length (w_lists w1) /\ w_names w1 = w_names w0.
  Proof. clear cast none is_none.
    intros D Ha H.
    assert (N : (set_lists w0 (w_lists w0 ++ [[]]), length (w_lists w0)) = (w1, n) ->
                declaring w w1 G /\ good_list w w1 G n /\ length (w_lists w0) <= length (w_lists w1) /\ w_names w1 = w_names w0).
    { intros [= <- <-]. destruct D as [D1 D2 D3 D4 D5 D6 D7 D8 D9 D10]. split; [|split; [|simpl; rewrite app_length; split; [lia|reflexivity]]].
      - constructor; simpl; auto; [|rewrite app_length; simpl; lia|].
        + intros b L K. rewrite nth_error_app_old by lia. auto.
        + intros l x i E Gl I. destruct (Nat.lt_ge_cases l (length (w_lists w0))) as [L|L].
          * rewrite nth_error_app_old in E by auto. eapply D10; eauto.
          * rewrite nth_error_app2 in E by auto. destruct (l - length (w_lists w0)) as [|[|?]]; simpl in E; [injection E as <-; destruct I | discriminate..].
      - split; simpl; [rewrite app_length; simpl; lia | right; lia]. }
    unfold list_or_new in H. destruct a as [i|]; [|auto]. destruct (list_at w0 i); [auto|]. injection H as <- <-. auto.
  Qed.
  Lemma extend_names_ok w w0 G a l : declaring w w0 G -> good_names w w0 G a ->
    declaring w (extend_names w0 a l) G /\ length (w_names (extend_names w0 a l)) = length (w_names w0).
  Proof. clear cast none is_none.
    intros [D1 D2 D3 D4 D5 D6 D7 D8 D9 D10] [A1 A2]. unfold extend_names. split; [|simpl; apply update_at_length].
    constructor; simpl; auto; [|rewrite update_at_length; lia].
    intros b L K. rewrite update_at_nth. destruct (Nat.eqb_spec a b); auto. subst. exfalso. destruct A2; [auto|lia].
  Qed.
  Lemma extend_list_ok w w0 G a l : declaring w w0 G -> good_list w w0 G a ->
    (forall i, In i l -> i < length (w_infos w) /\ no_object w (ThInfo i)) ->
    declaring w (extend_list w0 a l) G /\ length (w_lists (extend_list w0 a l)) = length (w_lists w0).
  Proof. clear cast none is_none.
    intros [D1 D2 D3 D4 D5 D6 D7 D8 D9 D10] [A1 A2] Hl. unfold extend_list. split; [|simpl; apply update_at_length].
    constructor; simpl; auto; [|rewrite update_at_length; lia|].
    - intros b L K. rewrite update_at_nth. destruct (Nat.eqb_spec a b); auto. subst. exfalso. destruct A2; [auto|lia].
    - intros k x i E Gk I. rewrite update_at_nth in E. destruct (Nat.eqb_spec a k); [|eapply D10; eauto]. subst k.
      destruct (nth_error (w_lists w0) a) as [y|] eqn:Y; [|discriminate]. simpl in E. injection E as <-.
      apply in_app_or in I as [I|I]; auto. eapply D10; eauto.
  Qed.
  (** The properties of a class's list are no instance's, whatever happened to given lists. *)
  Lemma declaring_class_list w w0 G c k a m l : apart w -> declaring w w0 G -> (forall x, G x \/ ~ G x) ->
    nth_error (w_classes w) c = Some k -> c_meta k = Some a -> nth_error (w_metas w) a = Some m ->
    l = m_adapted m \/ l = m_extended m -> forall i, In i (list_at w0 l) -> i < length (w_infos w) /\ no_object w (ThInfo i).
  Proof.
    intros (SD & U & Dj) [D1 D2 D3 D4 D5 D6 D7 D8 D9 D10] GD K1 K2 M L i I. apply in_list_at in I as (x & X & I).
    destruct (Nat.lt_ge_cases l (length (w_lists w))) as [Ll|Ll]; [|eapply D10; eauto].
    destruct (GD (ThList l)) as [g|g]; [eapply D10; eauto|]. rewrite D8 in X by auto.
    assert (OC : of_class w (ThInfo i)) by (exists c, k, a; split; auto; split; auto; eapply im_info; eauto).
    split; [apply of_class_old in OC; auto|]. intros o Ho. now apply (Dj o _ Ho).
  Qed.
  Definition given (d : decl) (x : thing) : Prop :=
    match x with
    | ThList l => d_adapted d = Some l \/ d_extended d = Some l
    | ThNames l => d_names d = Some l
    | _ => False
    end.
  Lemma given_dec d x : given d x \/ ~ given d x.
  Proof. clear none is_none.
    assert (O : forall (a : option nat) l, a = Some l \/ a <> Some l).
    { intros [i|] l; [|right; discriminate]. destruct (Nat.eq_dec i l) as [->|N]; [now left | right; congruence]. }
    destruct x; simpl; auto. destruct (O (d_adapted d) a), (O (d_extended d) a); tauto.
  Qed.
  Definition decl_free (w : world) (d : decl) : Prop :=
    list_free w (d_adapted d) /\ list_free w (d_extended d)
    /\ forall l, d_names d = Some l -> l < length (w_names w) /\ no_object w (ThNames l).
  Lemma given_free w d x : decl_free w d -> given d x -> no_object w x.
  Proof. clear none is_none.
    intros (A & B & C) H. destruct x; simpl in H; try tauto; [now apply C|]. destruct H as [H|H]; [now apply A | now apply B].
  Qed.
  Lemma decorate_ok w d c w' : apart w -> decl_free w d -> decorate w d c = Ok w' ->
    exists wi na ad ex, declaring w wi (given d) /\ good_names w wi (given d) na /\ good_list w wi (given d) ad /\ good_list w wi (given d) ex
    /\ w_infos w' = w_infos w /\ w_names w' = w_names wi /\ w_lists w' = w_lists wi /\ w_metas w' = w_metas w ++ [mkMeta na ad ex]
    /\ w_classes w' = update_at c (fun k => mkClass (c_mro k) (Some (length (w_metas w))) (c_attrs k)) (w_classes w)
    /\ w_objects w' = w_objects w.
  Proof. clear cast none is_none.
    intros A (F1 & F2 & F3). unfold decorate.
    assert (GD := given_dec d).
    assert (D0 : declaring w w (given d)).
    { constructor; auto. intros l x i E Gl I. apply nth_error_lt in E as L. destruct Gl as [Gl|Gl]; [|lia].
      destruct A as ((_ & _ & _ & S4) & _). pose proof (Forall_nth _ _ _ _ S4 E) as FF. rewrite Forall_forall in FF.
      split; auto. simpl in Gl. destruct Gl as [Gl|Gl]; [apply F1 in Gl | apply F2 in Gl]; destruct Gl as (_ & _ & Gl); eauto. }
    destruct (names_or_new w (d_names d)) as [w1 na] eqn:E1.
    apply (names_or_new_ok w w (given d)) in E1; auto.
    2:{ intros i Hi. split; [now apply F3 | now left]. }
    destruct E1 as (D1 & N1 & L1 & M1).
    destruct (list_or_new w1 (d_adapted d)) as [w2 ad] eqn:E2.
    apply (list_or_new_ok w w1 (given d)) in E2; auto.
    2:{ intros i Hi. split; [pose proof (F1 i Hi) as (X & _ & _); lia | left; now left]. }
    destruct E2 as (D2 & N2 & L2 & M2).
    destruct (list_or_new w2 (d_extended d)) as [w3 ex] eqn:E3.
    apply (list_or_new_ok w w2 (given d)) in E3; auto.
    2:{ intros i Hi. split; [pose proof (F2 i Hi) as (X & _ & _); lia | left; now right]. }
    destruct E3 as (D3 & N3 & L3 & M3).
    assert (Na : good_names w w3 (given d) na) by (destruct N1; split; auto; rewrite M3, M2; auto).
    assert (Nd : good_list w w3 (given d) ad) by (destruct N2; split; auto; lia).
    set (r4 := if d_skip d then Ok w3 else _).
    assert (R4 : forall w4, r4 = Ok w4 -> declaring w w4 (given d) /\ good_names w w4 (given d) na /\ good_list w w4 (given d) ad
                 /\ good_list w w4 (given d) ex).
    { unfold r4. destruct (d_skip d); [intros w4 [= <-]; auto|]. destruct (class_meta w3 c) as [a|] eqn:CM; [|discriminate].
      destruct (nth_error (w_metas w3) a) as [m|] eqn:MM; [|discriminate]. intros w4 [= <-].
      apply class_meta_holder in CM as (c' & k & K1 & K2). rewrite (de_classes _ _ _ D3) in K1. rewrite (de_metas _ _ _ D3) in MM.
      destruct (extend_names_ok w w3 (given d) na (names_at w3 (m_names m)) D3 Na) as [X1 X2].
      set (x := extend_names w3 na (names_at w3 (m_names m))) in *.
      assert (Nd' : good_list w x (given d) ad) by (destruct Nd; split; auto).
      destruct (extend_list_ok w x (given d) ad (list_at x (m_adapted m)) X1 Nd') as [Y1 Y2].
      { eapply declaring_class_list; eauto. }
      set (y := extend_list x ad (list_at x (m_adapted m))) in *.
      assert (Ne' : good_list w y (given d) ex) by (destruct N3; split; auto; rewrite Y2; auto).
      destruct (extend_list_ok w y (given d) ex (list_at y (m_extended m)) Y1 Ne') as [Z1 Z2].
      { eapply declaring_class_list; eauto. }
      split; [exact Z1|]. split; [|split].
      - destruct Na. split; auto. change (na < length (w_names x)). rewrite X2. auto.
      - destruct Nd'. split; auto. rewrite Z2, Y2. auto.
      - destruct Ne'. split; auto. now rewrite Z2. }
    destruct r4 as [w4|e]; [|discriminate]. destruct (R4 w4 eq_refl) as (D4 & Na4 & Nd4 & Ne4). clear R4. cbn [bind].
    destruct (list_or_new w4 (Some ad)) as [w5 ad'] eqn:E5.
    apply (list_or_new_ok w w4 (given d)) in E5; auto; [|intros i [= <-]; auto].
    destruct E5 as (D5 & N5 & L5 & M5).
    destruct (list_or_new w5 (Some ex)) as [w6 ex'] eqn:E6.
    apply (list_or_new_ok w w5 (given d)) in E6; auto; [|intros i [= <-]; destruct Ne4; split; auto; lia].
    destruct E6 as (D6 & N6 & L6 & M6). intros [= <-]. exists w6, na, ad', ex'. simpl.
    split; [exact D6|]. split; [destruct Na4; split; auto; rewrite M6, M5; auto|]. split; [destruct N5; split; auto; lia|].
    split; [auto|]. destruct D6 as [X1 X2 X3 X4 _ _ _ _ _ _]. rewrite X1, X2, X3, X4. auto 10.
  Qed.
  Definition add_class w bases attrs : world :=
    mkWorld (w_infos w) (w_names w) (w_lists w) (w_metas w)
      (w_classes w ++ [mkClass (length (w_classes w) :: bases) None attrs]) (w_objects w) (w_types w) (w_tags w).
  Lemma add_class_of_object w bases attrs o x : of_object (add_class w bases attrs) o x <-> of_object w o x.
  Proof.
    split; intros (ob & E & I); exists ob; split; auto; destruct I as [I|I]; auto; right;
      (destruct I as [|m H0|m l H0 H1|m l y i H0 H1 H2 H3]; [constructor | eapply im_names | eapply im_list | eapply im_info]; eauto).
  Qed.
  Lemma add_class_of_class w bases attrs x : of_class (add_class w bases attrs) x -> of_class w x.
  Proof.
    intros (c & k & a & H1 & H2 & H3). simpl in H1. destruct (Nat.lt_ge_cases c (length (w_classes w))) as [L|L].
    - rewrite nth_error_app_old in H1 by auto. exists c, k, a. split; auto. split; auto.
      destruct H3 as [|m G0|m l G0 G1|m l y i G0 G1 G2 G3]; [constructor | eapply im_names | eapply im_list | eapply im_info]; eauto.
    - rewrite nth_error_app2 in H1 by auto. destruct (c - length (w_classes w)) as [|[|?]]; simpl in H1;
        [injection H1 as <-; discriminate | discriminate..].
  Qed.
  Lemma add_class_ok w bases attrs : apart w -> Forall (fun c => c < length (w_classes w)) bases ->
    apart (add_class w bases attrs) /\ changes w (add_class w bases attrs) (fun _ => False).
  Proof. clear cast none is_none.
    intros A B. pose proof A as (SD & U & D).
    assert (C : changes w (add_class w bases attrs) (fun _ => False)).
    { constructor; simpl; intros; rewrite ?app_length; simpl; try reflexivity; try now rewrite nth_error_app_old. lia. }
    split; auto. split; [|split].
    - destruct SD as (S1 & S2 & S3 & S4). unfold sound. simpl. rewrite app_length. simpl. repeat split; auto.
      + eapply Forall_impl; [|exact S1]. simpl. intros; lia.
      + apply Forall_app_one.
        * eapply Forall_impl; [|exact S2]. simpl. intros k [K1 K2]. split; auto. eapply Forall_impl; [|exact K2]. simpl. intros; lia.
        * simpl. split; [discriminate|]. constructor; [lia|]. eapply Forall_impl; [|exact B]. simpl. intros; lia.
    - intros o1 o2 x H1 H2. apply (proj1 (add_class_of_object w bases attrs _ _)) in H1.
      apply (proj1 (add_class_of_object w bases attrs _ _)) in H2. now apply (U o1 o2 x).
    - intros o x H1 H2. apply (proj1 (add_class_of_object w bases attrs _ _)) in H1.
      apply (add_class_of_class w bases attrs) in H2. now apply (D o x).
  Qed.
  Lemma declare_ok w bases attrs d w' c : apart w -> clean w (PClass bases attrs d) -> declare w bases attrs d = Ok (w', c) ->
    apart w' /\ (changes w w' (fun y => match d with Some d => given d y | None => False end))
    /\ w_objects w' = w_objects w /\ c = length (w_classes w).
  Proof. clear cast none is_none.
    intros A [CB CD] H. destruct (add_class_ok w bases attrs A CB) as [A1 C1]. unfold declare in H. fold (add_class w bases attrs) in H.
    destruct d as [d|].
    2:{ injection H as <- <-. split; auto. }
    destruct (decorate (add_class w bases attrs) d (length (w_classes w))) as [w2|] eqn:E; simpl in H; [|discriminate].
    injection H as <- <-. set (w1 := add_class w bases attrs) in *.
    assert (OO : forall o x, of_object w1 o x <-> of_object w o x) by (intros; apply add_class_of_object).
    assert (NO : forall x, no_object w1 x <-> no_object w x).
    { intros x. unfold no_object. split; intros N o Ho; apply (N o); now apply OO. }
    assert (DF : decl_free w1 d).
    { destruct CD as (F1 & F2 & F3). assert (LF : forall a, list_free w a -> list_free w1 a).
      { intros a Fa l Hl. destruct (Fa l Hl) as (X & Y & Z). split; [exact X|]. split; [now apply NO|].
        intros x i Hx Hi. apply NO. eauto. }
      split; auto. split; auto. intros l Hl. destruct (F3 l Hl). split; auto. now apply NO. }
    pose proof (decorate_ok w1 d _ w2 A1 DF E) as (wi & na & ad & ex & Dg & Na & Nd & Ne & H1 & H2 & H3 & H4 & H5 & H6).
    assert (GF : forall x, given d x -> no_object w1 x) by (intros x; now apply given_free).
    destruct Dg as [D1 D2 D3 D4 _ _ D7 D8 D9 D10].
    assert (NTH : nth_error (w_metas w2) (length (w_metas w)) = Some (mkMeta na ad ex)).
    { rewrite H4. change (w_metas w1) with (w_metas w). now rewrite nth_error_app2, Nat.sub_diag by lia. }
    assert (CH : changes w w2 (given d)).
    { constructor.
      - intros o L _. now rewrite H6.
      - intros a L _. rewrite H4. now apply nth_error_app_old.
      - intros a L N. rewrite H2. now apply D7.
      - intros a L N. rewrite H3. now apply D8.
      - intros a L _. now rewrite H1.
      - intros b L. rewrite H5, update_at_nth. destruct (Nat.eqb_spec (length (w_classes w)) b); [lia|]. simpl. now apply nth_error_app_old.
      - rewrite H1, H2, H3, H4, H5, H6, update_at_length, app_length. simpl. rewrite app_length. simpl in *. lia. }
    assert (S2 : sound w2).
    { destruct A1 as ((S1 & S2 & S3 & S4) & _). unfold sound. rewrite H1, H2, H3, H4, H5, H6, update_at_length, app_length.
      change (length [mkMeta na ad ex]) with 1. split; [|split; [|split]].
      - eapply Forall_impl; [|exact S1]. cbv beta. intros; lia.
      - apply update_at_Forall.
        + eapply Forall_impl; [|exact S2]. cbv beta. intros k [K1 K2]. split; auto. intros b Hb. apply K1 in Hb. lia.
        + cbn [c_meta c_mro]. intros k [K1 K2]. split; auto. intros b Hb. injection Hb as <-. change (w_metas w1) with (w_metas w). lia.
      - apply Forall_app_one.
        + eapply Forall_impl; [|exact S3]. cbv beta. intros; lia.
        + destruct Na, Nd, Ne. cbn [m_names m_adapted m_extended]. auto.
      - apply Forall_forall. intros l Il. apply In_nth_error in Il as (j & Hj). apply Forall_forall. intros i Hi.
        destruct (given_dec d (ThList j)) as [g|g]; [eapply D10; eauto|].
        destruct (Nat.lt_ge_cases j (length (w_lists w1))) as [L|L]; [|eapply D10; eauto].
        rewrite D8 in Hj by auto. pose proof (Forall_nth _ _ _ _ S4 Hj) as FF. rewrite Forall_forall in FF. auto. }
    assert (FR : forall l x i, nth_error (w_lists w2) l = Some x -> In i x ->
              (given d (ThList l) \/ length (w_lists w) <= l) -> no_object w (ThInfo i)).
    { intros l x i Hl Hi Hg. apply NO. rewrite H3 in Hl. eapply D10; eauto. }
    split; [|split; [|split]].
    - apply (apart_class w w2 (given d)); auto; [now rewrite H6 | intros x Hx; apply NO; auto |].
      intros x (b & k & a & K1 & K2 & K3). rewrite H5, update_at_nth in K1.
      destruct (Nat.eqb_spec (length (w_classes w)) b) as [<-|Nb].
      + (* the new class *)
        destruct (nth_error (w_classes w1) (length (w_classes w))) as [k0|]; [|discriminate]. simpl in K1. injection K1 as <-.
        simpl in K2. injection K2 as <-.
        assert (SD : sound w) by now destruct A.
        destruct K3 as [|m0 G0|m0 l G0 G1|m0 l y i G0 G1 G2 G3]; try (rewrite NTH in G0; injection G0 as <-; simpl in *).
        * intros o Ho. apply of_object_old in Ho; auto. simpl in Ho. lia.
        * destruct Na as [_ [g|g]]; [apply NO; auto|]. intros o Ho. apply of_object_old in Ho; auto. simpl in *. lia.
        * assert (NL : given d (ThList l) \/ length (w_lists w1) <= l) by (destruct G1; subst l; [apply Nd | apply Ne]).
          destruct NL as [g|g]; [apply NO; auto|]. intros o Ho. apply of_object_old in Ho; auto. simpl in *. lia.
        * assert (NL : given d (ThList l) \/ length (w_lists w1) <= l) by (destruct G1; subst l; [apply Nd | apply Ne]).
          eapply FR; eauto.
      + (* a class from before *)
        simpl in K1. destruct (Nat.lt_ge_cases b (length (w_classes w))) as [L|L].
        2:{ rewrite nth_error_app2 in K1 by auto. destruct (b - length (w_classes w)) as [|?] eqn:Z; [lia|].
            simpl in K1. destruct n; discriminate. }
        rewrite nth_error_app_old in K1 by auto.
        pose proof A as (SD & _ & Dj).
        assert (La : a < length (w_metas w)).
        { destruct SD as (_ & S0 & _). destruct (Forall_nth _ _ _ _ S0 K1) as [K _]. auto. }
        assert (OC : forall y, in_meta w a y -> no_object w y).
        { intros y Hy o Ho. apply (Dj o _ Ho). exists b, k, a. auto. }
        assert (ME : nth_error (w_metas w2) a = nth_error (w_metas w) a) by (rewrite H4; now apply nth_error_app_old).
        destruct K3 as [|m0 G0|m0 l G0 G1|m0 l y i G0 G1 G2 G3]; try rewrite ME in G0.
        * apply OC. constructor.
        * apply OC. now constructor.
        * apply OC. eapply im_list; eauto.
        * destruct (given_dec d (ThList l)) as [g|g]; [eapply FR; eauto|].
          destruct (Nat.lt_ge_cases l (length (w_lists w))) as [Ll|Ll]; [|eapply FR; eauto].
          apply OC. rewrite H3, D8 in G2 by auto. eapply im_info; eauto.
    - exact CH.
    - exact H6.
    - reflexivity.
  Qed.

  (** ** Every operation *)
  Lemma apart_quiet w w' : apart w -> sound w' -> changes w w' (fun _ => False) -> w_classes w' = w_classes w ->
    length (w_objects w') = length (w_objects w) -> apart w'.
  Proof.
    intros A S C CL L. apply (apart_class w w' (fun _ => False)); auto; [intros x []|].
    pose proof A as (SD & _ & D). intros x Hx o Ho. apply (of_class_same w w' (fun _ => False)) in Hx; auto; [|now rewrite CL].
    now apply (D o x).
  Qed.
  (** The class side of what an operation changes: only things in [X] can look different. *)
  Definition fair (w : world) (x : op V T) (X : thing -> Prop) : Prop :=
    (forall o, o < length (w_objects w) -> ~ touches w x o -> forall y, of_object w o y -> ~ X y)
    /\ (forall c m, ~ touches_class w x c -> class_has w c m ->
        forall a k b, nth_error (w_classes w) b = Some k -> c_meta k = Some a -> nth_error (w_metas w) a = Some m ->
        forall y, in_meta w a y -> ~ X y).
  Lemma add_info_changes w r : changes w (fst (add_info w r)) (fun _ => False).
  Proof. clear cast none is_none.
    destruct r; simpl; [|apply changes_refl]. constructor; simpl; intros; rewrite ?app_length; simpl; auto 10.
    - now rewrite nth_error_app_old.
    - lia.
  Qed.
  Lemma add_info_ok w r : apart w -> apart (fst (add_info w r)).
  Proof. clear cast none is_none.
    intros A. pose proof (add_info_changes w r) as C. destruct r as [p|]; simpl in *; auto. apply (apart_quiet w); auto.
    destruct A as ((S1 & S2 & S3 & S4) & _). unfold sound. simpl. rewrite app_length. simpl. repeat split; auto.
    eapply Forall_impl; [|exact S4]. intros l Hl. eapply Forall_impl; [|exact Hl]. simpl. intros; lia.
  Qed.
  Lemma change_info_ok w a f : same_shape w (fst (change_info w a f)) /\ changes w (fst (change_info w a f)) (fun x => x = ThInfo a).
  Proof.
    unfold change_info. destruct (nth_error (w_infos w) a); [|split; [apply shape_refl | apply changes_refl]].
    destruct (f i); [|split; [apply shape_refl | apply changes_refl]]. split; simpl.
    - constructor; try reflexivity. simpl. apply update_at_length.
    - constructor; simpl; intros; rewrite ?update_at_length; auto 10. rewrite update_at_nth.
      destruct (Nat.eqb_spec a a1); auto. subst. now exfalso.
  Qed.
  Lemma found_holder w l a : found w l a -> exists c k, In c l /\ nth_error (w_classes w) c = Some k /\ c_meta k = Some a.
  Proof.
    induction 1 as [c k a t H1 H2|c k a t H1 H2 F (c' & k' & I & H3 & H4)]; [exists c, k; simpl; auto|].
    exists c', k'. simpl. auto.
  Qed.
  Lemma class_has_of w c m : class_has w c m -> exists c' k a, nth_error (w_classes w) c' = Some k /\ c_meta k = Some a
    /\ nth_error (w_metas w) a = Some m.
  Proof. intros (k & a & H1 & H2 & H3). apply found_holder in H2 as (c' & k' & _ & H4 & H5). exists c', k', a. auto. Qed.
  Lemma class_meta_has w c a m : class_meta w c = Some a -> nth_error (w_metas w) a = Some m -> sound w -> class_has w c m.
  Proof.
    intros H M (_ & S2 & _). unfold class_meta, ancestors in H. destruct (nth_error (w_classes w) c) as [k|] eqn:E; [|discriminate].
    exists k, a. split; auto. split; auto. destruct (Forall_nth _ _ _ _ S2 E) as [_ R]. clear E M.
    induction (c_mro k) as [|b l IH]; [discriminate|]. inversion R as [|? ? Rb Rl]; subst. simpl in H.
    apply nth_error_Some in Rb. destruct (nth_error (w_classes w) b) as [kb|] eqn:B; [|congruence]. simpl in H.
    destruct (c_meta kb) eqn:K; [injection H as ->; eapply found_here; eauto|]. eapply found_later; eauto.
  Qed.
  Lemma step_ok f w x : apart w -> clean w x ->
    apart (fst (step f w x)) /\ exists X, changes w (fst (step f w x)) X /\ fair w x X.
  Proof.
    intros A CN. pose proof A as (SD & U & D).
    assert (Q : fair w x (fun _ => False)) by (split; auto).
    assert (SELF : apart w /\ exists X, changes w w X /\ fair w x X).
    { split; auto. exists (fun _ => False). split; auto using changes_refl. }
    destruct x as [l|l|k v m ty|k t ty|k g s m ty|a g|a s|bases attrs d|c args kw|names|o k v|t a force|o l];
      cbn [Model_Class.step].
    - (* PNames *)
      assert (C : changes w (fst (set_names w (w_names w ++ [l]), Ok tt)) (fun _ => False)).
      { constructor; simpl; intros; rewrite ?app_length; simpl; auto 10; [now rewrite nth_error_app_old | lia]. }
      split; [|eauto]. apply (apart_quiet w); auto. destruct SD as (S1 & S2 & S3 & S4). unfold sound. simpl.
      rewrite app_length. simpl. repeat split; auto. eapply Forall_impl; [|exact S3]. simpl. intros; lia.
    - (* PList *)
      assert (C : changes w (fst (set_lists w (w_lists w ++ [l]), Ok tt)) (fun _ => False)).
      { constructor; simpl; intros; rewrite ?app_length; simpl; auto 10; [now rewrite nth_error_app_old | lia]. }
      split; [|eauto]. apply (apart_quiet w); auto. destruct SD as (S1 & S2 & S3 & S4). unfold sound. simpl.
      rewrite app_length. simpl. repeat split; auto; [eapply Forall_impl; [|exact S3]; simpl; intros; lia|].
      apply Forall_app_one; auto.
    - split; [now apply add_info_ok|]. exists (fun _ => False). split; auto using add_info_changes.
    - split; [now apply add_info_ok|]. exists (fun _ => False). split; auto using add_info_changes.
    - split; [now apply add_info_ok|]. exists (fun _ => False). split; auto using add_info_changes.
    - (* PGetter *)
      destruct (change_info_ok w a (fun p => assign_getter p g)) as [SH C]. split; [eapply shape_apart; eauto|].
      eexists. split; [exact C|]. split.
      + intros o _ N y Hy ->. apply N. exact Hy.
      + intros c m N M b k j J1 J2 J3 y Hy ->. apply N. simpl.
        inversion Hy as [|? ? | ? ? ? ?|m0 l z i G0 G1 G2 G3]; subst. assert (m0 = m) by congruence. subst m0.
        exists l, z. split; auto. exists m. auto.
    - (* PSetter *)
      destruct (change_info_ok w a (fun p => assign_setter p s)) as [SH C]. split; [eapply shape_apart; eauto|].
      eexists. split; [exact C|]. split.
      + intros o _ N y Hy ->. apply N. exact Hy.
      + intros c m N M b k j J1 J2 J3 y Hy ->. apply N. simpl.
        inversion Hy as [|? ? | ? ? ? ?|m0 l z i G0 G1 G2 G3]; subst. assert (m0 = m) by congruence. subst m0.
        exists l, z. split; auto. exists m. auto.
    - (* PClass *)
      destruct (declare w bases attrs d) as [[w' c']|] eqn:E; simpl; auto.
      apply declare_ok in E; auto. destruct E as (A' & GC & _ & _). split; auto.
      eexists. split; [exact GC|]. split.
      + intros o _ _ y Hy Gy. destruct d as [d|]; [|auto]. destruct CN as [_ CN]. revert Hy. apply (given_free w d); auto.
      + intros c m N M b k j J1 J2 J3 y Hy Gy. destruct d as [d|]; [|auto]. apply N. simpl.
        inversion Hy as [|m0 G0|m0 l G0 G1|m0 l z i G0 G1 G2 G3]; subst; simpl in Gy; try tauto;
          assert (m0 = m) by congruence; subst m0.
        * right. exists m. auto.
        * left. exists l. split; auto. exists m. auto.
    - (* PMake *)
      destruct (make f w c args kw) as [[w' o']|] eqn:E; simpl; auto.
      apply make_ok in E; auto. destruct E as (-> & C & S' & CL & L & F & _). split; [apply (apart_grow w); auto|].
      exists (fun _ => False). auto.
    - (* PRehydrate *)
      unfold Model_Class.rehydrate.
      assert (MK : forall c, apart (fst (keep w fst (new_object w c))) /\
                   exists X, changes w (fst (keep w fst (new_object w c))) X /\ fair w (PRehydrate names) X).
      { intros c. destruct (new_object w c) as [[w' o']|] eqn:E; simpl; auto.
        apply new_object_ok in E; auto. destruct E as (-> & C & S' & CL & L & F & _). split; [apply (apart_grow w); auto|].
        exists (fun _ => False). auto. }
      assert (DF : apart (fst (keep w fst (let! y := make f w 0 [] [] in
                     Ok (rename (fst y) (snd y) (map (fun n => deserialized ++ n) names), snd y)))) /\
                   exists X, changes w (fst (keep w fst (let! y := make f w 0 [] [] in
                     Ok (rename (fst y) (snd y) (map (fun n => deserialized ++ n) names), snd y)))) X /\ fair w (PRehydrate names) X).
      { destruct (make f w 0 [] []) as [[w' o']|] eqn:E; simpl; auto.
        apply make_ok in E; auto. destruct E as (-> & C & S' & CL & L & F & _).
        assert (A' : apart w') by (apply (apart_grow w); auto).
        destruct (rename_ok w' (length (w_objects w)) (map (fun n => deserialized ++ n) names) A') as (R1 & _). split; auto.
        pose proof (changes_trans _ _ _ _ _ C (rename_changes w' (length (w_objects w)) (map (fun n => deserialized ++ n) names))) as C2.
        assert (NX : forall y, old w y -> ~ (False \/ exists ob, nth_error (w_objects w') (length (w_objects w)) = Some ob /\ y = ThMeta (ob_meta ob))).
        { intros y Hy [[]|(ob & B1 & ->)]. revert Hy. apply F. exists ob. split; auto. right. constructor. }
        eexists. split; [exact C2|]. split.
        - intros o _ _ y Hy. apply NX. eapply of_object_old; eauto.
        - intros c m _ _ b k j J1 J2 J3 y Hy. apply NX. eapply of_class_old; eauto. exists j, k, b. auto. }
      destruct names as [|[|n0 n] t]; auto. destruct (reg_get (n0 :: n) (w_types w)); auto.
    - (* PWrite *)
      destruct (write_wrote f w o k v) as [SH C]. split; [eapply shape_apart; eauto|]. eexists. split; [exact C|]. split.
      + intros o' _ N y Hy Oy. apply N. simpl. destruct Oy as [->|(a & -> & Oy)]; [|apply (U o o' _ Oy Hy)].
        destruct Hy as (ob & _ & [E|E]); [now injection E | inversion E].
      + intros c m _ _ b kk j J1 J2 J3 y Hy Oy. destruct Oy as [->|(a & -> & Oy)]; [inversion Hy|].
        apply (D o _ Oy). exists j, kk, b. auto.
    - (* PAttach *)
      destruct (attach w t a force) as [w'|] eqn:E; simpl; auto.
      pose proof E as E0. apply attach_ok in E; auto. destruct E as (A' & (X & C & F) & _). split; auto.
      apply attach_shape in E0 as (m & l & M & -> & La & Hl).
      eexists. split; [apply set_list_changes|]. split.
      + intros o L N y Hy ->. destruct t as [o'|c].
        * apply target_object in M as (ob & B1 & B2). apply N. simpl. eapply U; [|exact Hy]. exists ob. split; auto.
          right. eapply im_list; eauto.
        * apply target_class in M as (b & c' & k & K0 & K1 & K2 & M). apply (D o _ Hy). exists c', k, b. split; auto. split; auto.
          eapply im_list; eauto.
      + intros c m' N M' b k j J1 J2 J3 y Hy ->. destruct t as [o'|c1].
        * apply target_object in M as (ob & B1 & B2). apply (D o' (ThList (m_extended m))).
          -- exists ob. split; auto. right. eapply im_list; eauto.
          -- exists j, k, b. auto.
        * apply N. simpl in *. destruct (class_meta w c1) as [b1|] eqn:CM; [|discriminate].
          exists m. split; [eapply class_meta_has; eauto|].
          inversion Hy as [|m0 G0|m0 l0 G0 G1|m0 l0 z i G0 G1 G2 G3]; subst. assert (m0 = m') by congruence. subst m0.
          exists m'. auto.
    - (* PRename *)
      split; [now apply rename_ok|]. eexists. split; [apply rename_changes|]. split.
      + intros o' _ N y Hy (ob & B1 & ->). apply N. simpl. eapply U; [|exact Hy]. exists ob. split; auto. right. constructor.
      + intros c m _ _ b k j J1 J2 J3 y Hy (ob & B1 & ->). apply (D o (ThMeta (ob_meta ob))).
        * exists ob. split; auto. right. constructor.
        * exists j, k, b. auto.
  Qed.

  (** ** Looking at instances and classes *)
  Lemma contents_same w w' X l ps : sound w -> changes w w' X -> l < length (w_lists w) -> ~ X (ThList l) ->
    (forall x i, nth_error (w_lists w) l = Some x -> In i x -> ~ X (ThInfo i)) -> contents w' l ps <-> contents w l ps.
  Proof.
    intros (_ & _ & _ & S4) C L N NI.
    assert (E : nth_error (w_lists w') l = nth_error (w_lists w) l) by now apply (ch_lists _ _ _ C).
    apply nth_error_Some in L. destruct (nth_error (w_lists w) l) as [x|] eqn:H; [|congruence].
    pose proof (Forall_nth _ _ _ _ S4 H) as R. rewrite Forall_forall in R.
    assert (I : forall i, In i x -> nth_error (w_infos w') i = nth_error (w_infos w) i).
    { intros i Hi. apply (ch_infos _ _ _ C); eauto. }
    unfold contents. rewrite E, H.
    assert (Q : Forall2 (fun i p => nth_error (w_infos w') i = Some p) x ps <-> Forall2 (fun i p => nth_error (w_infos w) i = Some p) x ps).
    { clear - I. revert ps; induction x as [|a x IH]; intros ps; [split; intros F; inversion F; constructor|].
      split; intros F; inversion F; subst; constructor; try (apply IH; auto; intros; apply I; now right);
        rewrite ?I in * by (now left); auto. }
    split; intros (y & [= <-] & F); exists x; split; auto; now apply Q.
  Qed.
  Lemma looks_same w w' X o : sound w -> changes w w' X -> o < length (w_objects w) -> (forall x, of_object w o x -> ~ X x) ->
    (forall l, type_names w' o l <-> type_names w o l) /\ (forall ads exs, properties w' o ads exs <-> properties w o ads exs).
  Proof.
    intros SD C L D.
    assert (LO := L). apply nth_error_Some in LO. destruct (nth_error (w_objects w) o) as [ob|] eqn:E; [|congruence]. clear LO.
    assert (F : forall x, in_meta w (ob_meta ob) x -> ~ X x) by (intros x I; apply D; exists ob; auto).
    destruct (sound_object w o ob SD E) as [m M].
    destruct (sound_meta w _ m SD M) as ((n & N1) & (la & A1 & A2) & (le & E1 & E2)).
    assert (O' : nth_error (w_objects w') o = Some ob).
    { rewrite (ch_objects _ _ _ C) by (auto; apply D; exists ob; auto). auto. }
    assert (M' : nth_error (w_metas w') (ob_meta ob) = Some m).
    { rewrite (ch_metas _ _ _ C); auto; [eapply nth_error_lt; eauto|]. apply F. constructor. }
    assert (N' : nth_error (w_names w') (m_names m) = nth_error (w_names w) (m_names m)).
    { apply (ch_names _ _ _ C); auto; [eapply nth_error_lt; eauto|]. apply F. now constructor. }
    assert (CA : forall l ps, l = m_adapted m \/ l = m_extended m -> contents w' l ps <-> contents w l ps).
    { intros l ps Hl. apply (contents_same w w' X); auto.
      - destruct Hl; subst; eapply nth_error_lt; eauto.
      - apply F. eapply im_list; eauto.
      - intros x i Hx Hi. apply F. eapply im_info; eauto. }
    split.
    - intros l. unfold type_names. split; intros (b & m0 & B1 & B2 & B3).
      + assert (b = ob) by congruence. subst. assert (m0 = m) by congruence. subst. exists ob, m. rewrite <- N'. auto.
      + assert (b = ob) by congruence. subst. assert (m0 = m) by congruence. subst. exists ob, m. rewrite N'. auto.
    - intros ads exs. unfold properties. split; intros (b & m0 & B1 & B2 & B3 & B4); assert (b = ob) by congruence; subst;
        assert (m0 = m) by congruence; subst; exists ob, m; (split; [assumption|]); (split; [assumption|]);
        split; apply CA; auto.
  Qed.
  Lemma found_same w w' l a : (forall c, c < length (w_classes w) -> nth_error (w_classes w') c = nth_error (w_classes w) c) ->
    Forall (fun c => c < length (w_classes w)) l -> found w' l a <-> found w l a.
  Proof.
    intros C R. induction l as [|c l IH]; [split; intros F; inversion F|]. inversion R; subst.
    assert (E : nth_error (w_classes w') c = nth_error (w_classes w) c) by auto.
    split; intros F; inversion F; subst;
      [eapply found_here | eapply found_later | eapply found_here | eapply found_later]; eauto; try congruence;
      try (rewrite <- E; eauto; fail); now apply IH.
  Qed.
  Lemma found_det w l a b : found w l a -> found w l b -> a = b.
  Proof. intros F. revert b. induction F; intros b G; inversion G; subst; try congruence. apply IHF. assumption. Qed.
  Lemma class_has_det w c m m' : class_has w c m -> class_has w c m' -> m = m'.
  Proof.
    intros (k & a & H1 & H2 & H3) (k' & a' & G1 & G2 & G3). assert (k = k') by congruence. subst.
    assert (a = a') by (eapply found_det; eauto). subst. congruence.
  Qed.
  Lemma class_same w w' X c : sound w -> changes w w' X -> c < length (w_classes w) ->
    (forall m, class_has w c m -> forall a k b, nth_error (w_classes w) b = Some k -> c_meta k = Some a -> nth_error (w_metas w) a = Some m ->
     forall y, in_meta w a y -> ~ X y) ->
    forall l ads exs, class_looks w' c l ads exs <-> class_looks w c l ads exs.
  Proof.
    intros SD C L D l ads exs.
    assert (LC := L). apply nth_error_Some in LC. destruct (nth_error (w_classes w) c) as [k|] eqn:E; [|congruence]. clear LC.
    assert (E' : nth_error (w_classes w') c = Some k) by (rewrite (ch_classes _ _ _ C) by auto; auto).
    assert (R : Forall (fun c => c < length (w_classes w)) (c_mro k)).
    { destruct SD as (_ & S2 & _). now destruct (Forall_nth _ _ _ _ S2 E). }
    assert (FS : forall a, found w' (c_mro k) a <-> found w (c_mro k) a) by (intros a; apply found_same; auto; apply (ch_classes _ _ _ C)).
    assert (ST : forall a, found w (c_mro k) a -> exists m, nth_error (w_metas w) a = Some m).
    { intros a F. apply found_holder in F as (b & kb & _ & B1 & B2). destruct SD as (_ & S2 & _).
      destruct (Forall_nth _ _ _ _ S2 B1) as [B3 _]. apply B3 in B2. apply nth_error_Some in B2.
      destruct (nth_error (w_metas w) a); [eauto|congruence]. }
    assert (KEEP : forall a m, found w (c_mro k) a -> nth_error (w_metas w) a = Some m ->
              nth_error (w_metas w') a = Some m /\ nth_error (w_names w') (m_names m) = nth_error (w_names w) (m_names m)
              /\ forall j ps, j = m_adapted m \/ j = m_extended m -> contents w' j ps <-> contents w j ps).
    { intros a m F M. pose proof (found_holder _ _ _ F) as (b & kb & _ & B1 & B2).
      assert (NX : forall y, in_meta w a y -> ~ X y) by (eapply (D m); eauto; exists k, a; auto).
      destruct (sound_meta w _ m SD M) as ((n & N1) & (la & A1 & A2) & (le & E1 & E2)). split; [|split].
      - rewrite (ch_metas _ _ _ C); auto; [eapply nth_error_lt; eauto|]. apply NX. constructor.
      - apply (ch_names _ _ _ C); auto; [eapply nth_error_lt; eauto|]. apply NX. now constructor.
      - intros j ps Hj. apply (contents_same w w' X); auto.
        + destruct Hj; subst; eapply nth_error_lt; eauto.
        + apply NX. eapply im_list; eauto.
        + intros x i Hx Hi. apply NX. eapply im_info; eauto. }
    split; intros (m & (k0 & a & H1 & H2 & H3) & H4 & H5 & H6).
    - assert (k0 = k) by congruence. subst. apply FS in H2. destruct (ST a H2) as [m0 M0].
      destruct (KEEP a m0 H2 M0) as (K1 & K2 & K3). assert (m0 = m) by congruence. subst.
      exists m. split; [exists k, a; auto|]. rewrite <- K2. split; auto. split; apply K3; auto.
    - assert (k0 = k) by congruence. subst. destruct (KEEP a m H2 H3) as (K1 & K2 & K3).
      exists m. split; [exists k, a; split; auto; split; auto; now apply FS|]. rewrite K2. split; auto. split; apply K3; auto.
  Qed.

  (** ** Programs *)
  Definition go (f : nat) w x : world := fst (step f w x).
  Lemma run_ok f w xs : apart w -> always (go f) clean w xs -> apart (run f w xs)
    /\ length (w_objects w) <= length (w_objects (run f w xs)) /\ length (w_classes w) <= length (w_classes (run f w xs)).
  Proof.
    revert w; induction xs as [|x xs IH]; intros w A CN; [auto|]. destruct CN as [C1 C2]. simpl.
    destruct (step_ok f w x A C1) as (A1 & X & CH & _). fold (go f w x) in *.
    destruct (IH (go f w x) A1 C2) as (H1 & H2 & H3). pose proof (ch_more _ _ _ CH). split; auto. lia.
  Qed.
  Lemma run_object f w xs o : apart w -> o < length (w_objects w) -> always (go f) clean w xs ->
    always (go f) (fun w x => ~ touches w x o) w xs ->
    (forall g k, read g (run f w xs) o k = read g w o k)
    /\ (forall l, type_names (run f w xs) o l <-> type_names w o l)
    /\ (forall ads exs, properties (run f w xs) o ads exs <-> properties w o ads exs).
  Proof.
    revert w; induction xs as [|x xs IH]; intros w A L CN TN; [simpl; intuition|]. destruct CN as [C1 C2], TN as [T1 T2]. simpl.
    destruct (step_ok f w x A C1) as (A1 & X & CH & [FA _]). fold (go f w x) in *.
    assert (L' : o < length (w_objects (go f w x))) by (pose proof (ch_more _ _ _ CH); lia).
    destruct (IH (go f w x) A1 L' C2 T2) as (R1 & R2 & R3).
    assert (SD : sound w) by now destruct A.
    assert (NX : forall y, of_object w o y -> ~ X y) by (apply FA; auto).
    destruct (looks_same w (go f w x) X o SD CH L NX) as [K1 K2]. split; [|split].
    - intros g k. rewrite R1. apply (read_same w (go f w x) X o); auto.
    - intros l. rewrite R2. apply K1.
    - intros ads exs. rewrite R3. apply K2.
  Qed.
  Lemma run_class f w xs c : apart w -> c < length (w_classes w) -> always (go f) clean w xs ->
    always (go f) (fun w x => ~ touches_class w x c) w xs ->
    forall l ads exs, class_looks (run f w xs) c l ads exs <-> class_looks w c l ads exs.
  Proof.
    revert w; induction xs as [|x xs IH]; intros w A L CN TN l ads exs; [simpl; intuition|]. destruct CN as [C1 C2], TN as [T1 T2]. simpl.
    destruct (step_ok f w x A C1) as (A1 & X & CH & [_ FA]). fold (go f w x) in *.
    assert (L' : c < length (w_classes (go f w x))) by (pose proof (ch_more _ _ _ CH); lia).
    rewrite (IH (go f w x) A1 L' C2 T2). apply (class_same w (go f w x) X); auto; [now destruct A|].
    intros m M. apply (FA c m); auto.
  Qed.
  Lemma base_apart attrs : apart (base_world (V := V) (T := T) attrs).
  Proof. clear cast none is_none.
    split; [|split].
    - unfold sound. simpl. split; [constructor|]. split; [|split].
      + constructor; [|constructor]. simpl. split; [intros a [= <-]; lia|]. constructor; [lia|constructor].
      + constructor; [|constructor]. simpl. lia.
      + constructor; [constructor|]. constructor; constructor.
    - intros o1 o2 x (ob & E & _). destruct o1; discriminate.
    - intros o x (ob & E & _). destruct o; discriminate.
  Qed.
End P.
