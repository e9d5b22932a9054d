From Verif Require Import Base BaseFacts Model_Object Spec_Object.

Lemma name_eqb_eq a b : name_eqb a b = true <-> a = b.
Proof.
  unfold name_eqb. revert b; induction a as [|x a IH]; intros [|y b]; simpl; split; intros H; try easy.
  - apply andb_true_iff in H as [H1 H2]. apply N.eqb_eq in H1. apply IH in H2. congruence.
  - injection H as -> ->. rewrite N.eqb_refl. simpl. now apply IH.
Qed.
Lemma name_eqb_refl a : name_eqb a a = true.
Proof. now apply name_eqb_eq. Qed.
Lemma name_eqb_neq a b : name_eqb a b = false <-> a <> b.
Proof. rewrite <- name_eqb_eq. destruct (name_eqb a b); split; intros; congruence. Qed.
Ltac nm := repeat match goal with
  | H : name_eqb _ _ = true |- _ => apply name_eqb_eq in H
  | H : name_eqb _ _ = false |- _ => apply name_eqb_neq in H
  end.

Section P.
  Context {V T : Type}.
  Variable cast : T -> V -> result V.
  Variable is_none : V -> bool.
  Notation setattr := (setattr V T cast is_none).
  Notation set_value := (set_value V T cast is_none).
  Notation cast_opt := (cast_opt V T cast is_none).
  Notation add_member := (add_member V T).
  Notation apply := (apply V T cast is_none).
  Notation run := (run V T cast is_none).
  Notation step := (step V T cast is_none).
  Implicit Types (o : obj V T) (k : name) (ps : list (prop V T)) (p q : prop V T).

  (* dictionaries *)
  Lemma dict_get_in (d : list (name * V)) k : dict_get d k = None <-> ~ In k (map fst d).
  Proof.
    induction d as [|[n v] d IH]; simpl; [tauto|]. destruct (name_eqb n k) eqn:E; nm.
    - split; [congruence | intros H; exfalso; auto].
    - rewrite IH. intuition.
  Qed.
  Lemma dict_get_set (d : list (name * V)) k v j :
    dict_get (dict_set d k v) j = if name_eqb k j then Some v else dict_get d j.
  Proof.
    induction d as [|[n w] d IH]; simpl; [now destruct (name_eqb k j)|].
    destruct (name_eqb n k) eqn:E; simpl.
    - nm; subst. now destruct (name_eqb k j).
    - rewrite IH. destruct (name_eqb n j) eqn:E1, (name_eqb k j) eqn:E2; auto. nm; congruence.
  Qed.

  (* property lists *)
  Lemma find_first_none k ps : find_first k ps = None <-> ~ In k (names ps).
  Proof.
    induction ps as [|p ps IH]; simpl; [tauto|]. destruct (name_eqb (p_name p) k) eqn:E; nm.
    - split; [congruence | intros H; exfalso; auto].
    - rewrite IH. intuition.
  Qed.
  Lemma find_last_none k ps : find_last k ps = None <-> ~ In k (names ps).
  Proof.
    induction ps as [|p ps IH]; simpl; [tauto|]. destruct (find_last k ps).
    - split; [congruence|]. intros H. exfalso. destruct IH as [_ IH]. discriminate IH. tauto.
    - destruct (name_eqb (p_name p) k) eqn:E; nm; [split; [congruence | intros H; exfalso; auto]|].
      destruct IH as [IH _]. specialize (IH eq_refl). intuition.
  Qed.
  Lemma find_first_some k ps p : find_first k ps = Some p -> In p ps /\ p_name p = k.
  Proof.
    induction ps as [|q ps IH]; simpl; [discriminate|]. destruct (name_eqb (p_name q) k) eqn:E; nm.
    - intros [= <-]. auto.
    - intros H. apply IH in H as []. auto.
  Qed.
  Lemma find_last_some k ps p : find_last k ps = Some p -> In p ps /\ p_name p = k.
  Proof.
    induction ps as [|q ps IH]; simpl; [discriminate|]. destruct (find_last k ps) as [r|].
    - intros [= ->]. specialize (IH eq_refl). tauto.
    - destruct (name_eqb (p_name q) k) eqn:E; nm; [|discriminate]. intros [= <-]. auto.
  Qed.
  Lemma nodup_unique ps p q : NoDup (names ps) -> In p ps -> In q ps -> p_name p = p_name q -> p = q.
  Proof.
    induction ps as [|r ps IH]; simpl; [tauto|]. intros H; inversion H as [|? ? Hn Hd]; subst.
    intros [<-|Hp] [<-|Hq] E; auto; exfalso; apply Hn; [rewrite E | rewrite <- E]; now apply (in_map p_name).
  Qed.
  Lemma find_last_in ps p : NoDup (names ps) -> In p ps -> find_last (p_name p) ps = Some p.
  Proof.
    intros Hd Hp. destruct (find_last (p_name p) ps) as [q|] eqn:E.
    - apply find_last_some in E as [Hq E]. f_equal. symmetry. apply (nodup_unique ps); auto.
    - apply find_last_none in E. exfalso. apply E. now apply (in_map p_name).
  Qed.
  Lemma find_first_in ps p : NoDup (names ps) -> In p ps -> find_first (p_name p) ps = Some p.
  Proof.
    intros Hd Hp. destruct (find_first (p_name p) ps) as [q|] eqn:E.
    - apply find_first_some in E as [Hq E]. f_equal. symmetry. apply (nodup_unique ps); auto.
    - apply find_first_none in E. exfalso. apply E. now apply (in_map p_name).
  Qed.
  Lemma find_first_last k ps : NoDup (names ps) -> find_first k ps = find_last k ps.
  Proof.
    intros Hd. destruct (find_last k ps) as [p|] eqn:E.
    - apply find_last_some in E as [Hp <-]. now apply find_first_in.
    - apply find_last_none in E. now apply find_first_none.
  Qed.
  Lemma names_update k q ps : p_name q = k -> names (update_first k q ps) = names ps.
  Proof.
    intros E. induction ps as [|p ps IH]; simpl; auto. destruct (name_eqb (p_name p) k) eqn:F; simpl; nm; congruence.
  Qed.
  Lemma find_last_update k q ps j : p_name q = k -> NoDup (names ps) -> In k (names ps) ->
    find_last j (update_first k q ps) = if name_eqb k j then Some q else find_last j ps.
  Proof.
    intros E. induction ps as [|p ps IH]; simpl; [tauto|]. intros H Hin; inversion H as [|? ? Hn Hd]; subst.
    destruct (name_eqb (p_name p) (p_name q)) eqn:F; simpl; nm.
    - destruct (name_eqb (p_name q) j) eqn:G; nm.
      + subst j. replace (find_last (p_name q) ps) with (@None (prop V T)); auto.
        symmetry. apply find_last_none. congruence.
      + destruct (find_last j ps); auto. now rewrite F, (proj2 (name_eqb_neq _ _) G).
    - destruct Hin as [|Hin]; [congruence|]. rewrite IH by auto.
      destruct (name_eqb (p_name q) j) eqn:G; auto.
  Qed.
  Lemma has_name_in k ps : has_name k ps = true <-> In k (names ps).
  Proof.
    unfold has_name. rewrite existsb_exists. split.
    - intros (p & Hp & E). nm. subst. now apply (in_map p_name).
    - intros H. apply in_map_iff in H as (p & <- & Hp). exists p. split; auto. apply name_eqb_refl.
  Qed.
  Lemma last_index_shift k ps i : last_index k ps i = option_map (Nat.add i) (last_index k ps 0).
  Proof.
    revert i; induction ps as [|p ps IH]; intros i; simpl; auto.
    rewrite (IH (S i)), (IH 1%nat). destruct (last_index k ps 0); simpl; [f_equal; lia|].
    destruct (name_eqb (p_name p) k); simpl; [f_equal; lia | auto].
  Qed.
  Lemma last_index_none k ps i : last_index k ps i = None <-> ~ In k (names ps).
  Proof.
    revert i; induction ps as [|p ps IH]; intros i; simpl; [tauto|]. specialize (IH (S i)).
    destruct (last_index k ps (S i)).
    - split; [congruence|]. intros H. exfalso. destruct IH as [_ IH]. discriminate IH. tauto.
    - destruct (name_eqb (p_name p) k) eqn:E; nm; [split; [congruence | intros H; exfalso; auto]|].
      destruct IH as [IH _]. specialize (IH eq_refl). intuition.
  Qed.
  Lemma last_index_split k ps i : last_index k ps 0 = Some i ->
    exists l old r, ps = l ++ old :: r /\ length l = i /\ p_name old = k.
  Proof.
    revert i; induction ps as [|p ps IH]; intros i; simpl; [discriminate|].
    rewrite last_index_shift. destruct (last_index k ps 0) as [j|] eqn:E; simpl.
    - intros [= <-]. destruct (IH j eq_refl) as (l & old & r & -> & <- & H). exists (p :: l), old, r. auto.
    - destruct (name_eqb (p_name p) k) eqn:F; [|discriminate]. intros [= <-]. nm. exists [], p, ps. auto.
  Qed.
  Lemma replace_at (l r : list (prop V T)) old p :
    insert_at (length l) p (pop_at (length l) (l ++ old :: r)) = l ++ p :: r.
  Proof.
    unfold pop_at. replace (skipn (S (length l)) (l ++ old :: r)) with r.
    2:{ change (l ++ old :: r) with (l ++ [old] ++ r). rewrite app_assoc.
        replace (S (length l)) with (length (l ++ [old])) by (rewrite app_length; simpl; lia).
        symmetry. now apply app_skipn_len. }
    rewrite app_firstn_len by auto. unfold insert_at. now rewrite app_firstn_len, app_skipn_len by auto.
  Qed.

  (** What a successful addition does. *)
  Lemma add_member_ok o p force o' : add_member o p force = Ok o' ->
    o_dict o' = o_dict o /\ o_class o' = o_class o /\ o_adapted o' = o_adapted o /\
    ((exists l old r, o_extended o = l ++ old :: r /\ p_name old = p_name p /\ o_extended o' = l ++ p :: r /\ force = true)
     \/ (~ In (p_name p) (names (o_extended o)) /\ o_extended o' = o_extended o ++ [p])).
  Proof.
    unfold Model_Object.add_member. cbv zeta. unfold insert_at at 2 3. rewrite firstn_all, skipn_all.
    destruct (has_name (p_name p) (o_adapted o) || has_name (p_name p) (o_extended o)) eqn:E.
    - destruct force; simpl; [|discriminate]. destruct (last_index (p_name p) (o_extended o) 0) as [i|] eqn:F.
      + apply last_index_split in F as (l & old & r & F & <- & G). rewrite F, replace_at.
        intros [= <-]. simpl. repeat (split; auto). left. exists l, old, r. auto.
      + intros [= <-]. simpl. repeat (split; auto). right. split; auto. now apply last_index_none in F.
    - intros [= <-]. simpl. repeat (split; auto). right. split; auto.
      apply orb_false_iff in E as [_ E]. intros H. apply has_name_in in H. congruence.
  Qed.
  Lemma add_member_exists o p : In (p_name p) (names (o_adapted o)) \/ In (p_name p) (names (o_extended o)) ->
    add_member o p false = Err RuntimeError.
  Proof.
    intros H. unfold Model_Object.add_member. rewrite <- !has_name_in in H.
    destruct H as [-> | ->]; rewrite ?orb_true_r; reflexivity.
  Qed.
  Lemma add_member_total o p force : force = true \/
      (~ In (p_name p) (names (o_adapted o)) /\ ~ In (p_name p) (names (o_extended o))) ->
    exists o', add_member o p force = Ok o'.
  Proof.
    intros H. unfold Model_Object.add_member. cbv zeta.
    destruct (has_name (p_name p) (o_adapted o) || has_name (p_name p) (o_extended o)) eqn:E; [|eauto].
    destruct H as [-> | [H1 H2]].
    - simpl. destruct (last_index (p_name p) (o_extended o) 0); eauto.
    - apply orb_true_iff in E as [E|E]; apply has_name_in in E; tauto.
  Qed.
  Lemma add_member_distinct o p force o' : distinct o -> add_member o p force = Ok o' -> distinct o'.
  Proof.
    intros [D1 D2] H. unfold distinct.
    apply add_member_ok in H as (_ & _ & -> & [(l & old & r & E & F & G & _) | [E G]]); split; auto.
    - unfold names in *. rewrite G. rewrite E in D2. rewrite map_app in *. simpl in *. now rewrite <- F.
    - unfold names in *. rewrite G, map_app. simpl.
      apply (NoDup_Add (a := p_name p) (l := map p_name (o_extended o))); [|auto].
      rewrite <- (app_nil_r (map p_name (o_extended o))) at 1. apply Add_app.
  Qed.

  Lemma set_value_name p v q : set_value p v = Ok q -> p_name q = p_name p.
  Proof.
    unfold Model_Object.set_value. destruct (p_kind p); [|discriminate].
    destruct (cast_opt ty v); simpl; [|discriminate]. now intros [= <-].
  Qed.
  Lemma setattr_names o k v o' : setattr o k v = Ok o' ->
    names (o_adapted o') = names (o_adapted o) /\ names (o_extended o') = names (o_extended o) /\ o_class o' = o_class o.
  Proof.
    unfold Model_Object.setattr. destruct (dict_get (o_dict o) k); [now intros [= <-]|].
    destruct (find_first k (o_extended o)) as [p|] eqn:E.
    { apply find_first_some in E as [_ <-]. destruct (set_value p v) as [q|] eqn:F; simpl; [|discriminate].
      intros [= <-]. simpl. rewrite names_update by now apply set_value_name in F. auto. }
    destruct (find_first k (o_adapted o)) as [p|] eqn:E2; [|now intros [= <-]].
    apply find_first_some in E2 as [_ <-]. destruct (set_value p v) as [q|] eqn:F; simpl; [|discriminate].
    intros [= <-]. simpl. rewrite names_update by now apply set_value_name in F. auto.
  Qed.
  Lemma apply_distinct o x o' : distinct o -> apply o x = Ok o' -> distinct o'.
  Proof.
    destruct x; simpl.
    - intros D H. apply setattr_names in H as (E & F & _). unfold distinct in *. now rewrite E, F.
    - unfold new_note. destruct (cast_opt ty v); simpl; [|discriminate]. apply add_member_distinct.
    - apply add_member_distinct.
  Qed.
  Lemma step_distinct o x : distinct o -> distinct (step o x).
  Proof. unfold Model_Object.step. destruct (apply o x) eqn:E; auto. intros D. eauto using apply_distinct. Qed.
  Lemma run_distinct o xs : distinct o -> distinct (run o xs).
  Proof. unfold Model_Object.run. revert o; induction xs; simpl; auto using step_distinct. Qed.

  (** The visible entry of a name. *)
  Definition look o k : option V * option (prop_kind V T) :=
    (dict_get (o_dict o) k,
     match dict_get (o_dict o) k with Some _ => None | None => option_map p_kind (find_property o k) end).
  Variable none : V.
  Notation getattr := (getattr V T cast none is_none).
  Lemma getattr_look f o k : getattr (S f) o k =
    match look o k with
    | (Some v, _) => Ok v
    | (None, p) => match o_class o k with
                   | Some v => Ok v
                   | None => match p with
                             | None => Err AttributeError
                             | Some (Note _ (Some v)) => Ok v
                             | Some (Note _ None) => Ok none
                             | Some (Alias ty t) => let! v := getattr f o t in cast_opt ty v
                             end
                   end
    end.
  Proof.
    simpl. unfold look. destruct (dict_get (o_dict o) k); auto. destruct (o_class o k); auto.
    destruct (find_property o k) as [p|]; simpl; auto.
  Qed.

  Lemma find_property_stands o k p : distinct o -> dict_get (o_dict o) k = None ->
    (find_property o k = Some p <-> stands_for o k p).
  Proof.
    intros [D1 D2] Hn. unfold find_property, stands_for. apply dict_get_in in Hn. split.
    - destruct (find_last k (o_extended o)) as [q|] eqn:E.
      + intros [= ->]. apply find_last_some in E. tauto.
      + intros H. apply find_last_some in H. apply find_last_none in E. tauto.
    - intros (<- & _ & [H|[H1 H2]]).
      + now rewrite find_last_in.
      + apply find_last_none in H1. rewrite H1. now apply find_last_in.
  Qed.

  Lemma setattr_look o k v o' j : distinct o -> setattr o k v = Ok o' -> j <> k -> look o' j = look o j.
  Proof.
    intros [D1 D2] H Hj. apply not_eq_sym in Hj. apply name_eqb_neq in Hj. revert H. unfold Model_Object.setattr, look, find_property.
    destruct (dict_get (o_dict o) k) eqn:E0.
    { intros [= <-]. simpl. rewrite dict_get_set, Hj. auto. }
    destruct (find_first k (o_extended o)) as [p|] eqn:E.
    { destruct (set_value p v) as [q|] eqn:F; simpl; [|discriminate]. intros [= <-]. simpl.
      apply find_first_some in E as [I <-]. apply set_value_name in F.
      rewrite find_last_update, Hj; auto. now apply (in_map p_name). }
    destruct (find_first k (o_adapted o)) as [p|] eqn:E2.
    { destruct (set_value p v) as [q|] eqn:F; simpl; [|discriminate]. intros [= <-]. simpl.
      apply find_first_some in E2 as [I <-]. apply set_value_name in F.
      rewrite find_last_update, Hj; auto. now apply (in_map p_name). }
    intros [= <-]. simpl. rewrite dict_get_set, Hj. auto.
  Qed.
  Lemma find_last_app j (l r : list (prop V T)) :
    find_last j (l ++ r) = match find_last j r with Some q => Some q | None => find_last j l end.
  Proof.
    induction l as [|p l IH]; simpl; [now destruct (find_last j r)|]. rewrite IH.
    destruct (find_last j r); auto.
  Qed.
  Lemma add_member_look o p force o' j : add_member o p force = Ok o' -> j <> p_name p -> look o' j = look o j.
  Proof.
    intros H Hj. apply not_eq_sym in Hj. apply name_eqb_neq in Hj.
    apply add_member_ok in H as (E1 & _ & E2 & H). unfold look, find_property. rewrite E1, E2.
    destruct H as [(l & old & r & A & B & C & _) | [_ C]].
    - rewrite A, C, !find_last_app. simpl. now rewrite B, Hj.
    - rewrite C, find_last_app. simpl. now rewrite Hj.
  Qed.
  Lemma step_look o x j : distinct o -> op_name x <> j -> look (step o x) j = look o j /\ o_class (step o x) = o_class o.
  Proof.
    intros D Hj. unfold Model_Object.step. destruct (apply o x) as [o'|] eqn:E; auto. destruct x; simpl in *.
    - split; [eapply setattr_look; eauto|]. now apply setattr_names in E as (_ & _ & ->).
    - unfold new_note in E. destruct (cast_opt ty v); simpl in E; [|discriminate].
      split; [eapply add_member_look; eauto|]. now apply add_member_ok in E as (_ & -> & _).
    - split; [eapply add_member_look; eauto|]. now apply add_member_ok in E as (_ & -> & _).
  Qed.
  Lemma run_look o xs j : distinct o -> Forall (fun x => op_name x <> j) xs ->
    look (run o xs) j = look o j /\ o_class (run o xs) = o_class o.
  Proof.
    revert o; induction xs as [|x xs IH]; intros o D H; [split; reflexivity|]. inversion H; subst.
    unfold Model_Object.run in *. simpl. destruct (step_look o x j) as [A B]; auto.
    destruct (IH (step o x)) as [C E]; auto using step_distinct. split; congruence.
  Qed.

  Lemma declared_cases o k ty : distinct o -> declared o k ty ->
    (exists v, dict_get (o_dict o) k = Some v /\ ty = None) \/
    (dict_get (o_dict o) k = None /\ find_property o k = None /\ ty = None) \/
    (dict_get (o_dict o) k = None /\ exists w, find_property o k = Some (mkProp k (Note ty w))).
  Proof.
    intros D [[w H] | [-> [H | [H1 H2]]]].
    - destruct H as (_ & H2 & H3). right; right. apply dict_get_in in H2. split; auto. exists w.
      apply find_property_stands; auto. split; auto. split; auto. now apply dict_get_in.
    - left. destruct (dict_get (o_dict o) k) eqn:E; [eauto|]. apply dict_get_in in E. tauto.
    - destruct (dict_get (o_dict o) k) eqn:E; [left; eauto|]. right; left. repeat split; auto.
      unfold find_property. rewrite (proj2 (find_last_none _ _) H1). now apply find_last_none.
  Qed.

  Lemma set_look o k v ty w : distinct o -> declared o k ty -> cast_opt ty v = Ok w ->
    exists o', setattr o k v = Ok o' /\
    (look o' k = (Some w, None) \/ look o' k = (None, Some (Note ty (Some w)))).
  Proof.
    intros D H C. pose proof D as [D1 D2]. apply declared_cases in H; auto. unfold Model_Object.setattr.
    destruct H as [(x & H & ->) | [(H1 & H2 & ->) | (H1 & x & H2)]].
    - rewrite H. eexists; split; eauto. left. unfold look. simpl. rewrite dict_get_set, name_eqb_refl.
      simpl in C. congruence.
    - rewrite H1. unfold find_property in H2. rewrite !find_first_last by auto.
      destruct (find_last k (o_extended o)); [discriminate|]. rewrite H2.
      eexists; split; eauto. left. unfold look. simpl. rewrite dict_get_set, name_eqb_refl. simpl in C. congruence.
    - rewrite H1. unfold find_property in H2. rewrite !find_first_last by auto.
      destruct (find_last k (o_extended o)) eqn:E.
      + injection H2 as ->. unfold Model_Object.set_value. simpl. rewrite C. simpl. eexists; split; eauto. right.
        unfold look. simpl. rewrite H1. unfold find_property. simpl.
        rewrite find_last_update, name_eqb_refl; auto. apply find_last_some in E as [E _]. now apply (in_map p_name) in E.
      + rewrite H2. unfold Model_Object.set_value. simpl. rewrite C. simpl. eexists; split; eauto. right.
        unfold look. simpl. rewrite H1. unfold find_property. simpl. rewrite E.
        rewrite find_last_update, name_eqb_refl; auto. apply find_last_some in H2 as [F _]. now apply (in_map p_name) in F.
  Qed.

  Lemma last_write f o xs k v ty w ys : distinct o ->
    not_class o k \/ (forall p, ~ stands_for (run o xs) k p) -> declared (run o xs) k ty ->
    cast_opt ty v = Ok w -> Forall (fun x => op_name x <> k) ys ->
    getattr (S f) (run o (xs ++ OSet k v :: ys)) k = Ok w.
  Proof.
    intros D NC Dc C Hy. unfold Model_Object.run. rewrite fold_left_app. fold (run o xs).
    pose proof (run_distinct o xs D) as D'.
    assert (CL : o_class (run o xs) = o_class o).
    { clear - cast is_none. revert o; induction xs as [|x xs IH]; intros o; auto. unfold Model_Object.run in *. simpl. rewrite IH.
      unfold Model_Object.step. destruct (apply o x) eqn:E; auto. destruct x; simpl in E.
      - now apply setattr_names in E.
      - unfold new_note in E. destruct (cast_opt ty v); simpl in E; [|discriminate]. now apply add_member_ok in E.
      - now apply add_member_ok in E. }
    destruct (set_look _ _ _ _ _ D' Dc C) as (o' & S' & L). cbn [fold_left].
    replace (step (run o xs) (OSet k v)) with o' by (unfold Model_Object.step; simpl; now rewrite S').
    fold (run o' ys).
    assert (D'' : distinct o') by (eapply (apply_distinct _ (OSet k v)); eauto).
    destruct (run_look o' ys k D'' Hy) as [R1 R2]. rewrite getattr_look, R1, R2.
    pose proof S' as S0. apply setattr_names in S' as (_ & _ & ->). rewrite CL.
    destruct L as [-> | L]; auto. rewrite L. destruct NC as [NC|NC].
    - unfold not_class in NC. now rewrite NC.
    - exfalso. apply declared_cases in Dc; auto. destruct Dc as [(x & H & ->) | [(H1 & H2 & ->) | (H1 & x & H2)]].
      + unfold Model_Object.setattr in S0. rewrite H in S0. injection S0 as <-. unfold look in L. simpl in L.
        rewrite dict_get_set, name_eqb_refl in L. discriminate.
      + unfold Model_Object.setattr in S0. rewrite H1 in S0. unfold find_property in H2.
        destruct (find_last k (o_extended (run o xs))) eqn:E1; [discriminate|].
        destruct D' as [D1 D2]. rewrite !find_first_last, E1, H2 in S0 by auto. injection S0 as <-. unfold look in L. simpl in L.
        rewrite dict_get_set, name_eqb_refl in L. discriminate.
      + apply find_property_stands in H2; auto. now apply (NC _ H2).
  Qed.

  Lemma rejected_write o k v e : setattr o k v = Err e -> step o (OSet k v) = o.
  Proof. intros H. unfold Model_Object.step. simpl. now rewrite H. Qed.

  Lemma frame f o k v o' j : distinct o -> setattr o k v = Ok o' -> ~ reaches o j k ->
    getattr f o' j = getattr f o j.
  Proof.
    intros D H. revert j. induction f as [|f IH]; intros j Hr; [reflexivity|].
    rewrite !getattr_look.
    assert (Hj : j <> k) by (intros ->; apply Hr; constructor).
    rewrite (setattr_look o k v o' j) by auto.
    assert (C : o_class o' = o_class o) by now apply setattr_names in H. rewrite C.
    unfold look. destruct (dict_get (o_dict o) j) eqn:F; auto.
    destruct (o_class o j) eqn:E; auto.
    destruct (find_property o j) as [[n [ty [x|]|ty t]]|] eqn:G; simpl; auto.
    rewrite IH; auto. intros Hr'. apply Hr. pose proof G as G'. apply find_property_stands in G; auto.
    destruct G as (Hn & A & B). simpl in Hn. subst n.
    apply (reach_alias o j ty t k); [exact E | split; auto | exact Hr'].
  Qed.

  Lemma alias_read f o k ty t : distinct o -> not_class o k -> stands_for o k (mkProp k (Alias ty t)) ->
    getattr (S f) o k = (let! v := getattr f o t in cast_opt ty v).
  Proof.
    intros D NC H. pose proof H as (_ & A & _). apply dict_get_in in A.
    apply find_property_stands in H; auto. rewrite getattr_look. unfold look. rewrite A, H. now rewrite NC.
  Qed.
  Lemma note_read f o k ty v : distinct o -> not_class o k -> stands_for o k (mkProp k (Note ty (Some v))) ->
    getattr (S f) o k = Ok v.
  Proof.
    intros D NC H. pose proof H as (_ & A & _). apply dict_get_in in A.
    apply find_property_stands in H; auto. rewrite getattr_look. unfold look. rewrite A, H. now rewrite NC.
  Qed.
  Lemma alias_write o k v ty t : distinct o -> stands_for o k (mkProp k (Alias ty t)) ->
    setattr o k v = Err ValueError.
  Proof.
    intros [D1 D2] H. pose proof H as (_ & A & _). apply dict_get_in in A. pose proof (conj D1 D2 : distinct o) as D.
    apply find_property_stands in H; auto. unfold find_property in H. unfold Model_Object.setattr.
    rewrite A, !find_first_last by auto. destruct (find_last k (o_extended o)); [injection H as ->; reflexivity|].
    rewrite H. reflexivity.
  Qed.
  Lemma write_extended o k v o' p : In p (o_extended o) -> p_name p = k -> setattr o k v = Ok o' -> o_adapted o' = o_adapted o.
  Proof.
    intros Hp Hk. unfold Model_Object.setattr. destruct (dict_get (o_dict o) k); [now intros [= <-]|].
    destruct (find_first k (o_extended o)) as [q|] eqn:E.
    - destruct (set_value q v); simpl; [|discriminate]. now intros [= <-].
    - apply find_first_none in E. exfalso. apply E. subst k. now apply (in_map p_name).
  Qed.
  Lemma frame_add f o p force o' j : distinct o -> add_member o p force = Ok o' -> ~ reaches o j (p_name p) ->
    getattr f o' j = getattr f o j.
  Proof.
    intros D H. revert j. induction f as [|f IH]; intros j Hr; [reflexivity|].
    rewrite !getattr_look.
    assert (Hj : j <> p_name p) by (intros ->; apply Hr; constructor).
    rewrite (add_member_look o p force o' j) by auto.
    assert (C : o_class o' = o_class o) by now apply add_member_ok in H. rewrite C.
    unfold look. destruct (dict_get (o_dict o) j) eqn:F; auto.
    destruct (o_class o j) eqn:E; auto.
    destruct (find_property o j) as [[n [ty [x|]|ty t]]|] eqn:G; simpl; auto.
    rewrite IH; auto. intros Hr'. apply Hr. apply find_property_stands in G; auto.
    destruct G as (Hn & A & B). simpl in Hn. subst n.
    apply (reach_alias o j ty t _); [exact E | split; auto | exact Hr'].
  Qed.
  Lemma split_unique (l l' r r' : list (prop V T)) a b : NoDup (names (l ++ a :: r)) ->
    l ++ a :: r = l' ++ b :: r' -> p_name a = p_name b -> l = l' /\ r = r'.
  Proof.
    revert l'; induction l as [|x l IH]; intros [|y l']; simpl; intros D [= E1 E2] N; subst.
    - auto.
    - exfalso. inversion D as [|? ? I _]; subst. apply I. unfold names. rewrite N, map_app. simpl.
      apply in_or_app. right. now left.
    - exfalso. inversion D as [|? ? I _]; subst. apply I. unfold names. rewrite <- N, map_app. simpl.
      apply in_or_app. right. now left.
    - inversion D; subst. destruct (IH l') as [-> ->]; auto.
  Qed.
  Lemma add_member_exact o p force : distinct o ->
    force = true \/ (~ In (p_name p) (names (o_adapted o)) /\ ~ In (p_name p) (names (o_extended o))) ->
    exists o', add_member o p force = Ok o'
    /\ o_dict o' = o_dict o /\ o_class o' = o_class o /\ o_adapted o' = o_adapted o
    /\ (forall l old r, o_extended o = l ++ old :: r -> p_name old = p_name p -> o_extended o' = l ++ p :: r)
    /\ (~ In (p_name p) (names (o_extended o)) -> o_extended o' = o_extended o ++ [p]).
  Proof.
    intros [D1 D2] H. destruct (add_member_total o p force H) as (o' & E). exists o'. split; auto.
    apply add_member_ok in E as (A & B & C & E). repeat (split; auto).
    - intros l old r F G. destruct E as [(l' & old' & r' & E1 & E2 & E3 & _) | [E1 E2]].
      + rewrite E1 in F. rewrite E1 in D2. destruct (split_unique l' l r' r old' old) as [-> ->]; auto. congruence.
      + exfalso. apply E1. rewrite F. unfold names. rewrite map_app, <- G. apply in_or_app. right. now left.
    - intros F. destruct E as [(l' & old' & r' & E1 & E2 & E3 & _) | [E1 E2]]; auto.
      exfalso. apply F. rewrite E1. unfold names. rewrite map_app, <- E2. apply in_or_app. right. now left.
  Qed.
End P.
Lemma run_distinct_explicit V T (cast : T -> V -> result V) is_none o xs :
  distinct o -> distinct (run V T cast is_none o xs).
Proof. apply run_distinct. Qed.
