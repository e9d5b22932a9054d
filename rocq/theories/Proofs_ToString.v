From Verif Require Import Base BaseFacts Model_Object Model_ToString Spec_ToString Proofs_Object.

Lemma silent_next l m : silent l -> next_str (l ++ m) = next_str m.
Proof. induction 1 as [|y l [_ H] _ IH]; [reflexivity|]. cbn [app next_str]. now rewrite H. Qed.
Lemma silent_own l m : silent l -> own_text (l ++ m) = own_text m.
Proof. induction 1 as [|y l [H1 H2] _ IH]; [reflexivity|]. cbn [app own_text]. now rewrite H1, H2. Qed.
Lemma tells_next l c rest : tells l c rest -> next_str l = Some (c, rest).
Proof. intros (pre & -> & H). now rewrite silent_next. Qed.
Lemma tells_own l c rest : tells l c rest -> own_text l = true.
Proof. intros (pre & -> & H). now rewrite silent_own. Qed.
Lemma plain_next l post : plain_class l post -> next_str l = Some (ps_code, post).
Proof. intros (pre & -> & H). now rewrite silent_next. Qed.
Lemma plain_own l post : plain_class l post -> own_text l = false.
Proof. intros (pre & -> & H). now rewrite silent_own. Qed.
Lemma answers_run ex c r : answers ex c r -> forall super meta, run super meta ex c = r.
Proof. induction 1 as [|k r _ IH]; intros; cbn [run]; auto. Qed.

Lemma str_tells f o l c rest r : tells l c rest -> answers (t_explicit o) c r -> str_from (S f) o l = r.
Proof. intros H A. cbn [str_from]. rewrite (tells_next _ _ _ H). now apply answers_run. Qed.
Lemma str_explicit f o post t : plain_class (t_mro o) post -> t_explicit o = Some t -> str_of (S f) o = Ok t.
Proof. intros H E. unfold str_of. cbn [str_from]. rewrite (plain_next _ _ H), E. reflexivity. Qed.
Lemma str_base f o post c rest r : plain_class (t_mro o) post -> t_explicit o = None -> tells post c rest ->
  answers None c r -> str_of (S (S f)) o = r.
Proof.
  intros H E T A. unfold str_of. cbn [str_from]. rewrite (plain_next _ _ H), E, (plain_own _ _ H). cbn [run ps_code].
  rewrite (tells_next _ _ _ T). now apply answers_run.
Qed.

(** Methods that ask super() for the text of PSObject, or PSObjectMeta itself, are asked again by it. *)
Lemma str_super o k rest post : tells (t_mro o) (CSuper k) rest -> plain_class rest post -> t_explicit o = None -> hands_on k ->
  forall f, str_of f o = Err RuntimeError.
Proof.
  intros T P E K f. unfold str_of. induction f as [f IH] using lt_wf_ind. destruct f as [|f]; [reflexivity|]. cbn [str_from].
  rewrite (tells_next _ _ _ T). cbn [run].
  assert (str_from f o rest = Err RuntimeError) as ->; [|now rewrite K].
  destruct f as [|f]; [reflexivity|]. cbn [str_from]. rewrite (plain_next _ _ P), E, (tells_own _ _ _ T), IH by lia. reflexivity.
Qed.
Lemma str_meta o k rest : tells (t_mro o) (CMeta k) rest -> t_explicit o = None -> hands_on k ->
  forall f, str_of f o = Err RuntimeError.
Proof.
  intros T E K f. unfold str_of. induction f as [|f IH]; [reflexivity|]. cbn [str_from].
  rewrite (tells_next _ _ _ T). cbn [run]. rewrite E, (tells_own _ _ _ T), IH. cbn [bind]. now rewrite K.
Qed.

(** ** repr *)
Definition put (d : list (name * list N)) (l : list (name * list N)) := fold_left (fun d p => dict_set d (fst p) (snd p)) l d.
Lemma put_app d l m : put d (l ++ m) = put (put d l) m.
Proof. apply fold_left_app. Qed.
Lemma entries_put a e : repr_entries a e = put [] (a ++ e).
Proof. now rewrite put_app. Qed.
Lemma name_eqb_sym a b : name_eqb a b = name_eqb b a.
Proof. destruct (name_eqb b a) eqn:E; [apply name_eqb_eq in E as ->; apply name_eqb_refl|]. apply name_eqb_neq in E. apply name_eqb_neq. congruence. Qed.
Lemma set_names k v (d : list (name * list N)) : map fst (dict_set d k v) = if existsb (name_eqb k) (map fst d) then map fst d else map fst d ++ [k].
Proof.
  induction d as [|[n w] d IH]; [reflexivity|]. cbn [dict_set map fst existsb]. rewrite (name_eqb_sym k n).
  destruct (name_eqb n k) eqn:E; [reflexivity|]. cbn [map fst orb]. rewrite IH. destruct (existsb _ _); reflexivity.
Qed.
Lemma exists_in k l : existsb (name_eqb k) l = true <-> In k l.
Proof.
  rewrite existsb_exists. split.
  - intros (x & I & E). apply name_eqb_eq in E. now subst.
  - intros I. exists k. split; [exact I|apply name_eqb_refl].
Qed.
Lemma put_firsts l : firsts (map fst l) (map fst (put [] l)).
Proof.
  induction l as [|[n v] l IH] using rev_ind; [constructor|]. rewrite put_app, map_app. cbn [map fst put fold_left snd]. rewrite set_names.
  destruct (existsb (name_eqb n) (map fst (put [] l))) eqn:E.
  - apply FOld; [exact IH|]. now apply exists_in.
  - apply FNew; [exact IH|]. intros I. apply exists_in in I. congruence.
Qed.
Lemma firsts_nodup l m : firsts l m -> NoDup m.
Proof.
  induction 1 as [|l n m _ IH N|]; [constructor| |assumption]. apply NoDup_rev in IH. rewrite <- (rev_involutive (m ++ [n])).
  apply NoDup_rev. rewrite rev_app_distr. cbn [rev app]. apply NoDup_cons; [now rewrite <- in_rev|exact IH].
Qed.
Lemma set_in k v (d : list (name * list N)) n w : NoDup (map fst d) -> In (n, w) (dict_set d k v) <-> (n = k /\ w = v) \/ (n <> k /\ In (n, w) d).
Proof.
  induction d as [|[m u] d IH]; intros D; cbn [dict_set].
  - cbn [In]. split; [intros [E|[]]; injection E as <- <-; auto|intros [[-> ->]|[_ []]]; auto].
  - cbn [map fst] in D. inversion D as [|? ? D1 D2]; subst. destruct (name_eqb m k) eqn:E.
    + apply name_eqb_eq in E as ->. cbn [In]. split.
      * intros [Q|Q]; [injection Q as <- <-; auto|]. right. split; [|auto]. intros ->. apply D1. now apply (in_map fst) in Q.
      * intros [[-> ->]|[Q1 [Q2|Q2]]]; [auto| |auto]. injection Q2 as <- <-. congruence.
    + assert (m <> k) as E' by (intros ->; now rewrite name_eqb_refl in E). cbn [In]. rewrite IH by assumption. split.
      * intros [Q|[Q|Q]]; [injection Q as <- <-; auto|auto|tauto].
      * intros [Q|[Q1 [Q2|Q2]]]; auto.
Qed.
Lemma put_last l n v : In (n, v) (put [] l) <-> last_value l n v.
Proof.
  induction l as [|[k w] l IH] using rev_ind.
  - split; [intros []|]. intros (pre & post & E & _). destruct pre; discriminate.
  - rewrite put_app. cbn [put fold_left fst snd]. rewrite set_in by (eapply firsts_nodup, put_firsts). rewrite IH. split.
    + intros [[-> ->]|[Q (pre & post & -> & N)]].
      * exists l, []. split; [reflexivity|intros []].
      * exists pre, (post ++ [(k, w)]). split; [now rewrite <- app_assoc|]. rewrite map_app, in_app_iff. cbn. intros [I|[I|[]]]; auto.
    + intros (pre & post & E & N). destruct post as [|p post] using rev_ind.
      * apply app_inj_tail in E as [-> E]. injection E as -> ->. auto.
      * rewrite app_comm_cons, app_assoc in E. apply app_inj_tail in E as [-> <-]. rewrite map_app, in_app_iff in N. right. split.
        -- intros ->. apply N. right. now left.
        -- exists pre, post. split; [reflexivity|]. intros I. apply N. now left.
Qed.
Lemma joined_listed l : listed l (joined l).
Proof.
  induction l as [|[k v] l IH]; [constructor|]. destruct l as [|p l]; [constructor|].
  change (joined ((k, v) :: p :: l)) with (k ++ [61%N] ++ v ++ [44; 32]%N ++ joined (p :: l)). apply LiMore; [discriminate|exact IH].
Qed.
