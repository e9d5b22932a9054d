(** Proofs for C81. *)
From Coq Require Import String.
From Verif Require Import Base BaseFacts Model_Scalars Model_Strings Model_Text Model_Object Model_Clixml Model_FromHook.
From Verif Require Import Spec_Strings Spec_Scalars Spec_Clixml Spec_Read Spec_FromHook.
From Verif Require Import Proofs_Clixml1 Proofs_Clixml2 Proofs_Clixml3 Proofs_Clixml4 Proofs_Read Proofs_Read2 Proofs_Read3 Proofs_Read4.
Local Open Scope list_scope.
Local Open Scope nat_scope.

Lemma there_sound d : all_there d <-> sound d.
Proof.
  split.
  - intros (H1 & H2 & H3). split; [exact H1|intros a o Ha b Hb; eapply H2; eassumption|]. intros r v Hv. destruct v; cbn [live]; auto. eapply H3; eassumption.
  - intros [H1 H2 H3]. split; [exact H1|]. split; [intros a o b Ha Hb; exact (H2 a o Ha b Hb)|]. intros r a Ha. exact (H3 _ _ Ha).
Qed.

Section All.
  Variable hooks : from_hooks.
  Variable reg : registry.

  (** ** Nothing dangles *)
  Section Sound.
    Hypothesis HO : forall c f, hooks c = Some f -> obliging f.
    Lemma hooked_grows go d attrs kids r : keeps go -> sound d -> read_hooked hooks reg go d attrs kids = Ok r ->
      grows d (snd r) /\ live (d_next (snd r)) (fst r).
    Proof using HO.
      intros K HS H. unfold read_hooked in H. apply bind_Ok in H as (r0 & E & H). destruct (object_grows reg go K _ _ _ _ HS E) as [G L].
      unfold transform in H. destruct (class_read reg go d attrs kids) as [c|]; [|injection H as <-; auto].
      destruct (fst r0) as [| | | |a] eqn:Ea; try (injection H as <-; rewrite Ea; auto; fail).
      destruct (hooks c) as [f|] eqn:Ec; [|injection H as <-; rewrite Ea; auto].
      apply bind_Ok in H as ([v d'] & Ef & H). injection H as <-. cbn [fst snd] in *.
      destruct (HO c f Ec (snd r0) a v d' (proj2 (there_sound _) (proj1 G)) L Ef) as (A & Le & V).
      assert (live (d_next d') v) as LV by (destruct v; cbn [live]; auto). apply there_sound in A.
      rewrite update_next. split; [|exact LV]. eapply grows_trans; [exact G|]. eapply grows_trans; [split; [exact A|exact Le]|]. now apply update_grows.
    Qed.
    Theorem hdeser_keeps f : keeps (hdeser hooks reg f).
    Proof using HO.
      induction f as [|f IH]; intros d x r HS H; [discriminate|]. cbn [hdeser] in H.
      destruct (x_tag x) eqn:Et; try (exact (deser_keeps reg (S f) d x r HS H)). exact (hooked_grows _ _ _ _ _ IH HS H).
    Qed.
    Theorem hreading_closed xs : forall d r, sound d -> hread_values hooks reg d xs = Ok r -> grows d (snd r) /\ Forall (live (d_next (snd r))) (fst r).
    Proof using HO.
      induction xs as [|x xs IH]; intros d r HS H; cbn [hread_values] in H.
      - injection H as <-. split; [now apply grows_refl|constructor].
      - binds H. injection H as <-. cbn [fst snd]. destruct (hdeser_keeps _ _ _ _ HS E) as [G1 L1].
        destruct (IH _ _ (proj1 G1) E0) as [G2 L2]. split; [eapply grows_trans; eassumption|]. constructor; [|exact L2].
        eapply live_le; [exact (proj2 G2)|exact L1].
    Qed.
  End Sound.

  (** ** References *)
  Section Framed.
    Hypothesis HD : forall c f, hooks c = Some f -> discreet f.
    Lemma hooked_frame go d attrs kids r : frames go -> read_hooked hooks reg go d attrs kids = Ok r ->
      frame (own (attr_get AtRefId attrs) ++ flat_map marks kids) d (snd r)
      /\ (forall k, attr_get AtRefId attrs = Some k -> ~ In (MObj k) (flat_map marks kids) -> fst r = VNull \/ sget k (d_refs (snd r)) = Some (fst r)).
    Proof using HD.
      intros K H. unfold read_hooked in H. apply bind_Ok in H as (r0 & E & H). pose proof (object_frame reg go K _ _ _ _ E) as [F R].
      unfold transform in H. destruct (class_read reg go d attrs kids) as [c|]; [|injection H as <-; auto].
      destruct (fst r0) as [| | | |a] eqn:Ea; try (injection H as <-; rewrite Ea; auto; fail).
      destruct (hooks c) as [f|] eqn:Ec; [|injection H as <-; rewrite Ea; auto].
      apply bind_Ok in H as ([v d'] & Ef & H). injection H as <-. cbn [fst snd] in *. destruct (HD c f Ec _ _ _ _ Ef) as [D1 D2]. split.
      - eapply frame_trans; [exact F|]. eapply frame_trans; [apply (frame_same _ _ _ D1 D2)|]. apply frame_update. apply incl_appl, incl_refl.
      - intros k Ek _. rewrite Ek. apply update_recorded.
    Qed.
    Theorem hdeser_frames f : frames (hdeser hooks reg f).
    Proof using HD.
      induction f as [|f IH]; intros d x r H; [discriminate|]. cbn [hdeser] in H.
      destruct (x_tag x) eqn:Et; try (exact (deser_frames reg (S f) d x r H)).
      destruct (hooked_frame _ _ _ _ _ IH H) as [F _]. eapply frame_incl; [|exact F].
      rewrite marks_elem. apply incl_app; [|apply incl_appr, incl_refl]. apply incl_appl.
      unfold own_marks. rewrite Et. destruct (attr_get AtRefId (x_attrs x)); apply incl_refl.
    Qed.
    Lemma hreading_frames xs : forall d vs d', hread_values hooks reg d xs = Ok (vs, d') -> frame (flat_map marks xs) d d'.
    Proof using HD.
      induction xs as [|x xs IH]; intros d vs d' H; cbn [hread_values] in H; [injection H as _ <-; apply frame_refl|].
      binds H. destruct r0 as [vs0 d0]. injection H as _ <-. cbn [flat_map fst snd] in *. eapply frame_trans; [eapply frame_incl; [|exact (hdeser_frames _ _ _ _ E)]; apply incl_appl, incl_refl|].
      eapply frame_incl; [|exact (IH _ _ _ E0)]. apply incl_appr, incl_refl.
    Qed.
    Theorem hdeser_recorded d attrs text kids v d' k : hdeserialize hooks reg d (Elem TgObj attrs text kids) = Ok (v, d') ->
      attr_get AtRefId attrs = Some k -> ~ In (MObj k) (flat_map marks kids) -> v = VNull \/ sget k (d_refs d') = Some v.
    Proof using HD.
      unfold hdeserialize. cbn [height hdeser x_tag x_attrs x_kids]. intros H Hk Hn.
      destruct (hooked_frame _ _ _ _ _ (hdeser_frames _) H) as [_ R]. exact (R k Hk Hn).
    Qed.
  End Framed.

  (** ** Ordinary exceptions *)
  Section Calmly.
    Hypothesis HC : forall c f, hooks c = Some f -> calm f.
    Theorem hdeser_calm f : forall d x, height x <= f -> raises ordinary (hdeser hooks reg f d x).
    Proof using HC.
      induction f as [|f IH]; intros d [t attrs text kids] Hh; [cbn [height] in Hh; lia|]. cbn [hdeser x_tag].
      pose proof (height_kids _ _ _ _ _ Hh) as Hk. destruct t; try (now apply deser_calm).
      cbn [x_attrs x_kids]. unfold read_hooked. apply calm_bind; [now apply (object_calm reg _ f)|]. intros r _. unfold transform.
      destruct (class_read _ _ _ _ _); [|exact I]. destruct (fst r); try exact I. destruct (hooks c) as [g|] eqn:E; [|exact I].
      apply calm_bind; [apply (HC c g E)|intros; exact I].
    Qed.
    Theorem hreading_calm xs : forall d, raises ordinary (hread_values hooks reg d xs).
    Proof using HC.
      induction xs as [|x xs IH]; intros d; cbn [hread_values]; [exact I|].
      apply calm_bind; [apply hdeser_calm; lia|intros]. apply calm_bind; [apply IH|intros; exact I].
    Qed.
  End Calmly.
End All.

(** ** Methods that make one new object *)
Lemma new_discreet g : discreet (makes_new g).
Proof.
  intros d a v d' H. unfold makes_new in H. destruct (aget a (d_heap d)); [|discriminate]. apply bind_Ok in H as (o' & E & H). injection H as _ <-. auto.
Qed.
Lemma new_obliging g : (forall o o', g o = Ok o' -> forall b, mentions o' (VRef b) -> mentions o (VRef b)) -> obliging (makes_new g).
Proof.
  intros G d a v d' S La H. apply there_sound in S. unfold makes_new in H. destruct (aget a (d_heap d)) as [o|] eqn:Ea; [|discriminate].
  apply bind_Ok in H as (o' & E & H). assert (decent (d_next d + 1) o') as D.
  { intros b Hb. apply (G _ _ E) in Hb. pose proof (so_decent d S a o Ea b Hb). lia. }
  destruct (alloc_grows d o' S D) as [[GS GL] LV]. destruct (alloc d o') as [b d1]. injection H as <- <-. cbn [fst snd] in *.
  split; [now apply there_sound|]. split; [exact GL|]. intros c Q. injection Q as <-. exact LV.
Qed.

(** ** Documents whose classes have no method *)
Section Quiet.
  Variable hooks : from_hooks.
  Variable reg : registry.
  Hypothesis HP : plain_collections hooks.
  Definition quiet_tns (d : dst) : Prop := forall r ns, sget r (d_tns d) = Some ns -> no_method hooks reg ns.
  Definition quiet_doc (x : xml) : Prop := forall z ns, part_of z x -> gives_names z ns -> no_method hooks reg ns.
  Definition same {A} (pj : A -> dst) (r r' : result A) : Prop := r = r' /\ forall a, r = Ok a -> quiet_tns (pj a).
  Lemma same_bind {A B} (p : A -> dst) (q : B -> dst) x x' f f' : same p x x' -> (forall a, x = Ok a -> quiet_tns (p a) -> same q (f a) (f' a)) -> same q (bind x f) (bind x' f').
  Proof.
    intros [<- H1] H2. destruct x as [a|e]; cbn [bind]; [exact (H2 a eq_refl (H1 a eq_refl))|]. split; [reflexivity|]. intros a Q. discriminate Q.
  Qed.
  Lemma same_err {A} (p : A -> dst) e : same p (Err e) (Err e).
  Proof. split; [reflexivity|]. intros a Q. discriminate Q. Qed.
  Lemma same_ok {A} (p : A -> dst) a : quiet_tns (p a) -> same p (Ok a) (Ok a).
  Proof. intros H. split; [reflexivity|]. intros b Q. injection Q as <-. exact H. Qed.
  Lemma same_text {A B} (q : B -> dst) (x : result A) f f' : (forall a, x = Ok a -> same q (f a) (f' a)) -> same q (bind x f) (bind x f').
  Proof. intros H. destruct x; cbn [bind]; [auto|apply same_err]. Qed.
  Lemma quiet_modify d a f : quiet_tns d -> quiet_tns (modify d a f).
  Proof. intros H r ns. rewrite modify_tns. apply H. Qed.
  Lemma quiet_update d r v : quiet_tns d -> quiet_tns (update_ref d r v).
  Proof. intros H k ns. rewrite update_tns. apply H. Qed.
  Lemma quiet_alloc d o : quiet_tns d -> quiet_tns (snd (alloc d o)).
  Proof. intros H. exact H. Qed.
  Lemma quiet_kid x y : quiet_doc x -> In y (x_kids x) -> quiet_doc y.
  Proof. intros H I z ns Hz. apply (H z ns). eapply PartKid; eassumption. Qed.
  Definition good (g : nat) (x : xml) : Prop := quiet_doc x /\ height x <= g.
  Lemma good_kid g x y : good g x -> In y (x_kids x) -> good g y.
  Proof.
    intros [H1 H2] I. split; [eapply quiet_kid; eassumption|]. pose proof (kids_hmax g x H2) as K. unfold hmax in K. rewrite Forall_forall in K. auto.
  Qed.
  Section Go.
    Variables go go' : dst -> xml -> result (value * dst).
    Variable g : nat.
    Hypothesis HA : forall d x, quiet_tns d -> good g x -> same snd (go d x) (go' d x).
    Lemma items_same a l : Forall (good g) l -> forall d, quiet_tns d -> same (fun d => d) (read_items go d a l) (read_items go' d a l).
    Proof using HA.
      induction 1 as [|x l Hx HF IH]; intros d Hd; cbn [read_items]; [now apply same_ok|].
      eapply same_bind; [now apply HA|]. intros r _ Hr. apply IH. now apply quiet_modify.
    Qed.
    Lemma entries_same a l : Forall (good g) l -> forall d, quiet_tns d -> same (fun d => d) (read_entries go d a l) (read_entries go' d a l).
    Proof using HA.
      induction 1 as [|x l Hx HF IH]; intros d Hd; cbn [read_entries]; [now apply same_ok|].
      destruct (find_n (tx "Key") (x_kids x)) as [xk|] eqn:Ek; [|apply same_err]. destruct (find_n (tx "Value") (x_kids x)) as [xv|] eqn:Ev; [|apply same_err].
      eapply same_bind; [apply HA; [exact Hd|eapply good_kid; [exact Hx|eapply find_n_in; eassumption]]|]. intros rv _ Hv.
      eapply same_bind; [apply HA; [exact Hv|eapply good_kid; [exact Hx|eapply find_n_in; eassumption]]|]. intros rk _ Hk.
      destruct (hash _ _); [|apply same_err]. apply IH. now apply quiet_modify.
    Qed.
    Lemma props_same put1 a l : Forall (good g) l -> forall d, quiet_tns d -> same (fun d => d) (read_props go put1 d a l) (read_props go' put1 d a l).
    Proof using HA.
      induction 1 as [|x l Hx HF IH]; intros d Hd; cbn [read_props]; [now apply same_ok|]. destruct (attr_get AtN (x_attrs x)); [|apply same_err].
      apply same_text. intros n _. eapply same_bind; [now apply HA|]. intros r _ Hr. apply IH. now apply quiet_modify.
    Qed.
    Lemma dropped_same l : Forall (good g) l -> forall d, quiet_tns d -> same (fun d => d) (read_dropped go d l) (read_dropped go' d l).
    Proof using HA.
      induction 1 as [|x l Hx HF IH]; intros d Hd; cbn [read_dropped]; [now apply same_ok|]. destruct (attr_get AtN (x_attrs x)); [|apply same_err].
      apply same_text. intros n _. eapply same_bind; [now apply HA|]. intros r _ Hr. now apply IH.
    Qed.
    Definition aside (l : loc) : Prop :=
      (forall c, l_cls l = Some c -> hooks c = None) /\ (forall ps, l_props l = Some ps -> Forall (good g) ps) /\ (forall ps, l_ms l = Some ps -> Forall (good g) ps).
    Definition same_loc (r r' : result loc) : Prop := same l_d r r' /\ forall l, r = Ok l -> aside l.
    Lemma loc_err e : same_loc (Err e) (Err e).
    Proof. split; [apply same_err|]. intros l Q. discriminate Q. Qed.
    Lemma loc_bind {A} (p : A -> dst) x x' f f' : same p x x' -> (forall a, x = Ok a -> quiet_tns (p a) -> same_loc (f a) (f' a)) -> same_loc (bind x f) (bind x' f').
    Proof. intros [<- H1] H2. destruct x as [a|e]; cbn [bind]; [exact (H2 a eq_refl (H1 a eq_refl))|apply loc_err]. Qed.
    Lemma loc_text {A} (x : result A) f f' : (forall a, x = Ok a -> same_loc (f a) (f' a)) -> same_loc (bind x f) (bind x f').
    Proof. intros H. destruct x; cbn [bind]; [auto|apply loc_err]. Qed.
    Lemma loc_ok l : quiet_tns (l_d l) -> aside l -> same_loc (Ok l) (Ok l).
    Proof. intros H1 H2. split; [now apply same_ok|]. intros k Q. injection Q as <-. exact H2. Qed.
    Lemma child_same rid en l x : good g x -> quiet_tns (l_d l) -> aside l -> same_loc (read_child go rid en l x) (read_child go' rid en l x).
    Proof using HA HP.
      intros Hx Hd (A1 & A2 & A3).
      assert (Forall (good g) (x_kids x)) as Hk by (apply Forall_forall; intros y Hy; eapply good_kid; eassumption).
      assert (forall d v ps ms s c, quiet_tns d -> (forall c', c = Some c' -> hooks c' = None) -> (forall q, ps = Some q -> Forall (good g) q) -> (forall q, ms = Some q -> Forall (good g) q) ->
        same_loc (Ok (mkL d v c ps ms s)) (Ok (mkL d v c ps ms s))) as K.
      { intros d v ps ms s c Q1 Q2 Q3 Q4. apply loc_ok; [exact Q1|]. split; [exact Q2|split; [exact Q3|exact Q4]]. }
      assert (same_loc (let! r := go (l_d l) x in
        match en with
        | Some c => let! e := make_member c (fst r) in Ok (mkL (update_ref (snd r) rid (VEnum e)) (Some (VEnum e)) None (l_props l) (l_ms l) (l_str l))
        | None =>
          let names := match l_val l with Some (VRef a) => match aget a (d_heap (l_d l)) with Some o => g_names o | None => [] end | Some (VEnum e) => e_names e | _ => [] end in
          let fin d v := Ok (mkL (update_ref d rid v) (Some v) None (l_props l) (l_ms l) (l_str l)) in
          match fst r with
          | VPrim p => let (a, d1) := alloc (snd r) (mkG (BPrim p) (match names with [] => prim_names p | _ => names end) None [] []) in fin d1 (VRef a)
          | VRef a => fin (match names with [] => snd r | _ => modify (snd r) a (fun o => with_names o names) end) (VRef a)
          | VEnum e => fin (snd r) (VEnum e)
          | v => match names with [] => fin (snd r) v | _ => Err AttributeError end
          end
        end) (let! r := go' (l_d l) x in
        match en with
        | Some c => let! e := make_member c (fst r) in Ok (mkL (update_ref (snd r) rid (VEnum e)) (Some (VEnum e)) None (l_props l) (l_ms l) (l_str l))
        | None =>
          let names := match l_val l with Some (VRef a) => match aget a (d_heap (l_d l)) with Some o => g_names o | None => [] end | Some (VEnum e) => e_names e | _ => [] end in
          let fin d v := Ok (mkL (update_ref d rid v) (Some v) None (l_props l) (l_ms l) (l_str l)) in
          match fst r with
          | VPrim p => let (a, d1) := alloc (snd r) (mkG (BPrim p) (match names with [] => prim_names p | _ => names end) None [] []) in fin d1 (VRef a)
          | VRef a => fin (match names with [] => snd r | _ => modify (snd r) a (fun o => with_names o names) end) (VRef a)
          | VEnum e => fin (snd r) (VEnum e)
          | v => match names with [] => fin (snd r) v | _ => Err AttributeError end
          end
        end)) as Hgo.
      { eapply loc_bind; [apply HA; assumption|]. intros r _ Hr. destruct en as [c|].
        - apply loc_text. intros e _. apply K; [now apply quiet_update|intros c' Q; discriminate Q|exact A2|exact A3].
        - cbv zeta. set (names := match l_val l with Some (VRef a) => _ | Some (VEnum e) => _ | _ => _ end). clearbody names.
          destruct (fst r) as [|b|p|e|a].
          + destruct names; [|apply loc_err]. apply K; [now apply quiet_update|intros c' Q; discriminate Q|exact A2|exact A3].
          + destruct names; [|apply loc_err]. apply K; [now apply quiet_update|intros c' Q; discriminate Q|exact A2|exact A3].
          + unfold alloc. apply K; [apply quiet_update; exact Hr|intros c' Q; discriminate Q|exact A2|exact A3].
          + apply K; [now apply quiet_update|intros c' Q; discriminate Q|exact A2|exact A3].
          + apply K; [apply quiet_update; destruct names; [exact Hr|now apply quiet_modify]|intros c' Q; discriminate Q|exact A2|exact A3]. }
      assert (same_loc (Ok l) (Ok l)) as Kl by (apply loc_ok; [exact Hd|split; [exact A1|split; assumption]]).
      destruct HP as (P1 & P2 & P3). unfold read_child. cbv zeta. unfold alloc in Hgo.
      destruct (x_tag x); try exact Hgo; try exact Kl; unfold alloc.
      - apply K; auto. intros q Q. injection Q as <-. exact Hk.
      - apply K; auto. intros q Q. injection Q as <-. exact Hk.
      - apply loc_text. intros s _. apply K; assumption.
      - destruct (l_val l); [|apply loc_err]. eapply loc_bind; [apply items_same; [exact Hk|apply quiet_update; exact Hd]|]. intros d1 _ Hd1.
        apply K; auto. intros c' Q. injection Q as <-. destruct (l_cls l) as [c|] eqn:Ec; [|apply P3]. destruct (c_kind c) eqn:Ek; auto.
      - destruct (l_val l); [|apply loc_err]. match goal with |- same_loc (if ?k then _ else _) _ => destruct k end.
        + destruct v; try apply loc_err. eapply loc_bind; [apply items_same; assumption|]. intros d1 _ Hd1. apply K; auto.
        + eapply loc_bind; [apply items_same; [exact Hk|apply quiet_update; exact Hd]|]. intros d1 _ Hd1. apply K; auto. intros c' Q. injection Q as <-. exact P2.
      - destruct (l_val l); [|apply loc_err]. eapply loc_bind; [apply entries_same; [exact Hk|apply quiet_update; exact Hd]|]. intros d1 _ Hd1.
        apply K; auto. intros c' Q. injection Q as <-. destruct (l_cls l) as [c|] eqn:Ec; [|apply P1]. destruct (c_kind c) eqn:Ek; auto.
    Qed.
    Lemma children_same rid en kids : Forall (good g) kids -> forall l, quiet_tns (l_d l) -> aside l -> same_loc (read_children go rid en l kids) (read_children go' rid en l kids).
    Proof using HA HP.
      induction 1 as [|x kids Hx HF IH]; intros l Hd Ha; cbn [read_children]; [now apply loc_ok|].
      destruct (child_same rid en l x Hx Hd Ha) as [[E1 E2] E3]. rewrite <- E1. destruct (read_child go rid en l x) as [l'|e]; cbn [bind]; [|apply loc_err].
      apply IH; [now apply E2|now apply E3].
    Qed.
    Lemma names_quiet d kids r : quiet_tns d -> (forall ns, gives_names (Elem TgObj [] [] kids) ns -> no_method hooks reg ns) -> read_names d kids = Ok r ->
      quiet_tns (snd r) /\ no_method hooks reg (fst r).
    Proof.
      intros Hd HG H. unfold read_names in H.
      assert (no_method hooks reg (tn_texts kids)) as Ht.
      { assert (forall ks, incl ks kids -> no_method hooks reg (tn_texts ks)) as G; [|apply G, incl_refl].
        induction ks as [|k ks IH]; intros Hi; [intros n r0 c Q; discriminate Q|]. unfold tn_texts in *. cbn [filter].
        assert (incl ks kids) as Hi' by (intros y Hy; apply Hi; now right). destruct (is_tn (x_tag k)) eqn:Et; [|now apply IH]. cbn [flat_map].
        assert (gives_names (Elem TgObj [] [] kids) (map x_text (filter (fun y => is_t (x_tag y)) (x_kids k)))) as Gk.
        { exists k. split; [apply Hi; now left|]. split; [destruct (x_tag k); now try discriminate Et|].
          clear. induction (x_kids k) as [|y l IH]; [constructor|]. cbn [filter]. destruct y as [t at0 u ks]. destruct t; cbn [x_tag is_t]; try (apply TtOther; [cbn [x_tag]; discriminate|exact IH]).
          cbn [map x_text]. now apply TtName. }
        specialize (HG _ Gk). destruct (map x_text _) as [|n ns]; [exact (IH Hi')|]. intros n0 r0 c Q. injection Q as <- _. exact (HG n ns c eq_refl). }
      destruct (tn_texts kids) as [|n ns] eqn:En.
      - destruct (find_tag is_tnref kids) as [x|]; [|injection H as <-; split; [exact Hd|intros n r0 c Q; discriminate Q]].
        destruct (attr_get AtRefId (x_attrs x)) as [k|]; [|discriminate]. destruct (sget k (d_tns d)) as [l|] eqn:Ek; [|discriminate]. injection H as <-.
        split; [exact Hd|exact (Hd k l Ek)].
      - destruct (find_tag is_tn kids) as [x|]; [|injection H as <-; auto].
        destruct (attr_get AtRefId (x_attrs x)) as [k|]; [|discriminate]. injection H as <-. split; [|exact Ht]. cbn [snd]. intros k' ns'. cbn [d_tns].
        rewrite sget_sset. destruct (name_eqb k' k); [intros Q; injection Q as <-; exact Ht|apply Hd].
    Qed.
    Lemma object_same d attrs kids : Forall (good g) kids -> quiet_tns d -> (forall ns, gives_names (Elem TgObj [] [] kids) ns -> no_method hooks reg ns) ->
      same snd (read_hooked hooks reg go d attrs kids) (read_object reg go' d attrs kids).
    Proof using HA HP.
      intros Hk Hd HG.
      assert (same snd (read_object reg go d attrs kids) (read_object reg go' d attrs kids) /\ forall c, class_read reg go d attrs kids = Some c -> hooks c = None) as [S1 S2].
      { unfold read_object, class_read. cbv zeta. destruct (read_names d kids) as [rn|e] eqn:En; [|cbn [bind]; split; [apply same_err|intros c Q; discriminate Q]].
        destruct (names_quiet _ _ _ Hd HG En) as [Hd1 Hn]. cbn [bind].
        assert (exists v0 c0 en original d1, rehydrate reg (snd rn) (fst rn) (attr_get AtRefId attrs) = (v0, c0, en, original, d1) /\ quiet_tns d1 /\ forall c, c0 = Some c -> hooks c = None) as (v0 & c0 & en & original & d1 & E & Hd2 & Hc).
        { unfold rehydrate. cbv zeta. unfold alloc. destruct (match fst rn with [] => None | n :: _ => match n with [] => None | _ => reg n end end) as [c|] eqn:Ef.
          - assert (hooks c = None) as Hc. { destruct (fst rn) as [|n ns]; [discriminate|]. eapply Hn; [reflexivity|]. destruct n; [discriminate|exact Ef]. }
            destruct (c_kind c); do 5 eexists; (split; [reflexivity|]); (split; [try (apply quiet_update); exact Hd1|]); intros c' Q; try discriminate Q; injection Q as <-; exact Hc.
          - do 5 eexists. split; [reflexivity|]. split; [apply quiet_update; exact Hd1|]. intros c' Q. discriminate Q. }
        rewrite E. assert (aside (mkL d1 v0 c0 None None None)) as A0 by (split; [exact Hc|split; intros ps Q; discriminate Q]).
        destruct (children_same (attr_get AtRefId attrs) en kids Hk (mkL d1 v0 c0 None None None) Hd2 A0) as [[E1 E2] E3]. rewrite <- E1.
        destruct (read_children go (attr_get AtRefId attrs) en (mkL d1 v0 c0 None None None) kids) as [l|e]; cbn [bind]; [|split; [apply same_err|intros c Q; discriminate Q]].
        specialize (E2 l eq_refl). destruct (E3 l eq_refl) as (B1 & B2 & B3). split; [|exact B1].
        destruct (l_val l) as [v|]; [|apply same_err]. destruct v as [|b|p|e|a].
        - destruct (l_str l); [apply same_err|now apply same_ok].
        - destruct (l_str l); [apply same_err|now apply same_ok].
        - destruct (l_str l); [apply same_err|now apply same_ok].
        - eapply (same_bind (fun d => d)); [destruct (l_props l); [apply dropped_same; auto|now apply same_ok]|]. intros d4 _ H4.
          eapply (same_bind (fun d => d)); [destruct (l_ms l); [apply dropped_same; auto|now apply same_ok]|]. intros d5 _ H5. apply same_ok. now apply quiet_update.
        - assert (forall d0, quiet_tns d0 -> quiet_tns (match original with [] => d0 | _ => modify d0 a (fun o => with_names o original) end)) as Ho by (intros d0 H0; destruct original; [exact H0|now apply quiet_modify]).
          assert (quiet_tns (match l_str l with Some s => modify (l_d l) a (fun o => with_string o s) | None => l_d l end)) as Hs by (destruct (l_str l); [now apply quiet_modify|exact E2]).
          eapply (same_bind (fun d => d)); [destruct (l_props l); [apply props_same; auto|apply same_ok; auto]|]. intros d4 _ H4.
          eapply (same_bind (fun d => d)); [destruct (l_ms l); [apply props_same; auto|now apply same_ok]|]. intros d5 _ H5. now apply same_ok. }
      unfold read_hooked. destruct S1 as [S3 S4]. rewrite <- S3. destruct (read_object reg go d attrs kids) as [r|e]; cbn [bind]; [|apply same_err].
      unfold transform. destruct (class_read reg go d attrs kids) as [c|]; [|apply same_ok; auto]. rewrite (S2 c eq_refl). destruct (fst r); apply same_ok; auto.
    Qed.
  End Go.
  Theorem hdeser_quiet f : forall d x, quiet_tns d -> good f x -> same snd (hdeser hooks reg f d x) (deser reg f d x).
  Proof using HP.
    induction f as [|f IH]; intros d [t attrs text kids] Hd [Hq Hh]; [apply same_err|]. cbn [hdeser x_tag].
    assert (t <> TgObj -> same snd (deser reg (S f) d (Elem t attrs text kids)) (deser reg (S f) d (Elem t attrs text kids))) as Hf.
    { intros Ht. split; [reflexivity|]. intros [v d1] H. rewrite flat_fuel in H by assumption. destruct (flat_read _ _ _ _ _ (Ht : flat (Elem t attrs text kids)) H) as [-> _]. exact Hd. }
    destruct t; try (apply Hf; discriminate). clear Hf. cbn [x_attrs x_kids deser]. apply (object_same _ _ f).
    - exact IH.
    - apply Forall_forall. intros y Hy. split; [exact (quiet_kid _ _ Hq Hy)|]. apply height_kids in Hh. unfold hmax in Hh. rewrite Forall_forall in Hh. auto.
    - exact Hd.
    - intros ns (t & H1 & H2). apply (Hq (Elem TgObj attrs text kids)); [apply PartSelf|]. exists t. split; assumption.
  Qed.
  Theorem hreading_quiet xs : Forall quiet_doc xs -> forall d, quiet_tns d -> hread_values hooks reg d xs = read_values reg d xs.
  Proof using HP.
    induction 1 as [|x xs Hx HF IH]; intros d Hd; cbn [hread_values read_values]; [reflexivity|].
    destruct (hdeser_quiet (height x) d x Hd (conj Hx (le_n _))) as [E1 E2]. unfold hdeserialize, deserialize. rewrite E1.
    rewrite E1 in E2. destruct (deser reg (height x) d x) as [r|e]; cbn [bind]; [|reflexivity]. rewrite IH by (now apply E2). reflexivity.
  Qed.
End Quiet.

(** ** What the method is given *)
Lemma props_flat_same reg hooks f put1 a l : Forall flat l -> hmax f l -> forall d, read_props (hdeser hooks reg f) put1 d a l = read_props (deser reg f) put1 d a l.
Proof.
  induction 1 as [|x l Hx HF IH]; intros Hh d; cbn [read_props]; [reflexivity|]. inversion Hh as [|? ? Hhx Hhl]; subst. destruct (attr_get AtN (x_attrs x)); [|reflexivity].
  apply bind_ext. intros n _. assert (hdeser hooks reg f d x = deser reg f d x) as E.
  { destruct f as [|f]; [destruct x; cbn [height] in Hhx; lia|]. cbn [hdeser]. unfold flat in Hx. destruct (x_tag x) eqn:Et; try reflexivity. now elim Hx. }
  rewrite E. apply bind_ext. intros. now apply IH.
Qed.
Theorem hooked_read hooks reg d a s r u0 ts n ns c f b1 u1 ps b2 u2 ms v d' :
  hdeserialize hooks reg d (Elem TgObj a s [Elem TgTN [(AtRefId, r)] u0 ts; Elem TgProps b1 u1 ps; Elem TgMS b2 u2 ms]) = Ok (v, d') ->
  type_texts ts (n :: ns) -> registered reg (n :: ns) = Some c -> c_kind c = CPlain -> c_names c <> [] -> NoDup (c_adapted c) -> NoDup (c_extended c) ->
  hooks c = Some f -> Forall flat ps -> Forall flat ms ->
  exists d0 ad ex d1, aget (d_next d) (d_heap d0) = Some (mkG BPlain (c_names c) None ad ex)
    /\ props names_prop (reads reg d0) (map (fun n => (n, VNull)) (c_adapted c)) ps ad
    /\ props names_prop (reads reg d0) (map (fun n => (n, VNull)) (c_extended c)) ms ex
    /\ f d0 (d_next d) = Ok (v, d1) /\ d' = update_ref d1 (attr_get AtRefId a) v.
Proof.
  intros H Hts Hreg Hkind Hcn Na Ne Hf Hps Hms. apply type_texts_are in Hts. unfold hdeserialize in H. cbn [height] in H.
  match type of H with hdeser _ _ (S ?g) _ _ = _ => set (m := g) in * end.
  assert (hmax m ps /\ hmax m ms) as [Hp Hm].
  { split; [apply (inner_hmax TgProps b1 u1)|apply (inner_hmax TgMS b2 u2)]; subst m; cbn [height fold_right]; lia. }
  clearbody m. cbn [hdeser x_tag x_attrs x_kids] in H. unfold read_hooked, class_read, read_object, read_names, tn_texts in H. cbv zeta in H.
  cbn [flat_map filter is_tn x_tag x_kids] in H. rewrite Hts in H. cbn [app] in H.
  cbn [find_tag is_tn x_tag x_attrs attr_get attr_eqb bind fst snd] in H. unfold rehydrate in H. cbv zeta in H.
  assert (match n with [] => None | _ => reg n end = Some c) as Hr.
  { unfold registered in Hreg. exact Hreg || (destruct n; [discriminate|exact Hreg]). }
  rewrite Hr, Hkind in H. unfold alloc in H. cbn [d_next d_heap d_refs d_tns] in H. cbn [read_children] in H. unfold read_child in H.
  cbn [x_tag x_text x_kids l_d l_val l_cls l_props l_ms l_str bind] in H. destruct (c_names c) as [|n0 nr] eqn:Ecn; [now elim Hcn|].
  match type of H with context [read_props _ _ ?x _ _] => set (d3 := x) in * end.
  assert (aget (d_next d) (d_heap d3) = Some (mkG BPlain (n0 :: nr) None (map (fun n => (n, VNull)) (c_adapted c)) (map (fun n => (n, VNull)) (c_extended c)))) as Ho.
  { subst d3. set (d0 := update_ref _ _ _).
    assert (aget (d_next d) (d_heap d0) = Some (blank c)) as H0.
    { subst d0. rewrite update_heap. cbn [d_heap]. rewrite aget_aset, N.eqb_refl. reflexivity. }
    rewrite (modify_get _ _ (fun o => with_names o (n0 :: nr)) _ H0). unfold blank. rewrite Hkind. reflexivity. }
  clearbody d3. apply bind_Ok in H as (r0 & HO & H). binds HO. injection HO as <-. rewrite props_flat_same in E by assumption. rewrite props_flat_same in E0 by assumption.
  destruct (props_flat reg m add_adapted g_adapted ltac:(reflexivity) (fun o => mkG (g_body o) (g_names o) (g_string o) [] (g_extended o)) ltac:(reflexivity)
    _ ps Hps Hp _ _ _ Ho ltac:(cbn [g_adapted]; rewrite map_map; cbn [fst]; now rewrite map_id) E) as (o1 & A1 & A2 & A3 & A4 & A5).
  destruct o1 as [ob on os oa oe]. injection A2 as -> -> -> ->.
  destruct (props_flat reg m add_extended g_extended ltac:(reflexivity) (fun o => mkG (g_body o) (g_names o) (g_string o) (g_adapted o) []) ltac:(reflexivity)
    _ ms Hms Hm _ _ _ A1 ltac:(cbn [g_extended]; rewrite map_map; cbn [fst]; now rewrite map_id) E0) as (o2 & B1 & B2 & B3 & B4 & B5).
  destruct o2 as [ob on os oa' oe]. injection B2 as -> -> -> ->. cbn [g_adapted g_extended] in *.
  unfold transform in H. cbn [fst snd] in H. rewrite Hf in H. apply bind_Ok in H as ([v1 d1] & Ef & H). injection H as <- <-. cbn [fst snd].
  eexists _, oa, oe, d1. split; [exact B1|]. split; [apply A5; congruence|]. split; [apply B5; exact B4|]. split; [exact Ef|reflexivity].
Qed.

(** ** A check for examples *)
Fixpoint parts (x : xml) : list xml := let 'Elem t a s kids := x in x :: flat_map parts kids.
Lemma part_in z x : part_of z x -> In z (parts x).
Proof.
  induction 1 as [[t a s kids]|[t a s kids] y z Hy Hz IH]; [now left|]. right. apply in_flat_map. exists y. split; [exact Hy|exact IH].
Qed.
Definition unnamed (reg : registry) (x : xml) : bool :=
  match x_tag x with
  | TgTN => match filter (fun y => is_t (x_tag y)) (x_kids x) with y :: _ => match reg (x_text y) with None => true | Some _ => false end | [] => true end
  | _ => true
  end.
Lemma unnamed_quiet hooks reg x : forallb (unnamed reg) (parts x) = true -> forall z ns, part_of z x -> gives_names z ns -> no_method hooks reg ns.
Proof.
  intros H z ns Hz (t & H1 & H2 & H3). rewrite forallb_forall in H.
  assert (part_of t x) as Ht. { clear - Hz H1. induction Hz as [x|x y z Hy Hz IH]; [eapply PartKid; [exact H1|apply PartSelf]|eapply PartKid; [exact Hy|now apply IH]]. }
  specialize (H t (part_in _ _ Ht)). unfold unnamed in H. rewrite H2 in H. apply type_texts_are in H3. intros n r c -> Hc.
  destruct (filter _ _) as [|y l]; [discriminate|]. cbn [map] in H3. injection H3 as <- _. rewrite Hc in H. discriminate.
Qed.
