(** Reading documents of any writer: the content of flat objects, references, what is refused. *)
From Coq Require Import String.
From Verif Require Import Base BaseFacts Model_Scalars Model_Strings Model_Text Model_Object Model_Clixml.
From Verif Require Import Spec_Strings Spec_Scalars Spec_Clixml Spec_Read Proofs_Clixml1 Proofs_Clixml2 Proofs_Clixml3 Proofs_Clixml4 Proofs_Read Proofs_Read2 Proofs_Read3.
Local Open Scope list_scope.
Local Open Scope nat_scope.

(** ** Flat elements *)
Lemma flat_fuel reg f d x : flat x -> height x <= f -> deser reg f d x = deserialize reg d x.
Proof.
  unfold flat, deserialize. destruct x as [t a s kids]. cbn [x_tag]. intros Hf Hh. destruct f as [|f]; [cbn [height] in Hh; lia|].
  cbn [height deser]. destruct t; try reflexivity. now elim Hf.
Qed.
Lemma flat_read reg d x v d1 : flat x -> deserialize reg d x = Ok (v, d1) ->
  d1 = d /\ (forall d2, d_refs d2 = d_refs d -> deserialize reg d2 x = Ok (v, d2)).
Proof.
  unfold flat, deserialize. destruct x as [t a s kids]. cbn [x_tag height deser]. intros Hf.
  assert (forall r : option (result prim), match r with Some r => let! p := r in Ok (VPrim p, d) | None => Err ValueError end = Ok (v, d1) ->
    d1 = d /\ forall d2 : dst, d_refs d2 = d_refs d -> match r with Some r => let! p := r in Ok (VPrim p, d2) | None => Err ValueError end = Ok (v, d2)) as Hp.
  { intros [[p|e]|]; cbn [bind]; try discriminate. intros E. injection E as <- <-. auto. }
  destruct t; try (apply Hp).
  - now elim Hf.
  - destruct (attr_get AtRefId a) as [k|]; [|discriminate]. destruct (sget k (d_refs d)) as [w|] eqn:E; [|discriminate].
    intros H. injection H as -> <-. split; [reflexivity|]. intros d2 ->. rewrite E. reflexivity.
  - intros E. injection E as <- <-. auto.
  - intros E. injection E as <- <-. auto.
  - destruct (deserialize_string s); cbn [bind]; [|discriminate]. intros E. injection E as <- <-. auto.
Qed.
Lemma find_n_first n l x : find_n n l = Some x -> first_named n l x.
Proof.
  induction l as [|y l IH]; cbn [find_n]; [discriminate|].
  destruct (attr_get AtN (x_attrs y)) as [m|] eqn:E; [destruct (name_eqb m n) eqn:F|].
  - intros H. injection H as ->. apply name_eqb_iff in F. subst m. exists [], l. repeat split; [exact E|constructor].
  - intros H. destruct (IH H) as (pre & post & -> & H1 & H2). exists (y :: pre), post. repeat split; [exact H1|].
    constructor; [|exact H2]. unfold named. rewrite E. intros G. injection G as ->. rewrite name_eqb_refl in F. discriminate.
  - intros H. destruct (IH H) as (pre & post & -> & H1 & H2). exists (y :: pre), post. repeat split; [exact H1|].
    constructor; [|exact H2]. unfold named. rewrite E. discriminate.
Qed.
Lemma find_n_none n l : find_n n l = None <-> Forall (fun y => ~ named n y) l.
Proof.
  induction l as [|y l IH]; cbn [find_n]; [split; auto|]. unfold named in *. destruct (attr_get AtN (x_attrs y)) as [m|] eqn:E.
  - destruct (name_eqb m n) eqn:F.
    + apply name_eqb_iff in F. subst m. split; [discriminate|]. intros H. inversion H. congruence.
    + rewrite IH. split; [constructor; [|assumption]|intros H; now inversion H]. rewrite E. intros G. injection G as ->. rewrite name_eqb_refl in F. discriminate.
  - rewrite IH. split; [constructor; [|assumption]|intros H; now inversion H]. rewrite E. discriminate.
Qed.

(** ** The keys of a dictionary *)
Definition plain_value (v : value) : Prop := match v with VNull | VBool _ => True | VPrim (PPlainInt _) => False | VPrim _ => True | _ => False end.
Lemma read_prim_plain t s p : read_prim t s = Some (Ok p) -> plain_value (VPrim p).
Proof.
  intros H. destruct p; try exact I. exfalso.
  destruct t; cbn [read_prim] in H; try discriminate;
    try (match type of H with Some (bind ?x _) = _ => destruct x; cbn [bind] in H; discriminate end);
    try (destruct s; [discriminate|]); try discriminate;
    match type of H with Some (bind ?x _) = _ => destruct x; cbn [bind] in H; discriminate end.
Qed.
Lemma flat_plain reg d x v d1 : flat x -> x_tag x <> TgRef -> deserialize reg d x = Ok (v, d1) -> plain_value v.
Proof.
  unfold flat, deserialize. destruct x as [t a s kids]. cbn [x_tag height deser]. intros Hf Hr.
  assert (forall r : option (result prim), read_prim t s = r -> match r with Some r => let! p := r in Ok (VPrim p, d) | None => Err ValueError end = Ok (v, d1) -> plain_value v) as Hp.
  { intros [[p|e]|] E; cbn [bind]; try discriminate. intros H. injection H as <- <-. exact (read_prim_plain _ _ _ E). }
  destruct t; try (apply Hp; reflexivity).
  - now elim Hf.
  - now elim Hr.
  - intros E. injection E as <- <-. exact I.
  - intros E. injection E as <- <-. exact I.
  - destruct (deserialize_string s); cbn [bind]; [|discriminate]. intros E. injection E as <- <-. exact I.
Qed.
Lemma plain_back v : plain_value v -> value_back v = v.
Proof. destruct v as [|b|p| |]; try contradiction; try reflexivity. destruct p; try contradiction; reflexivity. Qed.
Lemma plain_good v hk h : plain_value v -> hash h v = Some hk -> (forall s, v <> VPrim (PSecure s)) -> good_key v.
Proof. destruct v as [|b|p| |]; try contradiction; intros H1 H2 H3; cbn; auto. destruct p; cbn in *; auto; try discriminate. eapply H3. reflexivity. Qed.
Lemma hash_same h k l hk hl : plain_value k -> plain_value l -> hash h k = Some hk -> hash h l = Some hl ->
  (hkey_eqb hk hl = true <-> same_key k l).
Proof.
  intros Pk Pl Hk Hl.
  assert ((exists s, k = VPrim (PSecure s)) \/ forall s, k <> VPrim (PSecure s)) as [[s ->]|Sk].
  { destruct k as [| |p| |]; try (right; discriminate). destruct p; try (right; discriminate). left. eauto. }
  { cbn in Hk. injection Hk as <-. split; [intros H; apply hkey_eqb_iff in H; destruct H as [_ H]; now elim H|intros [_ H]; now elim (H s)]. }
  assert ((exists s, l = VPrim (PSecure s)) \/ forall s, l <> VPrim (PSecure s)) as [[s ->]|Sl].
  { destruct l as [| |p| |]; try (right; discriminate). destruct p; try (right; discriminate). left. eauto. }
  { cbn in Hl. injection Hl as <-. split.
    - intros H. apply hkey_eqb_iff in H. destruct H as [-> H]. now elim H.
    - intros [E _]. exfalso. inversion E; subst; try discriminate. now elim (Sk s). }
  pose proof (plain_good _ _ _ Pk Hk Sk) as Gk. pose proof (plain_good _ _ _ Pl Hl Sl) as Gl. split.
  - intros H. split; [|exact Sk].
    apply hkey_eqb_iff in H. destruct H as [H _]. subst hl.
    destruct k as [|b|p| |], l as [|b'|q| |]; cbn [good_key] in *; try contradiction; cbn [hash] in Hk, Hl;
      try (injection Hk as <-; injection Hl as F).
    all: repeat match goal with p : prim |- _ => destruct p; cbn in Gk, Gl; try contradiction; cbn in Hk, Hl end; try congruence.
    all: try (injection Hk as <-; injection Hl as F; subst; try discriminate).
    all: try apply EqSame.
    all: try (eapply EqNumber; cbn [number]; [reflexivity|]; f_equal; congruence).
    all: try apply EqText; try apply EqFloat.
    all: try (destruct b, b'; try discriminate; apply EqSame).
    all: try contradiction.
    apply EqDate; [|rewrite <- !instant_moment; congruence]. destruct (dt_tz d), (dt_tz d0); try discriminate; split; congruence.
  - intros [E _]. apply hkey_eqb_iff.
    assert (hk = hl /\ hk <> HOwn) as H; [|exact H].
    destruct E as [k|k l z H1 H2| | |d e H1 H2].
    + split; [congruence|]. destruct k as [|b|p| |]; cbn in Hk; try (injection Hk as <-; discriminate); try contradiction.
      destruct p; cbn in *; try contradiction; try (injection Hk as <-; discriminate).
    + assert (forall v hv, number v = Some z -> plain_value v -> hash h v = Some hv -> hv = HNum z) as Hn.
      { intros v hv Hv Pv Hh. destruct v as [|b|p| |]; try discriminate; [cbn in *; congruence|]. destruct p; try discriminate; try contradiction; cbn in *; congruence. }
      rewrite (Hn k hk H1 Pk Hk), (Hn l hl H2 Pl Hl). split; [reflexivity|discriminate].
    + cbn in Hk, Hl. split; [congruence|]. injection Hk as <-. discriminate.
    + cbn in Hk, Hl. split; [congruence|]. injection Hk as <-. discriminate.
    + cbn in Hk, Hl. rewrite !instant_moment in *. injection Hk as <-. injection Hl as <-. split; [|discriminate].
      rewrite H2. destruct (dt_tz d), (dt_tz e); try reflexivity; exfalso; destruct H1 as [H1 H3]; [discriminate (H3 eq_refl)|discriminate (H1 eq_refl)].
Qed.
Lemma put_is h hk k v e : plain_value k -> hash h k = Some hk -> Forall (fun x => plain_value (fst x) /\ exists hx, hash h (fst x) = Some hx) e ->
  put_entry k v e (dict_put h hk k v e).
Proof.
  intros Pk Hk HF.
  assert (forall pre, Forall (fun x => ~ same_key (fst x) k) pre -> put_entry k v (pre ++ e) (pre ++ dict_put h hk k v e)) as H.
  { induction HF as [|[k' w] e [Px [hx Hx]] HF IH]; intros pre Hpre; cbn [dict_put].
    - rewrite app_nil_r. now apply PutNew.
    - cbn [fst] in *. rewrite Hx. destruct (hkey_eqb hx hk) eqn:E.
      + apply PutOver; [exact Hpre|]. apply (hash_same h k' k hx hk); assumption.
      + specialize (IH (pre ++ [(k', w)])). rewrite <- !app_assoc in IH. apply IH. apply Forall_app. split; [exact Hpre|].
        constructor; [|constructor]. cbn [fst]. intros G. apply (hash_same h k' k hx hk) in G; try assumption. congruence. }
  exact (H [] (Forall_nil _)).
Qed.
Lemma plain_hash h h' v : plain_value v -> hash h v = hash h' v.
Proof. destruct v; try contradiction; reflexivity. Qed.
Lemma put_keys h hk k v e : forall x, In x (dict_put h hk k v e) -> fst x = k \/ exists y, In y e /\ fst x = fst y.
Proof.
  induction e as [|[k' w] e IH]; cbn [dict_put]; intros x Hx; [destruct Hx as [<-|[]]; now left|].
  destruct (match hash h k' with Some x => hkey_eqb x hk | None => false end); destruct Hx as [<-|Hx].
  - right. exists (k', w). split; [now left|reflexivity].
  - right. exists x. split; [now right|reflexivity].
  - right. exists (k', w). split; [now left|reflexivity].
  - destruct (IH x Hx) as [H|(y & H1 & H2)]; [now left|right; exists y; split; [now right|exact H2]].
Qed.
Lemma prop_put_is n v e : NoDup (map fst e) -> put_prop n v e (prop_put n v e) /\ NoDup (map fst (prop_put n v e)).
Proof.
  intros HN.
  assert (map fst (prop_put n v e) = if existsb (fun m => name_eqb m n) (map fst e) then map fst e else map fst e ++ [n]) as Hm.
  { clear HN. induction e as [|[m w] e IH]; [reflexivity|]. cbn [prop_put map fst existsb]. destruct (name_eqb m n) eqn:E; cbn [map fst orb].
    - apply name_eqb_iff in E. now subst m.
    - rewrite IH. destruct (existsb _ (map fst e)); reflexivity. }
  split.
  - clear Hm. assert (forall pre, ~ In n (map fst pre) -> put_prop n v (pre ++ e) (pre ++ prop_put n v e)) as H.
    { clear HN. induction e as [|[m w] e IH]; intros pre Hpre; cbn [prop_put]; [rewrite app_nil_r; now apply PropNew|].
      destruct (name_eqb m n) eqn:E.
      - apply name_eqb_iff in E. subst m. now apply PropOver.
      - specialize (IH (pre ++ [(m, w)])). rewrite <- !app_assoc in IH. apply IH. rewrite map_app, in_app_iff. cbn [map fst In].
        intros [H|[H|[]]]; [auto|]. subst m. rewrite name_eqb_refl in E. discriminate. }
    apply (H []). auto.
  - rewrite Hm. destruct (existsb _ _) eqn:E; [exact HN|]. apply NoDup_app_single; [exact HN|]. intros Hx. rewrite <- Bool.not_true_iff_false, existsb_exists in E. apply E. exists n. split; [exact Hx|apply name_eqb_refl].
Qed.

(** ** Filling *)
Section Flat.
  Variable reg : registry.
  Variable f : nat.
  Definition reads (d : dst) (x : xml) (v : value) : Prop := deserialize reg d x = Ok (v, d).
  Lemma flat_go d x r : flat x -> height x <= f -> deser reg f d x = Ok r -> snd r = d /\ forall d2, d_refs d2 = d_refs d -> reads d2 x (fst r).
  Proof.
    intros Hx Hh H. rewrite flat_fuel in H by assumption. destruct r as [v d1]. destruct (flat_read _ _ _ _ _ Hx H) as [-> H2].
    split; [reflexivity|exact H2].
  Qed.
  Definition list_like (b : body) (vs : list value) : option body :=
    match b with BList k l => Some (BList k (l ++ vs)) | BQueue l => Some (BQueue (l ++ vs)) | _ => None end.
  Lemma items_flat a l : Forall flat l -> hmax f l -> forall d d' o b, aget a (d_heap d) = Some o -> list_like (g_body o) [] = Some b ->
    read_items (deser reg f) d a l = Ok d' ->
    exists vs b', list_like (g_body o) vs = Some b' /\ aget a (d_heap d') = Some (with_body o b') /\ d_refs d' = d_refs d
      /\ forall d2, d_refs d2 = d_refs d -> Forall2 (reads d2) l vs.
  Proof.
    intros HF. induction HF as [|x l Hx HF IH]; intros Hh d d' o b Ho Hb H; cbn [read_items] in H.
    - injection H as <-. exists [], b. split; [exact Hb|]. split; [|split; [reflexivity|constructor]].
      rewrite Ho. destruct o as [bo ? ? ? ?]. cbn [g_body] in Hb. destruct bo; try discriminate; injection Hb as <-; cbn; rewrite app_nil_r; reflexivity.
    - inversion Hh as [|? ? Hhx Hhl]; subst. binds H. destruct (flat_go _ _ _ Hx Hhx E) as [Es Er]. destruct r as [v d1]. cbn [fst snd] in *. subst d1.
      assert (exists o1 b1, aget a (d_heap (modify d a (append_item v))) = Some o1 /\ append_item v o = o1 /\ list_like (g_body o1) [] = Some b1
        /\ forall vs, list_like (g_body o1) vs = list_like (g_body o) (v :: vs)
        /\ forall b', with_body o1 b' = with_body o b') as (o1 & b1 & H1 & H2 & H3 & H4).
      { rewrite (modify_get _ _ _ _ Ho). destruct o as [bo ? ? ? ?]. cbn [g_body] in Hb. unfold append_item. cbn [g_body].
        destruct bo; try discriminate; do 2 eexists; (split; [reflexivity|]); (split; [reflexivity|]); cbn [with_body g_body list_like];
          (split; [reflexivity|]); intros vs; rewrite <- app_assoc; split; reflexivity. }
      destruct (IH Hhl _ _ _ _ H1 H3 H) as (vs & b' & G1 & G2 & G3 & G4).
      exists (v :: vs), b'. rewrite modify_refs in *. destruct (H4 vs) as [H5 H6]. rewrite H6 in G2. rewrite <- H5. repeat split; auto.
  Qed.
  Definition plain_key (x : xml) : Prop := Forall flat (x_kids x) /\ forall k, first_named (tx "Key") (x_kids x) k -> x_tag k <> TgRef.
  Lemma entries_flat a l : Forall plain_key l -> Forall (fun x => hmax f (x_kids x)) l -> forall d d' o e, aget a (d_heap d) = Some o -> g_body o = BDict e ->
    Forall (fun x => plain_value (fst x) /\ exists hx, hash [] (fst x) = Some hx) e ->
    read_entries (deser reg f) d a l = Ok d' ->
    exists e', aget a (d_heap d') = Some (with_body o (BDict e')) /\ d_refs d' = d_refs d /\ forall d2, d_refs d2 = d_refs d -> entries (reads d2) e l e'.
  Proof.
    intros HF. induction HF as [|x l [Hx Hxk] HF IH]; intros Hh d d' o e Ho Hb He H; cbn [read_entries] in H.
    - injection H as <-. exists e. split; [|split; [reflexivity|constructor]]. rewrite Ho. destruct o. cbn in Hb. subst. reflexivity.
    - inversion Hh as [|? ? Hhx Hhl]; subst.
      destruct (find_n (tx "Key") (x_kids x)) as [xk|] eqn:Ek; [|discriminate]. destruct (find_n (tx "Value") (x_kids x)) as [xv|] eqn:Ev; [|discriminate].
      pose proof (find_n_in _ _ _ Ek) as Ik. pose proof (find_n_in _ _ _ Ev) as Iv. apply find_n_first in Ek. apply find_n_first in Ev.
      unfold hmax in Hhx. rewrite Forall_forall in Hhx, Hx. binds H.
      destruct (flat_go _ _ _ (Hx _ Iv) (Hhx _ Iv) E) as [Es Er]. destruct r as [v d1]. cbn [fst snd] in *. subst d1.
      destruct (flat_go _ _ _ (Hx _ Ik) (Hhx _ Ik) E0) as [Fs Fr]. destruct r0 as [k d1]. cbn [fst snd] in *. subst d1.
      assert (plain_value k) as Pk.
      { eapply flat_plain; [exact (Hx _ Ik)|exact (Hxk _ Ek)|]. apply (Fr d). reflexivity. }
      destruct (hash (d_heap d) k) as [hk|] eqn:Hk; [|discriminate]. cbv zeta in H.
      match type of H with read_entries _ (modify _ _ ?g) _ _ = _ => pose proof (modify_get d a g o Ho) as Hm end. cbv beta in Hm. rewrite Hb in Hm.
      assert (forall x0, In x0 (dict_put (d_heap d) hk k v e) -> plain_value (fst x0) /\ exists hx, hash [] (fst x0) = Some hx) as He1.
      { intros y Hy. apply put_keys in Hy. destruct Hy as [->|(z & Hz & ->)].
        - split; [exact Pk|]. exists hk. rewrite <- Hk. now apply plain_hash.
        - rewrite Forall_forall in He. now apply He. }
      destruct (IH Hhl _ _ _ _ Hm eq_refl (proj2 (Forall_forall _ _) He1) H) as (e' & G1 & G2 & G3). rewrite modify_refs in *.
      exists e'. split; [rewrite G1; reflexivity|]. split; [exact G2|]. intros d2 Hd2.
      eapply EntCons; [exact Ek|exact Ev|now apply Fr|now apply Er| |now apply G3].
      apply put_is; [exact Pk|exact Hk|]. eapply Forall_impl; [|exact He]. cbv beta. intros y [Py [hy Hy]]. split; [exact Py|]. exists hy.
      rewrite <- Hy. now apply plain_hash.
  Qed.
  Variable put1 : name -> value -> gobj -> gobj.
  Variable proj : gobj -> list (name * value).
  Hypothesis Hproj : forall n v o, proj (put1 n v o) = prop_put n v (proj o).
  Variable rest : gobj -> gobj.
  Hypothesis Hrest : forall n v o, rest (put1 n v o) = rest o.
  Definition names_prop (s : list N) (n : name) : Prop := deserialize_string s = Ok n.
  Lemma props_flat a l : Forall flat l -> hmax f l -> forall d d' o, aget a (d_heap d) = Some o -> NoDup (map fst (proj o)) ->
    read_props (deser reg f) put1 d a l = Ok d' ->
    exists o', aget a (d_heap d') = Some o' /\ rest o' = rest o /\ NoDup (map fst (proj o')) /\ d_refs d' = d_refs d
      /\ forall d2, d_refs d2 = d_refs d -> props names_prop (reads d2) (proj o) l (proj o').
  Proof.
    intros HF. induction HF as [|x l Hx HF IH]; intros Hh d d' o Ho HN H; cbn [read_props] in H.
    - injection H as <-. exists o. repeat split; auto. constructor.
    - inversion Hh as [|? ? Hhx Hhl]; subst. destruct (attr_get AtN (x_attrs x)) as [s|] eqn:En; [|discriminate]. binds H.
      destruct (flat_go _ _ _ Hx Hhx E0) as [Es Er]. destruct r0 as [v d1]. cbn [fst snd] in *. subst d1.
      pose proof (modify_get d a (put1 r v) o Ho) as Hm. destruct (prop_put_is r v (proj o) HN) as [P1 P2]. rewrite <- Hproj in P1, P2.
      destruct (IH Hhl _ _ _ Hm P2 H) as (o' & G1 & G2 & G3 & G4 & G5). rewrite modify_refs in *.
      exists o'. split; [exact G1|]. split; [rewrite G2; apply Hrest|]. split; [exact G3|]. split; [exact G4|]. intros d2 Hd2.
      eapply PrCons; [exact En|exact E|now apply Er|exact P1|now apply G5].
  Qed.
End Flat.

(** ** Objects whose parts are flat *)
Lemma kids_heights x kids a s f : In x kids -> height (Elem TgObj a s kids) <= S f -> height x <= f.
Proof. intros Hi H. apply height_kids in H. unfold hmax in H. rewrite Forall_forall in H. auto. Qed.
Lemma inner_hmax t b s l f : height (Elem t b s l) <= f -> hmax f l.
Proof. intros H. destruct f as [|f]; [cbn [height] in H; lia|]. apply hmax_le with (g := f); [now apply height_kids in H|lia]. Qed.
Lemma update_heap d r v : d_heap (update_ref d r v) = d_heap d.
Proof. unfold update_ref. destruct r, v; reflexivity. Qed.
Lemma no_names_list reg d a s t b u l v d' : deserialize reg d (Elem TgObj a s [Elem t b u l]) = Ok (v, d') ->
  (exists k, t = TgList k) \/ t = TgQUE \/ t = TgDCT ->
  let c := match t with TgList k => cls_list k | TgQUE => cls_queue | _ => cls_dict end in
  let d1 := update_ref (snd (alloc d (mkG BPlain [] None [] []))) (attr_get AtRefId a) (VRef (d_next d)) in
  let d2 := update_ref (snd (alloc d1 (blank c))) (attr_get AtRefId a) (VRef (d_next d1)) in
  exists f, height (Elem t b u l) <= f /\ v = VRef (d_next d1)
    /\ match t with TgDCT => read_entries (deser reg f) d2 (d_next d1) l | _ => read_items (deser reg f) d2 (d_next d1) l end = Ok d'.
Proof.
  unfold deserialize. cbn [height]. set (f := fold_right _ 0 _). intros H Ht.
  assert (height (Elem t b u l) <= f) as Hh by (subst f; cbn [fold_right]; apply Nat.le_max_l). clearbody f.
  cbn [deser] in H. cbv zeta. exists f. split; [exact Hh|].
  unfold read_object, read_names, tn_texts in H. cbv zeta in H.
  destruct Ht as [(k & ->)|[-> | ->]]; cbn [flat_map filter is_tn x_tag map find_tag is_tnref bind fst snd rehydrate] in H;
    unfold rehydrate, alloc in H; cbv zeta in H; cbn [map] in H; cbn [read_children] in H; unfold read_child in H;
    cbn [x_tag x_kids l_val l_cls l_d l_props l_ms l_str] in H; unfold alloc in H; cbv zeta in H; unfold alloc; cbn [snd];
    rewrite !update_next in *; cbn [d_next] in *; match type of H with context [bind ?x _] => match x with read_items _ _ _ _ => destruct x as [d3|e] eqn:E; [|discriminate] | read_entries _ _ _ _ => destruct x as [d3|e] eqn:E; [|discriminate] end end;
    cbn [bind l_val l_str l_d l_props l_ms] in H; injection H as <- <-; (split; reflexivity).
Qed.
Definition gets (d : dst) (v : value) (o : gobj) : Prop := exists a, v = VRef a /\ aget a (d_heap d) = Some o.
Theorem list_read reg d a s k b u l v d' : deserialize reg d (Elem TgObj a s [Elem (TgList k) b u l]) = Ok (v, d') -> Forall flat l ->
  exists vs, gets d' v (mkG (BList k vs) (list_names k) None [] []) /\ Forall2 (reads reg d') l vs.
Proof.
  intros H HF. destruct (no_names_list _ _ _ _ _ _ _ _ _ _ H (or_introl (ex_intro _ k eq_refl))) as (f & Hh & -> & E). clear H.
  match type of E with read_items _ ?dd _ _ = _ => set (d2 := dd) in * end.
  assert (aget (d_next (update_ref (snd (alloc d (mkG BPlain [] None [] []))) (attr_get AtRefId a) (VRef (d_next d)))) (d_heap d2) = Some (blank (cls_list k))) as Ho.
  { subst d2. rewrite update_heap. cbn [alloc snd d_heap]. rewrite aget_aset, N.eqb_refl. reflexivity. }
  destruct (items_flat reg f _ l HF (inner_hmax _ _ _ _ _ Hh) _ _ _ _ Ho eq_refl E) as (vs & b' & G1 & G2 & G3 & G4).
  cbn in G1. injection G1 as <-. exists vs. split.
  - eexists. split; [reflexivity|]. rewrite G2. unfold with_body, blank. cbn. destruct k; reflexivity.
  - apply G4. exact G3.
Qed.
Theorem queue_read reg d a s b u l v d' : deserialize reg d (Elem TgObj a s [Elem TgQUE b u l]) = Ok (v, d') -> Forall flat l ->
  exists vs, gets d' v (mkG (BQueue vs) queue_names None [] []) /\ Forall2 (reads reg d') l vs.
Proof.
  intros H HF. destruct (no_names_list _ _ _ _ _ _ _ _ _ _ H (or_intror (or_introl eq_refl))) as (f & Hh & -> & E). clear H.
  match type of E with read_items _ ?dd _ _ = _ => set (d2 := dd) in * end.
  assert (aget (d_next (update_ref (snd (alloc d (mkG BPlain [] None [] []))) (attr_get AtRefId a) (VRef (d_next d)))) (d_heap d2) = Some (blank cls_queue)) as Ho.
  { subst d2. rewrite update_heap. cbn [alloc snd d_heap]. rewrite aget_aset, N.eqb_refl. reflexivity. }
  destruct (items_flat reg f _ l HF (inner_hmax _ _ _ _ _ Hh) _ _ _ _ Ho eq_refl E) as (vs & b' & G1 & G2 & G3 & G4).
  cbn in G1. injection G1 as <-. exists vs. split.
  - eexists. split; [reflexivity|]. rewrite G2. reflexivity.
  - apply G4. exact G3.
Qed.
Theorem table_read reg d a s b u l v d' : deserialize reg d (Elem TgObj a s [Elem TgDCT b u l]) = Ok (v, d') -> Forall plain_key l ->
  exists e, gets d' v (mkG (BDict e) table_names None [] []) /\ entries (reads reg d') [] l e.
Proof.
  intros H HF. destruct (no_names_list _ _ _ _ _ _ _ _ _ _ H (or_intror (or_intror eq_refl))) as (f & Hh & -> & E). clear H.
  match type of E with read_entries _ ?dd _ _ = _ => set (d2 := dd) in * end.
  assert (aget (d_next (update_ref (snd (alloc d (mkG BPlain [] None [] []))) (attr_get AtRefId a) (VRef (d_next d)))) (d_heap d2) = Some (blank cls_dict)) as Ho.
  { subst d2. rewrite update_heap. cbn [alloc snd d_heap]. rewrite aget_aset, N.eqb_refl. reflexivity. }
  assert (Forall (fun x => hmax f (x_kids x)) l) as Hl.
  { eapply Forall_impl; [|exact (inner_hmax _ _ _ _ _ Hh)]. intros y Hy. destruct y. eapply inner_hmax. exact Hy. }
  destruct (entries_flat reg f _ l HF Hl _ _ _ [] Ho eq_refl (Forall_nil _) E) as (e' & G1 & G2 & G3).
  exists e'. split.
  - eexists. split; [reflexivity|]. rewrite G1. reflexivity.
  - apply G3. exact G2.
Qed.
(** Plain objects. *)
Definition t_of (n : name) : xml := Elem TgT [] n [].
Lemma t_texts ns : map x_text (filter (fun y => is_t (x_tag y)) (map t_of ns)) = ns.
Proof. induction ns as [|n ns IH]; [reflexivity|]. cbn [map filter t_of x_tag is_t x_text]. now rewrite IH. Qed.
Lemma type_texts_are ts ns : type_texts ts ns -> map x_text (filter (fun y => is_t (x_tag y)) ts) = ns.
Proof.
  induction 1 as [|a n k l ns _ IH|x l ns Hx _ IH]; [reflexivity| |].
  - cbn [filter is_t x_tag map x_text]. now rewrite IH.
  - cbn [filter]. destruct x as [t b u k]. cbn [x_tag] in *. destruct t; try exact IH. now elim Hx.
Qed.
Theorem plain_read reg d a s r u0 ts ns b1 u1 ps b2 u2 ms b3 str text kids3 v d' :
  deserialize reg d (Elem TgObj a s [Elem TgTN [(AtRefId, r)] u0 ts; Elem TgToString b3 str kids3; Elem TgProps b1 u1 ps; Elem TgMS b2 u2 ms]) = Ok (v, d') -> type_texts ts ns ->
  deserialize_string str = Ok text -> ns <> [] -> registered reg ns = None -> Forall flat ps -> Forall flat ms ->
  exists ad ex, gets d' v (mkG BPlain (map (fun n => tx "Deserialized." ++ n) ns) (Some text) ad ex)
    /\ props names_prop (reads reg d') [] ps ad /\ props names_prop (reads reg d') [] ms ex.
Proof.
  intros H Hts Hs Hns Hreg Hps Hms. apply type_texts_are in Hts. unfold deserialize in H. cbn [height] in H.
  match type of H with deser _ (S ?g) _ _ = _ => set (f := g) in * end.
  assert (hmax f ps /\ hmax f ms) as [Hp Hm].
  { split; [apply (inner_hmax TgProps b1 u1)|apply (inner_hmax TgMS b2 u2)]; subst f; cbn [height fold_right]; lia. }
  clearbody f. cbn [deser] in H. unfold read_object, read_names, tn_texts in H. cbv zeta in H.
  cbn [flat_map filter is_tn x_tag x_kids] in H. rewrite Hts, app_nil_r in H. destruct ns as [|n ns]; [now elim Hns|].
  cbn [find_tag is_tn x_tag x_attrs attr_get attr_eqb bind fst snd] in H. unfold rehydrate in H. cbv zeta in H.
  assert (match n with [] => None | _ => reg n end = None) as Hr by (destruct n; [reflexivity|exact Hreg]). rewrite Hr in H.
  unfold alloc in H. cbn [d_next d_heap d_refs d_tns] in H. cbn [read_children] in H. unfold read_child in H.
  cbn [x_tag x_text x_kids l_d l_val l_cls l_props l_ms l_str bind] in H. rewrite Hs in H. cbn [bind l_d l_val l_cls l_props l_ms l_str] in H.
  cbn [map] in H. unfold deserialized at 1 3 in H. set (nm := (tx "Deserialized." ++ n) :: map deserialized ns) in *.
  match type of H with context [read_props _ _ ?x _ _] => set (d3 := x) in * end.
  assert (aget (d_next d) (d_heap d3) = Some (mkG BPlain nm (Some text) [] [])) as Ho.
  { subst d3. set (d0 := update_ref _ _ _).
    assert (aget (d_next d) (d_heap d0) = Some (mkG BPlain nm None [] [])) as H0.
    { subst d0. rewrite update_heap. cbn [d_heap]. rewrite aget_aset, N.eqb_refl. reflexivity. }
    pose proof (modify_get _ _ (fun o => with_string o text) _ H0) as H1. exact (modify_get _ _ (fun o => with_names o nm) _ H1). }
  clearbody d3. binds H. injection H as <- <-.
  destruct (props_flat reg f add_adapted g_adapted ltac:(reflexivity) (fun o => mkG (g_body o) (g_names o) (g_string o) [] (g_extended o)) ltac:(reflexivity)
    _ ps Hps Hp _ _ _ Ho (NoDup_nil _) E) as (o1 & A1 & A2 & A3 & A4 & A5).
  destruct o1 as [ob on os oa oe]. injection A2 as -> -> -> ->.
  destruct (props_flat reg f add_extended g_extended ltac:(reflexivity) (fun o => mkG (g_body o) (g_names o) (g_string o) (g_adapted o) []) ltac:(reflexivity)
    _ ms Hms Hm _ _ _ A1 (NoDup_nil _) E0) as (o2 & B1 & B2 & B3 & B4 & B5).
  destruct o2 as [ob on os oa' oe]. injection B2 as -> -> -> ->.
  exists oa, oe. split; [eexists; split; [reflexivity|exact B1]|]. split; [apply A5; congruence|apply B5; exact B4].
Qed.

(** ** The recursion bound does not matter *)
Section Agree.
  Variable reg : registry.
  Variables go go' : dst -> xml -> result (value * dst).
  Variable g : nat.
  Hypothesis HA : forall d x, height x <= g -> go d x = go' d x.
  Lemma bind_ext {A B} (x : result A) (h k : A -> result B) : (forall a, x = Ok a -> h a = k a) -> bind x h = bind x k.
  Proof. intros H. destruct x; cbn [bind]; auto. Qed.
  Lemma items_agree a l : hmax g l -> forall d, read_items go d a l = read_items go' d a l.
  Proof. induction 1 as [|x l Hx HF IH]; intros d; cbn [read_items]; [reflexivity|]. rewrite HA by assumption. apply bind_ext. intros. apply IH. Qed.
  Lemma entries_agree a l : Forall (fun x => hmax g (x_kids x)) l -> forall d, read_entries go d a l = read_entries go' d a l.
  Proof.
    induction 1 as [|x l Hx HF IH]; intros d; cbn [read_entries]; [reflexivity|].
    destruct (find_n (tx "Key") (x_kids x)) as [xk|] eqn:Ek; [|reflexivity]. destruct (find_n (tx "Value") (x_kids x)) as [xv|] eqn:Ev; [|reflexivity].
    rewrite HA by (eapply find_n_hmax; eassumption). apply bind_ext. intros rv _. rewrite HA by (eapply find_n_hmax; eassumption). apply bind_ext. intros rk _.
    destruct (hash _ _); [apply IH|reflexivity].
  Qed.
  Lemma props_agree put1 a l : hmax g l -> forall d, read_props go put1 d a l = read_props go' put1 d a l.
  Proof.
    induction 1 as [|x l Hx HF IH]; intros d; cbn [read_props]; [reflexivity|]. destruct (attr_get AtN (x_attrs x)); [|reflexivity].
    apply bind_ext. intros. rewrite HA by assumption. apply bind_ext. intros. apply IH.
  Qed.
  Lemma dropped_agree l : hmax g l -> forall d, read_dropped go d l = read_dropped go' d l.
  Proof.
    induction 1 as [|x l Hx HF IH]; intros d; cbn [read_dropped]; [reflexivity|]. destruct (attr_get AtN (x_attrs x)); [|reflexivity].
    apply bind_ext. intros. rewrite HA by assumption. apply bind_ext. intros. apply IH.
  Qed.
  Lemma child_agree rid en l x : height x <= g -> read_child go rid en l x = read_child go' rid en l x.
  Proof.
    intros Hx. pose proof (kids_hmax g x Hx) as Hk. unfold read_child. cbv zeta. rewrite (HA (l_d l) x Hx).
    assert (Forall (fun y => hmax g (x_kids y)) (x_kids x)) as Hkk by (eapply Forall_impl; [|exact Hk]; intros y Hy; now apply kids_hmax).
    destruct (x_tag x); try reflexivity.
    - destruct (l_val l); [|reflexivity]. destruct (alloc _ _). rewrite items_agree by exact Hk. reflexivity.
    - destruct (l_val l); [|reflexivity]. match goal with |- (if ?k then _ else _) = _ => destruct k end.
      + destruct v; try reflexivity. rewrite items_agree by exact Hk. reflexivity.
      + destruct (alloc _ _). rewrite items_agree by exact Hk. reflexivity.
    - destruct (l_val l); [|reflexivity]. destruct (alloc _ _). rewrite entries_agree by exact Hkk. reflexivity.
  Qed.
  Lemma children_agree rid en kids : hmax g kids -> forall l, read_children go rid en l kids = read_children go' rid en l kids.
  Proof. induction 1 as [|x kids Hx HF IH]; intros l; cbn [read_children]; [reflexivity|]. rewrite child_agree by assumption. apply bind_ext. intros. apply IH. Qed.
  Lemma object_agree d attrs kids : hmax g kids -> read_object reg go d attrs kids = read_object reg go' d attrs kids.
  Proof.
    intros Hk. unfold read_object. cbv zeta. apply bind_ext. intros rn _.
    destruct (rehydrate reg (snd rn) (fst rn) (attr_get AtRefId attrs)) as [[[[v0 c0] en] original] d1].
    rewrite children_agree by assumption. apply bind_ext. intros l Hl.
    assert (aside_hmax g (mkL d1 v0 c0 None None None)) as A0 by (split; cbn [l_props l_ms]; intros; discriminate).
    pose proof (children_aside go' g _ _ _ Hk _ _ A0 Hl) as [A1 A2].
    destruct (l_val l) as [v|]; [|reflexivity]. destruct v as [|b|p|e|a]; try reflexivity.
    - destruct (l_props l); [rewrite dropped_agree by auto|]; (apply bind_ext; intros; destruct (l_ms l); [rewrite dropped_agree by auto|]; reflexivity).
    - destruct (l_props l); [rewrite props_agree by auto|]; (apply bind_ext; intros; destruct (l_ms l); [rewrite props_agree by auto|]; reflexivity).
  Qed.
End Agree.
Lemma deser_fuel reg f : forall f' d x, height x <= f -> height x <= f' -> deser reg f d x = deser reg f' d x.
Proof.
  induction f as [|f IH]; intros f' d [t attrs text kids] H H'; [cbn [height] in H; lia|]. destruct f' as [|f']; [cbn [height] in H'; lia|].
  cbn [deser]. destruct t; try reflexivity.
  apply (object_agree reg _ _ (Nat.min f f')).
  - intros d0 x Hx. apply IH; lia.
  - apply height_kids in H. apply height_kids in H'. unfold hmax in *. rewrite Forall_forall in *. intros x Hx. specialize (H x Hx). specialize (H' x Hx). lia.
Qed.
Lemma deserialize_fuel reg f d x : height x <= f -> deserialize reg d x = deser reg f d x.
Proof. intros H. apply deser_fuel; lia. Qed.

(** ** Type names by number *)
Lemma sset_same {A} r (v : A) l : sget r l = Some v -> sset r v l = l.
Proof.
  induction l as [|[k w] l IH]; cbn [sget sset]; [discriminate|]. destruct (name_eqb r k); [intros E; injection E as ->; reflexivity|intros E; now rewrite IH].
Qed.
Definition tn_of (r : list N) (ns : list name) : xml := Elem TgTN [(AtRefId, r)] [] (map t_of ns).
Definition tnref_of (r : list N) : xml := Elem TgTNRef [(AtRefId, r)] [] [].
Definition no_tn (kids : list xml) : Prop := Forall (fun x => x_tag x <> TgTN) kids.
Lemma no_tn_texts kids : no_tn kids -> filter (fun x => is_tn (x_tag x)) kids = [].
Proof. induction 1 as [|x l Hx HF IH]; [reflexivity|]. cbn [filter]. destruct (x_tag x); cbn [is_tn]; try exact IH. now elim Hx. Qed.
Definition known (d : dst) (r : list N) (ns : list name) : dst := mkD (d_heap d) (d_next d) (d_refs d) (sset r ns (d_tns d)).
Theorem tn_is_tnref reg d a s r ns kids : ns <> [] -> no_tn kids ->
  deserialize reg d (Elem TgObj a s (tn_of r ns :: kids)) = deserialize reg (known d r ns) (Elem TgObj a s (tnref_of r :: kids)).
Proof.
  intros Hns Hk. set (f := Nat.max (height (Elem TgObj a s (tn_of r ns :: kids))) (height (Elem TgObj a s (tnref_of r :: kids)))).
  rewrite (deserialize_fuel reg (S f)), (deserialize_fuel reg (S f) (known d r ns)) by lia. clearbody f. cbn [deser].
  unfold read_object. cbv zeta.
  assert (read_names d (tn_of r ns :: kids) = Ok (ns, known d r ns)) as E1.
  { unfold read_names, tn_texts. cbn [filter is_tn tn_of x_tag flat_map x_kids]. rewrite t_texts, (no_tn_texts kids Hk).
    cbn [flat_map]. rewrite app_nil_r. destruct ns; [now elim Hns|]. reflexivity. }
  assert (read_names (known d r ns) (tnref_of r :: kids) = Ok (ns, known d r ns)) as E2.
  { unfold read_names, tn_texts, tnref_of. cbn [filter is_tn x_tag]. rewrite (no_tn_texts kids Hk).
    cbn [flat_map find_tag is_tnref x_tag x_attrs attr_get attr_eqb known d_tns]. rewrite sget_sset, name_eqb_refl. reflexivity. }
  rewrite E1, E2. cbn [bind fst snd]. destruct (rehydrate reg (known d r ns) ns (attr_get AtRefId a)) as [[[[v0 c0] en] original] d1]. reflexivity.
Qed.
Lemma names_recorded reg d r a s ns kids v d1 : deserialize reg d (Elem TgObj a s (tn_of r ns :: kids)) = Ok (v, d1) -> ns <> [] ->
  no_tn kids -> ~ In (MTN r) (flat_map marks kids) -> sget r (d_tns d1) = Some ns.
Proof.
  intros H Hns Hk Hn. rewrite tn_is_tnref in H by assumption. pose proof (deser_frames _ _ _ _ _ H) as [_ F]. cbn [snd] in F.
  rewrite F; [cbn [known d_tns]; rewrite sget_sset, name_eqb_refl; reflexivity|].
  cbn [marks flat_map own_marks x_attrs x_tag]. rewrite !in_app_iff. intros [G|[G|G]]; [|destruct G as [G|[]]; discriminate|exact (Hn G)].
  unfold own_marks in G. cbn [x_attrs x_tag] in G. destruct (attr_get AtRefId a); [destruct G as [?|[]]; discriminate|destruct G].
Qed.

(** ** Primitives and members *)
Definition prim_elem_tag (t : tag) : Prop :=
  match t with TgInt _ | TgStr _ | TgC | TgBA | TgDT | TgTS | TgG | TgVersion | TgFloat _ | TgSS => True | _ => False end.
Definition plain_tag (t : tag) : Prop := prim_elem_tag t \/ t = TgB \/ t = TgNil.
Lemma prim_anywhere reg f d d2 t b u l v : plain_tag t -> reads reg d (Elem t b u l) v -> deser reg (S f) d2 (Elem t b u l) = Ok (v, d2).
Proof.
  unfold reads, deserialize. intros Ht. cbn [height deser].
  assert (forall r : option (result prim), match r with Some r => let! p := r in Ok (VPrim p, d) | None => Err ValueError end = Ok (v, d) ->
    match r with Some r => let! p := r in Ok (VPrim p, d2) | None => Err ValueError end = Ok (v, d2)) as Hp.
  { intros [[p|e]|]; cbn [bind]; try discriminate. intros E. injection E as <-. auto. }
  destruct t; try (destruct Ht as [[]|[Ht|Ht]]; discriminate Ht); try (apply Hp); intros E; injection E as <-; reflexivity.
Qed.
Lemma child_prim go rid l t b u ks p a0 o : prim_elem_tag t -> go (l_d l) (Elem t b u ks) = Ok (VPrim p, l_d l) -> l_val l = Some (VRef a0) ->
  aget a0 (d_heap (l_d l)) = Some o -> g_names o = [] ->
  read_child go rid None l (Elem t b u ks) =
    Ok (mkL (update_ref (snd (alloc (l_d l) (mkG (BPrim p) (prim_names p) None [] []))) rid (VRef (d_next (l_d l)))) (Some (VRef (d_next (l_d l)))) None (l_props l) (l_ms l) (l_str l)).
Proof.
  intros Ht Hg Hv Ho Hn. unfold read_child. destruct t; try contradiction; cbn [x_tag]; rewrite Hg; cbn [bind fst snd]; rewrite Hv, Ho, Hn; reflexivity.
Qed.
Theorem prim_read reg d a s t b u l p : prim_elem_tag t -> reads reg d (Elem t b u l) (VPrim p) ->
  exists v d', deserialize reg d (Elem TgObj a s [Elem t b u l]) = Ok (v, d') /\ gets d' v (mkG (BPrim p) (net_names p) None [] []).
Proof.
  intros Ht Hr. rewrite (deserialize_fuel reg (S (S (height (Elem t b u l))))) by (cbn [height fold_right]; lia).
  pose proof (fun d2 => prim_anywhere reg (height (Elem t b u l)) d d2 t b u l _ (or_introl Ht) Hr) as Hg.
  remember (S (height (Elem t b u l))) as f eqn:Ef. clear Ef. cbn [deser]. unfold read_object. cbv zeta.
  assert (read_names d [Elem t b u l] = Ok ([], d)) as -> by (destruct t; try contradiction; reflexivity).
  cbn [bind fst snd]. unfold rehydrate. cbn [map]. cbv zeta. unfold alloc. cbn [read_children].
  erewrite child_prim; [|exact Ht|apply Hg|reflexivity| |]; cycle 1.
  { cbn [l_d]. rewrite update_heap. cbn [d_heap]. rewrite aget_aset, N.eqb_refl. reflexivity. }
  { reflexivity. }
  cbn [bind l_val l_d l_str l_props l_ms]. do 2 eexists. split; [reflexivity|]. eexists. split; [reflexivity|].
  rewrite update_heap. cbn [alloc snd d_heap]. rewrite aget_aset, N.eqb_refl, prim_names_net. reflexivity.
Qed.
Lemma child_member go rid l t b u ks v c : plain_tag t -> go (l_d l) (Elem t b u ks) = Ok (v, l_d l) ->
  read_child go rid (Some c) l (Elem t b u ks) = let! e := make_member c v in
    Ok (mkL (update_ref (l_d l) rid (VEnum e)) (Some (VEnum e)) None (l_props l) (l_ms l) (l_str l)).
Proof.
  intros Ht Hg. unfold read_child. destruct t; try (destruct Ht as [[]|[Ht|Ht]]; discriminate Ht); cbn [x_tag]; rewrite Hg; reflexivity.
Qed.
Lemma make_member_is c v t flag vals : c_kind c = CEnum t flag vals -> plain_value v ->
  match number v with
  | Some z => (flag = true \/ In z vals -> make_member c v = Ok (mkE (c_names c) t z [])) /\ (flag = false -> ~ In z vals -> make_member c v = Err ValueError)
  | None => make_member c v = Err ValueError
  end.
Proof.
  intros Hc Hv. unfold make_member. rewrite Hc. cbv zeta.
  assert (forall z, (flag = true \/ In z vals -> (if flag || existsb (Z.eqb z) vals then Ok (mkE (c_names c) t z []) else Err ValueError) = Ok (mkE (c_names c) t z []))
    /\ (flag = false -> ~ In z vals -> (if flag || existsb (Z.eqb z) vals then Ok (mkE (c_names c) t z []) else Err ValueError) = Err ValueError)) as H.
  { intros z. split.
    - intros [->|Hi]; [reflexivity|]. assert (existsb (Z.eqb z) vals = true) as -> by (apply existsb_exists; exists z; split; [exact Hi|apply Z.eqb_refl]).
      rewrite orb_true_r. reflexivity.
    - intros -> Hi. destruct (existsb (Z.eqb z) vals) eqn:E; [|reflexivity]. apply existsb_exists in E. destruct E as (y & Hy & Ey). apply Z.eqb_eq in Ey. subst y. contradiction. }
  destruct v as [|bb|p| |]; try contradiction; cbn [number]; try reflexivity; [apply H|]. destruct p; try contradiction; try reflexivity; apply H.
Qed.
Theorem member_read reg d a s r ns t b u l v c ty flag vals : plain_tag t ->
  ns <> [] -> registered reg ns = Some c -> c_kind c = CEnum ty flag vals -> reads reg d (Elem t b u l) v ->
  match number v with
  | Some z => (flag = true \/ In z vals -> exists d', deserialize reg d (Elem TgObj a s [tn_of r ns; Elem t b u l]) = Ok (VEnum (mkE (c_names c) ty z []), d'))
              /\ (flag = false -> ~ In z vals -> deserialize reg d (Elem TgObj a s [tn_of r ns; Elem t b u l]) = Err ValueError)
  | None => deserialize reg d (Elem TgObj a s [tn_of r ns; Elem t b u l]) = Err ValueError
  end.
Proof.
  intros Ht Hns Hreg Hc Hr.
  assert (plain_value v) as Pv.
  { eapply flat_plain; [| |exact Hr]; unfold flat; cbn [x_tag]; intros ->; destruct Ht as [[]|[Ht|Ht]]; discriminate. }
  assert (exists D, deserialize reg d (Elem TgObj a s [tn_of r ns; Elem t b u l]) = let! e := make_member c v in Ok (VEnum e, D e)) as (D & ->).
  { rewrite tn_is_tnref; [|exact Hns|constructor; [|constructor]; cbn [x_tag]; intros ->; destruct Ht as [[]|[Ht|Ht]]; discriminate].
    rewrite (deserialize_fuel reg (S (S (height (Elem t b u l))))) by (cbn [height fold_right tnref_of]; lia).
    pose proof (fun d2 => prim_anywhere reg (height (Elem t b u l)) d d2 t b u l _ Ht Hr) as Hg.
    remember (S (height (Elem t b u l))) as f eqn:Ef. clear Ef. cbn [deser]. unfold read_object. cbv zeta.
    assert (read_names (known d r ns) [tnref_of r; Elem t b u l] = Ok (ns, known d r ns)) as ->.
    { unfold read_names, tn_texts, tnref_of. cbn [filter is_tn x_tag].
      assert (is_tn t = false) as -> by (destruct t; try reflexivity; destruct Ht as [[]|[Ht|Ht]]; discriminate).
      cbn [flat_map find_tag is_tnref x_tag x_attrs attr_get attr_eqb known d_tns]. rewrite sget_sset, name_eqb_refl. reflexivity. }
    cbn [bind fst snd]. unfold rehydrate. destruct ns as [|n ns]; [now elim Hns|].
    assert (match n with [] => None | _ => reg n end = Some c) as -> by (destruct n; [discriminate Hreg|exact Hreg]). cbv zeta. rewrite Hc.
    exists (fun e => update_ref (update_ref (known d r (n :: ns)) (attr_get AtRefId a) (VEnum e)) (attr_get AtRefId a) (VEnum e)).
    cbn [read_children]. unfold read_child at 1. cbn [tnref_of x_tag bind]. rewrite (child_member _ _ _ _ _ _ _ v c Ht); [|apply Hg].
    destruct (make_member c v); reflexivity. }
  pose proof (make_member_is c v ty flag vals Hc Pv) as Hm. destruct (number v).
  - destruct Hm as [M1 M2]. split; [intros H; rewrite (M1 H); eexists; reflexivity|intros H1 H2; rewrite (M2 H1 H2); reflexivity].
  - rewrite Hm. reflexivity.
Qed.

(** ** Refusals *)
Lemma sget_absent {A} k (l : list (list N * A)) : ~ In k (map fst l) -> sget k l = None.
Proof.
  induction l as [|[j v] l IH]; cbn [sget map fst In]; intros H; [reflexivity|]. destruct (name_eqb k j) eqn:E; [|apply IH; tauto].
  apply name_eqb_iff in E. subst. tauto.
Qed.
Theorem refusals reg d :
  (forall t a s l, no_value t -> deserialize reg d (Elem t a s l) = Err ValueError)
  /\ (forall a s l, attr_get AtRefId a = None -> deserialize reg d (Elem TgRef a s l) = Err KeyError)
  /\ (forall a k s l, attr_get AtRefId a = Some k -> ~ In k (map fst (d_refs d)) -> deserialize reg d (Elem TgRef a s l) = Err KeyError)
  /\ (forall a k s b u l, ~ In k (map fst (d_tns d)) -> no_tn l -> deserialize reg d (Elem TgObj a s (Elem TgTNRef [(AtRefId, k)] b u :: l)) = Err KeyError)
  /\ (forall a s b u n l, n <> [] -> attr_get AtRefId b = None -> deserialize reg d (Elem TgObj a s (Elem TgTN b u (map t_of n) :: l)) = Err KeyError)
  /\ (forall a s t b u x l, t = TgProps \/ t = TgMS -> attr_get AtN (x_attrs x) = None -> deserialize reg d (Elem TgObj a s [Elem t b u (x :: l)]) = Err KeyError)
  /\ (forall a s b u e l, Forall (fun y => ~ named (tx "Key") y) (x_kids e) \/ Forall (fun y => ~ named (tx "Value") y) (x_kids e) ->
        deserialize reg d (Elem TgObj a s [Elem TgDCT b u (e :: l)]) = Err ValueError)
  /\ (forall a s b u t0 b0 u0 t txt k l, t = TgTS \/ t = TgVersion -> reads reg d (Elem t [(AtN, tx "Key")] txt []) k ->
        deserialize reg d (Elem TgObj a s [Elem TgDCT b u (Elem t0 b0 u0 [Elem t [(AtN, tx "Key")] txt []; Elem TgNil [(AtN, tx "Value")] [] []] :: l)]) = Err TypeError)
  /\ (forall a l, deserialize reg d (Elem TgG a [] l) = Err TypeError)
  /\ (forall k a l, deserialize reg d (Elem (TgFloat k) a [] l) = Err TypeError)
  /\ (forall a l, deserialize reg d (Elem TgVersion a [] l) = Err ValueError)
  /\ (forall a s b u l t txt, t = TgNil \/ t = TgB -> (exists w, deserialize_string txt = Ok w) ->
        deserialize reg d (Elem TgObj a s [Elem t b u l; Elem TgToString [] txt []]) = Err AttributeError).
Proof.
  split; [intros t a s l Ht; destruct t; try contradiction; reflexivity|].
  split; [intros a s l Ha; unfold deserialize; cbn [height deser]; rewrite Ha; reflexivity|].
  split; [intros a k s l Ha Hk; unfold deserialize; cbn [height deser]; rewrite Ha, (sget_absent _ _ Hk); reflexivity|].
  split.
  { intros a k s b u l Hk Hl. unfold deserialize. cbn [height]. set (f := fold_right _ 0 _). clearbody f. cbn [deser]. unfold read_object. cbv zeta.
    unfold read_names, tn_texts. cbn [filter is_tn x_tag]. rewrite (no_tn_texts l Hl). cbn [flat_map find_tag is_tnref x_tag x_attrs attr_get attr_eqb].
    rewrite (sget_absent _ _ Hk). reflexivity. }
  split.
  { intros a s b u n l Hn Hb. unfold deserialize. cbn [height]. set (f := fold_right _ 0 _). clearbody f. cbn [deser]. unfold read_object. cbv zeta.
    unfold read_names, tn_texts. cbn [filter is_tn x_tag flat_map x_kids]. rewrite t_texts. destruct n as [|n0 n]; [now elim Hn|].
    cbn [app find_tag is_tn x_tag x_attrs]. rewrite Hb. reflexivity. }
  split.
  { intros a s t b u x l Ht Hx. unfold deserialize. cbn [height]. set (f := fold_right _ 0 _). clearbody f. cbn [deser]. unfold read_object. cbv zeta.
    destruct Ht as [-> | ->]; unfold read_names, tn_texts; cbn [filter is_tn x_tag flat_map find_tag is_tnref bind fst snd]; unfold rehydrate; cbn [map]; cbv zeta; unfold alloc;
      cbn [read_children]; unfold read_child; cbn [x_tag x_kids bind l_d l_val l_cls l_props l_ms l_str read_props]; rewrite Hx; reflexivity. }
  split.
  { intros a s b u e l He. unfold deserialize. cbn [height]. set (f := fold_right _ 0 _). clearbody f. cbn [deser]. unfold read_object. cbv zeta.
    unfold read_names, tn_texts; cbn [filter is_tn x_tag flat_map find_tag is_tnref bind fst snd]; unfold rehydrate; cbn [map]; cbv zeta; unfold alloc;
      cbn [read_children]; unfold read_child; cbn [x_tag x_kids bind l_d l_val l_cls l_props l_ms l_str read_entries].
    destruct He as [He|He]; apply find_n_none in He; rewrite He; [|destruct (find_n (tx "Key") (x_kids e))]; reflexivity. }
  split.
  { intros a s b u t0 b0 u0 t txt k l Ht Hr.
    assert (flat (Elem t [(AtN, tx "Key")] txt [])) as Hf by (unfold flat; cbn [x_tag]; destruct Ht as [-> | ->]; discriminate).
    assert (plain_tag t) as Hp by (destruct Ht as [-> | ->]; left; exact I).
    assert (exists p, k = VPrim p /\ forall o, prim_hash o p = None) as (p & -> & Hh).
    { unfold reads, deserialize in Hr. destruct Ht as [-> | ->]; cbn [height deser read_prim] in Hr.
      - destruct (read_duration txt); cbn [bind] in Hr; [|discriminate]. injection Hr as <-. eexists. split; reflexivity.
      - destruct txt; [discriminate|]. destruct (read_version _); cbn [bind] in Hr; [|discriminate]. injection Hr as <-. eexists. split; reflexivity. }
    rewrite (deserialize_fuel reg (S (S (height (Elem TgObj a s [Elem TgDCT b u (Elem t0 b0 u0 [Elem t [(AtN, tx "Key")] txt []; Elem TgNil [(AtN, tx "Value")] [] []] :: l)]))))) by lia.
    set (f := height _). pose proof (fun d2 => prim_anywhere reg f d d2 t _ txt [] _ Hp Hr) as Hg.
    pose proof (fun d2 => prim_anywhere reg f d d2 TgNil [(AtN, tx "Value")] [] [] VNull (or_intror (or_intror eq_refl)) eq_refl) as Hg2.
    remember (S f) as g eqn:Eg. clear Eg f. cbn [deser]. unfold read_object. cbv zeta.
    unfold read_names, tn_texts; cbn [filter is_tn x_tag flat_map find_tag is_tnref bind fst snd]; unfold rehydrate; cbn [map]; cbv zeta; unfold alloc;
      cbn [read_children]; unfold read_child; cbn [x_tag x_kids bind l_d l_val l_cls l_props l_ms l_str read_entries].
    change (find_n (tx "Key") [Elem t [(AtN, tx "Key")] txt []; Elem TgNil [(AtN, tx "Value")] [] []]) with (Some (Elem t [(AtN, tx "Key")] txt [])).
    change (find_n (tx "Value") [Elem t [(AtN, tx "Key")] txt []; Elem TgNil [(AtN, tx "Value")] [] []]) with (Some (Elem TgNil [(AtN, tx "Value")] [] [])).
    unfold alloc. cbv beta iota. rewrite Hg2. cbn [bind fst snd]. rewrite Hg. cbn [bind fst snd hash]. rewrite Hh. reflexivity. }
  split; [reflexivity|]. split; [reflexivity|]. split; [reflexivity|].
  intros a s b u l t txt Ht [w Hw].
  assert (plain_tag t) as Hp by (destruct Ht as [-> | ->]; right; auto).
  assert (exists v, reads reg d (Elem t b u l) v /\ (v = VNull \/ exists y, v = VBool y)) as (v & Hr & Hv).
  { destruct Ht as [-> | ->]; eexists; (split; [reflexivity|]); [now left|right; eexists; reflexivity]. }
  rewrite (deserialize_fuel reg (S (S (height (Elem TgObj a s [Elem t b u l; Elem TgToString [] txt []]))))) by lia.
  set (f := height _). pose proof (fun d2 => prim_anywhere reg f d d2 t b u l _ Hp Hr) as Hg. remember (S f) as g eqn:Eg. clear Eg f. cbn [deser].
  unfold read_object. cbv zeta.
  assert (read_names d [Elem t b u l; Elem TgToString [] txt []] = Ok ([], d)) as -> by (destruct Ht as [-> | ->]; reflexivity).
  cbn [bind fst snd]. unfold rehydrate; cbn [map]; cbv zeta; unfold alloc. cbn [read_children].
  set (d1 := update_ref _ _ _).
  assert (aget (d_next d) (d_heap d1) = Some (mkG BPlain [] None [] [])) as Ho.
  { subst d1. rewrite update_heap. cbn [d_heap]. rewrite aget_aset, N.eqb_refl. reflexivity. }
  clearbody d1. unfold read_child. destruct Ht as [-> | ->]; cbn [x_tag l_d l_val l_cls l_props l_ms l_str]; rewrite Hg; cbn [bind fst snd]; rewrite Ho; cbn [g_names];
    destruct Hv as [->|[y ->]]; cbn [bind l_d l_val l_cls l_props l_ms l_str x_text]; rewrite Hw; reflexivity.
Qed.
