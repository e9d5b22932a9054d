(** Reading documents of any writer: the objects made refer to one another only, references and type names resolve to
    what the document said. *)
From Coq Require Import String.
From Verif Require Import Base BaseFacts Model_Scalars Model_Strings Model_Text Model_Object Model_Clixml.
From Verif Require Import Spec_Strings Spec_Scalars Spec_Clixml Proofs_Clixml1 Proofs_Clixml3.
Local Open Scope list_scope.
Local Open Scope nat_scope.

(** ** Nothing dangles *)
Definition live (n : N) (v : value) : Prop := match v with VRef a => (a < n)%N | _ => True end.
Definition decent (n : N) (o : gobj) : Prop := forall b, mentions o (VRef b) -> (b < n)%N.
Record sound (d : dst) : Prop := {
  so_heap : forall a, (a < d_next d)%N -> exists o, aget a (d_heap d) = Some o;
  so_decent : forall a o, aget a (d_heap d) = Some o -> decent (d_next d) o;
  so_refs : forall r v, sget r (d_refs d) = Some v -> live (d_next d) v }.
Lemma sound_init : sound d_init.
Proof. split; cbn; intros; [lia|discriminate|discriminate]. Qed.
Lemma live_le n m v : (n <= m)%N -> live n v -> live m v.
Proof. destruct v; cbn [live]; auto. lia. Qed.
Lemma decent_le n m o : (n <= m)%N -> decent n o -> decent m o.
Proof. intros H D b Hb. specialize (D b Hb). lia. Qed.
Lemma decent_props n o : decent n o <->
  Forall (fun x => live n (snd x)) (g_adapted o) /\ Forall (fun x => live n (snd x)) (g_extended o)
  /\ match g_body o with
     | BList _ l | BQueue l => Forall (live n) l
     | BDict l => Forall (fun e => live n (fst e) /\ live n (snd e)) l
     | BPy _ l => Forall (fun x => live n (snd x)) l
     | _ => True
     end.
Proof.
  split.
  - intros D. split; [|split].
    + apply Forall_forall. intros [k v] Hi. cbn [snd]. destruct v; cbn [live]; auto. apply D. eapply MenAdapted. exact Hi.
    + apply Forall_forall. intros [k v] Hi. cbn [snd]. destruct v; cbn [live]; auto. apply D. eapply MenExtended. exact Hi.
    + destruct (g_body o) eqn:E; try exact I; apply Forall_forall.
      * intros v Hi. destruct v; cbn [live]; auto. apply D. eapply MenItem; eassumption.
      * intros v Hi. destruct v; cbn [live]; auto. apply D. eapply MenEntry; eassumption.
      * intros [u v] Hi. cbn [fst snd]. split.
        -- destruct u; cbn [live]; auto. apply D. eapply MenKey; eassumption.
        -- destruct v; cbn [live]; auto. apply D. eapply MenValue; eassumption.
      * intros [[u b] v] Hi. cbn [snd]. destruct v; cbn [live]; auto. apply D. eapply MenAttr; eassumption.
  - intros (H1 & H2 & H3) b M. rewrite Forall_forall in H1, H2. inversion M; subst.
    + exact (H1 _ H).
    + exact (H2 _ H).
    + rewrite H in H3. rewrite Forall_forall in H3. exact (H3 _ H0).
    + rewrite H in H3. rewrite Forall_forall in H3. exact (H3 _ H0).
    + rewrite H in H3. rewrite Forall_forall in H3. exact (proj1 (H3 _ H0)).
    + rewrite H in H3. rewrite Forall_forall in H3. exact (proj2 (H3 _ H0)).
    + rewrite H in H3. rewrite Forall_forall in H3. exact (H3 _ H0).
Qed.
Lemma decent_blank n c : decent n (blank c).
Proof.
  apply decent_props. unfold blank. cbn [g_adapted g_extended g_body].
  split; [apply Forall_forall; intros x Hx; apply in_map_iff in Hx; destruct Hx as (k & <- & _); exact I|].
  split; [apply Forall_forall; intros x Hx; apply in_map_iff in Hx; destruct Hx as (k & <- & _); exact I|].
  destruct (c_kind c); cbn [blank_body]; try exact I; constructor.
Qed.

(** The reader's state grows. *)
Definition grows (d d' : dst) : Prop := sound d' /\ (d_next d <= d_next d')%N.
Lemma grows_refl d : sound d -> grows d d.
Proof. intros. split; [assumption|lia]. Qed.
Lemma grows_trans a b c : grows a b -> grows b c -> grows a c.
Proof. intros [_ H1] [S2 H2]. split; [assumption|lia]. Qed.
Lemma alloc_grows d o : sound d -> decent (d_next d + 1) o ->
  grows d (snd (alloc d o)) /\ live (d_next (snd (alloc d o))) (VRef (fst (alloc d o))).
Proof.
  intros [H1 H2 H3] D. unfold alloc. cbn [fst snd d_next]. split; [|cbn [live]; lia]. split; [|cbn [d_next]; lia].
  split; cbn [d_next d_heap d_refs].
  - intros a Ha. rewrite aget_aset. destruct (N.eqb_spec a (d_next d)); [eauto|]. apply H1. lia.
  - intros a x Hx. rewrite aget_aset in Hx. destruct (N.eqb_spec a (d_next d)).
    + injection Hx as <-. exact D.
    + eapply decent_le; [|exact (H2 _ _ Hx)]. lia.
  - intros r v Hv. eapply live_le; [|exact (H3 _ _ Hv)]. lia.
Qed.
Lemma modify_next d a f : d_next (modify d a f) = d_next d.
Proof. unfold modify. destruct (aget a (d_heap d)); reflexivity. Qed.
Lemma modify_refs d a f : d_refs (modify d a f) = d_refs d.
Proof. unfold modify. destruct (aget a (d_heap d)); reflexivity. Qed.
Lemma modify_tns d a f : d_tns (modify d a f) = d_tns d.
Proof. unfold modify. destruct (aget a (d_heap d)); reflexivity. Qed.
Lemma modify_grows d a f : sound d -> (forall o, decent (d_next d) o -> decent (d_next d) (f o)) -> grows d (modify d a f).
Proof.
  intros HS Hf. pose proof HS as [H1 H2 H3]. unfold modify. destruct (aget a (d_heap d)) as [o|] eqn:E; [|now apply grows_refl].
  split; [|cbn [put d_next]; lia]. split; cbn [put d_next d_heap d_refs].
  - intros b Hb. rewrite aget_aset. destruct (N.eqb_spec b a); eauto.
  - intros b x Hx. rewrite aget_aset in Hx. destruct (N.eqb_spec b a); [|eauto].
    injection Hx as <-. apply Hf. eauto.
  - exact H3.
Qed.
Lemma update_next d r v : d_next (update_ref d r v) = d_next d.
Proof. unfold update_ref. destruct r, v; reflexivity. Qed.
Lemma update_tns d r v : d_tns (update_ref d r v) = d_tns d.
Proof. unfold update_ref. destruct r, v; reflexivity. Qed.
Lemma update_grows d r v : sound d -> live (d_next d) v -> grows d (update_ref d r v).
Proof.
  intros HS Hv. pose proof HS as [H1 H2 H3]. split; [|rewrite update_next; lia].
  assert (forall k, sound (mkD (d_heap d) (d_next d) (sset k v (d_refs d)) (d_tns d))) as Hk.
  { intros k. split; cbn [d_next d_heap d_refs]; auto. intros r' w Hw. rewrite sget_sset in Hw.
    destruct (name_eqb r' k); [injection Hw as <-; exact Hv|eauto]. }
  unfold update_ref. destruct r as [k|]; [|exact HS]. destruct v; auto.
Qed.
Lemma tns_sound d t : sound d -> sound (mkD (d_heap d) (d_next d) (d_refs d) t).
Proof. intros [H1 H2 H3]. split; assumption. Qed.

Definition keeps (go : dst -> xml -> result (value * dst)) : Prop :=
  forall d x r, sound d -> go d x = Ok r -> grows d (snd r) /\ live (d_next (snd r)) (fst r).

Lemma prop_put_live n k v l : live n v -> Forall (fun x => live n (snd x)) l -> Forall (fun x => live n (snd x)) (prop_put k v l).
Proof.
  intros Hv. induction 1 as [|[m w] t Hw HF IH]; cbn [prop_put]; [constructor; [exact Hv|constructor]|].
  destruct (name_eqb m k); constructor; auto.
Qed.
Lemma add_adapted_decent n k v o : live n v -> decent n o -> decent n (add_adapted k v o).
Proof. intros Hv D. apply decent_props in D. apply decent_props. destruct D as (A & B & C). repeat split; [now apply prop_put_live|exact B|exact C]. Qed.
Lemma add_extended_decent n k v o : live n v -> decent n o -> decent n (add_extended k v o).
Proof. intros Hv D. apply decent_props in D. apply decent_props. destruct D as (A & B & C). repeat split; [exact A|now apply prop_put_live|exact C]. Qed.
Lemma append_decent n v o : live n v -> decent n o -> decent n (append_item v o).
Proof.
  intros Hv D. unfold append_item. pose proof D as D'. apply decent_props in D'. destruct D' as (A & B & C).
  destruct (g_body o) eqn:E; try exact D; apply decent_props; (split; [exact A|]); (split; [exact B|]); cbn [with_body g_body];
    apply Forall_app; (split; [exact C|constructor; [exact Hv|constructor]]).
Qed.
Lemma dict_put_live n h hk k v l : live n k -> live n v -> Forall (fun e => live n (fst e) /\ live n (snd e)) l ->
  Forall (fun e => live n (fst e) /\ live n (snd e)) (dict_put h hk k v l).
Proof.
  intros Hk Hv. induction 1 as [|[k' w] t [Hw1 Hw2] HF IH]; cbn [dict_put]; [constructor; [split; assumption|constructor]|].
  destruct (match hash h k' with Some x => hkey_eqb x hk | None => false end); constructor; auto.
Qed.
Lemma entry_decent n h hk k v o : live n k -> live n v -> decent n o ->
  decent n (match g_body o with BDict e => with_body o (BDict (dict_put h hk k v e)) | _ => o end).
Proof.
  intros Hk Hv D. pose proof D as D'. apply decent_props in D'. destruct D' as (A & B & C).
  destruct (g_body o) eqn:E; try exact D. apply decent_props; (split; [exact A|]); (split; [exact B|]).
  cbn [with_body g_body]. now apply dict_put_live.
Qed.

Section Keeps.
  Variable reg : registry.
  Variable go : dst -> xml -> result (value * dst).
  Hypothesis HK : keeps go.

  Lemma items_grow a l : forall d d', sound d -> read_items go d a l = Ok d' -> grows d d'.
  Proof.
    induction l as [|x l IH]; intros d d' HS H; cbn [read_items] in H; [injection H as <-; now apply grows_refl|].
    binds H. destruct (HK _ _ _ HS E) as [G1 L1].
    pose proof (modify_grows (snd r) a (append_item (fst r)) (proj1 G1) (fun o => append_decent _ _ o L1)) as G2.
    eapply grows_trans; [exact G1|]. eapply grows_trans; [exact G2|]. apply (IH _ _ (proj1 G2) H).
  Qed.
  Lemma entries_grow a l : forall d d', sound d -> read_entries go d a l = Ok d' -> grows d d'.
  Proof.
    induction l as [|x l IH]; intros d d' HS H; cbn [read_entries] in H; [injection H as <-; now apply grows_refl|].
    destruct (find_n (tx "Key") (x_kids x)) as [xk|]; [|discriminate]. destruct (find_n (tx "Value") (x_kids x)) as [xv|]; [|discriminate].
    binds H. destruct (HK _ _ _ HS E) as [G1 L1]. destruct (HK _ _ _ (proj1 G1) E0) as [G2 L2].
    destruct (hash (d_heap (snd r0)) (fst r0)) as [hk|]; [|discriminate]. cbv zeta in H.
    pose proof (live_le _ _ _ (proj2 G2) L1) as L1'.
    match type of H with read_entries _ (modify _ _ ?f) _ _ = _ =>
      pose proof (modify_grows (snd r0) a f (proj1 G2) (fun o => entry_decent _ _ hk _ _ o L2 L1')) as G3 end.
    eapply grows_trans; [exact G1|]. eapply grows_trans; [exact G2|]. eapply grows_trans; [exact G3|]. apply (IH _ _ (proj1 G3) H).
  Qed.
  Lemma props_grow put1 a l : (forall n k v o, live n v -> decent n o -> decent n (put1 k v o)) ->
    forall d d', sound d -> read_props go put1 d a l = Ok d' -> grows d d'.
  Proof.
    intros Hp. induction l as [|x l IH]; intros d d' HS H; cbn [read_props] in H; [injection H as <-; now apply grows_refl|].
    destruct (attr_get AtN (x_attrs x)) as [s|]; [|discriminate]. binds H. destruct (HK _ _ _ HS E0) as [G1 L1].
    pose proof (modify_grows (snd r0) a (put1 r (fst r0)) (proj1 G1) (fun o => Hp _ _ _ o L1)) as G2.
    eapply grows_trans; [exact G1|]. eapply grows_trans; [exact G2|]. apply (IH _ _ (proj1 G2) H).
  Qed.
  Lemma dropped_grow l : forall d d', sound d -> read_dropped go d l = Ok d' -> grows d d'.
  Proof.
    induction l as [|x l IH]; intros d d' HS H; cbn [read_dropped] in H; [injection H as <-; now apply grows_refl|].
    destruct (attr_get AtN (x_attrs x)) as [s|]; [|discriminate]. binds H. destruct (HK _ _ _ HS E0) as [G1 L1].
    eapply grows_trans; [exact G1|]. apply (IH _ _ (proj1 G1) H).
  Qed.

  Definition loc_sound (d0 : dst) (l : loc) : Prop :=
    grows d0 (l_d l) /\ match l_val l with Some v => live (d_next (l_d l)) v | None => True end.
  Lemma child_grows rid en d0 l x l' : loc_sound d0 l -> read_child go rid en l x = Ok l' -> loc_sound d0 l'.
  Proof.
    intros [G0 L0] H.
    assert (forall keep c fill, (forall d a d', sound d -> fill d a = Ok d' -> grows d d') ->
      match l_val l with
      | None => Err RuntimeError
      | Some v =>
        if (keep : bool) then match v with VRef a => let! d := fill (l_d l) a in
                       Ok (mkL d (l_val l) (l_cls l) (l_props l) (l_ms l) (l_str l)) | _ => Err AttributeError end
        else let (a, d1) := alloc (l_d l) (blank c) in
             let! d := fill (update_ref d1 rid (VRef a)) a in
             Ok (mkL d (Some (VRef a)) (Some c) (l_props l) (l_ms l) (l_str l))
      end = Ok l' -> loc_sound d0 l') as Hc.
    { intros keep c fill Hfill Hl. destruct (l_val l) as [v|] eqn:Ev; [|discriminate]. destruct keep.
      - destruct v as [| | | |a]; try discriminate. binds Hl. injection Hl as <-. unfold loc_sound. cbn [l_d l_val].
        pose proof (Hfill _ _ _ (proj1 G0) E) as G1.
        split; [eapply grows_trans; eassumption|]. eapply live_le; [exact (proj2 G1)|exact L0].
      - destruct (alloc_grows (l_d l) (blank c) (proj1 G0) (decent_blank _ c)) as [G1 L1].
        destruct (alloc (l_d l) (blank c)) as [a d1]. cbn [fst snd] in G1, L1. binds Hl. injection Hl as <-.
        unfold loc_sound. cbn [l_d l_val].
        pose proof (update_grows d1 rid (VRef a) (proj1 G1) L1) as G2.
        pose proof (Hfill _ _ _ (proj1 G2) E) as G3. split.
        + eapply grows_trans; [exact G0|]. eapply grows_trans; [exact G1|]. eapply grows_trans; eassumption.
        + eapply live_le; [|exact L1]. pose proof (proj2 G3) as P. rewrite update_next in P. exact P. }
    assert (forall r c, go (l_d l) x = Ok r ->
      (let! e := make_member c (fst r) in
       Ok (mkL (update_ref (snd r) rid (VEnum e)) (Some (VEnum e)) None (l_props l) (l_ms l) (l_str l))) = Ok l' -> loc_sound d0 l') as Hm.
    { intros r c Er Hl. destruct (HK _ _ _ (proj1 G0) Er) as [G1 L1]. binds Hl. injection Hl as <-.
      unfold loc_sound. cbn [l_d l_val live]. split; [|exact I]. eapply grows_trans; [exact G0|]. eapply grows_trans; [exact G1|].
      apply update_grows; [exact (proj1 G1)|exact I]. }
    assert (forall r names, go (l_d l) x = Ok r ->
      (let fin d v := Ok (mkL (update_ref d rid v) (Some v) None (l_props l) (l_ms l) (l_str l)) in
        match fst r with
        | VPrim p => let (a, d1) := alloc (snd r) (mkG (BPrim p) (match names with [] => prim_names p | _ => names end) None [] []) in
                     fin d1 (VRef a)
        | VRef a => fin (match names with [] => snd r | _ => modify (snd r) a (fun o => with_names o names) end) (VRef a)
        | VEnum e => fin (snd r) (VEnum e)
        | v => match names with [] => fin (snd r) v | _ => Err AttributeError end
        end) = Ok l' -> loc_sound d0 l') as Hp.
    { intros r names Er Hl. destruct (HK _ _ _ (proj1 G0) Er) as [G1 L1]. cbv zeta in Hl.
      assert (forall d v, grows (snd r) d -> live (d_next d) v ->
        loc_sound d0 (mkL (update_ref d rid v) (Some v) None (l_props l) (l_ms l) (l_str l))) as Hfin.
      { intros d v G2 L2. unfold loc_sound. cbn [l_d l_val]. split; [|rewrite update_next; exact L2].
        eapply grows_trans; [exact G0|]. eapply grows_trans; [exact G1|]. eapply grows_trans; [exact G2|].
        apply update_grows; [exact (proj1 G2)|exact L2]. }
      destruct (fst r) as [|b|p|e|a] eqn:Ef.
      - destruct names; [|discriminate]. injection Hl as <-. apply Hfin; [apply grows_refl; exact (proj1 G1)|exact I].
      - destruct names; [|discriminate]. injection Hl as <-. apply Hfin; [apply grows_refl; exact (proj1 G1)|exact I].
      - match type of Hl with (let (a, d1) := alloc ?d ?o in _) = _ =>
          destruct (alloc_grows d o (proj1 G1) ltac:(apply decent_props; cbn [g_adapted g_extended g_body]; repeat split; constructor)) as [G2 L2];
          destruct (alloc d o) as [a d1] end.
        cbn [fst snd] in G2, L2. injection Hl as <-. apply Hfin; [exact G2|exact L2].
      - injection Hl as <-. apply Hfin; [apply grows_refl; exact (proj1 G1)|exact I].
      - assert (Hl' : exists d, grows (snd r) d /\ d_next d = d_next (snd r)
                 /\ l' = mkL (update_ref d rid (VRef a)) (Some (VRef a)) None (l_props l) (l_ms l) (l_str l)).
        { destruct names as [|n0 ns]; injection Hl as <-.
          - exists (snd r). split; [apply grows_refl; exact (proj1 G1)|auto].
          - exists (modify (snd r) a (fun o => with_names o (n0 :: ns))). split; [|split; [apply modify_next|reflexivity]].
            apply modify_grows; [exact (proj1 G1)|]. intros o D. apply decent_props in D. apply decent_props. exact D. }
        destruct Hl' as (d & G2 & En & ->). apply Hfin; [exact G2|]. rewrite En. exact L1. }
    unfold read_child in H. cbv zeta in H.
    assert (forall p m s, loc_sound d0 (mkL (l_d l) (l_val l) (l_cls l) p m s)) as Hsame by (intros; split; assumption).
    destruct (x_tag x);
      try (binds H; destruct en as [c|]; [exact (Hm _ _ E H)|exact (Hp _ _ E H)]);
      try (injection H as <-; first [apply Hsame|split; assumption]).
    - binds H. injection H as <-. apply Hsame.
    - eapply (Hc false _ (fun d a => read_items go d a (x_kids x))); [|exact H].
      intros d a d' HS Hd. eapply items_grow; eassumption.
    - match type of H with match _ with Some v => if ?k then _ else _ | None => _ end = _ =>
        eapply (Hc k cls_queue (fun d a => read_items go d a (x_kids x))); [|exact H] end.
      intros d a d' HS Hd. eapply items_grow; eassumption.
    - eapply (Hc false _ (fun d a => read_entries go d a (x_kids x))); [|exact H]. intros d a d' HS Hd. eapply entries_grow; eassumption.
  Qed.
  Lemma children_grow rid en kids : forall d0 l l', loc_sound d0 l -> read_children go rid en l kids = Ok l' -> loc_sound d0 l'.
  Proof.
    induction kids as [|x kids IH]; intros d0 l l' HL H; cbn [read_children] in H; [injection H as <-; exact HL|].
    binds H. eapply IH; [|exact H]. eapply child_grows; eassumption.
  Qed.
  Lemma names_grow d kids r : sound d -> read_names d kids = Ok r -> grows d (snd r).
  Proof.
    intros HS H. unfold read_names in H. destruct (tn_texts kids) as [|n0 ns].
    - destruct (find_tag is_tnref kids) as [y|]; [|injection H as <-; now apply grows_refl].
      destruct (attr_get AtRefId (x_attrs y)) as [k|]; [|discriminate].
      destruct (sget k (d_tns d)); [|discriminate]. injection H as <-. now apply grows_refl.
    - destruct (find_tag is_tn kids) as [y|]; [|injection H as <-; now apply grows_refl].
      destruct (attr_get AtRefId (x_attrs y)) as [k|]; [|discriminate]. injection H as <-.
      split; [now apply tns_sound|cbn [snd d_next]; lia].
  Qed.
  Lemma rehydrate_grows d names rid v c en o d' : sound d -> rehydrate reg d names rid = (v, c, en, o, d') ->
    grows d d' /\ match v with Some w => live (d_next d') w | None => True end.
  Proof.
    intros HS H. unfold rehydrate in H. cbv zeta in H.
    match type of H with match ?f with _ => _ end = _ => destruct f as [cl|] end.
    - assert (forall k, c_kind cl = k -> (let (a, d1) := alloc d (blank cl) in (Some (VRef a), Some cl, @None cls, c_names cl, update_ref d1 rid (VRef a))) = (v, c, en, o, d') ->
        grows d d' /\ match v with Some w => live (d_next d') w | None => True end) as Hn.
      { intros _ _ H2. destruct (alloc_grows d (blank cl) HS (decent_blank _ cl)) as [G1 L1]. destruct (alloc d (blank cl)) as [a d1].
        cbn [fst snd] in G1, L1. injection H2 as <- <- <- <- <-. rewrite update_next.
        split; [|exact L1]. eapply grows_trans; [exact G1|]. apply update_grows; [exact (proj1 G1)|exact L1]. }
      destruct (c_kind cl) eqn:Ek; try (eapply Hn; [reflexivity|exact H]).
      injection H as <- <- <- <- <-. split; [now apply grows_refl|exact I].
    - match type of H with (let (a, d1) := alloc ?d ?o in _) = _ =>
        destruct (alloc_grows d o HS ltac:(apply decent_props; cbn [g_adapted g_extended g_body]; repeat split; constructor)) as [G1 L1];
        destruct (alloc d o) as [a d1] end.
      cbn [fst snd] in G1, L1. injection H as <- <- <- <- <-. rewrite update_next.
      split; [|exact L1]. eapply grows_trans; [exact G1|]. apply update_grows; [exact (proj1 G1)|exact L1].
  Qed.
  Lemma object_grows d attrs kids r : sound d -> read_object reg go d attrs kids = Ok r ->
    grows d (snd r) /\ live (d_next (snd r)) (fst r).
  Proof.
    intros HS H. unfold read_object in H. cbv zeta in H. binds H. pose proof (names_grow _ _ _ HS E) as G1.
    destruct (rehydrate reg (snd r0) (fst r0) (attr_get AtRefId attrs)) as [[[[v0 c0] en] original] d1] eqn:Er.
    destruct (rehydrate_grows _ _ _ _ _ _ _ _ (proj1 G1) Er) as [G2 L2]. binds H.
    assert (loc_sound d (mkL d1 v0 c0 None None None)) as HL.
    { split; cbn [l_d l_val]; [eapply grows_trans; eassumption|exact L2]. }
    destruct (children_grow _ _ _ _ _ _ HL E0) as [G3 L3].
    destruct (l_val r1) as [v|]; [|discriminate].
    destruct v as [|b|p|e|a].
    - destruct (l_str r1); [discriminate|]. injection H as <-. auto.
    - destruct (l_str r1); [discriminate|]. injection H as <-. auto.
    - destruct (l_str r1); [discriminate|]. injection H as <-. auto.
    - binds H.
      assert (grows (l_d r1) r2) as G4.
      { destruct (l_props r1); [eapply dropped_grow; [exact (proj1 G3)|eassumption]|].
        match goal with X : Ok _ = Ok r2 |- _ => injection X as <- end. apply grows_refl. exact (proj1 G3). }
      assert (grows r2 r3) as G5.
      { destruct (l_ms r1); [eapply dropped_grow; [exact (proj1 G4)|eassumption]|].
        match goal with X : Ok _ = Ok r3 |- _ => injection X as <- end. apply grows_refl. exact (proj1 G4). }
      injection H as <-. cbn [fst snd]. split; [|exact I].
      eapply grows_trans; [exact G3|]. eapply grows_trans; [exact G4|]. eapply grows_trans; [exact G5|].
      apply update_grows; [exact (proj1 G5)|exact I].
    - cbv zeta in H.
      set (d2 := match l_str r1 with Some s => modify (l_d r1) a (fun o => with_string o s) | None => l_d r1 end) in H.
      assert (grows (l_d r1) d2) as G4.
      { unfold d2. destruct (l_str r1); [|apply grows_refl; exact (proj1 G3)]. apply modify_grows; [exact (proj1 G3)|].
        intros o D. apply decent_props in D. apply decent_props. exact D. }
      set (d3 := match original with [] => d2 | _ => modify d2 a (fun o => with_names o original) end) in H.
      assert (grows d2 d3) as G5.
      { unfold d3. destruct original as [|n0 ns]; [apply grows_refl; exact (proj1 G4)|]. apply modify_grows; [exact (proj1 G4)|].
        intros o D. apply decent_props in D. apply decent_props. exact D. }
      clearbody d2 d3. binds H.
      assert (grows d3 r2) as G6.
      { destruct (l_props r1); [eapply props_grow; [exact add_adapted_decent|exact (proj1 G5)|eassumption]|].
        match goal with X : Ok _ = Ok r2 |- _ => injection X as <- end. apply grows_refl. exact (proj1 G5). }
      assert (grows r2 r3) as G7.
      { destruct (l_ms r1); [eapply props_grow; [exact add_extended_decent|exact (proj1 G6)|eassumption]|].
        match goal with X : Ok _ = Ok r3 |- _ => injection X as <- end. apply grows_refl. exact (proj1 G6). }
      injection H as <-. cbn [fst snd].
      assert (grows (l_d r1) r3) as G8.
      { eapply grows_trans; [exact G4|]. eapply grows_trans; [exact G5|]. eapply grows_trans; eassumption. }
      split; [eapply grows_trans; eassumption|]. eapply live_le; [exact (proj2 G8)|exact L3].
  Qed.
End Keeps.
Theorem deser_keeps reg f : keeps (deser reg f).
Proof.
  induction f as [|f IH]; intros d x r HS H; [discriminate|]. destruct x as [t attrs text kids]. cbn [deser] in H.
  assert (forall p, (let! q := p in Ok (VPrim q, d)) = Ok r -> grows d (snd r) /\ live (d_next (snd r)) (fst r)) as Hp.
  { intros p Hq. binds Hq. injection Hq as <-. split; [now apply grows_refl|exact I]. }
  destruct t; try (injection H as <-; split; [now apply grows_refl|exact I]); try discriminate H;
    try (cbn [read_prim] in H; eapply Hp; exact H).
  - eapply object_grows; eassumption.
  - destruct (attr_get AtRefId attrs) as [k|]; [|discriminate]. destruct (sget k (d_refs d)) as [v|] eqn:E; [|discriminate].
    injection H as <-. split; [now apply grows_refl|]. exact (so_refs d HS _ _ E).
  - binds H. injection H as <-. split; [now apply grows_refl|exact I].
Qed.
Theorem reading_closed reg xs : forall d r, sound d -> read_values reg d xs = Ok r ->
  grows d (snd r) /\ Forall (live (d_next (snd r))) (fst r).
Proof.
  induction xs as [|x xs IH]; intros d r HS H; cbn [read_values] in H.
  - injection H as <-. split; [now apply grows_refl|constructor].
  - binds H. injection H as <-. cbn [fst snd]. destruct (deser_keeps reg _ _ _ _ HS E) as [G1 L1].
    destruct (IH _ _ (proj1 G1) E0) as [G2 L2]. split; [eapply grows_trans; eassumption|]. constructor; [|exact L2].
    eapply live_le; [exact (proj2 G2)|exact L1].
Qed.
