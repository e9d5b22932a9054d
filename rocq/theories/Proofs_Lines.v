(** Carriage returns in ToString texts: the document reads like that of the same objects with line feeds instead. *)
From Coq Require Import String.
From Verif Require Import Base BaseFacts Model_Scalars Model_Strings Model_Text Model_Object Model_Clixml Model_Xml Model_Utf8 Model_Messages.
From Verif Require Import Spec_Strings Spec_Scalars Spec_Clixml Spec_Xml Spec_Utf8 Spec_Messages.
From Verif Require Import Proofs_Text Proofs_Clixml1 Proofs_Clixml3 Proofs_Clixml5 Proofs_Clixml7 Proofs_Xml1 Proofs_Xml2 Proofs_Xml3 Proofs_Utf8 Proofs_Messages.
Local Open Scope list_scope.
Local Open Scope nat_scope.

(** ** Line ends *)
Lemma lines_nil s : lines s = [] -> s = [].
Proof. destruct s as [|c t]; [reflexivity|]. cbn [lines]. destruct (c =? 13)%N; discriminate. Qed.
Lemma lines_forall (P : N -> Prop) n : P 10%N -> forall s, length s <= n -> Forall P s -> Forall P (lines s).
Proof.
  intros H10. induction n as [|n IH]; intros s Hn H; (destruct s as [|c t]; [constructor|]); [cbn in Hn; lia|]. cbn [length] in Hn.
  inversion H as [|? ? Hc Ht]; subst. cbn [lines]. destruct (c =? 13)%N; [|constructor; [exact Hc|apply IH; [lia|exact Ht]]].
  constructor; [exact H10|]. destruct t as [|d u]; [constructor|]. cbn [length] in Hn. destruct (d =? 10)%N; [inversion Ht; subst|]; apply IH; auto; cbn [length]; lia.
Qed.
Lemma lines_valid s : attr_ok s -> text_ok (lines s).
Proof.
  intros H. remember (length s) as n eqn:En. assert (length s <= n) as Hn by lia. clear En. revert s Hn H.
  induction n as [|n IH]; intros s Hn H; (destruct s as [|c t]; [constructor|]); [cbn in Hn; lia|]. cbn [length] in Hn.
  inversion H as [|? ? Hc Ht]; subst. cbn [lines]. destruct (N.eqb_spec c 13); [|constructor; [auto|apply IH; [lia|exact Ht]]].
  constructor; [unfold valid_char; lia|]. destruct t as [|d u]; [constructor|]. cbn [length] in Hn. destruct (d =? 10)%N; [inversion Ht; subst|]; apply IH; auto; cbn [length]; lia.
Qed.
Lemma valid_lines s : text_ok (lines s) -> attr_ok s.
Proof.
  remember (length s) as n eqn:En. assert (length s <= n) as Hn by lia. clear En. revert s Hn.
  induction n as [|n IH]; intros s Hn H; (destruct s as [|c t]; [constructor|]); [cbn in Hn; lia|]. cbn [length lines] in Hn, H.
  destruct (N.eqb_spec c 13) as [->|Hc].
  - inversion H as [|? ? _ Ht]; subst. constructor; [unfold valid_char; lia|]. destruct t as [|d u]; [constructor|]. cbn [length] in Hn.
    destruct (N.eqb_spec d 10) as [->|Hd]; [constructor; [unfold valid_char; lia|]; apply IH; [lia|exact Ht]|apply IH; [cbn; lia|exact Ht]].
  - inversion H as [|? ? [Hv _] Ht]; subst. constructor; [exact Hv|]. apply IH; [lia|exact Ht].
Qed.

(** ** Elements *)
Definition is_string (t : tag) : bool := match t with TgToString => true | _ => false end.
Fixpoint lfx (x : xml) : xml := let 'Elem t a s k := x in Elem t a (if is_string t then lines s else s) (map lfx k).
Lemma lfx_set k v x : lfx (set_attr k v x) = set_attr k v (lfx x).
Proof. now destruct x. Qed.
Lemma lfx_prim p : lfx (prim_elem p) = prim_elem p.
Proof. now destruct p. Qed.
Lemma lfx_clean x : clean (lfx x) -> line_printable (raw x) /\ lined (raw x) = raw (lfx x) /\ Forall scalar (print (raw x)).
Proof.
  induction x as [t a s k IH] using xml_induct. intros H. cbn [lfx] in H. pose proof (clean_printable _ H) as P. cbn [raw printable] in P.
  destruct H as (Ht & _ & Ha & Hs & Hk). destruct P as (P1 & P2 & P3 & _). apply kids_clean in Hk.
  assert (attr_ok s /\ lines s = if is_string t then lines s else s) as [Vs Es].
  { destruct (is_string t); [split; [now apply valid_lines|reflexivity]|split; [now apply text_valid|now apply lines_text]]. }
  assert (fold_right (fun y P => line_printable y /\ P) True (map raw k) /\ map lined (map raw k) = map raw (map lfx k)
          /\ Forall scalar (flat_map print (map raw k))) as (K1 & K2 & K3).
  { clear - IH Hk. induction k as [|y k IHk]; [split; [exact I|split; [reflexivity|constructor]]|]. inversion IH as [|? ? Hy IH']; subst. cbn [map] in Hk. inversion Hk as [|? ? Ky Hk']; subst.
    destruct (IHk IH' Hk') as (A & B & C). destruct (Hy Ky) as (D & E & F). cbn [map fold_right flat_map]. rewrite B, E. split; [auto|]. split; [reflexivity|]. apply Forall_app. auto. }
  cbn [raw line_printable lined lfx]. split; [auto 8|]. split; [f_equal; [exact Es|exact K2]|].
  assert (Forall scalar (tag_text t)) as T by now apply tag_scalar.
  assert (Forall scalar (flat_map print_attr (map (fun p => (attr_text (fst p), snd p)) a))) as A.
  { clear - Ha. induction Ha as [|[n v] a [Hn Hv] _ IHa]; [constructor|]. cbn [map flat_map fst snd]. apply Forall_app. split; [|exact IHa]. unfold print_attr. cbn [fst snd] in *.
    repeat (apply Forall_app; split); try (now apply ascii_scalar); [now apply attr_scalar|]. apply flat_scalar; [exact esc_attr_scalar|exact Hv]. }
  assert (Forall scalar (flat_map esc_text s)) as S by (apply flat_scalar; [exact esc_text_scalar|exact Vs]).
  cbn [print]. apply Forall_app. split; [now apply ascii_scalar|]. apply Forall_app. split; [exact T|]. apply Forall_app. split; [exact A|].
  assert (Forall scalar (tx ">" ++ flat_map esc_text s ++ flat_map print (map raw k) ++ tx "</" ++ tag_text t ++ tx ">")) as B.
  { repeat (apply Forall_app; split); try assumption; now apply ascii_scalar. }
  destruct s; [|exact B]. destruct (map raw k); [now apply ascii_scalar|exact B].
Qed.

(** ** Heaps *)
Definition lfe (e : member) : member := mkE (e_names e) (e_type e) (e_val e) (lines (e_text e)).
Definition lfv (v : value) : value := match v with VEnum e => VEnum (lfe e) | v => v end.
Definition lfp {A} (p : A * value) : A * value := (fst p, lfv (snd p)).
Definition lfb (b : Model_Clixml.body) : Model_Clixml.body :=
  match b with
  | BList k l => BList k (map lfv l) | BQueue l => BQueue (map lfv l) | BDict l => BDict (map (fun p => (lfv (fst p), lfv (snd p))) l)
  | BPy c l => BPy c (map lfp l) | b => b
  end.
Definition lfo (o : gobj) : gobj :=
  mkG (lfb (g_body o)) (g_names o) (option_map lines (g_string o)) (map lfp (g_adapted o)) (map lfp (g_extended o)).
Definition lfh (h : heap) : heap := map (fun p => (fst p, lfo (snd p))) h.
Definition lfs (st : sst) : sst := mkS (s_refs st) (s_next st) (s_tns st) (lfh (s_heap st)).
Definition lfr {A} (f : A -> A) (r : result (A * sst)) : result (A * sst) :=
  match r with Ok (x, st) => Ok (f x, lfs st) | Err e => Err e end.
Lemma lfh_get a h : aget a (lfh h) = option_map lfo (aget a h).
Proof. induction h as [|[b o] h IH]; [reflexivity|]. cbn [lfh map aget fst snd]. destruct (a =? b)%N; [reflexivity|exact IH]. Qed.
Lemma lfh_set a o h : lfh (aset a o h) = aset a (lfo o) (lfh h).
Proof. induction h as [|[b p] h IH]; [reflexivity|]. cbn [lfh map aset fst snd]. destruct (a =? b)%N; [reflexivity|]. cbn [map fst snd]. f_equal. exact IH. Qed.
Lemma lfs_ref st k : get_ref_id (lfs st) k = (fst (get_ref_id st k), lfs (snd (get_ref_id st k))).
Proof. unfold get_ref_id. cbn [lfs s_refs s_next s_tns s_heap]. destruct k as [k|]; [destruct (key_get k (s_refs st))|]; reflexivity. Qed.
Lemma lfs_names st ns : write_names (lfs st) ns = (fst (write_names st ns), lfs (snd (write_names st ns))).
Proof. destruct ns as [|n r]; [reflexivity|]. unfold write_names. cbn [lfs s_refs s_next s_tns s_heap]. destruct (index_of n (s_tns st)); reflexivity. Qed.
Lemma lfx_names st ns : map lfx (fst (write_names st ns)) = fst (write_names st ns).
Proof.
  destruct ns as [|n r]; [reflexivity|]. unfold write_names. destruct (index_of n (s_tns st)); [reflexivity|]. cbn [fst map lfx is_string]. do 2 f_equal.
  rewrite map_map. f_equal.
Qed.
Lemma lfx_string s : map lfx (string_elem s) = string_elem (option_map lines s).
Proof.
  destruct s as [[|c s]|]; try reflexivity. cbn [string_elem map lfx is_string option_map]. destruct (lines (c :: s)) eqn:E; [|reflexivity].
  apply lines_nil in E. discriminate.
Qed.
Lemma lfx_group t l : is_string t = false -> map lfx (group t l) = group t (map lfx l).
Proof. intros H. destruct l; [reflexivity|]. cbn [group map lfx]. rewrite H. reflexivity. Qed.
Lemma lfp_public c l : public_attrs c (map lfp l) = map lfp (public_attrs c l).
Proof.
  unfold public_attrs. induction l as [|[[n b] v] l IH]; [reflexivity|]. cbn [map filter lfp fst snd]. destruct (negb _); cbn [map fst snd lfp]; now rewrite IH.
Qed.
Section Loops.
  Variable f : nat.
  Hypothesis HF : forall st v, ser f (lfs st) (lfv v) = lfr lfx (ser f st v).
  Lemma lf_list l : forall st, ser_list (ser f) (lfs st) (map lfv l) = lfr (map lfx) (ser_list (ser f) st l).
  Proof.
    induction l as [|v l IH]; intros st; [reflexivity|]. cbn [map ser_list]. rewrite HF. destruct (ser f st v) as [[x st1]|e]; [|reflexivity].
    cbn [lfr bind fst snd]. rewrite IH. destruct (ser_list (ser f) st1 l) as [[xs st2]|e]; reflexivity.
  Qed.
  Lemma lf_props l : forall st, ser_props (ser f) (lfs st) (map lfp l) = lfr (map lfx) (ser_props (ser f) st l).
  Proof.
    induction l as [|[n v] l IH]; intros st; [reflexivity|]. cbn [map ser_props lfp fst snd]. rewrite HF. destruct (ser f st v) as [[x st1]|e]; [|reflexivity].
    cbn [lfr bind fst snd]. rewrite IH. destruct (ser_props (ser f) st1 l) as [[xs st2]|e]; [|reflexivity]. cbn [lfr bind fst snd map]. now rewrite lfx_set.
  Qed.
  Lemma lf_dict l : forall st, ser_dict (ser f) (lfs st) (map (fun p => (lfv (fst p), lfv (snd p))) l) = lfr (map lfx) (ser_dict (ser f) st l).
  Proof.
    induction l as [|[k v] l IH]; intros st; [reflexivity|]. cbn [map ser_dict fst snd]. rewrite HF. destruct (ser f st k) as [[x st1]|e]; [|reflexivity].
    cbn [lfr bind fst snd]. rewrite HF. destruct (ser f st1 v) as [[y st2]|e]; [|reflexivity]. cbn [lfr bind fst snd].
    rewrite IH. destruct (ser_dict (ser f) st2 l) as [[xs st3]|e]; [|reflexivity]. cbn [lfr bind fst snd map lfx is_string]. now rewrite !lfx_set.
  Qed.
  Lemma lf_queue a n : forall st, ser_queue (ser f) n (lfs st) a = lfr (map lfx) (ser_queue (ser f) n st a).
  Proof.
    induction n as [|n IH]; intros st; [reflexivity|]. cbn [ser_queue]. cbn [lfs s_heap]. rewrite lfh_get.
    destruct (aget a (s_heap st)) as [[[|p|k l|[|v t]|l|c l|] ns s ad ex]|]; try reflexivity.
    cbn [option_map lfo g_body g_names g_string g_adapted g_extended lfb map].
    replace (set_heap (lfs st) _) with (lfs (set_heap st (aset a (mkG (BQueue t) ns s ad ex) (s_heap st)))).
    2:{ unfold lfs, set_heap. cbn [s_refs s_next s_tns s_heap]. rewrite lfh_set. reflexivity. }
    rewrite HF. destruct (ser f _ v) as [[x st1]|e]; [|reflexivity]. cbn [lfr bind fst snd]. rewrite IH.
    destruct (ser_queue (ser f) n st1 a) as [[xs st2]|e]; reflexivity.
  Qed.
  Lemma lf_body st a o : ser_body (ser f) (lfs st) a (lfo o) = lfr (map lfx) (ser_body (ser f) st a o).
  Proof.
    unfold ser_body. cbn [lfo g_body g_string]. destruct (g_body o) as [|p|k l|l|l|c l|]; cbn [lfb].
    - cbn [lfr]. now rewrite lfx_string.
    - reflexivity.
    - rewrite lf_list. destruct (ser_list (ser f) st l) as [[xs st1]|e]; reflexivity.
    - rewrite map_length, lf_queue. destruct (ser_queue (ser f) (length l) st a) as [[xs st1]|e]; reflexivity.
    - rewrite lf_dict. destruct (ser_dict (ser f) st l) as [[xs st1]|e]; reflexivity.
    - rewrite lfp_public, lf_props. destruct (ser_props (ser f) st (public_attrs c l)) as [[xs st1]|e]; [|reflexivity].
      cbn [lfr bind fst snd]. now rewrite lfx_group.
    - cbn [lfr]. now rewrite lfx_string.
  Qed.
  Lemma lf_object st id a o : ser_object (ser f) (lfs st) id a (lfo o) = lfr lfx (ser_object (ser f) st id a o).
  Proof.
    unfold ser_object. cbv zeta.
    replace (match g_body (lfo o) with BPrim p => [prim_elem p] | _ => [] end) with (match g_body o with BPrim p => [prim_elem p] | _ => [] end)
      by (cbn [lfo g_body]; now destruct (g_body o)).
    replace (match g_body (lfo o) with BPrim _ => [] | BPy _ _ => custom_names | _ => g_names (lfo o) end)
      with (match g_body o with BPrim _ => [] | BPy _ _ => custom_names | _ => g_names o end) by (cbn [lfo g_body g_names]; now destruct (g_body o)).
    replace (match g_body (lfo o) with BPy _ _ => ([], []) | _ => (g_adapted (lfo o), g_extended (lfo o)) end)
      with (match g_body o with BPy _ _ => ([], []) | _ => (map lfp (g_adapted o), map lfp (g_extended o)) end)
      by (cbn [lfo g_body g_adapted g_extended]; now destruct (g_body o)).
    set (sub := match g_body o with BPrim p => [prim_elem p] | _ => [] end).
    set (ns := match g_body o with BPrim _ => [] | BPy _ _ => custom_names | _ => g_names o end).
    set (props := match g_body o with BPy _ _ => ([], []) | _ => (g_adapted o, g_extended o) end).
    replace (match g_body o with BPy _ _ => ([], []) | _ => (map lfp (g_adapted o), map lfp (g_extended o)) end)
      with (map (@lfp name) (fst props), map (@lfp name) (snd props)) by (unfold props; now destruct (g_body o)).
    assert (map lfx sub = sub) as Hsub by (unfold sub; destruct (g_body o); try reflexivity; cbn [map]; now rewrite lfx_prim).
    clearbody sub ns props.
    rewrite lfs_names. pose proof (lfx_names st ns) as Htn. destruct (write_names st ns) as [tn st1]. cbn [fst snd] in *.
    rewrite lf_props. destruct (ser_props (ser f) st1 (fst props)) as [[xa st2]|e]; [|reflexivity]. cbn [lfr bind fst snd].
    rewrite lf_props. destruct (ser_props (ser f) st2 (snd props)) as [[xe st3]|e]; [|reflexivity]. cbn [lfr bind fst snd].
    rewrite lf_body. destruct (ser_body (ser f) st3 a o) as [[xb st4]|e]; [|reflexivity]. cbn [lfr bind fst snd lfx is_string].
    rewrite !map_app, Hsub, Htn, !lfx_group by reflexivity. reflexivity.
  Qed.
End Loops.
Lemma ser_lf f : forall st v, ser f (lfs st) (lfv v) = lfr lfx (ser f st v).
Proof.
  induction f as [|f IH]; intros st v; [reflexivity|]. cbn [ser]. destruct v as [|b|p|e|a]; cbn [lfv]; try reflexivity.
  - cbn [lfr]. now rewrite lfx_prim.
  - cbn [lfe e_names e_type e_val e_text]. rewrite lfs_ref. destruct (get_ref_id st _) as [[id used] st1]. cbn [fst snd]. destruct used; [reflexivity|].
    rewrite lfs_names. pose proof (lfx_names st1 (e_names e)) as Htn. destruct (write_names st1 (e_names e)) as [tn st2]. cbn [fst snd lfr lfx is_string] in *.
    cbn [map]. rewrite lfx_prim, map_app, Htn, lfx_string. reflexivity.
  - cbn [lfs s_heap]. rewrite lfh_get. destruct (aget a (s_heap st)) as [o|]; [|reflexivity]. cbn [option_map].
    assert ((let '(id, used, st1) := get_ref_id (lfs st) (ref_key a (g_body (lfo o))) in
             if used then Ok (Elem TgRef [(AtRefId, dec id)] [] [], st1) else ser_object (ser f) st1 id a (lfo o))
            = lfr lfx (let '(id, used, st1) := get_ref_id st (ref_key a (g_body o)) in
             if used then Ok (Elem TgRef [(AtRefId, dec id)] [] [], st1) else ser_object (ser f) st1 id a o)) as HG.
    { replace (ref_key a (g_body (lfo o))) with (ref_key a (g_body o)) by (cbn [lfo g_body]; now destruct (g_body o)).
      rewrite lfs_ref. destruct (get_ref_id st _) as [[id used] st1]. cbn [fst snd]. destruct used; [reflexivity|]. now apply lf_object. }
    cbv zeta. change (mkS (s_refs st) (s_next st) (s_tns st) (lfh (s_heap st))) with (lfs st). rewrite HG.
    replace (has_props (lfo o)) with (has_props o) by (unfold has_props; cbn [lfo g_adapted g_extended]; destruct (g_adapted o), (g_extended o); reflexivity).
    cbn [lfo g_body]. destruct (g_body o) as [|p|k l|l|l|c l|]; cbn [lfb]; try reflexivity. destruct (has_props o); [reflexivity|]. cbn [lfr]. now rewrite lfx_prim.
Qed.

(** ** Safe heaps: only the ToString texts change *)
Lemma lfe_safe e : text_ok (e_text e) -> lfe e = e.
Proof. intros H. unfold lfe. rewrite lines_text by exact H. now destruct e. Qed.
Lemma lfv_safe v : safe_value v -> lfv v = v.
Proof. destruct v; try reflexivity. intros [_ H]. cbn [lfv]. now rewrite lfe_safe. Qed.
Lemma map_same {A} (f : A -> A) l : (forall x, In x l -> f x = x) -> map f l = l.
Proof. induction l as [|x l IH]; intros H; [reflexivity|]. cbn [map]. rewrite H by now left. f_equal. apply IH. intros y Hy. apply H. now right. Qed.
Lemma legible_lines o : legible_object o -> lfo o = with_lines o /\ safe_object (with_lines o).
Proof.
  intros (A & B & C & D & E & F). split.
  - unfold lfo, with_lines. f_equal.
    + destruct (g_body o) as [|p|k l|l|l|c l|] eqn:EB; cbn [lfb]; try reflexivity; f_equal.
      * apply map_same. intros v Hv. apply lfv_safe, F. exact (MenItem o k l v EB Hv).
      * apply map_same. intros v Hv. apply lfv_safe, F. exact (MenEntry o l v EB Hv).
      * apply map_same. intros [k v] Hv. cbn [fst snd]. f_equal; apply lfv_safe, F; [exact (MenKey o l k v EB Hv)|exact (MenValue o l k v EB Hv)].
      * apply map_same. intros [[n b] v] Hv. unfold lfp. cbn [fst snd]. f_equal. apply lfv_safe, F. exact (MenAttr o c l n b v EB Hv).
    + apply map_same. intros [n v] Hv. unfold lfp. cbn [fst snd]. f_equal. apply lfv_safe, F. exact (MenAdapted o n v Hv).
    + apply map_same. intros [n v] Hv. unfold lfp. cbn [fst snd]. f_equal. apply lfv_safe, F. exact (MenExtended o n v Hv).
  - unfold safe_object, with_lines. cbn [g_names g_string g_adapted g_extended g_body]. split; [exact A|]. split.
    { destruct (g_string o); [now apply lines_valid|exact I]. }
    split; [exact C|]. split; [exact D|]. split; [exact E|]. intros v Hv. apply F. destruct Hv; cbn [g_adapted g_extended g_body] in *;
      [eapply MenAdapted|eapply MenExtended|eapply MenItem|eapply MenEntry|eapply MenKey|eapply MenValue|eapply MenAttr]; eassumption.
Qed.
Lemma heap_lines_get a h : aget a (heap_lines h) = option_map with_lines (aget a h).
Proof. induction h as [|[b o] h IH]; [reflexivity|]. cbn [heap_lines map aget fst snd]. destruct (a =? b)%N; [reflexivity|exact IH]. Qed.
Lemma heap_lines_keys a h : aget a (heap_lines h) = None <-> aget a h = None.
Proof. rewrite heap_lines_get. destruct (aget a h); split; intros H; try reflexivity; discriminate H. Qed.
Lemma with_lines_mentions o v : mentions (with_lines o) v <-> mentions o v.
Proof.
  split; intros Hv; destruct Hv; cbn [with_lines g_adapted g_extended g_body] in *;
    [eapply MenAdapted|eapply MenExtended|eapply MenItem|eapply MenEntry|eapply MenKey|eapply MenValue|eapply MenAttr|
     eapply MenAdapted|eapply MenExtended|eapply MenItem|eapply MenEntry|eapply MenKey|eapply MenValue|eapply MenAttr]; cbn [with_lines g_adapted g_extended g_body]; eassumption.
Qed.
Lemma lines_good reg lx h : good_graph reg lx h -> good_graph reg lx (heap_lines h).
Proof.
  intros [A B C]. constructor; [| |exact C].
  - intros a o Ho. rewrite heap_lines_get in Ho. destruct (aget a h) as [p|] eqn:E; [|discriminate]. injection Ho as <-. destruct (A a p E) as [G1 G2]. split.
    + unfold good_body in *. cbn [with_lines g_body g_string g_names g_adapted g_extended]. destruct (g_body p); try exact G1;
      (destruct (g_string p) as [s|]; [|exact I]; cbn [option_map]; destruct G1 as (S1 & S2 & S3); split; [intros F; now apply lines_nil in F|];
       split; [apply (lines_forall _ (length s)); auto; lia|apply (lines_forall _ (length s)); auto; lia]).
    + exact G2.
  - intros a b o o' p q Ho Ho' Hp Hq Ht. rewrite heap_lines_get in Ho, Ho'. destruct (aget a h) as [x|] eqn:E; [|discriminate]. destruct (aget b h) as [y|] eqn:E'; [|discriminate].
    injection Ho as <-. injection Ho' as <-. exact (B a b x y p q E E' Hp Hq Ht).
Qed.
Lemma lines_closed h : closed h -> closed (heap_lines h).
Proof.
  intros H a o b Ho Hm. rewrite heap_lines_get in *. destruct (aget a h) as [p|] eqn:E; [|discriminate]. injection Ho as <-. apply (proj1 (with_lines_mentions _ _)) in Hm.
  destruct (H a p b E Hm) as (o' & ->). eexists. reflexivity.
Qed.
Lemma lines_safe h : legible_graph h -> safe_graph (heap_lines h).
Proof. intros H a o Ho. rewrite heap_lines_get in Ho. destruct (aget a h) as [p|] eqn:E; [|discriminate]. injection Ho as <-. apply legible_lines. exact (H a p E). Qed.
Lemma lines_here h v : here h v -> here (heap_lines h) v.
Proof. intros H a Ha. destruct (H a Ha) as (o & Ho). exists (with_lines o). rewrite heap_lines_get, Ho. reflexivity. Qed.


(** ** The heap that is written in place of the other *)
Lemma lfh_lines h a : legible_graph h -> aget a (lfh h) = aget a (heap_lines h).
Proof. intros H. rewrite lfh_get, heap_lines_get. destruct (aget a h) as [o|] eqn:E; [|reflexivity]. cbn [option_map]. now rewrite (proj1 (legible_lines o (H a o E))). Qed.
Lemma good_graph_ext reg lx h h' : (forall a, aget a h' = aget a h) -> good_graph reg lx h -> good_graph reg lx h'.
Proof.
  intros E [A B C]. constructor; [| |exact C].
  - intros a o Ho. rewrite E in Ho. eauto.
  - intros a b o o' p q Ho Ho'. rewrite E in Ho, Ho'. eauto.
Qed.
Lemma safe_graph_ext h h' : (forall a, aget a h' = aget a h) -> safe_graph h -> safe_graph h'.
Proof. intros E H a o Ho. rewrite E in Ho. eauto. Qed.
Lemma closed_ext h h' : (forall a, aget a h' = aget a h) -> closed h -> closed h'.
Proof. intros E H a o b Ho. rewrite E in *. eauto. Qed.
Lemma same_graph_ext reg h h' g R : (forall a, aget a h' = aget a h) -> same_graph reg h g R -> same_graph reg h' g R.
Proof. intros E H a b Hab. rewrite E. eauto. Qed.

(** ** Values and messages *)
Lemma value_data_lines fuel h v data : safe_graph (lfh h) -> safe_value (lfv v) -> value_data fuel h v = Ok data ->
  exists data', value_data fuel (lfh h) (lfv v) = Ok data' /\ data <> [] /\ data' <> []
    /\ exists s s', utf8_decode data = Ok s /\ utf8_decode data' = Ok s' /\ parse s = parse s'.
Proof.
  intros HS Hv E. unfold value_data in *. apply bind_Ok in E. destruct E as ([x st] & E & E'). injection E' as <-. cbn [fst].
  pose proof (ser_lf fuel (s_init h) v) as EL. rewrite E in EL. cbn [lfr] in EL. change (lfs (s_init h)) with (s_init (lfh h)) in EL.
  destruct (cleans_all fuel (s_init (lfh h)) (lfv v) (lfx x) _ (safe_init _ HS) Hv EL) as [HC _].
  destruct (lfx_clean x HC) as (P1 & P2 & P3). rewrite EL. cbn [bind fst]. eexists. split; [reflexivity|].
  split; [destruct x; cbn [raw print]; discriminate|]. split; [destruct (lfx x); cbn [raw print]; discriminate|].
  exists (print (raw x)), (print (raw (lfx x))). split; [now apply decode_encode|]. split; [now apply decode_encode, print_scalar|].
  rewrite print_lines by exact P1. rewrite P2. symmetry. now apply print_parse, clean_printable.
Qed.
Lemma lfh_lone a l h : lfh ((a, lone l) :: h) = (a, lone (map lfp l)) :: lfh h.
Proof. reflexivity. Qed.
Theorem message_lines reg lx h a m fuel data : good_graph reg lx h -> legible_graph h -> closed h -> aget a h = None ->
  good_message reg lx m -> Forall (here h) (values m) -> message_data fuel h a m = Ok data ->
  exists m' h' R, read_message reg (kind m) data = Ok (m', h') /\ same_message R m m' /\ same_graph reg (heap_lines h) h' R.
Proof.
  intros HG HL HC Ha HM HH E. pose proof (fun x => lfh_lines h x HL) as HE.
  assert (good_graph reg lx (lfh h)) as HG' by (eapply good_graph_ext; [exact HE|now apply lines_good]).
  assert (safe_graph (lfh h)) as HS' by (eapply safe_graph_ext; [exact HE|now apply lines_safe]).
  assert (closed (lfh h)) as HC' by (eapply closed_ext; [exact HE|now apply lines_closed]).
  assert (aget a (lfh h) = None) as Ha' by (rewrite HE; now apply heap_lines_keys).
  assert (Forall (here (lfh h)) (values m)) as HH'.
  { eapply Forall_impl; [|exact HH]. intros v Hv b Hb. destruct (Hv b Hb) as (o & Ho). rewrite lfh_get, Ho. eexists. reflexivity. }
  assert (exists data', message_data fuel (lfh h) a m = Ok data' /\ read_message reg (kind m) data = read_message reg (kind m) data') as (data' & E' & ER).
  { pose proof (good_fields_values reg lx m HM) as [_ HW]. pose proof HM as (_ & _ & HR). unfold message_data in *. apply bind_Ok in E. destruct E as (s & Es & E). rewrite Es. cbn [bind].
    pose proof (shape_layout m s HR Es) as HY.
    assert (forall d d' s s', utf8_decode d = Ok s -> utf8_decode d' = Ok s' -> d <> [] -> d' <> [] -> parse s = parse s' ->
            read_message reg (kind m) d = read_message reg (kind m) d') as HRd.
    { intros d d' u u' D D' N N' P. unfold read_message. rewrite D, D'. cbn [bind]. rewrite P. destruct d, d'; try easy. }
    destruct s as [|v|l]; cbn [laid_out] in HY.
    - exists data. auto.
    - assert (safe_value v) as Hv.
      { destruct HY as [HY| ->]; [|constructor]. rewrite HY in HW. now inversion HW. }
      destruct (value_data_lines fuel h v data HS') as (data' & A & B & C & s & s' & D & D' & P); [now rewrite lfv_safe|exact E|].
      rewrite (lfv_safe v Hv) in A. exists data'. split; [exact A|]. eauto.
    - destruct (lone_good reg lx (lfh h) a m l HG' HS' HM HY) as [_ HS2].
      assert (map lfp l = l) as Hl.
      { apply map_same. intros [n v] Hi. unfold lfp. cbn [fst snd]. f_equal. apply lfv_safe.
        destruct (HS2 a (lone l)) as (_ & _ & _ & _ & _ & F); [cbn [aget]; now rewrite N.eqb_refl|]. apply F. exact (MenExtended (lone l) n v Hi). }
      destruct (value_data_lines fuel ((a, lone l) :: h) (VRef a) data) as (data' & A & B & C & s & s' & D & D' & P); [rewrite lfh_lone, Hl; exact HS2|exact I|exact E|].
      rewrite lfh_lone, Hl in A. exists data'. split; [exact A|]. eauto. }
  destruct (message_roundtrip reg lx (lfh h) a m fuel data' HG' HS' HC' Ha' HM HH' E') as (m' & h' & R & X & Y & Z).
  exists m', h', R. split; [congruence|]. split; [exact Y|]. eapply same_graph_ext; [|exact Z]. intros x. symmetry. apply HE.
Qed.
