(** Messages: what is written is the documented layout, and reading it gives the message back. *)
From Coq Require Import String.
From Verif Require Import Base BaseFacts Model_Scalars Model_Strings Model_Text Model_Object Model_Clixml Model_Xml Model_Utf8 Model_Messages.
From Verif Require Import Spec_Strings Spec_Scalars Spec_Clixml Spec_Xml Spec_Utf8 Spec_Messages.
From Verif Require Import Proofs_Text Proofs_Clixml1 Proofs_Clixml3 Proofs_Clixml5 Proofs_Clixml7 Proofs_Xml1 Proofs_Xml2 Proofs_Xml3 Proofs_Utf8.
Local Open Scope list_scope.
Local Open Scope nat_scope.

(** ** The layout *)
Lemma base64_code l : bytes_ok l -> base64 l = b64_encode l.
Proof.
  remember (length l) as n eqn:En. assert (length l <= n) as Hl by lia. clear En. revert l Hl. induction n as [|n IH]; intros l Hl Hb.
  { destruct l; [reflexivity|cbn in Hl; lia]. }
  destruct l as [|a [|b [|c t]]]; [reflexivity|..]; inversion Hb as [|? ? Ha Hb1]; subst; clear Hb; cbn beta in Ha.
  - cbn [base64 b64_encode]. change letter64 with b64_char. repeat (f_equal; try lia).
  - inversion Hb1 as [|? ? Hbb _]; subst. cbn beta in Hbb. cbn [base64 b64_encode]. change letter64 with b64_char. repeat (f_equal; try lia).
  - inversion Hb1 as [|? ? Hbb Hb2]; subst. inversion Hb2 as [|? ? Hc Ht]; subst. cbn beta in Hbb, Hc. cbn [base64 b64_encode app]. change letter64 with b64_char.
    cbn [length] in Hl. rewrite IH by (lia || assumption).
    assert ((a * 65536 + b * 256 + c) / 262144 = a / 4)%N as -> by lia.
    assert ((a * 65536 + b * 256 + c) / 4096 mod 64 = a mod 4 * 16 + b / 16)%N as -> by lia.
    assert ((a * 65536 + b * 256 + c) / 64 mod 64 = b mod 16 * 4 + c / 64)%N as -> by lia.
    assert ((a * 65536 + b * 256 + c) mod 64 = c mod 64)%N as -> by lia. reflexivity.
Qed.
Lemma int_value_Ok t z v : int_value t z = Ok v -> v = VPrim (PInt t z) /\ fits t z.
Proof.
  unfold int_value, new_int. destruct ((z <? min_value t) || (z >? max_value t))%Z eqn:E; [discriminate|]. intros H. injection H as <-. split; [reflexivity|].
  unfold fits. destruct t; cbn in *; lia.
Qed.
Lemma int_value_fits t z : fits t z -> int_value t z = Ok (VPrim (PInt t z)).
Proof.
  intros H. unfold int_value, new_int. assert ((z <? min_value t) || (z >? max_value t) = false)%Z as ->; [|reflexivity].
  unfold fits in H. destruct t; cbn in *; lia.
Qed.
Lemma opt_int_Ok t z v : opt_int t z = Ok v -> v = or_null (fun n => VPrim (PInt t n)) z.
Proof. destruct z as [n|]; cbn [opt_int or_null]; intros H; [now apply int_value_Ok in H|now injection H as <-]. Qed.
Ltac binds E := repeat match type of E with
  | bind _ _ = Ok _ => let v := fresh "v" in let H := fresh "H" in apply bind_Ok in E; destruct E as (v & H & E)
  end.
Ltac ints := repeat match goal with
  | H : int_value _ _ = Ok _ |- _ => apply int_value_Ok in H; destruct H as [-> ?]
  | H : opt_int _ _ = Ok _ |- _ => apply opt_int_Ok in H; subst
  end.
Lemma count_prop_Ok n z l : z <> Some 0%Z -> count_prop n z = Ok l -> l = match or_null i32 z with VNull => [] | v => [(n, v)] end.
Proof.
  intros Hz. destruct z as [c|]; cbn [count_prop or_null]; [|intros H; now injection H as <-].
  destruct (c =? 0)%Z eqn:E; [apply Z.eqb_eq in E; subst; congruence|]. intros H. apply bind_Ok in H. destruct H as (v & H & H'). injection H' as <-.
  apply int_value_Ok in H. destruct H as [-> _]. reflexivity.
Qed.
Definition laid_out (m : message) (s : shape) : Prop :=
  match s with
  | Nothing => fields m = []
  | One v => values m = [v] \/ v = str []
  | Props l => l = written (kind m) (field_names (kind m)) (fields m)
  end.
Lemma shape_layout m s : in_range m -> message_shape m = Ok s -> laid_out m s.
Proof.
  intros HR E. destruct m; cbn [message_shape] in E; binds E; ints;
    try (injection E as <-; cbn [laid_out kind values]; try (right; reflexivity); try (left; reflexivity); try reflexivity).
  - destruct tz; reflexivity.
  - cbn [laid_out fields]. now rewrite (base64_code key HR).
  - cbn [laid_out fields]. now rewrite (base64_code key HR).
  - destruct error; reflexivity.
  - cbn [fields]. destruct pipeline; reflexivity.
  - destruct pipeline, mr, me; reflexivity.
  - destruct v; injection E as <-; [left; reflexivity|reflexivity].
  - destruct error; reflexivity.
  - destruct HR as [H1 H2]. apply count_prop_Ok in H; [|exact H1]. apply count_prop_Ok in H0; [|exact H2]. subst.
    destruct mn, mx; cbn [or_null i32 app]; [reflexivity..|]. right; reflexivity.
Qed.

(** ** Bytes *)
Lemma valid_scalar c : valid_char c -> scalar c.
Proof. unfold valid_char, scalar. lia. Qed.
Lemma ascii_scalar l : forallb (fun c => (c <? 128)%N) l = true -> Forall scalar l.
Proof. intros H. rewrite forallb_forall in H. apply Forall_forall. intros c Hc. apply H, N.ltb_lt in Hc. unfold scalar. lia. Qed.
Lemma esc_text_scalar c : scalar c -> Forall scalar (esc_text c).
Proof. intros H. unfold esc_text. repeat (destruct (_ =? _)%N; [now apply ascii_scalar|]). constructor; [exact H|constructor]. Qed.
Lemma esc_attr_scalar c : scalar c -> Forall scalar (esc_attr c).
Proof. intros H. unfold esc_attr. repeat (destruct (_ =? _)%N; [now apply ascii_scalar|]). constructor; [exact H|constructor]. Qed.
Lemma flat_scalar (f : N -> list N) l : (forall c, scalar c -> Forall scalar (f c)) -> Forall valid_char l -> Forall scalar (flat_map f l).
Proof. intros Hf. induction 1 as [|c l Hc _ IH]; [constructor|]. cbn [flat_map]. apply Forall_app. split; [now apply Hf, valid_scalar|exact IH]. Qed.
Lemma tag_scalar t : (forall n, t <> TgOther n) -> Forall scalar (tag_text t).
Proof. intros H. destruct t as [| | | | | | | | | |k| | | |k|k| | | | | | |k| |n]; try destruct k; try (now apply ascii_scalar). now destruct (H n). Qed.
Lemma attr_scalar a : (forall n, a <> AtOther n) -> Forall scalar (attr_text a).
Proof. intros H. destruct a as [| | |n]; try (now apply ascii_scalar). now destruct (H n). Qed.
Lemma print_scalar x : clean x -> Forall scalar (print (raw x)).
Proof.
  induction x as [t a s k IH] using xml_induct. intros (Ht & _ & Ha & Hs & Hk). apply kids_clean in Hk.
  assert (Forall scalar (tag_text t)) as T by now apply tag_scalar.
  assert (Forall scalar (flat_map print_attr (map (fun p => (attr_text (fst p), snd p)) a))) as A.
  { induction Ha as [|[n v] a [Hn Hv] _ IHa]; [constructor|]. cbn [map flat_map fst snd]. apply Forall_app. split; [|exact IHa]. unfold print_attr. cbn [fst snd] in *.
    repeat (apply Forall_app; split); try (now apply ascii_scalar); [now apply attr_scalar|]. apply flat_scalar; [exact esc_attr_scalar|exact Hv]. }
  assert (Forall scalar (flat_map esc_text s)) as S.
  { apply flat_scalar; [exact esc_text_scalar|]. eapply Forall_impl; [|exact Hs]. intros c Hc. apply Hc. }
  assert (Forall scalar (flat_map print (map raw k))) as K.
  { clear - IH Hk. induction k as [|y k IHk]; [constructor|]. inversion IH; inversion Hk; subst. cbn [map flat_map]. apply Forall_app. auto. }
  cbn [raw print]. apply Forall_app. split; [now apply ascii_scalar|]. apply Forall_app. split; [exact T|]. apply Forall_app. split; [exact A|].
  assert (Forall scalar (tx ">" ++ flat_map esc_text s ++ flat_map print (map raw k) ++ tx "</" ++ tag_text t ++ tx ">")) as B.
  { repeat (apply Forall_app; split); try assumption; now apply ascii_scalar. }
  destruct s; [|exact B]. destruct (map raw k); [now apply ascii_scalar|exact B].
Qed.
(** Reading what was written for a value. *)
Theorem value_roundtrip reg lx h v fuel data : good_graph reg lx h -> safe_graph h -> good_value reg lx v -> safe_value v ->
  value_data fuel h v = Ok data ->
  exists s x v' d R, utf8_decode data = Ok s /\ parse s = Ok x /\ deserialize reg d_init (cook x) = Ok (v', d)
    /\ same_value R v v' /\ same_graph reg h (d_heap d) R /\ data <> [].
Proof.
  intros HG HS Hg Hs E. unfold value_data in E. apply bind_Ok in E. destruct E as ([x st] & E & E'). injection E' as <-. cbn [fst].
  assert (ser_list (ser fuel) (s_init h) [v] = Ok ([x], st)) as EL. { cbn [ser_list]. rewrite E. reflexivity. }
  destruct (document_roundtrip reg lx h HG fuel [v] [x] st) as (vs' & d & R & A & B & C & _); [constructor; [exact Hg|constructor]|exact EL|].
  destruct (cleans_all fuel (s_init h) v x st (safe_init h HS) Hs E) as [HC _].
  inversion B as [|? v' ? ? Hv Hn]; subst. inversion Hn; subst. cbn [read_values] in A. apply bind_Ok in A. destruct A as ([v1 d1] & A & A'). cbn [bind fst snd] in A'. injection A' as <- <-.
  exists (print (raw x)), (raw x), v1, d1, R. split; [now apply decode_encode, print_scalar|]. split; [now apply print_parse, clean_printable|].
  split; [now rewrite cook_raw|]. split; [exact Hv|]. split; [exact C|]. destruct x as [t a s k]. cbn [raw print]. discriminate.
Qed.

(** ** Leaving the message object out of the relation *)
Lemma same_value_impl (R R' : N -> N -> Prop) v v' : (forall a b, v = VRef a -> R a b -> R' a b) -> same_value R v v' -> same_value R' v v'.
Proof. intros H S. destruct S; constructor; auto. Qed.
Lemma forall2_impl_in {A B} (P Q : A -> B -> Prop) l m : (forall x y, In x l -> P x y -> Q x y) -> Forall2 P l m -> Forall2 Q l m.
Proof. intros H F. revert H. induction F as [|x y l m Hp _ IH]; intros H; constructor; [apply H; [now left|exact Hp]|]. apply IH. intros x' y' Hi. apply H. now right. Qed.
Lemma publics_in c l ps n v : publics c l ps -> In (n, v) ps -> exists b, In (n, b, v) l.
Proof.
  induction 1 as [|[[m b] w] l ps Hp _ IH|[[m b] w] l ps Hp _ IH]; intros Hi; [destruct Hi| |].
  - destruct Hi as [E|Hi]; [cbn [fst snd] in E; injection E as <- <-; exists b; now left|]. destruct (IH Hi) as (b' & ?). exists b'. now right.
  - destruct (IH Hi) as (b' & ?). exists b'. now right.
Qed.
Lemma same_object_impl reg (R R' : N -> N -> Prop) o o' : (forall a b, mentions o (VRef a) -> R a b -> R' a b) ->
  same_object reg R o o' -> same_object reg R' o o'.
Proof.
  intros H.
  assert (forall v v', mentions o v -> same_value R v v' -> same_value R' v v') as HV.
  { intros v v' Hm. apply same_value_impl. intros a b -> Hab. now apply H. }
  assert (forall l l', (forall n v, In (n, v) l -> mentions o v) -> same_props R l l' -> same_props R' l l') as HP.
  { intros l l' Hm. apply forall2_impl_in. intros [n v] [n' v'] Hi [A B]. cbn [fst snd] in *. split; [exact A|]. apply (HV v v'); [now apply (Hm n)|exact B]. }
  assert (forall l', same_props R (g_adapted o) l' -> same_props R' (g_adapted o) l') as HA by (intros l'; apply HP; intros n v Hi; exact (MenAdapted o n v Hi)).
  assert (forall l', same_props R (g_extended o) l' -> same_props R' (g_extended o) l') as HE by (intros l'; apply HP; intros n v Hi; exact (MenExtended o n v Hi)).
  unfold same_object. destruct (g_body o) as [|p|k l|l|l|c l|] eqn:EB.
  - intros (A & B & C & D & E). auto 8.
  - intros (A & B & D & E). auto 8.
  - intros ((l' & A & B) & C & D & E). split; [|auto]. exists l'. split; [exact A|]. eapply forall2_impl_in; [|exact B]. intros v v' Hi. apply HV. exact (MenItem o k l v EB Hi).
  - intros ((l' & A & B) & C & D & E). split; [|auto]. exists l'. split; [exact A|]. eapply forall2_impl_in; [|exact B]. intros v v' Hi. apply HV. exact (MenEntry o l v EB Hi).
  - intros ((l' & A & B) & C & D & E). split; [|auto]. exists l'. split; [exact A|]. eapply forall2_impl_in; [|exact B]. intros [k v] [k' v'] Hi [X Y]. cbn [fst snd] in *. split.
    + apply (HV k k'); [exact (MenKey o l k v EB Hi)|exact X].
    + apply (HV v v'); [exact (MenValue o l k v EB Hi)|exact Y].
  - intros (A & B & C & D & ps & E & F). repeat (split; [assumption|]). exists ps. split; [exact E|]. apply HP; [|exact F]. intros n v Hi.
    destruct (publics_in _ _ _ _ _ E Hi) as (b & Hb). exact (MenAttr o c l n b v EB Hb).
  - intros (A & B & C & D & E). auto 8.
Qed.
Definition but (a : N) (R : N -> N -> Prop) (x y : N) : Prop := R x y /\ x <> a.
Lemma same_graph_but reg h a o h' R : closed h -> aget a h = None -> same_graph reg ((a, o) :: h) h' R -> same_graph reg h h' (but a R).
Proof.
  intros HC Hn HG x y [Hxy Hx]. destruct (HG x y Hxy) as (p & q & A & B & C). cbn [aget] in A. rewrite (proj2 (N.eqb_neq x a) Hx) in A.
  exists p, q. split; [exact A|]. split; [exact B|]. eapply same_object_impl; [|exact C]. intros b b' Hm Hb. split; [exact Hb|]. intros ->.
  destruct (HC x p a A Hm) as (w & Hw). congruence.
Qed.
Lemma same_value_but a R h v v' : aget a h = None -> here h v -> same_value R v v' -> same_value (but a R) v v'.
Proof. intros Hn Hv. apply same_value_impl. intros b b' -> Hb. split; [exact Hb|]. intros ->. destruct (Hv a eq_refl) as (o & Ho). congruence. Qed.

(** ** The message object is a good object *)
Fixpoint distinct (l : list name) : bool := match l with [] => true | n :: t => negb (existsb (name_eqb n) t) && distinct t end.
Lemma distinct_NoDup l : distinct l = true -> NoDup l.
Proof.
  induction l as [|n l IH]; cbn [distinct]; intros H; [constructor|]. apply andb_true_iff in H. destruct H as [A B]. constructor; [|now apply IH].
  intros Hi. apply negb_true_iff in A. assert (existsb (name_eqb n) l = true) as X by (apply existsb_exists; exists n; split; [exact Hi|now apply name_eqb_iff]). congruence.
Qed.
Lemma names_fine k : distinct (map tx (field_names k)) && forallb tame (map tx (field_names k)) = true.
Proof. destruct k; vm_compute; reflexivity. Qed.
Lemma written_in k ns vs n v : In (n, v) (written k ns vs) -> In n (map tx ns) /\ In v vs.
Proof.
  revert vs. induction ns as [|s ns IH]; intros [|w vs] H; cbn [written] in H; try (destruct H; fail). apply in_app_or in H. cbn [map]. destruct H as [H|H].
  - destruct (_ && _); [destruct H|]. destruct H as [E|[]]. injection E as <- <-. split; now left.
  - destruct (IH vs H). split; now right.
Qed.
Lemma written_nodup k ns vs : NoDup (map tx ns) -> NoDup (map fst (written k ns vs)).
Proof.
  revert vs. induction ns as [|s ns IH]; intros [|w vs] H; cbn [written]; try (constructor; fail). cbn [map] in H. inversion H as [|? ? A B]; subst.
  destruct (_ && _); cbn [app map fst]; [now apply IH|]. constructor; [|now apply IH]. intros Hi. apply in_map_iff in Hi. destruct Hi as ([n v] & E & Hi). cbn [fst] in E. subst.
  now apply written_in in Hi.
Qed.
Definition lone (l : list (name * value)) : gobj := mkG BPlain [] None [] l.
Lemma lone_good reg lx h a m l : good_graph reg lx h -> safe_graph h -> good_message reg lx m -> l = written (kind m) (field_names (kind m)) (fields m) ->
  good_graph reg lx ((a, lone l) :: h) /\ safe_graph ((a, lone l) :: h).
Proof.
  intros [G1 G2 G3] HS (Hg & Hs & _) ->. pose proof (names_fine (kind m)) as HN. apply andb_true_iff in HN. destruct HN as [HN1 HN2].
  apply distinct_NoDup in HN1. rewrite forallb_forall in HN2. rewrite Forall_forall in Hg, Hs.
  set (l := written (kind m) (field_names (kind m)) (fields m)).
  assert (forall n v, In (n, v) l -> tame n = true /\ good_value reg lx v /\ safe_value v) as HL.
  { intros n v Hi. apply written_in in Hi. destruct Hi as [A B]. auto. }
  split; [split|].
  - intros x o Ho. cbn [aget] in Ho. destruct (x =? a)%N; [|now apply (G1 x)]. injection Ho as <-. split; [exact I|]. cbn [g_body lone].
    split; [split; [now left|intros c Hc; discriminate Hc]|]. split; [split; [constructor|constructor]|]. split; [|intros []].
    split; [now apply written_nodup|]. apply Forall_forall. intros [n v] Hi. destruct (HL n v Hi) as (A & B & C). cbn [fst snd]. split; [now apply tame_good|exact B].
  - intros x y o o' p q Hx Hy Ho Ho' Ht. cbn [aget] in Hx, Hy. destruct (x =? a)%N; [injection Hx as <-; discriminate Ho|]. destruct (y =? a)%N; [injection Hy as <-; discriminate Ho'|].
    exact (G2 x y o o' p q Hx Hy Ho Ho' Ht).
  - exact G3.
  - intros x o Ho. cbn [aget] in Ho. destruct (x =? a)%N; [|now apply (HS x)]. injection Ho as <-. split; [constructor|]. split; [exact I|]. split; [|split; [|split]].
    + cbn [lone g_adapted g_extended app]. apply Forall_forall. intros [n v] Hi. destruct (HL n v Hi) as (A & _). cbn [fst].
      unfold tame in A. rewrite forallb_forall in A. apply Forall_forall. intros c Hc. apply A, andb_true_iff in Hc. destruct Hc as [Hc _]. apply N.ltb_lt in Hc. lia.
    + intros p Hp. discriminate Hp.
    + intros c l' n b v Hp. discriminate Hp.
    + intros v Hv. inversion Hv as [n w Hi|n w Hi|? ? ? Hb|? ? Hb|? ? ? Hb|? ? ? Hb|? ? ? ? ? Hb]; subst; try discriminate Hb; [destruct Hi|]. now destruct (HL n v Hi) as (_ & _ & ?).
Qed.

(** ** Accessors *)
Lemma sget_same R l l' n : same_props R l l' ->
  match sget n l with Some v => exists v', sget n l' = Some v' /\ same_value R v v' | None => sget n l' = None end.
Proof.
  induction 1 as [|[m v] [m' v'] l l' [A B] _ IH]; [reflexivity|]. cbn [fst snd] in *. subst m'. cbn [sget]. destruct (name_eqb n m); [eauto|exact IH].
Qed.
Section Accessors.
  Variables (R : N -> N -> Prop) (h' : heap) (a' : N) (o' : gobj) (l : list (name * value)).
  Hypothesis Ho : aget a' h' = Some o'.
  Hypothesis Ha : g_adapted o' = [].
  Hypothesis Hl : same_props R l (g_extended o').
  Lemma need_same n v : sget (tx n) l = Some v -> exists v', need h' (VRef a') n = Ok v' /\ same_value R v v'.
  Proof.
    intros H. pose proof (sget_same R l _ (tx n) Hl) as S. rewrite H in S. destruct S as (v' & S & Hv). exists v'. split; [|exact Hv].
    unfold need, prop. rewrite Ho, S. reflexivity.
  Qed.
  Lemma maybe_same n : same_value R (match sget (tx n) l with Some v => v | None => VNull end) (maybe h' (VRef a') n).
  Proof.
    pose proof (sget_same R l _ (tx n) Hl) as S. unfold maybe, prop. rewrite Ho, Ha. cbn [sget].
    destruct (sget (tx n) l); [destruct S as (v' & -> & Hv); exact Hv|]. rewrite S. constructor.
  Qed.
End Accessors.
Lemma of_prim R p v : (forall z, p <> PPlainInt z) -> same_value R (VPrim p) v -> v = VPrim p.
Proof. intros Hp H. inversion H as [| |? q Hq| |]; subst. destruct p; cbn [same_prim] in Hq; try (now subst). now destruct (Hp z). Qed.
Lemma of_int R t z v : same_value R (VPrim (PInt t z)) v -> as_int v = Ok z.
Proof. intros H. apply of_prim in H; [now subst|discriminate]. Qed.
Lemma of_ver R x v : same_value R (VPrim (PVer x)) v -> as_ver v = Ok x.
Proof. intros H. apply of_prim in H; [now subst|discriminate]. Qed.
Lemma of_bool R b v : same_value R (VBool b) v -> as_bool v = Ok b.
Proof. intros H. now inversion H. Qed.
Lemma of_member R e v : same_value R (VEnum e) v -> as_member v = Ok e.
Proof. intros H. now inversion H. Qed.
Lemma of_key R k v : bytes_ok k -> same_value R (str (b64_encode k)) v -> as_key v = Ok k.
Proof. intros Hk H. apply of_prim in H; [subst; now apply b64_roundtrip|discriminate]. Qed.
Lemma of_state R n z v : (0 <= z <= n)%Z -> same_value R (i32 z) v -> as_state n v = Ok z.
Proof.
  intros Hz H. unfold as_state. rewrite (of_int _ _ _ _ H). cbn [bind]. assert ((0 <=? z) && (z <=? n) = true)%Z as -> by (apply andb_true_iff; lia). reflexivity.
Qed.
Lemma of_availability R (r : bool + Z) v : same_value R (match r with inl b => VBool b | inr n => VPrim (PPlainInt n) end) v -> as_availability v = Ok r.
Proof.
  destruct r as [b|n]; intros H; inversion H as [| |? q Hq| |]; subst; [reflexivity|]. cbn [same_prim] in Hq. destruct Hq as (t & _ & _ & ->). reflexivity.
Qed.
Lemma of_opt_int R t z v : same_value R (or_null (fun n => VPrim (PInt t n)) z) v -> as_opt as_int v = Ok z.
Proof. destruct z as [n|]; cbn [or_null]; intros H; [apply of_prim in H; [now subst|discriminate]|now inversion H]. Qed.
Lemma of_opt_text R z v : same_value R (or_null str z) v -> as_opt as_text v = Ok z.
Proof. destruct z as [n|]; cbn [or_null]; intros H; [apply of_prim in H; [now subst|discriminate]|now inversion H]. Qed.
Lemma of_opt_date R z v : same_value R (or_null (fun t => VPrim (PDate t)) z) v -> as_opt as_date v = Ok z.
Proof. destruct z as [n|]; cbn [or_null]; intros H; [apply of_prim in H; [now subst|discriminate]|now inversion H]. Qed.
Lemma of_opt_guid R z v : same_value R (or_null (fun t => VPrim (PGuid t)) z) v -> as_opt as_guid v = Ok z.
Proof. destruct z as [n|]; cbn [or_null]; intros H; [apply of_prim in H; [now subst|discriminate]|now inversion H]. Qed.
Lemma of_opt_member R z v : same_value R (or_null VEnum z) v -> as_opt as_member v = Ok z.
Proof. destruct z as [n|]; cbn [or_null]; intros H; now inversion H. Qed.
Lemma of_opt_bytes R d v : same_value R (match d with [] => VNull | _ => VPrim (PBytes d) end) v ->
  exists x, as_opt as_bytes v = Ok x /\ match x with Some l => l | None => [] end = d.
Proof. destruct d as [|c d]; intros H; [inversion H; subst; exists None; auto|]. apply of_prim in H; [subst; eexists; split; reflexivity|discriminate]. Qed.

(** ** Reading a message object *)
Lemma good_fields_values reg lx m : good_message reg lx m -> Forall (good_value reg lx) (values m) /\ Forall safe_value (values m).
Proof.
  intros (A & B & _). destruct m; cbn [values fields] in *; try (split; constructor; fail);
    try (destruct v; cbn in *; [|split; constructor; fail]);
    repeat match goal with H : Forall _ (_ :: _) |- _ => inversion H; clear H; subst end; split; repeat (constructor; [assumption|]); constructor.
Qed.
Ltac get n := match goal with
  | N : forall n v, _ -> exists v', need _ _ n = Ok v' /\ _ |- _ =>
    let x := fresh "x" in let Hx := fresh "Hx" in destruct (N n _ eq_refl) as (x & -> & Hx); cbn [bind]
  end.
Ltac opt_get n := match goal with M : forall n, same_value _ _ (maybe _ _ n) |- _ => let x := fresh "Hm" in pose proof (M n) as x end.
Ltac typed := repeat match goal with
  | H : same_value _ (VBool _) ?v |- context [as_bool ?v] => rewrite (of_bool _ _ _ H); cbn [bind]
  | H : same_value _ (VEnum _) ?v |- context [as_member ?v] => rewrite (of_member _ _ _ H); cbn [bind]
  | H : same_value _ (VPrim (PVer _)) ?v |- context [as_ver ?v] => rewrite (of_ver _ _ _ H); cbn [bind]
  | H : same_value _ (i32 _) ?v |- context [as_int ?v] => rewrite (of_int _ _ _ _ H); cbn [bind]
  | H : same_value _ (i64 _) ?v |- context [as_int ?v] => rewrite (of_int _ _ _ _ H); cbn [bind]
  | H : same_value _ _ ?v |- context [as_availability ?v] => rewrite (of_availability _ _ _ H); cbn [bind]
  | H : same_value _ _ ?v |- context [as_opt as_int ?v] => rewrite (of_opt_int _ _ _ _ H); cbn [bind]
  | H : same_value _ _ ?v |- context [as_opt as_text ?v] => rewrite (of_opt_text _ _ _ H); cbn [bind]
  | H : same_value _ _ ?v |- context [as_opt as_date ?v] => rewrite (of_opt_date _ _ _ H); cbn [bind]
  | H : same_value _ _ ?v |- context [as_opt as_guid ?v] => rewrite (of_opt_guid _ _ _ H); cbn [bind]
  | H : same_value _ _ ?v |- context [as_opt as_member ?v] => rewrite (of_opt_member _ _ _ H); cbn [bind]
  end.
Ltac gets := repeat (match goal with |- context [need _ _ ?n] => get n end; typed).
Lemma read_object R h' a' m :
  (forall n v, sget (tx n) (written (kind m) (field_names (kind m)) (fields m)) = Some v -> exists v', need h' (VRef a') n = Ok v' /\ same_value R v v') ->
  (forall n, same_value R (match sget (tx n) (written (kind m) (field_names (kind m)) (fields m)) with Some v => v | None => VNull end) (maybe h' (VRef a') n)) ->
  in_range m -> field_names (kind m) <> [] ->
  exists m', read_event h' (kind m) (VRef a') = Ok m' /\ same_message R m m'.
Proof.
  intros N M HR HF. destruct m; cbn [kind] in *.
  - cbn [read_event]. gets. opt_get "TimeZone"%string.
    assert (same_value R (match tz with [] => VNull | _ => VPrim (PBytes tz) end) (maybe h' (VRef a') "TimeZone")) as Hm' by (destruct tz; exact Hm).
    destruct (of_opt_bytes _ _ _ Hm') as (y & -> & Hy). cbn [bind]. eexists. split; [reflexivity|]. rewrite Hy. split; [reflexivity|constructor].
  - cbn [read_event]. gets. eexists. split; [reflexivity|]. split; [reflexivity|]. repeat (constructor; [assumption|]). constructor.
  - cbn [read_event]. gets. rewrite base64_code in Hx by exact HR. rewrite (of_key _ _ _ HR Hx). cbn [bind]. eexists. split; [reflexivity|]. split; [reflexivity|constructor].
  - cbn [read_event]. gets. rewrite base64_code in Hx by exact HR. rewrite (of_key _ _ _ HR Hx). cbn [bind]. eexists. split; [reflexivity|]. split; [reflexivity|constructor].
  - now destruct HF.
  - cbn [read_event]. gets. eexists. split; [reflexivity|]. split; [reflexivity|constructor].
  - cbn [read_event]. gets. eexists. split; [reflexivity|]. split; [reflexivity|constructor].
  - cbn [read_event]. gets. eexists. split; [reflexivity|]. split; [reflexivity|constructor].
  - cbn [read_event]. gets. rewrite (of_state _ _ _ _ HR Hx). cbn [bind]. opt_get "ExceptionAsErrorRecord"%string. eexists. split; [reflexivity|]. split; [reflexivity|].
    constructor; [destruct error; exact Hm|constructor].
  - cbn [read_event]. gets. eexists. split; [reflexivity|]. split; [reflexivity|]. repeat (constructor; [assumption|]). constructor.
  - cbn [read_event]. gets. eexists. split; [reflexivity|]. split; [reflexivity|constructor].
  - cbn [read_event]. gets. eexists. split; [reflexivity|]. split; [reflexivity|]. repeat (constructor; [assumption|]). constructor.
  - cbn [read_event]. gets. eexists. split; [reflexivity|]. split; [reflexivity|]. repeat (constructor; [assumption|]). constructor.
  - cbn [read_event]. gets. eexists. split; [reflexivity|]. split; [reflexivity|]. repeat (constructor; [assumption|]). constructor.
  - destruct pipeline; cbn [read_event]; gets; eexists; (split; [reflexivity|]); (split; [reflexivity|]); repeat (constructor; [assumption|]); constructor.
  - opt_get "mr"%string. opt_get "me"%string.
    assert (same_value R mr (maybe h' (VRef a') "mr")) as A by (destruct pipeline, mr, me; assumption).
    assert (same_value R me (maybe h' (VRef a') "me")) as B by (destruct pipeline, mr, me; assumption).
    destruct pipeline; cbn [read_event]; gets; eexists; (split; [reflexivity|]); (split; [reflexivity|]); repeat (constructor; [assumption|]); constructor.
  - now destruct HF.
  - now destruct HF.
  - now destruct HF.
  - destruct k; now destruct HF.
  - cbn [read_event]. gets. rewrite (of_state _ _ _ _ HR Hx). cbn [bind]. opt_get "ExceptionAsErrorRecord"%string. eexists. split; [reflexivity|]. split; [reflexivity|].
    constructor; [destruct error; exact Hm|constructor].
  - cbn [read_event]. gets. eexists. split; [reflexivity|]. split; [reflexivity|constructor].
  - cbn [read_event]. gets. eexists. split; [reflexivity|]. split; [reflexivity|]. repeat (constructor; [assumption|]). constructor.
  - cbn [read_event]. opt_get "MinRunspaces"%string. opt_get "MaxRunspaces"%string.
    assert (same_value R (or_null i32 mn) (maybe h' (VRef a') "MinRunspaces")) as A by (destruct mn, mx; assumption).
    assert (same_value R (or_null i32 mx) (maybe h' (VRef a') "MaxRunspaces")) as B by (destruct mn, mx; assumption).
    clear Hm Hm0. typed. eexists. split; [reflexivity|]. split; [reflexivity|constructor].
  - cbn [read_event]. gets. eexists. split; [reflexivity|]. split; [reflexivity|constructor].
  - cbn [read_event]. gets. eexists. split; [reflexivity|]. split; [reflexivity|constructor].
Qed.
Lemma props_kind m l : message_shape m = Ok (Props l) -> field_names (kind m) <> [].
Proof.
  intros E. destruct m; try discriminate; cbn [message_shape] in E; try discriminate E; try (destruct v; discriminate E).
  - destruct pipeline; discriminate.
  - destruct pipeline; discriminate.
Qed.
Lemma one_cases m v : message_shape m = Ok (One v) ->
  v = str [] /\ (m = WPublicKeyRequest \/ m = WConnectRunspacePool None None \/ exists a b, m = WConnectRunspacePool a b /\ (a = Some 0%Z \/ b = Some 0%Z))
  \/ values m = [v] /\ fields m = [v] /\ (forall h v', exists m', read_event h (kind m) v' = Ok m' /\ skeleton m' = skeleton m /\ values m' = [v']).
Proof.
  intros E. destruct m; cbn [message_shape] in E; try discriminate E; try (binds E; discriminate E).
  - injection E as <-. left. auto.
  - injection E as <-. right. split; [reflexivity|]. split; [reflexivity|]. intros h v'. eexists. split; [reflexivity|]. split; reflexivity.
  - destruct v0; [|discriminate]. injection E as <-. right. split; [reflexivity|]. split; [reflexivity|]. intros h v'. eexists. split; [reflexivity|]. split; reflexivity.
  - injection E as <-. right. split; [reflexivity|]. split; [reflexivity|]. intros h v'. destruct k; eexists; (split; [reflexivity|]); split; reflexivity.
  - binds E. destruct v0, v1; try discriminate. injection E as <-. left. split; [reflexivity|]. right.
    destruct mn as [n|]; [right; destruct (Z.eq_dec n 0) as [->|Hn]; [eauto|]|].
    { cbn [count_prop] in H. rewrite (proj2 (Z.eqb_neq n 0) Hn) in H. apply bind_Ok in H. destruct H as (? & _ & H). discriminate. }
    destruct mx as [n|]; [right; destruct (Z.eq_dec n 0) as [->|Hn]; [eauto|]|now left].
    cbn [count_prop] in H0. rewrite (proj2 (Z.eqb_neq n 0) Hn) in H0. apply bind_Ok in H0. destruct H0 as (? & _ & H0). discriminate.
Qed.
Lemma read_written reg k data s x v d m : utf8_decode data = Ok s -> parse s = Ok x -> deserialize reg d_init (cook x) = Ok (v, d) -> data <> [] ->
  k <> KEndOfPipelineInput -> read_event (d_heap d) k v = Ok m -> read_message reg k data = Ok (m, d_heap d).
Proof.
  intros A B C D K E. unfold read_message. rewrite A. cbn [bind]. destruct data; [easy|]. rewrite B. cbn [bind]. rewrite C. cbn [bind fst snd]. rewrite E.
  destruct k; try reflexivity. easy.
Qed.
Theorem message_roundtrip reg lx h a m fuel data : good_graph reg lx h -> safe_graph h -> closed h -> aget a h = None ->
  good_message reg lx m -> Forall (here h) (values m) -> message_data fuel h a m = Ok data ->
  exists m' h' R, read_message reg (kind m) data = Ok (m', h') /\ same_message R m m' /\ same_graph reg h h' R.
Proof.
  intros HG HS HC Ha HM HH E. pose proof (good_fields_values reg lx m HM) as [HV HW]. pose proof HM as (_ & _ & HR). unfold message_data in E. apply bind_Ok in E. destruct E as (s & Es & E).
  pose proof (shape_layout m s HR Es) as HL. destruct s as [|v|l]; cbn [laid_out] in HL.
  - injection E as <-. exists m, [], (fun _ _ => False). split; [|split; [split; [reflexivity|]|intros ? ? []]].
    + destruct m; try discriminate HL; [reflexivity|]. destruct v; [discriminate|reflexivity].
    + destruct m; try discriminate HL; [constructor|]. destruct v; [discriminate|constructor].
  - destruct (one_cases m v Es) as [(-> & Hm)|(Hv & Hf & Hm)].
    + destruct (value_roundtrip reg lx h (str []) fuel data HG HS) as (s & x & v' & d & R & A & B & C & D & F & G); [| |exact E|].
      { split; [repeat constructor|]. now apply (tame_good []). }
      { constructor. }
      apply of_prim in D; [subst v'|discriminate]. destruct Hm as [->|[->|(p & q & -> & Hpq)]].
      * exists WPublicKeyRequest, (d_heap d), R. split; [|split; [split; [reflexivity|constructor]|exact F]]. eapply read_written; try eassumption; [discriminate|reflexivity].
      * exists (WConnectRunspacePool None None), (d_heap d), R. split; [|split; [split; [reflexivity|constructor]|exact F]]. eapply read_written; try eassumption; [discriminate|reflexivity].
      * destruct HR as [H1 H2]. destruct Hpq; contradiction.
    + rewrite Hv in HV, HW. inversion HV; inversion HW; subst.
      destruct (value_roundtrip reg lx h v fuel data HG HS) as (s & x & v' & d & R & A & B & C & D & F & G); [assumption|assumption|exact E|].
      destruct (Hm (d_heap d) v') as (m' & X & Y & Z). exists m', (d_heap d), R. split; [|split; [split; [exact Y|]|exact F]].
      * eapply read_written; try eassumption. intros K. destruct m; try discriminate K; [destruct pipeline; discriminate..|discriminate Hv|destruct k; discriminate].
      * rewrite Hv, Z. constructor; [exact D|constructor].
  - destruct (lone_good reg lx h a m l HG HS HM HL) as [HG' HS'].
    destruct (value_roundtrip reg lx ((a, lone l) :: h) (VRef a) fuel data HG' HS') as (s & x & v' & d & R & A & B & C & D & F & G); [exact I|exact I|exact E|].
    inversion D as [| | | |? a' Haa]; subst v'. destruct (F a a' Haa) as (o & o' & Ho & Ho' & HO). cbn [aget] in Ho. rewrite N.eqb_refl in Ho. injection Ho as <-.
    destruct HO as (_ & _ & _ & HP & HQ). cbn [lone g_adapted g_extended] in HP, HQ. assert (g_adapted o' = []) as HE by now inversion HP.
    pose proof (fun n v => need_same R (d_heap d) a' o' l Ho' HQ n v) as N. pose proof (maybe_same R (d_heap d) a' o' l Ho' HE HQ) as M. rewrite HL in N, M.
    destruct (read_object R (d_heap d) a' m N M HR (props_kind m l Es)) as (m' & X & Y1 & Y2).
    exists m', (d_heap d), (but a R). split; [|split; [split; [exact Y1|]|now apply (same_graph_but reg h a (lone l))]].
    + eapply read_written; try eassumption. intros K. pose proof (props_kind m l Es) as PK. rewrite K in PK. now apply PK.
    + eapply forall2_impl_in; [|exact Y2]. intros v v' Hi. rewrite Forall_forall in HH. apply (same_value_but a R h); [exact Ha|now apply HH].
Qed.

(** ** Which messages can be written *)
Lemma int_value_cases t z : fits t z /\ int_value t z = Ok (VPrim (PInt t z)) \/ ~ fits t z /\ int_value t z = Err ValueError.
Proof.
  unfold int_value, new_int, fits. destruct ((z <? min_value t) || (z >? max_value t))%Z eqn:E; [right|left]; (split; [destruct t; cbn in *; lia|reflexivity]).
Qed.
Lemma opt_int_cases t z : let c := match z with Some n => [(t, n)] | None => [] end in
  Forall (fun p => fits (fst p) (snd p)) c /\ opt_int t z = Ok (or_null (fun n => VPrim (PInt t n)) z)
  \/ ~ Forall (fun p => fits (fst p) (snd p)) c /\ opt_int t z = Err ValueError.
Proof.
  destruct z as [n|]; cbn [opt_int or_null]; [|left; split; [constructor|reflexivity]].
  destruct (int_value_cases t n) as [[A B]|[A B]]; [left|right]; (split; [|exact B]); [constructor; [exact A|constructor]|intros F; inversion F; now apply A].
Qed.
Lemma count_prop_cases n z : let c := match z with Some n => [(TInt32, n)] | None => [] end in
  Forall (fun p => fits (fst p) (snd p)) c /\ (exists l, count_prop n z = Ok l)
  \/ ~ Forall (fun p => fits (fst p) (snd p)) c /\ count_prop n z = Err ValueError.
Proof.
  destruct z as [c|]; cbn [count_prop]; [|left; split; [constructor|eauto]]. destruct (c =? 0)%Z eqn:E.
  { left. split; [|eauto]. apply Z.eqb_eq in E. subst. constructor; [cbn; lia|constructor]. }
  destruct (int_value_cases TInt32 c) as [[A B]|[A B]]; rewrite B; cbn [bind]; [left|right]; (split; [|eauto]); [constructor; [exact A|constructor]|intros F; inversion F; now apply A].
Qed.
Theorem shape_total m : counts_fit m /\ (exists s, message_shape m = Ok s) \/ ~ counts_fit m /\ message_shape m = Err ValueError.
Proof.
  unfold counts_fit. destruct m; cbn [counts message_shape];
    repeat match goal with
    | |- context [int_value ?t ?z] => let A := fresh in let B := fresh in destruct (int_value_cases t z) as [[A B]|[A B]]; rewrite B; cbn [bind]; clear B
    | |- context [opt_int ?t ?z] => let A := fresh in let B := fresh in destruct (opt_int_cases t z) as [[A B]|[A B]]; rewrite B; cbn [bind]; clear B
    | |- context [count_prop ?n ?z] => let A := fresh in let B := fresh in let l := fresh in destruct (count_prop_cases n z) as [[A [l B]]|[A B]]; rewrite B; cbn [bind]; clear B
    end;
    try (right; split; [|reflexivity]; intros F; rewrite ?Forall_app in F; repeat match goal with F : Forall _ (_ :: _) |- _ => inversion F; clear F; subst end; cbn [fst snd] in *; tauto);
    left; (split; [rewrite ?Forall_app; try assumption; repeat (constructor; try assumption)|try destruct v; eauto]).
Qed.
Lemma unless_null_in n n' v b : In (n', VRef b) (unless_null n v) -> v = VRef b.
Proof. destruct v; cbn [unless_null]; intros H; try (destruct H; fail); destruct H as [H|[]]; try discriminate H. now injection H as _ <-. Qed.
Lemma shape_mentions m l n b : message_shape m = Ok (Props l) -> In (n, VRef b) l -> In (VRef b) (values m).
Proof.
  intros E Hi. destruct m; cbn [message_shape] in E; try discriminate E; try (destruct v; discriminate E); binds E; ints;
    try (injection E as <-; cbn [values]; unfold opt_text, opt_member, opt in Hi; cbn [app In] in *;
      repeat match goal with
      | H : _ \/ _ |- _ => destruct H as [H|H]
      | H : (_, _) = (_, _) |- _ => injection H as <- H; try discriminate H
      | H : or_null _ ?z = VRef _ |- _ => destruct z; discriminate H
      | H : match ?z with _ => _ end = VRef _ |- _ => destruct z; discriminate H
      end; try (subst; tauto); try contradiction).
  - destruct tz; [destruct Hi|]. destruct Hi as [Hi|[]]. discriminate Hi.
  - apply unless_null_in in Hi. now left.
  - apply in_app_or in Hi. destruct Hi as [Hi|Hi]; apply unless_null_in in Hi; tauto.
  - apply unless_null_in in Hi. now left.
  - exfalso.
    assert (forall n z l, count_prop n z = Ok l -> forall n' b', ~ In (n', VRef b') l) as HN.
    { clear. intros n [c|] l H n' b' Hi; cbn [count_prop] in H; [|injection H as <-; destruct Hi]. destruct (c =? 0)%Z; [injection H as <-; destruct Hi|].
      apply bind_Ok in H. destruct H as (v & H & H'). injection H' as <-. apply int_value_Ok in H. destruct H as [-> _]. destruct Hi as [Hi|[]]. discriminate Hi. }
    destruct (v ++ v0) eqn:EL; [discriminate|]. injection E as <-. rewrite <- EL in Hi. apply in_app_or in Hi. destruct Hi as [Hi|Hi]; revert Hi; eapply HN; eassumption.
Qed.
Theorem writes h a m rank : closed h -> ranked h rank -> aget a h = None -> Forall (here h) (values m) ->
  counts_fit m -> exists fuel data, message_data fuel h a m = Ok data.
Proof.
  intros HC HK Ha HV HF. destruct (shape_total m) as [[_ (s & E)]|[N _]]; [|contradiction]. unfold message_data. rewrite E. cbn [bind].
  rewrite Forall_forall in HV. assert (forall v, In v (values m) -> resolves h v) as HV' by (intros [] Hv; try exact I; exact (HV _ Hv _ eq_refl)).
  destruct s as [|v|l].
  - exists 0, []. reflexivity.
  - assert (resolves h v) as Hr.
    { destruct (one_cases m v E) as [(-> & _)|(Hv & _)]; [exact I|]. apply HV'. rewrite Hv. now left. }
    destruct (writing_ends h rank [v] HC HK) as (fuel & xs & st & W); [constructor; [exact Hr|constructor]|].
    exists fuel. cbn [ser_list] in W. apply bind_Ok in W. destruct W as ([x st1] & W & _). unfold value_data. rewrite W. eexists. reflexivity.
  - assert (closed ((a, lone l) :: h)) as HC'.
    { intros x o b Ho Hm. cbn [aget] in *. destruct (x =? a)%N.
      - injection Ho as <-. destruct (b =? a)%N; [eauto|]. inversion Hm as [n w Hi|n w Hi|? ? ? Hb|? ? Hb|? ? ? Hb|? ? ? Hb|? ? ? ? ? Hb]; subst; try discriminate Hb; [destruct Hi|].
        exact (HV _ (shape_mentions m l n b E Hi) _ eq_refl).
      - destruct (b =? a)%N; [eauto|]. exact (HC x o b Ho Hm). }
    assert (ranked ((a, lone l) :: h) rank) as HK'.
    { intros x o b Ho Hn Hm. cbn [aget] in Ho. destruct (x =? a)%N; [injection Ho as <-; now destruct Hn|]. exact (HK x o b Ho Hn Hm). }
    destruct (writing_ends ((a, lone l) :: h) rank [VRef a] HC' HK') as (fuel & xs & st & W).
    { constructor; [|constructor]. cbn [resolves aget]. rewrite N.eqb_refl. eauto. }
    exists fuel. cbn [ser_list] in W. apply bind_Ok in W. destruct W as ([x st1] & W & _). unfold value_data. fold (lone l). rewrite W. eexists. reflexivity.
Qed.
