(** C79: objects whose class has ToPSObjectForRemoting, anywhere in a graph. *)
From Coq Require Import String.
From Verif Require Import Base BaseFacts Model_Scalars Model_Strings Model_Text Model_Object Model_Clixml.
From Verif Require Import Spec_Strings Spec_Scalars Spec_Clixml Spec_Hooks Proofs_Clixml7 Proofs_Hooks Properties_Clixml.
Local Open Scope list_scope.

(** A graph in which every cycle passes an object CLIXML can refer back to is written, and what was written is read.  Each
    object with a hook arrives as what its hook returned; the objects CLIXML can refer back to arrive once, hooks among
    them or not, and different objects stay different. *)
Theorem C79_roundtrip : forall reg lx h rank vs,
  good_graph reg lx h -> closed h -> ranked h rank -> Forall (good_value reg lx) vs -> Forall (resolves h) vs ->
  (exists fuel xs st, ser_list (ser fuel) (s_init h) vs = Ok (xs, st))
  /\ forall fuel xs st, ser_list (ser fuel) (s_init h) vs = Ok (xs, st) ->
     exists vs' d R, read_values reg d_init xs = Ok (vs', d) /\ Forall2 (same_value R) vs vs' /\ same_graph reg h (d_heap d) R
     /\ (forall a b, hooked h a -> R a b -> exists o o', aget a h = Some o /\ aget b (d_heap d) = Some o' /\ stands_for reg R o o')
     /\ (forall a b b' o, R a b -> R a b' -> aget a h = Some o -> by_identity o -> b = b')
     /\ (forall a a' b, R a b -> R a' b -> a = a').
Proof.
  intros reg lx h rank vs HG HC HR Hv Hr. split; [exact (writing_ends h rank vs HC HR Hr)|]. intros fuel xs st E.
  destruct (document_roundtrip reg lx h HG fuel vs xs st Hv E) as (vs' & d & R & A & B & C & D). exists vs', d, R.
  split; [exact A|]. split; [exact B|]. split; [exact C|]. split; [|exact D]. intros a b (o & Ho & Eb) Hab.
  destruct (C a b Hab) as (p & o' & Hp & Ho' & S). rewrite Ho in Hp. injection Hp as <-. exists o, o'. split; [exact Ho|]. split; [exact Ho'|].
  unfold same_object in S. rewrite Eb in S. exact S.
Qed.
Print Assumptions C79_roundtrip.
(** Two occurrences of one object with a hook are always read as two objects. *)
Theorem C79_copies : forall reg lx h a l m r fuel xs st vs' d,
  good_graph reg lx h -> hooked h a -> Forall (good_value reg lx) (l ++ VRef a :: m ++ VRef a :: r) ->
  ser_list (ser fuel) (s_init h) (l ++ VRef a :: m ++ VRef a :: r) = Ok (xs, st) -> read_values reg d_init xs = Ok (vs', d) ->
  exists l' m' r' b b', vs' = l' ++ VRef b :: m' ++ VRef b' :: r' /\ length l' = length l /\ length m' = length m /\ b <> b'.
Proof. intros reg lx h a l m r fuel xs st vs' d HG. now apply apart with (lx := lx). Qed.
Print Assumptions C79_copies.
(** An object in, or leading to, a cycle of objects that CLIXML cannot refer back to is never written out, however deep the
    recursion may go. *)
Theorem C79_endless : forall h a fuel vs xs st, endless h a -> In (VRef a) vs -> ser_list (ser fuel) (s_init h) vs <> Ok (xs, st).
Proof. intros h a fuel vs xs st Ha. now apply never_finished. Qed.
Print Assumptions C79_endless.
(** Nothing else keeps a graph from being written: all values of a heap can be written exactly when it has no such cycle. *)
Theorem C79_ends_iff : forall h, closed h ->
  ((forall vs, Forall (resolves h) vs -> exists fuel xs st, ser_list (ser fuel) (s_init h) vs = Ok (xs, st)) <-> forall a, ~ endless h a).
Proof.
  intros h HC. split.
  - intros H a Ha. destruct (endless_on h a Ha) as (b & (o & Ho & _) & _).
    destruct (H [VRef a]) as (fuel & xs & st & E); [apply Forall_cons; [exists o; exact Ho|apply Forall_nil]|]. exact (never_finished h a Ha fuel [VRef a] xs st (or_introl eq_refl) E).
  - intros H vs Hv. destruct (ranks h H) as (rank & HR). exact (writing_ends h rank vs HC HR Hv).
Qed.
Print Assumptions C79_ends_iff.
(** Sharing is lost, and an error record about itself cannot be sent. *)
Theorem C79_sharing_refuted : exists h a xs st d, hooked h a /\ ser_list (ser 9) (s_init h) [VRef a; VRef a] = Ok (xs, st)
  /\ read_values ex_reg d_init xs = Ok ([VRef 0; VRef 1]%N, d).
Proof. exists [(1, mkG BMade [tx "T"] None [] [])]%N, 1%N. do 3 eexists. split; [eexists; split; reflexivity|]. split; [vm_compute; reflexivity|]. vm_compute; reflexivity. Qed.
Print Assumptions C79_sharing_refuted.
Definition about_itself : gobj := mkG BMade [tx "T"; tx "System.Object"] None [] [(tx "TargetObject", VRef 1%N)].
Theorem C79_itself_refuted : exists h a, hooked h a /\ good_graph ex_reg ex_lex h /\ closed h
  /\ forall fuel, ser fuel (s_init h) (VRef a) = Err OutOfFuel.
Proof.
  exists [(1%N, about_itself)], 1%N. split; [exists about_itself; split; reflexivity|].
  assert (forall a p, aget a [(1%N, about_itself)] = Some p -> a = 1%N /\ p = about_itself) as O.
  { intros a p H. cbn [aget] in H. destruct (N.eqb_spec a 1); [injection H as <-; auto|discriminate]. }
  split; [split|split].
  - intros a p H. destruct (O a p H) as [_ ->]. split; [exact I|]. split; [apply names_unreg; reflexivity|]. split; [props|]. split; [props|intros []].
  - intros a b p q x y H H' Hx. destruct (O a p H) as [_ ->]. discriminate Hx.
  - reflexivity.
  - intros a p b H M. destruct (O a p H) as [_ ->]. assert (b = 1%N) as ->.
    { inversion M as [n v Hv|n v Hv|k l v F Hv|l v F Hv|l k v F Hv|l k v F Hv|c l n b' v F Hv]; subst; try discriminate F; cbn in Hv; [destruct Hv|].
      destruct Hv as [Q|[]]. congruence. }
    exists about_itself. reflexivity.
  - assert (forall fuel st, aget 1 (s_heap st) = Some about_itself -> ser fuel st (VRef 1) = Err OutOfFuel) as H; [|intros fuel; now apply H].
    induction fuel as [|f IH]; intros st Hst; [reflexivity|]. cbn [ser]. rewrite Hst. cbn [g_body about_itself ref_key get_ref_id].
    unfold ser_object. cbn [g_body about_itself g_names g_adapted g_extended fst snd]. cbv zeta.
    match goal with |- context [write_names ?s ?n] => assert (s_heap (snd (write_names s n)) = s_heap s) as Hn end.
    { unfold write_names. destruct (index_of _ _); reflexivity. }
    match goal with |- context [write_names ?s ?n] => destruct (write_names s n) as [tn st1] end. cbn [snd s_heap] in Hn.
    cbn [ser_props bind fst snd]. rewrite IH; [reflexivity|]. congruence.
Qed.
Print Assumptions C79_itself_refuted.

(** ** Example: a box with two mentions of an error about that box *)
Definition hook_heap : heap :=
  [(1, mkG BPlain [tx "My.Box"; tx "System.Object"] None [] [(tx "size", VNull); (tx "error", VRef 2); (tx "last", VRef 2)]);
   (2, mkG BMade [tx "My.Error"; tx "System.Object"] (Some (tx "it broke")) [] [(tx "TargetObject", VRef 1); (tx "Id", str "x1")])]%N.
Definition hook_rank (a : N) : nat := if (a =? 2)%N then 1 else 0.
Lemma hook_at a o : aget a hook_heap = Some o -> (a, o) = (1%N, snd (nth 0 hook_heap (0%N, mkG BPlain [] None [] []))) \/ (a, o) = (2%N, snd (nth 1 hook_heap (0%N, mkG BPlain [] None [] []))).
Proof. intros H. cbn [aget hook_heap] in H. destruct (N.eqb_spec a 1); [injection H as <-; subst; now left|]. destruct (N.eqb_spec a 2); [injection H as <-; subst; now right|discriminate]. Qed.
Lemma hook_good : good_graph ex_reg ex_lex hook_heap /\ closed hook_heap /\ ranked hook_heap hook_rank.
Proof.
  assert (forall a o b, aget a hook_heap = Some o -> mentions o (VRef b) -> (a = 1 /\ b = 2 \/ a = 2 /\ b = 1)%N) as M.
  { intros a o b H M. destruct (hook_at a o H) as [E|E]; cbn [nth hook_heap snd] in E; injection E as -> ->;
      inversion M as [n v Hv|n v Hv|k l v F Hv|l v F Hv|l k v F Hv|l k v F Hv|c l n b' v F Hv]; subst; try discriminate F; cbn [g_adapted g_extended In] in Hv;
      [destruct Hv| |destruct Hv|]; [left|right]; (split; [reflexivity|]); unfold str in Hv; decompose [or] Hv; congruence || contradiction. }
  split; [split|split].
  - intros a o H. destruct (hook_at a o H) as [E|E]; cbn [nth hook_heap snd] in E; injection E as -> ->; unfold good_object; cbn [g_body].
    + split; [exact I|]. split; [|split; [props|split; [props|intros []]]]. split; [reflexivity|]. intros c Hc.
      change (Some (mkC CPlain [tx "My.Box"; tx "System.Object"] [] [tx "size"]) = Some c) in Hc. injection Hc as <-. cbn. repeat apply conj; try reflexivity; eexists; reflexivity.
    + split; [cbn; split; [discriminate|now apply tame_whole]|]. split; [apply names_unreg; reflexivity|split; [props|split; [props|intros []]]].
  - intros a b o o' p q H H' P. destruct (hook_at a o H) as [E|E]; cbn [nth hook_heap snd] in E; injection E as -> ->; discriminate P.
  - reflexivity.
  - intros a o b H Hm. destruct (M a o b H Hm) as [[_ ->]|[_ ->]]; eexists; reflexivity.
  - intros a o b H NI Hm. destruct (M a o b H Hm) as [[-> ->]|[-> ->]]; [|exact Nat.lt_0_1]. injection H as <-. destruct NI. exact I.
Qed.
Example C79_ex : good_graph ex_reg ex_lex hook_heap /\ closed hook_heap /\ ranked hook_heap hook_rank /\ hooked hook_heap 2
  /\ exists xs st d o1 o2 o3, ser_list (ser 9) (s_init hook_heap) [VRef 1; VRef 2]%N = Ok (xs, st) /\ read_values ex_reg d_init xs = Ok ([VRef 0; VRef 3]%N, d)
     /\ aget 0 (d_heap d) = Some o1 /\ g_extended o1 = [(tx "size", VNull); (tx "error", VRef 1); (tx "last", VRef 2)]%N
     /\ aget 1 (d_heap d) = Some o2 /\ aget 2 (d_heap d) = Some o2 /\ aget 3 (d_heap d) = Some o3 /\ o2 = o3
     /\ g_extended o2 = [(tx "TargetObject", VRef 0); (tx "Id", str "x1")]%N /\ g_string o2 = Some (tx "it broke").
Proof.
  destruct hook_good as (A & B & C). split; [exact A|]. split; [exact B|]. split; [exact C|]. split; [eexists; split; reflexivity|].
  do 6 eexists. do 9 (split; [vm_compute; reflexivity|]). vm_compute; reflexivity.
Qed.
(** An error about a list of errors that it is in. *)
Definition knot : heap := [(1, mkG BMade [tx "T"] None [] [(tx "TargetObject", VRef 2)]); (2, lst [VNull; VRef 1] [] []); (3, mkG BMade [] None [] [(tx "inner", VRef 1)])]%N.
Example C79_knot_ex : endless knot 3.
Proof.
  assert (leads knot 3 1) as L3 by (eexists; split; [reflexivity|]; split; [intros []|]; eapply MenExtended; left; reflexivity).
  assert (leads knot 1 2) as L1 by (eexists; split; [reflexivity|]; split; [intros []|]; eapply MenExtended; left; reflexivity).
  assert (leads knot 2 1) as L2 by (eexists; split; [reflexivity|]; split; [intros []|]; eapply MenItem; [reflexivity|]; right; left; reflexivity).
  exists 1%N. split; [right; now apply TrailOne|]. eapply TrailMore; [exact L1|]. now apply TrailOne.
Qed.
