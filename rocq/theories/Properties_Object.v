(** C39 (member addition) and C40 (attribute reads and writes). *)
From Verif Require Import Base BaseFacts Model_Object Spec_Object Proofs_Object.

(** Examples use numbers as values; the one property type halves, and refuses odd numbers; 0 stands for None. *)
Definition ex_cast (_ : unit) (v : nat) : result nat := if Nat.even v then Ok (Nat.div2 v) else Err ValueError.
Definition ex_none (v : nat) : bool := Nat.eqb v 0.
Definition nA : name := [65]%N.
Definition nB : name := [66]%N.
Definition nC : name := [67]%N.
Definition nD : name := [68]%N.
Definition ex_obj : obj nat unit :=
  mkObj [(nD, 9)] (fun k => if name_eqb k [95; 95]%N then Some 77 else None)
        [mkProp nA (Note None (Some 1)); mkProp nC (Note None None)]
        [mkProp nB (Note (Some tt) (Some 2)); mkProp nA (Alias None nB)].
Lemma ex_obj_distinct : distinct ex_obj.
Proof. split; repeat constructor; vm_compute; intuition discriminate. Qed.

(** ** C39 *)
(** No sequence of additions and writes creates a duplicate name. *)
Theorem C39_distinct : forall V T (cast : T -> V -> result V) is_none o xs,
  distinct o -> distinct (run V T cast is_none o xs).
Proof. exact @run_distinct_explicit. Qed.
Print Assumptions C39_distinct.
(** An existing name without force is refused. *)
Theorem C39_refused : forall V T (o : obj V T) p,
  In (p_name p) (names (o_adapted o)) \/ In (p_name p) (names (o_extended o)) ->
  add_member V T o p false = Err RuntimeError.
Proof. intros. now apply add_member_exists. Qed.
Print Assumptions C39_refused.
(** Otherwise the addition succeeds: the new property takes the place of the old extended one of its name, and goes
    last when there was none.  Nothing else changes. *)
Theorem C39_added : forall V T (o : obj V T) p force, distinct o ->
  force = true \/ (~ In (p_name p) (names (o_adapted o)) /\ ~ In (p_name p) (names (o_extended o))) ->
  exists o', add_member V T o p force = Ok o'
  /\ o_dict o' = o_dict o /\ o_class o' = o_class o /\ o_adapted o' = o_adapted o
  /\ (forall l old r, o_extended o = l ++ old :: r -> p_name old = p_name p -> o_extended o' = l ++ p :: r)
  /\ (~ In (p_name p) (names (o_extended o)) -> o_extended o' = o_extended o ++ [p]).
Proof. exact @add_member_exact. Qed.
Print Assumptions C39_added.
Example C39_example :
  distinct ex_obj
  /\ add_member nat unit ex_obj (mkProp nA (Note None (Some 5))) false = Err RuntimeError
  /\ (exists o', add_member nat unit ex_obj (mkProp nB (Note None (Some 5))) true = Ok o'
      /\ o_extended o' = [mkProp nB (Note None (Some 5)); mkProp nA (Alias None nB)])
  /\ (exists o', add_member nat unit ex_obj (mkProp nC (Note None (Some 5))) true = Ok o'
      /\ names (o_extended o') = [nB; nA; nC] /\ o_adapted o' = o_adapted ex_obj).
Proof. split; [exact ex_obj_distinct|]. split; [reflexivity|]. split; eexists; repeat split; vm_compute; reflexivity. Qed.

(** ** C40 *)
(** False when the class answers the name itself: the write reaches the property, the read does not. *)
Theorem C40_class_attribute_refuted : exists (o : obj nat unit) k v o',
  distinct o /\ declared o k None
  /\ setattr nat unit ex_cast ex_none o k v = Ok o' /\ getattr nat unit ex_cast 0 ex_none 9 o' k <> Ok v.
Proof.
  exists (mkObj [] (fun k => if name_eqb k nA then Some 77 else None) [] [mkProp nA (Note None (Some 1))]), nA, 5. eexists.
  split; [split; repeat constructor; intros []|].
  split; [left; exists (Some 1); repeat split; [intros []|left; left; reflexivity]|].
  split; [vm_compute; reflexivity | vm_compute; discriminate].
Qed.
Print Assumptions C40_class_attribute_refuted.
(** False for a property added under the name of an instance attribute: the attribute keeps answering. *)
Theorem C40_late_property_refuted : exists (o : obj nat unit) k v o',
  distinct o /\ not_class o k
  /\ apply nat unit ex_cast ex_none o (OAddNote k None v false) = Ok o'
  /\ getattr nat unit ex_cast 0 ex_none 9 o' k <> Ok v.
Proof.
  exists ex_obj, nD, 5. eexists. split; [exact ex_obj_distinct|]. split; [reflexivity|].
  split; [vm_compute; reflexivity | vm_compute; discriminate].
Qed.
Print Assumptions C40_late_property_refuted.
(** Duplicate names (possible only by editing the lists directly): a write goes to the first, a read to the last. *)
Theorem C40_duplicate_names_refuted : exists (o : obj nat unit) k v o',
  not_class o k /\ setattr nat unit ex_cast ex_none o k v = Ok o' /\ getattr nat unit ex_cast 0 ex_none 9 o' k <> Ok v.
Proof.
  exists (mkObj [] (fun _ => None) [] [mkProp nA (Note None (Some 1)); mkProp nA (Note None (Some 2))]), nA, 5. eexists.
  split; [reflexivity|]. split; [vm_compute; reflexivity | vm_compute; discriminate].
Qed.
Print Assumptions C40_duplicate_names_refuted.

(** For every other name, that is one the class does not answer or that is no property: after any history, the value
    read is the last one written (cast to the declared type of the property), whatever happened to other names since. *)
Theorem C40_last_write_partial : forall V T (cast : T -> V -> result V) none is_none f o xs k v ty w ys,
  distinct o -> not_class o k \/ (forall p, ~ stands_for (run V T cast is_none o xs) k p) ->
  declared (run V T cast is_none o xs) k ty ->
  cast_opt V T cast is_none ty v = Ok w ->
  Forall (fun x => op_name x <> k) ys ->
  getattr V T cast none is_none (S f) (run V T cast is_none o (xs ++ OSet k v :: ys)) k = Ok w.
Proof. intros. now apply last_write with (ty := ty). Qed.
Print Assumptions C40_last_write_partial.
(** A write changes no name that does not read through the written one. *)
Theorem C40_no_cross_effect : forall V T (cast : T -> V -> result V) none is_none f o k v o' j,
  distinct o -> setattr V T cast is_none o k v = Ok o' -> ~ reaches o j k ->
  getattr V T cast none is_none f o' j = getattr V T cast none is_none f o j.
Proof. intros. eapply frame; eauto. Qed.
Print Assumptions C40_no_cross_effect.
(** An addition changes no other name either. *)
Theorem C40_add_no_cross_effect : forall V T (cast : T -> V -> result V) none is_none f o p force o' j,
  distinct o -> add_member V T o p force = Ok o' -> ~ reaches o j (p_name p) ->
  getattr V T cast none is_none f o' j = getattr V T cast none is_none f o j.
Proof. intros. eapply frame_add; eauto. Qed.
Print Assumptions C40_add_no_cross_effect.
(** Shadowing: reads and writes go to the extended property, and leave the adapted list alone. *)
Theorem C40_extended_first : forall V T (cast : T -> V -> result V) none is_none f o k ty v,
  distinct o -> not_class o k -> ~ In k (map fst (o_dict o)) ->
  In (mkProp k (Note ty (Some v))) (o_extended o) ->
  getattr V T cast none is_none (S f) o k = Ok v
  /\ forall u o', setattr V T cast is_none o k u = Ok o' -> o_adapted o' = o_adapted o.
Proof.
  intros V T cast none is_none f o k ty v D N H I. split.
  - apply note_read with (ty := ty); auto. split; auto.
  - intros u o'. apply (write_extended cast is_none o k u o' _ I eq_refl).
Qed.
Print Assumptions C40_extended_first.
(** An alias reads as its target and cannot be written. *)
Theorem C40_alias : forall V T (cast : T -> V -> result V) none is_none f o k ty t,
  distinct o -> not_class o k -> stands_for o k (mkProp k (Alias ty t)) ->
  getattr V T cast none is_none (S f) o k =
    (let! v := getattr V T cast none is_none f o t in cast_opt V T cast is_none ty v)
  /\ forall v, setattr V T cast is_none o k v = Err ValueError.
Proof.
  intros V T cast none is_none f o k ty t D N S. split; [now apply alias_read|].
  intros v. eapply alias_write; eauto.
Qed.
Print Assumptions C40_alias.
Example C40_example :
  distinct ex_obj /\ not_class ex_obj nB /\ declared ex_obj nB (Some tt)
  /\ stands_for ex_obj nA (mkProp nA (Alias None nB))
  /\ cast_opt nat unit ex_cast ex_none (Some tt) 8 = Ok 4
  /\ (exists o', setattr nat unit ex_cast ex_none ex_obj nB 8 = Ok o'
      /\ getattr nat unit ex_cast 0 ex_none 9 o' nB = Ok 4 /\ getattr nat unit ex_cast 0 ex_none 9 o' nA = Ok 4
      /\ getattr nat unit ex_cast 0 ex_none 9 o' nD = Ok 9)
  /\ setattr nat unit ex_cast ex_none ex_obj nB 7 = Err ValueError
  /\ (exists o', setattr nat unit ex_cast ex_none ex_obj [95; 95]%N 8 = Ok o'
      /\ getattr nat unit ex_cast 0 ex_none 9 o' [95; 95]%N = Ok 8)
  /\ ~ reaches ex_obj nD nB.
Proof.
  split; [exact ex_obj_distinct|]. split; [reflexivity|].
  split; [left; exists (Some 2); repeat split; [vm_compute; intuition discriminate | left; left; reflexivity]|].
  split; [repeat split; [vm_compute; intuition discriminate | left; right; left; reflexivity]|].
  split; [reflexivity|]. split; [eexists; repeat split; vm_compute; reflexivity|]. split; [reflexivity|].
  split; [eexists; repeat split; vm_compute; reflexivity|].
  intros H. inversion H; subst. match goal with S : stands_for _ _ _ |- _ => destruct S as (_ & N & _) end.
  apply N. left. reflexivity.
Qed.
