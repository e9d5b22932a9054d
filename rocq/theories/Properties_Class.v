(** C59 (instances are independent), C60 (constructors), C61 (getters and setters), C62 (type names and the registry). *)
From Coq Require Import String.
From Verif Require Import Base BaseFacts Model_Object Spec_Object Model_Class Spec_Class Proofs_Class Proofs_Class2 Proofs_Class3.

(** Examples use numbers as values, 0 for None; the one property type rounds down to tens and refuses 1000 and more. *)
Definition tens (_ : unit) (v : N) : result N := if (v <? 1000)%N then Ok (10 * (v / 10))%N else Err ValueError.
Definition is_zero (v : N) : bool := (v =? 0)%N.
Lemma tens_idempotent : forall t v x, tens t v = Ok x -> tens t x = Ok x.
Proof.
  intros t v x. unfold tens. destruct (N.ltb_spec v 1000) as [L|L]; [|discriminate]. intros [= <-].
  assert (Q : (10 * (v / 10) <= v)%N) by (apply N.mul_div_le; lia).
  destruct (N.ltb_spec (10 * (v / 10)) 1000) as [L'|L']; [|lia]. f_equal. rewrite (N.mul_comm 10 (v / 10)) at 1. rewrite N.div_mul by lia. reflexivity.
Qed.
Notation ex_world := (world N unit).
Notation ex_run := (run N unit tens 0%N is_zero 9).
Notation ex_step := (step N unit tens 0%N is_zero 9).
Notation ex_read := (read N unit tens 0%N is_zero 9).
Notation ex_make := (make N unit tens 0%N is_zero 9).
Definition no_attrs : name -> option N := fun _ => None.
Definition start : ex_world := base_world no_attrs.
Definition kX : name := [88]%N.
Definition kY : name := [89]%N.
Definition kZ : name := [90]%N.
Definition tA : name := [65]%N.
Definition tB : name := [66]%N.

(** ** C59 *)
(** Whatever a program that puts its own property objects and lists into classes and instances does, instances share
    nothing with each other nor with classes. *)
Theorem C59_apart : forall V T (cast : T -> V -> result V) none is_none fuel attrs xs,
  always (fun w x => fst (step V T cast none is_none fuel w x)) clean (base_world attrs) xs ->
  apart (run V T cast none is_none fuel (base_world attrs) xs).
Proof. intros. apply run_ok; auto. apply base_apart; auto. Qed.
Print Assumptions C59_apart.
(** An instance changes only by what is done to it: whatever else happens, each of its attributes reads the same, and its
    type names and properties stay. *)
Theorem C59_instance : forall V T (cast : T -> V -> result V) none is_none fuel w xs o,
  apart w -> o < length (w_objects w) ->
  always (fun w x => fst (step V T cast none is_none fuel w x)) clean w xs ->
  always (fun w x => fst (step V T cast none is_none fuel w x)) (fun w x => ~ touches w x o) w xs ->
  let w' := run V T cast none is_none fuel w xs in
  (forall f k, read V T cast none is_none f w' o k = read V T cast none is_none f w o k)
  /\ (forall l, type_names w' o l <-> type_names w o l)
  /\ (forall ads exs, properties w' o ads exs <-> properties w o ads exs).
Proof. intros V T cast none is_none fuel w xs o A L C N. exact (run_object cast none is_none fuel w xs o A L C N). Qed.
Print Assumptions C59_instance.
(** The same for a class: instances, other classes and their changes do not show in it. *)
Theorem C59_class : forall V T (cast : T -> V -> result V) none is_none fuel w xs c,
  apart w -> c < length (w_classes w) ->
  always (fun w x => fst (step V T cast none is_none fuel w x)) clean w xs ->
  always (fun w x => fst (step V T cast none is_none fuel w x)) (fun w x => ~ touches_class w x c) w xs ->
  forall l ads exs, class_looks (run V T cast none is_none fuel w xs) c l ads exs <-> class_looks w c l ads exs.
Proof. intros V T cast none is_none fuel w xs c A L C N. exact (run_class cast none is_none fuel w xs c A L C N). Qed.
Print Assumptions C59_class.
(** A new instance can always be made and has the type names and the properties of its class, if the properties are as
    their constructors made them and casting twice is casting once. *)
Theorem C59_copied : forall V T (cast : T -> V -> result V) is_none w c l ads exs,
  (forall t v x, cast t v = Ok x -> cast t x = Ok x) ->
  class_looks w c l ads exs -> Forall (made cast is_none) (ads ++ exs) ->
  exists w' o, new_object V T cast is_none w c = Ok (w', o) /\ type_names w' o l /\ properties w' o ads exs
    /\ exists ob, nth_error (w_objects w') o = Some ob /\ ob_class ob = c /\ ob_dict ob = [].
Proof.
  intros V T cast is_none w c l ads exs ID CL MD.
  destruct (new_object_looks cast is_none w c l ads exs ID CL MD) as (w' & o & N & TN & PR & _ & la & le & [(ob & m & O1 & O2 & O3 & _) _ _] & _).
  exists w', o. split; [exact N|]. split; [exact TN|]. split; [exact PR|]. exists ob. auto.
Qed.
Print Assumptions C59_copied.

(** A class A with adapted X = 12 (rounded to 10) and extended Y, two instances, changes of the first. *)
Definition ex_class : list (op N unit) :=
  [PNote kX (Some 12%N) false (Some tt); PNote kY None false None; PNames [tA]; PList [0]; PList [1];
   PClass [0] no_attrs (Some (mkDecl (Some 1) (Some 2) (Some 3) false true None))].
Definition ex_pair : ex_world := ex_run start (ex_class ++ [PMake 1 [] []; PMake 1 [345%N] []]).
Definition ex_changes : list (op N unit) :=
  [PWrite 0 kX 77%N; PWrite 0 kZ 5%N; PRename 0 [tB]; PNote kZ (Some 4%N) false None; PAttach (TObject 0) 6 false;
   PWrite 0 kY 999%N; PMake 1 [] []].
Example C59_example :
  ex_read ex_pair 0 kX = Ok 10%N /\ ex_read ex_pair 1 kX = Ok 340%N
  /\ ex_read (ex_run ex_pair ex_changes) 0 kX = Ok 70%N /\ ex_read (ex_run ex_pair ex_changes) 1 kX = Ok 340%N
  /\ ex_read (ex_run ex_pair ex_changes) 0 kZ = Ok 5%N /\ ex_read (ex_run ex_pair ex_changes) 1 kZ = Err AttributeError
  /\ ex_read (ex_run ex_pair ex_changes) 0 kY = Ok 999%N /\ ex_read (ex_run ex_pair ex_changes) 2 kY = Ok 0%N
  /\ ex_read (ex_run ex_pair ex_changes) 2 kX = Ok 10%N.
Proof. vm_compute. repeat split. Qed.
(** The hypotheses of C59_instance hold of it: the program is clean and does not touch the second instance. *)
Example C59_example_clean :
  always (fun w x => fst (ex_step w x)) clean ex_pair ex_changes
  /\ always (fun w x => fst (ex_step w x)) (fun w x => ~ touches w x 1) ex_pair ex_changes.
Proof.
  split; [|cbn; repeat split; try discriminate; tauto].
  cbn [always ex_changes]. split; [exact I|]. split; [exact I|]. split; [exact I|]. split; [exact I|].
  split; [|split; [exact I|split; [exact I|exact I]]].
  set (w := fst (ex_step (fst (ex_step (fst (ex_step (fst (ex_step ex_pair _)) _)) _)) _)).
  assert (E : w = ltac:(let v := eval vm_compute in w in exact v)) by (vm_compute; reflexivity).
  rewrite E. clear E w. cbn [clean]. split.
  - intros (c & k & a & H1 & H2 & H3).
    destruct c as [|[|c]]; cbn in H1; [| |destruct c; discriminate]; injection H1 as <-; cbn in H2; injection H2 as <-;
      inversion H3 as [| | |m l x i M L X IN]; subst; cbn in M; injection M as <-; cbn in L; destruct L as [->|L]; try subst l;
      cbn in X; injection X as <-; cbn in IN; repeat (destruct IN as [IN|IN]; [discriminate|]); exact IN.
  - intros o NE (ob & H1 & [D|H3]); [discriminate|].
    destruct o as [|[|o]]; cbn in H1; [congruence| |destruct o; discriminate]. injection H1 as <-. cbn in H3.
    inversion H3 as [| | |m l x i M L X IN]; subst; cbn in M; injection M as <-; cbn in L; destruct L as [->|L]; try subst l;
      cbn in X; injection X as <-; cbn in IN; repeat (destruct IN as [IN|IN]; [discriminate|]); exact IN.
Qed.
(** Those of C59_copied hold of the class. *)
Definition ex_X : info N unit := mkInfo INote kX (Some tt) false (Some 10%N) None None.
Definition ex_Y : info N unit := mkInfo INote kY None false None None None.
Example C59_copied_example :
  class_looks (ex_run start ex_class) 1 [tA; text "System.Object"%string] [ex_X] [ex_Y]
  /\ Forall (made tens is_zero) ([ex_X] ++ [ex_Y])
  /\ exists w o, new_object N unit tens is_zero (ex_run start ex_class) 1 = Ok (w, o)
     /\ nth_error (w_infos w) 2 = Some ex_X /\ nth_error (w_infos w) 3 = Some ex_Y.
Proof.
  split; [|split].
  - exists (mkMeta 1 2 3). split; [|split; [reflexivity|split]].
    + eexists _, 1. split; [reflexivity|]. split; [|reflexivity]. eapply found_here; reflexivity.
    + exists [0]. split; [reflexivity|]. constructor; [reflexivity|constructor].
    + exists [1]. split; [reflexivity|]. constructor; [reflexivity|constructor].
  - constructor; [|constructor; [|constructor]].
    + left. exists kX, (Some 12%N), false, (Some tt). reflexivity.
    + left. exists kY, None, false, None. reflexivity.
  - eexists _, _. split; [reflexivity|]. split; reflexivity.
Qed.

(** Findings.  add_member puts the property object itself into the instance: the same object added to two instances is
    one value. *)
Theorem C59_shared_property_refuted : exists xs o1 o2 k,
  o1 <> o2 /\ ex_read (ex_run start xs) o2 k = Ok 1%N
  /\ ex_read (fst (ex_step (ex_run start xs) (PWrite o1 k 2%N))) o2 k = Ok 2%N.
Proof.
  exists [PMake 0 [] []; PMake 0 [] []; PNote kX (Some 1%N) false None; PAttach (TObject 0) 0 false; PAttach (TObject 1) 0 false], 0, 1, kX.
  split; [discriminate|]. vm_compute. split; reflexivity.
Qed.
Print Assumptions C59_shared_property_refuted.
(** A class derived without PSType shares its base's PSObjectMeta: adding a member to it adds it to the base class. *)
Theorem C59_subclass_refuted : exists xs base sub a k,
  base <> sub /\ In base (match nth_error (w_classes (ex_run start xs)) sub with Some c => c_mro c | None => [] end)
  /\ ex_read (ex_run (ex_run start xs) [PMake base [] []]) 0 k = Err AttributeError
  /\ ex_read (ex_run (ex_run start xs) [PAttach (TClass sub) a false; PMake base [] []]) 0 k = Ok 7%N.
Proof.
  exists (ex_class ++ [PClass [1; 0] no_attrs None; PNote kZ (Some 7%N) false None]), 1, 2, 2, kZ.
  split; [discriminate|]. vm_compute. split; [auto|]. split; reflexivity.
Qed.
Print Assumptions C59_subclass_refuted.
(** PSType extends the list it is given: a list of type names used for two classes changes the first class too. *)
Theorem C59_list_refuted : exists xs x,
  names_at (ex_run start xs) 1 = [tA; text "System.Object"%string]
  /\ names_at (ex_run (ex_run start xs) [x]) 1 = [tA; text "System.Object"%string; text "System.Object"%string]
  /\ (exists m, class_has (ex_run (ex_run start xs) [x]) 1 m /\ m_names m = 1)
  /\ exists bases attrs d, x = PClass bases attrs (Some d).
Proof.
  exists [PNames [tA]; PClass [0] no_attrs (Some (mkDecl (Some 1) None None false true None))],
         (PClass [0] no_attrs (Some (mkDecl (Some 1) None None false true None))).
  split; [vm_compute; reflexivity|]. split; [vm_compute; reflexivity|]. split; [|eexists _, _, _; reflexivity].
  exists (mkMeta 1 4 5). split; [|reflexivity]. eexists _, 1. split; [vm_compute; reflexivity|].
  split; [eapply found_here; vm_compute; reflexivity | vm_compute; reflexivity].
Qed.
Print Assumptions C59_list_refuted.
(** A getter assigned to a note property of the class is not copied: the class has it, its instances have not. *)
Definition seven : getter N := mkGetter true [mkParam PositionalOrKeyword false] (RDone (Ok 7%N)).
Theorem C59_getter_lost_refuted : exists xs a,
  option_map i_getter (nth_error (w_infos (ex_run start xs)) a) = Some (Some seven)
  /\ (exists m l, class_has (ex_run start xs) 1 m /\ contents (ex_run start xs) (m_extended m) l /\ map i_name l = [kY])
  /\ ex_read (ex_run (ex_run start xs) [PMake 1 [] []]) 0 kY = Ok 0%N.
Proof.
  exists (ex_class ++ [PGetter 1 (Some seven)]), 1. split; [vm_compute; reflexivity|]. split; [|vm_compute; reflexivity].
  exists (mkMeta 1 2 3), [mkInfo INote kY None false None (Some seven) None]. split; [|split; [|reflexivity]].
  - eexists _, 1. split; [vm_compute; reflexivity|]. split; [eapply found_here; vm_compute; reflexivity | vm_compute; reflexivity].
  - exists [1]. split; [vm_compute; reflexivity|]. constructor; [vm_compute; reflexivity|constructor].
Qed.
Print Assumptions C59_getter_lost_refuted.
(** A mandatory script property whose setter is taken away again cannot be copied: the class has no instances any more. *)
Definition ignores : setter N := mkSetter true [mkParam PositionalOrKeyword false; mkParam PositionalOrKeyword false] (fun _ => SDone (Ok tt)).
Theorem C59_no_instances_refuted : exists xs x,
  snd (ex_step (ex_run start xs) (PMake 1 [1%N] [])) = Ok tt
  /\ snd (ex_step (ex_run start xs) x) = Ok tt /\ (exists a, x = PSetter a None)
  /\ forall args kw, snd (ex_step (ex_run (ex_run start xs) [x]) (PMake 1 args kw)) = Err TypeError.
Proof.
  exists [PScript kX (Some seven) (Some ignores) true None; PList [0]; PClass [0] no_attrs (Some (mkDecl None (Some 2) None false true None))],
         (PSetter 0 None).
  split; [vm_compute; reflexivity|]. split; [vm_compute; reflexivity|]. split; [eauto|].
  intros args kw. vm_compute. reflexivity.
Qed.
Print Assumptions C59_no_instances_refuted.

(** ** C60 *)
(** The constructor of a class whose properties are values: which calls it accepts. *)
Theorem C60_accepts_partial : forall V T (cast : T -> V -> result V) none is_none fuel w c l ads exs ps args kw,
  (forall t v x, cast t v = Ok x -> cast t x = Ok x) ->
  class_looks w c l ads exs -> Forall (made cast is_none) (ads ++ exs) -> Forall plain (ads ++ exs) ->
  NoDup (map i_name ads) -> NoDup (map i_name exs) -> NoDup (map fst kw) ->
  parameters (map i_name ads ++ map i_name exs) ps ->
  (exists w' o, make V T cast none is_none (S fuel) w c args kw = Ok (w', o))
  <-> accepted (fun ty v => exists x, cast_opt V T cast is_none ty v = Ok x) ads exs ps args kw.
Proof. intros V T cast none is_none fuel w c l ads exs ps args kw ID CL MD PL NA NE NK PM.
  exact (proj1 (make_spec cast none is_none fuel w c l ads exs ps args kw ID CL MD PL NA NE NK PM)). Qed.
Print Assumptions C60_accepts_partial.
(** And what the new instance then has: the values given, cast to the types of their properties, the defaults elsewhere. *)
Theorem C60_values_partial : forall V T (cast : T -> V -> result V) none is_none fuel w c l ads exs ps args kw w' o,
  (forall t v x, cast t v = Ok x -> cast t x = Ok x) ->
  class_looks w c l ads exs -> Forall (made cast is_none) (ads ++ exs) -> Forall plain (ads ++ exs) ->
  NoDup (map i_name ads) -> NoDup (map i_name exs) -> NoDup (map fst kw) ->
  parameters (map i_name ads ++ map i_name exs) ps ->
  make V T cast none is_none (S fuel) w c args kw = Ok (w', o) ->
  type_names w' o l
  /\ forall k p, decides ads exs k p -> unanswered w c k ->
     (forall v x, gives ps args kw k v -> cast_opt V T cast is_none (i_type p) v = Ok x ->
        forall f, read V T cast none is_none (S f) w' o k = Ok x)
     /\ ((forall v, ~ gives ps args kw k v) ->
        forall f, read V T cast none is_none (S f) w' o k = Ok (match i_value p with Some v => v | None => none end)).
Proof. intros V T cast none is_none fuel w c l ads exs ps args kw w' o ID CL MD PL NA NE NK PM E.
  exact (proj2 (make_spec cast none is_none fuel w c l ads exs ps args kw ID CL MD PL NA NE NK PM) w' o E). Qed.
Print Assumptions C60_values_partial.
(** Adapted X (typed) and mandatory Y, extended X over the first: parameters X, Y. *)
Definition ex_three : list (op N unit) :=
  [PNote kX (Some 12%N) false (Some tt); PNote kY None true (Some tt); PNote kX (Some 3%N) false None; PNote kZ None false None;
   PNames [tA]; PList [0; 1]; PList [2; 3];
   PClass [0] no_attrs (Some (mkDecl (Some 1) (Some 2) (Some 3) false true None))].
Example C60_example :
  parameters ([kX; kY] ++ [kX; kZ]) [kX; kY; kZ]
  /\ (forall x, ex_make (ex_run start ex_three) 1 [1%N; 25%N] [(kZ, 9%N)] = Ok x ->
        ex_read (fst x) (snd x) kX = Ok 1%N /\ ex_read (fst x) (snd x) kY = Ok 20%N /\ ex_read (fst x) (snd x) kZ = Ok 9%N)
  /\ (exists x, ex_make (ex_run start ex_three) 1 [1%N; 25%N] [(kZ, 9%N)] = Ok x)
  /\ ex_make (ex_run start ex_three) 1 [1%N] [] = Err TypeError
  /\ ex_make (ex_run start ex_three) 1 [1%N; 2%N] [(kX, 3%N)] = Err TypeError
  /\ ex_make (ex_run start ex_three) 1 [1%N; 2%N; 3%N; 4%N] [] = Err TypeError
  /\ ex_make (ex_run start ex_three) 1 [1%N; 2%N] [(tB, 3%N)] = Err TypeError
  /\ ex_make (ex_run start ex_three) 1 [] [(kY, 1000%N)] = Err ValueError.
Proof.
  split; [|split; [|split; [|vm_compute; repeat split]]].
  - change ([kX; kY] ++ [kX; kZ]) with ((([] ++ [kX]) ++ [kY]) ++ [kX] ++ [kZ]). rewrite app_assoc.
    change [kX; kY; kZ] with ((([] ++ [kX]) ++ [kY]) ++ [kZ]).
    apply par_new; [apply par_old; [apply par_new; [apply par_new; [constructor|]|]|]|]; cbn; intuition discriminate.
  - intros x E. vm_compute in E. injection E as <-. vm_compute. repeat split.
  - eexists. vm_compute. reflexivity.
Qed.
(** Findings.  An alias (like any property without setter) is a positional parameter nobody can give: properties after it
    cannot be given by position. *)
Theorem C60_alias_refuted : exists xs args kw,
  ex_make (ex_run start xs) 1 args [] = Err ValueError
  /\ (exists x, ex_make (ex_run start xs) 1 [] kw = Ok x) /\ length args = 2 /\ kw = [(kY, nth 1 args 0%N)].
Proof.
  exists [PAlias kX kY None; PNote kY None false None; PList [0; 1];
          PClass [0] no_attrs (Some (mkDecl None (Some 2) None false true None))], [1%N; 2%N], [(kY, 2%N)].
  split; [vm_compute; reflexivity|]. split; [eexists; vm_compute; reflexivity|]. split; reflexivity.
Qed.
Print Assumptions C60_alias_refuted.
(** A mandatory property can be given None, and set to None later, though the documentation of set_value says it fails. *)
Theorem C60_none_refuted : exists xs p,
  nth_error (w_infos (ex_run start xs)) 0 = Some p /\ i_mandatory p = true
  /\ (exists x, ex_make (ex_run start xs) 1 [0%N] [] = Ok x /\ ex_read (fst x) (snd x) (i_name p) = Ok 0%N)
  /\ is_zero 0%N = true.
Proof.
  exists [PNote kX None true (Some tt); PList [0]; PClass [0] no_attrs (Some (mkDecl None (Some 2) None false true None))].
  eexists. split; [vm_compute; reflexivity|]. split; [reflexivity|]. split; [|reflexivity].
  eexists. split; [vm_compute; reflexivity | vm_compute; reflexivity].
Qed.
Print Assumptions C60_none_refuted.

(** ** C61 *)
(** A function is accepted as getter (n = 1) or setter (n = 2) exactly if it can be called with n arguments, provided it
    has no required keyword-only parameter; and Python's call agrees. *)
Theorem C61_accepted_partial : forall n ps, signature ps -> ~ keyword_required ps ->
  (validate_callable true ps n = Ok tt <-> takes n ps) /\ (binds n ps = true <-> takes n ps).
Proof. intros n ps S K. split; [now apply validate_takes | now apply binds_takes]. Qed.
Print Assumptions C61_accepted_partial.
(** Every function that can be called so is accepted. *)
Theorem C61_enough : forall n ps, signature ps -> takes n ps -> validate_callable true ps n = Ok tt.
Proof. intros. now apply validate_refuses. Qed.
Print Assumptions C61_enough.
(** The getter and setter of a script property can always be called. *)
Theorem C61_calls : forall V T k (g : getter V) s mandatory (ty : option T) p,
  script_property k (Some g) s mandatory ty = Ok p ->
  (signature (g_params g) -> ~ keyword_required (g_params g) -> binds 1 (g_params g) = true)
  /\ (forall h, s = Some h -> signature (s_params h) -> ~ keyword_required (s_params h) -> binds 2 (s_params h) = true).
Proof.
  intros V T k g s mandatory ty p E. unfold script_property in E. destruct (mandatory && _); [discriminate|].
  destruct (validate_callable (g_function g) (g_params g) 1) as [u|] eqn:G; [|discriminate]. cbn [bind] in E. split.
  - intros S K. apply binds_takes; auto. apply validate_takes; auto. destruct (g_function g); [now destruct u | discriminate].
  - intros h -> S K. destruct (validate_callable (s_function h) (s_params h) 2) as [u'|] eqn:W; [|discriminate].
    apply binds_takes; auto. apply validate_takes; auto. destruct (s_function h); [now destruct u' | discriminate].
Qed.
Print Assumptions C61_calls.
(** def f(a, b=1, *rest, c=2, **more) *)
Definition ex_params : list param :=
  [mkParam PositionalOrKeyword false; mkParam PositionalOrKeyword true; mkParam VarPositional false; mkParam KeywordOnly true; mkParam VarKeyword false].
Example C61_example : signature ex_params /\ ~ keyword_required ex_params
  /\ validate_callable true ex_params 1 = Ok tt /\ validate_callable true ex_params 2 = Ok tt /\ validate_callable true ex_params 0 = Err TypeError
  /\ validate_callable true [mkParam PositionalOrKeyword false] 2 = Err TypeError.
Proof.
  split; [|split; [|vm_compute; repeat split]].
  - exists [mkParam PositionalOrKeyword false; mkParam PositionalOrKeyword true], [mkParam VarPositional false], [mkParam KeywordOnly true], [mkParam VarKeyword false].
    split; [reflexivity|]. split; [constructor; [now right|constructor; [now right|constructor]]|]. split; [right; eauto|].
    split; [constructor; [reflexivity|constructor]|]. split; [right; eauto|].
    intros [|x [|y [|z l]]] p q r E; cbn in E; try discriminate. injection E as <- <- _. discriminate.
  - intros (p & I & K & D). cbn in I. repeat (destruct I as [<-|I]; [cbn in *; discriminate|]). exact I.
Qed.
(** Findings.  A required keyword-only parameter is not noticed: the property is accepted and every read fails. *)
Theorem C61_keyword_refuted : exists ps g p,
  signature ps /\ g_params g = ps /\ script_property (T := unit) kX (Some g) None false None = Ok p
  /\ ~ takes 1 ps /\ forall xs, xs = [PScript kX (Some g) None false None; PMake 0 [] []; PAttach (TObject 0) 0 false] ->
     snd (ex_step (ex_run start (firstn 2 xs)) (PAttach (TObject 0) 0 false)) = Ok tt /\ ex_read (ex_run start xs) 0 kX = Err TypeError.
Proof.
  set (ps := [mkParam PositionalOrKeyword false; mkParam KeywordOnly false]).
  assert (SG : signature ps).
  { exists [mkParam PositionalOrKeyword false], [], [mkParam KeywordOnly false], [].
    split; [reflexivity|]. split; [constructor; [now right|constructor]|]. split; [now left|].
    split; [constructor; [reflexivity|constructor]|]. split; [now left|].
    intros [|x l] p q r E; cbn in E; [discriminate|]. destruct l; discriminate. }
  exists ps, (mkGetter true ps (RDone (Ok 7%N))). eexists. split; [exact SG|]. split; [reflexivity|]. split; [vm_compute; reflexivity|].
  split; [|intros xs ->; vm_compute; split; reflexivity].
  intros H. apply (binds_takes 1 ps SG) in H. discriminate.
Qed.
Print Assumptions C61_keyword_refuted.
(** Only functions made with def or lambda are accepted: no bound method, no builtin, no functools.partial, whatever it
    takes. *)
Theorem C61_only_functions_refuted : exists ps, takes 1 ps /\ forall n, validate_callable false ps n = Err TypeError.
Proof.
  exists [mkParam PositionalOrKeyword false]. split; [|reflexivity].
  exists [mkParam PositionalOrKeyword false], [], [], []. split; [reflexivity|]. split; [constructor; [now right|constructor]|].
  split; [now left|]. split; [constructor|]. split; [now left|]. split; [left; cbn; lia|]. split; constructor.
Qed.
Print Assumptions C61_only_functions_refuted.

(** ** C62 *)
(** ps_isinstance: one of the object's type names is the first type name of one of the things asked about, up to one
    "Deserialized." on either side if that is to be ignored. *)
Theorem C62_isinstance : forall V T (w : world V T) o l names ignore,
  type_names w o names -> Forall (answerable w) l ->
  exists b, isinstance w o l ignore = Ok b
    /\ (b = true <-> exists n x k, In n names /\ In x l /\ asked w x k /\ matches ignore n k).
Proof. intros. now apply isinstance_ok. Qed.
Print Assumptions C62_isinstance.
(** A class declared with PSType has its own type names and properties followed by those of the class it is based on,
    or its own only; it is registered under its first type name unless another class is. *)
Theorem C62_declared : forall V T (w : world V T) bases attrs d a m own bn oa ba oe be,
  found w bases a -> nth_error (w_metas w) a = Some m -> own_lists d m ->
  given_names w (d_names d) own -> nth_error (w_names w) (m_names m) = Some bn ->
  given_properties w (d_adapted d) oa -> contents w (m_adapted m) ba ->
  given_properties w (d_extended d) oe -> contents w (m_extended m) be ->
  exists w' c, declare w bases attrs (Some d) = Ok (w', c) /\ c = length (w_classes w)
    /\ (if d_skip d then class_looks w' c own oa oe else class_looks w' c (own ++ bn) (oa ++ ba) (oe ++ be))
    /\ forall n k, reg_get k (w_types w') = Some n <->
         reg_get k (w_types w) = Some n
         \/ (reg_get k (w_types w) = None /\ n = c /\ d_rehydrate d = true
             /\ exists t, (if d_skip d then own else own ++ bn) = k :: t).
Proof.
  intros V T w bases attrs d a m own bn oa ba oe be H1 H2 H3 H4 H5 H6 H7 H8 H9.
  destruct (declare_spec w bases attrs d a m own bn oa ba oe be H1 H2 H3 H4 H5 H6 H7 H8 H9) as (w' & E & L & R).
  exists w', (length (w_classes w)). split; [exact E|]. split; [reflexivity|]. split; [exact L|].
  intros n k. rewrite R. destruct (d_rehydrate d).
  - destruct (if d_skip d then own else own ++ bn) as [|j t].
    + split; auto. intros [H|(_ & _ & _ & t & H)]; [auto|discriminate].
    + rewrite reg_add_get. destruct (reg_get k (w_types w)) as [x|] eqn:G.
      * split; [auto|]. intros [H|(H & _)]; [auto|discriminate].
      * destruct (name_eqb j k) eqn:J.
        -- apply Proofs_Object.name_eqb_eq in J. subst j. split; [intros [= <-]; right; eauto 10|]. intros [H|(_ & -> & _)]; [discriminate|auto].
        -- apply Proofs_Object.name_eqb_neq in J. split; [discriminate|]. intros [H|(_ & _ & _ & u & [= <- _])]; [discriminate|congruence].
  - split; auto. intros [H|(_ & _ & H & _)]; [auto|discriminate].
Qed.
Print Assumptions C62_declared.
(** So an instance of it is an instance of every type its base class names. *)
Theorem C62_subclass : forall V T (cast : T -> V -> result V) is_none w bases attrs d a m own bn oa ba oe be,
  (forall t v x, cast t v = Ok x -> cast t x = Ok x) ->
  found w bases a -> nth_error (w_metas w) a = Some m -> own_lists d m -> d_skip d = false ->
  given_names w (d_names d) own -> nth_error (w_names w) (m_names m) = Some bn ->
  given_properties w (d_adapted d) oa -> contents w (m_adapted m) ba ->
  given_properties w (d_extended d) oe -> contents w (m_extended m) be ->
  Forall (made cast is_none) ((oa ++ ba) ++ (oe ++ be)) ->
  exists w1 c w2 o, declare w bases attrs (Some d) = Ok (w1, c) /\ new_object V T cast is_none w1 c = Ok (w2, o)
    /\ forall n ignore, In n (own ++ bn) -> isinstance w2 o [WName n] ignore = Ok true.
Proof.
  intros V T cast is_none w bases attrs d a m own bn oa ba oe be ID H1 H2 H3 SK H4 H5 H6 H7 H8 H9 MD.
  destruct (declare_spec w bases attrs d a m own bn oa ba oe be H1 H2 H3 H4 H5 H6 H7 H8 H9) as (w1 & E & L & _). rewrite SK in L.
  destruct (new_object_looks cast is_none w1 _ _ _ _ ID L MD) as (w2 & o & N & TN & _).
  exists w1, (length (w_classes w)), w2, o. split; [exact E|]. split; [exact N|]. intros n ignore I.
  destruct (isinstance_ok w2 o [WName n] _ ignore TN) as (b & Eb & B).
  { constructor; [|constructor]. right. exists n. constructor. }
  rewrite Eb. f_equal. apply B. exists n, (WName n), n. split; [exact I|]. split; [now left|]. split; [constructor|].
  unfold matches. destruct ignore; [|reflexivity]. exists (strip true n). split; apply strip_bare.
Qed.
Print Assumptions C62_subclass.
(** Once a type name or a tag is registered for a class it stays registered for that class. *)
Theorem C62_registered : forall V T (cast : T -> V -> result V) none is_none fuel w xs k c,
  (reg_get k (w_types w) = Some c -> reg_get k (w_types (run V T cast none is_none fuel w xs)) = Some c)
  /\ (reg_get k (w_tags w) = Some c -> reg_get k (w_tags (run V T cast none is_none fuel w xs)) = Some c).
Proof. intros. destruct (run_reg cast none is_none fuel xs w) as [A B]. split; [apply A | apply B]. Qed.
Print Assumptions C62_registered.
(** What the deserializer makes for a registered first type name: a blank instance of that class, by that class's type
    names and properties. *)
Theorem C62_rehydrated : forall V T (cast : T -> V -> result V) none is_none fuel w n t c l ads exs,
  (forall t v x, cast t v = Ok x -> cast t x = Ok x) -> n <> [] -> reg_get n (w_types w) = Some c ->
  class_looks w c l ads exs -> Forall (made cast is_none) (ads ++ exs) ->
  exists w' o, rehydrate V T cast none is_none fuel w (n :: t) = Ok (w', o)
    /\ (exists ob, nth_error (w_objects w') o = Some ob /\ ob_class ob = c) /\ type_names w' o l /\ properties w' o ads exs.
Proof. intros V T cast none is_none fuel w n t c l ads exs. apply rehydrate_known. Qed.
Print Assumptions C62_rehydrated.
(** For anything else: a PSObject whose type names all got the prefix; ignoring the prefix it is an instance of each of the
    names, unless they had one. *)
Theorem C62_deserialized : forall V T (cast : T -> V -> result V) none is_none fuel w names l ads exs,
  (forall t v x, cast t v = Ok x -> cast t x = Ok x) ->
  (forall n t, names = n :: t -> n = [] \/ reg_get n (w_types w) = None) ->
  class_looks w 0 l ads exs -> Forall (made cast is_none) (ads ++ exs) -> Forall plain (ads ++ exs) ->
  NoDup (map i_name ads) -> NoDup (map i_name exs) -> Forall (fun p => i_mandatory p = false) (ads ++ exs) ->
  exists w' o, rehydrate V T cast none is_none (S fuel) w names = Ok (w', o)
    /\ type_names w' o (map (fun n => prefix ++ n) names)
    /\ forall n, In n names -> (~ exists t, n = prefix ++ t) -> isinstance w' o [WName n] true = Ok true.
Proof.
  intros V T cast none is_none fuel w names l ads exs ID R CL MD PL NA NE NM.
  destruct (rehydrate_unknown cast none is_none fuel w names l ads exs ID R CL MD PL NA NE NM) as (w' & o & E & TN).
  exists w', o. split; [exact E|]. split; [exact TN|]. intros n I P. exact (deserialized_is w' o names n TN I P).
Qed.
Print Assumptions C62_deserialized.
(** Class A, class B based on it; an instance of B; a rehydrated A; an unregistered type. *)
Definition ex_types : ex_world :=
  ex_run start (ex_class ++ [PNames [tB]; PClass [1; 0] no_attrs (Some (mkDecl (Some 2) None None false true None));
                             PMake 2 [] []; PRehydrate [tA]; PRehydrate [kZ; kY]]).
Example C62_example :
  isinstance ex_types 0 [WTarget (TClass 1)] false = Ok true /\ isinstance ex_types 1 [WTarget (TClass 2); WOther] false = Ok false
  /\ option_map ob_class (nth_error (w_objects ex_types) 1) = Some 1
  /\ isinstance ex_types 2 [WName kY] false = Ok false /\ isinstance ex_types 2 [WName kY] true = Ok true
  /\ isinstance ex_types 2 [WTarget (TClass 0)] true = Ok false
  /\ reg_get tB (w_types ex_types) = Some 2.
Proof. vm_compute. repeat split. Qed.
(** Findings.  A class with two bases inherits from the first only: an instance is not an instance of the second, in
    Python it is. *)
Theorem C62_second_base_refuted : exists xs c b1 b2,
  (exists cl, nth_error (w_classes (ex_run start xs)) c = Some cl /\ In b1 (c_mro cl) /\ In b2 (c_mro cl))
  /\ isinstance (ex_run start (xs ++ [PMake c [] []])) 0 [WTarget (TClass b1)] false = Ok true
  /\ isinstance (ex_run start (xs ++ [PMake c [] []])) 0 [WTarget (TClass b2)] false = Ok false.
Proof.
  exists [PNames [tA]; PClass [0] no_attrs (Some (mkDecl (Some 1) None None false true None));
          PNames [tB]; PClass [0] no_attrs (Some (mkDecl (Some 2) None None false true None));
          PNames [kX]; PClass [1; 2; 0] no_attrs (Some (mkDecl (Some 3) None None false true None))], 3, 1, 2.
  split; [|vm_compute; split; reflexivity]. eexists. split; [vm_compute; reflexivity|]. cbn. auto.
Qed.
Print Assumptions C62_second_base_refuted.
(** A class without type names (PSType(skip_inheritance=True)) makes the question itself fail. *)
Theorem C62_nameless_refuted : exists xs, isinstance (ex_run start xs) 0 [WTarget (TClass 1)] false = Err IndexError
  /\ length (w_classes (ex_run start xs)) = 2 /\ length (w_objects (ex_run start xs)) = 1.
Proof.
  exists [PClass [0] no_attrs (Some (mkDecl None None None true true None)); PMake 0 [] []]. vm_compute. repeat split.
Qed.
Print Assumptions C62_nameless_refuted.
(** Only one prefix is ignored: an object that has been deserialized twice is not what it was. *)
Theorem C62_twice_refuted : exists names n,
  reg_get (hd [] names) (w_types start) = None /\ In (deserialized ++ n) names
  /\ isinstance (ex_run start [PRehydrate [n]]) 0 [WName n] true = Ok true
  /\ isinstance (ex_run start [PRehydrate names]) 0 [WName n] true = Ok false.
Proof. exists [deserialized ++ kX], kX. split; [reflexivity|]. split; [now left|]. vm_compute. split; reflexivity. Qed.
Print Assumptions C62_twice_refuted.
