(** C56: error, debug, verbose and warning records survive the way to the peer.  C57: progress records do. *)
From Coq Require Import String.
From Verif Require Import Base Model_Scalars Model_Strings Model_Clixml Model_Xml Model_Records.
From Verif Require Import Spec_Scalars Spec_Strings Spec_Clixml Spec_Xml Spec_Records Proofs_Records Proofs_Clixml7 Properties_Xml.
Local Open Scope list_scope.

(** ** C56 *)
(** Which records can be sent: those with a category, a text to show and a position whose text can be computed. *)
Theorem C56_sendable : forall r, typed_error r -> ((exists s ps, write_error r = Ok (s, ps)) <-> sendable r).
Proof.
  intros r T. destruct (write_error_iff r T) as [H _]. rewrite <- H. split; [intros (s & ps & E); eauto|intros [[s ps] E]; eauto].
Qed.
Print Assumptions C56_sendable.
(** Which of them can be read by the peer, whatever class it reads them as. *)
Theorem C56_readable : forall posix nt declared r s ps, typed_error r -> write_error r = Ok (s, ps) ->
  ((exists r', read_error posix nt declared ps = Ok r') <-> readable r).
Proof.
  intros posix nt declared r s ps T W. destruct (written posix nt r s ps W) as (c & m & Ec & Em & H).
  exact (proj1 (read_written posix nt declared r c m ps T Ec Em H)).
Qed.
Print Assumptions C56_readable.
(** The form on the wire: the properties by name and in order. *)
Theorem C56_form : forall r s ps, typed_error r -> write_error r = Ok (s, ps) ->
  map fst ps = error_names r /\ exists c m, er_category r = Some c /\ spelled c m /\ holds ps r c m.
Proof.
  intros r s ps [T _] W. split; [exact (error_named r s ps W)|]. destruct (written (fun x => x) (fun x => x) r s ps W) as (c & m & Ec & Em & H).
  exists c, m. split; [exact Ec|]. split; [|exact H]. specialize (T c Ec). unfold category_text in Em. destruct (ca_category c) as [z|] eqn:Ez; [|discriminate].
  destruct (category_text_ok c z Ez T) as (m' & Em' & Sp). unfold category_text in Em'. rewrite Ez in Em'. congruence.
Qed.
Print Assumptions C56_form.
Theorem C56_informational_form : forall r s ps, write_informational r = Ok (s, ps) ->
  map fst ps = informational_names r /\ holds_informational ps r.
Proof. intros r s ps W. destruct (informational_holds r s ps W) as [A B]. split; [exact B|exact A]. Qed.
Print Assumptions C56_informational_form.
(** What the peer then holds, field by field, and the text it is shown with. *)
Theorem C56_error : forall posix nt declared r, typed_error r -> sendable r -> readable r ->
  exists s ps r', write_error r = Ok (s, ps) /\ shows r s /\ read_error posix nt declared ps = Ok r'
    /\ arrives (directory posix nt) r r'.
Proof.
  intros posix nt declared r T S R. destruct (write_error_iff r T) as [H1 H2]. destruct (proj2 H1 S) as [[s ps] W].
  destruct (written posix nt r s ps W) as (c & m & Ec & Em & H).
  destruct (read_written posix nt declared r c m ps T Ec Em H) as [H3 H4]. destruct (proj2 H3 R) as [r' Er].
  exists s, ps, r'. split; [exact W|]. split; [exact (H2 s ps W)|]. split; [exact Er|exact (H4 r' Er)].
Qed.
Print Assumptions C56_error.
(** Records that have settled arrive as they are. *)
Theorem C56_settled : forall posix nt declared r, typed_error r -> sendable r -> readable r -> settled r ->
  exists s ps, write_error r = Ok (s, ps) /\ read_error posix nt declared ps = Ok r.
Proof.
  intros posix nt declared r T S R X. destruct (C56_error posix nt declared r T S R) as (s & ps & r' & W & _ & Er & A).
  exists s, ps. split; [exact W|]. rewrite <- (settled_arrives posix nt r r' X (proj1 R)) ; [exact Er| |exact A].
  destruct S as [(c & z & Ec & _) _]. congruence.
Qed.
Print Assumptions C56_settled.
(** What arrived of a record without an invocation has settled and shows the same text: it can be passed on any number of
    times. *)
Theorem C56_again : forall dirname r r', typed_error r -> readable r -> sendable r -> er_invocation r = None -> er_string r = None ->
  arrives dirname r r' -> typed_error r' /\ settled r' /\ sendable r' /\ readable r' /\ (forall s, shows r s -> shows r' s).
Proof.
  intros dirname r r' T R S Ei Es A.
  pose proof (arrived_shows dirname r r' (proj1 R) Es A) as Sh.
  destruct T as [Tc _]. destruct R as [Rx _]. destruct S as ((c & z & Ec & Ez) & (s0 & S0) & _).
  destruct A as [a1 a2 a3 a4 a5 a6 a7 a8 a9 a10 a11]. rewrite Ei in *. cbn [sent_invocation] in *.
  destruct (er_exception r) as [x|] eqn:Ex; [|congruence]. specialize (a1 x eq_refl). destruct (a2 c Ec) as (s & Sp & a2').
  split; [|split; [|split; [|split]]].
  - split; [|intros i I; congruence]. intros c' C. rewrite a2' in C. injection C as <-. exact (Tc c Ec).
  - split; [|split; [|split; [|split; [|split; [|split]]]]]; [| | |exact a10|exact a11| |].
    + intros d D. rewrite a5 in D. unfold arriving_details in D. destruct (er_details r) as [d0|]; [|discriminate].
      destruct (non_empty (de_message d0)) eqn:E1; [injection D as <-; left; congruence|].
      destruct (non_empty (de_action d0)) eqn:E2; [injection D as <-; right; congruence|discriminate].
    + rewrite a6. destruct (er_trace r) as [[|t0 t]|]; discriminate.
    + rewrite a7. split; [exact a9|exact a8].
    + intros x' X. rewrite a1 in X. injection X as <-. rewrite a7. reflexivity.
    + intros c' C. rewrite a2' in C. injection C as <-. exists s. split; [exact Sp|reflexivity].
  - split; [exists (mkCategory (ca_category c) (ca_activity c) (ca_reason c) (ca_target_name c) (ca_target_type c) (Some s)), z; auto|].
    split; [exists s0; apply Sh; exact S0|]. intros i e I. congruence.
  - split; [congruence|]. intros E. congruence.
  - exact Sh.
Qed.
Print Assumptions C56_again.
Theorem C56_informational : forall posix nt declared r, (forall i, in_invocation r = Some i -> typed_invocation i) ->
  exists s ps, write_informational r = Ok (s, ps) /\ s = in_string r
  /\ ((exists r', read_informational posix nt declared ps = Ok r')
      <-> (in_extended r = true -> forall i, in_invocation r = Some i -> readable_invocation i))
  /\ (forall r', read_informational posix nt declared ps = Ok r' -> r' = arriving_informational (directory posix nt) r).
Proof.
  intros posix nt declared r T. exists (in_string r). eexists. split; [reflexivity|].
  eapply (informational_written posix nt declared r); [exact T|reflexivity].
Qed.
Print Assumptions C56_informational.

(** A record with everything in it. *)
Definition ex_extent : extent :=
  mkExtent (mkPosition (Some (tx "/s/a.ps1")) (Some 3%Z) (Some 5%Z) (Some (tx "foo bar")))
           (mkPosition (Some (tx "/s/a.ps1")) (Some 3%Z) (Some 8%Z) (Some (tx "foo bar"))).
Definition ex_command : command_info := mkInfo (Some (Some 8%Z)) (Some (Some (tx "foo"))) None (Some (Some 1%Z)).
Definition ex_invocation (p : option extent) : invocation :=
  mkInv (Some [(1, 2)%N]) (Some 1%Z) p (Some true) (Some 7%Z) (Some (tx "foo")) (Some (tx "foo bar")) (Some ex_command) (Some 5%Z)
        (Some 1%Z) (Some 1%Z) (Some (tx "At line 3")) (Some (tx "/s/a.ps1")) (Some (tx "/s")) (Some 3%Z) (Some (tx "/s/a.ps1")) (Some [4%N]).
Definition ex_category : category := mkCategory (Some 13%Z) (Some (tx "foo")) (Some (tx "missing")) None (Some (tx "String")) None.
Definition ex_exception : exception := mkExc 9 (Some (Some (tx "no bar"))) None.
Definition ex_error (p : option extent) : error :=
  mkError (Some ex_exception) (Some ex_category) (Some 11%N) (Some (tx "id")) (Some (ex_invocation p))
          (Some (mkDetails (Some (tx "bar is missing")) None)) (Some [1%N]) (Some (tx "at 3")) true None [].
(** The directory, for the examples: everything before the last separator. *)
Definition cut (sep : N) (s : list N) : list N :=
  rev (match (fix drop l := match l with [] => [] | c :: t => if (c =? sep)%N then t else drop t end) (rev s) with l => l end).
Example C56_error_ex p : p = None \/ p = Some ex_extent -> typed_error (ex_error p) /\ sendable (ex_error p) /\ readable (ex_error p).
Proof.
  intros Hp. split; [|split].
  - split; [intros c E; injection E as <-; cbn; lia|]. intros i E. injection E as <-. split; [cbn; lia|]. cbn. intros v V. injection V as <-. cbn. lia.
  - split; [do 2 eexists; split; reflexivity|]. split.
    + exists (tx "bar is missing"). right. left. split; [reflexivity|]. split; [discriminate|]. eexists; split; reflexivity.
    + intros i e E P. injection E as <-. cbn in P. destruct Hp as [->| ->]; [discriminate|]. injection P as <-.
      exists 8%Z. split; [reflexivity|]. right. split; [discriminate|]. left. split; [reflexivity|discriminate].
  - split; [discriminate|]. intros _ i E. injection E as <-. split; [discriminate|]. intros c C _. injection C as <-. discriminate.
Qed.
Example C56_arrives_ex :
  exists s ps r', write_error (ex_error None) = Ok (s, ps) /\ s = tx "bar is missing"
  /\ read_error (cut 47) (cut 92) [] ps = Ok r'
  /\ er_invocation r' = Some (arriving_invocation (directory (cut 47) (cut 92)) (ex_invocation None))
  /\ (exists i, er_invocation r' = Some i /\ iv_script_root i = Some (tx "/s"))
  /\ (exists c, er_category r' = Some c /\ ca_string c = Some (tx "ObjectNotFound (:String) [foo], missing")).
Proof.
  do 3 eexists. split; [vm_compute; reflexivity|]. split; [vm_compute; reflexivity|]. split; [vm_compute; reflexivity|].
  split; [vm_compute; reflexivity|]. split; eexists; (split; [reflexivity|vm_compute; reflexivity]).
Qed.
Definition ex_bare : error :=
  mkError (Some ex_exception) (Some ex_category) (Some 11%N) (Some (tx "id")) None
          (Some (mkDetails (Some (tx "bar is missing")) None)) None (Some (tx "at 3")) false None [].
Example C56_settled_ex : exists r',
  typed_error ex_bare /\ sendable ex_bare /\ readable ex_bare /\ arrives (directory (cut 47) (cut 92)) ex_bare r' /\ r' <> ex_bare
  /\ settled r' /\ sendable r' /\ readable r'.
Proof.
  assert (T : typed_error ex_bare) by (split; [intros c E; injection E as <-; cbn; lia|intros i I; discriminate I]).
  assert (S : sendable ex_bare).
  { split; [do 2 eexists; split; reflexivity|]. split; [|intros i e I; discriminate I].
    exists (tx "bar is missing"). right. left. split; [reflexivity|]. split; [discriminate|]. eexists; split; reflexivity. }
  assert (R : readable ex_bare) by (split; discriminate).
  destruct (C56_error (cut 47) (cut 92) [] ex_bare T S R) as (s & ps & r' & _ & _ & _ & A). exists r'.
  split; [exact T|]. split; [exact S|]. split; [exact R|]. split; [exact A|]. split.
  - intros ->. pose proof (arr_exception _ _ _ A _ eq_refl) as X. discriminate X.
  - pose proof (C56_again _ ex_bare r' T R S eq_refl eq_refl A). tauto.
Qed.
Example C56_complete_ex : exists r, er_extended r = true /\ er_invocation r <> None /\ typed_error r /\ sendable r /\ readable r /\ settled r.
Proof.
  set (i := mkInv (Some [(1, 2)%N]) (Some 1%Z) (Some (bare ex_extent)) (Some true) (Some 7%Z) (Some (tx "foo")) (Some (tx "foo bar"))
        (Some (mkInfo (Some (Some 8%Z)) (Some (Some (tx "foo"))) (Some None) (Some (Some 1%Z)))) (Some 5%Z)
        (Some 1%Z) (Some 1%Z) None (Some []) (Some []) (Some 3%Z) (Some (tx "/s/a.ps1")) (Some [4%N])).
  exists (mkError (Some (mkExc 9 (Some (Some (tx "no bar"))) (Some (Some i))))
            (Some (mkCategory (Some 13%Z) (Some (tx "foo")) (Some (tx "missing")) None (Some (tx "String"))
                     (Some (tx "ObjectNotFound (:String) [foo], missing"))))
            (Some 11%N) (Some (tx "id")) (Some i) None (Some [1%N]) None true None []).
  split; [reflexivity|]. split; [discriminate|]. split; [|split; [|split]].
  - split; [intros c E; injection E as <-; cbn; lia|]. intros j E. injection E as <-. split; [cbn; lia|]. cbn. intros v V. injection V as <-. cbn. lia.
  - split; [do 2 eexists; split; reflexivity|]. split.
    + exists (tx "no bar"). right. right. split; [reflexivity|]. split; [intros d m D; discriminate D|]. eexists; split; reflexivity.
    + intros j e E P. injection E as <-. injection P as <-. exists 8%Z. split; [reflexivity|]. right. split; [discriminate|]. left.
      split; [reflexivity|discriminate].
  - split; [discriminate|]. intros _ j E. injection E as <-. split; [discriminate|]. intros c C _. injection C as <-. discriminate.
  - split; [intros d D; discriminate D|]. split; [discriminate|]. split.
    { split; [reflexivity|]. do 3 (split; [discriminate|]). do 3 (split; [reflexivity|]). split.
      - eexists. split; [reflexivity|]. repeat split.
      - intros c C. injection C as <-. repeat split; discriminate. }
    split; [reflexivity|]. split; [reflexivity|]. split; [intros x X; injection X as <-; reflexivity|].
    intros c C. injection C as <-. eexists. split; [|reflexivity]. exists 13%Z, "ObjectNotFound"%string. split; [reflexivity|]. split; [cbn; tauto|reflexivity].
Qed.
Example C56_informational_ex : exists ps r',
  write_informational (mkInformational (Some (tx "careful")) (Some (ex_invocation (Some ex_extent))) (Some [1%N]) true None []) = Ok (None, ps)
  /\ read_informational (cut 47) (cut 92) [] ps = Ok r' /\ in_message r' = Some (tx "careful") /\ in_invocation r' <> None.
Proof. do 2 eexists. split; [vm_compute; reflexivity|]. split; [vm_compute; reflexivity|]. split; [reflexivity|discriminate]. Qed.

(** The text of a position with columns from 1 on is not the text between the columns, *)
Theorem C56_text : forall e s, (exists b, po_column (ex_start e) = Some b /\ (1 <= b)%Z) -> (extent_text e = Ok s <-> cut_out e s).
Proof. intros e s (b & B & H). apply extent_cut; [intros b' B'; congruence|congruence]. Qed.
Print Assumptions C56_text.
Example C56_text_ex : extent_text ex_extent = Ok (tx "bar").
Proof. vm_compute. reflexivity. Qed.
(** not even on one line, unless the position ends with the line. *)
Theorem C56_text_refuted : exists e b c l, ex_start e = mkPosition None (Some 1%Z) (Some b) (Some l)
  /\ ex_end e = mkPosition None (Some 1%Z) (Some c) (Some l) /\ (1 <= b < c)%Z /\ (c <= Z.of_nat (length l))%Z
  /\ between l b c = tx "foo" /\ extent_text e = Ok (tx "foo ").
Proof.
  exists (mkExtent (mkPosition None (Some 1%Z) (Some 1%Z) (Some (tx "foo bar"))) (mkPosition None (Some 1%Z) (Some 4%Z) (Some (tx "foo bar")))).
  exists 1%Z, 4%Z, (tx "foo bar"). split; [reflexivity|]. split; [reflexivity|]. split; [lia|]. split; [cbn; lia|]. split; vm_compute; reflexivity.
Qed.
Print Assumptions C56_text_refuted.

(** *** What does not survive *)
Definition round (r : error) : result error := let! w := write_error r in read_error (cut 47) (cut 92) [] (snd w).
Ltac ground := vm_compute; reflexivity.
(** The position of an invocation arrives without the text of its line, and the message naming the position is lost. *)
Theorem C56_position_refuted : exists r r' i i', typed_error r /\ sendable r /\ readable r /\ round r = Ok r'
  /\ er_invocation r = Some i /\ er_invocation r' = Some i'
  /\ (exists e e', iv_position i = Some e /\ iv_position i' = Some e' /\ po_text (ex_start e) <> po_text (ex_start e'))
  /\ iv_message i <> None /\ iv_message i' = None
  /\ iv_command_path i <> iv_command_path i' /\ iv_script_root i <> iv_script_root i'.
Proof.
  exists (ex_error (Some ex_extent)). do 3 eexists. pose proof (C56_error_ex (Some ex_extent) (or_intror eq_refl)) as (A & B & C).
  split; [exact A|]. split; [exact B|]. split; [exact C|]. split; [ground|]. split; [reflexivity|]. split; [reflexivity|].
  split; [do 2 eexists; split; [reflexivity|]; split; [reflexivity|]; discriminate|]. split; [discriminate|]. split; [reflexivity|]. split; discriminate.
Qed.
Print Assumptions C56_position_refuted.
(** An invocation without a position arrives with one that is made up. *)
Theorem C56_no_position_refuted : exists r r' i i', typed_error r /\ sendable r /\ readable r /\ round r = Ok r'
  /\ er_invocation r = Some i /\ er_invocation r' = Some i' /\ iv_position i = None /\ iv_position i' <> None.
Proof.
  exists (ex_error None). do 3 eexists. pose proof (C56_error_ex None (or_introl eq_refl)) as (A & B & C).
  split; [exact A|]. split; [exact B|]. split; [exact C|]. split; [ground|]. split; [reflexivity|]. split; [reflexivity|]. split; [reflexivity|discriminate].
Qed.
Print Assumptions C56_no_position_refuted.
(** Passing on a record loses what was known of the place it came from: the invocation the first sender attached to the
    exception is overwritten with nothing. *)
Definition ex_plain : error :=
  mkError (Some ex_exception) (Some ex_category) None None (Some (ex_invocation (Some ex_extent))) None None None false None [].
Theorem C56_relay_refuted : exists r r' r'' x' x'' i, typed_error r /\ sendable r /\ readable r /\ round r = Ok r' /\ round r' = Ok r''
  /\ er_invocation r = Some i /\ er_exception r' = Some x' /\ x_remote x' = Some (Some i)
  /\ er_exception r'' = Some x'' /\ x_remote x'' = Some None /\ er_invocation r'' = None.
Proof.
  exists ex_plain. do 5 eexists. split; [|split; [|split]].
  - split; [intros c E; injection E as <-; cbn; lia|]. intros i E. injection E as <-. split; [cbn; lia|]. cbn. intros v V. injection V as <-. cbn. lia.
  - split; [do 2 eexists; split; reflexivity|]. split.
    + exists (tx "no bar"). right. right. split; [reflexivity|]. split; [intros d m D; discriminate D|]. eexists; split; reflexivity.
    + intros i e E P. injection E as <-. injection P as <-. exists 8%Z. split; [reflexivity|]. right. split; [discriminate|]. left.
      split; [reflexivity|discriminate].
  - split; [discriminate|]. intros E. discriminate E.
  - split; [ground|]. split; [ground|]. repeat (split; [reflexivity|]). reflexivity.
Qed.
Print Assumptions C56_relay_refuted.
(** The default InvocationInfo - nothing given - is written but cannot be read: it has no CommandOrigin. *)
Definition ex_nothing : invocation :=
  mkInv None None None None None None None None None None None None None None None None None.
Theorem C56_default_invocation_refuted : exists r s ps, typed_error r /\ er_invocation r = Some ex_nothing /\ write_error r = Ok (s, ps)
  /\ forall posix nt declared, read_error posix nt declared ps = Err ValueError.
Proof.
  exists (mkError (Some ex_exception) (Some ex_category) None None (Some ex_nothing) None None None true None []). do 2 eexists.
  split; [|split; [reflexivity|]; split; [ground|reflexivity]].
  split; [intros c E; injection E as <-; cbn; lia|]. intros i E. injection E as <-. split; cbn; exact I.
Qed.
Print Assumptions C56_default_invocation_refuted.
(** So it is with a command whose Visibility is None; one whose CommandType is None is dropped without a word. *)
Theorem C56_command_refuted : exists c c' i i' r,
  mc_type c = Some None /\ mc_name c = Some (Some (tx "foo")) /\ i = mkInv None (Some 0%Z) None None None None None (Some c) None None None None None None None None None
  /\ round (mkError (Some ex_exception) (Some ex_category) None None (Some i) None None None true None []) = Ok r
  /\ (exists j, er_invocation r = Some j /\ iv_command j = None)
  /\ mc_visibility c' = Some None /\ i' = mkInv None (Some 0%Z) None None None None None (Some c') None None None None None None None None None
  /\ round (mkError (Some ex_exception) (Some ex_category) None None (Some i') None None None true None []) = Err ValueError.
Proof.
  exists (mkInfo (Some None) (Some (Some (tx "foo"))) None None), (mkInfo None None None (Some None)). do 3 eexists.
  split; [reflexivity|]. split; [reflexivity|]. split; [reflexivity|]. split; [ground|]. split; [eexists; split; reflexivity|].
  split; [reflexivity|]. split; [reflexivity|ground].
Qed.
Print Assumptions C56_command_refuted.
(** Details and stack traces that are there but empty, added properties and a text set by hand do not arrive in the record. *)
Theorem C56_lost_refuted : exists r r', typed_error r /\ sendable r /\ readable r /\ round r = Ok r'
  /\ er_details r <> None /\ er_details r' = None /\ er_trace r <> None /\ er_trace r' = None
  /\ er_string r <> None /\ er_string r' = None /\ er_notes r <> [] /\ er_notes r' = []
  /\ er_iteration r <> None /\ er_iteration r' = None.
Proof.
  exists (mkError (Some ex_exception) (Some ex_category) None None None (Some (mkDetails (Some []) None)) (Some [1%N]) (Some []) true
            (Some (tx "shown")) [("more"%string, 1%N)]). eexists. split; [|split; [|split]].
  - split; [intros c E; injection E as <-; cbn; lia|]. intros i E. discriminate E.
  - split; [do 2 eexists; split; reflexivity|]. split; [exists (tx "shown"); left; reflexivity|]. intros i e E. discriminate E.
  - split; [discriminate|]. intros _ i E. discriminate E.
  - split; [ground|]. repeat (split; [discriminate|split; [reflexivity|]]). split; [discriminate|reflexivity].
Qed.
Print Assumptions C56_lost_refuted.
(** An exception without Message and a position without the column of its end - both can be made - cannot be sent. *)
Theorem C56_unsendable_refuted :
  write_error (mkError (Some (mkExc 1 None None)) (Some ex_category) None None None None None None false None []) = Err AttributeError
  /\ write_error (mkError (Some ex_exception) (Some ex_category) None None
       (Some (ex_invocation (Some (mkExtent (mkPosition None None None None) (mkPosition None None None None))))) None None None false None [])
     = Err TypeError.
Proof. split; ground. Qed.
Print Assumptions C56_unsendable_refuted.
(** The text of a category that came from the peer is not what is sent on: it is put together anew. *)
Theorem C56_category_text_refuted : exists r r' c c' m m',
  er_category r = Some c /\ ca_string c = Some m /\ round r = Ok r' /\ er_category r' = Some c' /\ ca_string c' = Some m' /\ m' <> m.
Proof.
  exists (mkError (Some ex_exception) (Some (mkCategory (Some 0%Z) None None None None (Some (tx "NichtAngegeben: (:) [], "))))
           None None None None None None false None []). do 5 eexists.
  split; [reflexivity|]. split; [reflexivity|]. split; [ground|]. split; [reflexivity|]. split; [reflexivity|]. discriminate.
Qed.
Print Assumptions C56_category_text_refuted.

(** ** C57 *)
(** The element has one child for each part. *)
Theorem C57_form : forall p, progress_ok p ->
  write_progress p = Ok (Node (tx "PR") [] [] (map (fun q => Node (tx (fst q)) [] (snd q) []) (child p))).
Proof. intros p H. destruct (progress_written p H) as (x & W & E). rewrite W, (element_children p x E). reflexivity. Qed.
Print Assumptions C57_form.
(** A progress record written as a PR element is read back as it was, *)
Theorem C57_element : forall p, progress_ok p -> exists x, write_progress p = Ok x /\ read_progress x = Ok p.
Proof. intros p H. destruct (progress_written p H) as (x & W & E). exists x. split; [exact W|exact (progress_read p x H E)]. Qed.
Print Assumptions C57_element.
(** also through the text of the document. *)
Theorem C57_text : forall p, progress_ok p -> progress_safe p ->
  exists x y, write_progress p = Ok x /\ parse (print x) = Ok y /\ read_progress y = Ok p.
Proof.
  intros p H S. destruct (progress_written p H) as (x & W & E). exists x, x. split; [exact W|].
  split; [exact (Proofs_Xml1.print_parse x (progress_printable p x S E))|exact (progress_read p x H E)].
Qed.
Print Assumptions C57_text.
(** What is not in the element: the parts that have to be there, and what stands for the others. *)
Theorem C57_lacking : forall name attrs text kids,
  (forall k, In k ["AV"; "AI"; "SD"]%string -> lacks kids k -> forall p, read_progress (Node name attrs text kids) <> Ok p)
  /\ forall p, read_progress (Node name attrs text kids) = Ok p ->
     (lacks kids "S" -> pg_operation p = None) /\ (lacks kids "PI" -> pg_parent p = Some (-1)%Z) /\
     (lacks kids "PC" -> pg_percent p = Some (-1)%Z) /\ (lacks kids "T" -> pg_type p = Some 0%Z) /\
     (lacks kids "SR" -> pg_seconds p = Some (-1)%Z).
Proof. exact progress_lacking. Qed.
Print Assumptions C57_lacking.
Example C57_lacking_ex :
  read_progress (Node (tx "PR") [] [] [leaf "SD" (tx "half"); leaf "AI" (tx "7"); leaf "AV" (tx "Copying"); leaf "PC" []]) =
  Ok (mkPR (Some (tx "Copying")) (Some 7%Z) None (Some (-1)%Z) (Some (-1)%Z) (Some 0%Z) (Some (-1)%Z) (Some (tx "half"))).
Proof. vm_compute. reflexivity. Qed.
Definition ex_progress : progress_record :=
  mkPR (Some (tx "Copying_x0041_")) (Some 1%Z) (Some (tx "a <b>")) (Some (-1)%Z) (Some 50%Z) (Some 1%Z) (Some (-1)%Z) (Some [233; 10; 0x1F600]%N).
Example C57_text_ex : (let! x := write_progress ex_progress in let! y := parse (print x) in read_progress y) = Ok ex_progress.
Proof. ground. Qed.
Definition ex_half : progress_record :=
  mkPR (Some (tx "Copying")) (Some 1%Z) (Some (tx "a")) (Some (-1)%Z) (Some 50%Z) (Some 1%Z) (Some (-1)%Z) (Some (tx "half")).
Example C57_ok_ex : progress_ok ex_half /\ progress_safe ex_half.
Proof.
  assert (G : forall s, tame s = true -> good_str s) by (intros s H; exact (proj1 (tame_good s H))). split.
  - do 4 (split; [cbn; lia|]). split; [right; reflexivity|]. split; [|split].
    + eexists. split; [reflexivity|]. split; [discriminate|]. apply G. reflexivity.
    + eexists. split; [reflexivity|]. split; [discriminate|]. apply G. reflexivity.
    + intros s E. injection E as <-. split; [discriminate|]. apply G. reflexivity.
  - intros s [E|[E|E]]; injection E as <-; apply tame_safe; reflexivity.
Qed.
(** An empty activity or status description is written but cannot be read; an empty operation is none. *)
Theorem C57_empty_refuted : exists p q r x y z,
  pg_activity p = Some [] /\ write_progress p = Ok x /\ read_progress x = Err TypeError
  /\ pg_status q = Some [] /\ write_progress q = Ok y /\ read_progress y = Err TypeError
  /\ pg_operation r = Some [] /\ write_progress r = Ok z /\ exists r', read_progress z = Ok r' /\ pg_operation r' = None.
Proof.
  exists (mkPR (Some []) (Some 1%Z) None (Some (-1)%Z) (Some 50%Z) (Some 1%Z) (Some (-1)%Z) (Some (tx "half"))),
    (mkPR (Some (tx "Copying")) (Some 1%Z) None (Some (-1)%Z) (Some 50%Z) (Some 1%Z) (Some (-1)%Z) (Some [])),
    (mkPR (Some (tx "Copying")) (Some 1%Z) (Some []) (Some (-1)%Z) (Some 50%Z) (Some 1%Z) (Some (-1)%Z) (Some (tx "half"))).
  do 3 eexists. split; [reflexivity|]. split; [ground|]. split; [ground|]. split; [reflexivity|]. split; [ground|]. split; [ground|].
  split; [reflexivity|]. split; [ground|]. eexists. split; [ground|reflexivity].
Qed.
Print Assumptions C57_empty_refuted.
(** A number that is None is written as the word and cannot be read. *)
Theorem C57_none_refuted : exists p x, pg_parent p = None /\ write_progress p = Ok x /\ read_progress x = Err ValueError.
Proof.
  exists (mkPR (Some (tx "Copying")) (Some 1%Z) None None (Some 50%Z) (Some 1%Z) (Some (-1)%Z) (Some (tx "half"))). eexists.
  split; [reflexivity|]. split; [ground|]. ground.
Qed.
Print Assumptions C57_none_refuted.
