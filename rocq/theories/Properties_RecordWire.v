(** C78: error, debug, verbose and warning records reach the peer as bytes: in a message of their own, with the state of a
    pipeline or of the pool, and in the answer to a host call.

    Trusted: as for C56 and C66. *)
From Coq Require Import String.
From Verif Require Import Base BaseFacts Model_Scalars Model_Object Model_Clixml Model_Xml Model_Messages Model_Records Model_Pipeline Model_RecordWire.
From Verif Require Import Spec_Strings Spec_Scalars Spec_Clixml Spec_Xml Spec_Messages Spec_HostWire Spec_Pipeline Spec_Records Spec_RecordWire.
From Verif Require Import Proofs_Messages Proofs_HostWire Proofs_HostWire2 Proofs_HostWire3 Proofs_Clixml7 Proofs_Lines Proofs_Pipeline Proofs_Records Proofs_RecordWire.
From Verif Require Import Properties_Pipeline Properties_Metadata Properties_Records.
Local Open Scope list_scope.

Lemma error_written_names r s ps : write_error r = Ok (s, ps) -> NoDup (map fst ps) /\ Forall (fun p => can_say (tx (fst p))) ps.
Proof.
  intros W. apply error_named in W. destruct (error_names_fine r) as [A B]. rewrite W. split; [now apply once_NoDup|].
  rewrite <- W in B. apply Forall_forall. intros p H. rewrite forallb_forall in B. apply ascii_ok. exact (B _ (in_map fst _ _ H)).
Qed.
Lemma informational_written_names r s ps : write_informational r = Ok (s, ps) -> NoDup (map fst ps) /\ Forall (fun p => can_say (tx (fst p))) ps.
Proof.
  intros W. apply informational_holds in W as [_ W]. destruct (informational_names_fine r) as [A B]. rewrite W. split; [now apply once_NoDup|].
  rewrite <- W in B. apply Forall_forall. intros p H. rewrite forallb_forall in B. apply ascii_ok. exact (B _ (in_map fst _ _ H)).
Qed.
(** The names the classes declare are those of the protocol. *)
Lemma types_same k : informational_type k = record_type k.
Proof. destruct k; reflexivity. Qed.
Lemma type_texts k : Forall text_ok (record_type k).
Proof. destruct k; repeat (apply Forall_cons; [apply text_lit; reflexivity|]); apply Forall_nil. Qed.
Lemma no_type_missing k : record_type k <> [].
Proof. destruct k; discriminate. Qed.
Lemma record_in l v : record_of (in_letter l v) = Some v.
Proof. destruct l; reflexivity. Qed.

(** An error record that can be sent (C56) and holds only what can be told is written, in whichever message, and the peer
    reads that message with an ErrorRecord in it that has exactly the properties of the record; from these it makes a
    record with the fields of the one sent. *)
Theorem C78_error : forall obj show reg lx h rank n l r posix nt declared,
  usual reg lx -> good_graph reg lx h -> legible_graph h -> closed h -> ranked h rank -> free_from h n ->
  type_known reg lx (record_type RecError) -> letter_ok reg lx h l -> typed_error r -> sendable r -> readable r ->
  (forall s, shows r s -> showable s) -> (forall s ps k x, write_error r = Ok (s, ps) -> In (k, x) ps -> can_tell obj show reg lx h k x) ->
  (exists fuel data, error_data obj show fuel h n l r = Ok data)
  /\ forall fuel data, error_data obj show fuel h n l r = Ok data ->
     exists s ps r' v h' R, read_message reg (kind (in_letter l VNull)) data = Ok (in_letter l v, h') /\ record_of (in_letter l v) = Some v
     /\ same_graph reg (heap_lines h) h' R /\ shows r s /\ record_seen obj reg R h' (record_type RecError) s ps v
     /\ write_error r = Ok (s, ps) /\ read_error posix nt declared ps = Ok r' /\ arrives (directory posix nt) r r'.
Proof.
  intros obj show reg lx h rank n l r posix nt declared U G L C RK F TK LO T S R SH CT.
  destruct (C56_error posix nt declared r T S R) as (s & ps & r' & W & Sh & Er & A). destruct (error_written_names r s ps W) as [ND NS].
  assert ((record_type RecError) <> []) as NN by discriminate. pose proof (type_texts RecError : Forall text_ok (record_type RecError)) as NT.
  assert (forall k x, In (k, x) ps -> can_tell obj show reg lx h k x) as CT' by (intros k x H; exact (CT s ps k x W H)).
  specialize (SH s Sh). unfold error_data. change error_type with (informational_type RecError). rewrite types_same, W. cbn [bind fst snd]. split.
  - eapply record_written; eassumption.
  - intros fuel data E. destruct (record_read obj show reg lx U h n F G L C (record_type RecError) s ps TK NN NT SH ND NS CT' l LO fuel data E) as (v & h' & RR & Ed & SG & RS).
    exists s, ps, r', v, h', RR. split; [exact Ed|]. split; [apply record_in|]. auto 10.
Qed.
Print Assumptions C78_error.
(** The same for the other records; a text that is not set is not written. *)
Theorem C78_informational : forall obj show reg lx h rank n k r posix nt declared,
  usual reg lx -> good_graph reg lx h -> legible_graph h -> closed h -> ranked h rank -> free_from h n ->
  type_known reg lx (record_type k) -> (forall i, in_invocation r = Some i -> typed_invocation i) ->
  (in_extended r = true -> forall i, in_invocation r = Some i -> readable_invocation i) ->
  (forall s, in_string r = Some s -> showable s) ->
  (forall s ps x v, write_informational r = Ok (s, ps) -> In (x, v) ps -> can_tell obj show reg lx h x v) ->
  (exists fuel data, informational_data obj show fuel h n k r = Ok data)
  /\ forall fuel data, informational_data obj show fuel h n k r = Ok data ->
     exists ps v h' R, read_message reg (kind (WRecord k VNull)) data = Ok (WRecord k v, h')
     /\ same_graph reg (heap_lines h) h' R
     /\ record_seen obj reg R h' (record_type k) (match in_string r with Some s => s | None => [] end) ps v
     /\ write_informational r = Ok (in_string r, ps)
     /\ read_informational posix nt declared ps = Ok (arriving_informational (directory posix nt) r).
Proof.
  intros obj show reg lx h rank n k r posix nt declared U G L C RK F TK T R SH CT.
  destruct (C56_informational posix nt declared r T) as (s & ps & W & Es & I1 & I2). destruct (informational_written_names r s ps W) as [ND NS].
  destruct (proj2 I1 R) as [r' Er]. pose proof (I2 r' Er) as Er'. subst r'.
  assert (forall y x, In (y, x) ps -> can_tell obj show reg lx h y x) as CT' by (intros y x H; exact (CT s ps y x W H)).
  set (t := match in_string r with Some s => s | None => [] end).
  assert (showable t) as St.
  { subst t. destruct (in_string r); [now apply SH|]. split; [constructor|]. split; constructor. }
  unfold informational_data. rewrite types_same, W. cbn [bind fst snd]. rewrite Es. fold t. split.
  - eapply record_written; try eassumption; [apply no_type_missing|apply type_texts|exact I].
  - intros fuel data E. destruct (record_read obj show reg lx U h n F G L C _ t ps TK (no_type_missing k) (type_texts k) St ND NS CT' (LRecord k) I fuel data E) as (v & h' & RR & Ed & SG & RS).
    exists ps, v, h', RR. split; [exact Ed|]. split; [exact SG|]. split; [exact RS|]. split; [congruence|exact Er].
Qed.
Print Assumptions C78_informational.

(** ** Example: a record with everything in it (C56), as one of its own and with a pipeline that has failed *)
Definition rec_origin : name := tx "System.Management.Automation.CommandOrigin".
Definition rec_visibility : name := tx "System.Management.Automation.SessionStateEntryVisibility".
Definition rec_reg : registry := fun n =>
  if name_eqb n rec_origin then Some (mkC (CEnum TInt32 false [0; 1]%Z) (enum_names rec_origin) [] [])
  else if name_eqb n rec_visibility then Some (mkC (CEnum TInt32 false [0; 1]%Z) (enum_names rec_visibility) [] [])
  else if name_eqb n (hd [] (record_type RecError)) then Some (mkC CPlain (record_type RecError) [] [])
  else meta_reg n.
Definition rec_lex : lexicon :=
  mkLex (fun n => if (name_eqb n rec_origin || name_eqb n rec_visibility)%bool then enum_names n
                  else if name_eqb n (hd [] (record_type RecError)) then (record_type RecError)
                  else if name_eqb n (tx "System.Management.Automation.DebugRecord") then record_type RecDebug else full meta_lex n)
        (fun _ _ => tx "Text").
(** The exception is a text here, and every other object the same list. *)
Definition rec_obj (x : rv) : value := match x with RExc _ => a_text (tx "no bar") | _ => VRef 1 end.
Definition rec_show (t : string) (z : Z) : list N := tx "Text".
Lemma rec_usual : usual rec_reg rec_lex.
Proof. split; [reflexivity| |]; (split; [reflexivity|]); intros c H; vm_compute in H; [injection H as <-; reflexivity|discriminate]. Qed.
Lemma rec_type : type_known rec_reg rec_lex (record_type RecError).
Proof. split; [reflexivity|]. intros c H. vm_compute in H. injection H as <-. reflexivity. Qed.
Lemma debug_type : type_known rec_reg rec_lex (record_type RecDebug).
Proof. split; [reflexivity|]. intros c H. vm_compute in H. discriminate H. Qed.
Lemma rec_good : good_graph rec_reg rec_lex meta_heap /\ legible_graph meta_heap /\ closed meta_heap /\ ranked meta_heap (fun _ => 0%nat) /\ free_from meta_heap 2.
Proof.
  destruct meta_good as ([G1 G2 G3] & L & C & RK & F). split; [|auto]. split; [|exact G2|reflexivity]. intros a o E. specialize (G1 a o E).
  cbn [aget meta_heap] in E. destruct (N.eqb_spec a 1); [|discriminate]. injection E as <-. clear G1. split.
  - cbn [g_body list_object]. apply Forall_forall. intros v Hv. destruct Hv as [<- |[<- |[]]]; [apply ascii_ok; reflexivity|exact I].
  - cbn [g_body list_object]. split; [|split; [split; constructor|split; [split; constructor|intros _; constructor]]].
    destruct (us_list _ _ rec_usual) as [A Q]. split; [exact A|]. intros c Hc. apply Q in Hc. subst c. split; [reflexivity|]. split; [reflexivity|]. split; exists []; reflexivity.
Qed.
Definition rec_members (t : string) : list Z :=
  if String.eqb t "System.Management.Automation.CommandTypes" then [1; 2; 4; 8; 16; 32; 64; 256; 383]%Z else [0; 1]%Z.
Definition tells (p : string * rv) : bool :=
  match snd p with
  | RText s => forallb (fun c => c <? 128)%N s
  | RInt z => (0 <=? z)%Z && (z <? 1000)%Z
              && forallb (fun e => negb (String.eqb (fst e) (fst p)) || existsb (Z.eqb z) (rec_members (snd e))) enumerations
  | _ => true
  end.
Lemma rec_member t z : In t (map snd enumerations) -> In z (rec_members t) -> (0 <= z < 1000)%Z ->
  can_send rec_reg rec_lex meta_heap (VEnum (mkE [tx t; tx "System.Enum"; tx "System.ValueType"; tx "System.Object"] TInt32 z (rec_show t z))).
Proof.
  intros Ht Hz B.
  assert (exists flag, registered rec_reg (enum_names (tx t)) = Some (mkC (CEnum TInt32 flag (rec_members t)) (enum_names (tx t)) [] []) /\ full rec_lex (tx t) = enum_names (tx t)
          /\ Forall text_ok (enum_names (tx t))) as (flag & E1 & E2 & E3).
  { cbn in Ht. repeat (destruct Ht as [<- |Ht]; [eexists; split; [reflexivity|split; [reflexivity|repeat (apply Forall_cons; [apply text_lit; reflexivity|]); apply Forall_nil]]|]). destruct Ht. }
  split; [|split].
  - exists (tx t), [tx "System.Enum"; tx "System.ValueType"; tx "System.Object"], (mkC (CEnum TInt32 flag (rec_members t)) (enum_names (tx t)) [] []), flag, (rec_members t).
    split; [reflexivity|]. split; [exact E2|]. split; [exact E1|]. split; [reflexivity|]. split; [reflexivity|]. split; [now right|]. split; [cbn; lia|].
    split; [reflexivity|]. apply Proofs_Clixml7.tame_good. reflexivity.
  - split; [exact E3|apply text_lit; reflexivity].
  - intros a E. discriminate E.
Qed.
Lemma tells_can k x : tells (k, x) = true -> can_tell rec_obj rec_show rec_reg rec_lex meta_heap k x.
Proof.
  intros H. unfold tells in H. cbn [fst snd] in H. split; [|split].
  - intros s ->. exact (ascii_ok s H).
  - intros z ->. apply andb_prop in H as [H1 H3]. apply andb_prop in H1 as [H1 H2]. apply Z.leb_le in H1. apply Z.ltb_lt in H2. rewrite forallb_forall in H3.
    split; [intros _; unfold fits; cbn; lia|]. split; [intros _ _; unfold fits; cbn; lia|]. intros t Ht. inversion Ht as [t' I|]; subst. apply rec_member; [exact (in_map snd _ _ I)| |lia].
    specialize (H3 _ I). cbn [fst snd] in H3. rewrite String.eqb_refl in H3. apply existsb_exists in H3. destruct H3 as (z' & Z1 & Z2). apply Z.eqb_eq in Z2. now subst.
  - intros O _. destruct x; try destruct O; (split; [|split]); try exact I; try (apply ascii_ok; reflexivity); try (intros a E; discriminate E); intros a E; injection E as <-; eexists; reflexivity.
Qed.
Lemma all2_in {A B} (P : A -> B -> Prop) l l' p : Forall2 P l l' -> In p l -> exists q, In q l' /\ P p q.
Proof. intros F. induction F as [|a b l l' H F IH]; intros []; [subst; eexists; split; [now left|eassumption]|]. destruct (IH H0) as (q & I & J). exists q. split; [now right|exact J]. Qed.
Example C78_error_ex l : l = LRecord RecError \/ l = LPipelineState 5 ->
  exists fuel data r' v h', error_data rec_obj rec_show fuel meta_heap 2 l (ex_error (Some ex_extent)) = Ok data
  /\ read_message rec_reg (kind (in_letter l VNull)) data = Ok (in_letter l v, h')
  /\ (exists a o, v = VRef a /\ aget a h' = Some o /\ g_string o = Some (tx "bar is missing") /\ length (g_extended o) = 41%nat
      /\ In (tx "FullyQualifiedErrorId", a_text (tx "id")) (g_extended o))
  /\ arrives (directory (cut 47) (cut 92)) (ex_error (Some ex_extent)) r'.
Proof.
  intros Hl. destruct rec_good as (G & L & C & RK & F). destruct (C56_error_ex (Some ex_extent) (or_intror eq_refl)) as (T & S & R).
  destruct (C78_error rec_obj rec_show rec_reg rec_lex meta_heap (fun _ => 0%nat) 2 l (ex_error (Some ex_extent)) (cut 47) (cut 92) [] rec_usual G L C RK F rec_type) as [(fuel & data & E) X]; try assumption.
  - destruct Hl as [-> | ->]; cbn; lia.
  - intros s Hs. assert (s = tx "bar is missing") as ->.
    { destruct Hs as [Q|[(_ & _ & d & D & M)|(_ & Q & _)]]; [discriminate Q|injection D as <-; injection M as <-; reflexivity|]. specialize (Q _ _ eq_refl eq_refl). discriminate Q. }
    destruct (tame_whole (tx "bar is missing") eq_refl) as [P1 P2]. split; [exact P1|]. split; [exact P2|].
    assert (text_ok (tx "bar is missing")) as K by (apply text_lit; reflexivity). eapply Forall_impl; [|exact K]. intros c [Hc _]. exact Hc.
  - intros s ps k x W H. apply tells_can. revert k x H.
    assert (forallb tells ps = true) as K; [|intros k x H; rewrite forallb_forall in K; now apply K].
    vm_compute in W. injection W as _ <-. vm_compute. reflexivity.
  - destruct (X fuel data E) as (s & ps & r' & v & h' & RR & Ed & _ & _ & Sh & (a & o & -> & Ho & _ & _ & _ & _ & St & FP) & W & _ & A).
    exists fuel, data, r', (VRef a), h'. split; [exact E|]. split; [exact Ed|]. split; [|exact A]. exists a, o. split; [reflexivity|]. split; [exact Ho|].
    vm_compute in W. injection W as <- <-. split; [apply St; [discriminate|apply tame_good; reflexivity]|].
    split; [apply all2_length in FP; etransitivity; [symmetry; exact FP|]; vm_compute; reflexivity|].
    destruct (all2_in _ _ _ ("FullyQualifiedErrorId"%string, RText (tx "id")) FP) as ([q1 q2] & Hq & Q1 & Q2); [do 2 right; left; reflexivity|].
    cbn [fst snd] in Q1, Q2. subst q1. inversion Q2; subst; try match goal with O : opaque (RText _) |- _ => destruct O end. exact Hq.
Qed.
Definition ex_debug : informational := mkInformational (Some (tx "going on")) (Some (ex_invocation None)) (Some [1%N]) true None [].
Example C78_debug_ex : exists fuel data v h' ps, informational_data rec_obj rec_show fuel meta_heap 2 RecDebug ex_debug = Ok data
  /\ read_message rec_reg KDebugRecord data = Ok (WRecord RecDebug v, h')
  /\ (exists a o, v = VRef a /\ aget a h' = Some o /\ g_string o = None /\ In (tx "InformationalRecord_Message", a_text (tx "going on")) (g_extended o))
  /\ read_informational (cut 47) (cut 92) [] ps = Ok (arriving_informational (directory (cut 47) (cut 92)) ex_debug).
Proof.
  destruct rec_good as (G & L & C & RK & F).
  destruct (C78_informational rec_obj rec_show rec_reg rec_lex meta_heap (fun _ => 0%nat) 2 RecDebug ex_debug (cut 47) (cut 92) [] rec_usual G L C RK F debug_type) as [(fuel & data & E) X].
  - intros i E. injection E as <-. split; [cbn; lia|]. cbn. intros v V. injection V as <-. cbn. lia.
  - intros _ i E. injection E as <-. split; [discriminate|]. intros c K _. injection K as <-. discriminate.
  - intros s E. discriminate E.
  - intros s ps k x W H. apply tells_can. revert k x H.
    assert (forallb tells ps = true) as K; [|intros k x H; rewrite forallb_forall in K; now apply K].
    vm_compute in W. injection W as _ <-. vm_compute. reflexivity.
  - destruct (X fuel data E) as (ps & v & h' & RR & Ed & _ & (a & o & -> & Ho & _ & _ & _ & St & _ & FP) & W & Er).
    exists fuel, data, (VRef a), h', ps. split; [exact E|]. split; [exact Ed|]. split; [|exact Er]. exists a, o. split; [reflexivity|]. split; [exact Ho|].
    split; [exact (St eq_refl)|]. vm_compute in W. injection W as <-.
    destruct (all2_in _ _ _ ("InformationalRecord_Message"%string, RText (tx "going on")) FP) as ([q1 q2] & Hq & Q1 & Q2); [left; reflexivity|].
    cbn [fst snd] in Q1, Q2. subst q1. inversion Q2; subst; try match goal with O : opaque (RText _) |- _ => destruct O end. exact Hq.
Qed.
