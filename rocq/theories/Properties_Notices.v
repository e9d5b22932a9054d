(** C80: user events and information records reach the client: what was given, and the time, the user, the computer, the
    process and the thread where nothing was given.

    Trusted: as for C66. *)
From Coq Require Import String.
From Verif Require Import Base BaseFacts Model_Scalars Model_Object Model_Clixml Model_Xml Model_Messages Model_Pipeline Model_Metadata Model_Notices.
From Verif Require Import Spec_Strings Spec_Scalars Spec_Clixml Spec_Xml Spec_Messages Spec_HostWire Spec_Pipeline Spec_Metadata Spec_Notices.
From Verif Require Import Proofs_Messages Proofs_HostWire Proofs_HostWire2 Proofs_HostWire3 Proofs_Lines Proofs_Pipeline Proofs_Metadata Proofs_Notices.
From Verif Require Import Properties_Pipeline Properties_Metadata.
Local Open Scope list_scope.

(** Every event can be written, and whatever is written the client reads as given; no arguments are an empty list. *)
Theorem C80_event : forall reg lx h rank n s e pool_id time computer args,
  usual reg lx -> good_graph reg lx h -> legible_graph h -> closed h -> ranked h rank -> free_from h n ->
  or_else (sr_now s) (ue_time e) time -> or_else (sr_node s) (ue_computer e) computer -> lists h (ue_args e) args ->
  Forall (can_send reg lx h) (ue_sender e :: ue_data e :: args) -> can_date time -> can_say (ue_source e) /\ can_say computer ->
  is_int (ue_id e) -> (pool_id < 2 ^ 128)%N ->
  (exists fuel data, event_data fuel h n pool_id s e = Ok data)
  /\ forall fuel data, event_data fuel h n pool_id s e = Ok data ->
     exists sender v d h' R,
       read_event reg data = Ok (WUserEvent (Some (ue_id e)) (Some (ue_source e)) (Some time) sender v d (Some computer) (Some pool_id), h')
     /\ same_value R (ue_sender e) sender /\ listed h' (same_value R) args v /\ same_value R (ue_data e) d /\ same_graph reg (heap_lines h) h' R.
Proof.
  intros reg lx h rank n s e pool_id time computer args U G L C RK F E1 E2 E3 E4 E5 E6 E7 E8. split.
  - exact (event_written reg lx U h n F G L C s e pool_id time computer args E1 E2 E3 E4 E5 E6 E7 E8 rank RK).
  - exact (event_seen reg lx U h n F G L C s e pool_id time computer args E1 E2 E3 E4 E5 E6 E7 E8).
Qed.
Print Assumptions C80_event.
(** The same for information records. *)
Theorem C80_information : forall reg lx h rank n s r time user computer process native managed tags,
  usual reg lx -> good_graph reg lx h -> legible_graph h -> closed h -> ranked h rank -> free_from h n ->
  or_else (sr_now s) (nt_time r) time -> or_else (sr_user s) (nt_user r) user -> or_else (sr_node s) (nt_computer r) computer ->
  or_else (sr_process s) (nt_process r) process -> or_else (sr_thread s) (nt_native r) native -> or_else 0%Z (nt_managed r) managed ->
  lists h (nt_tags r) tags -> Forall (can_send reg lx h) (nt_data r :: tags) -> can_date time ->
  Forall can_say [nt_source r; user; computer] -> Forall is_uint [process; native; managed] ->
  (exists fuel data, notice_data fuel h n s r = Ok data)
  /\ forall fuel data, notice_data fuel h n s r = Ok data ->
     exists d v h' R,
       read_notice reg data = Ok (WInformationRecord d (Some (nt_source r)) (Some time) v (Some user) (Some computer) (Some process) (Some native) (Some managed), h')
     /\ same_value R (nt_data r) d /\ listed h' (same_value R) tags v /\ same_graph reg (heap_lines h) h' R.
Proof.
  intros reg lx h rank n s r time user computer process native managed tags U G L C RK F E1 E2 E3 E4 E5 E6 E7 E8 E9 E10 E11. split.
  - exact (notice_written reg lx U h n F G L C s r time user computer process native managed tags E1 E2 E3 E4 E5 E6 E7 E8 E9 E10 E11 rank RK).
  - exact (notice_seen reg lx U h n F G L C s r time user computer process native managed tags E1 E2 E3 E4 E5 E6 E7 E8 E9 E10 E11).
Qed.
Print Assumptions C80_information.
(** A number outside its type is refused: nothing is sent. *)
Theorem C80_numbers : forall h n s,
  (forall e pool_id fuel data, event_data fuel h n pool_id s e = Ok data -> is_int (ue_id e))
  /\ forall r process native managed fuel data, or_else (sr_process s) (nt_process r) process -> or_else (sr_thread s) (nt_native r) native ->
     or_else 0%Z (nt_managed r) managed -> notice_data fuel h n s r = Ok data -> Forall is_uint [process; native; managed].
Proof.
  intros h n s.
  assert (forall fuel h a m data, message_data fuel h a m = Ok data -> counts_fit m) as K.
  { intros fuel h0 a m data E. destruct (shape_total m) as [[C _]|[_ Q]]; [exact C|]. exfalso. unfold message_data in E. rewrite Q in E. discriminate E. }
  split.
  - intros e id fuel data E. unfold event_data in E. destruct (place (event_args h (ue_args e)) n) as [[n1 k] v]. apply K in E. now inversion E.
  - intros r process native managed fuel data E4 E5 E6 E. unfold notice_data in E. destruct (place (notice_tags h (nt_tags r)) n) as [[n1 k] v]. apply K in E.
    unfold counts_fit in E. rewrite (or_else_is _ _ _ E4), (or_else_is _ _ _ E5), (or_else_is _ _ _ E6) in E. cbn [counts app] in E.
    inversion E as [|? ? Y1 P]; subst. inversion P as [|? ? Y2 P']; subst. inversion P' as [|? ? Y3 _]; subst.
    apply Forall_cons; [exact Y1|]. apply Forall_cons; [exact Y2|]. apply Forall_cons; [exact Y3|constructor].
Qed.
Print Assumptions C80_numbers.

(** ** Examples *)
Definition some_place : surroundings := mkSR (mkDT 2024 2 29 23 59 58 123456 0 (Some 60%Z)) (tx "jordan") (tx "srv01") 4711 815.
Definition an_event : user_event := mkUE 7 (tx "timer") VNull (GKept 1) (VBool true) None (Some (tx "other")).
Definition a_notice : notice := mkNT (VRef 1) (tx "script.ps1") None (GItems [a_text (tx "PSHOST")]) None None (Some 1%Z) None None.
Lemma some_date : can_date (sr_now some_place).
Proof.
  unfold can_date, valid_datetime, some_place. cbn [sr_now dt_year dt_month dt_day dt_hour dt_minute dt_second dt_micro dt_nano dt_tz].
  split; [lia|]. split; [lia|]. split; [split; [lia|vm_compute; discriminate]|]. split; [lia|]. split; [lia|]. split; [lia|]. split; [lia|]. split; [|lia]. exists 0%N. split; [lia|reflexivity].
Qed.
Lemma no_here h v : (forall a, v <> VRef a) -> here h v.
Proof. intros H a E. now apply H in E. Qed.
Example C80_event_example : exists fuel data sender v d h' l,
  event_data fuel meta_heap 2 77 some_place an_event = Ok data
  /\ read_event meta_reg data = Ok (WUserEvent (Some 7%Z) (Some (tx "timer")) (Some (sr_now some_place)) sender v d (Some (tx "other")) (Some 77%N), h')
  /\ items h' v = Ok l /\ l = [a_text (tx "extra"); VBool true] /\ sender = VNull /\ d = VBool true.
Proof.
  destruct meta_good as (G & L & C & RK & F).
  destruct (C80_event meta_reg meta_lex meta_heap (fun _ => 0%nat) 2 some_place an_event 77 (sr_now some_place) (tx "other")
     [a_text (tx "extra"); VBool true] meta_usual G L C RK F) as [(fuel & data & E) X].
  - constructor.
  - constructor.
  - apply ListsSome. econstructor; reflexivity.
  - apply Forall_cons; [split; [exact I|]; split; [exact I|]; now apply no_here|]. apply Forall_cons; [split; [exact I|]; split; [exact I|]; now apply no_here|].
    apply Forall_forall. exact meta_element.
  - exact some_date.
  - split; apply ascii_ok; reflexivity.
  - cbn. unfold is_int. lia.
  - lia.
  - destruct (X fuel data E) as (sender & v & d & h' & R & Ed & A1 & (a & o & k & vs & V & Ha & Hb & Fv) & A3 & _).
    exists fuel, data, sender, v, d, h', vs. split; [exact E|]. split; [exact Ed|]. split; [subst v; cbn; now rewrite Ha, Hb|].
    split; [|split; [now inversion A1|now inversion A3]].
    inversion Fv as [|? ? ? ? S1 Fv']; subst. inversion Fv' as [|? ? ? ? S2 Fv'']; subst. inversion Fv''; subst.
    inversion S1 as [| |? ? P| |]; subst. cbn in P. subst. inversion S2; subst. reflexivity.
Qed.
Example C80_information_example : exists fuel data d v h' l,
  notice_data fuel meta_heap 2 some_place a_notice = Ok data
  /\ read_notice meta_reg data = Ok (WInformationRecord d (Some (tx "script.ps1")) (Some (sr_now some_place)) v (Some (tx "jordan")) (Some (tx "srv01"))
                                       (Some 1%Z) (Some 815%Z) (Some 0%Z), h')
  /\ items h' v = Ok [a_text (tx "PSHOST")] /\ items h' d = Ok l /\ l = [a_text (tx "extra"); VBool true].
Proof.
  destruct meta_good as (G & L & C & RK & F).
  destruct (C80_information meta_reg meta_lex meta_heap (fun _ => 0%nat) 2 some_place a_notice (sr_now some_place) (tx "jordan") (tx "srv01") 1 815 0
     [a_text (tx "PSHOST")] meta_usual G L C RK F) as [(fuel & data & E) X].
  - apply Missing.
  - apply Missing.
  - apply Missing.
  - apply Given.
  - apply Missing.
  - apply Missing.
  - apply ListsSome, AsksItems.
  - apply Forall_cons; [split; [exact I|]; split; [exact I|]; intros a Q; injection Q as <-; eexists; reflexivity|].
    apply Forall_cons; [|constructor]. split; [apply ascii_ok; reflexivity|]. split; [apply ascii_ok; reflexivity|]. now apply no_here.
  - exact some_date.
  - apply Forall_cons; [apply ascii_ok; reflexivity|]. apply Forall_cons; [apply ascii_ok; reflexivity|]. apply Forall_cons; [apply ascii_ok; reflexivity|constructor].
  - unfold is_uint. apply Forall_cons; [lia|]. apply Forall_cons; [lia|]. apply Forall_cons; [lia|constructor].
  - destruct (X fuel data E) as (d & v & h' & R & Ed & A1 & (a & o & k & vs & V & Ha & Hb & Fv) & SG).
    assert (exists l, items h' d = Ok l /\ l = [a_text (tx "extra"); VBool true]) as (l & El & Ql).
    { inversion A1 as [| | | |? y K]; subst. destruct (SG _ _ K) as (o1 & o' & E1 & E' & SO). rewrite Proofs_Lines.heap_lines_get in E1. cbn in E1. injection E1 as <-.
      unfold same_object in SO. cbn [with_lines g_body list_object] in SO. destruct SO as ((l' & B & Fl) & _). exists l'. split; [cbn; now rewrite E', B|].
      inversion Fl as [|? ? ? ? S1 Fv']; subst. inversion Fv' as [|? ? ? ? S2 Fv'']; subst. inversion Fv''; subst.
      inversion S1 as [| |? ? P| |]; subst. cbn in P. subst. inversion S2; subst. reflexivity. }
    exists fuel, data, d, v, h', l. split; [exact E|]. split; [exact Ed|]. split; [|split; assumption].
    subst v. cbn. rewrite Ha, Hb. f_equal. exact (texts_same R [tx "PSHOST"] _ Fv).
Qed.

(** ** Finding: a single tag given as a text is taken apart into its characters, and nothing tells *)
Theorem C80_tag_refuted : exists data m h' d a o vs,
  notice_data 4 [] 0 some_place (mkNT VNull (tx "here") None (GText (tx "tag")) None None None None None) = Ok data
  /\ read_notice meta_reg data = Ok (m, h') /\ values m = [d; VRef a] /\ aget a h' = Some o /\ g_body o = BList LList vs
  /\ vs = map a_text [tx "t"; tx "a"; tx "g"].
Proof.
  do 7 eexists. split; [vm_compute; reflexivity|]. split; [vm_compute; reflexivity|]. split; [vm_compute; reflexivity|]. split; [vm_compute; reflexivity|].
  split; [vm_compute; reflexivity|]. vm_compute. reflexivity.
Qed.
Print Assumptions C80_tag_refuted.
