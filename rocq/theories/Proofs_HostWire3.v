(** Requests, responses and host information can be sent if their texts and numbers can (C65). *)
From Coq Require Import String Ascii.
From Verif Require Import Base BaseFacts Model_Scalars Model_Object Model_Clixml Model_Host Spec_Strings Spec_Scalars Spec_Clixml Spec_Xml
  Spec_Host Spec_HostWire Proofs_Host Proofs_HostWire Proofs_HostWire2.
Local Open Scope list_scope.

Lemma ascii_ok s : forallb (fun c => c <? 128)%N s = true -> good_str s /\ safe_str s.
Proof.
  rewrite forallb_forall. intros H.
  assert (forall c, In c s -> (c < 128)%N) as Hc by (intros c Hi; apply N.ltb_lt; auto).
  split; [split; [|split]|]; try (apply Forall_forall; intros c Hi; apply Hc in Hi; lia).
  intros (pre & c0 & a & b & c & d & c7 & post & -> & _). specialize (Hc 0x5F00%N). assert (0x5F00 < 128)%N; [|lia]. apply Hc.
  apply in_or_app. right. right. now left.
Qed.
Lemma name_sends n y : forallb (fun c => c <? 128)%N (tx n) = true -> sendable y -> good_str (tx n) /\ safe_str (tx n) /\ sendable y.
Proof. intros H S. destruct (ascii_ok _ H). auto. Qed.
Lemma obj_sends ps : NoDup (map fst ps) -> Forall (fun p => forallb (fun c => c <? 128)%N (tx (fst p)) = true /\ sendable (snd p)) ps -> sendable (HObj ps).
Proof.
  intros ND F. cbn [sendable]. split; [exact ND|]. rewrite fold_Forall. eapply Forall_impl; [|exact F]. intros p [A B]. now apply name_sends.
Qed.
Lemma list_sends l : Forall sendable l -> sendable (HList l).
Proof. cbn [sendable]. now rewrite fold_Forall. Qed.
Definition ok_text (s : list N) : Prop := good_str s /\ safe_str s.
Definition ok_int (z : Z) : Prop := (- 2 ^ 31 <= z < 2 ^ 63)%Z.
Lemma int32_int z : int32_ok z -> ok_int z.
Proof. unfold int32_ok, ok_int. lia. Qed.
Lemma color_int z : color_ok z -> ok_int z.
Proof. unfold color_ok, ok_int. lia. Qed.
Lemma opt_sends s : Forall ok_text (opt_text s) -> sendable (opt_str s).
Proof. destruct s as [s|]; cbn; intros H; [inversion H; subst; assumption|exact I]. Qed.
Ltac nodup := repeat (apply NoDup_cons; [cbn; intuition discriminate|]); apply NoDup_nil.
Ltac named := apply obj_sends; [nodup|]; repeat (apply Forall_cons; [split; [vm_compute; reflexivity|cbn [snd]]|]); try apply Forall_nil; try exact I.
Lemma coord_sends c : coord_ok c -> sendable (coord_to c).
Proof. intros [A B]. named; now apply int32_int. Qed.
Lemma size_sends c : size_ok c -> sendable (size_to c).
Proof. intros [A B]. named; now apply int32_int. Qed.
Lemma rect_sends l t r b : int32_ok l -> int32_ok t -> int32_ok r -> int32_ok b -> sendable (rect_to (mkRect l t r b)).
Proof. intros A B C D. named; now apply int32_int. Qed.
Lemma cell_sends c : cell_ok c -> (ce_char c < 65536)%N -> ok_int (ce_type c) -> sendable (cell_to c).
Proof. intros [A B] C D. named; [exact C|now apply color_int|now apply color_int|exact D]. Qed.
Lemma key_sends k : int32_ok (ki_code k) -> (ki_char k < 65536)%N -> ok_int (ki_state k) -> sendable (key_to k).
Proof. intros A B C. named; [now apply int32_int|exact B|exact C]. Qed.
Lemma choice_sends c : Forall ok_text (choice_texts c) -> sendable (choice_to c).
Proof. unfold choice_texts. rewrite Forall_app. intros [A B]. named; now apply opt_sends. Qed.
Lemma field_sends f : Forall ok_text (field_texts f) -> sendable (field_to f).
Proof. unfold field_texts. rewrite !Forall_app. intros (A & B & C & D & E & F). named; now apply opt_sends. Qed.
Lemma progress_sends p : int32_ok (pr_id p) -> int32_ok (pr_parent p) -> int32_ok (pr_percent p) -> int32_ok (pr_seconds p) -> pr_type p = 0%Z \/ pr_type p = 1%Z ->
  Forall ok_text (opt_text (pr_activity p) ++ opt_text (pr_status p) ++ opt_text (pr_operation p)) -> sendable (progress_to p).
Proof.
  rewrite !Forall_app. intros A B C D E (F & G & H). named; try (now apply opt_sends); try (now apply int32_int).
  cbn [sendable]. lia.
Qed.
Lemma ints_send l : Forall ok_int l -> sendable (HList (map HInt l)).
Proof. intros H. apply list_sends. induction H; constructor; auto. Qed.
Lemma row_short {A} (g : list (list A)) row t : g = row :: t -> (Z.of_nat (length row) <= Z.of_nat (length (concat g)))%Z.
Proof. intros ->. cbn. rewrite app_length. lia. Qed.
Lemma array_sends g a : create_array cell_to g = Ok a -> Forall (Forall cell_ok) g -> Forall (fun c => c < 65536)%N (map ce_char (concat g)) ->
  Forall ok_int (map ce_type (concat g) ++ [Z.of_nat (length g); Z.of_nat (length (concat g))]) -> sendable (array_obj a).
Proof.
  intros E C Ch T. apply Forall_app in T. destruct T as [T L]. inversion L as [|? ? L1 L2]; subst. inversion L2 as [|? ? L3 _]; subst.
  destruct g as [|row t] eqn:G; [discriminate|]. unfold create_array in E. injection E as <-.
  pose proof (row_short _ row t eq_refl) as R. unfold array_obj. cbn [fst snd].
  named; apply list_sends.
  - apply Forall_forall. intros v Hv. apply in_map_iff in Hv. destruct Hv as (c & <- & Hc). apply cell_sends.
    + change (In c (concat (row :: t))) in Hc. apply in_concat in Hc. destruct Hc as (w & Hw & Hc). rewrite Forall_forall in C. specialize (C w Hw). rewrite Forall_forall in C. auto.
    + rewrite Forall_forall in Ch. apply Ch. now apply in_map.
    + rewrite Forall_forall in T. apply T. now apply in_map.
  - unfold ok_int in *. change (Forall sendable [HInt (Z.of_N (N.of_nat (length (row :: t)))); HInt (Z.of_N (N.of_nat (length row)))]).
    repeat (apply Forall_cons; [cbn [sendable]; rewrite nat_N_Z; lia|]). apply Forall_nil.
Qed.
Lemma flat_map_Forall {A B} (P : B -> Prop) (f : A -> list B) l : Forall P (flat_map f l) -> Forall (fun x => Forall P (f x)) l.
Proof. induction l as [|x l IH]; cbn; [constructor|]. rewrite Forall_app. intros [? ?]. constructor; auto. Qed.
Lemma map_sends {A} (f : A -> hv) l : Forall (fun x => sendable (f x)) l -> sendable (HList (map f l)).
Proof. intros H. apply list_sends. induction H; constructor; auto. Qed.
Lemma colour_sends c : opt_color_ok c -> sendable (colour_or_0 c).
Proof. destruct c; cbn; [apply color_int|lia]. Qed.
Ltac all := apply list_sends; repeat (apply Forall_cons; [|]); try apply Forall_nil.
Ltac got := let E := fresh in intros E; injection E as <- <-.
Ltac fits := repeat match goal with K : int32_ok ?z |- context [new_int32 ?z] => rewrite (new_int32_ok z K); cbn [bind] end.
Theorem request_sends r m ps : request_ok r -> can_travel (texts r) (chars r) (ints r) -> encode r = Ok (m, ps) -> sendable (HList ps).
Proof.
  intros K (T & C & Z).
  change (Forall ok_text (texts r)) in T. change (Forall ok_int (ints r)) in Z.
  destruct r; cbn [encode request_ok texts chars ints] in *; unfold new_coord, new_size, new_rect, new_progress.
  - got. exact I.
  - got. inversion Z; subst. all. assumption.
  - inversion T as [|? ? T1 _]; subst. destruct K as [K1 K2]. destruct (is_some fg || is_some bg)%bool; got; all; auto using colour_sends.
  - destruct K as [K1 K2]. destruct (is_some fg || is_some bg)%bool.
    + got. all; auto using colour_sends. destruct line; [inversion T; assumption|cbn [sendable]; apply (ascii_ok []); reflexivity].
    + destruct line; got; all. inversion T; assumption.
  - got. inversion T; all; assumption.
  - got. inversion T; all; assumption.
  - destruct K as (K1 & K2 & K3 & K4 & K5). fits. got. inversion Z; subst. all; [assumption|]. now apply progress_sends.
  - got. inversion T; all; assumption.
  - got. inversion T; all; assumption.
  - got. inversion T as [|? ? T1 T2]; subst. inversion T2 as [|? ? T3 T4]; subst. all; try assumption. apply map_sends. apply flat_map_Forall in T4.
    eapply Forall_impl; [|exact T4]. intros f. apply field_sends.
  - inversion T as [|? ? T1 T2]; subst. inversion T2 as [|? ? T3 T4]; subst. apply Forall_app in T4. destruct T4 as [T4 T5].
    apply Forall_app in Z. destruct Z as [Z1 Z2].
    assert (sendable (HStr match target with Some s => s | None => [] end)) as T6 by (destruct target; [inversion T5; assumption|apply (ascii_ok []); reflexivity]).
    destruct (is_some types || is_some options)%bool; got; cbn [app]; all; try assumption; try (now apply opt_sends).
    + destruct types; [inversion Z1; assumption|cbn [sendable]; lia].
    + destruct options; [inversion Z2; assumption|cbn [sendable]; lia].
  - got. inversion T as [|? ? T1 T2]; subst. inversion T2 as [|? ? T3 T4]; subst. inversion Z; subst. all; try assumption. apply map_sends. apply flat_map_Forall in T4.
    eapply Forall_impl; [|exact T4]. intros f. apply choice_sends.
  - got. inversion T as [|? ? T1 T2]; subst. inversion T2 as [|? ? T3 T4]; subst. all; try assumption.
    + apply map_sends. apply flat_map_Forall in T4. eapply Forall_impl; [|exact T4]. intros f. apply choice_sends.
    + destruct defaults; [|exact I]. now apply ints_send.
  - got. all. now apply color_int.
  - got. all. now apply color_int.
  - destruct K. fits. got. all. now apply coord_sends.
  - destruct K. fits. got. all. now apply coord_sends.
  - got. inversion Z; all; assumption.
  - destruct K. fits. got. all. now apply size_sends.
  - destruct K. fits. got. all. now apply size_sends.
  - got. inversion T; all; assumption.
  - got. inversion Z; all; assumption.
  - destruct K as (K1 & K2 & K3 & K4 & K5 & K6). fits. got. inversion C; subst. all; [now apply rect_sends|]. apply cell_sends; [now split|assumption|].
    unfold ok_int. cbn. lia.
  - destruct K as (K1 & K2 & K3 & _). fits. destruct (create_array cell_to contents) as [a|] eqn:E; [|discriminate]. cbn [bind]. got.
    all; [now apply coord_sends|]. eapply array_sends; eauto.
  - destruct K as (K1 & K2 & K3 & K4). fits. got. all. now apply rect_sends.
  - destruct K as (K1 & K2 & K3 & K4 & K5 & K6 & K7 & K8 & K9 & K10 & K11 & K12). fits. got. inversion C; subst.
    all; [now apply rect_sends|now apply coord_sends|now apply rect_sends|]. apply cell_sends; [now split|assumption|unfold ok_int; cbn; lia].
Qed.
Theorem response_sends r x : response_ok r -> match r with PRaw _ v => sendable v | _ => True end -> can_travel [] (resp_chars r) (resp_ints r) ->
  encode_response r = Ok x -> sendable x.
Proof.
  intros K W (_ & C & Z). change (Forall ok_int (resp_ints r)) in Z.
  destruct r; cbn [encode_response response_ok resp_chars resp_ints] in *; unfold new_coord, new_size.
  - intros E; injection E as <-. exact W.
  - intros E; injection E as <-. now apply color_int.
  - destruct K as (_ & K1 & K2). fits. intros E; injection E as <-. now apply coord_sends.
  - destruct K as (_ & K1 & K2). fits. intros E; injection E as <-. now apply size_sends.
  - fits. intros E; injection E as <-. inversion C; inversion Z; subst. now apply key_sends.
  - intros E; injection E as <-. now apply ints_send.
  - destruct K as [K1 _]. destruct (create_array cell_to g) as [a|] eqn:E; [|discriminate]. cbn [bind]. intros F; injection F as <-. eapply array_sends; eauto.
Qed.
Lemma dict_value_sends v ty : forallb (fun c => c <? 128)%N (txt ty) = true -> sendable v -> sendable (dict_value v ty).
Proof. intros A B. unfold dict_value. named; [exact (ascii_ok _ A)|exact B]. Qed.
Theorem host_info_sends h : host_ok h -> match hi_data h with Some d => ok_text (hd_title d) | None => True end -> sendable (host_info_to h).
Proof.
  destruct h as [n u r s [d|]]; cbn [hi_data]; intros K T; unfold host_info_to; cbn [hi_data app hi_null hi_ui_null hi_raw_null hi_runspace_host]; [|named].
  destruct K as (K1 & K2 & K3 & K4 & K5 & K6 & K7 & K8 & K9). named. unfold host_data_to. named. cbn [sendable]. split; [nodup|]. rewrite fold_Forall.
  repeat (apply Forall_cons; [split; [cbn [fst]; lia|cbn [snd]; apply dict_value_sends; [vm_compute; reflexivity|]]|]); try apply Forall_nil;
    auto using color_int, coord_sends, size_sends, int32_int.
  - now apply color_int.
  - now apply color_int.
  - now apply int32_int.
Qed.
