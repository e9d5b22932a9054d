(** C51: what is written has the form that the protocol documents prescribe, said without the model's writers. *)
From Coq Require Import String Ascii.
From Verif Require Import Base BaseFacts Model_Scalars Model_Strings Model_Text Model_Object Model_Clixml Model_Xml
  Spec_Strings Spec_Scalars Spec_Clixml Spec_Wire Spec_Shown Proofs_Clixml7 Proofs_Scalars Proofs_Wire Proofs_Wire2 Proofs_Shown Properties_Clixml Properties_Xml.
Local Open Scope list_scope.

(** Every number has exactly one numeral, and a numeral stands for one number. *)
Theorem C51_numerals : (forall n, exists s, numeral n s) /\ (forall n m s t, numeral n s -> numeral m t -> (n = m <-> s = t)).
Proof. split; [intros n; exists (dec n); apply numeral_dec|apply numeral_unique]. Qed.
Print Assumptions C51_numerals.
(** Integers of every kind, characters and versions are written in decimal. *)
Theorem C51_integers : forall z, signed_numeral z (write_int z).
Proof. exact signed_int. Qed.
Print Assumptions C51_integers.
Theorem C51_chars : forall c, numeral c (write_char c).
Proof. exact char_numeral. Qed.
Print Assumptions C51_chars.
Theorem C51_versions : forall v, version_wf v -> version_form v (write_version v).
Proof. exact version_wire. Qed.
Print Assumptions C51_versions.
Theorem C51_guids : forall n, (n < 2 ^ 128)%N -> guid_form n (write_guid n).
Proof. exact guid_wire. Qed.
Print Assumptions C51_guids.
Theorem C51_bytes : forall l, bytes_ok l -> base64_form l (b64_encode l).
Proof. exact base64_wire. Qed.
Print Assumptions C51_bytes.
Theorem C51_datetimes : forall d, valid_datetime d -> datetime_form d (write_datetime d).
Proof. exact datetime_wire. Qed.
Print Assumptions C51_datetimes.
(** Durations, except those with a whole multiple of ten seconds left over after the minutes. *)
Theorem C51_durations_partial : forall ns, ordinary (PDur ns) -> prim_form (PDur ns) (write_duration ns).
Proof. exact duration_wire. Qed.
Print Assumptions C51_durations_partial.
(** Ten seconds are written "PT1S": no form of ten seconds at all. *)
Theorem C51_durations_refuted : exists ns, (ns = 10 * 1000000000)%Z /\ write_duration ns = chars "PT1S".
Proof. eexists. split; [reflexivity|]. vm_compute. reflexivity. Qed.
Print Assumptions C51_durations_refuted.
Theorem C51_strings : forall s, pystr s -> string_form s (serialize_string s).
Proof. exact string_wire. Qed.
Print Assumptions C51_strings.
Example C51_scalar_examples :
  write_int (-120) = chars "-120" /\ write_char 65 = chars "65" /\ write_version (mkV 2 3 (Some 0%N) None) = chars "2.3.0"
  /\ write_guid 0x0123456789abcdef0123456789abcdef = chars "01234567-89ab-cdef-0123-456789abcdef"
  /\ b64_encode (chars "hello") = chars "aGVsbG8="
  /\ write_datetime (mkDT 2024 2 29 23 5 9 1200 300 (Some (-330)%Z)) = chars "2024-02-29T23:05:09.0012003-05:30"
  /\ write_duration (93784500000000) = chars "P1DT2H3M4.5S"
  /\ serialize_string [65; 10; 0x1F600]%N = chars "A_x000A__xD83D__xDE00_".
Proof. repeat (split; [vm_compute; reflexivity|]). vm_compute; reflexivity. Qed.

(** Every value is written as an element of the grammar, and the elements that serializing adds to the heap keep it so. *)
Theorem C51_values : forall fuel h v x st, ser fuel (s_init h) v = Ok (x, st) -> ordinary_heap h -> ordinary_value v ->
  value_form None (raw x).
Proof. intros fuel h v x st E Hh Hv. exact (proj1 (ser_wire fuel _ _ _ _ E Hh Hv)). Qed.
Print Assumptions C51_values.
(** Whole documents, down to the characters. *)
Theorem C51_documents : forall fuel h its s st, serialize_clixml fuel h its = Ok (s, st) -> ordinary_heap h ->
  Forall (fun i => ordinary_value (fst i)) its -> document_form (map snd its) s.
Proof. exact document_wire. Qed.
Print Assumptions C51_documents.
(** ... and it is the element of that value: type, text, names, properties, members and their order. *)
Theorem C51_shown : forall fuel h v x st, ser fuel (s_init h) v = Ok (x, st) -> ordinary_heap h -> ordinary_value v -> shows h v None (raw x).
Proof. intros fuel h v x st E Hh Hv. exact (ser_shows h Hh fuel _ _ _ _ (inv_init h) E Hv). Qed.
Print Assumptions C51_shown.
Theorem C51_documents_shown : forall fuel h its s st, serialize_clixml fuel h its = Ok (s, st) -> ordinary_heap h ->
  Forall (fun i => ordinary_value (fst i)) its -> document_shown h its s.
Proof. exact document_is_shown. Qed.
Print Assumptions C51_documents_shown.

(** ** Examples *)
Lemma tame_ordinary s : tame s = true -> pystr s.
Proof.
  intros H. unfold tame in H. rewrite forallb_forall in H. apply Forall_forall. intros c Hc. apply H, andb_true_iff in Hc. destruct Hc as [Hc _].
  apply N.ltb_lt in Hc. lia.
Qed.
Ltac plain := repeat match goal with
  | |- Forall _ [] => constructor
  | |- Forall _ (_ :: _) => constructor
  | |- pystr _ => apply tame_ordinary; reflexivity
  | |- ordinary_value _ => cbn [ordinary_value green str ordinary]
  | |- ordinary_prop _ => unfold ordinary_prop; cbn [fst snd]
  | |- _ /\ _ => split
  | |- True => exact I
  end.
Lemma ex_ordinary : ordinary_heap ex_heap.
Proof.
  assert (Forall (fun p => ordinary_object (snd p)) ex_heap) as H.
  { apply Forall_cons; [|apply Forall_cons; [|apply Forall_cons; [|apply Forall_cons; [|apply Forall_cons; [|apply Forall_cons; [|apply Forall_nil]]]]]]; cbn [snd];
      (split; [cbn [g_adapted]; plain|split; [cbn [g_extended]; plain|cbn [g_body]; plain]]); cbn [fst snd]; plain.
    all: apply Forall_forall; intros c Hc; cbn in Hc; repeat (destruct Hc as [<-|Hc]; [vm_compute; reflexivity|]); destruct Hc. }
  intros a o Ho. rewrite Forall_forall in H. destruct (in_dec N.eq_dec a (map fst ex_heap)) as [Hin|Hn]; [|apply aget_None in Hn; congruence].
  destruct Hin as [<-|[<-|[<-|[<-|[<-|[<-|[]]]]]]]; injection Ho as <-; refine (H (_, _) _); cbn [ex_heap In]; tauto.
Qed.
Example C51_example : ordinary_heap ex_heap /\ Forall (fun i => ordinary_value (fst i)) ex_items
  /\ exists s st, serialize_clixml 20 ex_heap ex_items = Ok (s, st) /\ length s = 1344.
Proof.
  split; [exact ex_ordinary|]. split; [unfold ex_items; repeat (constructor; [cbn [fst ordinary_value str ordinary]; plain|]); constructor|].
  eexists _, _. split; vm_compute; reflexivity.
Qed.
(** A small document in full. *)
Example C51_small_document : exists st, serialize_clixml 20 [(2%N, mkG BPlain [tx "A.B"] None [(tx "p", VRef 2)] []); (1%N, mkG (BList LList [VBool true; VNull; VRef 2]) [tx "A.B"] None [] [(tx "n", VPrim (PInt TByte 7))])]
    [(VRef 1, Some SError); (str "a<b", None)]
  = Ok (chars "<Objs Version=""1.1.0.1"" xmlns=""http://schemas.microsoft.com/powershell/2004/04""><Obj RefId=""0"" S=""error""><TN RefId=""0""><T>A.B</T></TN><MS><By N=""n"">7</By></MS><LST><B>true</B><Nil /><Obj RefId=""1""><TNRef RefId=""0"" /><Props><Ref RefId=""1"" N=""p"" /></Props></Obj></LST></Obj><S>a&lt;b</S></Objs>", st).
Proof. eexists. vm_compute. reflexivity. Qed.
