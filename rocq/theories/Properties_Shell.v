(** C43 (CLIXML shell output), C49 (reading it back, stream by stream), C50 (the local crypto provider). *)
From Coq Require Import String.
From Verif Require Import Base BaseFacts Model_Scalars Model_Strings Model_Text Model_Crypto Model_Object Model_Clixml Model_Xml Model_Shell.
From Verif Require Import Spec_Strings Spec_Scalars Spec_Clixml Spec_Xml Spec_Shell Proofs_Crypto Proofs_Clixml1 Proofs_Clixml7 Proofs_Xml3 Proofs_Shell Properties_Clixml Properties_Xml.
Local Open Scope list_scope.

(** ** C43 *)
(** All calls succeed and something is written before the first Send: the marker once and first, then one document for
    each Send with something to send, in order.  Missing: an empty Send first, refuted below. *)
Theorem C43_framing_partial : forall fuel h cs texts w, shell_run fuel (new_shell h) cs = (map Ok texts, w) ->
  (match batches [] cs with [] => True | b :: _ => b <> [] end) ->
  exists docs, Forall2 (document fuel) (filter nonempty (batches [] cs)) docs /\ concat texts = framed docs.
Proof.
  intros fuel h cs texts w E H. exact (run_frames fuel cs (new_shell h) texts w E (or_intror H)).
Qed.
Print Assumptions C43_framing_partial.
(** From any state: the documents in order, each after a line end once the marker is out. *)
Theorem C43_later : forall fuel cs w texts w2, sh_marked w = true -> shell_run fuel w cs = (map Ok texts, w2) ->
  exists docs, Forall2 (document fuel) (filter nonempty (batches (sh_items w) cs)) docs /\ concat texts = flat_map (fun d => 10%N :: d) docs.
Proof.
  intros fuel cs w texts w2 Hm E. destruct (run_frames fuel cs w texts w2 E (or_introl Hm)) as (docs & A & B). exists docs. rewrite Hm in B. auto.
Qed.
Print Assumptions C43_later.
Theorem C43_silent : forall fuel w, sh_items w = [] -> fst (data_to_send fuel w) = Ok [].
Proof. intros fuel w H. unfold data_to_send. now rewrite H. Qed.
Print Assumptions C43_silent.
(** A Send with nothing to send uses the marker up: it never goes out. *)
Theorem C43_refuted : exists cs texts w t, shell_run 1 (new_shell []) cs = (map Ok texts, w) /\ concat texts = 10%N :: 60%N :: t
  /\ ~ exists r, concat texts = tx "#< CLIXML" ++ r.
Proof.
  exists [Send; WriteOutput VNull; Send]. eexists [_; _; _], _, _. split; [vm_compute; reflexivity|]. split; [vm_compute; reflexivity|].
  intros (r & E). vm_compute in E. discriminate E.
Qed.
Print Assumptions C43_refuted.
(** A Send that fails uses it up too, and keeps the values for the next one. *)
Theorem C43_failed_refuted : exists w e, sh_marked w = false /\ data_to_send 1 w = (Err e, mkShell (sh_heap w) (sh_items w) true).
Proof. exists (mkShell [] [(VRef 1, SOutput)] false). eexists. split; [reflexivity|]. vm_compute. reflexivity. Qed.
Print Assumptions C43_failed_refuted.
Example C43_example : exists texts w, 
  shell_run 9 (new_shell ex_heap) [WriteOutput (VRef 1); WriteProgress 7 3 VNull; Send; Send; WriteDebug (str "x"); Send] = (map Ok texts, w)
  /\ map nonempty (batches [] [WriteOutput (VRef 1); WriteProgress 7 3 VNull; Send; Send; WriteDebug (str "x"); Send]) = [true; false; true]
  /\ nth_error texts 5 = Some ([10]%N ++ tx "<Objs Version=""1.1.0.1"" xmlns=""http://schemas.microsoft.com/powershell/2004/04""><S S=""debug"">x</S></Objs>").
Proof.
  eexists [_; _; _; _; _; _], _. split; [vm_compute; reflexivity|]. split; vm_compute; reflexivity.
Qed.

(** ** C49 *)
(** from_clixml sorts the values of all documents into their streams and keeps the order. *)
Theorem C49_streams : forall is_error reg texts out, from_clixml is_error reg texts = Ok out ->
  exists rs, Forall2 (fun t r => deserialize_clixml reg t = Ok r) (filter nonempty texts) rs
    /\ o_output out = flat_map (fun r => map (Kept (d_heap (snd r))) (select SOutput (fst r))) rs
    /\ o_error out = flat_map (fun r => map (fun v => if is_error (d_heap (snd r)) v then Kept (d_heap (snd r)) v else ErrorText (d_heap (snd r)) v) (select SError (fst r))) rs
    /\ o_debug out = flat_map (fun r => map (Message (d_heap (snd r))) (select SDebug (fst r))) rs
    /\ o_verbose out = flat_map (fun r => map (Message (d_heap (snd r))) (select SVerbose (fst r))) rs
    /\ o_warning out = flat_map (fun r => map (Message (d_heap (snd r))) (select SWarning (fst r))) rs
    /\ o_information out = flat_map (fun r => map (Kept (d_heap (snd r))) (select SInformation (fst r))) rs
    /\ length (o_progress out) = length (flat_map (fun r => select SProgress (fst r)) rs).
Proof.
  intros is_error reg texts out E. destruct (from_texts_spec is_error reg texts no_output out E) as (rs & A & B1 & B2 & B3 & B4 & B5 & B6 & ps & HP & B7).
  exists rs. split; [exact A|]. repeat (split; [assumption|]). rewrite B7. cbn [no_output o_progress app].
  assert (length (flat_map (fun r => map (pair (d_heap (snd r))) (select SProgress (fst r))) rs) = length ps) as <- by (clear - HP; induction HP; cbn [length]; congruence).
  clear. induction rs as [|r rs IH]; [reflexivity|]. cbn [flat_map]. rewrite !app_length, map_length, IH. reflexivity.
Qed.
Print Assumptions C49_streams.
(** One Send, read back: per stream the values written, in order; progress values give their records. *)
Theorem C49_readback_partial : forall is_error reg lx fuel w text w2,
  good_graph reg lx (sh_heap w) -> safe_graph (sh_heap w) -> Forall (fun i => good_value reg lx (fst i) /\ safe_value (fst i)) (sh_items w) ->
  Forall (fun v => exists r, progress_of (sh_heap w) v r) (select SProgress (sh_items w)) -> sh_items w <> [] -> data_to_send fuel w = (Ok text, w2) ->
  exists out h R, from_clixml is_error reg [text] = Ok out /\ same_graph reg (sh_heap w) h R
    /\ Forall2 (kept R h) (select SOutput (sh_items w)) (o_output out)
    /\ Forall2 (error_entry is_error R h) (select SError (sh_items w)) (o_error out)
    /\ Forall2 (message R h) (select SDebug (sh_items w)) (o_debug out)
    /\ Forall2 (message R h) (select SVerbose (sh_items w)) (o_verbose out)
    /\ Forall2 (message R h) (select SWarning (sh_items w)) (o_warning out)
    /\ Forall2 (progress_entry R (sh_heap w) h) (select SProgress (sh_items w)) (o_progress out)
    /\ Forall2 (kept R h) (select SInformation (sh_items w)) (o_information out).
Proof. exact shell_readback. Qed.
Print Assumptions C49_readback_partial.
(** What write_progress queues has a record. *)
Theorem C49_progress : forall fuel w a id v r w2, shell_step fuel w (WriteProgress a id v) = (Ok r, w2) ->
  sh_items w2 = sh_items w ++ [(VRef a, SProgress)] /\ progress_of (sh_heap w2) (VRef a) v.
Proof.
  intros fuel w a id v r w2 E. cbn [shell_step] in E. destruct (new_int TInt64 (AInt id)) as [z|e]; [|discriminate]. injection E as _ <-. split; [reflexivity|].
  exists a. eexists. split; [reflexivity|]. cbn [push sh_heap]. rewrite aget_aset, N.eqb_refl. split; [reflexivity|]. cbn [g_body g_adapted g_extended map fst].
  split; [reflexivity|]. split; [intros []|]. split; [|right; now left]. apply NoDup_cons; [intros [E|[]]; discriminate E|]. apply NoDup_cons; [intros []|constructor].
Qed.
Print Assumptions C49_progress.
(** ... and its source: the number itself as a 64-bit integer, under SourceId, before the record; a number that does not
    fit is refused and nothing is queued. *)
Theorem C49_progress_source : forall fuel w a id v,
  (- 2 ^ 63 <= id < 2 ^ 63 -> exists o, snd (shell_step fuel w (WriteProgress a id v)) = mkShell (aset a o (sh_heap w)) (sh_items w ++ [(VRef a, SProgress)]) (sh_marked w)
     /\ g_extended o = [(tx "SourceId", VPrim (PInt TInt64 id)); (tx "Record", v)] /\ g_adapted o = [])%Z
  /\ (~ (- 2 ^ 63 <= id < 2 ^ 63) -> shell_step fuel w (WriteProgress a id v) = (Err ValueError, w))%Z.
Proof.
  intros fuel w a id v. cbn [shell_step new_int]. change (min_value TInt64) with (- 2 ^ 63)%Z. change (max_value TInt64) with (2 ^ 63 - 1)%Z.
  split; intros H.
  - replace ((id <? - 2 ^ 63) || (id >? 2 ^ 63 - 1))%Z with false; [eexists; split; [reflexivity|split; reflexivity]|].
    symmetry. apply orb_false_iff. rewrite Z.gtb_ltb, !Z.ltb_ge. lia.
  - replace ((id <? - 2 ^ 63) || (id >? 2 ^ 63 - 1))%Z with true; [reflexivity|]. symmetry. apply orb_true_iff. rewrite Z.gtb_ltb, !Z.ltb_lt. lia.
Qed.
Print Assumptions C49_progress_source.
(** What two Sends send cannot be read back as one text: there are two documents in it. *)
Theorem C49_two_sends_refuted : forall is_error, exists texts w,
  shell_run 1 (new_shell []) [WriteOutput VNull; Send; WriteOutput VNull; Send] = (map Ok texts, w)
  /\ from_clixml is_error ex_reg [concat texts] = Err ParseError.
Proof. intros is_error. eexists [_; _; _; _], _. split; [vm_compute; reflexivity|]. vm_compute. reflexivity. Qed.
Print Assumptions C49_two_sends_refuted.
(** An error record without a text form: everything but an ErrorRecord becomes text. *)
Definition ex_shell : shell :=
  mkShell (aset 7%N (mkG BPlain [tx "System.Object"] None [] [(tx "SourceId", VPrim (PInt TInt64 3)); (tx "Record", str "half")]) ex_heap)
    [(VRef 1, SOutput); (str "no", SError); (VRef 7, SProgress); (VRef 6, SInformation); (str "one", SDebug); (VRef 4, SOutput); (str "two", SDebug)] true.
Example C49_example : exists text w2 out h, data_to_send 20 ex_shell = (Ok text, w2)
  /\ from_clixml (fun _ _ => false) ex_reg [text] = Ok out
  /\ o_debug out = [Message h (str "one"); Message h (str "two")] /\ o_progress out = [Kept h (str "half")]
  /\ o_error out = [ErrorText h (str "no")] /\ length (o_output out) = 2 /\ length (o_information out) = 1.
Proof.
  eexists _, _, _, _. split; [vm_compute; reflexivity|]. split; [vm_compute; reflexivity|].
  split; [vm_compute; reflexivity|]. split; [vm_compute; reflexivity|]. split; [vm_compute; reflexivity|]. split; vm_compute; reflexivity.
Qed.
Example C49_example_good : good_graph ex_reg ex_lex (sh_heap ex_shell) /\ safe_graph (sh_heap ex_shell)
  /\ Forall (fun i => good_value ex_reg ex_lex (fst i) /\ safe_value (fst i)) (sh_items ex_shell)
  /\ Forall (fun v => exists r, progress_of (sh_heap ex_shell) v r) (select SProgress (sh_items ex_shell)).
Proof.
  set (o7 := mkG BPlain [tx "System.Object"] None [] [(tx "SourceId", VPrim (PInt TInt64 3)); (tx "Record", str "half")]).
  destruct ex_good as [G1 G2 G3]. split; [|split; [|split]].
  - constructor; [| |exact G3].
    + intros a o Ha. unfold ex_shell in Ha. cbn [sh_heap] in Ha. rewrite aget_aset in Ha. destruct (_ =? _)%N; [|now apply (G1 a)]. injection Ha as <-.
      unfold good_object. cbn [g_body]. split; [exact I|]. split; [|split; [props|split; [props|intros []]]]. apply names_unreg; reflexivity.
    + intros a b o o' p q Ha Hb Hp Hq. unfold ex_shell in Ha, Hb. cbn [sh_heap] in Ha, Hb. rewrite aget_aset in Ha, Hb.
      destruct (_ =? _)%N; [injection Ha as <-; discriminate Hp|]. destruct (_ =? _)%N; [injection Hb as <-; discriminate Hq|]. eapply G2; eauto.
  - intros a o Ha. unfold ex_shell in Ha. cbn [sh_heap] in Ha. rewrite aget_aset in Ha. destruct (_ =? _)%N; [|now apply (ex_safe a)]. injection Ha as <-.
    split; [cbn [g_names]; safe|split; [cbn [g_string]; safe|split; [cbn [g_adapted g_extended app]; safe; cbn [fst]; safe|split; [|split]]]];
      [intros p Hp; discriminate Hp|intros c l n b v Hp; discriminate Hp|].
    intros v Hv; apply mentioned_all in Hv; revert v Hv; apply Forall_forall; cbn [mentioned map fst snd g_adapted g_extended g_body app]; safe.
  - unfold ex_shell. cbn [sh_items]. repeat (constructor; [cbn [fst]; split; [try exact I; apply tame_good; reflexivity|cbn [safe_value str]; safe]|]). constructor.
  - constructor; [|constructor]. exists (str "half"), 7%N. eexists. split; [reflexivity|]. split; [vm_compute; reflexivity|]. split; [reflexivity|]. split; [intros []|].
    split; [no_dup|right; left; reflexivity].
Qed.

(** ** C50 *)
(** Text encrypted by the local provider decrypts to itself, unless a high surrogate stands right before a low one. *)
Theorem C50_roundtrip_partial : forall s, pystr s -> no_split_pair s -> local_decrypt (local_encrypt s) = Ok s.
Proof. intros s Hs Hp. rewrite local_roundtrip by exact Hs. now rewrite join_utf16_pairs. Qed.
Print Assumptions C50_roundtrip_partial.
(** The cipher text is four upper-case hex digits for every UTF-16 code unit. *)
Theorem C50_shape : forall s, pystr s -> Forall (fun c => (48 <= c <= 57 \/ 65 <= c <= 70)%N) (local_encrypt s)
  /\ length (local_encrypt s) = 4 * length (flat_map utf16 s).
Proof.
  intros s Hs. unfold local_encrypt. pose proof (utf16le_encode_bytes s Hs) as Hb. split.
  - induction Hb as [|b l Hb _ IH]; [constructor|]. cbn [b16_encode flat_map].
    assert (forall d, d < 16 -> 48 <= hexdig d <= 57 \/ 65 <= hexdig d <= 70)%N as Hd by (intros d Hd; unfold hexdig; destruct (N.ltb_spec d 10); lia).
    assert (b / 16 < 16)%N by (apply N.div_lt_upper_bound; lia). pose proof (N.mod_upper_bound b 16 ltac:(discriminate)).
    cbn [app]. constructor; [now apply Hd|]. constructor; [now apply Hd|exact IH].
  - unfold utf16le_encode. induction (flat_map utf16 s) as [|u l IH]; [reflexivity|]. cbn [flat_map b16_encode app length] in *. unfold b16_encode in IH. lia.
Qed.
Print Assumptions C50_shape.
(** The one exception: a high and a low surrogate side by side in a str are joined. *)
Theorem C50_split_refuted : exists s, pystr s /\ exists t, local_decrypt (local_encrypt s) = Ok t /\ t <> s.
Proof.
  exists [0xD83D; 0xDE00]%N. split; [repeat (constructor; [lia|]); constructor|]. eexists. split; [vm_compute; reflexivity|]. discriminate.
Qed.
Print Assumptions C50_split_refuted.
Example C50_example : pystr [0x1F600; 65; 0xD800; 0]%N /\ no_split_pair [0x1F600; 65; 0xD800; 0]%N
  /\ local_encrypt [0x1F600; 65]%N = tx "3DD800DE4100" /\ local_decrypt (tx "3dd800de4100") = Ok [0x1F600; 65]%N.
Proof.
  split; [repeat (constructor; [lia|]); constructor|]. split.
  - intros pre h l post E. do 4 (destruct pre as [|? pre]; cbn [app] in E; [injection E; intros; subst; lia|injection E as ? E; subst]).
    destruct pre; discriminate E.
  - split; vm_compute; reflexivity.
Qed.
