(** C76: which texts are byte arrays, and which bytes. *)
From Coq Require Import String Ascii.
From Verif Require Import Base BaseFacts Model_Strings Model_Text Model_Clixml Spec_Numeral Spec_Bytes64 Proofs_Bytes64.
Local Open Scope list_scope.
Local Open Scope N_scope.
Local Definition chars (s : string) : list N := map N_of_ascii (list_ascii_of_string s).

(** The texts that are read, and the bytes they give; every other one is refused with ValueError. *)
Theorem C76_taken : forall s l, b64_decode s = Ok l <-> b64_text s l.
Proof. exact bytes_iff. Qed.
Print Assumptions C76_taken.
Theorem C76_refused : forall s, (forall l, ~ b64_text s l) -> b64_decode s = Err ValueError.
Proof. intros s H. destruct (b64_decode s) as [l|e] eqn:E; [now apply bytes_iff, H in E|]. apply bytes_err in E. now subst e. Qed.
Print Assumptions C76_refused.
Theorem C76_one : forall s l l', b64_text s l -> b64_text s l' -> l = l'.
Proof. intros s l l' A B. apply bytes_iff in A, B. congruence. Qed.
Print Assumptions C76_one.
(** In an element: [TgBA] is the BA element. *)
Theorem C76_element : forall s l, read_prim TgBA s = Some (Ok (PBytes l)) <-> b64_text s l.
Proof. intros s l. rewrite <- bytes_iff. cbn [read_prim]. destruct (b64_decode s) as [x|e]; cbn [bind]; split; congruence. Qed.
Print Assumptions C76_element.
(** What is read is bytes. *)
Theorem C76_bytes : forall s l, b64_decode s = Ok l -> Forall (fun b => b < 256) l.
Proof.
  intros s l H. apply bytes_iff in H.
  assert (forall c v, sextet c v -> v < 64) as V by (intros c v Q; now apply sextet_val in Q).
  induction H; repeat match goal with Q : sextet _ _ |- _ => apply V in Q end;
    repeat match goal with |- Forall _ (_ :: _) => apply Forall_cons; [lia|] end; first [assumption|apply Forall_nil].
Qed.
Print Assumptions C76_bytes.
(** Every xs:base64Binary is read as its bytes, wherever its white space is. *)
Theorem C76_schema : forall s l, xs_base64 s l -> b64_decode s = Ok l.
Proof. intros s l H. apply bytes_iff. now apply xs_text. Qed.
Print Assumptions C76_schema.
(** But more is read.  Everything behind the first padding is dropped without a word: here are two texts put together, and the second is
    lost.  Foreign characters are passed over, so a character that was damaged moves all those behind it.  Padding alone is no bytes. *)
Lemma unspaced_same s t : unspaced s t -> Forall (fun c => ~ xml_blank c) s -> t = s.
Proof. induction 1 as [|c s t B U IH|c s t B U IH]; intros F; [reflexivity|inversion F; contradiction|]. inversion F; subst. f_equal. auto. Qed.
Lemma no_blank s : forallb (fun c => 32 <? c) s = true -> Forall (fun c => ~ xml_blank c) s.
Proof. intros H. apply Forall_forall. intros c I. rewrite forallb_forall in H. apply H in I. unfold xml_blank. cbn [In]. lia. Qed.
Theorem C76_rest_refuted : exists s t l k, b64_decode s = Ok l /\ b64_decode t = Ok k /\ k <> [] /\ b64_decode (s ++ t) = Ok l
  /\ (forall x, ~ xs_base64 (s ++ t) x) /\ s = chars "TQ==" /\ t = chars "TWFu" /\ l = [77] /\ k = [77; 97; 110].
Proof.
  exists (chars "TQ=="), (chars "TWFu"), [77], [77; 97; 110]. split; [vm_compute; reflexivity|]. split; [vm_compute; reflexivity|].
  split; [discriminate|]. split; [vm_compute; reflexivity|]. split; [|auto].
  intros x (u & U & C). apply unspaced_same in U; [|apply no_blank; reflexivity]. subst u.
  change (chars "TQ==" ++ chars "TWFu") with [84; 81; 61; 61; 84; 87; 70; 117] in C. inversion C; subst. match goal with Q : sextet 61 _ |- _ => apply sextet_val in Q as (_ & Q & _); discriminate Q end.
Qed.
Print Assumptions C76_rest_refuted.
Theorem C76_junk_refuted : exists s t l k, b64_decode s = Ok l /\ b64_decode t = Ok k /\ l <> k
  /\ (forall x, ~ xs_base64 t x) /\ b64_decode (chars "====") = Ok []
  /\ s = chars "TWFuTWFu" /\ t = chars "T*FuTWFuA" /\ l = [77; 97; 110; 77; 97; 110] /\ k = [76; 91; 147; 88; 91; 128].
Proof.
  exists (chars "TWFuTWFu"), (chars "T*FuTWFuA"), [77; 97; 110; 77; 97; 110], [76; 91; 147; 88; 91; 128]. split; [vm_compute; reflexivity|].
  split; [vm_compute; reflexivity|]. split; [discriminate|]. split; [|split; [vm_compute; reflexivity|auto]].
  intros x (u & U & C). apply unspaced_same in U; [|apply no_blank; reflexivity]. subst u. apply coded_length in C as [k C].
  cbn [length chars list_ascii_of_string map] in C. lia.
Qed.
Print Assumptions C76_junk_refuted.
Example C76_example : b64_text (chars "T*W=Fu") [77; 97; 110] /\ xs_base64 [84; 81; 13; 10; 61; 32; 61] [77] /\ b64_decode [84; 81; 13; 10; 61; 32; 61] = Ok [77]
  /\ b64_decode (chars "TQ=") = Err ValueError /\ b64_decode (chars "TWFuT") = Err ValueError /\ b64_decode [84; 81; 61; 61; 0xE4] = Err ValueError.
Proof.
  split; [apply bytes_iff; vm_compute; reflexivity|]. split.
  { assert (forall c, 32 < c -> ~ xml_blank c) as D by (intros c H; unfold xml_blank; cbn [In]; lia).
    exists [84; 81; 61; 61]. split.
    - apply unspaced_dark; [apply D; lia|]. apply unspaced_dark; [apply D; lia|]. apply unspaced_blank; [cbn; tauto|]. apply unspaced_blank; [cbn; tauto|].
      apply unspaced_dark; [apply D; lia|]. apply unspaced_blank; [cbn; tauto|]. apply unspaced_dark; [apply D; lia|]. apply unspaced_end.
    - apply (coded_two 84 19 81 16); [left; split; reflexivity|left; split; reflexivity|reflexivity]. }
  split; [vm_compute; reflexivity|]. split; [vm_compute; reflexivity|]. split; vm_compute; reflexivity.
Qed.
