(** C75: which texts are GUIDs, versions and booleans. *)
From Coq Require Import String Ascii.
From Verif Require Import Base BaseFacts Model_Strings Model_Scalars Model_Text Model_Clixml Spec_Numeral Spec_Duration Spec_TextForms
  Proofs_Scalars Proofs_Duration Proofs_Numeral Proofs_Duration2 Proofs_DateText Proofs_TextForms.
Local Open Scope list_scope.
Local Open Scope N_scope.
Local Definition chars (s : string) : list N := map N_of_ascii (list_ascii_of_string s).

(** ** Versions *)
(** The texts that are read, and what they say; every other one is refused with ValueError.  No text says two things. *)
Theorem C75_version_taken : forall s v, read_version s = Ok v <-> version_text s v.
Proof. exact version_iff. Qed.
Print Assumptions C75_version_taken.
Theorem C75_version_refused : forall s, (forall v, ~ version_text s v) -> read_version s = Err ValueError.
Proof. intros s H. destruct (read_version s) as [v|e] eqn:E; [now apply version_iff, H in E|]. apply version_err in E. now subst e. Qed.
Print Assumptions C75_version_refused.
Theorem C75_version_one : forall s v v', version_text s v -> version_text s v' -> v = v'.
Proof. intros s v v' A B. apply version_iff in A, B. congruence. Qed.
Print Assumptions C75_version_one.
(** Everything that System.Version writes is read as what it was. *)
Theorem C75_version_net : forall s v, net_version s v -> read_version s = Ok v.
Proof.
  intros s v H. apply version_iff. exists s, []. split; [now rewrite app_nil_r|]. split; [now left|]. exact (dotted_impl _ _ _ _ net_part_text H).
Qed.
Print Assumptions C75_version_net.
(** But more is taken: numbers that System.Version cannot hold, digits of other scripts, a line feed at the end. *)
Lemma net_chars s v : net_version s v -> Forall (fun c => c = 46 \/ 48 <= c <= 57) s.
Proof.
  assert (forall p n, net_part p n -> Forall (fun c => c = 46 \/ 48 <= c <= 57) p) as K.
  { intros p n (P & _). apply plain_digits in P as (D & _). apply Forall_forall. intros c I. rewrite forallb_forall in D. apply D in I. unfold is_digit in I. lia. }
  assert (forall p r n, net_part p n -> Forall (fun c => c = 46 \/ 48 <= c <= 57) r -> Forall (fun c => c = 46 \/ 48 <= c <= 57) (p ++ [46] ++ r)) as J.
  { intros p r n P R. apply Forall_app. split; [now apply (K p n)|]. apply Forall_cons; [now left|exact R]. }
  intros (a & b & x & y & A & B & [[-> _]|(c & z & C & [[-> _]|(d & w & D & -> & _)])]).
  - apply (J a b x); [exact A|]. now apply (K b y).
  - apply (J a _ x); [exact A|]. apply (J b c y); [exact B|]. now apply (K c z).
  - apply (J a _ x); [exact A|]. apply (J b _ y); [exact B|]. apply (J c d z); [exact C|]. now apply (K d w).
Qed.
Theorem C75_version_refuted :
  (read_version (chars "2147483648.0") = Ok (mkV 2147483648 0 None None) /\ forall v, ~ net_version (chars "2147483648.0") v)
  /\ (read_version [49; 46; 49; 0x663] = Ok (mkV 1 13 None None) /\ forall v, ~ net_version [49; 46; 49; 0x663] v)
  /\ (read_version (chars "1.0" ++ [10]) = Ok (mkV 1 0 None None) /\ forall v, ~ net_version (chars "1.0" ++ [10]) v).
Proof.
  split; [|split].
  - assert (read_version (chars "2147483648.0") = Ok (mkV 2147483648 0 None None)) as R by (vm_compute; reflexivity). split; [exact R|]. intros v H.
    pose proof (C75_version_net _ _ H) as Q. rewrite R in Q. injection Q as Q. destruct H as (a & b & x & y & (_ & L & _) & _ & H).
    assert (v_major v = x) as E by (destruct H as [[_ ->]|(c & z & _ & [[_ ->]|(d & w & _ & _ & ->)])]; reflexivity).
    rewrite <- Q in E. cbn [v_major] in E. subst x. vm_compute in L. discriminate L.
  - split; [vm_compute; reflexivity|]. intros v H. apply net_chars in H. do 3 apply Forall_inv_tail in H. apply Forall_inv in H. lia.
  - split; [vm_compute; reflexivity|]. intros v H. apply net_chars in H. apply Forall_app in H as [_ H]. apply Forall_inv in H. lia.
Qed.
Print Assumptions C75_version_refuted.

(** ** GUIDs *)
Theorem C75_guid_taken : forall s n, read_guid s = Ok n <-> guid_text s n.
Proof. exact guid_iff. Qed.
Print Assumptions C75_guid_taken.
Theorem C75_guid_refused : forall s, (forall n, ~ guid_text s n) -> read_guid s = Err ValueError.
Proof. intros s H. destruct (read_guid s) as [n|e] eqn:E; [now apply guid_iff, H in E|]. apply guid_err in E. now subst e. Qed.
Print Assumptions C75_guid_refused.
Theorem C75_guid_one : forall s n n', guid_text s n -> guid_text s n' -> n = n'.
Proof. intros s n n' A B. apply guid_iff in A, B. congruence. Qed.
Print Assumptions C75_guid_one.
(** What System.Guid writes is read as what it was, in either case of the letters. *)
Theorem C75_guid_net : forall s n, net_guid s n -> read_guid s = Ok n.
Proof. exact net_guid_read. Qed.
Print Assumptions C75_guid_net.
(** But much else is taken: braces that do not match, hyphens anywhere, words in the middle; and what has 32 characters need not have 32
    digits: signs, blanks, "0x" and underscores count as characters too.  Such texts are GUIDs of smaller numbers. *)
Lemma net_guid_length s n : net_guid s n -> (length s = 36)%nat.
Proof. intros (a & b & c & d & e & -> & H). rewrite !app_length. cbn [length]. lia. Qed.
Theorem C75_guid_refuted :
  (read_guid (chars "{{}1urn:234-5678-9abc-def0-uuid:1234-5678-9abc-def0-}") = Ok 0x123456789abcdef0123456789abcdef0
   /\ forall n, ~ net_guid (chars "{{}1urn:234-5678-9abc-def0-uuid:1234-5678-9abc-def0-}") n)
  /\ (read_guid (chars " +0x_0000_0000_0000_0000_0000_7f") = Ok 0x7f /\ forall n, ~ net_guid (chars " +0x_0000_0000_0000_0000_0000_7f") n)
  /\ (read_guid (chars "                               " ++ [0x664]) = Ok 4
      /\ forall n, ~ net_guid (chars "                               " ++ [0x664]) n).
Proof.
  split; [|split].
  all: split; [vm_compute; reflexivity|]; intros n H; apply net_guid_length in H; vm_compute in H; discriminate H.
Qed.
Print Assumptions C75_guid_refuted.
(** Both kinds in an element: [TgG] is the G element and [TgVersion] the Version element. *)
Theorem C75_elements : forall s, (forall n, read_prim TgG s = Some (Ok (PGuid n)) <-> guid_text s n)
  /\ (forall v, read_prim TgVersion s = Some (Ok (PVer v)) <-> version_text s v).
Proof.
  intros s. split.
  - intros n. rewrite <- guid_iff. cbn [read_prim]. destruct s as [|c s]; [split; [discriminate|vm_compute; discriminate]|].
    destruct (read_guid (c :: s)) as [x|e]; cbn [bind]; split; congruence.
  - intros v. rewrite <- version_iff. cbn [read_prim]. destruct s as [|c s]; [split; [discriminate|vm_compute; discriminate]|].
    destruct (read_version (c :: s)) as [x|e]; cbn [bind]; split; congruence.
Qed.
Print Assumptions C75_elements.

(** ** Booleans *)
(** A text is true when it is the word, whatever the case; all others are false.  Nothing is refused. *)
Theorem C75_bool_taken : forall s, (read_bool s = true <-> true_text s) /\ (read_bool s = false <-> ~ true_text s).
Proof.
  intros s. split; [apply bool_iff|]. rewrite <- bool_iff. destruct (read_bool s); split; [discriminate|intros H; now destruct H|discriminate|reflexivity].
Qed.
Print Assumptions C75_bool_taken.
(** So of the four words of xs:boolean "1" is read as false, and so is "true" with white space around it. *)
Theorem C75_bool_refuted : exists s s', xs_boolean s true /\ read_bool s = false /\ xs_boolean s' true /\ read_bool s' = false
  /\ s = chars "1" /\ s' = chars " true".
Proof.
  exists (chars "1"), (chars " true"). split.
  { exists [], (chars "1"), []. split; [reflexivity|]. split; [apply Forall_nil|]. split; [apply Forall_nil|]. left. split; [reflexivity|]. now right. }
  split; [vm_compute; reflexivity|]. split.
  { exists [32], (chars "true"), []. split; [reflexivity|]. split; [apply Forall_cons; [cbn; tauto|apply Forall_nil]|]. split; [apply Forall_nil|]. left. split; [reflexivity|]. now left. }
  split; [vm_compute; reflexivity|]. split; reflexivity.
Qed.
Print Assumptions C75_bool_refuted.
(** False is read right in all its forms. *)
Theorem C75_bool_false : forall s, xs_boolean s false -> read_bool s = false.
Proof.
  intros s (a & w & b & -> & A & B & [[Q _]|[_ W]]); [discriminate Q|]. destruct (read_bool (a ++ w ++ b)) eqn:E; [|reflexivity]. exfalso.
  apply bool_iff in E as (t & r & u & e & E & T & R & U & F). cbn [In] in *.
  assert (forall c, In c (a ++ w ++ b) -> In c [0x74; 0x54; 0x72; 0x52; 0x75; 0x55; 0x65; 0x45]) as K.
  { rewrite E. cbn [In]. intros c [<-|[<-|[<-|[<-|[]]]]]; tauto. }
  destruct W as [-> | ->].
  - assert (In 0x66 (a ++ [0x66; 0x61; 0x6C; 0x73; 0x65] ++ b)) as I by (apply in_or_app; right; now left). apply K in I. cbn [In] in I. lia.
  - assert (In 0x30 (a ++ [0x30] ++ b)) as I by (apply in_or_app; right; now left). apply K in I. cbn [In] in I. lia.
Qed.
Print Assumptions C75_bool_false.

Example C75_example : version_text (chars "10.0.19041.3") (mkV 10 0 (Some 19041) (Some 3)) /\ net_version (chars "5.1") (mkV 5 1 None None)
  /\ read_version (chars "01.2") = Err ValueError /\ read_version (chars "1") = Err ValueError /\ read_version (chars "1.2.") = Err ValueError
  /\ guid_text (chars "792E5B37-4505-47ef-b7d2-8711bb7affa8") 0x792e5b37450547efb7d28711bb7affa8
  /\ net_guid (chars "792E5B37-4505-47ef-b7d2-8711bb7affa8") 0x792e5b37450547efb7d28711bb7affa8
  /\ read_guid (chars "(792e5b37-4505-47ef-b7d2-8711bb7affa8)") = Err ValueError /\ read_guid (chars "792e5b37") = Err ValueError
  /\ true_text (chars "TruE") /\ read_bool (chars "yes") = false.
Proof.
  split; [apply version_iff; vm_compute; reflexivity|]. split.
  { exists [53], [49], 5, 1. split; [|split; [|left; split; reflexivity]].
    - split; [apply (plain_one 53 5); reflexivity|]. split; [reflexivity|]. right. intros t Q. discriminate Q.
    - split; [apply (plain_one 49 1); reflexivity|]. split; [reflexivity|]. right. intros t Q. discriminate Q. }
  split; [vm_compute; reflexivity|]. split; [vm_compute; reflexivity|]. split; [vm_compute; reflexivity|].
  assert (net_guid (chars "792E5B37-4505-47ef-b7d2-8711bb7affa8") 0x792e5b37450547efb7d28711bb7affa8) as G.
  { exists (chars "792E5B37"), (chars "4505"), (chars "47ef"), (chars "b7d2"), (chars "8711bb7affa8"). split; [reflexivity|].
    split; [reflexivity|]. split; [reflexivity|]. split; [reflexivity|]. split; [reflexivity|]. split; [reflexivity|].
    assert (forall s n m c d, plain_hex s n -> d < 10 /\ c = 0x30 + d \/ 10 <= d < 16 /\ (c = 0x41 + (d - 10) \/ c = 0x61 + (d - 10)) ->
       m = 16 * n + d -> plain_hex (s ++ [c]) m) as K by (intros s n m c d P H ->; now apply plain_hex_next).
    assert (forall l s n m, plain_hex s n -> fold_left (fun o c => match o, hex_val c with Some a, Some d => Some (16 * a + d) | _, _ => None end) l (Some n) = Some m ->
       plain_hex (s ++ l) m) as F.
    { induction l as [|c l IH]; intros s n m P E; [cbn in E; injection E as <-; now rewrite app_nil_r|]. cbn [fold_left] in E.
      destruct (hex_val c) as [d|] eqn:V.
      - replace (s ++ c :: l) with ((s ++ [c]) ++ l) by (rewrite <- app_assoc; reflexivity). apply (IH _ (16 * n + d)); [|exact E].
        apply (K s n _ c d P); [|reflexivity]. apply hex_val_iff in V. lia.
      - exfalso. clear -E. induction l as [|x l IH]; [discriminate E|]. cbn [fold_left] in E. destruct (hex_val x); exact (IH E). }
    apply (F _ [] 0); [apply plain_hex_none|vm_compute; reflexivity]. }
  split; [apply guid_iff, net_guid_read, G|]. split; [exact G|].
  split; [vm_compute; reflexivity|]. split; [vm_compute; reflexivity|]. split; [|vm_compute; reflexivity].
  apply bool_iff. vm_compute. reflexivity.
Qed.
