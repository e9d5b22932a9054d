(** C13, C14: string escaping. *)
From Verif Require Import Base BaseFacts Model_Strings Spec_Strings Proofs_Strings.

(** ** C13: false for strings with a run of characters U+xx00 that look like an escape one byte off *)
Theorem C13_string_roundtrip_refuted : exists s,
  pystr s /\ no_surrogates s /\ deserialize_string (serialize_string s) <> Ok s.
Proof.
  exists [0x0100; 0x5F00; 0x7800; 0x3000; 0x3000; 0x3000; 0x4100; 0x5F00]%N.
  split; [repeat (apply Forall_cons; [lia|]); constructor|].
  split; [repeat (apply Forall_cons; [lia|]); constructor|].
  vm_compute. discriminate.
Qed.
Print Assumptions C13_string_roundtrip_refuted.

(** Every other valid Unicode string survives.  Missing: strings that contain such a run. *)
Theorem C13_string_roundtrip_partial : forall s,
  pystr s -> no_surrogates s -> ~ misread_run s -> deserialize_string (serialize_string s) = Ok s.
Proof. exact string_roundtrip. Qed.
Print Assumptions C13_string_roundtrip_partial.

(** Strings with lone surrogates (outside U+D900..U+DBFF): the UTF-16 code units survive, i.e. the result is the
    string with adjacent surrogate halves joined. *)
Theorem C13_surrogates_roundtrip : forall s,
  pystr s -> Forall (fun c => ~ (0xD900 <= c <= 0xDBFF)%N) s -> ~ misread_run s ->
  deserialize_string (serialize_string s) = Ok (join_units (flat_map utf16 s)).
Proof. exact string_roundtrip_units. Qed.
Print Assumptions C13_surrogates_roundtrip.

(** "_x005F_", "_X000A_", a newline, U+1F600 and U+0085 *)
Definition sample_string : list N :=
  [95; 120; 48; 48; 53; 70; 95; 95; 88; 48; 48; 48; 65; 95; 10; 0x1F600; 0x85]%N.
Example C13_example : pystr sample_string /\ no_surrogates sample_string /\ ~ misread_run sample_string
  /\ serialize_string sample_string <> sample_string
  /\ deserialize_string (serialize_string sample_string) = Ok sample_string.
Proof.
  split; [repeat (apply Forall_cons; [vm_compute; reflexivity|]); constructor|].
  split; [repeat (apply Forall_cons; [lia|]); constructor|].
  split.
  - intros (pre & c0 & a & b & c & d & c7 & post & E & _).
    assert (In 0x5F00%N sample_string) as Hin.
    { rewrite E. apply in_or_app. right. simpl. auto. }
    revert Hin. unfold sample_string. simpl. lia.
  - split; [vm_compute; discriminate|vm_compute; reflexivity].
Qed.
(** A lone low surrogate followed by text, and a high/low pair given as two code points. *)
Example C13_surrogates_example :
  deserialize_string (serialize_string [0xDC00; 65]%N) = Ok [0xDC00; 65]%N
  /\ deserialize_string (serialize_string [0xD83D; 0xDE00]%N) = Ok [0x1F600]%N.
Proof. vm_compute. auto. Qed.

(** ** C14: false for lone surrogates U+D900..U+DBFF *)
Theorem C14_escaped_safe_refuted : exists s, pystr s /\ exists c, In c (serialize_string s) /\ forbidden c.
Proof.
  exists [0xD900]%N. split; [repeat (apply Forall_cons; [lia|]); constructor|].
  exists 0xD900%N. split; [vm_compute; auto|]. unfold forbidden. lia.
Qed.
Print Assumptions C14_escaped_safe_refuted.

(** For every string without a code point in U+D900..U+DBFF, in particular every valid Unicode string. *)
Theorem C14_escaped_safe_partial : forall s,
  pystr s -> Forall (fun c => ~ (0xD900 <= c <= 0xDBFF)%N) s ->
  Forall (fun c => ~ forbidden c) (serialize_string s).
Proof. intros s H1 H2. rewrite serialize_escs. now apply escs_safe. Qed.
Print Assumptions C14_escaped_safe_partial.

Theorem C14_escaped_safe_unicode : forall s,
  pystr s -> no_surrogates s -> Forall (fun c => ~ forbidden c) (serialize_string s).
Proof.
  intros s H1 H2. apply C14_escaped_safe_partial; [exact H1|].
  eapply Forall_impl; [|exact H2]. intros c Hc. simpl in Hc. lia.
Qed.
Print Assumptions C14_escaped_safe_unicode.

(** Nothing beyond that is escaped: the noncharacters U+FFFE and U+FFFF, which XML 1.0 does not allow, pass. *)
Theorem C14_noncharacters_pass : serialize_string [0xFFFE; 0xFFFF]%N = [0xFFFE; 0xFFFF]%N.
Proof. vm_compute. reflexivity. Qed.
Print Assumptions C14_noncharacters_pass.

Example C14_example : In 0x1F600%N sample_string /\ forbidden 0x1F600
  /\ forallb (fun c => (32 <=? c) && (c <? 127))%N (serialize_string sample_string) = true.
Proof. split; [simpl; tauto|]. split; [unfold forbidden; lia|]. vm_compute. reflexivity. Qed.
