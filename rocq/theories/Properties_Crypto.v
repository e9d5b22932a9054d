(** C25, C26, C47 (secure strings, key exchange, padding) and C45 (flag text). *)
From Verif Require Import Base BaseFacts Model_Strings Spec_Strings Model_Text Model_Crypto Spec_Crypto Proofs_Text Proofs_Crypto Proofs_Crypto2.
From Verif Require Import Model_Scalars Model_Enum Proofs_Enum.

(** A small block cipher to instantiate the hypotheses in examples: exclusive or with the first 16 key bytes. *)
Definition toy (key b : list N) : list N := xor_block b (firstn 16 key).
Definition toy_key : list N := map N.of_nat (seq 7 32).
Lemma toy_good : good_cipher toy toy toy_key.
Proof.
  assert (block (firstn 16 toy_key)) as Hk.
  { split; [reflexivity|]. vm_compute. repeat (apply Forall_cons; [reflexivity|]); constructor. }
  split; intros b Hb; unfold toy.
  - now apply xor_block_ok.
  - apply xor_block_inv. destruct Hb as [Hb _], Hk as [Hk _]. congruence.
Qed.

(** ** C25: false for a string that holds the two halves of a surrogate pair as separate characters *)
Theorem C25_secure_string_refuted : exists s t, pystr s
  /\ encrypt toy (Some toy_key) s = Ok t /\ decrypt toy (Some toy_key) t <> Ok s.
Proof.
  exists [0xD83D; 0xDE00]%N. eexists. split; [repeat (apply Forall_cons; [lia|]); constructor|].
  split; [vm_compute; reflexivity|]. vm_compute. discriminate.
Qed.
Print Assumptions C25_secure_string_refuted.

(** Every other string round-trips, for any block cipher that can be inverted: directly, and as a value that is
    serialized by one peer and decrypted by the other. *)
Theorem C25_secure_string_partial : forall E D key s,
  good_cipher E D key -> pystr s -> no_split_pair s ->
  exists t c, encrypt E (Some key) s = Ok t /\ decrypt D (Some key) t = Ok s
  /\ t = b64_encode c /\ length c mod 16 = 0 /\ 0 < length c
  /\ serialize_secure E (Some key) (SecurePlain s) = Ok t
  /\ secure_decrypt D (Some key) (deserialize_secure t) = Ok s.
Proof.
  intros E D key s HG Hs Hp. destruct (secure_roundtrip E D key s HG Hs) as (t & H1 & H2 & c & H3 & H4 & H5).
  exists t, c. rewrite join_utf16_pairs in H2 by assumption. repeat split; assumption.
Qed.
Print Assumptions C25_secure_string_partial.
(** The exact result for every string. *)
Theorem C25_secure_string_any : forall E D key s, good_cipher E D key -> pystr s ->
  exists t, encrypt E (Some key) s = Ok t /\ decrypt D (Some key) t = Ok (join_units (flat_map utf16 s)).
Proof. intros E D key s HG Hs. destruct (secure_roundtrip E D key s HG Hs) as (t & H1 & H2 & _). eauto. Qed.
Print Assumptions C25_secure_string_any.
(** Without a key nothing is produced; a key of the wrong length is refused and leaves the state as it was. *)
Theorem C25_no_key : forall E D s, encrypt E None s = Err MissingCipher /\ decrypt D None s = Err MissingCipher
  /\ serialize_secure E None (SecurePlain s) = Err MissingCipher
  /\ secure_decrypt D None (deserialize_secure s) = Err MissingCipher.
Proof. intros. repeat split. Qed.
Print Assumptions C25_no_key.
(** A value that arrived encrypted is passed on as it came, with any key or none, and still opens with the key it was
    made with. *)
Theorem C25_forwarded : forall E D key s other, good_cipher E D key -> pystr s -> no_split_pair s ->
  exists t, serialize_secure E (Some key) (SecurePlain s) = Ok t
  /\ serialize_secure E other (deserialize_secure t) = Ok t
  /\ (let! u := serialize_secure E other (deserialize_secure t) in secure_decrypt D (Some key) (deserialize_secure u)) = Ok s.
Proof.
  intros E D key s other HG Hs Hp. destruct (C25_secure_string_partial E D key s HG Hs Hp) as (t & c & _ & _ & _ & _ & _ & H6 & H7).
  exists t. split; [exact H6|]. split; [reflexivity|]. cbn [serialize_secure deserialize_secure bind]. exact H7.
Qed.
Print Assumptions C25_forwarded.
Example C25_forwarded_example :
  (let! t := serialize_secure toy (Some toy_key) (SecurePlain [65; 66]%N) in
   let! u := serialize_secure toy None (deserialize_secure t) in secure_decrypt toy (Some toy_key) (deserialize_secure u)) = Ok [65; 66]%N.
Proof. vm_compute. reflexivity. Qed.
(** What the peer is given: the UTF-16 characters with their padding, in blocks of 16 bytes, each encrypted together with
    the cipher block before it. *)
Theorem C25_form : forall E key s, (forall b, block b -> block (E key b)) -> pystr s ->
  exists t ps cs, encrypt E (Some key) s = Ok t /\ t = b64_encode (concat cs) /\ bytes_ok (concat cs)
  /\ Forall (fun p => length p = 16) ps /\ Forall (fun c => length c = 16) cs
  /\ padded (flat_map char_bytes s) (concat ps) /\ chained (E key) ps cs.
Proof. exact encrypt_form. Qed.
Print Assumptions C25_form.
Example C25_form_example : (forall b, block b -> block (toy toy_key b))
  /\ encrypt toy (Some toy_key) [65; 0x1F600]%N
     = Ok (b64_encode (toy toy_key ([65; 0; 0x3D; 0xD8; 0x00; 0xDE] ++ repeat 10 10)%N)).
Proof. split; [exact (proj1 toy_good)|vm_compute; reflexivity]. Qed.
(** Cipher text that is no whole number of blocks, or none at all, is refused. *)
Theorem C25_malformed : forall D key c, bytes_ok c -> (length c mod 16 <> 0 \/ c = []) ->
  decrypt D (Some key) (b64_encode c) = Err ValueError
  /\ secure_decrypt D (Some key) (deserialize_secure (b64_encode c)) = Err ValueError.
Proof.
  intros D key c Hc H. assert (decrypt D (Some key) (b64_encode c) = Err ValueError) as Hd; [|split; exact Hd].
  unfold decrypt. rewrite b64_roundtrip by exact Hc. cbn [bind]. unfold aes_decrypt.
  destruct H as [H| ->]; [|reflexivity]. replace (Nat.eqb (length c mod 16) 0) with false by (symmetry; apply Nat.eqb_neq; exact H).
  reflexivity.
Qed.
Print Assumptions C25_malformed.
Example C25_malformed_example : decrypt toy (Some toy_key) (b64_encode (repeat 7 17)%N) = Err ValueError.
Proof. vm_compute. reflexivity. Qed.
(** A value made here is read back as it is, with any key or none. *)
Theorem C25_own : forall D c s, secure_decrypt D c (SecurePlain s) = Ok s.
Proof. reflexivity. Qed.
Print Assumptions C25_own.
Theorem C25_register_key : forall c key,
  (In (length key) [16; 24; 32] -> register_key c key = (Some key, Ok tt))
  /\ (~ In (length key) [16; 24; 32] -> register_key c key = (c, Err ValueError)).
Proof.
  intros c key. unfold register_key. cbn [In].
  destruct (Nat.eqb_spec (length key) 16), (Nat.eqb_spec (length key) 24), (Nat.eqb_spec (length key) 32);
    cbn [orb]; split; intros H; try reflexivity; exfalso; lia.
Qed.
Print Assumptions C25_register_key.
Example C25_example : good_cipher toy toy toy_key /\ pystr [0x1F600; 65; 0xD800; 0]%N /\ no_split_pair [0x1F600; 65; 0xD800; 0]%N
  /\ (let! t := encrypt toy (Some toy_key) [0x1F600; 65; 0xD800; 0]%N in decrypt toy (Some toy_key) t) = Ok [0x1F600; 65; 0xD800; 0]%N.
Proof.
  split; [apply toy_good|]. split; [repeat (apply Forall_cons; [lia|]); constructor|]. split; [|vm_compute; reflexivity].
  intros pre h l post E. do 4 (destruct pre as [|? pre]; cbn [app] in E; [injection E; intros; subst; lia|injection E as ? E; subst]).
  destruct pre; discriminate E.
Qed.

(** ** C26 *)
(** The server recovers the modulus and exponent from the public key blob, also when zero bytes follow. *)
Theorem C26_public_key : forall e n k, (e < 2 ^ 32)%N -> exists b, public_key_bytes e n = Ok b /\ bytes_ok b
  /\ read_public_key (b ++ repeat 0%N k) = Ok (e, n).
Proof. exact public_key_roundtrip. Qed.
Print Assumptions C26_public_key.
(** For any RSA implementation in which decrypting with the private key inverts this encryption, the client ends with
    the server's session key registered (AES key lengths only). *)
Theorem C26_key_exchange : forall (R P : Type) rsa_encrypt rsa_decrypt e n (p : P) (r : R) key c,
  (e < 2 ^ 32)%N -> rsa_encrypt (e, n) r key = Ok c -> bytes_ok c -> rsa_decrypt p c = Ok key ->
  In (length key) [16; 24; 32] ->
  exists t1 t2, client_key_text e n = Ok t1 /\ server_key_text R rsa_encrypt r t1 key = Ok t2
    /\ forall c0, client_session_key P rsa_decrypt p t2 c0 = (Some key, Ok tt).
Proof.
  intros R P f g e n p r key c H1 H2 H3 H4 H5. destruct (key_exchange R P f g e n p r key c H1 H2 H3 H4) as (t1 & t2 & A & B & C).
  exists t1, t2. split; [exact A|]. split; [exact B|]. intros c0. rewrite C. now apply C25_register_key.
Qed.
Print Assumptions C26_key_exchange.
(** A toy "RSA" that reverses and prefixes, with modulus 2^2048 - 2^1024 (trailing zero bytes). *)
Example C26_example :
  let enc := fun (_ : N * N) (_ : unit) m => Ok (9%N :: rev m) in
  let dec := fun (_ : unit) c => Ok (rev (tl c)) in
  exists t1 t2, client_key_text 65537 (2 ^ 2048 - 2 ^ 1024) = Ok t1 /\ server_key_text unit enc tt t1 toy_key = Ok t2
    /\ client_session_key unit dec tt t2 None = (Some toy_key, Ok tt).
Proof. eexists _, _. vm_compute. repeat split. Qed.

(** The bytes of both messages: the blobs of [MS-PSRP] 2.2.2.3 and 2.2.2.4.  The modulus is written without superfluous
    zeros, in 256 bytes for a key of 2048 bits; an exponent of more than 32 bits is refused. *)
Theorem C26_layout : forall e n, (e < 2 ^ 32)%N ->
  exists m, public_key_bytes e n = Ok (public_blob e m) /\ bytes_ok m /\ number m = n /\ (n <> 0%N -> last m 0%N <> 0%N)
  /\ ((2 ^ 2047 <= n < 2 ^ 2048)%N -> length m = 256).
Proof.
  intros e n He. exists (modulus_bytes n). split; [now apply public_layout|].
  destruct (modulus_form n) as (H1 & H2 & _ & H4). split; [exact H1|]. split; [exact H2|]. split; [exact H4|]. apply modulus_length.
Qed.
Print Assumptions C26_layout.
Theorem C26_exponent : forall e n, (2 ^ 32 <= e)%N -> public_key_bytes e n = Err StructError.
Proof.
  intros e n He. unfold public_key_bytes, pack_le. change (256 ^ N.of_nat 4)%N with (2 ^ 32)%N.
  replace (e <? 2 ^ 32)%N with false by (symmetry; apply N.ltb_ge; exact He). reflexivity.
Qed.
Print Assumptions C26_exponent.
Theorem C26_key_layout : forall (R : Type) rsa_encrypt (r : R) exchange key c e n,
  read_public_key exchange = Ok (e, n) -> rsa_encrypt (e, n) r key = Ok c ->
  encrypt_session_key R rsa_encrypt r exchange key = Ok (key_blob c).
Proof.
  intros R f r x key c e n H1 H2. unfold encrypt_session_key. rewrite H1. cbn [bind]. rewrite H2. reflexivity.
Qed.
Print Assumptions C26_key_layout.
Example C26_layout_example : public_key_bytes 65537 300 = Ok (public_blob 65537 [44; 1]%N)
  /\ public_blob 65537 [44; 1]%N
     = [6; 2; 0; 0; 0; 164; 0; 0; 82; 83; 65; 49; 0; 8; 0; 0; 1; 0; 1; 0; 44; 1]%N
  /\ key_blob [7; 8; 9]%N = [1; 2; 0; 0; 16; 102; 0; 0; 0; 164; 0; 0; 9; 8; 7]%N.
Proof. vm_compute. auto. Qed.

(** ** C47 *)
Theorem C47_padding : forall l,
  unpad (pad l) = Ok l /\ length l < length (pad l) <= length l + 16 /\ length (pad l) mod 16 = 0.
Proof.
  intros l. destruct (pad_shape l) as (k & Hk & E & Hm & HL). split; [apply unpad_pad|]. rewrite HL. split; [lia|exact Hm].
Qed.
Print Assumptions C47_padding.
Theorem C47_unpadding : forall l r, unpad l = Ok r -> l = pad r.
Proof. exact unpad_inv. Qed.
Print Assumptions C47_unpadding.
Example C47_example : unpad (repeat 0 15 ++ [2])%N = Err ValueError /\ pad [5]%N = (5 :: repeat 15 15)%N
  /\ length (pad (repeat 1%N 16)) = 32.
Proof. vm_compute. auto. Qed.

(** ** C45: false for a class with an alias, such as PSCredentialUIOptions (_complex.py:156-173) *)
Definition ui_options : members :=   (* none, V(alidate)=1, A(lways)=2, R(eadOnly)=3, Default=1; names abbreviated *)
  [(name_none, 0); ([86], 1); ([65], 2); ([82], 3); ([68], 1)]%N.
Theorem C45_alias_refuted : flag_names true ui_options 1 = [[86]; [86]]%N.
Proof. vm_compute. reflexivity. Qed.
Print Assumptions C45_alias_refuted.
(** Two members of value 0: the text of 0 is empty although the zero members are the only ones contained. *)
Theorem C45_zero_alias_refuted : flag_names true [(name_none, 0); ([68], 0)]%N 0 = [].
Proof. vm_compute. reflexivity. Qed.
Print Assumptions C45_zero_alias_refuted.
(** For every class without aliases: exactly the contained members, in definition order, zero only when alone. *)
Theorem C45_flag_text_partial : forall ps ms v, NoDup (map snd ms) ->
  exists L, flag_text ps ms v = join [44; 32]%N (map (fun m => shown ps (fst m)) L)
  /\ subseq L ms /\ forall m, In m L <-> listed ms v m.
Proof.
  intros ps ms v H. destruct (flag_names_spec ps ms v H) as (L & H1 & H2 & H3). exists L. unfold flag_text. rewrite H1. auto.
Qed.
Print Assumptions C45_flag_text_partial.
(** RemoteStreamOptions (names abbreviated): 15 contains every member, 0 only none. *)
Definition stream_options : members := [(name_none, 0); ([69], 1); ([87], 2); ([68], 4); ([86], 8); ([65], 15)]%N.
Example C45_example : NoDup (map snd stream_options)
  /\ flag_text true stream_options 0 = name_None
  /\ flag_names true stream_options 15 = [[69]; [87]; [68]; [86]; [65]]%N
  /\ flag_names true stream_options 6 = [[87]; [68]]%N.
Proof.
  split; [|vm_compute; auto]. cbn [map snd stream_options].
  repeat (apply NoDup_cons; [cbn [In]; lia|]). apply NoDup_nil.
Qed.
