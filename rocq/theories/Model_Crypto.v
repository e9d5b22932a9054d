(** Secure strings and the session key exchange: src/psrpcore/_crypto.py.  The block cipher and RSA themselves are
    parameters; everything the repository (or the PKCS#7 padding and CBC mode it asks for) builds around them is here. *)
From Verif Require Import Base Model_Strings Model_Text.

(** ** PKCS#7 padding to 16-byte blocks, _crypto.py:114,125-126,136-137 (cryptography's PKCS7(128)) *)
Definition pad (l : list N) : list N :=
  let k := 16 - length l mod 16 in l ++ repeat (N.of_nat k) k.
(** The whole input must be a positive number of blocks; the last byte names the padding length, all padding bytes are
    compared. *)
Definition unpad (l : list N) : result (list N) :=
  if (Nat.eqb (length l) 0 || negb (Nat.eqb (length l mod 16) 0))%bool then Err ValueError else
  let k := N.to_nat (last l 0%N) in
  if (Nat.leb 1 k && Nat.leb k 16 && forallb (fun b => (b =? N.of_nat k)%N) (skipn (length l - k) l))%bool
  then Ok (firstn (length l - k) l) else Err ValueError.

(** ** Blocks and CBC with a zero initialisation vector, _crypto.py:149 *)
Fixpoint blocks (n : nat) (l : list N) : list (list N) :=
  match n with O => [] | S k => firstn 16 l :: blocks k (skipn 16 l) end.
Definition xor_block (a b : list N) : list N := map (fun p => N.lxor (fst p) (snd p)) (combine a b).
Section Cipher.
  Variable E D : list N -> list N -> list N.    (* block cipher: key -> 16 bytes -> 16 bytes *)
  Fixpoint cbc_enc (key iv : list N) (bs : list (list N)) : list (list N) :=
    match bs with
    | [] => []
    | b :: t => let c := E key (xor_block b iv) in c :: cbc_enc key c t
    end.
  Fixpoint cbc_dec (key iv : list N) (bs : list (list N)) : list (list N) :=
    match bs with
    | [] => []
    | c :: t => xor_block (D key c) iv :: cbc_dec key c t
    end.
  Definition zero_iv : list N := repeat 0%N 16.
  (** encryptor.update + finalize: a partial block raises ValueError. *)
  Definition aes_encrypt (key l : list N) : result (list N) :=
    if Nat.eqb (length l mod 16) 0 then Ok (concat (cbc_enc key zero_iv (blocks (length l / 16) l))) else Err ValueError.
  Definition aes_decrypt (key l : list N) : result (list N) :=
    if Nat.eqb (length l mod 16) 0 then Ok (concat (cbc_dec key zero_iv (blocks (length l / 16) l))) else Err ValueError.

  (** str.encode("utf-16-le", errors="surrogatepass") and its inverse. *)
  Definition utf16le_encode (s : list N) : list N := flat_map (fun u => [u mod 256; u / 256]%N) (flat_map utf16 s).
  Fixpoint le_units (l : list N) : option (list N) :=
    match l with
    | [] => Some []
    | a :: r =>
      match r with
      | b :: t => match le_units t with Some us => Some ((a + 256 * b)%N :: us) | None => None end
      | [] => None
      end
    end.
  Definition utf16le_decode (l : list N) : result (list N) :=
    match le_units l with Some us => Ok (join_units us) | None => Err UnicodeError end.

  (** PSRemotingCrypto: the registered key, if any. *)
  Definition crypto := option (list N).
  (** register_key, _crypto.py:144-150: AES accepts 16, 24 and 32 byte keys. *)
  Definition register_key (c : crypto) (key : list N) : crypto * result unit :=
    if (Nat.eqb (length key) 16 || Nat.eqb (length key) 24 || Nat.eqb (length key) 32)%bool
    then (Some key, Ok tt) else (c, Err ValueError).
  (** encrypt, _crypto.py:130-142. *)
  Definition encrypt (c : crypto) (s : list N) : result (list N) :=
    match c with
    | None => Err MissingCipher
    | Some key => let! b := aes_encrypt key (pad (utf16le_encode s)) in Ok (b64_encode b)
    end.
  (** decrypt, _crypto.py:116-128. *)
  Definition decrypt (c : crypto) (s : list N) : result (list N) :=
    match c with
    | None => Err MissingCipher
    | Some key =>
      let! b := b64_decode s in
      let! p := aes_decrypt key b in
      let! u := unpad p in
      utf16le_decode u
    end.

  (** PSSecureString, _primitive.py:1198-1239: plain text without a cipher, cipher text with one. *)
  Inductive secure := SecurePlain (s : list N) | SecureEnc (s : list N).
  (** ToPSObjectForRemoting and the SS branch of serialize, _serializer.py:772-777: the element text. *)
  Definition serialize_secure (c : crypto) (v : secure) : result (list N) :=
    match v with SecurePlain s => encrypt c s | SecureEnc s => Ok s end.
  (** deserialize, _serializer.py:995. *)
  Definition deserialize_secure (text : list N) : secure := SecureEnc text.
  (** PSSecureString.decrypt, _primitive.py:1208-1218. *)
  Definition secure_decrypt (c : crypto) (v : secure) : result (list N) :=
    match v with SecurePlain s => Ok s | SecureEnc s => decrypt c s end.
End Cipher.

(** ** Key exchange *)
(** The loop of create_keypair, _crypto.py:35-40: little-endian bytes of the modulus without padding. *)
Fixpoint min_le (fuel : nat) (n : N) : list N :=
  match fuel with
  | O => []
  | S k => if (n =? 0)%N then [] else (N.land n 255) :: min_le k (N.shiftr n 8)
  end.
Definition modulus_bytes (n : N) : list N := min_le (N.size_nat n) n.
Definition public_header : list N :=
  [0x06; 0x02; 0; 0; 0; 0xa4; 0; 0; 0x52; 0x53; 0x41; 0x31; 0; 0x08; 0; 0]%N.
(** create_keypair, _crypto.py:32-45: the public key bytes for exponent e and modulus n. *)
Definition public_key_bytes (e n : N) : result (list N) :=
  let! be := pack_le 4 e in Ok (public_header ++ be ++ modulus_bytes n).
(** encrypt_session_key, _crypto.py:66-72: exponent and modulus. *)
Fixpoint sum_bytes (shift : N) (l : list N) : N :=
  match l with [] => 0%N | b :: t => (N.shiftl b (8 * shift) + sum_bytes (shift + 1) t)%N end.
Definition read_public_key (b : list N) : result (N * N) :=
  let! e := unpack_le 4 (slice 16 20 b) in Ok (e, sum_bytes 0 (skipn 20 b)).
Definition key_header : list N := [0x01; 0x02; 0; 0; 0x10; 0x66; 0; 0; 0; 0xa4; 0; 0]%N.

Section Rsa.
  Variable R P : Type.                                             (* randomness, private keys *)
  Variable rsa_encrypt : N * N -> R -> list N -> result (list N).  (* RSAPublicNumbers(e, n), PKCS1v15 *)
  Variable rsa_decrypt : P -> list N -> result (list N).
  (** _crypto.py:48-82 *)
  Definition encrypt_session_key (r : R) (exchange_key session_key : list N) : result (list N) :=
    let! pub := read_public_key exchange_key in
    let! c := rsa_encrypt pub r session_key in
    Ok (key_header ++ rev c).
  (** _crypto.py:85-106 *)
  Definition decrypt_session_key (p : P) (b : list N) : result (list N) := rsa_decrypt p (rev (skipn 12 b)).
  (** exchange_key, _client.py:185-186: the text put in the PublicKey message. *)
  Definition client_key_text (e n : N) : result (list N) := let! b := public_key_bytes e n in Ok (b64_encode b).
  (** _process_PublicKey, _server.py:397-401 with PublicKeyEvent.key, _events.py:894. *)
  Definition server_key_text (r : R) (text session_key : list N) : result (list N) :=
    let! b := b64_decode text in let! k := encrypt_session_key r b session_key in Ok (b64_encode k).
  (** _process_EncryptedSessionKey, _client.py:327-335 with EncryptedSessionKeyEvent.key, _events.py:430. *)
  Definition client_session_key (p : P) (text : list N) (c : crypto) : crypto * result unit :=
    match (let! b := b64_decode text in decrypt_session_key p b) with
    | Ok key => register_key c key
    | Err e => (c, Err e)
    end.
End Rsa.
