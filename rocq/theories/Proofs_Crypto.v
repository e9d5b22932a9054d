(** Padding, CBC, secure strings, key exchange. *)
From Verif Require Import Base BaseFacts Model_Strings Spec_Strings Proofs_Strings Model_Text Proofs_Text Model_Crypto.

(** ** Padding *)
Lemma last_app_repeat {A} (l : list A) k (x d : A) : last (l ++ repeat x (S k)) d = x.
Proof.
  replace (repeat x (S k)) with (repeat x k ++ [x]).
  - rewrite app_assoc. apply last_last.
  - induction k as [|k IH]; [reflexivity|]. cbn [repeat app] in *. now rewrite IH.
Qed.
Lemma pad_shape l : exists k, 1 <= k <= 16 /\ pad l = l ++ repeat (N.of_nat k) k /\ (length l + k) mod 16 = 0
  /\ length (pad l) = length l + k.
Proof.
  unfold pad. exists (16 - length l mod 16). pose proof (Nat.mod_upper_bound (length l) 16 ltac:(lia)).
  split; [lia|]. split; [reflexivity|]. split; [lia|]. rewrite app_length, repeat_length. reflexivity.
Qed.
Lemma forallb_repeat {A} (p : A -> bool) x k : p x = true -> forallb p (repeat x k) = true.
Proof. intros H. induction k; [reflexivity|]. cbn [repeat forallb]. now rewrite H. Qed.
Lemma unpad_pad l : unpad (pad l) = Ok l.
Proof.
  destruct (pad_shape l) as (k & Hk & E & Hm & HL). unfold unpad. rewrite HL, Hm. cbn [Nat.eqb negb orb].
  replace (Nat.eqb (length l + k) 0) with false by (symmetry; apply Nat.eqb_neq; lia). cbn [orb].
  rewrite E. destruct k as [|k]; [lia|]. rewrite last_app_repeat. rewrite Nat2N.id.
  replace (length l + S k - S k) with (length l) by lia.
  rewrite (app_skipn_len l _ (length l) eq_refl), (app_firstn_len l _ (length l) eq_refl).
  rewrite forallb_repeat by apply N.eqb_refl.
  replace (Nat.leb 1 (S k)) with true by reflexivity. replace (Nat.leb (S k) 16) with true by (symmetry; apply Nat.leb_le; lia).
  reflexivity.
Qed.
Lemma forallb_eq_repeat (x : N) l : forallb (fun b => (b =? x)%N) l = true -> l = repeat x (length l).
Proof.
  induction l as [|b l IH]; intros H; [reflexivity|]. cbn [forallb] in H. apply andb_prop in H. destruct H as [H1 H2].
  cbn [length repeat]. rewrite <- IH by exact H2. f_equal. now apply N.eqb_eq.
Qed.
Lemma unpad_inv l r : unpad l = Ok r -> l = pad r.
Proof.
  unfold unpad. destruct (Nat.eqb (length l) 0 || negb (Nat.eqb (length l mod 16) 0))%bool eqn:E1; [discriminate|].
  apply orb_false_elim in E1. destruct E1 as [E1 E2]. apply Nat.eqb_neq in E1. apply negb_false_iff, Nat.eqb_eq in E2.
  set (k := N.to_nat (last l 0%N)).
  destruct (Nat.leb 1 k && Nat.leb k 16 && forallb (fun b => (b =? N.of_nat k)%N) (skipn (length l - k) l))%bool eqn:E3; [|discriminate].
  apply andb_prop in E3. destruct E3 as [E3 E5]. apply andb_prop in E3. destruct E3 as [E3 E4].
  apply Nat.leb_le in E3, E4. intros H. injection H as <-.
  assert (16 <= length l) as H16 by lia.
  assert (length (firstn (length l - k) l) = length l - k) as HL by (rewrite firstn_length; lia).
  unfold pad. rewrite HL. replace (16 - (length l - k) mod 16) with k by lia.
  rewrite <- (firstn_skipn (length l - k) l) at 1. f_equal.
  apply forallb_eq_repeat in E5. rewrite E5 at 1. f_equal. rewrite skipn_length. lia.
Qed.

(** ** CBC *)
Lemma lxor_byte a b : (a < 256 -> b < 256 -> N.lxor a b < 256)%N.
Proof.
  intros Ha Hb. destruct (N.eq_dec (N.lxor a b) 0) as [->|Hn]; [lia|].
  change 256%N with (2 ^ 8)%N in *. apply N.log2_lt_pow2; [lia|].
  eapply N.le_lt_trans; [apply N.log2_lxor|]. apply N.max_lub_lt.
  - destruct (N.eq_dec a 0) as [->|]; [cbn; lia|]. apply N.log2_lt_pow2; lia.
  - destruct (N.eq_dec b 0) as [->|]; [cbn; lia|]. apply N.log2_lt_pow2; lia.
Qed.
Definition block (b : list N) : Prop := length b = 16 /\ bytes_ok b.
Lemma xor_block_ok a b : block a -> block b -> block (xor_block a b).
Proof.
  intros [Ha1 Ha2] [Hb1 Hb2]. unfold xor_block. split.
  - rewrite map_length, combine_length. lia.
  - unfold bytes_ok in *. rewrite Forall_forall in *. intros x Hx. apply in_map_iff in Hx. destruct Hx as ([p q] & <- & Hin).
    cbn [fst snd]. apply lxor_byte; [apply Ha2|apply Hb2]; [eapply in_combine_l|eapply in_combine_r]; eauto.
Qed.
Lemma xor_block_inv a : forall b, length a = length b -> xor_block (xor_block a b) b = a.
Proof.
  induction a as [|x a IH]; intros [|y b] H; try discriminate H; [reflexivity|].
  unfold xor_block in *. cbn [combine map fst snd]. cbn [length] in H. rewrite IH by lia.
  rewrite N.lxor_assoc, N.lxor_nilpotent, N.lxor_0_r. reflexivity.
Qed.
Section Cbc.
  Variable E D : list N -> list N -> list N.
  Variable key : list N.
  Hypothesis HE : forall b, block b -> block (E key b).
  Hypothesis HD : forall b, block b -> D key (E key b) = b.
  Lemma cbc_enc_ok bs : forall iv, block iv -> Forall block bs -> Forall block (cbc_enc E key iv bs).
  Proof using HE. clear HD.
    induction bs as [|b bs IH]; intros iv Hiv HF; [constructor|]. inversion HF; subst. cbn [cbc_enc].
    assert (block (E key (xor_block b iv))) by (apply HE; now apply xor_block_ok).
    constructor; [assumption|]. now apply IH.
  Qed.
  Lemma cbc_inv bs : forall iv, block iv -> Forall block bs -> cbc_dec D key iv (cbc_enc E key iv bs) = bs.
  Proof using HE HD.
    induction bs as [|b bs IH]; intros iv Hiv HF; [reflexivity|]. inversion HF; subst. cbn [cbc_enc cbc_dec].
    assert (block (xor_block b iv)) by now apply xor_block_ok.
    rewrite HD by assumption. rewrite xor_block_inv by (destruct H1, Hiv; lia).
    rewrite IH; [reflexivity|now apply HE|assumption].
  Qed.
  Lemma cbc_enc_length iv bs : length (cbc_enc E key iv bs) = length bs.
  Proof using. revert iv. induction bs as [|b bs IH]; intros iv; [reflexivity|]. cbn [cbc_enc length]. now rewrite IH. Qed.

  Lemma blocks_ok n : forall l, length l = 16 * n -> bytes_ok l -> Forall block (blocks n l) /\ length (blocks n l) = n /\ concat (blocks n l) = l.
  Proof using. clear E D key HE HD.
    induction n as [|n IH]; intros l HL Hb; cbn [blocks].
    - destruct l; [repeat split; constructor|simpl in HL; lia].
    - rewrite <- (firstn_skipn 16 l) in Hb. apply Forall_app in Hb. destruct Hb as [Hb1 Hb2].
      destruct (IH (skipn 16 l) ltac:(rewrite skipn_length; lia) Hb2) as (I1 & I2 & I3).
      split; [constructor; [split; [rewrite firstn_length; lia|exact Hb1]|exact I1]|].
      split; [cbn [length]; lia|]. cbn [concat]. rewrite I3. apply firstn_skipn.
  Qed.
  Lemma blocks_concat bs : Forall block bs -> blocks (length bs) (concat bs) = bs.
  Proof using. clear E D key HE HD.
    induction 1 as [|b bs [Hb1 Hb2] HF IH]; [reflexivity|]. cbn [length blocks concat].
    rewrite (app_firstn_len b _ 16 Hb1), (app_skipn_len b _ 16 Hb1), IH. reflexivity.
  Qed.
  Lemma concat_blocks_length bs : Forall block bs -> length (concat bs) = 16 * length bs.
  Proof using. clear E D key HE HD. induction 1 as [|b bs [Hb _] HF IH]; [reflexivity|]. cbn [concat length]. rewrite app_length, IH. lia. Qed.
  Lemma concat_blocks_bytes bs : Forall block bs -> bytes_ok (concat bs).
  Proof using. clear E D key HE HD. induction 1 as [|b bs [_ Hb] HF IH]; [constructor|]. cbn [concat]. apply Forall_app. split; assumption. Qed.
  Lemma zero_iv_block : block zero_iv.
  Proof using. clear E D key HE HD. split; [reflexivity|]. unfold zero_iv, bytes_ok. rewrite Forall_forall. intros x Hx. apply repeat_spec in Hx. lia. Qed.

  Lemma aes_roundtrip l : bytes_ok l -> length l mod 16 = 0 ->
    exists c, aes_encrypt E key l = Ok c /\ aes_decrypt D key c = Ok l /\ length c = length l /\ bytes_ok c.
  Proof using HE HD.
    intros Hb Hm. unfold aes_encrypt. rewrite Hm. cbn [Nat.eqb].
    destruct (blocks_ok (length l / 16) l ltac:(lia) Hb) as (B1 & B2 & B3).
    set (bs := blocks (length l / 16) l) in *.
    pose proof (cbc_enc_ok bs zero_iv zero_iv_block B1) as HC.
    eexists. split; [reflexivity|].
    assert (length (concat (cbc_enc E key zero_iv bs)) = length l) as HL
      by (rewrite concat_blocks_length, cbc_enc_length, B2 by exact HC; lia).
    split; [|split; [exact HL|now apply concat_blocks_bytes]].
    unfold aes_decrypt. rewrite HL, Hm. cbn [Nat.eqb].
    replace (length l / 16) with (length (cbc_enc E key zero_iv bs)) by (rewrite cbc_enc_length; exact B2).
    rewrite blocks_concat by exact HC. rewrite cbc_inv by (apply zero_iv_block || exact B1). now rewrite B3.
  Qed.
End Cbc.

(** ** UTF-16 *)
(** No high surrogate immediately followed by a low one: such a pair is indistinguishable from one character. *)
Definition no_split_pair (s : list N) : Prop :=
  forall pre h l post, s = pre ++ h :: l :: post -> ~ ((0xD800 <= h <= 0xDBFF)%N /\ (0xDC00 <= l <= 0xDFFF)%N).
Lemma le_units_bytes us : le_units (flat_map (fun u => [u mod 256; u / 256]%N) us) = Some us.
Proof.
  induction us as [|u us IH]; [reflexivity|]. cbn [flat_map app le_units]. rewrite IH. f_equal. f_equal. lia.
Qed.
Lemma utf16le_decode_encode s : utf16le_decode (utf16le_encode s) = Ok (join_units (flat_map utf16 s)).
Proof. unfold utf16le_decode, utf16le_encode. now rewrite le_units_bytes. Qed.
Lemma no_split_tail c s : no_split_pair (c :: s) -> no_split_pair s.
Proof. intros H pre h l post E. apply (H (c :: pre) h l post). now rewrite E. Qed.
Lemma join_utf16_pairs s : pystr s -> no_split_pair s -> join_units (flat_map utf16 s) = s.
Proof.
  induction 1 as [|c s Hc Hs IH]; intros Hn; [reflexivity|]. specialize (IH (no_split_tail _ _ Hn)). cbn [flat_map].
  unfold utf16 at 1. destruct (N.ltb_spec c 0x10000) as [Hl|Hl].
  - cbn [app]. destruct s as [|d s]; [reflexivity|].
    assert (is_high c && match flat_map utf16 (d :: s) with l :: _ => is_low l | [] => false end = false) as Hf.
    { destruct (is_high c) eqn:E; [|reflexivity]. cbn [andb flat_map]. specialize (Hn [] c d s eq_refl).
      unfold utf16, is_high, is_low, in_range in *. destruct (d <? 0x10000)%N eqn:Ed; cbn [app]; [lia|].
      inversion Hs; subst. lia. }
    destruct (flat_map utf16 (d :: s)) as [|l t] eqn:E.
    + rewrite <- IH. reflexivity.
    + cbn [join_units]. rewrite Hf. f_equal. exact IH.
  - cbn [app join_units].
    replace (is_high (0xD800 + (c - 0x10000) / 1024)) with true by (unfold is_high, in_range; lia).
    replace (is_low (0xDC00 + (c - 0x10000) mod 1024)) with true by (unfold is_low, in_range; lia).
    cbn [andb]. rewrite IH. f_equal. unfold join_pair. lia.
Qed.
Lemma utf16le_encode_bytes s : pystr s -> bytes_ok (utf16le_encode s).
Proof.
  intros H. unfold utf16le_encode, bytes_ok. rewrite Forall_forall. intros b Hb. apply in_flat_map in Hb.
  destruct Hb as (u & Hu & Hb). apply in_flat_map in Hu. destruct Hu as (c & Hc & Hu).
  assert (c < 0x110000)%N as Hcc. { unfold pystr in H. rewrite Forall_forall in H. now apply H. }
  pose proof (utf16_bound c Hcc) as HB. rewrite Forall_forall in HB. specialize (HB u Hu). cbn in Hb. lia.
Qed.
Lemma pad_bytes l : bytes_ok l -> bytes_ok (pad l).
Proof.
  intros H. destruct (pad_shape l) as (k & Hk & E & _). rewrite E. apply Forall_app. split; [exact H|].
  rewrite Forall_forall. intros x Hx. apply repeat_spec in Hx. lia.
Qed.

(** ** Secure strings *)
Definition good_cipher (E D : list N -> list N -> list N) (key : list N) : Prop :=
  (forall b, block b -> block (E key b)) /\ (forall b, block b -> D key (E key b) = b).

Lemma secure_roundtrip E D key s : good_cipher E D key -> pystr s ->
  exists t, encrypt E (Some key) s = Ok t /\ decrypt D (Some key) t = Ok (join_units (flat_map utf16 s))
  /\ exists c, t = b64_encode c /\ length c mod 16 = 0 /\ 0 < length c.
Proof.
  intros [H1 H2] Hs. unfold encrypt.
  set (p := pad (utf16le_encode s)).
  assert (bytes_ok p) as Hp by (apply pad_bytes, utf16le_encode_bytes, Hs).
  assert (length p mod 16 = 0 /\ 0 < length p) as [Hm H0].
  { destruct (pad_shape (utf16le_encode s)) as (k & Hk & _ & Hm & HL). unfold p. rewrite HL. lia. }
  destruct (aes_roundtrip E D key H1 H2 p Hp Hm) as (c & Ec & Dc & Lc & Bc).
  rewrite Ec. cbn [bind]. eexists. split; [reflexivity|]. split.
  - unfold decrypt. rewrite b64_roundtrip by exact Bc. cbn [bind]. rewrite Dc. cbn [bind]. unfold p. rewrite unpad_pad. cbn [bind].
    apply utf16le_decode_encode.
  - exists c. split; [reflexivity|]. lia.
Qed.

(** ** Key exchange *)
Lemma sum_bytes_val l : forall k, sum_bytes k l = (le_val l * 256 ^ k)%N.
Proof.
  induction l as [|b l IH]; intros k; cbn [sum_bytes le_val]; [lia|].
  rewrite IH, N.shiftl_mul_pow2. rewrite N.pow_add_r. change (256 ^ 1)%N with 256%N.
  replace (2 ^ (8 * k))%N with (256 ^ k)%N by (rewrite N.pow_mul_r; reflexivity). lia.
Qed.
Lemma min_le_val f : forall n, (n < 2 ^ N.of_nat f)%N -> le_val (min_le f n) = n.
Proof.
  induction f as [|f IH]; intros n H.
  - change (2 ^ N.of_nat 0)%N with 1%N in H. cbn [min_le le_val]. lia.
  - rewrite Nat2N.inj_succ, N.pow_succ_r' in H. cbn [min_le]. destruct (N.eqb_spec n 0) as [->|Hn]; [reflexivity|].
    cbn [le_val]. change 255%N with (N.ones 8). rewrite N.land_ones, N.shiftr_div_pow2. change (2 ^ 8)%N with 256%N.
    rewrite IH by lia. lia.
Qed.
Lemma min_le_bytes f : forall n, bytes_ok (min_le f n).
Proof.
  induction f as [|f IH]; intros n; [constructor|]. cbn [min_le]. destruct (n =? 0)%N; [constructor|].
  constructor; [|apply IH]. change 255%N with (N.ones 8). rewrite N.land_ones. change (2 ^ 8)%N with 256%N. lia.
Qed.
Lemma modulus_val n : le_val (modulus_bytes n) = n.
Proof.
  unfold modulus_bytes. apply min_le_val. destruct n as [|p]; [vm_compute; reflexivity|]. cbn [N.size_nat].
  induction p; cbn [Pos.size_nat]; rewrite ?Nat2N.inj_succ, ?N.pow_succ_r'; [lia|lia|vm_compute; reflexivity].
Qed.
Lemma le_val_zeros k : le_val (repeat 0%N k) = 0%N.
Proof. induction k as [|k IH]; [reflexivity|]. cbn [repeat le_val]. rewrite IH. lia. Qed.
Lemma le_val_app_zeros l k : le_val (l ++ repeat 0%N k) = le_val l.
Proof. induction l as [|b l IH]; cbn [app le_val]; [apply le_val_zeros|]. now rewrite IH. Qed.

Lemma public_key_roundtrip e n k : (e < 2 ^ 32)%N -> exists b, public_key_bytes e n = Ok b /\ bytes_ok b
  /\ read_public_key (b ++ repeat 0%N k) = Ok (e, n).
Proof.
  intros He. unfold public_key_bytes, pack_le. change (256 ^ N.of_nat 4)%N with (2 ^ 32)%N.
  replace (e <? 2 ^ 32)%N with true by (symmetry; apply N.ltb_lt; exact He). cbn [bind].
  eexists. split; [reflexivity|]. split.
  - apply Forall_app. split; [repeat (apply Forall_cons; [lia|]); constructor|]. apply Forall_app.
    split; [apply le_bytes_ok|apply min_le_bytes].
  - unfold read_public_key.
    assert (slice 16 20 ((public_header ++ le_bytes 4 e ++ modulus_bytes n) ++ repeat 0%N k) = le_bytes 4 e) as ->.
    { unfold slice. rewrite <- !app_assoc. rewrite (app_skipn_len public_header _ 16 eq_refl).
      apply app_firstn_len. apply le_bytes_length. }
    unfold unpack_le. rewrite le_bytes_length. cbn [Nat.eqb bind].
    rewrite le_val_le_bytes by (change (256 ^ N.of_nat 4)%N with (2 ^ 32)%N; exact He).
    assert (skipn 20 ((public_header ++ le_bytes 4 e ++ modulus_bytes n) ++ repeat 0%N k) = modulus_bytes n ++ repeat 0%N k) as ->.
    { rewrite <- !app_assoc. rewrite (app_assoc public_header).
      apply app_skipn_len. rewrite app_length, le_bytes_length. reflexivity. }
    rewrite sum_bytes_val. rewrite le_val_app_zeros, modulus_val. do 2 f_equal. rewrite N.pow_0_r. lia.
Qed.

Section KeyExchange.
  Variables R P : Type.
  Variable rsa_encrypt : N * N -> R -> list N -> result (list N).
  Variable rsa_decrypt : P -> list N -> result (list N).
  Lemma key_exchange e n p r key c :
    (e < 2 ^ 32)%N -> rsa_encrypt (e, n) r key = Ok c -> bytes_ok c -> rsa_decrypt p c = Ok key ->
    exists t1 t2, client_key_text e n = Ok t1 /\ server_key_text R rsa_encrypt r t1 key = Ok t2
      /\ forall c0, client_session_key P rsa_decrypt p t2 c0 = register_key c0 key.
  Proof.
    intros He Henc Hc Hdec. destruct (public_key_roundtrip e n 0 He) as (b & Hb & Hbok & Hr).
    cbn [repeat] in Hr. rewrite app_nil_r in Hr.
    unfold client_key_text. rewrite Hb. cbn [bind]. eexists _, _. split; [reflexivity|]. split.
    - unfold server_key_text. rewrite b64_roundtrip by exact Hbok. cbn [bind]. unfold encrypt_session_key.
      rewrite Hr. cbn [bind]. rewrite Henc. cbn [bind]. reflexivity.
    - intros c0. unfold client_session_key. rewrite b64_roundtrip.
      + cbn [bind]. unfold decrypt_session_key. rewrite (app_skipn_len key_header _ 12 eq_refl), rev_involutive, Hdec. reflexivity.
      + apply Forall_app. split; [repeat (apply Forall_cons; [lia|]); constructor|]. now apply Forall_rev.
  Qed.
End KeyExchange.
